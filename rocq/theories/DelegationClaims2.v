(** * Delegation: claims about single operations in reachable states. *)
From Verif Require Import Base BaseFacts Delegation F1Spec F1Refine F1Acct
  DelegationInv DelegationBank DelegationQueue DelegationProps DelegationRewards DelegationClaims.

Ltac Zify.zify_post_hook ::= Z.div_mod_to_equations.

(** States reachable from an empty module by the history [ops]. *)
Definition reached (ops : list dop) (st : dstate) : Prop :=
  exists bk p t, dparams_valid p = true /\ ops_ok (dinit bk p t) ops /\ st = drun (dinit bk p t) ops.

Definition outstanding (st : dstate) (s d : N) : coins := fst (f1_outstanding (getf st s) d).
(** What f1WithdrawRewards computes. *)
Definition payable (st : dstate) (s d : N) : coins := snd (f1_withdraw (getf st s) d).
Definition is_delegator (st : dstate) (s d : N) : Prop := is_Some (f_delegators (getf st s) !! d).

Lemma reached_good ops st : reached ops st ->
  exists b, Good st b /\ Env st /\ forall s, a_E (ga b s) <= slack ops s.
Proof.
  intros (bk & p & t & Hp & Hok & ->). exists (brun (dinit bk p t) ∅ ops).
  destruct (run_good bk p t ops Hp Hok) as [HG HE]. split; [done|]. split; [done|].
  intros s. by apply run_slack.
Qed.

Lemma drun_app st a b : drun st (a ++ b) = drun (drun st a) b.
Proof. revert st. induction a; intros st; simpl; [done|]. apply IHa. Qed.
Lemma ops_ok_app st a b : ops_ok st (a ++ b) <-> ops_ok st a /\ ops_ok (drun st a) b.
Proof. revert st. induction a as [|o a IH]; intros st; simpl; [tauto|]. rewrite IH. tauto. Qed.

(** ** C04 *)
Lemma reported_owed_1 l d x : LWeak l ->
  -1 <= amt (lg_reported l d) x - amt (lg_owed l d) x <= 1.
Proof.
  intros HW. unfold lg_reported, lg_owed. destruct (lg_dels l !! d) as [y|] eqn:E; [|rewrite amt_empty; lia].
  destruct (lw_dels _ HW d y E) as (Hb & Hp & Ha).
  pose proof (per_token_pos l (lw_tot _ HW) (lw_rew _ HW)) as HV.
  rewrite !amt_cmap by done. rewrite !amt_cadd, !amt_times, amt_cadd.
  pose proof (cpos_amt _ x Ha) as H1. pose proof (cpos_amt _ x Hp) as H2. pose proof (cpos_amt _ x HV) as H3.
  set (A := amt (l_acc y) x) in *. set (P := amt (l_pend y) x) in *. set (V := amt (per_token l) x) in *.
  destruct (dec_mul_spec P (l_bal y) H2 Hb) as [Q1 Q2]. destruct (dec_mul_spec V (l_bal y) H3 Hb) as [Q3 Q4].
  destruct (dec_mul_spec (P + V) (l_bal y) ltac:(lia) Hb) as [Q5 Q6].
  set (x1 := dec_mul P (l_bal y)) in *. set (x2 := dec_mul V (l_bal y)) in *.
  set (x3 := dec_mul (P + V) (l_bal y)) in *.
  assert (-1 <= x1 + x2 - x3 <= 1).
  { rewrite Z.mul_add_distr_r in Q6. unfold ONE in *. lia. }
  destruct (trunc_int_spec (A + x1 + x2) ltac:(lia)) as [T1 T2].
  destruct (trunc_int_spec (A + x3) ltac:(lia)) as [T3 T4].
  unfold ONE in *. lia.
Qed.

Lemma coins_eq c c' : cnz c -> cnz c' -> (forall x, amt c x = amt c' x) -> c = c'.
Proof. intros. by apply coins_ext. Qed.

Definition whole (l : ledger) (d : N) : Prop :=
  forall y, lg_dels l !! d = Some y -> exists n, l_bal y = dec_of_int n.

Lemma reported_owed_whole l d : whole l d -> lg_reported l d = lg_owed l d.
Proof.
  intros HWh. unfold lg_reported, lg_owed. destruct (lg_dels l !! d) as [y|] eqn:E; [|done].
  destruct (HWh y E) as [n Hn]. f_equal. apply coins_eq; [apply cnz_cadd|apply cnz_cadd|].
  intros x. rewrite !amt_cadd, !amt_times, amt_cadd, Hn, !dec_mul_int_r. lia.
Qed.

Lemma cmap_empty f : cmap f ∅ = ∅.
Proof. apply map_eq. intros k. rewrite lookup_empty. unfold cmap. by rewrite lookup_omap, lookup_empty. Qed.

Lemma reported_owed_dist l d : lg_rewards l = ∅ -> lg_reported l d = lg_owed l d.
Proof.
  intros Hr. unfold lg_reported, lg_owed. destruct (lg_dels l !! d) as [y|]; [|done]. f_equal.
  assert (per_token l = ∅) as Hv by (unfold per_token; rewrite Hr; destruct (lg_total l =? 0); [done|apply cmap_empty]).
  apply coins_eq; [apply cnz_cadd|apply cnz_cadd|].
  intros x. rewrite !amt_cadd, !amt_times, amt_cadd, Hv, amt_empty.
  rewrite (Z.add_0_r (amt (l_pend y) x)). assert (Hz : dec_mul 0 (l_bal y) = 0).
  { unfold dec_mul. rewrite Z.mul_0_l. apply (chop_round_exact 0). }
  rewrite Hz. lia.
Qed.

Lemma whole_dist l d : whole l d -> whole (lg_distribute l) d.
Proof.
  intros HW y. rewrite dels_dist. destruct (lg_dels l !! d) eqn:E; [|done]. intros [= <-]. simpl. by eapply HW.
Qed.
Lemma whole_withdraw l d d' : whole l d -> whole (fst (lg_withdraw l d')) d.
Proof.
  intros HW. unfold lg_withdraw. destruct (lg_dels l !! d') eqn:E; [|done]. cbn [fst].
  intros y. cbn [lg_dels]. destruct (decide (d' = d)) as [->|].
  - rewrite lookup_insert. intros [= <-]. simpl. eauto.
  - rewrite lookup_insert_ne by done. apply (whole_dist _ _ HW).
Qed.
Lemma whole_leave l d d' : whole l d -> whole (fst (lg_leave l d')) d.
Proof.
  intros HW. unfold lg_leave. destruct (lg_dels l !! d') eqn:E; [|done]. cbn [fst].
  intros y. cbn [lg_dels]. intros Hy. apply lookup_delete_Some in Hy as [_ Hy]. by apply (whole_dist _ _ HW).
Qed.
Lemma whole_join l d d' a : whole l d -> whole (lg_join l d' a) d.
Proof.
  intros HW. unfold lg_join. destruct (a =? 0); [done|]. intros y. cbn [lg_dels].
  destruct (decide (d' = d)) as [->|].
  - rewrite lookup_insert. intros [= <-]. simpl. eauto.
  - rewrite lookup_insert_ne by done. apply (whole_dist _ _ HW).
Qed.
Definition wholeb (b : book) s d := whole (gl b s) d.
Lemma wb_withdraw b s0 d0 s d : wholeb b s d -> wholeb (b_withdraw b s0 d0) s d.
Proof. unfold wholeb, b_withdraw. rewrite gl_insert. destruct (decide _) as [<-|]; [apply whole_withdraw|done]. Qed.
Lemma wb_leave b s0 d0 s d : wholeb b s d -> wholeb (b_leave b s0 d0) s d.
Proof. unfold wholeb, b_leave. rewrite gl_insert. destruct (decide _) as [<-|]; [apply whole_leave|done]. Qed.
Lemma wb_join b s0 d0 a s d : wholeb b s d -> wholeb (b_join b s0 d0 a) s d.
Proof. unfold wholeb, b_join. rewrite gl_insert. destruct (decide _) as [<-|]; [apply whole_join|done]. Qed.
Lemma wb_delegate b s0 d0 a s d : wholeb b s d -> wholeb (b_delegate b s0 d0 a) s d.
Proof. intros. unfold b_delegate. destruct (lg_dels _ !! _); eauto using wb_withdraw, wb_leave, wb_join. Qed.
Lemma wb_undelegate b s0 d0 a s d : wholeb b s d -> wholeb (b_undelegate b s0 d0 a) s d.
Proof. intros. unfold b_undelegate. destruct (_ >? a); eauto using wb_withdraw, wb_leave, wb_join. Qed.
Lemma wb_loop fuel st b low s d : wholeb b s d -> wholeb (b_loop fuel st b low) s d.
Proof.
  revert st b low. induction fuel as [|fuel IH]; intros st b low HW; simpl; [done|].
  destruct (ds_queue st !! _) as [e|]; [destruct (due st e); [|done]; by apply IH, wb_undelegate|].
  destruct (_ <? _)%N; [by apply IH|done].
Qed.
Lemma wb_step st b o s d : slashed_by o s = 0 -> wholeb b s d -> wholeb (b_step st b o) s d.
Proof.
  intros Hs HW. destruct o; cbn [b_step slashed_by] in *; cbv zeta; try done.
  - destruct (msg_delegate _ _ _ _ _); [by apply wb_delegate|done].
  - destruct (msg_redelegate _ _ _ _ _ _ _); [by apply wb_delegate, wb_undelegate|done].
  - destruct (msg_withdraw _ _ _); [by apply wb_withdraw|done].
  - destruct (payout_rewards _ _ _ _); [|done]. destruct (cempty c); [done|].
    unfold wholeb, b_reward. rewrite gl_insert. destruct (decide _) as [<-|]; done.
  - destruct (f_data _); [|done]. unfold wholeb, b_slash. rewrite gl_insert. destruct (decide _); done.
  - by apply wb_loop.
Qed.
Lemma wb_run st b ops s d : slashes ops s = 0 -> wholeb b s d -> wholeb (brun st b ops) s d.
Proof.
  revert st b. induction ops as [|o t IH]; intros st b Hs HW; simpl in *; [done|].
  pose proof (slashed_nonneg o s). pose proof (slashes_nonneg t s).
  apply IH; [lia|]. apply wb_step; [lia|done].
Qed.
Lemma brun_app st b o1 o2 : brun st b (o1 ++ o2) = brun (drun st o1) (brun st b o1) o2.
Proof. revert st b. induction o1; intros; simpl; [done|]. apply IHo1. Qed.

Lemma claim_query_bound ops st s d x : reached ops st ->
  -1 <= amt (outstanding st s d) x - amt (payable st s d) x <= 1.
Proof.
  intros HR. destruct (reached_good _ _ HR) as (b & HG & _).
  unfold outstanding, payable. rewrite (read_outstanding st b s d HG), (read_payable st b s d HG).
  apply reported_owed_1, HG.
Qed.

Lemma claim_query_unslashed ops st s d : reached ops st -> slashes ops s = 0 ->
  outstanding st s d = payable st s d.
Proof.
  intros (bk & p & t & Hp & Hok & ->) Hs. destruct (run_good bk p t ops Hp Hok) as [HG _].
  unfold outstanding, payable. rewrite (read_outstanding _ _ s d HG), (read_payable _ _ s d HG).
  apply reported_owed_whole. apply wb_run; [done|]. intros y. rewrite gl_empty. simpl. by rewrite lookup_empty.
Qed.

Lemma claim_query_since bk p t ops1 ops2 s d :
  dparams_valid p = true -> ops_ok (dinit bk p t) (ops1 ++ OWithdraw d s :: ops2) ->
  msg_withdraw (drun (dinit bk p t) ops1) d s <> None -> slashes ops2 s = 0 ->
  let st := drun (dinit bk p t) (ops1 ++ OWithdraw d s :: ops2) in
  outstanding st s d = payable st s d.
Proof.
  intros Hp Hok Hw Hs. cbv zeta. destruct (run_good bk p t _ Hp Hok) as [HG _].
  unfold outstanding, payable. rewrite (read_outstanding _ _ s d HG), (read_payable _ _ s d HG).
  apply reported_owed_whole. rewrite brun_app. cbn [brun].
  apply wb_run; [done|]. cbn [b_step].
  set (st1 := drun (dinit bk p t) ops1) in *. set (b := brun (dinit bk p t) ∅ ops1) in *.
  apply ops_ok_app in Hok as [Hok1 _]. destruct (run_good bk p t _ Hp Hok1) as [HG1 _].
  fold st1 b in HG1.
  assert (Hd : is_Some (f_delegators (getf st1 s) !! d)).
  { unfold msg_withdraw in Hw. destruct (bool_decide _) eqn:E; [by apply bool_decide_eq_true in E|done]. }
  destruct (msg_withdraw st1 d s); [|done].
  intros y. unfold b_withdraw. rewrite gl_insert, decide_True by done. unfold lg_withdraw.
  destruct (lg_dels (gl b s) !! d) as [z|] eqn:E.
  - cbn [fst lg_dels]. rewrite lookup_insert. intros [= <-]. simpl. eauto.
  - apply (Rel_lookup _ _ _ (proj1 (HG1 s))) in E. rewrite E in Hd. by destruct Hd.
Qed.

Lemma claim_after_withdraw ops st st' s d : reached ops st -> msg_withdraw st d s = Some st' ->
  outstanding st' s d = ∅ /\ delegation_of st' s d = delegation_of st s d /\
  delegation_amount st' s = delegation_amount st s /\
  forall x, bal (ds_bank st') (User d) x = bal (ds_bank st) (User d) x + amt (payable st s d) x.
Proof.
  intros HR Hw. destruct (reached_good _ _ HR) as (b & HG & HE & _).
  destruct (Good_step st b (OWithdraw d s) HG HE I) as [HG1 _].
  cbn [dstep b_step] in HG1. rewrite Hw in HG1. simpl in HG1.
  rewrite (read_of _ _ s d HG1), (read_of _ _ s d HG), (read_amount _ _ s HG1), (read_amount _ _ s HG).
  unfold outstanding. rewrite (read_outstanding _ _ s d HG1). cbn [fst].
  unfold msg_withdraw in Hw. destruct (negb (bool_decide _)) eqn:Ed; [done|].
  apply negb_false_iff, bool_decide_eq_true in Ed.
  destruct (lg_dels (gl b s) !! d) as [y|] eqn:Ey.
  2:{ apply (Rel_lookup _ _ _ (proj1 (HG s))) in Ey. rewrite Ey in Ed. by destruct Ed. }
  split; [|split; [|split]].
  - unfold b_withdraw. rewrite gl_insert, decide_True by done. unfold lg_withdraw. rewrite Ey. cbn [fst].
    rewrite reported_owed_dist by reflexivity. unfold lg_owed. cbn [lg_dels]. rewrite lookup_insert.
    cbn [l_acc l_pend l_bal]. unfold per_token. cbn [lg_rewards lg_total]. simpl lg_rewards.
    rewrite cmap_empty. unfold times. destruct (_ =? 0);
      rewrite (cadd_empty_r ∅), cmap_empty, (cadd_empty_r ∅), cmap_empty by done; done.
  - unfold b_withdraw. rewrite gl_insert, decide_True by done. apply balance_withdraw.
  - by rewrite total_b_withdraw.
  - unfold perform_withdrawal, payable in *. destruct (f1_withdraw (getf st s) d) as [f r].
    rewrite bool_decide_eq_true_2 in Hw by done. unfold pay_user in Hw. simpl in Hw.
    destruct (send _ _ _ _) as [bk'|] eqn:Es; [|done]. injection Hw as <-. simpl.
    apply send_Some in Es as [_ Hb]. intros x. rewrite Hb. rewrite decide_False by done. rewrite decide_True by done. lia.
Qed.

(** C02, second half: withdrawals are always paid. *)
Lemma claim_withdraw_paid bk p t ops s d :
  dparams_valid p = true -> ops_ok (dinit bk p t) ops ->
  (forall x, 0 <= bal bk MDelegation x) ->
  (forall s, slack ops s < ONE) -> (forall s x, drift (dinit bk p t) ops s x + 1 < 2 * ONE) ->
  is_delegator (drun (dinit bk p t) ops) s d ->
  exists st', msg_withdraw (drun (dinit bk p t) ops) d s = Some st'.
Proof.
  intros Hp Hok Hbk H1 H2 Hd.
  assert (HS : safe (brun (dinit bk p t) ∅ ops)).
  { apply run_safe; try done. intros s' x. specialize (H2 s' x). lia. }
  pose proof (Good2_run _ _ ops _ (Good2_init bk p t Hp) Hbk Hok HS) as HG2.
  assert (HSw : safe (b_withdraw (brun (dinit bk p t) ∅ ops) s d)).
  { split; [intros s'; rewrite E_withdraw; apply HS|]. intros s' x.
    pose proof (run_Phi bk p t ops Hp Hok s' x) as HP. specialize (H2 s' x).
    destruct (run_good bk p t ops Hp Hok) as [HG _]. pose proof (run_Enn bk p t ops) as HEn.
    set (b := brun (dinit bk p t) ∅ ops) in *. unfold b_withdraw. rewrite ga_insert.
    unfold Phi, dc in HP.
    pose proof (dist_cost_nonneg' (gl b s') (a_E (ga b s')) x (proj1 (proj2 (HG s'))) (HEn s')).
    destruct (decide (s = s')) as [<-|]; [|unfold ONE in *; lia].
    unfold a_withdraw. destruct (lg_dels (gl b s) !! d); simpl; unfold ONE in *; lia. }
  destruct HG2 as [HG HE HF Hh].
  destruct (Fin_withdrawal _ _ s d _ HG HSw HF) as [Hpd _].
  { intros x. pose proof (donations_nonneg _ _ x Hok). specialize (Hbk x). unfold cplus. lia. }
  unfold msg_withdraw. rewrite bool_decide_eq_true_2 by done. simpl.
  destruct (perform_withdrawal _ s d) as [st2 r]. cbn [snd] in Hpd. subst r. eauto.
Qed.
