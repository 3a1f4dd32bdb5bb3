(** * Delegation: isolation, unbonding, redelegation and slashing claims. *)
From Verif Require Import Base BaseFacts Delegation F1Spec F1Refine F1Acct
  DelegationInv DelegationBank DelegationQueue DelegationProps DelegationRewards
  DelegationClaims DelegationClaims2.
From Verif Require ModTime.

Ltac Zify.zify_post_hook ::= Z.div_mod_to_equations.

(** ** C06: isolation *)
Definition touch (b b' : book) (s : N) : Prop := gl b' s = gl b s \/ lg_rewards (gl b' s) = ∅.
Lemma touch_trans b1 b2 b3 s : touch b1 b2 s -> touch b2 b3 s -> touch b1 b3 s.
Proof. unfold touch. intros [H1|H1] [H2|H2]; rewrite ?H2, ?H1; auto. Qed.
Lemma tc_withdraw b s d s' : touch b (b_withdraw b s d) s'.
Proof.
  unfold touch, b_withdraw. rewrite gl_insert. destruct (decide (s = s')) as [<-|]; [|by left].
  unfold lg_withdraw. destruct (lg_dels (gl b s) !! d); [by right|by left].
Qed.
Lemma tc_leave b s d s' : touch b (b_leave b s d) s'.
Proof.
  unfold touch, b_leave. rewrite gl_insert. destruct (decide (s = s')) as [<-|]; [|by left].
  unfold lg_leave. destruct (lg_dels (gl b s) !! d); [by right|by left].
Qed.
Lemma tc_join b s d a s' : touch b (b_join b s d a) s'.
Proof.
  unfold touch, b_join. rewrite gl_insert. destruct (decide (s = s')) as [<-|]; [|by left].
  unfold lg_join. destruct (a =? 0); [by left|by right].
Qed.
Lemma tc_delegate b s d a s' : touch b (b_delegate b s d a) s'.
Proof.
  unfold b_delegate. destruct (lg_dels (gl b s) !! d); [|apply tc_join].
  eapply touch_trans; [apply tc_withdraw|]. eapply touch_trans; [apply tc_leave|apply tc_join].
Qed.
Lemma tc_undelegate b s d a s' : touch b (b_undelegate b s d a) s'.
Proof.
  unfold b_undelegate. eapply touch_trans; [apply tc_withdraw|].
  destruct (_ >? a); [|apply tc_leave]. eapply touch_trans; [apply tc_leave|apply tc_join].
Qed.
Lemma tc_loop fuel st b low s : touch b (b_loop fuel st b low) s.
Proof.
  revert st b low. induction fuel as [|fuel IH]; intros st b low; simpl; [by left|].
  destruct (ds_queue st !! _) as [e|].
  - destruct (due st e); [|by left]. eapply touch_trans; [apply tc_undelegate|apply IH].
  - destruct (_ <? _)%N; [apply IH|by left].
Qed.

(** The account whose request the operation is. *)
Definition actor (o : dop) : option N :=
  match o with
  | ODelegate _ d _ _ | OUndelegate d _ _ | ORedelegate _ _ d _ _ _ | OWithdraw d _ => Some d
  | _ => None
  end.

(** Requests of [d] at [s] completed by the operation. *)
Definition completes (st : dstate) (o : dop) (s d : N) : Prop :=
  exists e, In e (out_entries (paid_by st o)) /\ u_staker e = s /\ u_delegator e = d.

Lemma same_refl b s d : same_for b b s d.
Proof. by split. Qed.

Lemma same_loop fuel st b low s d :
  let '(_, _, out) := process_loop fuel st low in
  (forall e, In e (out_entries out) -> u_staker e <> s \/ u_delegator e <> d) ->
  same_for b (b_loop fuel st b low) s d.
Proof.
  revert st b low. induction fuel as [|fuel IH]; intros st b low; simpl; [intros; apply same_refl|].
  destruct (ds_queue st !! (low + 1)%N) as [e|] eqn:Ee.
  - destruct (due st e); [|intros; apply same_refl].
    destruct (process_one st low e) as [st3 paid] eqn:E1. cbn [fst].
    specialize (IH st3 (b_undelegate b (u_staker e) (u_delegator e) (u_amount e)) (low + 1)%N).
    destruct (process_loop fuel st3 (low + 1)%N) as [[st4 low'] out]. intros H.
    eapply same_trans; [|apply IH; intros e' He'; apply H; by right].
    apply same_undelegate. destruct (H e); [by left|by right|by left].
  - destruct (low <? ds_high st)%N; [by apply IH|intros; apply same_refl].
Qed.

Lemma same_step st b o s d :
  actor o <> Some d -> ~ completes st o s d ->
  (forall c p, o <> OPayout s c p) -> (forall ty, o <> OSlash s ty) ->
  same_for b (b_step st b o) s d /\ touch b (b_step st b o) s.
Proof.
  intros Ha Hc Hp Hs.
  assert (H0 : same_for b b s d /\ touch b b s) by (split; [apply same_refl|by left]).
  destruct o as [ex d0 s0 a|d0 s0 a|ex act d0 from to a|d0 s0|s0 c payer|s0 ty|dt|p|bk];
    cbn [b_step actor] in *; cbv zeta; try done.
  - destruct (msg_delegate _ _ _ _ _); [|done]. split; [|apply tc_delegate].
    apply same_delegate. left. congruence.
  - destruct (msg_redelegate _ _ _ _ _ _ _); [|done].
    split; [|eapply touch_trans; [apply tc_undelegate|apply tc_delegate]].
    eapply same_trans; [apply (same_undelegate b from d0 a)|apply same_delegate]; left; congruence.
  - destruct (msg_withdraw _ _ _); [|done]. split; [|apply tc_withdraw].
    apply same_withdraw. left. congruence.
  - destruct (payout_rewards _ _ _ _); [|done]. destruct (cempty c); [done|].
    assert (s0 <> s) by (intros ->; by eapply Hp).
    unfold same_for, touch, b_reward. rewrite !gl_insert, decide_False by done. split; [done|by left].
  - destruct (f_data _); [|done]. assert (s0 <> s) by (intros ->; by eapply Hs).
    unfold same_for, touch, b_slash. rewrite !gl_insert, decide_False by done. split; [done|by left].
  - split; [|apply tc_loop]. set (st1 := with_time st (ds_time st + dt)) in *.
    pose proof (same_loop (queue_fuel st1) st1 b (ds_low st1) s d) as HL.
    unfold completes, paid_by in Hc. fold st1 in Hc. unfold process_queue in Hc.
    destruct (process_loop _ _ _) as [[st2 low] out]. apply HL.
    intros e He. destruct (decide (u_staker e = s)); [|by left]. right. intros He2. apply Hc. by exists e.
Qed.

Lemma claim_isolated ops st o s d :
  reached ops st -> dop_ok st o ->
  actor o <> Some d -> ~ completes st o s d ->
  (forall c p, o <> OPayout s c p) -> (forall ty, o <> OSlash s ty) ->
  delegation_of (dstep st o) s d = delegation_of st s d /\
  payable (dstep st o) s d = payable st s d /\
  forall x, -1 <= amt (outstanding (dstep st o) s d) x - amt (outstanding st s d) x <= 1.
Proof.
  intros HR Hok Ha Hc Hp Hs. destruct (reached_good _ _ HR) as (b & HG & HE & _).
  destruct (Good_step st b o HG HE Hok) as [HG1 _].
  destruct (same_step st b o s d Ha Hc Hp Hs) as [[H1 H2] Ht].
  unfold payable, outstanding.
  rewrite (read_of _ _ s d HG1), (read_of _ _ s d HG), (read_payable _ _ s d HG1), (read_payable _ _ s d HG).
  rewrite (read_outstanding _ _ s d HG1), (read_outstanding _ _ s d HG). cbn [fst].
  split; [done|]. split; [done|]. intros x. destruct Ht as [Ht|Ht].
  - rewrite Ht. lia.
  - rewrite (reported_owed_dist _ _ Ht), H2.
    pose proof (reported_owed_1 (gl b s) d x (proj1 (proj2 (HG s)))). lia.
Qed.

(** ** C07: unbonding *)
(** Accepted requests, in order. *)
Fixpoint requests (st : dstate) (ops : list dop) : list uentry :=
  match ops with
  | [] => []
  | o :: t =>
      match o with
      | OUndelegate d s a =>
          match msg_undelegate st d s a with Some _ => [mkU s d a (ds_time st)] | None => [] end
      | _ => []
      end ++ requests (dstep st o) t
  end.
Fixpoint completed (st : dstate) (ops : list dop) : list (N * uentry * Z) :=
  match ops with [] => [] | o :: t => paid_by st o ++ completed (dstep st o) t end.

(** Pending requests as stored, in index order. *)
Definition pending (st : dstate) : list uentry :=
  omap (fun i => ds_queue st !! (ds_low st + 1 + N.of_nat i)%N) (seq 0 (N.to_nat (ds_high st - ds_low st))).

Lemma omap_seq_lookup {A} (f : nat -> option A) (l : list A) k :
  (forall i e, l !! i = Some e -> f (k + i)%nat = Some e) -> omap f (seq k (length l)) = l.
Proof.
  revert k. induction l as [|e l IH]; intros k H; simpl; [done|].
  pose proof (H 0%nat e eq_refl) as H0. rewrite Nat.add_0_r in H0. rewrite H0. f_equal.
  apply IH. intros i x Hi. rewrite Nat.add_succ_l, <- Nat.add_succ_r. by apply H.
Qed.

Lemma pending_QRel st l : QRel st l -> pending st = l.
Proof.
  intros HQ. unfold pending. pose proof (q_len _ _ HQ) as Hl.
  replace (N.to_nat (ds_high st - ds_low st)) with (length l) by lia.
  apply omap_seq_lookup. intros i e Hi. simpl. by apply (q_in _ _ HQ).
Qed.

Lemma out_index_app a b : out_index (a ++ b) = out_index a ++ out_index b.
Proof. unfold out_index. by rewrite map_app. Qed.
Lemma out_entries_app a b : out_entries (a ++ b) = out_entries a ++ out_entries b.
Proof. unfold out_entries. by rewrite map_app. Qed.

Lemma fifo_requests st l o : QRel st l ->
  snd (fifo_step st l o) ++ fst (fifo_step st l o) = l ++ requests st [o].
Proof.
  intros HQ. destruct o; cbn [fifo_step requests]; rewrite ?app_nil_r; try done.
  - unfold msg_undelegate. destruct (amount >? _); simpl; by rewrite ?app_nil_r.
  - destruct (split_due _ _ l) as [a r] eqn:E. apply split_due_app in E as ->. done.
Qed.

Lemma requests_cons st o t : requests st (o :: t) = requests st [o] ++ requests (dstep st o) t.
Proof. simpl. by rewrite app_nil_r. Qed.

Lemma paid_index st l o : QRel st l -> dop_ok st o ->
  out_index (paid_by st o) = map (fun i => ds_low st + 1 + N.of_nat i)%N (seq 0 (length (paid_by st o))) /\
  ds_low (dstep st o) = (ds_low st + N.of_nat (length (paid_by st o)))%N.
Proof.
  intros HQ Hok. destruct (QRel_step st l o HQ Hok) as [HQ1 HO].
  destruct o; cbn [paid_by dstep] in *; try (split; [done|]; simpl; rewrite N.add_0_r).
  - unfold msg_delegate. destruct (negb staker_exists); [done|].
    destruct (delegation_frame st s d amount) as (A & B & _). destruct (send _ _ _ _); [|done]. exact B.
  - unfold msg_undelegate. by destruct (_ >? _).
  - cbn [fifo_step fst] in HQ1. unfold msg_redelegate. destruct (negb (bool_decide _)); [done|]. destruct (negb target_exists); [done|].
    destruct (negb target_active); [done|]. destruct (amount >? _); [done|].
    destruct (consume_spell _ _ _) as [l0|]; [|done].
    set (st1 := with_cool _ _).
    pose proof (undelegation_frame st1 from d amount) as HF. cbv zeta in HF. destruct HF as (_ & B & _).
    destruct (perform_undelegation st1 from d amount) as [st2 actual]. cbn [fst] in B.
    destruct (negb _); [done|].
    destruct (delegation_frame st2 to d amount) as (_ & B2 & _).
    change (ds_low (perform_delegation st2 to d amount) = ds_low st). rewrite B2, B. done.
  - unfold msg_withdraw. destruct (negb (bool_decide _)); [done|].
    pose proof (withdrawal_frame st s d) as HW. cbv zeta in HW. destruct HW as (_ & B & _).
    destruct (perform_withdrawal st s d) as [st1 [r|]]; [exact B|done].
  - unfold payout_rewards. destruct (cempty c); [done|]. destruct (f_data _); [|done]. by destruct (send _ _ _ _).
  - unfold slash_delegators. destruct (f_data (getf st s)); [|done]. destruct (f1_slash _ _) as [f sl]. simpl.
    destruct (send _ _ _ _); done.
  - set (st1 := with_time st (ds_time st + dt)) in *. simpl in Hok.
    assert (HQ2 : QRel st1 l) by (eapply QRel_frame; [..|exact HQ]; simpl; try done; lia).
    pose proof (process_queue_spec st1 l HQ2) as HP.
    destruct (process_queue st1) as [st2 out]. cbn [snd fst] in *.
    destruct (split_due _ _ l) as [a r]. destruct HP as (Ho & _ & Hi & Hl & _).
    assert (length a = length out) as Hlen by (rewrite <- Ho; unfold out_entries; by rewrite map_length).
    rewrite Hi, Hl, Hlen. done.
  - done.
  - done.
Qed.

Lemma seq_map_shift k n m :
  map (fun i => k + 1 + N.of_nat i)%N (seq 0 (n + m))
  = map (fun i => k + 1 + N.of_nat i)%N (seq 0 n) ++ map (fun i => k + N.of_nat n + 1 + N.of_nat i)%N (seq 0 m).
Proof.
  rewrite seq_app, map_app. f_equal. simpl. rewrite <- (Nat.add_0_r n) at 1.
  rewrite <- (fmap_add_seq n 0 m). rewrite <- list_fmap_compose. apply list_fmap_ext. intros i x _. simpl. lia.
Qed.

Lemma queue_run st l ops : QRel st l -> ops_ok st ops ->
  QRel (drun st ops) (pending (drun st ops)) /\
  out_entries (completed st ops) ++ pending (drun st ops) = l ++ requests st ops /\
  out_index (completed st ops)
  = map (fun i => ds_low st + 1 + N.of_nat i)%N (seq 0 (length (completed st ops))).
Proof.
  revert st l. induction ops as [|o t IH]; intros st l HQ Hok; simpl drun in *.
  - rewrite (pending_QRel _ _ HQ). simpl. by rewrite app_nil_r.
  - destruct Hok as [Ho Hok]. destruct (QRel_step st l o HQ Ho) as [HQ1 HO].
    destruct (IH _ _ HQ1 Hok) as (A & B & C). split; [done|]. split.
    + simpl completed. rewrite out_entries_app, HO, <- app_assoc, B, app_assoc.
      rewrite (fifo_requests st l o HQ), (requests_cons st o t). by rewrite <- app_assoc.
    + destruct (paid_index st l o HQ Ho) as [D E].
      simpl completed. rewrite out_index_app, D, C, E, app_length. by rewrite seq_map_shift.
Qed.

(** Requests are completed in order, each once, none lost. *)
Lemma claim_fifo bk p t ops :
  ops_ok (dinit bk p t) ops ->
  let st := drun (dinit bk p t) ops in
  out_entries (completed (dinit bk p t) ops) ++ pending st = requests (dinit bk p t) ops /\
  out_index (completed (dinit bk p t) ops)
  = map (fun i => 1 + N.of_nat i)%N (seq 0 (length (completed (dinit bk p t) ops))) /\
  (forall k, is_Some (ds_queue st !! k) <-> (ds_low st < k <= ds_high st)%N).
Proof.
  intros Hok. cbv zeta. destruct (queue_run _ _ ops (QRel_init bk p t) Hok) as (A & B & C).
  split; [done|]. split; [done|]. intros k. split; [apply (q_out _ _ A)|].
  intros Hk. pose proof (q_len _ _ A) as Hl.
  destruct (lookup_lt_is_Some_2 (pending (drun (dinit bk p t) ops))
    (N.to_nat (k - ds_low (drun (dinit bk p t) ops) - 1))%nat ltac:(lia)) as [e He].
  pose proof (q_in _ _ A _ _ He) as Hq. replace (_ + 1 + _)%N with k in Hq by lia. eauto.
Qed.


(** Amounts: every completed request pays the smaller of the requested amount
    and the delegation held at that moment, and lowers the delegation by it. *)
Fixpoint pays_min (st : dstate) (out : list (N * uentry * Z)) : Prop :=
  match out with
  | [] => True
  | (k, e, paid) :: t =>
      let st' := fst (process_one st (k - 1) e) in
      let s := u_staker e in let d := u_delegator e in
      paid = Z.min (u_amount e) (delegation_of st s d) /\
      delegation_of st' s d = delegation_of st s d - paid /\
      (ds_halt st' = false -> forall x,
         bal (ds_bank st') (User d) x
         = bal (ds_bank st) (User d) x + amt (wd st s d) x + (if (x =? KYVE)%N then paid else 0)) /\
      pays_min st' t
  end.

Lemma process_one_pay st low e :
  ds_halt (fst (process_one st low e)) = false -> forall x,
  bal (ds_bank (fst (process_one st low e))) (User (u_delegator e)) x
  = bal (ds_bank st) (User (u_delegator e)) x + amt (wd st (u_staker e) (u_delegator e)) x
    + (if (x =? KYVE)%N then snd (process_one st low e) else 0).
Proof.
  unfold process_one. set (s := u_staker e). set (d := u_delegator e).
  pose proof (bank_of_undelegation st s d (u_amount e)) as HB.
  pose proof (halt_of_undelegation st s d (u_amount e)) as HH.
  destruct (perform_undelegation st s d (u_amount e)) as [st1 paid]. cbn [fst snd] in *.
  destruct (pay_user st1 d (coin KYVE paid)) as [st2|] eqn:Ep; [|simpl; by rewrite orb_true_r].
  unfold pay_user in Ep. destruct (send (ds_bank st1) _ _ _) as [bk2|] eqn:Es; [|done]. injection Ep as <-.
  simpl. rewrite HH. intros Hh x. apply orb_false_iff in Hh as [_ Hf].
  apply send_Some in Es as [_ Hb]. rewrite Hb. rewrite decide_False by done. rewrite decide_True by done.
  rewrite amt_coin_kyve, HB.
  rewrite <- (wd_ext st (remove_index st s) s d eq_refl eq_refl). unfold wd.
  unfold perform_withdrawal in *. destruct (f1_withdraw _ d) as [f r]. unfold pay_user in *.
  set (stx := if bool_decide _ then _ else _) in *.
  assert (ds_bank stx = ds_bank st) as Hbx by (unfold stx; by destruct (bool_decide _)).
  destruct (send (ds_bank stx) MDelegation (User d) r) as [bk1|] eqn:Es1; [|done]. cbn [fst snd with_bank ds_bank].
  apply send_Some in Es1 as [_ Hb1]. rewrite Hb1, Hbx. rewrite decide_False by done. rewrite decide_True by done.
  unfold kyve_only. lia.
Qed.

Lemma pays_min_loop fuel st b low : Good st b -> queue_ok st ->
  pays_min st (snd (process_loop fuel st low)).
Proof.
  revert st b low. induction fuel as [|fuel IH]; intros st b low HG HQ; simpl; [done|].
  destruct (ds_queue st !! (low + 1)%N) as [e|] eqn:Ee.
  - destruct (due st e); [|done].
    destruct (Good_process_one st b low e HG (HQ _ _ Ee)) as [HG1 Hp].
    pose proof (process_one_frame st low e) as HF. cbv zeta in HF. destruct HF as (Hq & _).
    assert (HQ1 : queue_ok (fst (process_one st low e))).
    { intros k e' Hk. rewrite Hq in Hk. apply lookup_delete_Some in Hk as [_ Hk]. by eapply HQ. }
    pose proof (process_one_pay st low e) as Hpay.
    specialize (IH _ _ (low + 1)%N HG1 HQ1).
    destruct (process_one st low e) as [st3 paid] eqn:E1. cbn [fst snd] in *.
    destruct (process_loop fuel st3 (low + 1)%N) as [[st4 low'] out]. simpl.
    replace (low + 1 - 1)%N with low by lia. rewrite E1. cbn [fst].
    rewrite (read_of _ _ _ _ HG1), (read_of _ _ _ _ HG), balance_undelegate, <- Hp.
    split; [done|]. split; [done|]. split; [|exact IH]. exact Hpay.
  - destruct (low <? ds_high st)%N; [by eapply IH|done].
Qed.

Lemma claim_paid_amount ops st dt : reached ops st ->
  pays_min (with_time st (ds_time st + dt)) (paid_by st (OBeginBlock dt)).
Proof.
  intros HR. destruct (reached_good _ _ HR) as (b & HG & [HQ _] & _). cbn [paid_by].
  set (st1 := with_time st (ds_time st + dt)).
  assert (HG1 : Good st1 b) by (by eapply Good_same_f1; [|exact HG]).
  pose proof (pays_min_loop (queue_fuel st1) st1 b (ds_low st1) HG1 HQ) as HL.
  unfold process_queue. by destruct (process_loop _ _ _) as [[st2 low] out].
Qed.

(** ** C08: redelegation limit *)
Definition no_params (o : dop) : Prop := match o with OParams _ => False | _ => True end.
Definition between (lo hi : Z) (ts : list Z) : list Z := List.filter (fun t => (lo <=? t) && (t <=? hi)) ts.

Definition limit_ok (w m : Z) (ts : list Z) : Prop :=
  forall pre x post, ts = pre ++ x :: post ->
    Z.of_nat (length (recent x w pre)) < m /\ ~ In x pre.

Lemma params_kept st o : no_params o -> ds_params (dstep st o) = ds_params st.
Proof.
  intros Hn. destruct o; cbn [dstep] in *; try done.
  - unfold msg_delegate. destruct (negb staker_exists); [done|].
    destruct (delegation_frame st s d amount) as (_ & _ & _ & P & _). by destruct (send _ _ _ _).
  - unfold msg_undelegate. by destruct (_ >? _).
  - unfold msg_redelegate. destruct (negb (bool_decide _)); [done|]. destruct (negb target_exists); [done|].
    destruct (negb target_active); [done|]. destruct (amount >? _); [done|].
    destruct (consume_spell _ _ _) as [l0|]; [|done]. set (st1 := with_cool _ _).
    pose proof (undelegation_frame st1 from d amount) as HF. cbv zeta in HF. destruct HF as (_ & _ & _ & P & _).
    destruct (perform_undelegation st1 from d amount) as [st2 actual]. cbn [fst] in P.
    destruct (negb _); [done|].
    destruct (delegation_frame st2 to d amount) as (_ & _ & _ & P2 & _).
    change (ds_params (perform_delegation st2 to d amount) = ds_params st). rewrite P2, P. done.
  - unfold msg_withdraw. destruct (negb (bool_decide _)); [done|].
    pose proof (withdrawal_frame st s d) as HW. cbv zeta in HW. destruct HW as (_ & _ & _ & P & _).
    destruct (perform_withdrawal st s d) as [st1 [r|]]; done.
  - unfold payout_rewards. destruct (cempty c); [done|]. destruct (f_data _); [|done]. by destruct (send _ _ _ _).
  - unfold slash_delegators. destruct (f_data (getf st s)); [|done]. destruct (f1_slash _ _) as [f sl]. simpl.
    destruct (send _ _ _ _); done.
  - unfold process_queue. set (st1 := with_time st (ds_time st + dt)).
    assert (forall fuel st low, ds_params (fst (fst (process_loop fuel st low))) = ds_params st) as HL.
    { induction fuel as [|fuel IH]; intros st' low'; simpl; [done|]. destruct (ds_queue st' !! _) as [e|].
      - destruct (due st' e); [|done]. pose proof (process_one_frame st' low' e) as HF. cbv zeta in HF.
        destruct (process_one st' low' e) as [st3 pd]. cbn [fst] in HF. destruct HF as (_ & _ & _ & P & _).
        specialize (IH st3 (low' + 1)%N). destruct (process_loop fuel st3 _) as [[st4 ?] ?]. simpl in *. congruence.
      - destruct (_ <? _)%N; [apply IH|done]. }
    specialize (HL (queue_fuel st1) st1 (ds_low st1)). destruct (process_loop _ _ _) as [[st2 ?] ?]. exact HL.
Qed.

Lemma recent_app now w a b : recent now w (a ++ b) = recent now w a ++ recent now w b.
Proof. unfold recent. apply List.filter_app. Qed.

Lemma app_last_inv {A} (ts : list A) x pre y post :
  ts ++ [x] = pre ++ y :: post -> (post = [] /\ pre = ts /\ y = x) \/ exists post', post = post' ++ [x] /\ ts = pre ++ y :: post'.
Proof.
  destruct post as [|z post] using rev_ind; intros H.
  - left. apply app_inj_tail in H as [-> ->]. done.
  - right. exists post. rewrite app_comm_cons, app_assoc in H. apply app_inj_tail in H as [-> ->]. done.
Qed.

Lemma limit_snoc w m ts x : limit_ok w m ts ->
  Z.of_nat (length (recent x w ts)) < m -> ~ In x ts -> limit_ok w m (ts ++ [x]).
Proof.
  intros HL H1 H2 pre y post Heq. apply app_last_inv in Heq as [(-> & -> & ->)|(post' & -> & ->)]; [done|].
  by apply (HL pre y post').
Qed.

Lemma redel_run st ops who ts :
  dparams_valid (ds_params st) = true -> ops_ok st ops -> Forall no_params ops ->
  0 <= i64 (p_cooldown (ds_params st)) ->
  WInv (ds_time st) (i64 (p_cooldown (ds_params st))) ts (stored st who) ->
  limit_ok (i64 (p_cooldown (ds_params st))) (i64 (p_maxredel (ds_params st))) ts ->
  (forall i j a b, (i < j)%nat -> (ts ++ redel_times st ops who) !! i = Some a ->
     (ts ++ redel_times st ops who) !! j = Some b -> a < b) /\
  limit_ok (i64 (p_cooldown (ds_params st))) (i64 (p_maxredel (ds_params st))) (ts ++ redel_times st ops who).
Proof.
  revert st ts. induction ops as [|o t IH]; intros st ts Hp Hok Hn Hc HW HL; simpl.
  - rewrite app_nil_r. split; [apply (w_sorted _ _ _ _ HW)|done].
  - destruct Hok as [Ho Hok]. inversion Hn as [|? ? Hno Hn']; subst.
    assert (Hck : cooldown_kept st o) by (by destruct o).
    destruct (WInv_step st o who ts Hp Ho Hck Hc HW) as [HW1 H1].
    pose proof (params_kept st o Hno) as Hpk. rewrite app_assoc.
    specialize (IH (dstep st o) (ts ++ if redelegates st o who then [ds_time st] else [])).
    rewrite Hpk in IH, HW1. apply IH; try done.
    destruct (redelegates st o who); [|by rewrite app_nil_r].
    destruct (H1 eq_refl). by apply limit_snoc.
Qed.

Lemma between_le_recent lo w (pre : list Z) x :
  x <= lo + w -> Forall (fun t => t <= x) pre ->
  (length (between lo (lo + w) pre) <= length (recent x w pre))%nat.
Proof.
  intros Hx HF. unfold between, recent. induction HF as [|t l Ht HF IH]; simpl; [lia|].
  destruct ((lo <=? t) && (t <=? lo + w)) eqn:E1; destruct (x - t <=? w) eqn:E2; simpl; lia.
Qed.

Lemma window_bound w m ts lo :
  0 <= m -> (forall i j a b, (i < j)%nat -> ts !! i = Some a -> ts !! j = Some b -> a < b) ->
  limit_ok w m ts -> Z.of_nat (length (between lo (lo + w) ts)) <= m.
Proof.
  intros Hm. induction ts as [|x ts IH] using rev_ind; intros Hs HL; [simpl; lia|].
  unfold between in *. rewrite List.filter_app, app_length. simpl.
  destruct ((lo <=? x) && (x <=? lo + w)) eqn:E; simpl.
  - destruct (HL ts x [] eq_refl) as [H1 _].
    assert (HF : Forall (fun t => t <= x) ts).
    { apply Forall_lookup. intros i a Hi. assert (i < length ts)%nat by (by eapply lookup_lt_Some).
      assert (a < x); [|lia]. apply (Hs i (length ts)); [done|by rewrite lookup_app_l|].
      rewrite lookup_app_r, Nat.sub_diag by lia. done. }
    pose proof (between_le_recent lo w ts x ltac:(lia) HF). unfold between in *. lia.
  - rewrite Nat.add_0_r. apply IH.
    + intros i j a b Hij Ha Hb. apply (Hs i j); [done| |]; by apply lookup_app_l_Some.
    + intros pre y post ->. apply (HL pre y (post ++ [x])). by rewrite <- app_assoc.
Qed.

Lemma i64_small x : x < two63 -> i64 x = x.
Proof. unfold i64. destruct (Z.ltb_spec x two63); lia. Qed.
Lemma i64_le x : x < two64 -> i64 x <= x.
Proof. unfold i64, two64. destruct (Z.ltb_spec x two63); lia. Qed.
Lemma limit_more w m m' ts : m <= m' -> limit_ok w m ts -> limit_ok w m' ts.
Proof. intros Hm HL pre x post E. destruct (HL pre x post E). split; [lia|done]. Qed.

Lemma claim_redelegation_limit bk p t ops who lo :
  dparams_valid p = true -> p_cooldown p < two63 -> ops_ok (dinit bk p t) ops -> Forall no_params ops ->
  let ts := redel_times (dinit bk p t) ops who in
  NoDup ts /\ Z.of_nat (length (between lo (lo + p_cooldown p) ts)) <= p_maxredel p.
Proof.
  intros Hp Hw Hok Hn. cbv zeta.
  assert (Hw0 : 0 <= p_cooldown p) by (unfold dparams_valid in Hp; lia).
  assert (Hm0 : 0 <= p_maxredel p < two64) by (unfold dparams_valid in Hp; lia).
  destruct (redel_run (dinit bk p t) ops who [] Hp Hok Hn) as [H1 H2].
  - cbn. rewrite i64_small; lia.
  - constructor; [exists []; split; [done|constructor]| |constructor]. intros i j a b _ H. by rewrite lookup_nil in H.
  - intros pre x post H. by destruct pre.
  - simpl in H1, H2. split.
    + apply NoDup_alt. intros i j x Hi Hj. destruct (Nat.lt_trichotomy i j) as [Hlt|[->|Hlt]]; [|done|].
      * pose proof (H1 i j x x Hlt Hi Hj). lia.
      * pose proof (H1 j i x x Hlt Hj Hi). lia.
    + apply window_bound; [lia|done|]. cbn in H2. rewrite i64_small in H2 by done.
      eapply limit_more; [|exact H2]. apply i64_le. lia.
Qed.

Lemma time_grows st o : dop_ok st o -> ds_time st <= ds_time (dstep st o).
Proof. intros H. rewrite ModTime.dstep_time. destruct o; simpl in H; lia. Qed.
Lemma requests_time ops : forall st t, ops_ok st ops -> t <= ds_time st -> Forall (fun e => t <= u_time e) (requests st ops).
Proof.
  induction ops as [|o l IH]; intros st t Hok Ht; cbn [requests]; [constructor|]. destruct Hok as [Ho Hok].
  apply Forall_app. split; [|apply IH; [done|]; pose proof (time_grows st o Ho); lia].
  destruct o; try constructor. destruct (msg_undelegate _ _ _ _); [|constructor]. constructor; [done|constructor].
Qed.
Lemma params_valid_run ops : forall st, dparams_valid (ds_params st) = true -> ops_ok st ops ->
  dparams_valid (ds_params (drun st ops)) = true.
Proof.
  induction ops as [|o l IH]; intros st Hp Hok; [done|]. destruct Hok as [Ho Hok]. cbn [drun]. apply IH; [|done].
  destruct (match o with OParams p => Some p | _ => None end) as [p|] eqn:E.
  - destruct o; done.
  - assert (Hn : no_params o) by by destruct o. by rewrite (params_kept st o Hn).
Qed.

(** Completed exactly when due, as long as the sum of the time and the waiting time is a uint64. *)
Lemma claim_on_time bk p t ops dt :
  dparams_valid p = true -> 0 <= t -> ops_ok (dinit bk p t) (ops ++ [OBeginBlock dt]) ->
  ds_time (drun (dinit bk p t) ops) + dt + p_unbonding (ds_params (drun (dinit bk p t) ops)) < two64 ->
  let st := drun (dinit bk p t) ops in
  let now := ds_time st + dt in
  let wait := p_unbonding (ds_params st) in
  let done := out_entries (paid_by st (OBeginBlock dt)) in
  let left := pending (dstep st (OBeginBlock dt)) in
  pending st = done ++ left /\
  Forall (fun e => u_time e + wait <= now) done /\
  Forall (fun e => now < u_time e + wait) left.
Proof.
  intros Hp Ht Hok Hs. cbv zeta. apply ops_ok_app in Hok as [Hok [Hd _]].
  destruct (queue_run _ _ ops (QRel_init bk p t) Hok) as (HQ & Hreq & _).
  pose proof (params_valid_run ops (dinit bk p t) Hp Hok) as Hpv. set (st := drun (dinit bk p t) ops) in *.
  assert (Hpos : Forall (fun e => 0 <= u_time e) (pending st)).
  { pose proof (requests_time ops (dinit bk p t) 0 Hok Ht) as HF. cbn [app] in Hreq. rewrite <- Hreq in HF. by apply Forall_app in HF as [_ HF]. }
  assert (Hw : 0 <= p_unbonding (ds_params st)) by (unfold dparams_valid in Hpv; lia).
  destruct (QRel_step st _ (OBeginBlock dt) HQ Hd) as [HQ1 HO].
  rewrite (pending_QRel _ _ HQ1), HO. cbn [fifo_step].
  destruct (split_due _ _ (pending st)) as [a r] eqn:Es. cbn [fst snd].
  pose proof (split_due_app _ _ _ _ _ Es) as Happ. split; [done|]. destruct (split_due_all _ _ _ _ _ Es) as [Ha _].
  set (st1 := with_time st (ds_time st + dt)). simpl in Hd.
  assert (HQ2 : QRel st1 (pending st)) by (eapply QRel_frame; [..|exact HQ]; simpl; try done; lia).
  split; [|by apply (nothing_due_left st1 (pending st) a r HQ2)].
  apply Forall_forall. intros e He. rewrite Forall_forall in Ha. specialize (Ha e He). cbn beta in Ha.
  assert (Hl : e ∈ pending st) by (rewrite Happ; apply elem_of_app; by left).
  rewrite Forall_forall in Hpos. specialize (Hpos e Hl). apply elem_of_list_lookup in Hl as [i Hi].
  pose proof (q_now _ _ HQ _ _ Hi). rewrite (wait_exact _ _ (ds_time st + dt)) in Ha; lia.
Qed.

(** ** C09: redelegation *)
Lemma claim_redelegate ops st ex act d from to a st' :
  reached ops st -> 0 <= a < two63 -> msg_redelegate st ex act d from to a = Some st' ->
  ex = true /\ act = true /\ a <= delegation_of st from d /\
  (from <> to -> delegation_of st' from d = delegation_of st from d - a /\
                 delegation_of st' to d = delegation_of st to d + a) /\
  (from = to -> delegation_of st' from d = delegation_of st from d) /\
  (slack ops from < ONE -> slack ops to < ONE -> forall s,
     delegation_amount st' s = delegation_amount st s
       - (if decide (from = s) then a else 0) + (if decide (to = s) then a else 0)) /\
  (ds_halt st' = false -> forall who x,
     bal (ds_bank st') who x =
     bal (ds_bank st) who x
     + (if decide (who = User d) then withdrawn st (ORedelegate ex act d from to a) from x
          + (if decide (from = to) then 0 else withdrawn st (ORedelegate ex act d from to a) to x) else 0)
     - (if decide (who = MDelegation) then withdrawn st (ORedelegate ex act d from to a) from x
          + (if decide (from = to) then 0 else withdrawn st (ORedelegate ex act d from to a) to x) else 0)).
Proof.
  intros HR Ha Hm. destruct (reached_good _ _ HR) as (b & HG & HE & HSl).
  pose proof Hm as Hm0. unfold msg_redelegate in Hm.
  destruct (negb (bool_decide _)) eqn:Ed; [done|]. destruct ex; [|done]. destruct act; [|done]. simpl in Hm.
  destruct (a >? delegation_of st from d) eqn:Eg; [done|].
  destruct (consume_spell _ _ _) as [l|]; [|done]. set (st1 := with_cool _ _) in *.
  assert (HG1 : Good st1 b) by (by eapply Good_same_f1; [|exact HG]).
  destruct (Good_undelegate st1 b from d a HG1 ltac:(lia)) as [HG2 Hact].
  destruct (pu_ext st st1 from d a eq_refl eq_refl) as (Hf1 & Hb1 & _).
  pose proof (bank_of_undelegation st1 from d a) as HB1.
  pose proof (halt_of_undelegation st1 from d a) as HH1.
  destruct (perform_undelegation st1 from d a) as [st2 actual] eqn:Eu. cbn [fst snd] in *.
  destruct (negb (actual =? a)) eqn:En; [done|]. injection Hm as <-.
  pose proof (Good_delegate st2 _ to d a HG2 ltac:(lia)) as HG3.
  assert (Hbal : a <= lg_balance (gl b from) d) by (rewrite <- (read_of st b from d HG); lia).
  split; [done|]. split; [done|]. split; [lia|]. split; [|split; [|split]].
  - intros Hne. rewrite !(read_of _ _ _ _ HG3), !(read_of _ _ _ _ HG).
    destruct (same_delegate (b_undelegate b from d a) to d a from d) as [S1 _]; [by right; apply not_eq_sym|].
    destruct (same_undelegate b from d a to d) as [S2 _]; [by right|].
    rewrite balance_delegate, S1, S2, balance_undelegate. lia.
  - intros <-. rewrite (read_of _ _ _ _ HG3), (read_of _ _ _ _ HG), balance_delegate, balance_undelegate. lia.
  - intros S1 S2 s. rewrite (read_amount _ _ s HG3), (read_amount _ _ s HG).
    assert (HLb : forall q, slack ops q < ONE -> a_E (ga b q) < ONE /\ LInv (gl b q) (ga b q)).
    { intros q Hq. pose proof (HSl q). split; [lia|]. apply (proj2 (HG q)). lia. }
    assert (HL2 : LInv (gl (b_undelegate b from d a) to) (ga (b_undelegate b from d a) to)).
    { apply (proj2 (HG2 to)). rewrite E_undelegate. apply HLb, S2. }
    rewrite total_delegate; [|rewrite E_undelegate; by apply HLb|done].
    rewrite total_undelegate by (by apply HLb).
    rewrite Z.min_l by lia. destruct (decide (from = s)), (decide (to = s)); lia.
  - intros Hh who x. cbn [withdrawn]. rewrite Hm0.
    rewrite <- (wd_ext _ st2 to d Hf1 Hb1), <- (wd_ext st (remove_index st1 from) from d eq_refl eq_refl).
    rewrite halt_of_delegation, HH1 in Hh. rewrite bank_of_delegation.
    assert (HW : forall sx s0, failed (snd (perform_withdrawal sx s0 d)) = false ->
      bal (ds_bank (fst (perform_withdrawal sx s0 d))) who x
      = bal (ds_bank sx) who x + (if decide (who = User d) then amt (wd sx s0 d) x else 0)
        - (if decide (who = MDelegation) then amt (wd sx s0 d) x else 0)).
    { intros sx s0. unfold wd, perform_withdrawal. destruct (f1_withdraw _ d) as [f r]. unfold pay_user.
      set (sy := if bool_decide _ then _ else _).
      assert (ds_bank sy = ds_bank sx) as -> by (unfold sy; by destruct (bool_decide (is_Some (f_delegators (getf sx s0) !! d)))).
      destruct (send _ _ _ _) as [bk|] eqn:Es; [|done]. intros _. cbn [fst snd with_bank ds_bank].
      apply send_Some in Es as [_ Hb]. rewrite Hb.
      repeat case_decide; simplify_eq; lia. }
    assert (Hf : failed (snd (perform_withdrawal (remove_index st1 from) from d)) = false).
    { destruct (bool_decide (is_Some (f_delegators (getf st2 to) !! d)));
        apply orb_false_iff in Hh as [Hh ?]; [|done].
      by apply orb_false_iff in Hh as [_ ?]. }
    specialize (HW (remove_index st1 from) from Hf) as HWf.
    assert (Hto : bal (if bool_decide (is_Some (f_delegators (getf st2 to) !! d))
        then ds_bank (fst (perform_withdrawal (remove_index st2 to) to d)) else ds_bank st2) who x
      = bal (ds_bank st2) who x + (if decide (who = User d) then amt (wd st2 to d) x else 0)
        - (if decide (who = MDelegation) then amt (wd st2 to d) x else 0)).
    { rewrite (Rel_exists _ _ d (proj1 (HG2 to))) in *.
      destruct (lg_dels (gl (b_undelegate b from d a) to) !! d) eqn:El.
      - apply orb_false_iff in Hh as [_ Hh]. rewrite (HW _ _ Hh).
        by rewrite (wd_ext st2 (remove_index st2 to) to d eq_refl eq_refl).
      - rewrite (wd_none st2 _ to d HG2 El). unfold lg_owed. rewrite El, amt_empty.
        destruct (decide _), (decide _); lia. }
    rewrite Hto, HB1, HWf. cbn [remove_index with_index ds_bank].
    change (ds_bank st1) with (ds_bank st). unfold at_staker.
    repeat case_decide; simplify_eq; lia.
Qed.

Lemma claim_redelegate_guard st ex act d from to a :
  ex = false \/ act = false \/ delegation_of st from d < a \/ ~ is_delegator st from d ->
  msg_redelegate st ex act d from to a = None.
Proof.
  intros H. unfold msg_redelegate. destruct (bool_decide _) eqn:E; simpl; [|done].
  apply bool_decide_eq_true in E. destruct ex; [|done]. destruct act; [|done]. simpl.
  destruct H as [?|[?|[H|H]]]; try done. destruct (a >? _) eqn:E2; [done|lia].
Qed.

(** ** C10: slashing *)
Lemma claim_slash ops st s ty :
  reached ops st -> f_data (getf st s) <> None ->
  let fr := slash_fraction (ds_params st) ty in
  let st' := fst (slash_delegators st s ty) in
  let sl := snd (slash_delegators st s ty) in
  sl = delegation_amount st s * fr / ONE /\ 0 <= sl <= delegation_amount st s /\
  delegation_amount st' s = delegation_amount st s - sl /\
  (ds_halt st' = false -> forall who x,
     bal (ds_bank st') who x = bal (ds_bank st) who x
       + (if decide (who = Treasury) then (if (x =? KYVE)%N then sl else 0) else 0)
       - (if decide (who = MDelegation) then (if (x =? KYVE)%N then sl else 0) else 0)) /\
  (forall d, let B := delegation_of st s d in let B' := delegation_of st' s d in
     (ONE - fr) * B - ONE < ONE * B' <= (ONE - fr) * B + (ONE - fr) /\ 0 <= B' <= B) /\
  (forall s', s' <> s -> getf st' s' = getf st s') /\
  ds_queue st' = ds_queue st /\ ds_low st' = ds_low st /\ ds_high st' = ds_high st.
Proof.
  intros HR Hd. cbv zeta. destruct (reached_good _ _ HR) as (b & HG & HE & _).
  destruct (Good_step st b (OSlash s ty) HG HE I) as [HG1 _]. cbn [dstep b_step] in HG1.
  destruct HE as [HQ HP]. pose proof (valid_fraction _ ty HP) as Hfr.
  set (fr := slash_fraction (ds_params st) ty) in *.
  destruct (f_data (getf st s)) as [dd|] eqn:Edd; [|done].
  pose proof (read_amount st b s HG) as Hamt. destruct (HG s) as [HRl [HW _]].
  destruct (Rel_slash _ _ fr HRl Hfr) as [_ Hsl]. pose proof (lw_tot _ HW) as Htot.
  assert (Hs0 : snd (slash_delegators st s ty) = delegation_amount st s * fr / ONE).
  { unfold slash_delegators. rewrite Edd. change (getf (remove_index st s) s) with (getf st s).
    change (ds_params (remove_index st s)) with (ds_params st). fold fr.
    destruct (f1_slash (getf st s) fr) as [f sl]. cbn [snd] in *. rewrite Hsl, Hamt. done. }
  assert (Hrange : 0 <= delegation_amount st s * fr / ONE <= delegation_amount st s).
  { rewrite Hamt. split; [apply Z.div_pos; unfold ONE in *; nia|].
    apply Z.div_le_upper_bound; unfold ONE in *; nia. }
  rewrite Hs0. split; [done|]. split; [done|].
  split; [|split; [|split; [|split]]].
  - rewrite (read_amount _ _ s HG1), Hamt. unfold b_slash. rewrite gl_insert, decide_True by done.
    rewrite Hamt in Hrange. cbn [lg_slash fst lg_total lg_distribute]. unfold u64_sub.
    by destruct (_ <=? _) eqn:Ele; [|lia].
  - intros Hh who x. revert Hh Hs0. unfold slash_delegators. rewrite Edd.
    change (getf (remove_index st s) s) with (getf st s).
    change (ds_params (remove_index st s)) with (ds_params st). fold fr.
    destruct (f1_slash (getf st s) fr) as [f sl]. cbn [fst snd]. intros Hh ->. revert Hh.
    set (sv := delegation_amount st s * fr / ONE) in *. simpl.
    destruct (send (ds_bank st) MDelegation Treasury (coin KYVE sv)) as [bk|] eqn:Es; simpl;
      [|by rewrite orb_true_r]. intros _.
    apply send_Some in Es as [_ Hb]. rewrite Hb, amt_coin_kyve. unfold kyve_only.
    repeat case_decide; simplify_eq; lia.
  - intros d. rewrite (read_of _ _ s d HG1), (read_of _ _ s d HG). unfold b_slash.
    rewrite gl_insert, decide_True by done. unfold lg_balance. cbn [lg_slash fst lg_dels].
    rewrite lookup_fmap, dels_dist. destruct (lg_dels (gl b s) !! d) as [y|] eqn:E; simpl; [|unfold ONE in *; lia].
    destruct (lw_dels _ HW d y E) as (Hb & _).
    assert (Hq : l_bal y * fr / ONE * ONE <= l_bal y * fr < l_bal y * fr / ONE * ONE + ONE) by (unfold ONE; lia).
    set (q := l_bal y * fr / ONE) in *.
    assert (0 <= q <= l_bal y) by (unfold ONE in *; nia).
    destruct (trunc_int_spec (l_bal y) Hb) as [T1 [T2 T3]].
    destruct (trunc_int_spec (l_bal y - q) ltac:(lia)) as [T4 [T5 T6]].
    set (B := trunc_int (l_bal y)) in *. set (B' := trunc_int (l_bal y - q)) in *.
    split; [|unfold ONE in *; lia].
    assert (HX : (ONE - fr) * (B * ONE) <= (ONE - fr) * l_bal y) by nia.
    assert (HY : (ONE - fr) * l_bal y <= (ONE - fr) * (B * ONE + ONE)) by nia.
    unfold ONE in *. split; nia.
  - intros s' Hne. unfold slash_delegators. rewrite Edd.
    destruct (f1_slash _ _) as [f sl]. cbn [fst].
    destruct (send _ _ _ _); unfold getf; simpl; by rewrite lookup_insert_ne.
  - unfold slash_delegators. rewrite Edd. destruct (f1_slash _ _) as [f sl]. cbn [fst].
    destruct (send _ _ _ _); done.
Qed.

(** Delegating at any time, also after slashes, buys exactly the amount. *)
Lemma claim_delegate ops st ex d s a st' :
  reached ops st -> 0 <= a < two63 -> msg_delegate st ex d s a = Some st' ->
  ex = true /\ delegation_of st' s d = delegation_of st s d + a /\
  (slack ops s < ONE -> delegation_amount st' s = delegation_amount st s + a).
Proof.
  intros HR Ha Hm. destruct (reached_good _ _ HR) as (b & HG & HE & HSl).
  destruct (Good_step st b (ODelegate ex d s a) HG HE Ha) as [HG1 _]. cbn [dstep b_step] in HG1.
  rewrite Hm in HG1. simpl in HG1.
  rewrite (read_of _ _ s d HG1), (read_of _ _ s d HG), (read_amount _ _ s HG1), (read_amount _ _ s HG).
  split; [unfold msg_delegate in Hm; by destruct ex|]. split; [apply balance_delegate|].
  intros Hs. pose proof (HSl s). rewrite total_delegate; [by rewrite decide_True|lia|apply (proj2 (HG s)); lia].
Qed.

(** ** C11 *)
Definition nodata (st : dstate) (s : N) : Prop := f_data (getf st s) = None.

Lemma getf_withdrawal st s0 d s :
  s0 <> s \/ f_delegators (getf st s) !! d = None ->
  getf (fst (perform_withdrawal st s0 d)) s = getf st s.
Proof.
  intros H. unfold perform_withdrawal. destruct (f1_withdraw (getf st s0) d) as [f r]. unfold pay_user.
  assert (getf (if bool_decide (is_Some (f_delegators (getf st s0) !! d)) then setf st s0 f else st) s = getf st s) as HX.
  { destruct (bool_decide _) eqn:E; [|done]. rewrite getf_setf. destruct (decide (s0 = s)) as [->|]; [|done].
    destruct H as [H|H]; [done|]. apply bool_decide_eq_true in E. rewrite H in E. by destruct E. }
  destruct (send _ _ _ _); exact HX.
Qed.

Lemma getf_delegation st s0 d a s : s0 <> s -> getf (perform_delegation st s0 d a) s = getf st s.
Proof.
  intros Hne. unfold perform_delegation.
  change (getf (set_index ?x s0) s) with (getf x s).
  destruct (bool_decide _).
  - pose proof (getf_withdrawal (remove_index st s0) s0 d s (or_introl Hne)) as HW.
    destruct (perform_withdrawal _ s0 d) as [sw err]. cbn [fst] in HW. destruct (f1_remove _ d) as [f und].
    change (getf (setf (setf (with_halt sw (failed err)) s0 f) s0 (f1_create (getf (setf (with_halt sw (failed err)) s0 f) s0) d (und + a))) s = getf st s).
    rewrite !getf_setf. rewrite !(decide_False (P := s0 = s)) by done. exact HW.
  - change (getf (setf (remove_index st s0) s0 (f1_create (getf (remove_index st s0) s0) d a)) s = getf st s).
    rewrite getf_setf, decide_False by done. done.
Qed.

Lemma getf_undelegation st s0 d a s : 0 <= a ->
  s0 <> s \/ f_delegators (getf st s) !! d = None ->
  getf (fst (perform_undelegation st s0 d a)) s = getf st s.
Proof.
  intros Ha H. unfold perform_undelegation.
  pose proof (getf_withdrawal (remove_index st s0) s0 d s) as HW.
  destruct (perform_withdrawal _ s0 d) as [sw err]. cbn [fst] in HW. specialize (HW H).
  destruct (f1_remove (getf (with_halt sw (failed err)) s0) d) as [f und] eqn:Er.
  destruct (decide (s0 = s)) as [->|Hne].
  - destruct H as [H|H]; [done|].
    assert (Hd : f_delegators (getf (with_halt sw (failed err)) s) !! d = None).
    { change (f_delegators (getf sw s) !! d = None). rewrite HW. exact H. }
    unfold f1_remove in Er. rewrite Hd in Er. injection Er as <- <-.
    destruct (0 >? a) eqn:E0; [lia|].
    change (getf (setf (with_halt sw (failed err)) s (getf (with_halt sw (failed err)) s)) s = getf st s).
    rewrite getf_setf, decide_True by done. exact HW.
  - destruct (und >? a); cbn [fst].
    + change (getf (setf (setf (with_halt sw (failed err)) s0 f) s0 (f1_create (getf (setf (with_halt sw (failed err)) s0 f) s0) d (u64_sub und a))) s = getf st s).
      rewrite !getf_setf. rewrite !(decide_False (P := s0 = s)) by done. exact HW.
    + change (getf (setf (with_halt sw (failed err)) s0 f) s = getf st s).
      rewrite !getf_setf. rewrite !(decide_False (P := s0 = s)) by done. exact HW.
Qed.

Lemma getf_process_one st low e s : 0 <= u_amount e -> f_delegators (getf st s) = ∅ ->
  getf (fst (process_one st low e)) s = getf st s.
Proof.
  intros Ha Hd. unfold process_one.
  pose proof (getf_undelegation st (u_staker e) (u_delegator e) (u_amount e) s Ha) as HU.
  destruct (perform_undelegation _ _ _ _) as [st1 pd]. cbn [fst] in HU.
  rewrite <- HU; [|right; by rewrite Hd, lookup_empty].
  unfold pay_user. destruct (send _ _ _ _); done.
Qed.

Lemma getf_loop fuel st low s : queue_ok st -> f_delegators (getf st s) = ∅ ->
  getf (fst (fst (process_loop fuel st low))) s = getf st s.
Proof.
  revert st low. induction fuel as [|fuel IH]; intros st low HQ Hd; simpl; [done|].
  destruct (ds_queue st !! (low + 1)%N) as [e|] eqn:Ee.
  - destruct (due st e); [|done].
    pose proof (getf_process_one st low e s (HQ _ _ Ee) Hd) as H1.
    pose proof (process_one_frame st low e) as HF. cbv zeta in HF. destruct HF as (Hq & _).
    destruct (process_one st low e) as [st3 pd]. cbn [fst] in H1, Hq.
    specialize (IH st3 (low + 1)%N). destruct (process_loop fuel st3 _) as [[st4 ?] ?]. cbn [fst] in *.
    rewrite <- H1. apply IH; [|by rewrite H1].
    intros k e' Hk. rewrite Hq in Hk. apply lookup_delete_Some in Hk as [_ Hk]. by eapply HQ.
  - destruct (low <? ds_high st)%N; [by apply IH|done].
Qed.

Lemma data_step st b o s :
  Good st b -> Env st -> dop_ok st o -> joins o s = ∅ -> nodata st s -> nodata (dstep st o) s.
Proof.
  intros HG [HQ _] Hok Hj Hn. unfold nodata in *.
  destruct (r_none _ _ (proj1 (HG s)) Hn) as [Hde _].
  assert (Hdn : forall d, f_delegators (getf st s) !! d = None) by (intros d; by rewrite Hde, lookup_empty).
  destruct o; cbn [dstep joins dop_ok] in *; try done.
  - assert (s0 <> s) by (intros ->; rewrite decide_True in Hj by done; set_solver).
    unfold msg_delegate. destruct (negb staker_exists); [done|].
    destruct (send _ _ _ _); [|done].
    change (f_data (getf (perform_delegation st s0 d amount) s) = None). by rewrite getf_delegation.
  - unfold msg_undelegate. by destruct (_ >? _).
  - assert (to <> s) by (intros ->; rewrite decide_True in Hj by done; set_solver).
    unfold msg_redelegate. destruct (negb (bool_decide _)); [done|]. destruct (negb target_exists); [done|].
    destruct (negb target_active); [done|]. destruct (amount >? _); [done|].
    destruct (consume_spell _ _ _) as [l0|]; [|done]. set (st1 := with_cool _ _).
    pose proof (getf_undelegation st1 from d amount s ltac:(lia) (or_intror (Hdn d))) as HU.
    destruct (perform_undelegation st1 from d amount) as [st2 actual]. cbn [fst] in HU.
    destruct (negb _); [done|].
    change (f_data (getf (perform_delegation st2 to d amount) s) = None). by rewrite getf_delegation, HU.
  - unfold msg_withdraw. destruct (negb (bool_decide _)); [done|].
    pose proof (getf_withdrawal st s0 d s (or_intror (Hdn d))) as HW.
    destruct (perform_withdrawal st s0 d) as [st1 [r|]]; [|done]. cbn [fst] in HW. simpl. by rewrite HW.
  - unfold payout_rewards. destruct (cempty c); [done|]. destruct (f_data (getf st s0)) eqn:E0; [|done].
    assert (s0 <> s) by (intros ->; congruence).
    destruct (send _ _ _ _); [|done].
    change (f_data (getf (setf st s0 (f1_add_rewards (getf st s0) c)) s) = None).
    by rewrite getf_setf, decide_False.
  - unfold slash_delegators. destruct (f_data (getf st s0)) eqn:E0; [|done].
    assert (s0 <> s) by (intros ->; congruence). destruct (f1_slash _ _) as [f sl]. cbn [fst].
    assert (f_data (getf (setf (remove_index st s0) s0 f) s) = None) by (by rewrite getf_setf, decide_False).
    destruct (send _ _ _ _); done.
  - unfold process_queue. set (st1 := with_time st (ds_time st + dt)).
    pose proof (getf_loop (queue_fuel st1) st1 (ds_low st1) s HQ Hde) as HL.
    destruct (process_loop _ _ _) as [[st2 ?] ?]. cbn [fst] in *.
    change (f_data (getf st2 s) = None). by rewrite HL.
Qed.

Lemma data_run st b ops s : Good st b -> Env st -> ops_ok st ops -> joined ops s = ∅ -> nodata st s ->
  nodata (drun st ops) s.
Proof.
  revert st b. induction ops as [|o t IH]; intros st b HG HE Hok Hj Hn; simpl in *; [done|].
  destruct Hok as [Ho Hok]. destruct (Good_step st b o HG HE Ho) as [HG1 HE1].
  eapply IH; [done|done|done|set_solver|]. eapply data_step; try done. set_solver.
Qed.

Lemma claim_payout_rejected ops st s c payer :
  reached ops st -> joined ops s = ∅ -> c <> ∅ -> payout_rewards st s c payer = None.
Proof.
  intros (bk & p & t & Hp & Hok & ->) Hj Hc.
  pose proof (data_run _ _ ops s (Good_init bk p t) (Env_init _ _ _ Hp) Hok Hj) as Hn.
  unfold payout_rewards. destruct (cempty c) eqn:E; [by apply cempty_spec in E|].
  unfold nodata in Hn. rewrite Hn; [done|]. unfold getf. simpl. by rewrite lookup_empty.
Qed.
