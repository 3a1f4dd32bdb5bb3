(** * Consequences used by the delegation properties. *)
From Verif Require Import Base BaseFacts Delegation F1Spec F1Refine F1Acct
  DelegationInv DelegationBank DelegationQueue.

Ltac Zify.zify_post_hook ::= Z.div_mod_to_equations.

(** ** What one operation does to a ledger *)

Lemma per_token_dist l : per_token (lg_distribute l) = ∅.
Proof.
  unfold per_token. simpl. destruct (lg_total l =? 0); [done|].
  apply map_eq. intros k. rewrite lookup_empty. unfold cmap. by rewrite lookup_omap, lookup_empty.
Qed.

Lemma cadd_empty_r c : cnz c -> cadd c ∅ = c.
Proof. intros Hc. apply coins_ext; [apply cnz_cmerge|done|]. intros x. rewrite amt_cadd, amt_empty. lia. Qed.

Lemma cnz_cadd a b : cnz (cadd a b).
Proof. apply cnz_cmerge. Qed.

Lemma dels_dist l d :
  lg_dels (lg_distribute l) !! d
  = (fun x => mkL (l_bal x) (cadd (l_pend x) (per_token l)) (l_acc x)) <$> lg_dels l !! d.
Proof. simpl. by rewrite lookup_fmap. Qed.

Lemma balance_dist l d : lg_balance (lg_distribute l) d = lg_balance l d.
Proof. unfold lg_balance. rewrite dels_dist. by destruct (lg_dels l !! d). Qed.

Lemma owed_dist l d : lg_owed (lg_distribute l) d = lg_owed l d.
Proof.
  unfold lg_owed. rewrite dels_dist, per_token_dist. destruct (lg_dels l !! d) as [x|]; simpl; [|done].
  by rewrite cadd_empty_r by apply cnz_cadd.
Qed.

(** A ledger that differs from [lg_distribute l] only at [d]. *)
Lemma others_at l l' d d' :
  d <> d' -> lg_dels l' !! d' = lg_dels (lg_distribute l) !! d' -> lg_rewards l' = ∅ ->
  lg_balance l' d' = lg_balance l d' /\ lg_owed l' d' = lg_owed l d'.
Proof.
  intros Hne Hd Hr. rewrite <- (balance_dist l d'), <- (owed_dist l d').
  unfold lg_balance, lg_owed. rewrite Hd. split; [done|].
  destruct (lg_dels (lg_distribute l) !! d') as [x|]; [|done].
  rewrite per_token_dist. assert (per_token l' = ∅) as ->; [|done].
  unfold per_token. rewrite Hr. destruct (_ =? 0); [done|].
  apply map_eq. intros k. rewrite lookup_empty. unfold cmap. by rewrite lookup_omap, lookup_empty.
Qed.

Lemma others_join l d a d' : d <> d' ->
  lg_balance (lg_join l d a) d' = lg_balance l d' /\ lg_owed (lg_join l d a) d' = lg_owed l d'.
Proof.
  intros Hne. unfold lg_join. destruct (a =? 0); [done|].
  apply others_at with d; [done| |done]. cbn [lg_dels]. by rewrite lookup_insert_ne.
Qed.
Lemma others_leave l d d' : d <> d' ->
  lg_balance (fst (lg_leave l d)) d' = lg_balance l d' /\ lg_owed (fst (lg_leave l d)) d' = lg_owed l d'.
Proof.
  intros Hne. unfold lg_leave. destruct (lg_dels l !! d); [|done].
  apply others_at with d; [done| |done]. cbn [fst lg_dels]. by rewrite lookup_delete_ne.
Qed.
Lemma others_withdraw l d d' : d <> d' ->
  lg_balance (fst (lg_withdraw l d)) d' = lg_balance l d' /\ lg_owed (fst (lg_withdraw l d)) d' = lg_owed l d'.
Proof.
  intros Hne. unfold lg_withdraw. destruct (lg_dels l !! d); [|done].
  apply others_at with d; [done| |done]. cbn [fst lg_dels]. by rewrite lookup_insert_ne.
Qed.

Definition same_for (b b' : book) (s d : N) : Prop :=
  lg_balance (gl b' s) d = lg_balance (gl b s) d /\ lg_owed (gl b' s) d = lg_owed (gl b s) d.

Lemma same_trans b1 b2 b3 s d : same_for b1 b2 s d -> same_for b2 b3 s d -> same_for b1 b3 s d.
Proof. intros [] []. split; congruence. Qed.

Lemma same_withdraw b s d s' d' : d <> d' \/ s <> s' -> same_for b (b_withdraw b s d) s' d'.
Proof.
  intros Hne. unfold same_for, b_withdraw. rewrite gl_insert.
  destruct (decide (s = s')) as [<-|]; [|done]. apply others_withdraw. by destruct Hne.
Qed.
Lemma same_leave b s d s' d' : d <> d' \/ s <> s' -> same_for b (b_leave b s d) s' d'.
Proof.
  intros Hne. unfold same_for, b_leave. rewrite gl_insert.
  destruct (decide (s = s')) as [<-|]; [|done]. apply others_leave. by destruct Hne.
Qed.
Lemma same_join b s d a s' d' : d <> d' \/ s <> s' -> same_for b (b_join b s d a) s' d'.
Proof.
  intros Hne. unfold same_for, b_join. rewrite gl_insert.
  destruct (decide (s = s')) as [<-|]; [|done]. apply others_join. by destruct Hne.
Qed.
Lemma same_delegate b s d a s' d' : d <> d' \/ s <> s' -> same_for b (b_delegate b s d a) s' d'.
Proof.
  intros Hne. unfold b_delegate. destruct (lg_dels (gl b s) !! d); [|by apply same_join].
  eapply same_trans; [by apply (same_withdraw b s d)|].
  eapply same_trans; [by apply (same_leave _ s d)|]. by apply same_join.
Qed.
Lemma same_undelegate b s d a s' d' : d <> d' \/ s <> s' -> same_for b (b_undelegate b s d a) s' d'.
Proof.
  intros Hne. unfold b_undelegate.
  eapply same_trans; [by apply (same_withdraw b s d)|].
  destruct (_ >? a); [|by apply same_leave].
  eapply same_trans; [by apply (same_leave _ s d)|]. by apply same_join.
Qed.

(** The operation's own delegator. *)
Lemma balance_join l d a : lg_dels l !! d = None -> lg_balance (lg_join l d a) d = a.
Proof.
  intros Hd. unfold lg_join, lg_balance. destruct (a =? 0) eqn:E.
  - rewrite Hd. lia.
  - cbn [lg_dels]. rewrite lookup_insert. simpl. by rewrite trunc_int_of_int.
Qed.
Lemma total_join l d a : lg_total (lg_join l d a) = lg_total l + a.
Proof. unfold lg_join. destruct (a =? 0) eqn:E; simpl; lia. Qed.

Lemma balance_b_join b s d a : lg_dels (gl b s) !! d = None -> lg_balance (gl (b_join b s d a) s) d = a.
Proof. intros Hd. unfold b_join. rewrite gl_insert, decide_True by done. by apply balance_join. Qed.
Lemma total_b_join b s d a s' :
  lg_total (gl (b_join b s d a) s') = lg_total (gl b s') + (if decide (s = s') then a else 0).
Proof.
  unfold b_join. rewrite gl_insert. destruct (decide (s = s')) as [<-|]; [apply total_join|lia].
Qed.
Lemma total_b_withdraw b s d s' : lg_total (gl (b_withdraw b s d) s') = lg_total (gl b s').
Proof.
  unfold b_withdraw. rewrite gl_insert. destruct (decide (s = s')) as [<-|]; [|done].
  unfold lg_withdraw. by destruct (lg_dels (gl b s) !! d).
Qed.
Lemma total_b_leave b s d s' : a_E (ga b s) < ONE -> LInv (gl b s) (ga b s) ->
  lg_total (gl (b_leave b s d) s')
  = lg_total (gl b s') - (if decide (s = s') then snd (lg_leave (gl b s) d) else 0).
Proof.
  intros HE HL. unfold b_leave. rewrite gl_insert. destruct (decide (s = s')) as [<-|]; [|lia].
  by destruct (LInv_leave _ _ d HL HE) as (_ & -> & _).
Qed.

Lemma balance_withdraw l d : lg_balance (fst (lg_withdraw l d)) d = lg_balance l d.
Proof.
  unfold lg_withdraw, lg_balance. destruct (lg_dels l !! d) as [x|] eqn:E; simpl; [|by rewrite E].
  rewrite lookup_insert. simpl. by rewrite trunc_int_of_int.
Qed.

Lemma balance_delegate b s d a :
  lg_balance (gl (b_delegate b s d a) s) d = lg_balance (gl b s) d + a.
Proof.
  unfold b_delegate. destruct (lg_dels (gl b s) !! d) eqn:E.
  - rewrite balance_b_join by apply gl_leave_absent. by rewrite leave_withdraw_balance.
  - rewrite balance_b_join by done. unfold lg_balance. rewrite E. lia.
Qed.

Lemma balance_undelegate b s d a :
  lg_balance (gl (b_undelegate b s d a) s) d
  = lg_balance (gl b s) d - Z.min a (lg_balance (gl b s) d).
Proof.
  unfold b_undelegate. rewrite leave_withdraw_balance. destruct (_ >? a) eqn:E.
  - rewrite balance_b_join by apply gl_leave_absent. lia.
  - unfold lg_balance at 1. rewrite gl_leave_absent. lia.
Qed.

Lemma LInv_b_withdraw b s d : LInv (gl b s) (ga b s) ->
  LInv (gl (b_withdraw b s d) s) (ga (b_withdraw b s d) s).
Proof. intros. unfold b_withdraw. rewrite gl_insert, ga_insert, !decide_True by done. by apply LInv_withdraw. Qed.

Lemma total_delegate b s d a s' : a_E (ga b s) < ONE -> LInv (gl b s) (ga b s) ->
  lg_total (gl (b_delegate b s d a) s') = lg_total (gl b s') + (if decide (s = s') then a else 0).
Proof.
  intros HE HL. unfold b_delegate. destruct (lg_dels (gl b s) !! d) eqn:E.
  - rewrite total_b_join, total_b_leave; [|by rewrite E_withdraw|by apply LInv_b_withdraw].
    rewrite total_b_withdraw. destruct (decide (s = s')); lia.
  - apply total_b_join.
Qed.

Lemma total_undelegate b s d a s' : a_E (ga b s) < ONE -> LInv (gl b s) (ga b s) ->
  lg_total (gl (b_undelegate b s d a) s')
  = lg_total (gl b s') - (if decide (s = s') then Z.min a (lg_balance (gl b s) d) else 0).
Proof.
  intros HE HL. unfold b_undelegate. rewrite leave_withdraw_balance. destruct (_ >? a) eqn:E.
  - rewrite total_b_join, total_b_leave; [|by rewrite E_withdraw|by apply LInv_b_withdraw].
    rewrite total_b_withdraw, leave_withdraw_balance. destruct (decide (s = s')); lia.
  - rewrite total_b_leave; [|by rewrite E_withdraw|by apply LInv_b_withdraw].
    rewrite total_b_withdraw, leave_withdraw_balance. destruct (decide (s = s')); lia.
Qed.

(** ** Reading the model through the book *)
Lemma read_of st b s d : Good st b -> delegation_of st s d = lg_balance (gl b s) d.
Proof. intros HG. apply Rel_current, HG. Qed.
Lemma read_amount st b s : Good st b -> delegation_amount st s = lg_total (gl b s).
Proof. intros HG. apply Rel_total, HG. Qed.
Lemma read_payable st b s d : Good st b -> snd (f1_withdraw (getf st s) d) = lg_owed (gl b s) d.
Proof.
  intros HG. destruct (Rel_withdraw _ _ d (proj1 (HG s))) as [_ ->].
  unfold lg_withdraw, lg_owed. by destruct (lg_dels (gl b s) !! d).
Qed.
Lemma read_outstanding st b s d : Good st b -> f1_outstanding (getf st s) d = (lg_reported (gl b s) d, false).
Proof. intros HG. apply Rel_outstanding, HG. Qed.

(** ** Principal slack *)

(** Addresses that delegated or redelegated to [s], and the number of slashes of [s]. *)
Definition joins (o : dop) (s : N) : gset N :=
  match o with
  | ODelegate _ d s' _ => if decide (s' = s) then {[d]} else ∅
  | ORedelegate _ _ d _ s' _ => if decide (s' = s) then {[d]} else ∅
  | _ => ∅
  end.
Definition slashed_by (o : dop) (s : N) : Z :=
  match o with OSlash s' _ => if decide (s' = s) then 1 else 0 | _ => 0 end.
Fixpoint joined (ops : list dop) (s : N) : gset N :=
  match ops with [] => ∅ | o :: t => joins o s ∪ joined t s end.
Fixpoint slashes (ops : list dop) (s : N) : Z :=
  match ops with [] => 0 | o :: t => slashed_by o s + slashes t s end.

Definition ddom (b : book) (s : N) : gset N := dom (lg_dels (gl b s)).

Lemma ddom_withdraw b s d s' : ddom (b_withdraw b s d) s' ⊆ ddom b s'.
Proof.
  unfold ddom, b_withdraw. rewrite gl_insert. destruct (decide (s = s')) as [<-|]; [|done].
  unfold lg_withdraw. destruct (lg_dels (gl b s) !! d) as [x|] eqn:E; [|done]. cbn [fst lg_dels].
  rewrite dom_insert. simpl. rewrite dom_fmap. apply elem_of_dom_2 in E. set_solver.
Qed.
Lemma ddom_leave b s d s' : ddom (b_leave b s d) s' ⊆ ddom b s'.
Proof.
  unfold ddom, b_leave. rewrite gl_insert. destruct (decide (s = s')) as [<-|]; [|done].
  unfold lg_leave. destruct (lg_dels (gl b s) !! d) as [x|] eqn:E; [|done]. cbn [fst lg_dels].
  rewrite dom_delete. simpl. rewrite dom_fmap. set_solver.
Qed.
Lemma ddom_join b s d a s' : ddom (b_join b s d a) s' ⊆ (if decide (s = s') then {[d]} else ∅) ∪ ddom b s'.
Proof.
  unfold ddom, b_join. rewrite gl_insert. destruct (decide (s = s')) as [<-|]; [|set_solver].
  unfold lg_join. destruct (a =? 0); [set_solver|]. cbn [lg_dels].
  rewrite dom_insert. simpl. rewrite dom_fmap. set_solver.
Qed.
Lemma ddom_delegate b s d a s' : ddom (b_delegate b s d a) s' ⊆ (if decide (s = s') then {[d]} else ∅) ∪ ddom b s'.
Proof.
  unfold b_delegate. destruct (lg_dels (gl b s) !! d); [|apply ddom_join].
  pose proof (ddom_withdraw b s d s'). pose proof (ddom_leave (b_withdraw b s d) s d s').
  pose proof (ddom_join (b_leave (b_withdraw b s d) s d) s d ((lg_leave (gl (b_withdraw b s d) s) d).2 + a) s').
  set_solver.
Qed.
Lemma ddom_undelegate b s d a s' : 0 <= a -> ddom (b_undelegate b s d a) s' ⊆ ddom b s'.
Proof.
  intros Ha. unfold b_undelegate. rewrite leave_withdraw_balance.
  pose proof (ddom_withdraw b s d s'). pose proof (ddom_leave (b_withdraw b s d) s d s').
  destruct (_ >? a) eqn:E; [|set_solver].
  pose proof (ddom_join (b_leave (b_withdraw b s d) s d) s d (lg_balance (gl b s) d - a) s').
  destruct (decide (s = s')) as [<-|]; [|set_solver].
  assert (d ∈ ddom b s).
  { unfold lg_balance in E. unfold ddom. apply elem_of_dom. destruct (lg_dels (gl b s) !! d); [eauto|lia]. }
  set_solver.
Qed.

Lemma ddom_loop fuel st b low s' : queue_ok st -> ddom (b_loop fuel st b low) s' ⊆ ddom b s'.
Proof.
  revert st b low. induction fuel as [|fuel IH]; intros st b low HQ; simpl; [done|].
  destruct (ds_queue st !! _) as [e|] eqn:Ee.
  - destruct (due st e); [|done].
    pose proof (process_one_frame st low e) as HF. cbv zeta in HF. destruct HF as (Hq & _).
    specialize (IH (fst (process_one st low e)) (b_undelegate b (u_staker e) (u_delegator e) (u_amount e)) (low + 1)%N).
    pose proof (ddom_undelegate b (u_staker e) (u_delegator e) (u_amount e) s' (HQ _ _ Ee)).
    assert (queue_ok (fst (process_one st low e))).
    { intros k e' Hk. rewrite Hq in Hk. apply lookup_delete_Some in Hk as [_ Hk]. by eapply HQ. }
    specialize (IH H0). set_solver.
  - destruct (_ <? _)%N; [by apply IH|done].
Qed.

Lemma ddom_step st b o s' : queue_ok st -> dop_ok st o ->
  ddom (b_step st b o) s' ⊆ joins o s' ∪ ddom b s'.
Proof.
  intros HQ Hok. destruct o; cbn [b_step joins]; cbv zeta; try set_solver.
  - destruct (msg_delegate _ _ _ _ _); [|set_solver]. apply ddom_delegate.
  - destruct (msg_redelegate _ _ _ _ _ _ _); [|set_solver].
    pose proof (ddom_delegate (b_undelegate b from d amount) to d amount s').
    pose proof (ddom_undelegate b from d amount s'). simpl in Hok. set_solver by lia.
  - destruct (msg_withdraw _ _ _); [|set_solver]. pose proof (ddom_withdraw b s d s'). set_solver.
  - destruct (payout_rewards _ _ _ _); [|set_solver]. destruct (cempty c); [set_solver|].
    unfold ddom, b_reward. rewrite gl_insert. destruct (decide _) as [<-|]; simpl; set_solver.
  - destruct (f_data _); [|set_solver]. unfold ddom, b_slash. rewrite gl_insert.
    destruct (decide _) as [<-|]; [|set_solver]. simpl. rewrite !dom_fmap. set_solver.
  - pose proof (ddom_loop (queue_fuel (with_time st (ds_time st + dt))) (with_time st (ds_time st + dt)) b
      (ds_low (with_time st (ds_time st + dt))) s' HQ). set_solver.
Qed.

Lemma E_step_bound st b o s' :
  a_E (ga (b_step st b o) s') <= a_E (ga b s') + slashed_by o s' * Z.of_nat (size (ddom b s')).
Proof.
  destruct o; cbn [b_step slashed_by]; cbv zeta; rewrite ?E_loop; repeat case_match;
    rewrite ?E_delegate, ?E_undelegate, ?E_withdraw; try lia.
  all: unfold b_reward, b_slash; rewrite ga_insert; repeat (destruct (decide _)); subst; simpl;
    unfold ddom; rewrite ?size_dom; try done; lia.
Qed.

Lemma slack_bound st b ops s :
  Good st b -> Env st -> ops_ok st ops ->
  a_E (ga (brun st b ops) s)
  <= a_E (ga b s) + slashes ops s * Z.of_nat (size (ddom b s ∪ joined ops s)).
Proof.
  revert st b. induction ops as [|o t IH]; intros st b HG HE Hok; simpl in *; [lia|].
  destruct Hok as [Ho Hok]. destruct (Good_step st b o HG HE Ho) as [HG1 HE1].
  specialize (IH _ _ HG1 HE1 Hok). pose proof (E_step_bound st b o s) as HB.
  pose proof (ddom_step st b o s (proj1 HE) Ho) as HD.
  set (U := ddom b s ∪ (joins o s ∪ joined t s)).
  assert (size (ddom b s) <= size U)%nat by (apply subseteq_size; set_solver).
  assert (size (ddom (b_step st b o) s ∪ joined t s) <= size U)%nat by (apply subseteq_size; set_solver).
  assert (0 <= slashed_by o s) by (destruct o; simpl; try lia; by case_match).
  assert (forall l, 0 <= slashes l s) as Hs.
  { induction l as [|o' l IHl]; simpl; [lia|]. assert (0 <= slashed_by o' s) by (destruct o'; simpl; try lia; by case_match). lia. }
  specialize (Hs t). nia.
Qed.

(** Sum of the delegations reported for all delegators. *)
Definition reported_sum (st : dstate) (s : N) : Z :=
  msum (fun d _ => delegation_of st s d) (f_delegators (getf st s)).

Lemma msum_dom {A B} (f : N -> A -> Z) (g : N -> B -> Z) (m : gmap N A) (m' : gmap N B) :
  (forall k, match m !! k, m' !! k with
             | Some a, Some b => f k a = g k b | None, None => True | _, _ => False end) ->
  msum f m = msum g m'.
Proof.
  revert m'. induction m as [|k a m Hk IH] using map_ind; intros m' H.
  - assert (m' = ∅) as ->; [|by rewrite !msum_empty].
    apply map_eq. intros k. specialize (H k). rewrite lookup_empty in *. by destruct (m' !! k).
  - pose proof (H k) as Hk'. rewrite lookup_insert in Hk'. destruct (m' !! k) as [b|] eqn:E; [|done].
    rewrite msum_insert_fresh by done. rewrite (IH (delete k m')).
    + rewrite (msum_delete _ _ _ _ E). lia.
    + intros k'. specialize (H k'). destruct (decide (k = k')) as [<-|Hne].
      * by rewrite Hk, lookup_delete.
      * by rewrite lookup_insert_ne in H by done; rewrite lookup_delete_ne.
Qed.

Lemma reported_sum_tok st b s : Good st b -> reported_sum st s = tok_sum (gl b s).
Proof.
  intros HG. unfold reported_sum, tok_sum. apply msum_dom. intros d.
  rewrite (read_of st b s d HG). unfold lg_balance. pose proof (r_dels _ _ (proj1 (HG s)) d) as Hd.
  destruct (f_delegators (getf st s) !! d), (lg_dels (gl b s) !! d); done.
Qed.

Lemma principal_le_total st b s :
  Good st b -> a_E (ga b s) < ONE ->
  reported_sum st s <= delegation_amount st s /\
  forall d, 0 <= delegation_of st s d <= delegation_amount st s.
Proof.
  intros HG HE. destruct (HG s) as [_ [HW HL]]. specialize (HL HE).
  rewrite (reported_sum_tok st b s HG), (read_amount st b s HG). split; [by eapply tok_sum_le_total|].
  intros d. rewrite (read_of st b s d HG). unfold lg_balance.
  destruct (lg_dels (gl b s) !! d) as [x|] eqn:E; [|pose proof (li_tot _ _ HL); lia].
  pose proof (balance_le_total _ _ _ _ HL HE E). destruct (li_dels _ _ HL d x E) as (Hb & _).
  split; [by apply trunc_int_spec|done].
Qed.
