(** * Delegation: the rounding of slashes, counted by what is stored.

    The slack of C01 in terms of the slashes recorded in the store instead of the calls. *)
From Verif Require Import Base BaseFacts Delegation F1Spec F1Refine F1Acct
  DelegationInv DelegationBank DelegationQueue DelegationProps DelegationRewards DelegationClaims.

(** The slashes recorded for a staker. *)
Definition recorded (st : dstate) (s : N) : list (N * Z) := f_slashes (getf st s).

Lemma start_slashes f dd : f_slashes (fst (f1_start_new_period f dd)) = f_slashes f.
Proof. unfold f1_start_new_period. cbn. by repeat case_match. Qed.
Lemma create_slashes f d a : f_slashes (f1_create f d a) = f_slashes f.
Proof.
  unfold f1_create. destruct (a =? 0); [done|]. pose proof (start_slashes f (get_dd f)) as H.
  by destruct (f1_start_new_period f (get_dd f)).
Qed.
Lemma remove_slashes f d : f_slashes (fst (f1_remove f d)) = f_slashes f.
Proof.
  unfold f1_remove. destruct (f_delegators f !! d) as [dl|]; [|done]. cbv zeta. set (f0 := panic_if _ f).
  pose proof (start_slashes f0 (get_dd f0)) as H. destruct (f1_start_new_period f0 (get_dd f0)) as [f1 dd1]. cbn in *.
  by destruct (_ =? 0).
Qed.
Lemma withdraw_slashes f d : f_slashes (fst (f1_withdraw f d)) = f_slashes f.
Proof.
  unfold f1_withdraw. destruct (f_delegators f !! d) as [dl|]; [|done]. cbv zeta. set (f0 := panic_if _ f).
  pose proof (start_slashes f0 (get_dd f0)) as H. destruct (f1_start_new_period f0 (get_dd f0)) as [f1 dd1]. cbn in *.
  by case_match.
Qed.

Definition same_slashes (a b : dstate) : Prop := forall t, recorded b t = recorded a t.
Lemma same_trans a b c : same_slashes a b -> same_slashes b c -> same_slashes a c.
Proof. intros H1 H2 t. by rewrite H2, H1. Qed.
Lemma same_setf a s f : f_slashes f = recorded a s -> same_slashes a (setf a s f).
Proof.
  intros H t. unfold recorded, getf, setf. cbn. destruct (decide (t = s)) as [->|]; [by rewrite lookup_insert|by rewrite lookup_insert_ne].
Qed.
Lemma same_f1 a b : ds_f1 b = ds_f1 a -> same_slashes a b.
Proof. intros H t. unfold recorded, getf. by rewrite H. Qed.
Lemma withdrawal_slashes st s d : same_slashes st (fst (perform_withdrawal st s d)).
Proof.
  unfold perform_withdrawal. pose proof (withdraw_slashes (getf st s) d) as H. destruct (f1_withdraw (getf st s) d) as [f r]. cbn [fst] in H.
  set (st1 := if bool_decide _ then _ else _). assert (H1 : same_slashes st st1) by (unfold st1; case_bool_decide; [by apply same_setf|done]).
  unfold pay_user. destruct (send _ _ _ _); cbn [fst]; [|done]. eapply same_trans; [exact H1|]. by apply same_f1.
Qed.
Lemma delegation_slashes st s d a : same_slashes st (perform_delegation st s d a).
Proof.
  unfold perform_delegation. set (st0 := remove_index st s). set (st1 := if bool_decide _ then _ else _).
  apply (same_trans _ st0); [by apply same_f1|]. apply (same_trans _ st1); [|by apply same_f1].
  unfold st1. case_bool_decide.
  - pose proof (withdrawal_slashes st0 s d) as H1. destruct (perform_withdrawal st0 s d) as [sw err]. cbn [fst] in H1.
    pose proof (remove_slashes (getf (with_halt sw (failed err)) s) d) as H2.
    destruct (f1_remove (getf (with_halt sw (failed err)) s) d) as [f und]. cbn [fst] in H2.
    apply (same_trans _ sw); [done|]. apply (same_trans _ (with_halt sw (failed err))); [by apply same_f1|].
    apply (same_trans _ (setf (with_halt sw (failed err)) s f)); [by apply same_setf|]. apply same_setf. by rewrite create_slashes.
  - apply same_setf. by rewrite create_slashes.
Qed.
Lemma undelegation_slashes st s d a : same_slashes st (fst (perform_undelegation st s d a)).
Proof.
  unfold perform_undelegation. set (st0 := remove_index st s). apply (same_trans _ st0); [by apply same_f1|].
  pose proof (withdrawal_slashes st0 s d) as H1. destruct (perform_withdrawal st0 s d) as [sw err]. cbn [fst] in H1.
  pose proof (remove_slashes (getf (with_halt sw (failed err)) s) d) as H2.
  destruct (f1_remove (getf (with_halt sw (failed err)) s) d) as [f und]. cbn [fst] in H2 |- *.
  apply (same_trans _ sw); [done|]. apply (same_trans _ (with_halt sw (failed err))); [by apply same_f1|].
  apply (same_trans _ (setf (with_halt sw (failed err)) s f)); [by apply same_setf|].
  set (sc := if und >? a then _ else _). apply (same_trans _ sc); [|by apply same_f1]. unfold sc. destruct (und >? a); [|done].
  apply same_setf. by rewrite create_slashes.
Qed.
Lemma loop_slashes n : forall st low, same_slashes st (fst (fst (process_loop n st low))).
Proof.
  induction n as [|n IH]; intros st low; cbn [process_loop]; [done|].
  destruct (ds_queue st !! (low + 1)%N) as [e|]; [|destruct (_ <? _)%N; [apply IH|done]].
  destruct (due st e); [|done].
  assert (H : same_slashes st (fst (process_one st low e))).
  { unfold process_one. pose proof (undelegation_slashes st (u_staker e) (u_delegator e) (u_amount e)) as H.
    destruct (perform_undelegation _ _ _ _) as [st1 paid]. cbn [fst] in *. apply (same_trans _ st1); [done|].
    unfold pay_user. destruct (send _ _ _ _); by apply same_f1. }
  destruct (process_one st low e) as [st3 paid]. cbn [fst] in H. specialize (IH st3 (low + 1)%N).
  destruct (process_loop n st3 (low + 1)%N) as [[st4 low'] out]. cbn [fst] in *. by eapply same_trans.
Qed.
(** Only a slash of a staker with delegation data records something, one entry. *)
Lemma step_slashes st b o s : Good st b ->
  length (recorded (dstep st o) s) =
    (length (recorded st s) + match o with OSlash s' _ => if decide (s' = s) then match f_data (getf st s) with Some _ => 1 | None => 0 end else 0 | _ => 0 end)%nat.
Proof.
  intros HG. assert (Hsame : forall a b, same_slashes a b -> length (recorded b s) = (length (recorded a s) + 0)%nat) by (intros a b' H; rewrite H; lia).
  destruct o as [ex d s' a|d s' a|ex act d from to a|d s'|s' x payer|s' ty|dt|p|bk]; cbn [dstep].
  - apply Hsame. unfold msg_delegate. destruct (negb ex); [done|]. destruct (send _ _ _ _); [|done]. cbn [or_same default from_option id].
    eapply same_trans; [apply delegation_slashes|]. by apply same_f1.
  - apply Hsame. unfold msg_undelegate. destruct (a >? _); [done|]. by apply same_f1.
  - apply Hsame. unfold msg_redelegate. repeat (destruct (negb _); [done|]). destruct (a >? _); [done|]. destruct (consume_spell _ _ _); [|done].
    set (st1 := with_cool _ _). pose proof (undelegation_slashes st1 from d a) as H. destruct (perform_undelegation st1 from d a) as [st2 act']. cbn [fst] in H.
    destruct (negb _); [done|]. cbn [or_same default from_option id]. eapply same_trans; [|apply delegation_slashes].
    eapply same_trans; [|exact H]. by apply same_f1.
  - apply Hsame. unfold msg_withdraw. destruct (negb _); [done|]. pose proof (withdrawal_slashes st s' d) as H.
    destruct (perform_withdrawal st s' d) as [st1 [r|]]; [exact H|done].
  - apply Hsame. unfold payout_rewards. destruct (cempty x); [done|]. destruct (f_data (getf st s')) as [dd|] eqn:E; [|done].
    destruct (send _ _ _ _); [|done]. cbn [or_same default from_option id]. eapply same_trans; [|by apply same_f1].
    apply same_setf. unfold f1_add_rewards. by rewrite E.
  - unfold slash_delegators. destruct (decide (s' = s)) as [->|Hne].
    + destruct (f_data (getf st s)) as [dd|] eqn:E; [|cbn; lia]. cbv zeta.
      set (fr := slash_fraction _ _). change (getf (remove_index st s) s) with (getf st s).
      assert (Hl : length (f_slashes (fst (f1_slash (getf st s) fr))) = (length (recorded st s) + 1)%nat).
      { unfold f1_slash. pose proof (start_slashes (getf st s) (get_dd (getf st s))) as Hs.
        pose proof (HG s) as [HR _]. destruct (f1_start_new_period (getf st s) (get_dd (getf st s))) as [f' dd'] eqn:Es. cbn [fst] in Hs.
        destruct (Rel_start _ _ _ _ HR Es) as (HR' & Hk & _). cbn.
        rewrite kv_set_append; [rewrite app_length, Hs; done|]. rewrite Hs, Hk. by eapply Rel_slk_lt. }
      destruct (f1_slash (getf st s) fr) as [f sl]. cbn [fst] in *.
      set (st2 := match send _ _ _ _ with Some b' => _ | None => _ end).
      assert (E2 : ds_f1 st2 = <[s := f]> (ds_f1 st)) by (unfold st2; by destruct (send _ _ _ _)).
      unfold recorded at 1. change (getf (set_index st2 s) s) with (getf st2 s). unfold getf. rewrite E2, lookup_insert. exact Hl.
    + rewrite Nat.add_0_r. destruct (f_data (getf st s')) as [dd|]; [|done]. cbv zeta.
      destruct (f1_slash _ _) as [f sl]. cbn [fst].
      set (st2 := match send _ _ _ _ with Some b' => _ | None => _ end).
      assert (E2 : ds_f1 st2 = <[s' := f]> (ds_f1 st)) by (unfold st2; by destruct (send _ _ _ _)).
      unfold recorded at 1. change (getf (set_index st2 s') s) with (getf st2 s). unfold getf. rewrite E2, lookup_insert_ne by done. done.
  - apply Hsame. unfold process_queue. set (st1 := with_time _ _). pose proof (loop_slashes (queue_fuel st1) st1 (ds_low st1)) as H.
    destruct (process_loop _ _ _) as [[st2 low] out]. cbn [fst] in *. apply (same_trans _ st2); [|by apply same_f1].
    eapply same_trans; [|exact H]. by apply same_f1.
  - apply Hsame. by apply same_f1.
  - apply Hsame. by apply same_f1.
Qed.
Lemma E_recorded st b o s (U : gset N) : Good st b -> ddom b s ⊆ U ->
  a_E (ga b s) <= Z.of_nat (length (recorded st s)) * Z.of_nat (size U) ->
  a_E (ga (b_step st b o) s) <= Z.of_nat (length (recorded (dstep st o) s)) * Z.of_nat (size U).
Proof.
  intros HG HU HE. rewrite (step_slashes st b o s HG). pose proof (E_step_bound st b o s) as HB.
  assert (Hsz : (size (ddom b s) <= size U)%nat) by (by apply subseteq_size).
  destruct o as [ex d s' a|d s' a|ex act d from to a|d s'|s' x payer|s' ty|dt|p|bk]; cbn [slashed_by] in HB; try (rewrite Nat.add_0_r; lia).
  destruct (decide (s' = s)) as [->|]; [|rewrite Nat.add_0_r; lia].
  destruct (f_data (getf st s)) as [dd|] eqn:E; [nia|]. cbn [b_step]. rewrite E, Nat.add_0_r. done.
Qed.
Lemma recorded_run ops s (U : gset N) : forall st b, Good st b -> Env st -> ops_ok st ops -> ddom b s ∪ joined ops s ⊆ U ->
  a_E (ga b s) <= Z.of_nat (length (recorded st s)) * Z.of_nat (size U) ->
  a_E (ga (brun st b ops) s) <= Z.of_nat (length (recorded (drun st ops) s)) * Z.of_nat (size U).
Proof.
  induction ops as [|o t IH]; intros st b HG HE Hok HU HB; [done|]. destruct Hok as [Ho Hok]. cbn [joined] in HU. cbn [brun drun].
  destruct (Good_step st b o HG HE Ho) as [HG1 HE1]. apply IH; try done.
  - pose proof (ddom_step st b o s (proj1 HE) Ho). set_solver.
  - apply E_recorded; [done|set_solver|done].
Qed.
(** C01 with the recorded slashes and a set of possible delegators. *)
Lemma principal_recorded bk p t ops s (U : gset N) : dparams_valid p = true -> ops_ok (dinit bk p t) ops -> joined ops s ⊆ U ->
  let st := drun (dinit bk p t) ops in
  Z.of_nat (length (recorded st s)) * Z.of_nat (size U) < ONE ->
  reported_sum st s <= delegation_amount st s /\ forall d, 0 <= delegation_of st s d <= delegation_amount st s.
Proof.
  intros Hp Hok HU st HO. destruct (run_good bk p t ops Hp Hok) as [HG _]. apply (principal_le_total st (brun (dinit bk p t) ∅ ops)); [done|].
  pose proof (recorded_run ops s U (dinit bk p t) ∅ (Good_init bk p t) (Env_init _ _ _ Hp) Hok) as H.
  rewrite ddom_empty, ga_empty in H. specialize (H ltac:(set_solver) ltac:(cbn [a_E a_zero]; lia)). fold st in H. lia.
Qed.
