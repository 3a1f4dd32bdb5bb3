(** * The clocks of the modules only move in the begin block. *)
From Verif Require Import Base BaseFacts Delegation Stakers Funders FundersInv FundersRun Team Bundles.

Section delegation.
  Local Notation tm st st' := (ds_time st' = ds_time st).
  Lemma dt_pay_user st d c st' : pay_user st d c = Some st' -> tm st st'.
  Proof. unfold pay_user. destruct (send _ _ _ _) eqn:E; [|done]. by intros [= <-]. Qed.
  Lemma dt_withdrawal st s d st' r : perform_withdrawal st s d = (st', r) -> tm st st'.
  Proof.
    unfold perform_withdrawal. destruct (f1_withdraw _ _) as [f c]. set (st1 := if bool_decide _ then _ else _).
    assert (E1 : tm st st1) by (unfold st1; by case_bool_decide).
    destruct (pay_user st1 d c) eqn:E; intros [= <- <-]; [|done]. rewrite <- E1. by eapply dt_pay_user.
  Qed.
  Lemma dt_delegation st s d a : tm st (perform_delegation st s d a).
  Proof.
    unfold perform_delegation. case_bool_decide; [|done].
    destruct (perform_withdrawal _ _ _) as [sw err] eqn:E. destruct (f1_remove _ _) as [f u]. cbn. by apply dt_withdrawal in E.
  Qed.
  Lemma dt_undelegation st s d a st' x : perform_undelegation st s d a = (st', x) -> tm st st'.
  Proof.
    unfold perform_undelegation. destruct (perform_withdrawal _ _ _) as [sw err] eqn:E. destruct (f1_remove _ _) as [f u].
    intros [= <- <-]. apply dt_withdrawal in E. cbn. by destruct (u >? a).
  Qed.
  Lemma dt_process_one st low e st' x : process_one st low e = (st', x) -> tm st st'.
  Proof.
    unfold process_one. destruct (perform_undelegation _ _ _ _) as [st1 pd] eqn:E. intros [= <- <-]. apply dt_undelegation in E. cbn.
    destruct (pay_user _ _ _) eqn:E2; [|done]. apply dt_pay_user in E2. congruence.
  Qed.
  Lemma dt_process_loop n st low : tm st (fst (fst (process_loop n st low))).
  Proof.
    revert st low. induction n as [|n IH]; intros st low; [done|]. cbn [process_loop].
    destruct (ds_queue st !! _) as [e|].
    - destruct (due st e); [|done]. destruct (process_one st low e) as [st3 pd] eqn:E.
      specialize (IH st3 (low + 1)%N). destruct (process_loop n st3 _) as [[st4 l] o]. cbn in *. apply dt_process_one in E. congruence.
    - destruct (low <? ds_high st)%N; [apply IH|done].
  Qed.
  Lemma dt_process_queue st : tm st (fst (process_queue st)).
  Proof.
    unfold process_queue. pose proof (dt_process_loop (queue_fuel st) st (ds_low st)) as H.
    by destruct (process_loop _ _ _) as [[st1 l] o].
  Qed.
  Lemma dt_slash st s t : tm st (fst (slash_delegators st s t)).
  Proof.
    unfold slash_delegators. destruct (f_data _); [|done]. destruct (f1_slash _ _) as [f x]. cbn. by destruct (send _ _ _ _).
  Qed.
End delegation.
Lemma dstep_time st o : ds_time (dstep st o) = match o with OBeginBlock dt => ds_time st + dt | _ => ds_time st end.
Proof.
  destruct o; cbn [dstep]; try done.
  - unfold msg_delegate. destruct staker_exists; [|done]. cbn [negb]. destruct (send _ _ _ _) eqn:E; cbn; [|done]. apply dt_delegation.
  - unfold msg_undelegate. by destruct (_ >? _).
  - unfold msg_redelegate. repeat (case_bool_decide; [|done]). destruct target_exists, target_active; try done. cbn [negb].
    destruct (_ >? _); [done|]. destruct (consume_spell _ _ _); [|done].
    destruct (perform_undelegation _ _ _ _) as [st2 x] eqn:E. destruct (negb _); [done|]. cbn [or_same default]. apply dt_undelegation in E. transitivity (ds_time st2); [apply dt_delegation|done].
  - unfold msg_withdraw. case_bool_decide; [|done]. cbn [negb]. destruct (perform_withdrawal _ _ _) as [st1 [r|]] eqn:E; [|done].
    by eapply dt_withdrawal.
  - unfold payout_rewards. destruct (cempty c); [done|]. destruct (f_data _); [|done]. by destruct (send _ _ _ _) eqn:E.
  - apply dt_slash.
  - apply (dt_process_queue (with_time st (ds_time st + dt))).
Qed.

Lemma st_leave_pool st s p : ss_time (leave_pool st s p) = ss_time st.
Proof. unfold leave_pool. by destruct (get_val _ _ _). Qed.
Lemma st_queue_loop f h n st low : (forall st i st', f st i = Some st' -> ss_time st' = ss_time st) ->
  ss_time (fst (queue_loop f h n st low)) = ss_time st.
Proof.
  intros Hf. revert st low. induction n as [|n IH]; intros st low; [done|]. cbn [queue_loop].
  destruct (f st _) as [st1|] eqn:E; [|done]. apply Hf in E. destruct (low <? h)%N; cbn; [by rewrite IH|done].
Qed.
Lemma st_begin st : ss_time (stakers_begin st) = ss_time st.
Proof.
  unfold stakers_begin, process_leaves.
  assert (H1 : ss_time (process_commissions st) = ss_time st).
  { unfold process_commissions. destruct (queue_loop _ _ _ _ _) as [st1 low] eqn:E. cbn.
    change st1 with (fst (st1, low)). rewrite <- E. apply st_queue_loop. intros s i s'. unfold process_centry.
    destruct (ss_centries s !! i); [|by intros [= <-]]. destruct (_ <=? _); [|done]. intros [= <-]. by destruct (ss_stakers _ !! _). }
  rewrite <- H1. set (st0 := process_commissions st). destruct (queue_loop _ _ _ _ _) as [st1 low] eqn:E. cbn.
  change st1 with (fst (st1, low)). rewrite <- E. apply st_queue_loop. intros s i s'. unfold process_lentry.
  destruct (ss_lentries s !! i); [|by intros [= <-]]. destruct (_ <=? _); [|done]. intros [= <-]. by rewrite st_leave_pool.
Qed.
Lemma sstep_time st o : ss_time (sstep st o) = match o with SBegin t => t | _ => ss_time st end.
Proof.
  destruct o; cbn [sstep]; try done.
  - unfold msg_create_staker. destruct (ss_stakers st !! s); [done|]. by destruct delegates.
  - unfold msg_update_commission. destruct (ss_stakers st !! s); [|done]. cbn. unfold order_commission.
    destruct (ss_cindex st !! s) as [i|]; [by destruct (ss_centries st !! i)|done].
  - unfold msg_claim_commission. destruct (ss_stakers st !! s); [|done]. destruct (negb _); [done|]. by destruct (send _ _ _ _).
  - unfold msg_join. destruct pool as [[]|]; try done. destruct (ss_stakers st !! s); [|done]. destruct (s =? v)%N; [done|].
    destruct (get_val st p s); [done|]. destruct (ensure_slot st del p s) as [st1|] eqn:E1; [|done].
    assert (Eb : ss_time st1 = ss_time st).
    { unfold ensure_slot in E1. destruct (_ <=? _); [|congruence]. destruct (_ <? _); [|done]. injection E1 as <-. apply st_leave_pool. }
    destruct (existsb _ _); [done|]. destruct (existsb _ _); [done|].
    unfold pay_kyve. destruct (_ <? 0); [done|]. destruct (send _ _ _ _) eqn:E; [|done]. cbn.
    rewrite <- Eb. unfold add_val. destruct (ss_stakers _ !! _); [by destruct (get_val _ _ _)|done].
  - unfold msg_leave. destruct (get_val st p s); [|done]. by case_bool_decide.
  - apply st_leave_pool.
  - unfold increase_commission_rewards. destruct (cempty amount); [done|]. destruct (ss_stakers st !! s); [|done]. by destruct (send _ _ _ _).
  - unfold increment_points. by destruct (get_val st p s).
  - unfold reset_points. by destruct (get_val st p s).
  - apply st_begin.
Qed.
Lemma tstep_time st o : ts_time (tstep st o) = match o with TBegin t _ _ => t | _ => ts_time st end.
Proof.
  destruct o; cbn [tstep]; try done.
  - unfold msg_create. repeat (match goal with |- context [if ?x then _ else _] => destruct x end; try done).
  - unfold msg_claim_unlocked. destruct (negb _); [done|]. destruct (ts_accounts st !! id); [|done]. destruct (_ <? _); [done|]. by destruct (transfer _ _ _ _).
  - unfold msg_clawback. destruct (negb _); [done|]. destruct (ts_accounts st !! id); [|done].
    repeat (match goal with |- context [if ?x then _ else _] => destruct x end; try done).
  - unfold msg_claim_rewards. destruct (negb _); [done|]. destruct (ts_accounts st !! id); [|done]. destruct (_ <? _); [done|]. by destruct (transfer _ _ _ _).
  - unfold msg_claim_authority. destruct (negb _); [done|]. destruct (_ <? _); [done|]. by destruct (transfer _ _ _ _).
  - unfold team_begin. destruct (block_provision _ _ _) as [[h r]|]; [|done]. destruct (distribute _ _ _) as [[l tot]|]; [|done]. by destruct (transfer _ _ _ _).
Qed.

(** Funding states appear only by [FCreateState]. *)
Definition states (st : fstate) (p : N) : Prop := is_Some (fs_active st !! p).
Lemma states_set st p l q : states (set_fstate st p l) q <-> q = p \/ states st q.
Proof.
  unfold states, set_fstate. cbn. destruct (decide (p = q)) as [->|Hne].
  - rewrite lookup_insert. split; [by left|]. intros _. by eexists.
  - rewrite lookup_insert_ne by done. split; [by right|]. intros [->|H]; [done|exact H].
Qed.
Lemma charge_states_fold l p afs acc : fs_active (fst (fst (fold_left (charge_step l p) afs acc))) = fs_active (fst (fst acc)).
Proof.
  revert acc. induction afs as [|[a f] afs IH]; intros acc; [done|]. cbn [fold_left]. rewrite IH.
  destruct acc as [[st act] pays]. unfold charge_step. by destruct (charge_one l f).
Qed.
Lemma slot_states st p a f act st' act' : ensure_free_slot st p a f act = Some (st', act') -> fs_active st' = fs_active st.
Proof.
  unfold ensure_free_slot. destruct (_ <? _)%nat; [by intros [= <- <-]|].
  destruct (lowest_funding _ _) as [[[b fb] lo]|]; [|done]. destruct (b =? a)%N; [by intros [= <- <-]|].
  destruct (score _ _); [|done]. destruct (_ <? _); [done|]. destruct (send _ _ _ _) eqn:E; [|done]. by intros [= <- <-].
Qed.
Lemma fstep_states base st o q : FInv base st ->
  states (fstep st o) q <-> states st q \/ match o with FCreateState p => q = p | _ => False end.
Proof.
  intros HI. assert (Hs : forall x : fstate, fs_active x = fs_active st -> states x q <-> states st q \/ False).
  { intros x E. unfold states. rewrite E. tauto. }
  destruct o; cbn [fstep]; try (by apply Hs).
  - unfold msg_create_funder. case_bool_decide; by apply Hs.
  - rewrite states_set. tauto.
  - unfold msg_fund. case_bool_decide; [|by apply Hs]. destruct pool_exists; [|by apply Hs]. cbn [negb].
    destruct (fs_active st !! p) as [act|] eqn:Ea; [|by apply Hs]. destruct (ensure_params _ _) as [f1|]; [|by apply Hs].
    destruct (ensure_free_slot _ _ _ _ _) as [[st1 act1]|] eqn:E1; [|by apply Hs]. apply slot_states in E1.
    destruct (send _ _ _ _) eqn:E; [|by apply Hs]. cbn [from_option id]. rewrite states_set. unfold states in *. cbn. rewrite E1.
    split; [intros [->|H1]|]; [left; by rewrite Ea|by left|]. intros [H1|[]]. by right.
  - unfold msg_defund. destruct (fs_fundings st !! (a, p)) as [f|] eqn:Ef; [|by apply Hs].
    destruct (fi_state _ _ HI _ _ _ Ef) as [l El]. rewrite El. destruct (cempty _); [by apply Hs|].
    destruct (ensure_params _ _); [|by apply Hs]. destruct (send _ _ _ _) eqn:E; [|by apply Hs]. cbn [from_option id].
    assert (E3 : forall x b, states (fwith_halt x b) q <-> states x q) by done. rewrite E3, states_set. unfold states. cbn.
    split; [intros [->|H1]|]; [left; by rewrite El|by left|]. intros [H1|[]]. by right.
  - unfold charge_funders. destruct (fs_active st !! p) as [l|] eqn:El; [|by apply Hs]. destruct (active_fundings st p l) as [|af afs] eqn:Ea; [by apply Hs|].
    pose proof (charge_states_fold (wl st) p (af :: afs) (st, l, ∅)) as Hb. destruct (fold_left _ _ _) as [[st1 act] pays]. cbn in Hb.
    assert (G : states (set_fstate st1 p act) q <-> states st q \/ False).
    { rewrite states_set. unfold states. rewrite Hb. split; [intros [->|H1]|]; [left; by rewrite El|by left|]. intros [H1|[]]. by right. }
    destruct (cempty pays); [done|]. by destruct (send _ _ _ _) eqn:E.
Qed.
