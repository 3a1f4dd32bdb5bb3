(** * The dates of redelegations change only in redelegations, in the whole chain. *)
From Verif Require Import Base BaseFacts Delegation Stakers Funders Team RoundRobin Pool Bundles Chain ChainFrame DelegationInv DelegationQueue
  DelegationClaims3 PoolFrame Walk IndexInv ModTime ParamsFrame.

Definition ctimes (c : chain) := (ds_cool (c_d c), ds_time (c_d c), c_time c).

Definition no_redelegation (o : dop) : Prop := match o with ORedelegate _ _ _ _ _ _ => False | _ => True end.
Lemma cool_loop fuel : forall st low, ds_cool (fst (fst (process_loop fuel st low))) = ds_cool st.
Proof.
  induction fuel as [|fuel IH]; intros st' low'; simpl; [done|]. destruct (ds_queue st' !! _) as [e|].
  - destruct (due st' e); [|done]. pose proof (process_one_frame st' low' e) as HF. cbv zeta in HF.
    destruct (process_one st' low' e) as [st3 pd]. cbn [fst] in HF. destruct HF as (_ & _ & _ & _ & _ & P).
    specialize (IH st3 (low' + 1)%N). destruct (process_loop fuel st3 _) as [[st4 ?] ?]. simpl in *. congruence.
  - destruct (_ <? _)%N; [apply IH|done].
Qed.
Lemma cool_queue st : ds_cool (fst (process_queue st)) = ds_cool st.
Proof.
  unfold process_queue. pose proof (cool_loop (queue_fuel st) st (ds_low st)) as H. destruct (process_loop _ _ _) as [[st2 ?] ?]. exact H.
Qed.
Lemma cool_kept st o : no_redelegation o -> ds_cool (dstep st o) = ds_cool st.
Proof.
  intros Hn. destruct o; cbn [dstep] in *; try done.
  - unfold msg_delegate. destruct (negb staker_exists); [done|].
    destruct (delegation_frame st s d amount) as (_ & _ & _ & _ & _ & P). by destruct (send _ _ _ _).
  - unfold msg_undelegate. by destruct (_ >? _).
  - unfold msg_withdraw. destruct (negb (bool_decide _)); [done|].
    pose proof (withdrawal_frame st s d) as HW. cbv zeta in HW. destruct HW as (_ & _ & _ & _ & _ & P & _).
    destruct (perform_withdrawal st s d) as [st1 [r|]]; done.
  - unfold payout_rewards. destruct (cempty c); [done|]. destruct (f_data _); [|done]. by destruct (send _ _ _ _).
  - unfold slash_delegators. destruct (f_data (getf st s)); [|done]. destruct (f1_slash _ _) as [f sl]. simpl.
    destruct (send _ _ _ _); done.
  - apply (cool_queue (with_time st (ds_time st + dt))).
Qed.
(** A redelegation: the dates of the delegator are those that were left after removing the expired ones,
    and the current time. *)
Lemma cool_redelegate st ex act d from to a st' : msg_redelegate st ex act d from to a = Some st' ->
  exists l, consume_spell (ds_params st) (ds_time st) (stored st d) = Some l /\ ds_cool st' = <[d := l]> (ds_cool st).
Proof.
  unfold msg_redelegate. destruct (negb (bool_decide _)); [done|]. destruct (negb ex); [done|].
  destruct (negb act); [done|]. destruct (a >? _); [done|]. unfold stored.
  destruct (consume_spell (ds_params st) (ds_time st) (default [] (ds_cool st !! d))) as [x|] eqn:Ec; [|done].
  set (st1 := with_cool _ _). pose proof (undelegation_frame st1 from d a) as HF. cbv zeta in HF.
  destruct (perform_undelegation st1 from d a) as [st2 actual]. cbn [fst] in HF.
  destruct (negb (actual =? a)); [done|]. intros [= <-]. exists x. split; [done|].
  destruct (delegation_frame st2 to d a) as (_ & _ & _ & _ & _ & C2). destruct HF as (_ & _ & _ & _ & _ & C). rewrite C2, C. done.
Qed.

(** ** The chain *)
Definition ck (c c' : chain) : Prop := ctimes c' = ctimes c.
Lemma ck_refl c : ck c c. Proof. done. Qed.
Lemma ck_trans a b c : ck a b -> ck b c -> ck a c. Proof. unfold ck. congruence. Qed.
Lemma ck_d c o : no_redelegation o -> match o with OBeginBlock _ => False | _ => True end -> ck c (d_out c (dstep (d_in c) o)).
Proof.
  intros H Hb. unfold ck, ctimes. cbn [d_out c_d c_time cw_bank cw_d]. rewrite (cool_kept (d_in c) o H), dstep_time.
  by destruct o.
Qed.
Lemma ck_pay c u r : match pay_out c u r with inl c' | inr c' => ck c c' end.
Proof.
  unfold pay_out. destruct (send _ _ _ _) as [bk|]; [|done].
  destruct (increase_commission_rewards _ _ _ _) as [s'|] eqn:E; [|done].
  assert (H : ck c (s_out (cw_bank c bk) s')) by done.
  destruct (payout_rewards _ _ _ _) as [d|] eqn:Ep; [|exact H].
  eapply ck_trans; [exact H|]. unfold payout_rewards in Ep. repeat case_match; simplify_eq; done.
Qed.
Lemma ck_infl c p c' x : charge_inflation c p = Some (c', x) -> ck c c'.
Proof. unfold charge_inflation. repeat case_match; intros; simplify_eq; done. Qed.
Lemma ck_reset c p s : ck c (reset_pts c p s).
Proof. done. Qed.
Lemma ck_final c p v : ck c (finalize c p v).
Proof. unfold finalize. by destruct (get_pool c p). Qed.
Lemma ck_slash c s t : ck c (d_out c (fst (slash_delegators (d_in c) s t))).
Proof. by apply (ck_d c (OSlash s t)). Qed.
Ltac cwalk l := apply (l ck ck_refl ck_trans); try exact ck_pay; try exact ck_infl; try exact ck_reset; try exact ck_final;
  try exact ck_slash; try done.
Lemma ck_split c pr c' : split_inflation c pr = Some c' -> ck c c'.
Proof.
  assert (Hg : forall c p x c', give c p x = Some c' -> ck c c').
  { intros c0 p x c0'. unfold give. destruct (i64 x <? 0); [done|]. by destruct (send _ _ _ _); intros [= <-]. }
  assert (Hs : forall l c t pr d c' d', split_loop c t pr d l = Some (c', d') -> ck c c').
  { induction l as [|p l IH]; intros c0 t pr0 d c0' d'; simpl; [by intros [= <- <-]|].
    destruct (can_run c0 p); [|apply IH]. destruct (pool_share _ _ _) as [x|]; [|done].
    destruct (give c0 p x) as [c1|] eqn:Eg; [|done]. apply Hg in Eg. intros H. apply IH in H. by eapply ck_trans. }
  assert (Hr : forall l c x c', remainder_loop c x l = Some c' -> ck c c').
  { induction l as [|p l IH]; intros c0 x c0'; simpl; [by intros [= <-]|].
    destruct (can_run c0 p); [apply IH|].
    destruct (give c0 p x) as [c1|] eqn:Eg; [|done]. apply Hg in Eg. intros H. apply IH in H. by eapply ck_trans. }
  unfold split_inflation. destruct (block_provision _ _ _) as [[h team]|]; [|done].
  destruct (trunc64 _) as [protocol|]; [|done].
  set (c0 := if h then cw_halt c else c). assert (Hc0 : ck c c0) by (unfold c0; by destruct h).
  destruct (protocol =? 0); [by intros [= <-]|]. destruct (total_weight c0 =? 0); [by intros [= <-]|].
  destruct (split_loop _ _ _ _ _) as [[c1 d]|] eqn:Es; [|done]. apply Hs in Es.
  destruct (0 <? _).
  - intros H. apply Hr in H. eapply ck_trans; [exact Hc0|]. by eapply ck_trans.
  - intros [= <-]. by eapply ck_trans.
Qed.
(** Messages other than redelegations, and the end of a block. *)
Definition keeps_times (o : cop) : bool := match o with CRedelegate _ _ _ _ | CBegin _ _ => false | _ => true end.
Lemma times_frame c o : keeps_times o = true -> ctimes (cstep c o) = ctimes c.
Proof.
  intros Ho. change (ck c (cstep c o)). unfold cstep. destruct (cmsg c o) as [c'|] eqn:E; [|done]. change (default c (Some c')) with c'.
  destruct o; cbn [cmsg keeps_times] in E, Ho; try done;
    try (match type of E with ?f <$> ?x = _ => destruct x as [y|] eqn:Ex; [injection E as <-|done] end);
    try (exact eq_refl); try (by destruct (_ =? _)%N; [injection E as <-|]).
  - replace y with (dstep (d_in c) (ODelegate (staker_exists c s) d s a)) by (cbn [dstep]; by rewrite Ex). by apply ck_d.
  - replace y with (dstep (d_in c) (OUndelegate d s a)) by (cbn [dstep]; by rewrite Ex). by apply ck_d.
  - replace y with (dstep (d_in c) (OWithdraw d s)) by (cbn [dstep]; by rewrite Ex). by apply ck_d.
  - unfold chain_create_staker in E. destruct (msg_delegate _ _ _ _ _) as [d|] eqn:Ed; [|done].
    destruct (msg_create_staker _ _ _ _) as [s'|] eqn:Es; [|done]. injection E as <-.
    assert (E1 : ds_cool d = ds_cool (d_in c)).
    { rewrite <- (cool_kept (d_in c) (ODelegate true s s a) I). cbn [dstep]. by rewrite Ed. }
    assert (E2 : ds_time d = ds_time (d_in c)).
    { rewrite <- (dstep_time (d_in c) (ODelegate true s s a)). cbn [dstep]. by rewrite Ed. }
    unfold ck, ctimes. cbn. rewrite E1, E2. done.
  - revert E. cwalk k_submit.
  - revert E. apply (k_vote ck ck_trans); [exact ck_reset|]. done.
  - revert E. cwalk k_skip.
  - unfold msg_claim_role in E. repeat (destruct (negb _); [done|]). by injection E as <-.
  - unfold chain_create_pool in E. destruct (msg_create_pool _ _ _ _ _); [|done]. by injection E as <-.
  - unfold chain_disable_pool in E. destruct (disable_record _ _ _) as [ps|]; [|done]. cbv zeta in E. set (c2 := fold_left _ _ _) in E.
    assert (H2 : ck c c2).
    { unfold c2. apply (ck_trans _ (cw_pools c ps)); [done|]. apply (k_fold ck ck_refl ck_trans). done. }
    destruct (_ <=? _); [done|]. destruct (0 <? _); [|by injection E as <-]. destruct (i64 _ <? 0); [done|].
    destruct (send _ _ _ _); [|done]. injection E as <-. eapply ck_trans; [exact H2|done].
  - injection E as <-. unfold end_block. set (c1 := cw_pools _ _). apply (ck_trans _ c1); [done|].
    apply (ck_trans _ (handle_upload_timeout c1)); [cwalk k_handle_timeout|].
    unfold burn_fees. destruct (c_height _ =? 1); [done|]. destruct (c_burn _ =? 0); [done|]. by destruct (burn _ _ _).
  - by injection E as <-.
Qed.
(** The start of a block: the clocks are set. *)
Lemma ctimes_inv c a b x : ctimes c = (a, b, x) -> ds_cool (c_d c) = a /\ ds_time (c_d c) = b /\ c_time c = x.
Proof. unfold ctimes. by intros [= -> -> ->]. Qed.
Lemma times_begin c t pr : ctimes (cstep c (CBegin t pr)) = (ds_cool (c_d c), t, t).
Proof.
  change (cstep c (CBegin t pr)) with (begin_block c t pr). unfold begin_block. set (c0 := cw_time _ _ _). set (c1 := t_out c0 _).
  set (c2 := match split_inflation c1 pr with Some x => x | None => cw_halt c1 end).
  assert (Hb : ck c1 c2). { unfold c2. destruct (split_inflation c1 pr) eqn:E; [|done]. by apply ck_split in E. }
  unfold ck, ctimes in Hb. injection Hb as E1 E2 E3. clearbody c2.
  unfold ctimes. cbn [d_out s_out c_d c_time cw_bank cw_d cw_s].
  rewrite cool_queue, dt_process_queue. cbn. rewrite E1, E3. done.
Qed.
Lemma times_redelegate c d from to a c' : cmsg c (CRedelegate d from to a) = Some c' ->
  exists l, consume_spell (ds_params (c_d c)) (ds_time (c_d c)) (stored (c_d c) d) = Some l /\
    ctimes c' = (<[d := l]> (ds_cool (c_d c)), ds_time (c_d c), c_time c).
Proof.
  cbn [cmsg]. destruct (msg_redelegate _ _ _ _ _ _ _) as [st'|] eqn:E; [|done]. intros [= <-].
  destruct (cool_redelegate _ _ _ _ _ _ _ _ E) as (l & H1 & H2). exists l. split; [exact H1|].
  unfold ctimes. cbn [d_out c_d c_time cw_bank cw_d]. rewrite H2.
  assert (Ht : ds_time st' = ds_time (d_in c)).
  { pose proof (dstep_time (d_in c) (ORedelegate (staker_exists c to) (is_active (c_s c) to) d from to a)) as H. cbn [dstep] in H. by rewrite E in H. }
  by rewrite Ht.
Qed.
