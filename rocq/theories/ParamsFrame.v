(** * Nothing but an update of the parameters changes the parameters. *)
From Verif Require Import Base BaseFacts Delegation Stakers Funders Team RoundRobin Pool Bundles Chain ChainFrame DelegationInv DelegationClaims3 PoolFrame Walk IndexInv.

(** The parameters the chain keeps. *)
Definition cpar (c : chain) := (ds_params (c_d c), (ss_ctime (c_s c), ss_ltime (c_s c)), fs_params (c_f c), c_pp c, c_bp c, c_burn c).

(** ** x/stakers *)
Definition spar (st : sstate) : Z * Z := (ss_ctime st, ss_ltime st).
Lemma spar_leave st s p : spar (leave_pool st s p) = spar st.
Proof. unfold leave_pool. by destruct (get_val _ _ _). Qed.
Lemma spar_add st p s v : spar (add_val st p s v) = spar st.
Proof. unfold add_val. repeat case_match; done. Qed.
Lemma spar_ensure st del p s st' : ensure_slot st del p s = Some st' -> spar st' = spar st.
Proof. unfold ensure_slot. repeat case_match; intros [= <-]; [apply spar_leave|done]. Qed.
Lemma spar_loop f : (forall st i st', f st i = Some st' -> spar st' = spar st) ->
  forall fuel high st low, spar (fst (queue_loop f high fuel st low)) = spar st.
Proof.
  intros Hf fuel. induction fuel as [|n IH]; intros high st low; [done|]. cbn [queue_loop].
  destruct (f st (low + 1)%N) as [st1|] eqn:E; [|done]. destruct (_ <? _)%N; [rewrite IH|]; by apply Hf in E.
Qed.
Lemma spar_begin st : spar (stakers_begin st) = spar st.
Proof.
  unfold stakers_begin.
  assert (Hc : spar (process_commissions st) = spar st).
  { unfold process_commissions. destruct (queue_loop _ _ _ _ _) as [st1 low] eqn:E.
    change (spar st1 = spar st). change st1 with (fst (st1, low)). rewrite <- E. apply spar_loop. clear.
    intros st i st'. unfold process_centry. destruct (ss_centries st !! i); [|by intros [= <-]].
    destruct (_ <=? _); [|done]. intros [= <-]. by destruct (ss_stakers _ !! _). }
  rewrite <- Hc. generalize (process_commissions st). clear. intros st.
  unfold process_leaves. destruct (queue_loop _ _ _ _ _) as [st1 low] eqn:E.
  change (spar st1 = spar st). change st1 with (fst (st1, low)). rewrite <- E. apply spar_loop. clear.
  intros st i st'. unfold process_lentry. destruct (ss_lentries st !! i); [|by intros [= <-]].
  destruct (_ <=? _); [|done]. intros [= <-]. by rewrite spar_leave.
Qed.
Lemma spar_step st o : match o with SParams _ _ => False | _ => True end -> spar (sstep st o) = spar st.
Proof.
  intros Hok. destruct o; cbn [sstep]; try done.
  - unfold msg_create_staker. repeat case_match; done.
  - unfold msg_update_commission, order_commission. repeat case_match; done.
  - unfold msg_claim_commission. repeat case_match; done.
  - unfold msg_join. repeat case_match; try done.
    match goal with H : ensure_slot _ _ _ _ = Some _ |- _ => rewrite <- (spar_ensure _ _ _ _ _ H) end. apply spar_add.
  - unfold msg_leave. repeat case_match; done.
  - apply spar_leave.
  - unfold increase_commission_rewards. repeat case_match; done.
  - unfold increment_points. repeat case_match; done.
  - unfold reset_points. repeat case_match; done.
  - by rewrite spar_begin.
Qed.

(** ** x/funders *)
Lemma fpar_charge st p r : fs_params (fst (charge_funders st p r)) = fs_params st.
Proof.
  unfold charge_funders. destruct (fs_active st !! p) as [l|]; [|done]. destruct (active_fundings st p l) as [|af afs]; [done|].
  set (wl0 := wl st). clearbody wl0.
  assert (H : forall l0 acc, fs_params (fst (fst acc)) = fs_params st -> fs_params (fst (fst (fold_left (charge_step wl0 p) l0 acc))) = fs_params st).
  { induction l0 as [|[a f] t IH]; intros [[st' act] pays] He; [done|]. cbn [fold_left]. apply IH. unfold charge_step.
    by destruct (charge_one _ _). }
  specialize (H (af :: afs) (st, l, ∅) eq_refl). destruct (fold_left _ _ _) as [[st1 act] pays]. cbn [fst] in H.
  destruct (cempty pays); [done|]. by destruct (send _ _ _ _).
Qed.
Lemma fpar_step st o : match o with FParams _ => False | _ => True end -> fs_params (fstep st o) = fs_params st.
Proof.
  intros Ho. destruct o; cbn [fstep]; try done.
  - unfold msg_create_funder. by case_bool_decide.
  - unfold msg_fund. destruct (negb _); [done|]. destruct (negb _); [done|]. destruct (fs_active st !! p) as [l|]; [|done].
    destruct (ensure_params _ _) as [f1|]; [|done]. destruct (ensure_free_slot st p a f1 l) as [[st1 act1]|] eqn:E; [|done].
    assert (E1 : fs_params st1 = fs_params st).
    { unfold ensure_free_slot in E. repeat case_match; simplify_eq; done. }
    by destruct (send _ _ _ _).
  - unfold msg_defund. destruct (fs_fundings st !! (a, p)); [|done].
    destruct (match fs_active st !! p with Some _ => _ | None => _ end) as [[sp act] mi].
    destruct (cempty _); [done|]. destruct (ensure_params _ _); [|done]. by destruct (send _ _ _ _).
  - apply fpar_charge.
Qed.

(** ** The chain *)
Definition pk (c c' : chain) : Prop := cpar c' = cpar c.
Lemma pk_refl c : pk c c. Proof. done. Qed.
Lemma pk_trans a b c : pk a b -> pk b c -> pk a c. Proof. unfold pk. congruence. Qed.
Lemma pk_d c o : no_params o -> pk c (d_out c (dstep (d_in c) o)).
Proof. intros H. unfold pk, cpar. cbn [d_out c_d c_s c_f c_pp c_bp c_burn cw_bank cw_d]. by rewrite (params_kept (d_in c) o H). Qed.
Lemma pk_s c st : spar st = spar (s_in c) -> pk c (s_out c st).
Proof. unfold spar. intros [= E1 E2]. unfold pk, cpar. cbn. by rewrite E1, E2. Qed.
Lemma pk_f c st : fs_params st = fs_params (f_in c) -> pk c (f_out c st).
Proof. intros E. unfold pk, cpar. cbn. by rewrite E. Qed.
Lemma pk_pay c u r : match pay_out c u r with inl c' | inr c' => pk c c' end.
Proof.
  unfold pay_out. destruct (send _ _ _ _) as [bk|]; [|done].
  destruct (increase_commission_rewards _ _ _ _) as [s'|] eqn:E; [|done].
  assert (H : pk c (s_out (cw_bank c bk) s')).
  { unfold increase_commission_rewards in E. repeat case_match; simplify_eq; done. }
  destruct (payout_rewards _ _ _ _) as [d|] eqn:Ep; [|exact H].
  eapply pk_trans; [exact H|]. unfold payout_rewards in Ep. repeat case_match; simplify_eq; done.
Qed.
Lemma pk_infl c p c' x : charge_inflation c p = Some (c', x) -> pk c c'.
Proof. unfold charge_inflation. repeat case_match; intros; simplify_eq; done. Qed.
Lemma pk_leave c s p : pk c (s_out c (leave_pool (s_in c) s p)).
Proof. apply pk_s. by rewrite spar_leave. Qed.
Lemma pk_incr c p s : pk c (s_out c (fst (increment_points (s_in c) p s))).
Proof. apply pk_s. apply (spar_step (s_in c) (SPoint s p)). done. Qed.
Lemma pk_reset c p s : pk c (reset_pts c p s).
Proof. unfold reset_pts. apply pk_s. apply (spar_step (s_in c) (SReset s p)). done. Qed.
Lemma pk_final c p v : pk c (finalize c p v).
Proof. unfold finalize. by destruct (get_pool c p). Qed.
Lemma pk_slash c s t : pk c (d_out c (fst (slash_delegators (d_in c) s t))).
Proof. by apply (pk_d c (OSlash s t)). Qed.
Lemma pk_charge c p : pk c (f_out c (fst (charge_funders (f_in c) p MPool))).
Proof. apply pk_f. by rewrite fpar_charge. Qed.
Ltac pwalk l := apply (l pk pk_refl pk_trans); try exact pk_pay; try exact pk_infl; try exact pk_leave; try exact pk_incr; try exact pk_reset; try exact pk_final;
  try exact pk_slash; try exact pk_charge; try done.
(** Nothing but the parameters and the balances change in the fields that matter here. *)
Lemma pk_split c pr c' : split_inflation c pr = Some c' -> pk c c'.
Proof.
  assert (Hg : forall c p x c', give c p x = Some c' -> pk c c').
  { intros c0 p x c0'. unfold give. destruct (i64 x <? 0); [done|]. by destruct (send _ _ _ _); intros [= <-]. }
  assert (Hs : forall l c t pr d c' d', split_loop c t pr d l = Some (c', d') -> pk c c').
  { induction l as [|p l IH]; intros c0 t pr0 d c0' d'; simpl; [by intros [= <- <-]|].
    destruct (can_run c0 p); [|apply IH]. destruct (pool_share _ _ _) as [x|]; [|done].
    destruct (give c0 p x) as [c1|] eqn:Eg; [|done]. apply Hg in Eg. intros H. apply IH in H. by eapply pk_trans. }
  assert (Hr : forall l c x c', remainder_loop c x l = Some c' -> pk c c').
  { induction l as [|p l IH]; intros c0 x c0'; simpl; [by intros [= <-]|].
    destruct (can_run c0 p); [apply IH|].
    destruct (give c0 p x) as [c1|] eqn:Eg; [|done]. apply Hg in Eg. intros H. apply IH in H. by eapply pk_trans. }
  unfold split_inflation. destruct (block_provision _ _ _) as [[h team]|]; [|done].
  destruct (trunc64 _) as [protocol|]; [|done].
  set (c0 := if h then cw_halt c else c). assert (Hc0 : pk c c0) by (unfold c0; by destruct h).
  destruct (protocol =? 0); [by intros [= <-]|]. destruct (total_weight c0 =? 0); [by intros [= <-]|].
  destruct (split_loop _ _ _ _ _) as [[c1 d]|] eqn:Es; [|done]. apply Hs in Es.
  destruct (0 <? _).
  - intros H. apply Hr in H. eapply pk_trans; [exact Hc0|]. by eapply pk_trans.
  - intros [= <-]. by eapply pk_trans.
Qed.
Definition updates_params (o : cop) : bool :=
  match o with CParamsD _ _ | CParamsS _ _ _ | CParamsF _ _ | CParamsP _ _ | CParamsB _ _ | CParamsG _ _ => true | _ => false end.
Lemma params_frame c o : updates_params o = false -> cpar (cstep c o) = cpar c.
Proof.
  intros Ho. change (pk c (cstep c o)). unfold cstep. destruct (cmsg c o) as [c'|] eqn:E; [|done]. change (default c (Some c')) with c'.
  destruct o; cbn [cmsg updates_params] in E, Ho; try done;
    try (match type of E with ?f <$> ?x = _ => destruct x as [y|] eqn:Ex; [injection E as <-|done] end);
    try (exact eq_refl).
  - replace y with (dstep (d_in c) (ODelegate (staker_exists c s) d s a)) by (cbn [dstep]; by rewrite Ex). by apply pk_d.
  - replace y with (dstep (d_in c) (OUndelegate d s a)) by (cbn [dstep]; by rewrite Ex). by apply pk_d.
  - replace y with (dstep (d_in c) (ORedelegate (staker_exists c to) (is_active (c_s c) to) d from to a)) by (cbn [dstep]; by rewrite Ex). by apply pk_d.
  - replace y with (dstep (d_in c) (OWithdraw d s)) by (cbn [dstep]; by rewrite Ex). by apply pk_d.
  - unfold chain_create_staker in E. destruct (msg_delegate _ _ _ _ _) as [d|] eqn:Ed; [|done].
    destruct (msg_create_staker _ _ _ _) as [s'|] eqn:Es; [|done]. injection E as <-.
    assert (E1 : ds_params d = ds_params (d_in c)).
    { rewrite <- (params_kept (d_in c) (ODelegate true s s a) I). cbn [dstep]. by rewrite Ed. }
    assert (E2 : spar s' = spar (c_s c)).
    { unfold msg_create_staker in Es. repeat case_match; simplify_eq; done. }
    unfold spar in E2. injection E2 as E2 E3. unfold pk, cpar. cbn. rewrite E1, E2, E3. done.
  - apply pk_s. rewrite <- (spar_step (s_in c) (SUpdateCommission s c0) I). cbn [sstep]. by rewrite Ex.
  - apply pk_s. rewrite <- (spar_step (s_in c) (SClaim s amounts) I). cbn [sstep]. by rewrite Ex.
  - apply pk_s. rewrite <- (spar_step (s_in c) (SJoin (pl_disabled <$> get_pool c p) (power c) s p v a) I). cbn [sstep]. by rewrite Ex.
  - apply pk_s. rewrite <- (spar_step (s_in c) (SLeave s p) I). cbn [sstep]. by rewrite Ex.
  - apply pk_f. rewrite <- (fpar_step (f_in c) (FCreateFunder a) I). cbn [fstep]. by rewrite Ex.
  - apply pk_f. erewrite <- (fpar_step (f_in c) (FFund (pool_exists c p) a p _ _) I). cbn [fstep]. by rewrite Ex.
  - apply pk_f. erewrite <- (fpar_step (f_in c) (FDefund a p _) I). cbn [fstep]. by rewrite Ex.
  - revert E. pwalk k_submit.
  - revert E. apply (k_vote pk pk_trans); [exact pk_reset|]. done.
  - revert E. pwalk k_skip.
  - unfold msg_claim_role in E. repeat (destruct (negb _); [done|]). by injection E as <-.
  - unfold chain_create_pool in E. destruct (msg_create_pool _ _ _ _ _); [|done]. by injection E as <-.
  - unfold chain_disable_pool in E. destruct (disable_record _ _ _) as [ps|]; [|done]. cbv zeta in E. set (c2 := fold_left _ _ _) in E.
    assert (H2 : pk c c2).
    { unfold c2. apply (pk_trans _ (cw_pools c ps)); [done|]. apply (k_fold pk pk_refl pk_trans). intros. apply pk_leave. }
    destruct (_ <=? _); [done|]. destruct (0 <? _); [|by injection E as <-]. destruct (i64 _ <? 0); [done|].
    destruct (send _ _ _ _); [|done]. injection E as <-. eapply pk_trans; [exact H2|done].
  - injection E as <-. unfold begin_block. set (c0 := cw_time _ _ _). set (c1 := t_out c0 _).
    set (c2 := match split_inflation c1 provision with Some x => x | None => cw_halt c1 end).
    assert (Hb : pk c c2).
    { unfold c2. destruct (split_inflation c1 provision) eqn:E; [|done]. apply pk_split in E. exact E. }
    eapply pk_trans; [exact Hb|]. clearbody c2. clear.
    set (c3 := d_out c2 _). apply (pk_trans _ c3).
    + assert (Hq : ds_params (fst (process_queue (with_time (d_in c2) t))) = ds_params (c_d c2))
        by exact (params_kept (with_time (d_in c2) 0) (OBeginBlock t) I).
      unfold pk, cpar, c3. cbn [d_out c_d c_s c_f c_pp c_bp c_burn cw_bank cw_d]. by rewrite Hq.
    + apply pk_s. by rewrite spar_begin.
  - injection E as <-. unfold end_block. set (c1 := cw_pools _ _). apply (pk_trans _ c1); [done|].
    apply (pk_trans _ (handle_upload_timeout c1)); [pwalk k_handle_timeout|].
    unfold burn_fees. destruct (c_height _ =? 1); [done|]. destruct (c_burn _ =? 0); [done|]. by destruct (burn _ _ _).
  - by injection E as <-.
Qed.
