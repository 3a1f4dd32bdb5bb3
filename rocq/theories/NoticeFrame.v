(** * Where a new commission comes from: the queue of x/stakers in the running chain. *)
From Verif Require Import Base BaseFacts Delegation Stakers StakersRun Funders Team RoundRobin Pool Bundles Chain ChainFrame ArchiveInv DelegationInv DelegationClaims3 PoolFrame PoolInv Walk IndexInv ChainLift ParamsFrame NoticeClaims.

(** ** x/stakers *)
(** Same queue, same commissions, same clock. *)
Definition same_s (st st' : sstate) : Prop := ss_centries st' = ss_centries st /\ ss_time st' = ss_time st /\ forall s, commission_of st' s = commission_of st s.
Lemma ss_eq st st' : ss_centries st' = ss_centries st -> ss_time st' = ss_time st -> ss_stakers st' = ss_stakers st -> same_s st st'.
Proof. intros H1 H2 H3. split; [done|]. split; [done|]. intros s. unfold commission_of. by rewrite H3. Qed.
Lemma ss_trans a b c : same_s a b -> same_s b c -> same_s a c.
Proof. intros (H1 & H2 & H3) (H4 & H5 & H6). split; [by rewrite H4|]. split; [by rewrite H5|]. intros s. by rewrite H6. Qed.
Lemma ss_insert st st' s x y : ss_centries st' = ss_centries st -> ss_time st' = ss_time st -> ss_stakers st !! s = Some x -> ss_stakers st' = <[s := y]> (ss_stakers st) -> st_commission y = st_commission x -> same_s st st'.
Proof.
  intros H1 Ht H2 H3 H4. split; [done|]. split; [done|]. intros t. unfold commission_of. rewrite H3. destruct (decide (t = s)) as [->|Hn]; [|by rewrite lookup_insert_ne].
  rewrite lookup_insert, H2. cbn. by rewrite H4.
Qed.
Lemma ss_leave st s p : same_s st (leave_pool st s p).
Proof. unfold leave_pool. destruct (get_val _ _ _); by apply ss_eq. Qed.
Lemma ss_add st p s v : same_s st (add_val st p s v).
Proof. unfold add_val. destruct (ss_stakers st !! s); [|by apply ss_eq]. destruct (get_val _ _ _); by apply ss_eq. Qed.
Lemma ss_join st a b s p v x st' : msg_join st a b s p v x = Some st' -> same_s st st'.
Proof.
  unfold msg_join. destruct a as [[|]|]; try done. destruct (ss_stakers st !! s); [|done]. destruct (_ =? _)%N; [done|]. destruct (get_val _ _ _); [done|].
  destruct (ensure_slot _ _ _ _) as [st1|] eqn:Es; [|done]. destruct (existsb _ _); [done|]. destruct (existsb _ _); [done|]. cbv zeta. destruct (pay_kyve _ _ _ _) as [k|]; [|done].
  intros [= <-]. assert (H1 : same_s st st1).
  { unfold ensure_slot in Es. destruct (_ <=? _); [|injection Es as <-; by apply ss_eq]. destruct (_ <? _); [|done]. injection Es as <-. apply ss_leave. }
  eapply ss_trans; [exact H1|]. eapply ss_trans; [apply (ss_add st1 p s v)|]. by apply ss_eq.
Qed.
Lemma ss_increase st s payer x st' : increase_commission_rewards st s payer x = Some st' -> same_s st st'.
Proof.
  unfold increase_commission_rewards. destruct (cempty x); [intros [= <-]; by apply ss_eq|]. destruct (ss_stakers st !! s) as [y|] eqn:E; [|done].
  destruct (send _ _ _ _); [|done]. intros [= <-]. by eapply ss_insert.
Qed.
Lemma ss_claim st s x st' : msg_claim_commission st s x = Some st' -> same_s st st'.
Proof.
  unfold msg_claim_commission. destruct (ss_stakers st !! s) as [y|] eqn:E; [|done]. destruct (negb _); [done|]. destruct (send _ _ _ _); [|done]. intros [= <-]. by eapply ss_insert.
Qed.

(** The block: entries only leave the queue, and a commission that changes is that of an entry that is due. *)
Definition from_queue (st st' : sstate) : Prop :=
  (forall i e, ss_centries st' !! i = Some e -> ss_centries st !! i = Some e) /\
  (forall s, commission_of st' s = commission_of st s \/ exists i e, ss_centries st !! i = Some e /\ ce_staker e = s /\ commission_of st' s = Some (ce_commission e) /\
     wrap_i64 (ce_date e + i64 (ss_ctime st)) <= ss_time st).
Definition Q (st0 st : sstate) : Prop := ss_ctime st = ss_ctime st0 /\ ss_time st = ss_time st0 /\ from_queue st0 st.
Lemma Q_same st0 st st' : Q st0 st -> ss_ctime st' = ss_ctime st -> same_s st st' -> Q st0 st'.
Proof.
  intros (H1 & H2 & H3 & H4) E1 (E3 & E2 & E4). split; [by rewrite E1|]. split; [by rewrite E2|]. split; [intros i e; rewrite E3; apply H3|].
  intros s. rewrite E4. apply H4.
Qed.
Lemma Q_refl st : Q st st. Proof. split; [done|]. split; [done|]. split; [done|]. intros s. by left. Qed.
Lemma Q_loop st0 f : (forall st i st', f st i = Some st' -> Q st0 st -> Q st0 st') ->
  forall fuel high st low, Q st0 st -> Q st0 (fst (queue_loop f high fuel st low)).
Proof.
  intros Hf fuel. induction fuel as [|n IH]; intros high st low HQ; [done|]. cbn [queue_loop].
  destruct (f st (low + 1)%N) as [st1|] eqn:E; [|done]. apply Hf in E; [|done]. destruct (_ <? _)%N; [by apply IH|done].
Qed.
Lemma Q_centry st0 st i st' : process_centry st i = Some st' -> Q st0 st -> Q st0 st'.
Proof.
  unfold process_centry. destruct (ss_centries st !! i) as [e|] eqn:Ee; [|by intros [= <-]]. destruct (wrap_i64 _ <=? _) eqn:Ed; [|done].
  intros [= <-] (H1 & H2 & H3 & H4). rewrite H1, H2 in Ed. apply Z.leb_le in Ed.
  assert (Hdel : forall j x, delete i (ss_centries st) !! j = Some x -> ss_centries st0 !! j = Some x).
  { intros j x Hj. apply lookup_delete_Some in Hj as [_ Hj]. by apply H3. }
  change (ss_stakers (remove_centry st i e)) with (ss_stakers st). destruct (ss_stakers st !! ce_staker e) as [x|] eqn:Ex.
  - split; [done|]. split; [done|]. split; [exact Hdel|]. intros s. unfold commission_of at 1 3. cbn [ss_stakers with_stakers].
    destruct (decide (s = ce_staker e)) as [->|Hn].
    + right. exists i, e. rewrite lookup_insert. split; [by apply H3|]. split; [done|]. split; [done|exact Ed].
    + rewrite lookup_insert_ne by done. apply H4.
  - split; [done|]. split; [done|]. split; [exact Hdel|exact H4].
Qed.
Lemma Q_lentry st0 st i st' : process_lentry st i = Some st' -> Q st0 st -> Q st0 st'.
Proof.
  unfold process_lentry. destruct (ss_lentries st !! i) as [e|]; [|by intros [= <-]]. destruct (_ <=? _); [|done]. intros [= <-] HQ.
  eapply Q_same; [exact HQ| |].
  - unfold leave_pool. by destruct (get_val _ _ _).
  - eapply ss_trans; [|apply ss_leave]. by apply ss_eq.
Qed.
Lemma Q_begin st : ss_time (stakers_begin st) = ss_time st /\ from_queue st (stakers_begin st).
Proof.
  unfold stakers_begin. assert (H1 : Q st (process_commissions st)).
  { unfold process_commissions. destruct (queue_loop _ _ _ _ _) as [st1 low] eqn:E. apply (Q_same _ st1); [|done|by apply ss_eq].
    change st1 with (fst (st1, low)). rewrite <- E. apply Q_loop; [apply Q_centry|apply Q_refl]. }
  revert H1. generalize (process_commissions st). intros st2 H2. unfold process_leaves. destruct (queue_loop _ _ _ _ _) as [st1 low] eqn:E.
  assert (H1 : Q st st1). { change st1 with (fst (st1, low)). rewrite <- E. apply Q_loop; [apply Q_lentry|done]. }
  destruct H1 as (_ & H0 & H1). exact (conj H0 H1).
Qed.

(** ** The chain *)
Definition ck (c c' : chain) : Prop := same_s (c_s c) (c_s c') /\ c_time c' = c_time c.
Lemma ck_refl c : ck c c. Proof. split; [by apply ss_eq|done]. Qed.
Lemma ck_trans a b c : ck a b -> ck b c -> ck a c. Proof. intros [H1 H2] [H3 H4]. split; [by eapply ss_trans|congruence]. Qed.
Lemma ck_is c c' : c_s c' = c_s c -> c_time c' = c_time c -> ck c c'. Proof. intros H Ht. split; [|exact Ht]. rewrite H. by apply ss_eq. Qed.
Lemma ck_s c st : same_s (s_in c) st -> ck c (s_out c st). Proof. intros H. by split. Qed.
Lemma ck_pay c u r : match pay_out c u r with inl c' | inr c' => ck c c' end.
Proof.
  unfold pay_out. destruct (send _ _ _ _) as [bk|]; [|by apply ck_is].
  destruct (increase_commission_rewards _ _ _ _) as [s'|] eqn:E; [|by apply ck_is]. apply ss_increase in E.
  destruct (payout_rewards _ _ _ _) as [d|]; by split.
Qed.
Lemma ck_infl c p c' x : charge_inflation c p = Some (c', x) -> ck c c'.
Proof. unfold charge_inflation. repeat case_match; intros; simplify_eq; by apply ck_is. Qed.
Lemma ck_leave c s p : ck c (s_out c (leave_pool (s_in c) s p)). Proof. apply ck_s, ss_leave. Qed.
Lemma ck_incr c p s : ck c (s_out c (fst (increment_points (s_in c) p s))).
Proof. apply ck_s. unfold increment_points. destruct (get_val _ _ _); by apply ss_eq. Qed.
Lemma ck_reset c p s : ck c (reset_pts c p s).
Proof. unfold reset_pts. apply ck_s. unfold reset_points. destruct (get_val _ _ _); by apply ss_eq. Qed.
Lemma ck_final c p v : ck c (finalize c p v).
Proof. unfold finalize. destruct (get_pool c p); by apply ck_is. Qed.
Lemma ck_slash c s t : ck c (d_out c (fst (slash_delegators (d_in c) s t))). Proof. by apply ck_is. Qed.
Lemma ck_charge c p : ck c (f_out c (fst (charge_funders (f_in c) p MPool))). Proof. by apply ck_is. Qed.
Ltac cwalk l := apply (l ck ck_refl ck_trans); try exact ck_pay; try exact ck_infl; try exact ck_leave; try exact ck_incr; try exact ck_reset; try exact ck_final;
  try exact ck_slash; try exact ck_charge; try (intros; by apply ck_is); try done.
(** Messages that do not concern commissions. *)
Definition unconcerned (o : cop) : bool := match o with CCreateStaker _ _ _ | CUpdateCommission _ _ | CBegin _ _ => false | _ => true end.
Lemma com_frame c o : unconcerned o = true -> ck c (cstep c o).
Proof.
  intros Ho. unfold cstep. destruct (cmsg c o) as [c'|] eqn:E; [|apply ck_refl]. change (default c (Some c')) with c'.
  destruct o; cbn [cmsg unconcerned] in E, Ho; try done;
    try (match type of E with ?f <$> ?x = _ => destruct x as [y|] eqn:Ex; [injection E as <-|done] end);
    try (destruct (_ =? _)%N; [injection E as <-|done]);
    try (by apply ck_is); try (split; [by apply ss_eq|done]).
  - apply ck_s. by eapply ss_claim.
  - apply ck_s. by eapply ss_join.
  - apply ck_s. unfold msg_leave in Ex. destruct (get_val _ _ _); [|done]. cbv zeta in Ex. destruct (bool_decide _); [done|]. injection Ex as <-. by apply ss_eq.
  - revert E. cwalk k_submit.
  - revert E. apply (k_vote ck ck_trans); [exact ck_reset|]. intros; by apply ck_is.
  - revert E. cwalk k_skip.
  - unfold msg_claim_role in E. repeat (destruct (negb _); [done|]). injection E as <-. by apply ck_is.
  - unfold chain_create_pool in E. destruct (msg_create_pool _ _ _ _ _); [|done]. injection E as <-. by apply ck_is.
  - unfold chain_disable_pool in E. destruct (disable_record _ _ _) as [ps|]; [|done]. cbv zeta in E. set (c2 := fold_left _ _ _) in E.
    assert (H2 : ck c c2).
    { unfold c2. apply (ck_trans _ (cw_pools c ps)); [by apply ck_is|]. apply (k_fold ck ck_refl ck_trans). intros. apply ck_leave. }
    destruct (_ <=? _); [done|]. destruct (0 <? _); [|by injection E as <-]. destruct (i64 _ <? 0); [done|].
    destruct (send _ _ _ _); [|done]. injection E as <-. eapply ck_trans; [exact H2|]. by apply ck_is.
  - injection E as <-. unfold end_block. set (c1 := cw_pools _ _). apply (ck_trans _ c1); [by apply ck_is|].
    apply (ck_trans _ (handle_upload_timeout c1)); [cwalk k_handle_timeout|].
    unfold burn_fees. destruct (c_height _ =? 1); [by apply ck_is|]. destruct (c_burn _ =? 0); [by apply ck_is|]. destruct (burn _ _ _); by apply ck_is.
  - injection E as <-. by apply ck_is.
Qed.
Lemma ck_split c pr c' : split_inflation c pr = Some c' -> ck c c'.
Proof.
  assert (Hg : forall c p x c', give c p x = Some c' -> ck c c').
  { intros c0 p x c0'. unfold give. destruct (i64 x <? 0); [done|]. destruct (send _ _ _ _); intros [= <-]; by apply ck_is. }
  assert (Hs : forall l c t pr d c' d', split_loop c t pr d l = Some (c', d') -> ck c c').
  { induction l as [|p l IH]; intros c0 t pr0 d c0' d'; simpl; [intros [= <- <-]; apply ck_refl|].
    destruct (can_run c0 p); [|apply IH]. destruct (pool_share _ _ _) as [x|]; [|done].
    destruct (give c0 p x) as [c1|] eqn:Eg; [|done]. apply Hg in Eg. intros H. apply IH in H. by eapply ck_trans. }
  assert (Hr : forall l c x c', remainder_loop c x l = Some c' -> ck c c').
  { induction l as [|p l IH]; intros c0 x c0'; simpl; [intros [= <-]; apply ck_refl|].
    destruct (can_run c0 p); [apply IH|].
    destruct (give c0 p x) as [c1|] eqn:Eg; [|done]. apply Hg in Eg. intros H. apply IH in H. by eapply ck_trans. }
  unfold split_inflation. destruct (block_provision _ _ _) as [[h team]|]; [|done].
  destruct (trunc64 _) as [protocol|]; [|done].
  set (c0 := if h then cw_halt c else c). assert (Hc0 : ck c c0) by (unfold c0; destruct h; by apply ck_is).
  destruct (protocol =? 0); [by intros [= <-]|]. destruct (total_weight c0 =? 0); [by intros [= <-]|].
  destruct (split_loop _ _ _ _ _) as [[c1 d]|] eqn:Es; [|done]. apply Hs in Es.
  destruct (0 <? _).
  - intros H. apply Hr in H. eapply ck_trans; [exact Hc0|]. by eapply ck_trans.
  - intros [= <-]. by eapply ck_trans.
Qed.

(** ** Requests *)
Definition leaves_notice (o : cop) : Prop := match o with CParamsS _ _ _ => False | _ => True end.
Lemma notice_step c o : leaves_notice o -> ss_ctime (c_s (cstep c o)) = ss_ctime (c_s c).
Proof.
  intros Ho. destruct (updates_params o) eqn:Eu.
  - unfold cstep. destruct o; try done; cbn [cmsg]; by destruct (_ =? _)%N.
  - apply (params_frame c o) in Eu. unfold cpar in Eu. by injection Eu as _ -> _.
Qed.
Lemma notice_run ops : forall c, Forall leaves_notice ops -> ss_ctime (c_s (crun c ops)) = ss_ctime (c_s c).
Proof.
  induction ops as [|o ops IH]; intros c H; [done|]. apply Forall_cons in H as [H1 H2].
  change (crun c (o :: ops)) with (crun (cstep c o) ops). rewrite (IH _ H2). by apply notice_step.
Qed.

(** Every entry of the queue is an accepted request of the history. *)
Definition asked_in (c0 : chain) (ops : list cop) (e : centry) : Prop :=
  exists pre post, ops = pre ++ CUpdateCommission (ce_staker e) (ce_commission e) :: post /\
    is_Some (cmsg (crun c0 pre) (CUpdateCommission (ce_staker e) (ce_commission e))) /\ ce_date e = c_time (crun c0 pre).
Definition RQ (c0 : chain) (ops : list cop) (c : chain) : Prop :=
  ss_time (c_s c) = c_time c /\ 0 <= c_time c /\ forall i e, ss_centries (c_s c) !! i = Some e -> asked_in c0 ops e.
Lemma asked_more c0 ops o e : asked_in c0 ops e -> asked_in c0 (ops ++ [o]) e.
Proof. intros (pre & post & -> & H). exists pre, (post ++ [o]). split; [by rewrite <- app_assoc|exact H]. Qed.

Lemma begin_view c t pr : exists st, c_s (cstep c (CBegin t pr)) = stakers_begin st /\ c_time (cstep c (CBegin t pr)) = t /\ ss_time st = t /\
  ss_centries st = ss_centries (c_s c) /\ ss_stakers st = ss_stakers (c_s c) /\ ss_ctime st = ss_ctime (c_s c).
Proof.
  change (cstep c (CBegin t pr)) with (begin_block c t pr). unfold begin_block. set (c0 := cw_time _ _ _). set (c1 := t_out c0 _). set (c2 := match split_inflation c1 pr with Some x => x | None => cw_halt c1 end).
  assert (H2 : c_s c2 = c_s c /\ c_time c2 = t). { unfold c2. destruct (split_inflation c1 pr) eqn:Es; [|done]. split; [by apply s_split in Es|]. by apply ck_split in Es as [_ ?]. }
  destruct H2 as [H2 H3]. clearbody c2. clear c0 c1. cbv zeta. set (c3 := d_out c2 _).
  exists (with_stime (s_in c3) t). split; [done|]. split; [exact H3|]. split; [done|]. change (c_s c3) with (c_s c2).
  cbn [with_stime s_in with_sbank ss_centries ss_stakers ss_ctime]. change (c_s c3) with (c_s c2). by rewrite H2.
Qed.

Lemma com_of_eq st st' s : ss_stakers st' = ss_stakers st -> commission_of st' s = commission_of st s.
Proof. intros H. unfold commission_of. by rewrite H. Qed.
(** A request: one new entry, nothing else. *)
Lemma order_view c s x c' : cmsg c (CUpdateCommission s x) = Some c' -> c_time c' = c_time c /\ ss_time (c_s c') = ss_time (c_s c) /\ (forall t, commission_of (c_s c') t = commission_of (c_s c) t) /\
  forall i e, ss_centries (c_s c') !! i = Some e -> e = mkCE s x (ss_time (c_s c)) \/ ss_centries (c_s c) !! i = Some e.
Proof.
  cbn [cmsg]. destruct (msg_update_commission _ _ _) as [st|] eqn:E; [|done]. intros [= <-]. unfold msg_update_commission in E. destruct (ss_stakers _ !! _); [|done]. injection E as <-.
  set (st1 := match ss_cindex (s_in c) !! s with None => s_in c | Some i => match ss_centries (s_in c) !! i with None => s_in c | Some e => remove_centry (s_in c) i e end end).
  assert (H1 : ss_time st1 = ss_time (c_s c) /\ ss_stakers st1 = ss_stakers (c_s c) /\ forall i e, ss_centries st1 !! i = Some e -> ss_centries (c_s c) !! i = Some e).
  { unfold st1. destruct (ss_cindex _ !! _) as [i|]; [|done]. destruct (ss_centries _ !! i); [|done]. split; [done|]. split; [done|].
    intros j e Hj. change (delete i (ss_centries (c_s c)) !! j = Some e) in Hj. by apply lookup_delete_Some in Hj as [_ Hj]. }
  destruct H1 as (H1 & H2 & H3). split; [done|].
  change (order_commission (s_in c) s x) with (with_cq st1 (<[(ss_chigh st1 + 1)%N := mkCE s x (ss_time st1)]> (ss_centries st1)) (<[s := (ss_chigh st1 + 1)%N]> (ss_cindex st1)) (ss_clow st1) (ss_chigh st1 + 1)%N).
  clearbody st1. split; [exact H1|]. split; [intros t; by apply com_of_eq|].
  intros i e. change (ss_centries (c_s (s_out c (with_cq st1 ?m ?b ?d ?f)))) with m. intros Hi. apply lookup_insert_Some in Hi as [[_ <-]|[_ Hi]]; [left; by rewrite H1|right; by apply H3].
Qed.
Lemma create_view c s x a c' : cmsg c (CCreateStaker s x a) = Some c' -> c_time c' = c_time c /\ ss_time (c_s c') = ss_time (c_s c) /\ ss_centries (c_s c') = ss_centries (c_s c) /\
  forall t y, commission_of (c_s c) t = Some y -> commission_of (c_s c') t = Some y.
Proof.
  cbn [cmsg]. unfold chain_create_staker. destruct (msg_delegate _ _ _ _ _); [|done]. destruct (msg_create_staker _ _ _ _) as [st|] eqn:Es; [|done]. intros [= <-].
  unfold msg_create_staker in Es. destruct (ss_stakers _ !! _) eqn:Ex; [done|]. injection Es as <-. split; [done|]. split; [done|]. split; [done|].
  intros t y. unfold commission_of. change (ss_stakers (c_s (d_out (cw_s ?a (with_stakers ?b ?m)) ?d))) with m. destruct (decide (t = s)) as [->|Hn]; [by rewrite Ex|by rewrite lookup_insert_ne].
Qed.

Lemma RQ_step c0 ops c o : c = crun c0 ops -> RQ c0 ops c -> cop_ok c o -> RQ c0 (ops ++ [o]) (cstep c o).
Proof.
  intros Ec (H1 & H2 & H3) Ho.
  destruct (unconcerned o) eqn:Eu.
  - destruct (com_frame c o Eu) as ((F1 & F2 & _) & F3). split; [by rewrite F2, F3|]. split; [by rewrite F3|]. intros i e. rewrite F1. intros Hi. by eapply asked_more, H3.
  - destruct o; try done.
    + unfold cstep. destruct (cmsg c _) as [c'|] eqn:E; cbn [default from_option id]; [|split; [done|]; split; [done|]; intros i e Hi; by eapply asked_more, H3].
      apply create_view in E as (F1 & F2 & F3 & _). split; [by rewrite F1, F2|]. split; [by rewrite F1|]. intros i e. rewrite F3. intros Hi. by eapply asked_more, H3.
    + unfold cstep. destruct (cmsg c _) as [c'|] eqn:E; cbn [default from_option id]; [|split; [done|]; split; [done|]; intros i e Hi; by eapply asked_more, H3].
      pose proof E as Em. apply order_view in E as (F1 & F2 & _ & F3). split; [by rewrite F1, F2|]. split; [by rewrite F1|]. intros i e Hi.
      destruct (F3 _ _ Hi) as [->|Hi']; [|by eapply asked_more, H3]. exists ops, []. split; [done|]. cbn [ce_staker ce_commission ce_date]. rewrite <- Ec. split; [by eexists|exact H1].
    + destruct (begin_view c t provision) as (st & B1 & B2 & B3 & B4 & _ & _). destruct (Q_begin st) as (Q1 & Q2 & _). cbn [cop_ok] in Ho.
      split; [by rewrite B1, B2, Q1|]. split; [rewrite B2; lia|]. intros i e. rewrite B1. intros Hi. apply Q2 in Hi. rewrite B4 in Hi. by eapply asked_more, H3.
Qed.
Lemma RQ_run g ops : genesis g -> cops_ok (gstart g) ops -> RQ (gstart g) ops (crun (gstart g) ops).
Proof.
  intros Hg. induction ops as [|o ops IH] using rev_ind.
  - intros _. split; [done|]. split; [destruct Hg as (_ & _ & H & _); cbn; lia|]. intros i e. change (ss_centries (c_s (crun (gstart g) []))) with (∅ : gmap N centry). by rewrite lookup_empty.
  - intros H. apply cops_ok_app in H as [H1 H2]. rewrite crun_app. change (crun ?a [o]) with (cstep a o). apply RQ_step; [done|by apply IH|exact (proj1 H2)].
Qed.

Lemma ctime_run g ops : genesis g -> cops_ok (gstart g) ops -> 0 <= ss_ctime (c_s (crun (gstart g) ops)).
Proof.
  intros Hg. induction ops as [|o ops IH] using rev_ind.
  - intros _. destruct Hg as (_ & _ & _ & _ & H & _). cbn. unfold u64 in H. lia.
  - intros H. apply cops_ok_app in H as [H1 H2]. rewrite crun_app. change (crun ?a [o]) with (cstep a o). specialize (IH H1). destruct H2 as [H2 _].
    assert (D : leaves_notice o \/ exists b x y, o = CParamsS b x y) by (destruct o; try (left; exact I); right; eauto).
    destruct D as [D|(b & x & y & ->)]; [by rewrite notice_step|]. unfold cstep. cbn [cmsg]. destruct (_ =? _)%N; [|exact IH].
    cbn [default from_option id]. change (0 <= x). destruct H2 as [[H2 _] _]. exact H2.
Qed.

Lemma claim_notice g ops o s x0 x1 : genesis g -> cops_ok (gstart g) (ops ++ [o]) -> let c := crun (gstart g) ops in let c' := cstep c o in
  ss_ctime (c_s c) < two62 -> commission_of (c_s c) s = Some x0 -> commission_of (c_s c') s = Some x1 -> x0 <> x1 ->
  exists t prov pre post, o = CBegin t prov /\ ops = pre ++ CUpdateCommission s x1 :: post /\ let a := crun (gstart g) pre in
    is_Some (cmsg a (CUpdateCommission s x1)) /\ c_time a + ss_ctime (c_s c) <= t /\ (Forall leaves_notice post -> c_time a + ss_ctime (c_s a) <= t).
Proof.
  intros Hg Hok. cbv zeta. apply cops_ok_app in Hok as [Hok Ho]. pose proof (RQ_run g ops Hg Hok) as (R1 & R2 & R3). pose proof (ctime_run g ops Hg Hok) as Hc0.
  remember (crun (gstart g) ops) as c eqn:Ec. intros Hct H0 H1 Hne. destruct (unconcerned o) eqn:Eu.
  { destruct (com_frame c o Eu) as ((_ & _ & F) & _). rewrite F in H1. congruence. }
  destruct o; try done.
  - exfalso. unfold cstep in H1. destruct (cmsg c _) as [c'|] eqn:E; cbn [default from_option id] in H1; [|congruence].
    apply create_view in E as (_ & _ & _ & F). apply F in H0. congruence.
  - exfalso. unfold cstep in H1. destruct (cmsg c _) as [c'|] eqn:E; cbn [default from_option id] in H1; [|congruence].
    apply order_view in E as (_ & _ & F & _). rewrite F in H1. congruence.
  - destruct (begin_view c t provision) as (st & B1 & _ & B3 & B4 & B5 & B6). destruct (Q_begin st) as (_ & _ & Q2).
    rewrite B1 in H1. rewrite <- (com_of_eq (c_s c) st s B5) in H0. destruct (Q2 s) as [Q2'|(i & e & E1 & E2 & E3 & E4)]; [congruence|].
    rewrite B4 in E1. destruct (R3 _ _ E1) as (pre & post & -> & A1 & A2). rewrite H1 in E3. injection E3 as E3. subst s. rewrite E3 in *. clear E3.
    exists t, provision, pre, post. split; [done|]. split; [done|]. split; [exact A1|].
    apply cops_ok_app in Hok as [Hpre _]. pose proof (RQ_run g pre Hg Hpre) as (_ & P0 & _). pose proof (G_run g Hg pre Hpre) as HP.
    destruct (g_times _ _ HP) as (_ & _ & _ & P1).
    rewrite B3, B6 in E4. rewrite A2, due_small in E4; [|split; [exact P0|exact P1]|].
    + split; [exact E4|]. intros Hp. rewrite Ec, crun_app in E4. change (crun ?a (?o :: ?l)) with (crun (cstep a o) l) in E4.
      rewrite (notice_run _ _ Hp), notice_step in E4 by done. exact E4.
    + split; [exact Hc0|exact Hct].
Qed.
