(** * Who leaves a pool in a block: the leave queue of x/stakers in the running chain. *)
From Verif Require Import Base BaseFacts Delegation Stakers StakersInv StakersRun Funders Team RoundRobin Pool Bundles Chain ChainFrame ArchiveInv DelegationInv DelegationClaims3 PoolFrame PoolInv Walk IndexInv ChainLift ParamsFrame TallyClaims RunsClaims NoticeClaims NoticeFrame.

(** ** x/stakers *)
(** Same queue of leaving stakers. *)
Definition same_l (st st' : sstate) : Prop := ss_lentries st' = ss_lentries st.
Lemma sl_leave st s p : same_l st (leave_pool st s p).
Proof. unfold leave_pool. by destruct (get_val _ _ _). Qed.
Lemma sl_add st p s v : same_l st (add_val st p s v).
Proof. unfold add_val. destruct (ss_stakers st !! s); [|done]. by destruct (get_val _ _ _). Qed.
Lemma sl_join st a b s p v x st' : msg_join st a b s p v x = Some st' -> same_l st st'.
Proof.
  unfold msg_join. destruct a as [[|]|]; try done. destruct (ss_stakers st !! s); [|done]. destruct (_ =? _)%N; [done|]. destruct (get_val _ _ _); [done|].
  destruct (ensure_slot _ _ _ _) as [st1|] eqn:Es; [|done]. destruct (existsb _ _); [done|]. destruct (existsb _ _); [done|]. cbv zeta. destruct (pay_kyve _ _ _ _) as [k|]; [|done].
  intros [= <-]. assert (H1 : same_l st st1).
  { unfold ensure_slot in Es. destruct (_ <=? _); [|by injection Es as <-]. destruct (_ <? _); [|done]. injection Es as <-. apply sl_leave. }
  unfold same_l in *. rewrite <- H1. apply (sl_add st1 p s v).
Qed.

(** The block: entries only leave the queue, and a member who is gone had an entry that is due. *)
Definition left_by_queue (st st' : sstate) : Prop :=
  (forall i e, ss_lentries st' !! i = Some e -> ss_lentries st !! i = Some e) /\
  (forall p s, get_val st p s <> None -> get_val st' p s = None -> exists i e, ss_lentries st !! i = Some e /\ le_staker e = s /\ le_pool e = p /\
     wrap_i64 (le_date e + i64 (ss_ltime st)) <= ss_time st).
Definition QL (st0 st : sstate) : Prop := ss_ltime st = ss_ltime st0 /\ ss_time st = ss_time st0 /\ left_by_queue st0 st.
Lemma QL_refl st : QL st st. Proof. split; [done|]. split; [done|]. split; [done|]. intros p s H1 H2. done. Qed.
Lemma QL_same st0 st st' : QL st0 st -> ss_ltime st' = ss_ltime st -> ss_time st' = ss_time st -> ss_lentries st' = ss_lentries st -> ss_val st' = ss_val st -> QL st0 st'.
Proof.
  intros (H1 & H2 & H3 & H4) E1 E2 E3 E4. split; [by rewrite E1|]. split; [by rewrite E2|]. split; [intros i e; rewrite E3; apply H3|].
  intros p s Hs Hn. apply H4; [done|]. unfold get_val, vals_of in *. by rewrite <- E4.
Qed.
Lemma QL_loop st0 f : (forall st i st', f st i = Some st' -> QL st0 st -> QL st0 st') ->
  forall fuel high st low, QL st0 st -> QL st0 (fst (queue_loop f high fuel st low)).
Proof.
  intros Hf fuel. induction fuel as [|n IH]; intros high st low HQ; [done|]. cbn [queue_loop].
  destruct (f st (low + 1)%N) as [st1|] eqn:E; [|done]. apply Hf in E; [|done]. destruct (_ <? _)%N; [by apply IH|done].
Qed.
Lemma QL_centry st0 st i st' : process_centry st i = Some st' -> QL st0 st -> QL st0 st'.
Proof.
  unfold process_centry. destruct (ss_centries st !! i) as [e|]; [|by intros [= <-]]. destruct (wrap_i64 _ <=? _); [|done].
  intros [= <-] HQ. eapply QL_same; [exact HQ|..]; by destruct (ss_stakers _ !! _).
Qed.
Lemma leave_other st s p p' s' : (p', s') <> (p, s) -> get_val (leave_pool st s p) p' s' = get_val st p' s'.
Proof.
  intros Hn. unfold leave_pool. destruct (get_val st p s) eqn:E; [|done]. unfold get_val, vals_of in *. cbn [ss_val with_counts with_val].
  destruct (decide (p' = p)) as [->|Hp]; [|by rewrite lookup_insert_ne]. rewrite lookup_insert. cbn [default from_option id]. rewrite lookup_delete_ne; [done|]. intros ->. by apply Hn.
Qed.
Lemma QL_lentry st0 st i st' : process_lentry st i = Some st' -> QL st0 st -> QL st0 st'.
Proof.
  unfold process_lentry. destruct (ss_lentries st !! i) as [e|] eqn:Ee; [|by intros [= <-]]. destruct (wrap_i64 _ <=? _) eqn:Ed; [|done]. intros [= <-] (H1 & H2 & H3 & H4).
  rewrite H1, H2 in Ed. apply Z.leb_le in Ed. set (st1 := with_lq _ _ _ _ _).
  assert (T : ss_ltime (leave_pool st1 (le_staker e) (le_pool e)) = ss_ltime st /\ ss_time (leave_pool st1 (le_staker e) (le_pool e)) = ss_time st /\
              ss_lentries (leave_pool st1 (le_staker e) (le_pool e)) = delete i (ss_lentries st)) by (unfold leave_pool; by destruct (get_val _ _ _)).
  destruct T as (T1 & T2 & T3). split; [by rewrite T1|]. split; [by rewrite T2|]. split.
  - intros j x. rewrite T3. intros Hj. apply lookup_delete_Some in Hj as [_ Hj]. by apply H3.
  - intros p s Hs Hg. destruct (decide ((p, s) = (le_pool e, le_staker e))) as [[= -> ->]|Hn].
    + exists i, e. split; [by apply H3|]. split; [done|]. split; [done|exact Ed].
    + rewrite leave_other in Hg by done. by apply H4.
Qed.
Lemma QL_begin st : left_by_queue st (stakers_begin st).
Proof.
  unfold stakers_begin. assert (H1 : QL st (process_commissions st)).
  { unfold process_commissions. destruct (queue_loop _ _ _ _ _) as [st1 low] eqn:E. apply (QL_same _ st1); [|done..].
    change st1 with (fst (st1, low)). rewrite <- E. apply QL_loop; [apply QL_centry|apply QL_refl]. }
  revert H1. generalize (process_commissions st). intros st2 H2. unfold process_leaves. destruct (queue_loop _ _ _ _ _) as [st1 low] eqn:E.
  assert (H1 : QL st st1). { change st1 with (fst (st1, low)). rewrite <- E. apply QL_loop; [apply QL_lentry|done]. }
  destruct H1 as (_ & _ & H1). exact H1.
Qed.

(** ** The chain *)
Definition lk (c c' : chain) : Prop := same_l (c_s c) (c_s c').
Lemma lk_refl c : lk c c. Proof. done. Qed.
Lemma lk_trans a b c : lk a b -> lk b c -> lk a c. Proof. unfold lk, same_l. congruence. Qed.
Lemma lk_is c c' : c_s c' = c_s c -> lk c c'. Proof. intros H. unfold lk, same_l. by rewrite H. Qed.
Lemma lk_s c st : same_l (s_in c) st -> lk c (s_out c st). Proof. done. Qed.
Lemma lk_pay c u r : match pay_out c u r with inl c' | inr c' => lk c c' end.
Proof.
  unfold pay_out. destruct (send _ _ _ _) as [bk|]; [|by apply lk_is].
  destruct (increase_commission_rewards _ _ _ _) as [s'|] eqn:E; [|by apply lk_is].
  assert (H : same_l (c_s c) s') by (unfold increase_commission_rewards in E; repeat case_match; simplify_eq; done).
  destruct (payout_rewards _ _ _ _) as [d|]; exact H.
Qed.
Lemma lk_infl c p c' x : charge_inflation c p = Some (c', x) -> lk c c'.
Proof. unfold charge_inflation. repeat case_match; intros; simplify_eq; by apply lk_is. Qed.
Lemma lk_leave c s p : lk c (s_out c (leave_pool (s_in c) s p)). Proof. apply lk_s, sl_leave. Qed.
Lemma lk_incr c p s : lk c (s_out c (fst (increment_points (s_in c) p s))).
Proof. apply lk_s. unfold increment_points. by destruct (get_val _ _ _). Qed.
Lemma lk_reset c p s : lk c (reset_pts c p s).
Proof. unfold reset_pts. apply lk_s. unfold reset_points. by destruct (get_val _ _ _). Qed.
Lemma lk_final c p v : lk c (finalize c p v).
Proof. unfold finalize. destruct (get_pool c p); by apply lk_is. Qed.
Lemma lk_slash c s t : lk c (d_out c (fst (slash_delegators (d_in c) s t))). Proof. by apply lk_is. Qed.
Lemma lk_charge c p : lk c (f_out c (fst (charge_funders (f_in c) p MPool))). Proof. by apply lk_is. Qed.
Ltac lwalk l := apply (l lk lk_refl lk_trans); try exact lk_pay; try exact lk_infl; try exact lk_leave; try exact lk_incr; try exact lk_reset; try exact lk_final;
  try exact lk_slash; try exact lk_charge; try (intros; by apply lk_is); try done.
(** Messages that do not concern the queue of leaving stakers. *)
Definition not_leaving (o : cop) : bool := match o with CLeave _ _ | CBegin _ _ => false | _ => true end.
Lemma leave_keep c o : not_leaving o = true -> lk c (cstep c o).
Proof.
  intros Ho. unfold cstep. destruct (cmsg c o) as [c'|] eqn:E; [|apply lk_refl]. change (default c (Some c')) with c'.
  destruct o; cbn [cmsg not_leaving] in E, Ho; try done;
    try (match type of E with ?f <$> ?x = _ => destruct x as [y|] eqn:Ex; [injection E as <-|done] end);
    try (destruct (_ =? _)%N; [injection E as <-|done]);
    try (by apply lk_is); try done.
  - unfold chain_create_staker in E. destruct (msg_delegate _ _ _ _ _); [|done]. destruct (msg_create_staker _ _ _ _) as [st|] eqn:Es; [|done]. injection E as <-.
    unfold msg_create_staker in Es. destruct (ss_stakers _ !! _); [done|]. by injection Es as <-.
  - apply lk_s. unfold msg_update_commission in Ex. destruct (ss_stakers _ !! _); [|done]. injection Ex as <-. unfold order_commission. destruct (ss_cindex _ !! _) as [j|]; [|done]. by destruct (ss_centries _ !! j).
  - apply lk_s. unfold msg_claim_commission in Ex. destruct (ss_stakers _ !! _); [|done]. destruct (negb _); [done|]. destruct (send _ _ _ _); [|done]. by injection Ex as <-.
  - apply lk_s. by eapply sl_join.
  - revert E. lwalk k_submit.
  - revert E. apply (k_vote lk lk_trans); [exact lk_reset|]. intros; by apply lk_is.
  - revert E. lwalk k_skip.
  - unfold msg_claim_role in E. repeat (destruct (negb _); [done|]). injection E as <-. by apply lk_is.
  - unfold chain_create_pool in E. destruct (msg_create_pool _ _ _ _ _); [|done]. injection E as <-. by apply lk_is.
  - unfold chain_disable_pool in E. destruct (disable_record _ _ _) as [ps|]; [|done]. cbv zeta in E. set (c2 := fold_left _ _ _) in E.
    assert (H2 : lk c c2).
    { unfold c2. apply (lk_trans _ (cw_pools c ps)); [by apply lk_is|]. apply (k_fold lk lk_refl lk_trans). intros. apply lk_leave. }
    destruct (_ <=? _); [done|]. destruct (0 <? _); [|by injection E as <-]. destruct (i64 _ <? 0); [done|].
    destruct (send _ _ _ _); [|done]. injection E as <-. eapply lk_trans; [exact H2|]. by apply lk_is.
  - injection E as <-. unfold end_block. set (c1 := cw_pools _ _). apply (lk_trans _ c1); [by apply lk_is|].
    apply (lk_trans _ (handle_upload_timeout c1)); [lwalk k_handle_timeout|].
    unfold burn_fees. destruct (c_height _ =? 1); [by apply lk_is|]. destruct (c_burn _ =? 0); [by apply lk_is|]. destruct (burn _ _ _); by apply lk_is.
  - injection E as <-. by apply lk_is.
Qed.

(** ** Requests *)
(** Every entry of the queue is an accepted request of the history. *)
Definition left_in (c0 : chain) (ops : list cop) (e : lentry) : Prop :=
  exists pre post, ops = pre ++ CLeave (le_staker e) (le_pool e) :: post /\
    is_Some (cmsg (crun c0 pre) (CLeave (le_staker e) (le_pool e))) /\ le_date e = c_time (crun c0 pre).
Lemma left_more c0 ops o e : left_in c0 ops e -> left_in c0 (ops ++ [o]) e.
Proof. intros (pre & post & -> & H). exists pre, (post ++ [o]). split; [by rewrite <- app_assoc|exact H]. Qed.
Lemma begin_leave c t pr : exists st, c_s (cstep c (CBegin t pr)) = stakers_begin st /\ ss_time st = t /\
  ss_lentries st = ss_lentries (c_s c) /\ ss_val st = ss_val (c_s c) /\ ss_ltime st = ss_ltime (c_s c).
Proof.
  change (cstep c (CBegin t pr)) with (begin_block c t pr). unfold begin_block. set (c0 := cw_time _ _ _). set (c1 := t_out c0 _). set (c2 := match split_inflation c1 pr with Some x => x | None => cw_halt c1 end).
  assert (H2 : c_s c2 = c_s c). { unfold c2. destruct (split_inflation c1 pr) eqn:Es; [by apply s_split in Es|done]. }
  clearbody c2. clear c0 c1. cbv zeta. set (c3 := d_out c2 _).
  exists (with_stime (s_in c3) t). split; [done|]. split; [done|].
  cbn [with_stime s_in with_sbank ss_lentries ss_val ss_ltime]. change (c_s c3) with (c_s c2). by rewrite H2.
Qed.
Lemma left_run g ops : genesis g -> cops_ok (gstart g) ops -> forall i e, ss_lentries (c_s (crun (gstart g) ops)) !! i = Some e -> left_in (gstart g) ops e.
Proof.
  intros Hg. induction ops as [|o ops IH] using rev_ind.
  - intros _ i e. change (ss_lentries (c_s (crun (gstart g) []))) with (∅ : gmap N lentry). by rewrite lookup_empty.
  - intros H i e. pose proof H as H'. apply cops_ok_app in H as [H1 H2]. pose proof (RQ_run g ops Hg H1) as (R1 & _ & _). specialize (IH H1). rewrite crun_app. change (crun ?a [o]) with (cstep a o).
    remember (crun (gstart g) ops) as c eqn:Ec. destruct (not_leaving o) eqn:Eo.
    { pose proof (leave_keep c o Eo) as F. unfold lk, same_l in F. rewrite F. intros Hi. by eapply left_more, IH. }
    destruct o; try done.
    + unfold cstep. destruct (cmsg c _) as [c'|] eqn:E; cbn [default from_option id]; [|intros Hi; by eapply left_more, IH].
      pose proof E as Em. cbn [cmsg] in E. destruct (msg_leave (s_in c) s p) as [st|] eqn:El; [|done]. injection E as <-.
      unfold msg_leave in El. destruct (get_val _ _ _); [|done]. cbv zeta in El. destruct (bool_decide _); [done|]. injection El as <-.
      intros Hi. cbn [s_out cw_bank cw_s c_s with_lq ss_lentries] in Hi. apply lookup_insert_Some in Hi as [[_ <-]|[_ Hi]]; [|by eapply left_more, IH].
      exists ops, []. split; [done|]. cbn [le_staker le_pool le_date]. rewrite <- Ec. split; [by eexists|exact R1].
    + destruct (begin_leave c t provision) as (st & B1 & _ & B2 & _). rewrite B1. intros Hi. apply (proj1 (QL_begin st)) in Hi. rewrite B2 in Hi. by eapply left_more, IH.
Qed.
Lemma ltime_step c o : leaves_notice o -> ss_ltime (c_s (cstep c o)) = ss_ltime (c_s c).
Proof.
  intros Ho. destruct (updates_params o) eqn:Eu.
  - unfold cstep. destruct o; try done; cbn [cmsg]; by destruct (_ =? _)%N.
  - apply (params_frame c o) in Eu. unfold cpar in Eu. by injection Eu as _ _ -> _.
Qed.
Lemma ltime_keep ops : forall c, Forall leaves_notice ops -> ss_ltime (c_s (crun c ops)) = ss_ltime (c_s c).
Proof.
  induction ops as [|o ops IH]; intros c H; [done|]. apply Forall_cons in H as [H1 H2].
  change (crun c (o :: ops)) with (crun (cstep c o) ops). rewrite (IH _ H2). by apply ltime_step.
Qed.
Lemma ltime_run g ops : genesis g -> cops_ok (gstart g) ops -> 0 <= ss_ltime (c_s (crun (gstart g) ops)).
Proof.
  intros Hg. induction ops as [|o ops IH] using rev_ind.
  - intros _. destruct Hg as (_ & _ & _ & _ & _ & H & _). cbn. unfold u64 in H. lia.
  - intros H. apply cops_ok_app in H as [H1 H2]. rewrite crun_app. change (crun ?a [o]) with (cstep a o). specialize (IH H1). destruct H2 as [H2 _].
    assert (D : leaves_notice o \/ exists b x y, o = CParamsS b x y) by (destruct o; try (left; exact I); right; eauto).
    destruct D as [D|(b & x & y & ->)]; [by rewrite ltime_step|]. unfold cstep. cbn [cmsg]. destruct (_ =? _)%N; [|exact IH].
    cbn [default from_option id]. change (0 <= y). destruct H2 as [_ [H2 _]]. exact H2.
Qed.

Lemma member_val c p s : is_member c p s <-> get_val (c_s c) p s <> None.
Proof. unfold is_member, points. destruct (get_val (c_s c) p s); split; done. Qed.
Lemma claim_leaves g ops t prov p s : genesis g -> cops_ok (gstart g) (ops ++ [CBegin t prov]) -> let c := crun (gstart g) ops in let c' := cstep c (CBegin t prov) in
  ss_ltime (c_s c) < two62 -> is_member c p s -> ~ is_member c' p s ->
  exists pre post, ops = pre ++ CLeave s p :: post /\ let a := crun (gstart g) pre in
    is_Some (cmsg a (CLeave s p)) /\ c_time a + ss_ltime (c_s c) <= t /\ (Forall leaves_notice post -> c_time a + ss_ltime (c_s a) <= t).
Proof.
  intros Hg Hok. cbv zeta. apply cops_ok_app in Hok as [Hok _]. pose proof (left_run g ops Hg Hok) as R. pose proof (ltime_run g ops Hg Hok) as Hc0.
  remember (crun (gstart g) ops) as c eqn:Ec. intros Hct H0 H1. rewrite member_val in H0, H1.
  destruct (begin_leave c t prov) as (st & B1 & B3 & B4 & B5 & B6). rewrite B1 in H1.
  assert (H0' : get_val st p s <> None) by (unfold get_val, vals_of in *; by rewrite B5).
  assert (H1' : get_val (stakers_begin st) p s = None) by (destruct (get_val (stakers_begin st) p s); [by destruct H1|done]).
  destruct (proj2 (QL_begin st) p s H0' H1') as (i & e & E1 & E2 & E3 & E4). rewrite B4 in E1. destruct (R _ _ E1) as (pre & post & Ep & A1 & A2). subst s p.
  exists pre, post. split; [done|]. split; [exact A1|]. rewrite Ep in Hok, Ec.
  apply cops_ok_app in Hok as [Hpre _]. pose proof (RQ_run g pre Hg Hpre) as (_ & P0 & _). pose proof (G_run g Hg pre Hpre) as HP.
  destruct (g_times _ _ HP) as (_ & _ & _ & P1).
  rewrite B3, B6 in E4. rewrite A2, due_small in E4; [|split; [exact P0|exact P1]|split; [exact Hc0|exact Hct]].
  split; [exact E4|]. intros Hp. rewrite Ec, crun_app in E4. change (crun ?a (?o :: ?l)) with (crun (cstep a o) l) in E4.
  rewrite (ltime_keep _ _ Hp), ltime_step in E4 by done. exact E4.
Qed.
