(** * Following commissions and the rewards they earn. *)
From Verif Require Import Base BaseFacts Delegation Stakers StakersInv Funders Team RoundRobin Pool PoolFrame Bundles Chain ChainFrame ChainLift Walk ArchiveInv PaySafe PayFlow Events EventWalk EventFollow EventStakers EventTally.

(** ** The commission of every staker *)
Definition see_commission (v : N -> option Z) (e : event) : N -> option Z :=
  match e with
  | EvCreateStaker s _ x => fun t => if (t =? s)%N then Some x else v t
  | EvUpdateCommission s x => fun t => if (t =? s)%N then (match v s with Some _ => Some x | None => None end) else v t
  | _ => v
  end.
(** What is stored. *)
Definition commission_at (c : chain) (s : N) : option Z := match ss_stakers (c_s c) !! s with Some x => Some (st_commission x) | None => None end.

(** ** What every staker can claim *)
Definition see_reward (v : N -> N -> Z) (e : event) : N -> N -> Z :=
  match e with
  | EvFinalized f => match ef_status f with Judged VValid => fun s d => v s d + (if (s =? ef_uploader f)%N then amt (ef_rewards f) d else 0) | _ => v end
  | EvClaimCommission t x => fun s d => v s d - (if (s =? t)%N then amt x d else 0)
  | _ => v
  end.
Definition reward_at (c : chain) (s d : N) : Z := match ss_stakers (c_s c) !! s with Some x => amt (st_rewards x) d | None => 0 end.

(** ** Processing a queue *)
Section queue.
  Context {V : Type} (see : V -> event -> V) (J : sstate -> V -> Prop).
  Lemma queue_follow f ev h : (forall st i v, J st v -> match f st i with Some st' => J st' (fold_left see (ev st i) v) | None => Forall (quiet see) (ev st i) end) ->
    forall n st low v, J st v -> J (fst (queue_loop f h n st low)) (fold_left see (ev_queue_loop f ev h n st low) v).
  Proof.
    intros H n. induction n as [|n IH]; intros st low v Hv; cbn [queue_loop ev_queue_loop]; [exact Hv|].
    pose proof (H st (low + 1)%N v Hv) as H1. rewrite fold_left_app. destruct (f st (low + 1)%N) as [st1|].
    - destruct (low <? h)%N; [|exact H1]. apply IH, H1.
    - rewrite (quiet_all see _ v H1). exact Hv.
  Qed.
End queue.
Lemma quiet_centry {V} (see : V -> event -> V) st i : process_centry st i = None -> Forall (quiet see) (ev_centry st i).
Proof. unfold process_centry, ev_centry. destruct (ss_centries st !! i); [|done]. destruct (_ <=? _); [done|constructor]. Qed.

Section commissions.
  Context (g : gen) (Hg : genesis g).
  Definition commissions (c : chain) (v : N -> option Z) : Prop := forall s, v s = commission_at c s.
  Local Notation E := (E see_commission commissions).
  Definition same_com (c c' : chain) : Prop := forall s, commission_at c' s = commission_at c s.
  Lemma com_same c c' : same_com c c' -> E c [] c'.
  Proof. intros H v Hv s. cbn [fold_left]. rewrite H. apply Hv. Qed.
  Lemma com_stakers c c' : ss_stakers (c_s c') = ss_stakers (c_s c) -> same_com c c'.
  Proof. intros H s. unfold commission_at. by rewrite H. Qed.
  Lemma com_infl c p c' x : charge_inflation c p = Some (c', x) -> same_com c c'.
  Proof. intros H. apply com_stakers. unfold charge_inflation in H. destruct (inflation_payout _ _); [|done]. destruct (_ <? 0); [done|]. destruct (send _ _ _ _); by injection H as <- _. Qed.
  Lemma com_pay c u r : match pay_out c u r with inl c' | inr c' => same_com c c' end.
  Proof.
    unfold pay_out. destruct (send _ _ _ _) as [bk|]; [|by apply com_stakers]. unfold increase_commission_rewards.
    destruct (cempty _); [destruct (payout_rewards _ _ _ _); by apply com_stakers|].
    destruct (ss_stakers (s_in (cw_bank c bk)) !! u) as [x|] eqn:Ex; [|by apply com_stakers]. destruct (send _ _ _ _) as [b2|]; [|by apply com_stakers].
    assert (H : forall c', ss_stakers (c_s c') = <[u := mkSt (st_commission x) (cadd (st_rewards x) (cadd (r_commission r) (r_storage r)))]> (ss_stakers (c_s c)) -> same_com c c').
    { intros c' Hc' s. unfold commission_at. rewrite Hc'. destruct (decide (s = u)) as [->|Hn]; [|by rewrite lookup_insert_ne]. rewrite lookup_insert.
      change (ss_stakers (s_in (cw_bank c bk))) with (ss_stakers (c_s c)) in Ex. by rewrite Ex. }
    destruct (payout_rewards _ _ _ _); by apply H.
  Qed.
  Lemma com_final c p v : same_com c (finalize c p v).
  Proof. apply com_stakers. unfold finalize. by destruct (get_pool c p). Qed.
  Lemma com_leave c p s : E c [EvLeave p s] (s_out c (leave_pool (s_in c) s p)).
  Proof. apply E_quiet; [by repeat constructor|]. apply com_same, com_stakers. exact (proj1 (leave_frame (s_in c) s p)). Qed.
  Lemma com_incr c p s : E c [EvPoint p s (snd (increment_points (s_in c) p s))] (s_out c (fst (increment_points (s_in c) p s))).
  Proof. apply E_quiet; [by repeat constructor|]. apply com_same, com_stakers. unfold increment_points. by destruct (get_val _ _ _). Qed.
  Lemma com_reset c p s : E c (ev_reset c p s) (reset_pts c p s).
  Proof.
    apply E_quiet; [unfold ev_reset; destruct (0 <? _); by repeat constructor|]. apply com_same, com_stakers. unfold reset_pts, reset_points. by destruct (get_val _ _ _).
  Qed.
  Lemma com_slash c p s t : E c (ev_slash (d_in c) p s t) (d_out c (fst (slash_delegators (d_in c) s t))).
  Proof. apply E_quiet; [shape|]. by apply com_same, com_stakers. Qed.
  Lemma com_queue st v : (forall s, v s = commission_of st s) -> forall s, fold_left see_commission (ev_stakers_begin st) v s = commission_of (stakers_begin st) s.
  Proof.
    intros Hv. unfold ev_stakers_begin, stakers_begin. rewrite fold_left_app.
    assert (Hq : Forall (quiet see_commission) (ev_leaves (process_commissions st))).
    { apply sh_queue_loop. intros st' i. unfold ev_lentry. destruct (ss_lentries st' !! i); [|constructor]. destruct (_ <=? _); by repeat constructor. }
    rewrite (quiet_all _ _ _ Hq).
    assert (H1 : forall s, fold_left see_commission (ev_commissions st) v s = commission_of (process_commissions st) s).
    { unfold ev_commissions, process_commissions.
      pose proof (queue_follow see_commission (fun st v => forall s, v s = commission_of st s) process_centry ev_centry (ss_chigh st)) as HQ.
      assert (Hstep : forall st i (w : N -> option Z), (forall s, w s = commission_of st s) ->
        match process_centry st i with Some st' => forall s, fold_left see_commission (ev_centry st i) w s = commission_of st' s | None => Forall (quiet see_commission) (ev_centry st i) end).
      { intros st0 i w Hw. destruct (process_centry st0 i) as [st1|] eqn:E1; [|by apply quiet_centry]. revert E1. unfold process_centry, ev_centry.
        destruct (ss_centries st0 !! i) as [e|] eqn:Ei; [|by intros [= <-]]. destruct (_ <=? _); [|done]. intros [= <-] s. cbn [fold_left see_commission].
        rewrite !Hw. change (ss_stakers (remove_centry st0 i e)) with (ss_stakers st0). unfold commission_of at 1.
        destruct (ss_stakers st0 !! ce_staker e) as [x|] eqn:Ex; destruct (N.eqb_spec s (ce_staker e)) as [->|Hn]; cbn [fmap option_fmap option_map].
        - unfold commission_of. cbn [ss_stakers with_stakers]. by rewrite lookup_insert.
        - unfold commission_of. cbn [ss_stakers with_stakers]. by rewrite lookup_insert_ne by done.
        - unfold commission_of. change (ss_stakers (remove_centry st0 i e)) with (ss_stakers st0). by rewrite Ex.
        - done. }
      specialize (HQ Hstep (S (N.to_nat (ss_chigh st - ss_clow st))) st (ss_clow st) v Hv).
      destruct (queue_loop process_centry _ _ _ _) as [st1 l]. exact HQ. }
    intros s. rewrite H1. unfold process_leaves.
    assert (H2 : forall n st1 low h, ss_stakers (fst (queue_loop process_lentry h n st1 low)) = ss_stakers st1).
    { intros n. induction n as [|n IH]; intros st1 low h; cbn [queue_loop]; [done|]. destruct (process_lentry st1 _) as [st2|] eqn:E1; [|done].
      assert (ss_stakers st2 = ss_stakers st1).
      { unfold process_lentry in E1. destruct (ss_lentries st1 !! _); [|by injection E1 as <-]. destruct (_ <=? _); [|done]. injection E1 as <-. by rewrite (proj1 (leave_frame _ _ _)). }
      destruct (low <? h)%N; [|done]. by rewrite IH. }
    match goal with |- context [queue_loop process_lentry ?h ?n ?st1 ?low] => specialize (H2 n st1 low h); destruct (queue_loop process_lentry h n st1 low) as [st2 l] end.
    unfold commission_of. cbn [fst with_lq ss_stakers] in *. by rewrite H2.
  Qed.
  Lemma com_out c st s : commission_at (s_out c st) s = commission_of st s.
  Proof. reflexivity. Qed.
  Lemma com_in c t s : commission_of (with_stime (s_in c) t) s = commission_at c s.
  Proof. reflexivity. Qed.
  Lemma com_begin_from c2 c3 t v : c_s c3 = c_s c2 -> (forall s, v s = commission_at c2 s) -> forall s,
    fold_left see_commission (ev_queue (with_time (d_in c2) t) ++ ev_stakers_begin (with_stime (s_in c3) t)) v s
    = commission_at (s_out c3 (stakers_begin (with_stime (s_in c3) t))) s.
  Proof.
    intros H3 Hv s. rewrite fold_left_app, (quiet_all _ (ev_queue _)) by (by apply sh_queue). rewrite com_out. apply com_queue.
    intros s'. rewrite com_in, Hv. unfold commission_at. by rewrite H3.
  Qed.
  Lemma com_begin c t pr : E c (ev_begin c t pr) (begin_block c t pr).
  Proof.
    unfold ev_begin, begin_block. set (c0 := cw_time _ _ _). set (c1 := t_out c0 _). set (c2 := match split_inflation c1 pr with Some x => x | None => cw_halt c1 end).
    assert (H2 : c_s c2 = c_s c). { unfold c2. destruct (split_inflation c1 pr) eqn:Es; [by apply s_split in Es|done]. }
    clearbody c2. clear c0 c1. cbv zeta. set (c3 := d_out c2 _). assert (H3 : c_s c3 = c_s c2) by done. clearbody c3. intros v Hv.
    refine (com_begin_from c2 c3 t v H3 _). intros s. rewrite Hv. unfold commission_at. by rewrite H2.
  Qed.
  Lemma com_disable c sender p c' : chain_disable_pool c sender p = Some c' -> E c (ev_disable_pool c p) c'.
  Proof.
    intros H. apply E_quiet; [shape|]. apply com_same, com_stakers. revert H. unfold chain_disable_pool. destruct (disable_record _ _ _) as [ps|]; [|done]. cbv zeta.
    set (c1 := cw_pools c ps). set (c2 := fold_left _ _ _).
    assert (H2 : ss_stakers (c_s c2) = ss_stakers (c_s c)).
    { unfold c2. change (ss_stakers (c_s c)) with (ss_stakers (c_s c1)). generalize (members c1 p). intros l. clearbody c1. clear. revert c1.
      induction l as [|s l IH]; intros c1; cbn [fold_left]; [done|]. rewrite IH. exact (proj1 (leave_frame (s_in c1) s p)). }
    clearbody c2. rewrite <- H2. clear.
    destruct (two64 <=? _); [done|]. destruct (0 <? _); [|by intros [= <-]]. destruct (i64 _ <? 0); [done|]. destruct (send _ _ _ _); [|done]. by intros [= <-].
  Qed.
  Lemma stakers_join c s p v a st' : msg_join (s_in c) (pl_disabled <$> get_pool c p) (power c) s p v a = Some st' -> ss_stakers st' = ss_stakers (c_s c).
  Proof.
    unfold msg_join. destruct (_ <$> _) as [[|]|]; try done. destruct (ss_stakers (s_in c) !! s) as [x|] eqn:Ex; [|done].
    destruct (_ =? _)%N; [done|]. destruct (get_val (s_in c) p s) eqn:Ev; [done|]. destruct (ensure_slot _ _ _ _) as [st1|] eqn:Es; [|done].
    destruct (existsb _ _); [done|]. destruct (existsb _ _); [done|]. cbv zeta. destruct (pay_kyve _ _ _ _) as [b|]; [|done]. intros [= <-].
    assert (H1 : ss_stakers st1 = ss_stakers (c_s c)).
    { unfold ensure_slot in Es. destruct (MAX_STAKERS <=? _); [|by injection Es as <-]. destruct (_ <? _); [|done]. injection Es as <-. exact (proj1 (leave_frame (s_in c) _ p)). }
    cbn [ss_stakers with_sbank]. rewrite <- H1. apply add_frame.
  Qed.
  Lemma stakers_leave c s p st' : msg_leave (s_in c) s p = Some st' -> ss_stakers st' = ss_stakers (c_s c).
  Proof. unfold msg_leave. destruct (get_val (s_in c) p s) as [x|] eqn:Ex; [|done]. destruct (bool_decide _); [done|]. by intros [= <-]. Qed.
  Lemma stakers_order c s x st' : msg_update_commission (s_in c) s x = Some st' -> ss_stakers st' = ss_stakers (c_s c).
  Proof.
    unfold msg_update_commission. destruct (ss_stakers _ !! _); [|done]. intros [= <-]. unfold order_commission. cbn. destruct (ss_cindex (c_s c) !! _) as [i|]; [|done].
    by destruct (ss_centries (c_s c) !! i).
  Qed.
  Local Ltac still := apply E_quiet; [shape|by apply com_same, com_stakers].
  Lemma com_step c o c' : R g c -> cop_ok c o -> cmsg c o = Some c' -> E c (emitted c o) c'.
  Proof.
    intros HR Hok Hm.
    assert (Hval : forall c p c' v fp x r y n t, R g c -> is_Some (get_pool c p) -> tally c (get_prop c p) p = TrValid c' v fp x r ->
      E c (ev_tally c (get_prop c p) p ++ ev_finalize (cw_rr c' y) p v fp x r n) (set_prop (finalize (cw_rr c' y) p v) p (bp_none n t))).
    { intros. eapply (l_valid see_commission commissions same_com); eauto using com_same, com_slash, com_leave, com_incr, com_infl, com_final; first [exact com_pay|done]. }
    destruct o; cbn [cmsg emitted] in *; try (one_of Hm; still); try (param Hm; still).
    - unfold chain_create_staker in Hm. destruct (msg_delegate _ _ _ _ _); [|done]. destruct (msg_create_staker _ _ _ _) as [st|] eqn:Es; [|done]. injection Hm as <-.
      unfold msg_create_staker in Es. destruct (ss_stakers _ !! _); [done|]. injection Es as <-.
      intros v Hv. rewrite fold_left_app, (quiet_all _ (ev_msg_delegate _ _ _ _)) by shape. intros t. cbn [fold_left see_commission]. rewrite Hv. unfold commission_at.
      change (ss_stakers (c_s (d_out (cw_s ?a (with_stakers ?b ?m)) ?d))) with m. destruct (N.eqb_spec t s) as [->|Hn]; [by rewrite lookup_insert|by rewrite lookup_insert_ne by done].
    - one_of Hm. apply E_quiet; [constructor|]. apply com_same, com_stakers. by eapply stakers_order.
    - one_of Hm. apply E_quiet; [by repeat constructor|]. apply com_same. unfold msg_claim_commission in Em. destruct (ss_stakers _ !! _) as [x|] eqn:Ex; [|done].
      destruct (negb _); [done|]. destruct (send _ _ _ _); [|done]. injection Em as <-. intros t. unfold commission_at. change (ss_stakers (c_s (s_out ?a (with_sbank (with_stakers ?b ?m) ?k)))) with m.
      destruct (decide (t = s)) as [->|Hn]; [|by rewrite lookup_insert_ne by done]. rewrite lookup_insert. change (ss_stakers (s_in c)) with (ss_stakers (c_s c)) in Ex. by rewrite Ex.
    - one_of Hm. apply E_quiet; [shape|]. apply com_same, com_stakers. by eapply stakers_join.
    - one_of Hm. apply E_quiet; [constructor|]. apply com_same, com_stakers. by eapply stakers_leave.
    - eapply (l_submit g see_commission commissions same_com); eauto using com_same, com_slash, com_leave, com_incr, com_reset; done.
    - eapply (l_vote see_commission commissions same_com); eauto using com_same, com_reset; done.
    - eapply (l_skip g see_commission commissions same_com); eauto using com_same, com_slash, com_leave, com_incr, com_reset; done.
    - eapply (l_claim_role see_commission commissions same_com); eauto using com_same; done.
    - unfold chain_create_pool in Hm. destruct (msg_create_pool _ _ _ _ _); [|done]. injection Hm as <-. still.
    - by eapply com_disable.
    - injection Hm as <-. apply com_begin.
    - injection Hm as <-. eapply (l_end g Hg see_commission commissions same_com); eauto using com_same, com_slash, com_leave, com_incr, com_reset; done.
    - injection Hm as <-. still.
  Qed.
  Lemma follow_commissions ops : cops_ok (gstart g) ops -> forall s, fold_left see_commission (elog (gstart g) ops) (fun _ => None) s = commission_at (crun (gstart g) ops) s.
  Proof. intros Hok s. apply (follow_run g Hg see_commission commissions); [|exact com_step|done]. by intros ?. Qed.
End commissions.

Section rewards.
  Context (g : gen) (Hg : genesis g).
  Definition rewards_ok (c : chain) (v : N -> N -> Z) : Prop := forall s d, v s d = reward_at c s d.
  Local Notation E := (E see_reward rewards_ok).
  Definition same_rew (c c' : chain) : Prop := forall s d, reward_at c' s d = reward_at c s d.
  Lemma rew_same c c' : same_rew c c' -> E c [] c'.
  Proof. intros H v Hv s d. cbn [fold_left]. rewrite H. apply Hv. Qed.
  Lemma rew_stakers c c' : ss_stakers (c_s c') = ss_stakers (c_s c) -> same_rew c c'.
  Proof. intros H s d. unfold reward_at. by rewrite H. Qed.
  Lemma rew_leave c p s : E c [EvLeave p s] (s_out c (leave_pool (s_in c) s p)).
  Proof. apply E_quiet; [by repeat constructor|]. apply rew_same, rew_stakers. exact (proj1 (leave_frame (s_in c) s p)). Qed.
  Lemma rew_incr c p s : E c [EvPoint p s (snd (increment_points (s_in c) p s))] (s_out c (fst (increment_points (s_in c) p s))).
  Proof. apply E_quiet; [by repeat constructor|]. apply rew_same, rew_stakers. unfold increment_points. by destruct (get_val _ _ _). Qed.
  Lemma rew_reset c p s : E c (ev_reset c p s) (reset_pts c p s).
  Proof.
    apply E_quiet; [unfold ev_reset; destruct (0 <? _); by repeat constructor|]. apply rew_same, rew_stakers. unfold reset_pts, reset_points. by destruct (get_val _ _ _).
  Qed.
  Lemma rew_slash c p s t : E c (ev_slash (d_in c) p s t) (d_out c (fst (slash_delegators (d_in c) s t))).
  Proof. apply E_quiet; [shape|]. by apply rew_same, rew_stakers. Qed.
  Lemma rew_valid c p c' v fp x r y n t : R g c -> is_Some (get_pool c p) -> tally c (get_prop c p) p = TrValid c' v fp x r ->
      E c (ev_tally c (get_prop c p) p ++ ev_finalize (cw_rr c' y) p v fp x r n) (set_prop (finalize (cw_rr c' y) p v) p (bp_none n t)).
  Proof.
    intros HR Hpl Ht w Hw. rewrite fold_left_app, (quiet_all _ (ev_tally _ _ _)) by shape.
    destruct (tally_named g c p c' v fp x r Hg HR Hpl Ht) as (Hv & (a & a' & Ea & Ea' & _ & Hr) & _).
    pose proof (b_tally c (get_prop c p) p) as Hbt. rewrite Ht in Hbt. assert (Hgp : get_prop (cw_rr c' y) p = get_prop c p) by (exact (get_prop_b c c' p Hbt)).
    intros s d. unfold ev_finalize. cbn [fold_left see_reward ef_status ef_uploader ef_rewards]. rewrite Hv, Hgp, Hw.
    assert (Hs : ss_stakers (c_s (set_prop (finalize (cw_rr c' y) p v) p (bp_none n t))) = ss_stakers (c_s c')).
    { change (ss_stakers (c_s (finalize (cw_rr c' y) p v)) = ss_stakers (c_s c')). unfold finalize. by destruct (get_pool (cw_rr c' y) p). }
    unfold reward_at. rewrite Hs, Ea'. destruct (N.eqb_spec s (bp_uploader (get_prop c p))) as [->|Hn]; [rewrite lookup_insert, Ea, Hr; done|rewrite lookup_insert_ne by done; lia].
  Qed.
  Lemma rew_queue st v : (forall s d, v s d = match ss_stakers st !! s with Some x => amt (st_rewards x) d | None => 0 end) ->
    forall s d, v s d = match ss_stakers (stakers_begin st) !! s with Some x => amt (st_rewards x) d | None => 0 end.
  Proof.
    intros Hv. unfold stakers_begin.
    set (J := fun st0 => forall s d, v s d = match ss_stakers st0 !! s with Some x => amt (st_rewards x) d | None => 0 end).
    assert (HQ : forall f h, (forall st i st', J st -> f st i = Some st' -> J st') -> forall n st low, J st -> J (fst (queue_loop f h n st low))).
    { intros f h Hf n. induction n as [|n IH]; intros st0 low H0; cbn [queue_loop]; [done|]. destruct (f st0 _) as [st1|] eqn:E1; [|done].
      pose proof (Hf _ _ _ H0 E1) as H1. destruct (low <? h)%N; [|done]. by apply IH. }
    assert (H1 : J (process_commissions st)).
    { unfold process_commissions.
      assert (Hf : forall st i st', J st -> process_centry st i = Some st' -> J st').
      { intros st0 i st1 H0 E1. unfold process_centry in E1. destruct (ss_centries st0 !! _) as [e|]; [|by injection E1 as <-]. destruct (_ <=? _); [|done]. injection E1 as <-.
        change (ss_stakers (remove_centry st0 i e)) with (ss_stakers st0). destruct (ss_stakers st0 !! ce_staker e) as [x|] eqn:Ex; [|exact H0].
        intros s d. rewrite H0. cbn [ss_stakers with_stakers]. destruct (decide (s = ce_staker e)) as [->|Hn]; [by rewrite lookup_insert, Ex|by rewrite lookup_insert_ne]. }
      specialize (HQ process_centry (ss_chigh st) Hf (S (N.to_nat (ss_chigh st - ss_clow st))) st (ss_clow st) Hv). destruct (queue_loop _ _ _ _ _). exact HQ. }
    set (st1 := process_commissions st) in *. unfold process_leaves.
    assert (Hf : forall st i st', J st -> process_lentry st i = Some st' -> J st').
    { intros st0 i st2 H0 E1. unfold process_lentry in E1. destruct (ss_lentries st0 !! _) as [e|]; [|by injection E1 as <-]. destruct (_ <=? _); [|done]. injection E1 as <-.
      intros s d. rewrite (proj1 (leave_frame _ _ _)). apply H0. }
    specialize (HQ process_lentry (ss_lhigh st1) Hf (S (N.to_nat (ss_lhigh st1 - ss_llow st1))) st1 (ss_llow st1) H1). destruct (queue_loop _ _ _ _ _). exact HQ.
  Qed.
  Lemma rew_begin c t pr : E c (ev_begin c t pr) (begin_block c t pr).
  Proof.
    unfold ev_begin, begin_block. set (c0 := cw_time _ _ _). set (c1 := t_out c0 _). set (c2 := match split_inflation c1 pr with Some x => x | None => cw_halt c1 end).
    assert (H2 : c_s c2 = c_s c). { unfold c2. destruct (split_inflation c1 pr) eqn:Es; [by apply s_split in Es|done]. }
    clearbody c2. cbv zeta. set (c3 := d_out c2 _). intros v Hv. rewrite (quiet_all _ (_ ++ _)) by shape. intros s d. apply (rew_queue (with_stime (s_in c3) t)).
    intros s' d'. rewrite Hv. unfold reward_at. by rewrite <- H2.
  Qed.
  Lemma disable_stakers c sender p c' : chain_disable_pool c sender p = Some c' -> ss_stakers (c_s c') = ss_stakers (c_s c).
  Proof.
    unfold chain_disable_pool. destruct (disable_record _ _ _) as [ps|]; [|done]. cbv zeta.
    set (c1 := cw_pools c ps). set (c2 := fold_left _ _ _).
    assert (H2 : ss_stakers (c_s c2) = ss_stakers (c_s c)).
    { unfold c2. change (ss_stakers (c_s c)) with (ss_stakers (c_s c1)). generalize (members c1 p). intros l. clearbody c1. clear. revert c1.
      induction l as [|s l IH]; intros c1; cbn [fold_left]; [done|]. rewrite IH. exact (proj1 (leave_frame (s_in c1) s p)). }
    clearbody c2. rewrite <- H2. clear.
    destruct (two64 <=? _); [done|]. destruct (0 <? _); [|by intros [= <-]]. destruct (i64 _ <? 0); [done|]. destruct (send _ _ _ _); [|done]. by intros [= <-].
  Qed.
  Local Ltac still := apply E_quiet; [shape|by apply rew_same, rew_stakers].
  Lemma rew_step c o c' : R g c -> cop_ok c o -> cmsg c o = Some c' -> E c (emitted c o) c'.
  Proof.
    intros HR Hok Hm.
    assert (Lp : forall c p b, same_rew c (set_prop c p b)) by (intros; by apply rew_stakers).
    assert (Lr : forall c x, same_rew c (cw_rr c x)) by done. assert (Lh : forall c, same_rew c (cw_halt c)) by done.
    assert (Lb : forall c b, same_rew c (cw_bank c b)) by done.
    assert (Lu : forall c, same_rew c (cw_pools c (handle_upgrades (c_pools c) (c_time c)))) by done.
    assert (Qd : forall e, ef_status e <> Judged VValid -> quiet see_reward (EvFinalized e)).
    { intros e He v. cbn [see_reward]. by destruct (ef_status e) as [[]|]. }
    destruct o; cbn [cmsg emitted] in *; try (one_of Hm; still); try (param Hm; still).
    - unfold chain_create_staker in Hm. destruct (msg_delegate _ _ _ _ _); [|done]. destruct (msg_create_staker _ _ _ _) as [st|] eqn:Es; [|done]. injection Hm as <-.
      unfold msg_create_staker in Es. destruct (ss_stakers _ !! _) eqn:Ex; [done|]. injection Es as <-. apply E_quiet; [shape|]. apply rew_same.
      intros t x. unfold reward_at. change (ss_stakers (c_s (d_out (cw_s ?a (with_stakers ?b ?m)) ?d))) with m.
      destruct (decide (t = s)) as [->|Hn]; [by rewrite lookup_insert, Ex|by rewrite lookup_insert_ne by done].
    - one_of Hm. apply E_quiet; [constructor|]. apply rew_same, rew_stakers. by eapply stakers_order.
    - one_of Hm. unfold msg_claim_commission in Em. destruct (ss_stakers _ !! _) as [x|] eqn:Ex; [|done].
      destruct (negb _); [done|]. destruct (send _ _ _ _); [|done]. injection Em as <-. intros v Hv t y. cbn [fold_left see_reward]. rewrite Hv. unfold reward_at. change (ss_stakers (c_s (s_out ?a (with_sbank (with_stakers ?b ?m) ?k)))) with m.
      destruct (N.eqb_spec t s) as [->|Hn]; [|rewrite lookup_insert_ne by done; lia]. rewrite lookup_insert. change (ss_stakers (s_in c)) with (ss_stakers (c_s c)) in Ex. rewrite Ex. cbn [st_rewards].
      by rewrite amt_csub.
    - one_of Hm. apply E_quiet; [shape|]. apply rew_same, rew_stakers. by eapply stakers_join.
    - one_of Hm. apply E_quiet; [constructor|]. apply rew_same, rew_stakers. by eapply stakers_leave.
    - eapply (l_submit g see_reward rewards_ok same_rew); eauto using rew_same, rew_slash, rew_leave, rew_incr, rew_reset, rew_valid; done.
    - eapply (l_vote see_reward rewards_ok same_rew); eauto using rew_same, rew_reset; done.
    - eapply (l_skip g see_reward rewards_ok same_rew); eauto using rew_same, rew_slash, rew_leave, rew_incr, rew_reset, rew_valid; done.
    - eapply (l_claim_role see_reward rewards_ok same_rew); eauto using rew_same; done.
    - unfold chain_create_pool in Hm. destruct (msg_create_pool _ _ _ _ _); [|done]. injection Hm as <-. still.
    - apply E_quiet; [shape|]. apply rew_same, rew_stakers. by eapply disable_stakers.
    - injection Hm as <-. apply rew_begin.
    - injection Hm as <-. eapply (l_end g Hg see_reward rewards_ok same_rew); eauto using rew_same, rew_slash, rew_leave, rew_incr, rew_reset, rew_valid; done.
    - injection Hm as <-. still.
  Qed.
  Lemma follow_rewards ops : cops_ok (gstart g) ops -> forall s d, fold_left see_reward (elog (gstart g) ops) (fun _ _ => 0) s d = reward_at (crun (gstart g) ops) s d.
  Proof. intros Hok s d. apply (follow_run g Hg see_reward rewards_ok); [|exact rew_step|done]. by intros ? ?. Qed.
End rewards.
