(** * Following memberships and commissions. *)
From Verif Require Import Base BaseFacts Delegation Stakers StakersInv Funders Team RoundRobin Pool PoolFrame Bundles Chain ChainFrame ChainLift Walk ArchiveInv PaySafe PayFlow EffectClaims Events EventWalk EventFollow.

(** ** What a follower keeps of the memberships: pool, staker -> protocol node and points *)
Definition seat := N -> N -> option (N * Z).
Definition at_seat (v : seat) (p s : N) (x : option (N * Z)) : seat := fun q t => if (q =? p)%N && (t =? s)%N then x else v q t.
Definition see_seat (v : seat) (e : event) : seat :=
  match e with
  | EvJoin p s a _ => at_seat v p s (Some (a, 0))
  | EvLeave p s => at_seat v p s None
  | EvPoint p s n => at_seat v p s (match v p s with Some (a, _) => Some (a, n) | None => None end)
  | EvReset p s => at_seat v p s (match v p s with Some (a, _) => Some (a, 0) | None => None end)
  | _ => v
  end.
(** What is stored. *)
Definition seat_of (c : chain) (p s : N) : option (N * Z) :=
  match get_val (c_s c) p s with Some x => Some (vl_addr x, vl_points x) | None => None end.

Definition seats (c : chain) (v : seat) : Prop := forall p s, v p s = seat_of c p s /\ forall a n, seat_of c p s = Some (a, n) -> 0 <= n.
Lemma at_seat_eq v p s x q t : at_seat v p s x q t = if decide (p = q /\ s = t) then x else v q t.
Proof.
  unfold at_seat. destruct (N.eqb_spec q p), (N.eqb_spec t s); cbn [andb]; destruct (decide (p = q /\ s = t)) as [D|D]; try done; naive_solver.
Qed.
(** Steps that are a message of one module and leave the others alone. *)
Ltac one_of H := match type of H with ?f <$> ?x = _ => destruct x eqn:?Em; [injection H as <-|done] end.
Ltac param H := match type of H with (if ?x then _ else _) = _ => destruct x; [injection H as <-|done] end.

Section seats.
  Context (g : gen) (Hg : genesis g).
  Local Notation E := (E see_seat seats).
  Definition same_val (c c' : chain) : Prop := ss_val (c_s c') = ss_val (c_s c).
  Lemma seat_set c c' v v' p s x : seats c v -> (forall q t, v' q t = at_seat v p s x q t) -> (forall a n, x = Some (a, n) -> 0 <= n) ->
    (forall q t, seat_of c' q t = if decide (p = q /\ s = t) then x else seat_of c q t) -> seats c' v'.
  Proof.
    intros Hv Hv' Hx H q t. rewrite Hv', at_seat_eq, H. destruct (Hv q t) as [H1 H2]. case_decide; [done|]. by rewrite H1.
  Qed.
  Lemma seat_eq c c' : (forall p s, seat_of c' p s = seat_of c p s) -> E c [] c'.
  Proof. intros H v Hv p s. cbn [fold_left]. rewrite H. apply Hv. Qed.
  Lemma seat_same c c' : same_val c c' -> E c [] c'.
  Proof. intros H. apply seat_eq. intros p s. unfold seat_of, get_val, vals_of. by rewrite H. Qed.
  Lemma seat_leave p s c c' : (forall q t, get_val (c_s c') q t = if decide (p = q /\ s = t) then None else get_val (c_s c) q t) -> E c [EvLeave p s] c'.
  Proof.
    intros H v Hv. eapply seat_set; [exact Hv|done| |]; [done|]. intros q t. unfold seat_of. rewrite H. by case_decide.
  Qed.
  Lemma seat_p_leave c p s : E c [EvLeave p s] (s_out c (leave_pool (s_in c) s p)).
  Proof. apply seat_leave. intros q t. apply (get_leave (s_in c)). Qed.
  Lemma seat_set_val c p s x q t : seat_of (s_out c (set_val (s_in c) p s x)) q t = if decide (p = q /\ s = t) then Some (vl_addr x, vl_points x) else seat_of c q t.
  Proof. unfold seat_of. change (c_s (s_out c ?x)) with x. rewrite get_set_val. by case_decide. Qed.
  Lemma seat_p_incr c p s : E c [EvPoint p s (snd (increment_points (s_in c) p s))] (s_out c (fst (increment_points (s_in c) p s))).
  Proof.
    intros v Hv. destruct (Hv p s) as [Hps _]. cbn [fold_left see_seat]. rewrite Hps. unfold increment_points, seat_of at 1.
    change (get_val (c_s c) p s) with (get_val (s_in c) p s). destruct (get_val (s_in c) p s) as [x|] eqn:Ex; cbn [fst snd].
    - eapply seat_set; [exact Hv|done| |]. 2: intros q t; apply seat_set_val. intros a n [= _ <-]. unfold u64_add, w64. apply Z.mod_pos_bound. done.
    - eapply (seat_set c); [exact Hv|done|done|]. intros q t. change (seat_of (s_out c (s_in c)) q t) with (seat_of c q t).
      case_decide as D; [|done]. destruct D as [<- <-]. unfold seat_of. change (get_val (s_in c) p s) with (get_val (c_s c) p s) in Ex. by rewrite Ex.
  Qed.
  Lemma seat_p_reset c p s : E c (ev_reset c p s) (reset_pts c p s).
  Proof.
    intros v Hv. unfold ev_reset, reset_pts, reset_points. destruct (Hv p s) as [Hps Hn]. unfold seat_of in Hps, Hn.
    change (get_val (s_in c) p s) with (get_val (c_s c) p s).
    destruct (get_val (c_s c) p s) as [x|] eqn:Ex; cbn [fst snd]; [|exact Hv]. specialize (Hn _ _ eq_refl).
    destruct (0 <? vl_points x) eqn:E0; cbn [fold_left see_seat].
    - rewrite Hps. eapply seat_set; [exact Hv|done| |intros q t; apply seat_set_val]. intros a n [= _ <-]. done.
    - apply Z.ltb_ge in E0. assert (Hz : vl_points x = 0) by lia. eapply (seat_set c _ v v p s (Some (vl_addr x, 0))); [exact Hv| | |intros q t; apply seat_set_val].
      + intros q t. rewrite at_seat_eq. case_decide as D; [|done]. destruct D as [<- <-]. by rewrite Hps, Hz.
      + by intros a n [= _ <-].
  Qed.
  Lemma seat_p_slash c p s t : E c (ev_slash (d_in c) p s t) (d_out c (fst (slash_delegators (d_in c) s t))).
  Proof. apply E_quiet; [by apply sh_slash|]. by apply seat_same. Qed.
  Lemma val_infl c p c' x : charge_inflation c p = Some (c', x) -> same_val c c'.
  Proof. unfold charge_inflation. destruct (inflation_payout _ _); [|done]. destruct (_ <? 0); [done|]. by destruct (send _ _ _ _); intros [= <- _]. Qed.
  Lemma val_pay c u r : match pay_out c u r with inl c' | inr c' => same_val c c' end.
  Proof.
    unfold pay_out. destruct (send _ _ _ _) as [bk|]; [|done]. unfold increase_commission_rewards.
    destruct (cempty _); [by destruct (payout_rewards _ _ _ _)|].
    destruct (ss_stakers _ !! u); [|done]. destruct (send _ _ _ _); [|done]. by destruct (payout_rewards _ _ _ _).
  Qed.
  Lemma val_final c p v : same_val c (finalize c p v).
  Proof. unfold finalize. by destruct (get_pool c p). Qed.
  Lemma seat_queue st : let st' := stakers_begin st in forall c c', c_s c = st -> c_s c' = st' -> E c (ev_stakers_begin st) c'.
  Proof.
    cbv zeta. intros c c' Hc Hc'. unfold ev_stakers_begin, stakers_begin in *.
    assert (H1 : forall n st low, ss_val (fst (queue_loop process_centry (ss_chigh st) n st low)) = ss_val st /\ True).
    { intros n st0. generalize (ss_chigh st0) as h. intros h. revert st0. induction n as [|n IH]; intros st0 low; cbn [queue_loop]; [done|].
      destruct (process_centry st0 _) as [st1|] eqn:E1; [|done].
      assert (ss_val st1 = ss_val st0). { unfold process_centry in E1. destruct (ss_centries st0 !! _); [|by injection E1 as <-]. destruct (_ <=? _); [|done].
        injection E1 as <-. by destruct (ss_stakers _ !! _). }
      destruct (low <? h)%N; [|done]. destruct (IH st1 (low + 1)%N) as [-> _]. done. }
    assert (H2 : ss_val (process_commissions st) = ss_val st).
    { unfold process_commissions. specialize (H1 (S (N.to_nat (ss_chigh st - ss_clow st))) st (ss_clow st)). destruct (queue_loop _ _ _ _ _) as [st1 l]. apply H1. }
    assert (Q : Forall (quiet see_seat) (ev_commissions st)).
    { apply sh_queue_loop. intros st' i. unfold ev_centry. destruct (ss_centries st' !! i); [|constructor]. destruct (_ <=? _); [|constructor]. by repeat constructor. }
    intros v Hv. rewrite fold_left_app, (quiet_all see_seat _ v Q). set (st1 := process_commissions st) in *.
    assert (Hv1 : forall p s, v p s = match get_val st1 p s with Some x => Some (vl_addr x, vl_points x) | None => None end /\
       (forall x, get_val st1 p s = Some x -> 0 <= vl_points x)).
    { intros p s. destruct (Hv p s) as [E1 E2]. unfold seat_of in *. rewrite Hc in *. unfold get_val, vals_of in *. rewrite H2.
      split; [exact E1|]. intros x Hx. rewrite Hx in E2. by eapply E2. }
    clear Hv Q H1 H2 Hc. unfold process_leaves in Hc'. unfold ev_leaves.
    assert (H3 : forall n st low v, (forall p s, v p s = match get_val st p s with Some x => Some (vl_addr x, vl_points x) | None => None end /\
         (forall x, get_val st p s = Some x -> 0 <= vl_points x)) ->
       forall p s, let st2 := fst (queue_loop process_lentry (ss_lhigh st1) n st low) in
         fold_left see_seat (ev_queue_loop process_lentry ev_lentry (ss_lhigh st1) n st low) v p s = match get_val st2 p s with Some x => Some (vl_addr x, vl_points x) | None => None end /\
         (forall x, get_val st2 p s = Some x -> 0 <= vl_points x)).
    { intros n. induction n as [|n IH]; intros st0 low w Hw; cbn [queue_loop ev_queue_loop]; [exact Hw|].
      unfold ev_lentry at 1, process_lentry at 1 3 5. unfold process_lentry at 1. intros p s. cbv zeta.
      destruct (ss_lentries st0 !! (low + 1)%N) as [e|].
      - destruct (_ <=? _); [|exact (Hw p s)]. set (st3 := leave_pool _ _ _).
        assert (Hw3 : forall p s, see_seat w (EvLeave (le_pool e) (le_staker e)) p s = match get_val st3 p s with Some x => Some (vl_addr x, vl_points x) | None => None end /\
           (forall x, get_val st3 p s = Some x -> 0 <= vl_points x)).
        { intros p' s'. cbn [see_seat]. rewrite at_seat_eq. unfold st3. rewrite get_leave. case_decide; [done|]. apply Hw. }
        cbn [app ev_leave fold_left]. destruct (low <? _)%N; [exact (IH st3 _ _ Hw3 p s)|exact (Hw3 p s)].
      - cbn [app]. destruct (low <? _)%N; [exact (IH st0 _ _ Hw p s)|exact (Hw p s)]. }
    specialize (H3 (S (N.to_nat (ss_lhigh st1 - ss_llow st1))) st1 (ss_llow st1) v Hv1).
    intros p s. specialize (H3 p s). cbv zeta in H3. unfold seat_of. rewrite Hc'. unfold process_leaves. destruct (queue_loop process_lentry _ _ _ _) as [st2 l].
    cbn [fst] in H3. destruct H3 as [H3 H4]. split; [exact H3|]. intros a n Ha. change (get_val (with_lq st2 ?a ?b ?d ?f) p s) with (get_val st2 p s) in Ha.
    destruct (get_val st2 p s) as [x|]; [|done]. injection Ha as _ <-. by apply H4.
  Qed.
  Lemma seat_begin c t pr : E c (ev_begin c t pr) (begin_block c t pr).
  Proof.
    unfold ev_begin, begin_block. set (c0 := cw_time _ _ _). set (c1 := t_out c0 _). set (c2 := match split_inflation c1 pr with Some x => x | None => cw_halt c1 end).
    assert (H2 : c_s c2 = c_s c). { unfold c2. destruct (split_inflation c1 pr) eqn:Es; [by apply s_split in Es|done]. }
    clearbody c2. cbv zeta. set (c3 := d_out c2 _). eapply E_trans.
    - apply (E_quiet _ _ _ _ (cw_s c3 (with_stime (s_in c3) t))); [by apply sh_queue|]. apply seat_same. unfold same_val. change (ss_val (c_s c2) = ss_val (c_s c)). by rewrite H2.
    - by eapply seat_queue.
  Qed.
  Lemma seat_disable c sender p c' : chain_disable_pool c sender p = Some c' -> E c (ev_disable_pool c p) c'.
  Proof.
    unfold chain_disable_pool, ev_disable_pool. destruct (disable_record _ _ _) as [ps|]; [|done]. cbv zeta.
    change (members (cw_pools c ps) p) with (members c p). set (c1 := cw_pools c ps). set (c2 := fold_left _ _ _).
    assert (H2 : E c (flat_map (fun s => ev_leave p s) (members c p)) c2).
    { apply (E_trans _ _ c [] c1); [by apply seat_same|]. unfold c2. generalize (members c p). intros l. clearbody c1. clear. revert c1.
      induction l as [|s l IH]; intros c1; cbn [flat_map fold_left]; [apply E_refl|]. eapply E_trans; [apply seat_p_leave|apply IH]. }
    clearbody c2. intros H. eapply E_trans; [exact H2|]. apply E_quiet; [by repeat constructor|]. apply seat_same. revert H.
    destruct (two64 <=? _); [done|]. destruct (0 <? _); [|by intros [= <-]]. destruct (i64 _ <? 0); [done|]. destruct (send _ _ _ _); [|done]. by intros [= <-].
  Qed.
  Lemma seat_join c s p v a st' : R g c -> cop_ok c (CJoin s p v a) -> msg_join (s_in c) (pl_disabled <$> get_pool c p) (power c) s p v a = Some st' ->
    E c (ev_slot (s_in c) (power c) p ++ [EvJoin p s v a]) (s_out c st').
  Proof.
    intros HR Hok. unfold msg_join. destruct (_ <$> _) as [[|]|]; try done. destruct (ss_stakers (s_in c) !! s) as [x|] eqn:Ex; [|done].
    destruct (_ =? _)%N; [done|]. destruct (get_val (s_in c) p s) eqn:Ev; [done|]. destruct (ensure_slot _ _ _ _) as [st1|] eqn:Es; [|done].
    destruct (existsb _ _); [done|]. destruct (existsb _ _); [done|]. cbv zeta. destruct (pay_kyve _ _ _ _) as [b|]; [|done]. intros [= <-].
    unfold ensure_slot in Es. unfold ev_slot.
    assert (H1 : E c (if MAX_STAKERS <=? count_of (s_in c) p then ev_leave p (lowest_staker (s_in c) (power c) p) else []) (s_out c st1) /\
      is_Some (ss_stakers st1 !! s) /\ get_val st1 p s = None).
    { destruct (MAX_STAKERS <=? _).
      - destruct (_ <? _); [|done]. injection Es as <-. split; [apply seat_p_leave|]. rewrite (proj1 (leave_frame _ _ _)), get_leave. split; [eauto|]. by case_decide.
      - injection Es as <-. split; [by apply seat_same|eauto]. }
    destruct H1 as (H1 & H2 & H3). eapply E_trans; [exact H1|]. intros w Hw. eapply seat_set; [exact Hw|done| |]; [by intros ? ? [= _ <-]|].
    intros q t. unfold seat_of. change (get_val (c_s (s_out c ?y)) q t) with (get_val y q t). change (get_val (with_sbank ?y b) q t) with (get_val y q t).
    rewrite get_add by done. by case_decide.
  Qed.
  Local Ltac still := apply E_quiet; [shape|by apply seat_same].
  Lemma seat_step c o c' : R g c -> cop_ok c o -> cmsg c o = Some c' -> E c (emitted c o) c'.
  Proof.
    intros HR Hok Hm.
    assert (Lp : forall c p b, same_val c (set_prop c p b)) by done.
    assert (Lr : forall c x, same_val c (cw_rr c x)) by done. assert (Lh : forall c, same_val c (cw_halt c)) by done.
    assert (Lb : forall c b, same_val c (cw_bank c b)) by done. assert (Lf : forall c f, same_val c (f_out c f)) by done.
    assert (Lu : forall c, same_val c (cw_pools c (handle_upgrades (c_pools c) (c_time c)))) by done.
    assert (Hval : forall c p c' v fp x r y n t, R g c -> is_Some (get_pool c p) -> tally c (get_prop c p) p = TrValid c' v fp x r ->
      E c (ev_tally c (get_prop c p) p ++ ev_finalize (cw_rr c' y) p v fp x r n) (set_prop (finalize (cw_rr c' y) p v) p (bp_none n t))).
    { intros. eapply (l_valid see_seat seats same_val); eauto using seat_same, seat_p_slash, seat_p_leave, seat_p_incr, val_infl, val_final; first [exact val_pay|done]. }
    destruct o; cbn [cmsg emitted] in *; try (one_of Hm; still); try (param Hm; still).
    - unfold chain_create_staker in Hm. destruct (msg_delegate _ _ _ _ _); [|done]. destruct (msg_create_staker _ _ _ _) as [st|] eqn:Es; [|done]. injection Hm as <-.
      assert (ss_val st = ss_val (c_s c)). { unfold msg_create_staker in Es. destruct (ss_stakers _ !! _); [done|]. by injection Es as <-. }
      apply E_quiet; [shape|]. by apply seat_same.
    - one_of Hm. apply E_quiet; [constructor|]. apply seat_same. unfold msg_update_commission in Em. destruct (ss_stakers _ !! _); [|done]. injection Em as <-.
      unfold same_val, order_commission. cbn. destruct (ss_cindex (c_s c) !! _) as [i|]; [|done]. by destruct (ss_centries (c_s c) !! i).
    - one_of Hm. apply E_quiet; [by repeat constructor|]. apply seat_same. unfold msg_claim_commission in Em. destruct (ss_stakers _ !! _); [|done].
      destruct (negb _); [done|]. destruct (send _ _ _ _); [|done]. by injection Em as <-.
    - one_of Hm. by apply seat_join.
    - one_of Hm. apply E_quiet; [constructor|]. apply seat_eq. intros q t. unfold msg_leave in Em.
      destruct (get_val (s_in c) p s) as [x|] eqn:Ex; [|done]. destruct (bool_decide _); [done|]. injection Em as <-. unfold seat_of.
      change (get_val (c_s (s_out c (with_lq ?a ?b ?d ?f ?h))) q t) with (get_val a q t). rewrite get_set_val. case_decide as D; [|done].
      destruct D as [<- <-]. change (get_val (s_in c) p s) with (get_val (c_s c) p s) in Ex. by rewrite Ex.
    - eapply (l_submit g see_seat seats same_val); eauto using seat_same, seat_p_slash, seat_p_leave, seat_p_incr, seat_p_reset; done.
    - eapply (l_vote see_seat seats same_val); eauto using seat_same, seat_p_reset; done.
    - eapply (l_skip g see_seat seats same_val); eauto using seat_same, seat_p_slash, seat_p_leave, seat_p_incr, seat_p_reset; done.
    - eapply (l_claim_role see_seat seats same_val); eauto using seat_same; done.
    - unfold chain_create_pool in Hm. destruct (msg_create_pool _ _ _ _ _); [|done]. injection Hm as <-. still.
    - by eapply seat_disable.
    - injection Hm as <-. apply seat_begin.
    - injection Hm as <-. eapply (l_end g Hg see_seat seats same_val); eauto using seat_same, seat_p_slash, seat_p_leave, seat_p_incr, seat_p_reset; done.
    - injection Hm as <-. still.
  Qed.
  Lemma follow_seats ops : cops_ok (gstart g) ops -> forall p s, fold_left see_seat (elog (gstart g) ops) (fun _ _ => None) p s = seat_of (crun (gstart g) ops) p s.
  Proof. intros Hok p s. apply (follow_run g Hg see_seat seats); [|exact seat_step|done]. by intros ? ?. Qed.
End seats.
