(** * Votes, tallies, points and uploader timeouts over all histories (C18, C19, C23, C24, C29). *)
From Verif Require Import Base BaseFacts Delegation Stakers StakersInv StakersClaims StakersRun Funders Team RoundRobin RoundRobinClaims Pool Bundles Chain ChainFrame ArchiveInv
  BankMoves ChainLift PoolFrame PoolInv PayoutClaims PoolClaims TallyFacts VoteClaims StepCases PaySafe PointsInv TallyClaims TallyEffects.

(** Messages that tally the bundle of a pool: a submission while one is stored, and a skip. *)
Inductive tallies (c : chain) (p who : N) : cop -> Prop :=
  | tallies_submit m : sb_pool m = p -> sb_staker m = who -> bp_storage (get_prop c p) <> 0%N -> tallies c p who (CSubmit m)
  | tallies_skip v from : tallies c p who (CSkip p who v from).
(** Members with a stake. *)
Definition eligible (c : chain) (p s : N) : Prop := points c p s <> None /\ 0 < default 0 (delegated c s).
Lemma eligible_avail c p s : eligible c p s <-> avail (ob c p s).
Proof.
  rewrite ob_eta. unfold eligible, avail, points. cbn. destruct (get_val _ _ _); cbn; [|split; [by intros [? _]|by intros [[? ?] _]]].
  split; intros [H1 H2]; (split; [eauto|done]).
Qed.

Section R.
Context (g : gen) (ops : list cop) (Hg : genesis g) (Hok : cops_ok (gstart g) ops).
Let c := crun (gstart g) ops.
Lemma r_G : G g c. Proof. by apply G_run. Qed.
Lemma r_A : AInv c. Proof. by apply reach_A. Qed.
Lemma r_P : points_ok c. Proof. by apply points_ok_run. Qed.
Lemma r_B : BInv c. Proof. by apply (reach_B g). Qed.
Lemma r_ready : turn_ready g c.
Proof. split; [exact r_G|]. split; [exact r_A|]. split; [exact r_P|]. split; [exact (bi_upd _ r_B)|]. apply (bi_time _ r_B). Qed.

(** ** C18 *)
Lemma r_votes p : let b := get_prop c p in
  NoDup (bp_valid b ++ bp_invalid b ++ bp_abstain b) /\ (bp_storage b <> 0%N -> bp_uploader b ∈ bp_valid b).
Proof. apply votes_once, r_A. Qed.
Lemma r_power p : pool_power c p < two64 -> let v := distribution c p in
  0 <= v_valid v /\ 0 <= v_invalid v /\ 0 <= v_abstain v /\ v_valid v + v_invalid v + v_abstain v <= v_total v.
Proof.
  intros H. destruct (c_prop c !! p) as [b|] eqn:E; [|unfold distribution; by rewrite E].
  destruct (votes_power c p b r_A (fun x => G_power g Hg c x r_G) E H) as (H1 & H2 & H3 & H4 & H5). cbv zeta in *. rewrite H1, H2, H3 in *.
  repeat split; try (unfold power_of; apply sum_nn; intros x; apply (G_power g Hg c x r_G)). done.
Qed.
Lemma r_vote p s v st w c' : cmsg c (CVote p s v st w) = Some c' ->
  let b := get_prop c p in let b' := get_prop c' p in
  st = bp_storage b /\ st <> 0%N /\ signs c p s v /\ s ∉ bp_valid b /\ s ∉ bp_invalid b /\
  (forall x, x ∈ bp_valid b' <-> x ∈ bp_valid b \/ (x = s /\ w = Valid)) /\
  (forall x, x ∈ bp_invalid b' <-> x ∈ bp_invalid b \/ (x = s /\ w = Invalid)) /\
  (forall x, x ∈ bp_abstain b' <-> (x ∈ bp_abstain b /\ x <> s) \/ (x = s /\ w = Abstain)) /\
  (w = Abstain -> s ∉ bp_abstain b) /\ bp_uploader b' = bp_uploader b /\ bp_storage b' = bp_storage b.
Proof. apply vote_lists, r_A. Qed.

(** ** Tallies by messages *)
Lemma r_message o p who c' : tallies c p who o -> cmsg c o = Some c' ->
  exists r, (pool_power c p < two63 -> verdict c p (Some who) r) /\ effect c c' p (Some who) None r /\
    finalized c' p = (finalized c p + match r with OValid => 1 | _ => 0 end)%N /\
    (forall q s, q <> p -> points c' q s = points c q s) /\ (forall m, o = CSubmit m -> r <> ONone).
Proof.
  intros HT E. destruct HT as [m <- <- Hs|v from].
  - destruct (submit_tallied g Hg c m c' r_G r_A E Hs) as (r & Hr & HT & _). exists r. split; [apply (ta_verdict _ _ _ _ _ _ HT)|].
    split; [by apply (settled_effect g); [exact r_G|exact r_P|exact (ta_stakers _ _ _ _ _ _ HT)]|].
    split; [apply (ta_fin _ _ _ _ _ _ HT)|]. split; [apply others_points, (ta_others _ _ _ _ _ _ HT)|done].
  - destruct (skip_tallied g Hg c p who v from c' r_G r_A E) as (r & n & HT & _). exists r. split; [apply (ta_verdict _ _ _ _ _ _ HT)|].
    split; [by apply (settled_effect g); [exact r_G|exact r_P|exact (ta_stakers _ _ _ _ _ _ HT)]|].
    split; [apply (ta_fin _ _ _ _ _ _ HT)|]. split; [apply others_points, (ta_others _ _ _ _ _ _ HT)|done].
Qed.
(** Who voted and does not lose keeps stake and membership. *)
Lemma effect_winner c1 c2 p who r s : effect c1 c2 p who None r -> on_list (get_prop c1 p) s -> ~ loses (get_prop c1 p) r s ->
  uncut c1 c2 s /\ points c2 p s = (start who s <$> points c1 p s).
Proof.
  intros HE Hon Hl. destruct (HE s) as [_ H]. specialize (H Hl). destruct (points c1 p s) as [v|]; [|by destruct H].
  unfold charged, due in H. rewrite (decide_True _ _ Hon) in H. rewrite (decide_False (P := None = Some s)) in H by done.
  rewrite decide_True in H by done. destruct H. done.
Qed.

(** ** The end of a block *)
Lemma r_turn_run p pl : get_pool (upgraded c) p = Some pl -> c_halt (cstep c CEnd) = false ->
  exists c1 c2, turn_ready g c1 /\ turn c1 c2 p (pl_interval pl) /\ apart c c1 p /\ apart c2 (cstep c CEnd) p /\
    timeout_pool c1 p (pl_interval pl) = Some c2.
Proof.
  intros Hp Hh. apply (end_turn_run g Hg c p pl r_ready); [|done|done].
  intros q x Hq. unfold upgraded, get_pool, handle_upgrades in Hq. cbn in Hq. rewrite lookup_fmap in Hq.
  destruct (ps_pools (c_pools c) !! q) as [y|] eqn:Ey; [|done]. injection Hq as <-.
  exact (proj1 (upgrade_ok (c_time c) y (bi_pool _ r_B q y Ey))).
Qed.
Lemma r_turn p pl : get_pool (upgraded c) p = Some pl -> c_halt (cstep c CEnd) = false ->
  exists c1 c2, turn c1 c2 p (pl_interval pl) /\ apart c c1 p /\ apart c2 (cstep c CEnd) p.
Proof. intros Hp Hh. destruct (r_turn_run p pl Hp Hh) as (c1 & c2 & _ & H1 & H2 & H3 & _). by exists c1, c2. Qed.
End R.

(** The choice of the next uploader survives the late uploader's point, unless the late
    uploader is chosen again and removed. *)
Lemma fit_late c bad o n : fit o n ->
  (exists s, avail (late c bad s (o s))) -> avail (late c bad n (o n)) \/ (n = bad /\ fst (late c bad n (o n)) = None).
Proof.
  intros [H1 _] (s & Hs).
  assert (Hl : forall x, avail (late c bad x (o x)) -> avail (o x)).
  { intros x. unfold late. destruct (decide (x = bad)); [|done]. unfold one_miss, miss, avail. destruct (fst (o x)) as [v|] eqn:E; [|by rewrite E].
    destruct (_ <=? _); cbn; [by intros [[? ?] _]|]. intros [_ H]. split; [eauto|done]. }
  assert (Hn : avail (o n)) by (apply H1; exists s; by apply Hl).
  unfold late. destruct (decide (n = bad)) as [->|]; [|by left]. unfold one_miss, miss. destruct Hn as [[v Hv] Hn]. rewrite Hv.
  destruct (_ <=? _); [by right|]. left. split; cbn; [eauto|done].
Qed.

(** ** The late uploader *)
(** [s] got a point: more points than before, or removed. *)
Definition pointed (c c' : chain) (p s : N) : Prop :=
  match points c p s with
  | None => points c' p s = None
  | Some v => points c' p s = None \/ exists v', points c' p s = Some v' /\ v < v'
  end.
Lemma pointed_late c c' p bad : only_late c c' p bad -> pointed c c' p bad.
Proof.
  intros H. specialize (H bad). unfold pointed. destruct (points c p bad) as [v|]; [|by destruct H]. unfold charged in H.
  rewrite (decide_True (P := bad = bad)) in H by done. rewrite decide_False in H by done.
  destruct (decide _); destruct H as [H _]; [right|by left]. eexists. split; [done|lia].
Qed.
Lemma pointed_effect c c' p bad r : effect c c' p None (Some bad) r -> pointed c c' p bad.
Proof.
  intros H. destruct (H bad) as [H1 H2]. unfold pointed.
  assert (Hd : loses (get_prop c p) r bad \/ ~ loses (get_prop c p) r bad).
  { destruct r; cbn; [destruct (decide (bad ∈ bp_invalid (get_prop c p)))|destruct (decide (bad ∈ bp_valid (get_prop c p)))|]; tauto. }
  destruct Hd as [Hd|Hd]; [destruct (H1 Hd) as [-> _]; destruct (points c p bad); auto|]. specialize (H2 Hd).
  destruct (points c p bad) as [v|]; [|by destruct H2]. unfold charged, due, start in H2. rewrite (decide_False (P := None = Some bad)) in H2 by done.
  rewrite (decide_True (P := Some bad = Some bad)) in H2 by done.
  set (k := (if decide (on_list (get_prop c p) bad) then 0 else 1) + 1) in *.
  assert (Hn : 0 < k) by (unfold k; by destruct (decide (on_list _ _))). clearbody k.
  rewrite decide_False in H2 by lia. destruct (decide (v + _ < _)); destruct H2 as [H2 _]; [right|by left]. eexists. split; [done|lia].
Qed.
(** The role after the deadline. *)
Record handed (c c1 c2 c' : chain) (p : N) : Prop := mkHanded {
  ha_time : bp_updated (get_prop c' p) = c_time c;
  ha_point : bp_storage (get_prop c p) = 0%N \/ v_status (distribution c1 p) <> VNoQuorum -> pointed c c' p (bp_next (get_prop c p));
  ha_next : (exists s, eligible c2 p s) ->
    let n := bp_next (get_prop c' p) in eligible c2 p n \/ (n = bp_next (get_prop c p) /\ points c' p n = None)
}.
Lemma pointed_apart c c1 c2 c' p s : apart c c1 p -> apart c2 c' p -> pointed c1 c2 p s -> pointed c c' p s.
Proof. intros A1 A2. unfold pointed. by rewrite (ap_points _ _ _ A1), (ap_points _ _ _ A2). Qed.
Lemma handed_turn c c1 c2 c' p i : apart c c1 p -> apart c2 c' p -> turn c1 c2 p i -> can_run c1 p = true -> deadline_over c p i -> interval_over c p i ->
  handed c c1 c2 c' p.
Proof.
  intros A1 A2 HT Hr Hd Hi. assert (Hd1 : deadline_over c1 p i).
  { revert Hd. unfold deadline_over. rewrite (ap_prop _ _ _ A1), (ap_time _ _ _ A1).
    pose proof (ap_par _ _ _ A1) as Hp. unfold par in Hp. injection Hp. intros. congruence. }
  assert (Hi1 : interval_over c1 p i) by (revert Hi; unfold interval_over; by rewrite (ap_prop _ _ _ A1), (ap_time _ _ _ A1)).
  assert (HP : pointed c1 c2 p (bp_next (get_prop c1 p)) -> pointed c c' p (bp_next (get_prop c p))).
  { rewrite (ap_prop _ _ _ A1). by apply pointed_apart. }
  destruct (decide (bp_storage (get_prop c1 p) = 0%N)) as [Hs|Hs].
  - destruct (tu_late_empty _ _ _ _ HT Hr Hd1 Hs) as (H1 & _ & n & Hf & Ho & Hn). split.
    + rewrite (ap_prop _ _ _ A2), Hn. cbn. apply (ap_time _ _ _ A1).
    + intros _. apply HP. by apply pointed_late.
    + intros (s & He). cbv zeta. rewrite (ap_prop _ _ _ A2), Hn. cbn [bp_next with_next bp_none]. rewrite eligible_avail in He. rewrite Ho in He.
      rewrite eligible_avail, Ho. destruct (fit_late c1 (bp_next (get_prop c1 p)) (ob c1 p) n Hf) as [H|[H2 H3]]; [eauto|by left|right].
      rewrite <- (ap_prop _ _ _ A1). split; [done|]. rewrite (ap_points _ _ _ A2). rewrite <- Ho in H3. unfold points. rewrite ob_eta in H3. cbn in H3. by rewrite H3.
  - assert (Hq : v_status (distribution c1 p) = VNoQuorum \/ v_status (distribution c1 p) <> VNoQuorum)
      by (destruct (v_status _); first [by left|by right]).
    destruct Hq as [Hq|Hq].
    + destruct (tu_dropped _ _ _ _ HT Hr Hi1 Hs Hq) as (_ & _ & n & Hf & Hn). split.
      * rewrite (ap_prop _ _ _ A2), Hn. cbn. apply (ap_time _ _ _ A1).
      * rewrite (ap_prop _ _ _ A1) in Hs. intros [?|?]; done.
      * intros (s & He). cbv zeta. rewrite (ap_prop _ _ _ A2), Hn. cbn [bp_next with_next bp_none]. left. apply eligible_avail, Hf. exists s. by apply eligible_avail.
    + destruct (tu_late_stored _ _ _ _ HT Hr Hd1 Hs Hq) as (r & n & H1 & _ & _ & Hf & Ho & Hn). split.
      * rewrite (ap_prop _ _ _ A2), Hn. cbn. apply (ap_time _ _ _ A1).
      * intros _. apply HP. by eapply pointed_effect.
      * intros (s & He). cbv zeta. rewrite (ap_prop _ _ _ A2), Hn. cbn [bp_next with_next bp_none]. rewrite eligible_avail in He. rewrite Ho in He.
        rewrite eligible_avail, Ho. destruct (fit_late c1 (bp_next (get_prop c1 p)) (TallyClaims.after c1 p None r) n Hf) as [H|[H2 H3]]; [eauto|by left|right].
        rewrite <- (ap_prop _ _ _ A1). split; [done|]. rewrite (ap_points _ _ _ A2). rewrite <- Ho in H3. unfold points. rewrite ob_eta in H3. cbn in H3. by rewrite H3.
Qed.
Lemma r_handed g ops p pl : genesis g -> cops_ok (gstart g) ops -> let c := crun (gstart g) ops in let c' := cstep c CEnd in
  get_pool (upgraded c) p = Some pl -> c_halt c' = false ->
  exists c1 c2, apart c c1 p /\ apart c2 c' p /\
    (can_run c1 p = true -> deadline_over c p (pl_interval pl) -> handed c c1 c2 c' p) /\
    (can_run c1 p = false -> bp_next (get_prop c' p) = 0%N /\ forall s, points c' p s = points c p s).
Proof.
  intros Hg Hok c c' Hp Hh. destruct (r_turn g ops Hg Hok p pl Hp Hh) as (c1 & c2 & HT & A1 & A2). exists c1, c2. split; [done|]. split; [done|]. split.
  - intros Hr Hd. eapply handed_turn; [done|done|exact HT|done|done|].
    assert (Ht : 0 < b_timeout (c_bp c)).
    { pose proof (g_par _ _ (r_G g ops Hg Hok)) as Hq. unfold params_ok in Hq. destruct Hq as (Hq & _). unfold bparams_valid in Hq.
      rewrite !andb_true_iff in Hq. destruct Hq as [[[Hq _] _] _]. by apply Z.ltb_lt. }
    unfold interval_over, deadline_over in *. lia.
  - intros Hr. destruct (tu_stopped _ _ _ _ HT Hr) as (Hq & Hn & _). unfold c'. fold c in A1, A2 |- *. rewrite (ap_prop _ _ _ A2). split; [done|].
    intros s. rewrite (ap_points _ _ _ A2). destruct (Hq s) as [-> _]. apply (ap_points _ _ _ A1).
Qed.

(** ** Who decides *)
Lemma w1_counted_nn g c p who s : genesis g -> G g c -> 0 <= w1 (counted_as c p who s).
Proof.
  intros Hg HG. assert (H : 0 <= w1 (present c p who s)) by (rewrite w1_present; by apply (w1_nn g Hg)).
  unfold counted_as, lose. destruct (decide _); [|done]. unfold one_miss, miss. destruct (fst (present c p who s)) as [v|] eqn:E; [|done].
  destruct (_ <=? _); [done|]. unfold w1 in *. cbn. by rewrite E in H.
Qed.
Lemma w1_counted_out c p who s : in_pool c p s = false -> w1 (counted_as c p who s) = 0.
Proof.
  intros H. assert (Hp : fst (present c p who s) = None).
  { rewrite in_pool_ob in H. unfold present. destruct who as [m|]; [unfold took; destruct (decide _)|]; cbn in *; by destruct (get_val _ _ _). }
  unfold counted_as, lose. destruct (decide _); [|unfold w1; by rewrite Hp]. unfold one_miss, miss. rewrite Hp. unfold w1. by rewrite Hp.
Qed.
Lemma weight_le o l k : (forall s, 0 <= w1 (o s)) -> NoDup l -> (forall s, s ∉ k -> w1 (o s) = 0) -> weight o l <= weight o k.
Proof.
  intros H0 Hn Hk. assert (H : weight o l = weight o (filter (fun s => s ∈ k) l)).
  { clear Hn. unfold weight. induction l as [|x l IH]; [done|]. rewrite filter_cons. destruct (decide (x ∈ k)) as [Hx|Hx]; rewrite !sum_cons; cbv beta; [lia|].
    rewrite (Hk x Hx). lia. }
  rewrite H. apply sum_incl; [auto|by apply NoDup_filter|]. intros s Hs. by apply elem_of_list_filter in Hs as [? _].
Qed.
(** A tally has one outcome only. *)
Lemma verdict_one g c p who r r' : genesis g -> G g c -> AInv c -> verdict c p who r -> verdict c p who r' -> r = r'.
Proof.
  intros Hg HG HA. pose proof (votes_once c p HA) as [Hn _]. cbv zeta in Hn. unfold verdict. cbv zeta.
  set (o := counted_as c p who). set (b := get_prop c p) in *.
  assert (H : weight o (bp_valid b ++ bp_invalid b) <= weight o (members c p)).
  { apply weight_le.
    - intros s. by apply (w1_counted_nn g).
    - rewrite (app_assoc (bp_valid b)) in Hn. by apply NoDup_app in Hn as [? _].
    - intros s Hs. apply w1_counted_out. destruct (in_pool c p s) eqn:E; [|done]. destruct Hs. by apply members_in. }
  unfold weight in H at 1. rewrite sum_app in H. fold (weight o (bp_valid b)) (weight o (bp_invalid b)) in H.
  assert (0 <= weight o (bp_valid b) /\ 0 <= weight o (bp_invalid b)) by (split; apply sum_nn; intros s; by apply (w1_counted_nn g)).
  destruct r, r'; cbn; try done; lia.
Qed.

(** ** Nothing else finalizes *)
Lemma finalized_b c c' : bpart c' = bpart c -> forall p, finalized c' p = finalized c p.
Proof. intros H p. unfold finalized. by rewrite (get_pool_b c c' p H). Qed.
Lemma finalized_step c o p : AInv c -> tally_op o = false -> finalized (cstep c o) p = finalized c p.
Proof.
  intros HI Ho. unfold cstep. destruct (cmsg c o) as [c'|] eqn:E; simpl in *; [|done].
  destruct o; try discriminate Ho; simpl in E;
    try (match type of E with ?f <$> ?x = _ => destruct x; [injection E as <-; by apply finalized_b|done] end);
    try (match type of E with (if ?x then _ else _) = _ => destruct x; [injection E as <-; done|done] end);
    try (match type of E with ?f <$> ?x = _ => destruct x eqn:E'; [injection E as <-|done] end;
         apply finalized_keep; first [eapply keep_update; eassumption|eapply keep_enable; eassumption|eapply keep_schedule; eassumption|eapply keep_cancel; eassumption]).
  - unfold chain_create_staker in E. destruct (msg_delegate _ _ _ _ _); [|done]. destruct (msg_create_staker _ _ _ _); [|done].
    injection E as <-. by apply finalized_b.
  - unfold msg_vote in E. destruct (can_vote _ _ _ _ _); simpl in E; [|done].
    match type of E with match ?x with Some _ => _ | None => _ end = _ => destruct x as [b'|] end; [|done]. injection E as <-. done.
  - unfold msg_claim_role in E. destruct (can_run _ _); simpl in E; [|done]. destruct (authorized _ _ _ _); simpl in E; [|done].
    destruct (_ =? _)%N; simpl in E; [|done]. by injection E as <-.
  - unfold chain_create_pool in E. destruct (msg_create_pool _ _ _ _ _) as [ps|] eqn:Em; [|done]. injection E as <-.
    unfold msg_create_pool in Em. destruct (create_basic a); simpl in Em; [|done]. destruct (sender =? AUTHORITY)%N; simpl in Em; [|done].
    destruct json; simpl in Em; [|done]. injection Em as <-. unfold finalized, get_pool. cbn. destruct (decide (p = ps_count (c_pools c))) as [->|Hne].
    + rewrite lookup_insert. destruct (ps_pools (c_pools c) !! _) as [pl|] eqn:Ep; [|done]. exfalso.
      assert (ps_count (c_pools c) < ps_count (c_pools c))%N; [|lia]. apply (ai_pools _ HI). unfold get_pool. by rewrite Ep.
    + by rewrite lookup_insert_ne.
  - unfold chain_disable_pool in E. destruct (disable_record _ _ _) as [ps|] eqn:Ed; [|done].
    apply keep_disable in Ed. pose proof (b_leave_all (cw_pools c ps) (members (cw_pools c ps) p0) p0) as Hb.
    set (c2 := fold_left _ _ _) in *. assert (H2 : finalized c2 p = finalized c p).
    { rewrite (finalized_b _ _ Hb). by apply finalized_keep. }
    destruct (two64 <=? _); [done|]. destruct (0 <? _); [|by injection E as <-]. destruct (i64 _ <? 0); [done|].
    destruct (send _ _ _ _); [|done]. by injection E as <-.
  - injection E as <-. unfold begin_block. set (c0 := cw_time _ _ _). set (c1 := t_out c0 _).
    set (c2 := match split_inflation c1 _ with Some x => x | None => cw_halt c1 end).
    assert (Hb : bpart c2 = bpart c1).
    { unfold c2. destruct (split_inflation c1 _) eqn:E; [by apply b_split in E|done]. }
    assert (H2 : finalized c2 p = finalized c p) by (rewrite (finalized_b _ _ Hb); done). done.
  - by injection E as <-.
Qed.

Section F.
Context (g : gen) (ops : list cop) (Hg : genesis g) (Hok : cops_ok (gstart g) ops).
Let c := crun (gstart g) ops.
(** A bundle is finalized only by a tally that declares it valid. *)
Lemma r_finalized o p : c_halt (cstep c o) = false -> finalized (cstep c o) p <> finalized c p ->
  finalized (cstep c o) p = (finalized c p + 1)%N /\
  ((exists s, tallies c p s o /\ (pool_power c p < two63 -> verdict c p (Some s) OValid)) \/
   (o = CEnd /\ exists c1, apart c c1 p /\ (pool_power c1 p < two63 -> verdict c1 p None OValid))).
Proof.
  intros Hh Hne. pose proof (r_G g ops Hg Hok) as HG. pose proof (r_A g ops Hok) as HA. fold c in HG, HA.
  assert (Hr : forall s q c', tallies c q s o -> cmsg c o = Some c' -> q = p -> finalized c' p <> finalized c p ->
    finalized c' p = (finalized c p + 1)%N /\ exists s, tallies c p s o /\ (pool_power c p < two63 -> verdict c p (Some s) OValid)).
  { intros s q c' HT E -> Hn. destruct (r_message g ops Hg Hok o p s c' HT E) as (r & Hv & _ & Hf & _). fold c in Hf, Hv.
    destruct r; [|rewrite Hf in Hn; lia..]. split; [done|]. eauto. }
  destruct (tally_op o) eqn:Ho; [|by rewrite finalized_step in Hne]. destruct o; try discriminate Ho.
  - unfold cstep in *. destruct (cmsg c (CSubmit m)) as [c'|] eqn:E; cbn [default from_option id] in *; [|done].
    destruct (decide (bp_storage (get_prop c (sb_pool m)) = 0%N)) as [Hs|Hs].
    + destruct (submit_effect g Hg c m c' HG HA E Hs) as (_ & _ & _ & _ & Hf & _). by rewrite Hf in Hne.
    + destruct (decide (p = sb_pool m)) as [->|Hp].
      * destruct (Hr (sb_staker m) (sb_pool m) c') as [H1 H2]; try done; [by constructor|]. split; [done|by left].
      * destruct (submit_tallied g Hg c m c' HG HA E Hs) as (r & _ & HT & _). by rewrite (ta_fins _ _ _ _ _ _ HT) in Hne.
  - unfold cstep in *. destruct (cmsg c (CSkip p0 s creator from)) as [c'|] eqn:E; cbn [default from_option id] in *; [|done].
    destruct (decide (p0 = p)) as [->|Hp].
    + destruct (Hr s p c') as [H1 H2]; try done; [by constructor|]. split; [done|by left].
    + destruct (skip_tallied g Hg c p0 s creator from c' HG HA E) as (r & n & HT & _). rewrite (ta_fins _ _ _ _ _ _ HT) in Hne; [done|congruence].
  - destruct (get_pool (upgraded c) p) as [pl|] eqn:Ep.
    + destruct (r_turn g ops Hg Hok p pl Ep Hh) as (c1 & c2 & HT & A1 & A2). fold c in A1, A2.
      assert (Hf : finalized c2 p <> finalized c1 p) by (rewrite (ap_fin _ _ _ A1), <- (ap_fin _ _ _ A2); done).
      assert (Hd : can_run c1 p = true /\ deadline_over c1 p (pl_interval pl) /\ bp_storage (get_prop c1 p) <> 0%N /\ v_status (distribution c1 p) <> VNoQuorum).
      { destruct (can_run c1 p) eqn:Hr1; [|destruct (tu_stopped _ _ _ _ HT Hr1) as (_ & _ & ?); done]. split; [done|].
        assert (Hi : interval_over c1 p (pl_interval pl)).
        { unfold interval_over. destruct (Z.le_gt_cases (bp_updated (get_prop c1 p) + pl_interval pl) (c_time c1)) as [?|Hx]; [done|].
          destruct Hf. rewrite (tu_early _ _ _ _ HT Hr1); [done|]. unfold interval_over. lia. }
        assert (Hw : bp_storage (get_prop c1 p) = 0%N \/ v_status (distribution c1 p) <> VNoQuorum ->  deadline_over c1 p (pl_interval pl)).
        { intros Hw. unfold deadline_over. destruct (Z.le_gt_cases (bp_updated (get_prop c1 p) + pl_interval pl + b_timeout (c_bp c1)) (c_time c1)) as [?|Hx]; [done|].
          destruct Hf. rewrite (tu_waiting _ _ _ _ HT Hr1 Hi); [done| |done]. unfold deadline_over. lia. }
        destruct (decide (bp_storage (get_prop c1 p) = 0%N)) as [Hs|Hs].
        { destruct (tu_late_empty _ _ _ _ HT Hr1) as (_ & ? & _); [by auto|done|done]. }
        assert (Hq : v_status (distribution c1 p) = VNoQuorum \/ v_status (distribution c1 p) <> VNoQuorum)
          by (destruct (v_status _); first [by left|by right]).
        destruct Hq as [Hq|Hq]; [|by auto]. destruct (tu_dropped _ _ _ _ HT Hr1 Hi Hs Hq) as (_ & ? & _). done. }
      destruct Hd as (D1 & D2 & D3 & D4). destruct (tu_late_stored _ _ _ _ HT D1 D2 D3 D4) as (r & n & _ & Hv & Hfi & _).
      destruct r; [|rewrite Hfi in Hf; lia..]. rewrite (ap_fin _ _ _ A2), Hfi, (ap_fin _ _ _ A1). split; [done|]. right. split; [done|]. by exists c1.
    + exfalso. apply Hne. unfold finalized.
      assert (E1 : get_pool c p = None).
      { unfold upgraded, get_pool, handle_upgrades in Ep. cbn in Ep. rewrite lookup_fmap in Ep. unfold get_pool. by destruct (ps_pools (c_pools c) !! p). }
      rewrite E1. destruct (get_pool (cstep c CEnd) p) as [x|] eqn:Ex; [|done]. exfalso.
      assert (HA' : AInv (cstep c CEnd)) by (by apply chain_step).
      assert (Hp : (p < ps_count (c_pools (cstep c CEnd)))%N) by (apply (ai_pools _ HA'); eauto).
      rewrite count_step in Hp by done. apply (ai_pools _ HA) in Hp as [y Hy]. congruence.
Qed.
End F.

(** ** The claims *)
Lemma claim_slashes g ops o p who c' : genesis g -> cops_ok (gstart g) ops -> let c := crun (gstart g) ops in
  tallies c p who o -> cmsg c o = Some c' ->
  exists r, (pool_power c p < two63 -> verdict c p (Some who) r) /\ forall s,
    (loses (get_prop c p) r s -> points c' p s = None /\ cut c c' s (penalty (ds_params (c_d c)) (get_prop c p) r s)) /\
    (~ loses (get_prop c p) r s -> on_list (get_prop c p) s -> uncut c c' s /\ points c' p s = (start (Some who) s <$> points c p s)).
Proof.
  intros Hg Hok c HT E. destruct (r_message g ops Hg Hok o p who c' HT E) as (r & Hv & He & _). exists r. split; [done|].
  intros s. split; [apply He|]. intros Hl Hon. by eapply effect_winner.
Qed.
(** The turn at the end of a block decides about the stored bundle. *)
Definition decides (c c1 : chain) (p : N) (i : Z) : Prop :=
  can_run c1 p = true /\ deadline_over c p i /\ bp_storage (get_prop c p) <> 0%N /\ v_status (distribution c1 p) <> VNoQuorum.
Lemma claim_block_slashes g ops p pl : genesis g -> cops_ok (gstart g) ops -> let c := crun (gstart g) ops in
  get_pool (upgraded c) p = Some pl -> c_halt (cstep c CEnd) = false ->
  exists c1 c2, apart c c1 p /\ apart c2 (cstep c CEnd) p /\
    exists r, (decides c c1 p (pl_interval pl) -> pool_power c1 p < two63 -> verdict c1 p None r) /\ (~ decides c c1 p (pl_interval pl) -> r = ONone) /\ forall s,
      (loses (get_prop c p) r s -> points c2 p s = None /\ cut c1 c2 s (penalty (ds_params (c_d c1)) (get_prop c p) r s)) /\
      (~ loses (get_prop c p) r s -> on_list (get_prop c p) s -> s <> bp_next (get_prop c p) -> uncut c1 c2 s /\ points c2 p s = points c1 p s).
Proof.
  intros Hg Hok c Hp Hh. destruct (r_turn g ops Hg Hok p pl Hp Hh) as (c1 & c2 & HT & A1 & A2). exists c1, c2. split; [done|]. split; [done|].
  fold c in A1, A2.
  assert (Hdec : decides c c1 p (pl_interval pl) <-> can_run c1 p = true /\ deadline_over c1 p (pl_interval pl) /\ bp_storage (get_prop c1 p) <> 0%N /\ v_status (distribution c1 p) <> VNoQuorum).
  { unfold decides, deadline_over. rewrite (ap_prop _ _ _ A1), (ap_time _ _ _ A1).
    pose proof (ap_par _ _ _ A1) as Hpar. unfold par in Hpar. injection Hpar as Hpar _. by rewrite Hpar. }
  revert Hdec. generalize (decides c c1 p (pl_interval pl)). intros D Hdec. rewrite <- (ap_prop _ _ _ A1).
  assert (Hnone : ~ D -> (forall s, on_list (get_prop c1 p) s -> s <> bp_next (get_prop c1 p) -> uncut c1 c2 s /\ points c2 p s = points c1 p s) ->
    exists r, (D -> pool_power c1 p < two63 -> verdict c1 p None r) /\ (~ D -> r = ONone) /\ forall s,
      (loses (get_prop c1 p) r s -> points c2 p s = None /\ cut c1 c2 s (penalty (ds_params (c_d c1)) (get_prop c1 p) r s)) /\
      (~ loses (get_prop c1 p) r s -> on_list (get_prop c1 p) s -> s <> bp_next (get_prop c1 p) -> uncut c1 c2 s /\ points c2 p s = points c1 p s)).
  { intros HD H. exists ONone. split; [done|]. split; [done|]. intros s. split; [done|]. auto. }
  assert (Hsame : c2 = c1 -> forall s, on_list (get_prop c1 p) s -> s <> bp_next (get_prop c1 p) -> uncut c1 c2 s /\ points c2 p s = points c1 p s) by (by intros ->).
  assert (Ht1 : 0 < b_timeout (c_bp c1)).
  { pose proof (ap_par _ _ _ A1) as Hpar. unfold par in Hpar. injection Hpar as -> _.
    pose proof (g_par _ _ (r_G g ops Hg Hok)) as Hq. unfold params_ok in Hq. destruct Hq as (Hq & _). unfold bparams_valid in Hq.
    rewrite !andb_true_iff in Hq. destruct Hq as [[[Hq _] _] _]. by apply Z.ltb_lt. }
  destruct (can_run c1 p) eqn:Hr.
  2:{ apply Hnone; [rewrite Hdec; by intros []|]. intros s _ _. destruct (tu_stopped _ _ _ _ HT Hr) as (Hq & _). destruct (Hq s). done. }
  destruct (Z.le_gt_cases (bp_updated (get_prop c1 p) + pl_interval pl) (c_time c1)) as [Hi|Hi].
  2:{ apply Hnone; [|apply Hsame, (tu_early _ _ _ _ HT Hr); unfold interval_over; lia]. rewrite Hdec. intros (_ & Hd & _). unfold deadline_over in Hd. pose proof Ht1. lia. }
  assert (Hq : v_status (distribution c1 p) = VNoQuorum \/ v_status (distribution c1 p) <> VNoQuorum)
    by (destruct (v_status _); first [by left|by right]).
  destruct (decide (bp_storage (get_prop c1 p) = 0%N)) as [Hs|Hs].
  - apply Hnone; [rewrite Hdec; by intros (_ & _ & ? & _)|]. destruct (Z.le_gt_cases (bp_updated (get_prop c1 p) + pl_interval pl + b_timeout (c_bp c1)) (c_time c1)) as [Hd|Hd].
    + intros s _ Hn. destruct (tu_late_empty _ _ _ _ HT Hr Hd Hs) as (Hl & _). specialize (Hl s).
      destruct (points c1 p s) as [v|]; [|by destruct Hl]. unfold charged in Hl. rewrite (decide_False (P := s = _)) in Hl by done.
      rewrite decide_True in Hl by done. by destruct Hl.
    + apply Hsame, (tu_waiting _ _ _ _ HT Hr Hi); [unfold deadline_over; lia|by left].
  - destruct Hq as [Hq|Hq].
    + apply Hnone; [rewrite Hdec; by intros (_ & _ & _ & ?)|]. intros s Hon _. destruct (tu_dropped _ _ _ _ HT Hr Hi Hs Hq) as (He & _).
      destruct (effect_winner _ _ _ _ _ s He Hon) as [H1 H2]; [by intros []|]. split; [done|]. rewrite H2. by destruct (points c1 p s).
    + destruct (Z.le_gt_cases (bp_updated (get_prop c1 p) + pl_interval pl + b_timeout (c_bp c1)) (c_time c1)) as [Hd|Hd].
      2:{ apply Hnone; [rewrite Hdec; intros (_ & Hd' & _); unfold deadline_over in Hd'; lia|]. apply Hsame, (tu_waiting _ _ _ _ HT Hr Hi); [unfold deadline_over; lia|by right]. }
      destruct (tu_late_stored _ _ _ _ HT Hr Hd Hs Hq) as (r & n & He & Hv & _). exists r. split; [done|]. split; [intros HD; destruct HD; by apply Hdec|]. intros s. split; [apply He|].
      intros Hl Hon Hn. destruct (He s) as [_ H]. specialize (H Hl). destruct (points c1 p s) as [v|]; [|by destruct H].
      unfold charged, due, start in H. rewrite (decide_True _ _ Hon) in H. rewrite (decide_False (P := Some _ = Some s)) in H by congruence.
      rewrite (decide_False (P := None = Some s)) in H by done. rewrite decide_True in H by done. by destruct H.
Qed.
Lemma claim_no_slash c o s : tally_op o = false -> slashes (cstep c o) s = slashes c s.
Proof. intros H. unfold slashes. by rewrite (slashes_step c o H s). Qed.
Lemma claim_vote_points g ops p s v st w c' : genesis g -> cops_ok (gstart g) ops -> let c := crun (gstart g) ops in
  cmsg c (CVote p s v st w) = Some c' ->
  points c' p s = Some 0 /\ (forall x, x <> s -> points c' p x = points c p x) /\
  (forall q x, q <> p -> points c' q x = points c q x) /\ forall x, uncut c c' x.
Proof.
  intros Hg Hok c E. destruct (vote_effect g c p s v st w c' (r_G g ops Hg Hok) (r_A g ops Hok) E) as (H1 & H2 & H3 & H4 & _). done.
Qed.
Lemma claim_submit_points g ops m c' : genesis g -> cops_ok (gstart g) ops -> let c := crun (gstart g) ops in
  let p := sb_pool m in cmsg c (CSubmit m) = Some c' -> bp_storage (get_prop c p) = 0%N ->
  points c' p (sb_staker m) = Some 0 /\ (forall x, x <> sb_staker m -> points c' p x = points c p x) /\
  (forall q x, q <> p -> points c' q x = points c q x) /\ forall x, uncut c c' x.
Proof.
  intros Hg Hok c p E Hs. destruct (submit_effect g Hg c m c' (r_G g ops Hg Hok) (r_A g ops Hok) E Hs) as (H1 & H2 & H3 & H4 & _). done.
Qed.
Lemma claim_tally_points g ops o p who c' : genesis g -> cops_ok (gstart g) ops -> let c := crun (gstart g) ops in
  tallies c p who o -> cmsg c o = Some c' ->
  (forall s v, points c p s = Some v -> ~ on_list (get_prop c p) s ->
     let n := start (Some who) s v + 1 in
     if decide (n < b_maxpoints (c_bp c)) then points c' p s = Some n /\ uncut c c' s
     else points c' p s = None /\ cut c c' s (p_timeout (ds_params (c_d c)))) /\
  (forall q s, q <> p -> points c' q s = points c q s).
Proof.
  intros Hg Hok c HT E. destruct (r_message g ops Hg Hok o p who c' HT E) as (r & _ & He & _ & Ho & _). fold c in He, Ho. split; [|done].
  intros s v Hv Hon n. destruct (He s) as [_ H]. rewrite Hv in H.
  assert (Hl : ~ loses (get_prop c p) r s) by (unfold on_list in Hon; destruct r; cbn; tauto). specialize (H Hl).
  unfold charged, due in H. rewrite (decide_False _ _ Hon) in H. rewrite (decide_False (P := None = Some s)) in H by done.
  change (1 + 0) with 1 in H. rewrite decide_False in H by done. exact H.
Qed.
Lemma claim_other_points c o p s v : bundle_op o = false -> points (cstep c o) p s = Some v ->
  points c p s = Some v \/ (points c p s = None /\ v = 0 /\ exists w a, o = CJoin s p w a).
Proof.
  intros Ho. unfold points. destruct (get_val (c_s (cstep c o)) p s) as [x|] eqn:E; [|done]. intros [= <-].
  destruct (points_step c o p s x Ho E) as [(x0 & -> & -> & _)|(-> & -> & H)]; [by left|by right].
Qed.
