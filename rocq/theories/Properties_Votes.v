(** * Votes, tallies, inactivity points and the uploader role (C18, C19, C23, C24, C29).
    [genesis g]: a chain without pools, stakers and funders, with any non-negative balances and
    admissible parameters; [gstart g] is its state, [crun (gstart g) ops] the state after the
    admissible history [ops].
    [points c p s]: the points of [s] in pool [p], [None] for those who are no members;
    [slashes c s]: the fractions [s] was slashed by so far; [delegated c s]: the stake
    delegated to [s]; [finalized c p]: the number of finalized bundles. *)
From Verif Require Import Base BaseFacts Delegation Stakers Funders Team RoundRobin Pool Bundles Chain ChainFrame ArchiveInv ChainLift
  PoolFrame PoolInv PoolClaims VoteClaims StepCases PointsInv TallyClaims TallyEffects TallyProps ChainExamples PoolExamples VoteExamples.

(** C18: nobody is on two lists or twice on one; the uploader is on the valid list; the powers
    of the three lists do not exceed the power of the pool. *)
Theorem C18_once : forall g ops p, genesis g -> cops_ok (gstart g) ops -> let c := crun (gstart g) ops in
  let b := get_prop c p in
  NoDup (bp_valid b ++ bp_invalid b ++ bp_abstain b) /\ (bp_storage b <> 0%N -> bp_uploader b ∈ bp_valid b).
Proof. exact (fun g ops p Hg Hok => r_votes g ops Hok p). Qed.
Theorem C18_power : forall g ops p, genesis g -> cops_ok (gstart g) ops -> let c := crun (gstart g) ops in
  pool_power c p < two64 -> let v := distribution c p in
  0 <= v_valid v /\ 0 <= v_invalid v /\ 0 <= v_abstain v /\ v_valid v + v_invalid v + v_abstain v <= v_total v.
Proof. exact (fun g ops p Hg Hok => r_power g ops Hg Hok p). Qed.
(** Who may vote, and what an accepted vote does to the lists. *)
Theorem C18_vote : forall g ops p s v st w c', genesis g -> cops_ok (gstart g) ops -> let c := crun (gstart g) ops in
  cmsg c (CVote p s v st w) = Some c' ->
  let b := get_prop c p in let b' := get_prop c' p in
  st = bp_storage b /\ st <> 0%N /\ signs c p s v /\ s ∉ bp_valid b /\ s ∉ bp_invalid b /\
  (forall x, x ∈ bp_valid b' <-> x ∈ bp_valid b \/ (x = s /\ w = Valid)) /\
  (forall x, x ∈ bp_invalid b' <-> x ∈ bp_invalid b \/ (x = s /\ w = Invalid)) /\
  (forall x, x ∈ bp_abstain b' <-> (x ∈ bp_abstain b /\ x <> s) \/ (x = s /\ w = Abstain)) /\
  (w = Abstain -> s ∉ bp_abstain b) /\ bp_uploader b' = bp_uploader b /\ bp_storage b' = bp_storage b.
Proof. exact (fun g ops p s v st w c' Hg Hok => r_vote g ops Hok p s v st w c'). Qed.
Example C18_case : genesis gen0 /\ cops_ok (gstart gen0) poll /\ lists (after poll) = [[1]; [3]; [2]]%N /\
  (match cmsg (after poll) (CVote 0 2 12 51 Valid) with Some c' => lists c' | None => [] end) = [[1; 2]; [3]; []]%N /\
  (match cmsg (after poll) (CVote 0 3 13 51 Valid) with Some _ => true | None => false end) = false /\
  (let v := distribution (after poll) 0 in (v_valid v, v_invalid v, v_abstain v, v_total v, v_status v)) = (1000, 1000, 1000, 3000, VNoQuorum) /\
  pool_power (after poll) 0 = 3000.
Proof. split; [exact gen0_genesis|]. split; [exact poll_ok|exact poll_case]. Qed.

(** C19: a bundle is finalized only by a message or block that tallies the pool's bundle, when
    the stake of the members who voted valid is more than half of the stake of all members,
    counted after the members who did not vote got their point. *)
Theorem C19_finalized : forall g ops o p, genesis g -> cops_ok (gstart g) ops -> let c := crun (gstart g) ops in
  c_halt (cstep c o) = false -> finalized (cstep c o) p <> finalized c p ->
  finalized (cstep c o) p = (finalized c p + 1)%N /\
  ((exists s, tallies c p s o /\ (pool_power c p < two63 -> verdict c p (Some s) OValid)) \/
   (o = CEnd /\ exists c1, apart c c1 p /\ (pool_power c1 p < two63 -> verdict c1 p None OValid))).
Proof. exact (fun g ops o p Hg Hok => r_finalized g ops Hg Hok o p). Qed.
Theorem C19_one_outcome : forall g ops p who r r', genesis g -> cops_ok (gstart g) ops -> let c := crun (gstart g) ops in
  verdict c p who r -> verdict c p who r' -> r = r'.
Proof. exact (fun g ops p who r r' Hg Hok => verdict_one g _ p who r r' Hg (r_G g ops Hg Hok) (r_A g ops Hok)). Qed.
Example C19_chain_case : genesis gen0 /\ cops_ok (gstart gen0) silent3 /\ finalized (after silent3) 0 = 0%N /\
  finalized (cstep (after silent3) (CSubmit (sub 1 11 52 10 20 30 70))) 0 = 1%N /\ pool_power (after silent3) 0 = 3000.
Proof. split; [exact gen0_genesis|]. split; [exact silent3_ok|exact final_case]. Qed.

(** C23: what a tally by a message does to everybody who voted. *)
Theorem C23_message : forall g ops o p who c', genesis g -> cops_ok (gstart g) ops -> let c := crun (gstart g) ops in
  tallies c p who o -> cmsg c o = Some c' ->
  exists r, (pool_power c p < two63 -> verdict c p (Some who) r) /\ forall s,
    (loses (get_prop c p) r s -> points c' p s = None /\ cut c c' s (penalty (ds_params (c_d c)) (get_prop c p) r s)) /\
    (~ loses (get_prop c p) r s -> on_list (get_prop c p) s -> uncut c c' s /\ points c' p s = (start (Some who) s <$> points c p s)).
Proof. exact claim_slashes. Qed.
(** The same for the turn of a pool at the end of a block: [c1] is the state before it and [c2]
    after; with respect to the pool itself they are the states before and after the block's
    end. [decides]: a stored bundle is decided here only if its votes have a quorum already
    and the next uploader let the deadline pass. *)
Theorem C23_block : forall g ops p pl, genesis g -> cops_ok (gstart g) ops -> let c := crun (gstart g) ops in
  get_pool (upgraded c) p = Some pl -> c_halt (cstep c CEnd) = false ->
  exists c1 c2, apart c c1 p /\ apart c2 (cstep c CEnd) p /\
    exists r, (decides c c1 p (pl_interval pl) -> pool_power c1 p < two63 -> verdict c1 p None r) /\ (~ decides c c1 p (pl_interval pl) -> r = ONone) /\ forall s,
      (loses (get_prop c p) r s -> points c2 p s = None /\ cut c1 c2 s (penalty (ds_params (c_d c1)) (get_prop c p) r s)) /\
      (~ loses (get_prop c p) r s -> on_list (get_prop c p) s -> s <> bp_next (get_prop c p) -> uncut c1 c2 s /\ points c2 p s = points c1 p s).
Proof. exact claim_block_slashes. Qed.
(** Nothing else slashes. *)
Theorem C23_others : forall c o s, tally_op o = false -> slashes (cstep c o) s = slashes c s.
Proof. exact claim_no_slash. Qed.
Example C23_case : genesis gen0 /\ cops_ok (gstart gen0) h1 /\ cops_ok (gstart gen0) bad_bundle /\
  seen h1 = [(Some 0, [], Some 1000); (Some 0, [], Some 1000); (None, [ONE / 10], Some 900)] /\
  seen (bad_bundle ++ [CEnd]) = [(None, [ONE / 5], Some 800); (Some 0, [], Some 1000); (Some 0, [], Some 1000)].
Proof. exact (conj gen0_genesis (conj h1_ok (conj bad_bundle_ok (conj valid_case invalid_case)))). Qed.

(** C24. Full claim: points are reset by taking part; a staker who did not vote gets one point
    per tallied bundle; and a staker is slashed for inactivity only after missing as many
    consecutive bundles that it could have voted on as the maximum says. The last part is
    false. What holds: a vote resets the points of the voter and of nobody else. *)
Theorem C24_vote_partial : forall g ops p s v st w c', genesis g -> cops_ok (gstart g) ops -> let c := crun (gstart g) ops in
  cmsg c (CVote p s v st w) = Some c' ->
  points c' p s = Some 0 /\ (forall x, x <> s -> points c' p x = points c p x) /\
  (forall q x, q <> p -> points c' q x = points c q x) /\ forall x, uncut c c' x.
Proof. exact claim_vote_points. Qed.
(** So does a submission when no bundle is stored. *)
Theorem C24_submit_partial : forall g ops m c', genesis g -> cops_ok (gstart g) ops -> let c := crun (gstart g) ops in
  let p := sb_pool m in cmsg c (CSubmit m) = Some c' -> bp_storage (get_prop c p) = 0%N ->
  points c' p (sb_staker m) = Some 0 /\ (forall x, x <> sb_staker m -> points c' p x = points c p x) /\
  (forall q x, q <> p -> points c' q x = points c q x) /\ forall x, uncut c c' x.
Proof. exact claim_submit_points. Qed.
(** A tally first resets the points of the submitter (or skipper), then gives every member who
    is on no list one point: at the maximum they are slashed by the timeout fraction and
    removed. Members of other pools are not concerned. *)
Theorem C24_tally_partial : forall g ops o p who c', genesis g -> cops_ok (gstart g) ops -> let c := crun (gstart g) ops in
  tallies c p who o -> cmsg c o = Some c' ->
  (forall s v, points c p s = Some v -> ~ on_list (get_prop c p) s ->
     let n := start (Some who) s v + 1 in
     if decide (n < b_maxpoints (c_bp c)) then points c' p s = Some n /\ uncut c c' s
     else points c' p s = None /\ cut c c' s (p_timeout (ds_params (c_d c)))) /\
  (forall q s, q <> p -> points c' q s = points c q s).
Proof. exact claim_tally_points. Qed.
(** Apart from votes, submissions, skips and the end of a block nothing changes points; who
    joins has none. *)
Theorem C24_others_partial : forall c o p s v, bundle_op o = false -> points (cstep c o) p s = Some v ->
  points c p s = Some v \/ (points c p s = None /\ v = 0 /\ exists w a, o = CJoin s p w a).
Proof. exact claim_other_points. Qed.
(** The turn of a pool at the end of a block, case by case: see [turn]. *)
Theorem C24_block_partial : forall g ops p pl, genesis g -> cops_ok (gstart g) ops -> let c := crun (gstart g) ops in
  get_pool (upgraded c) p = Some pl -> c_halt (cstep c CEnd) = false ->
  exists c1 c2, turn c1 c2 p (pl_interval pl) /\ apart c c1 p /\ apart c2 (cstep c CEnd) p.
Proof. exact (fun g ops p pl Hg Hok => r_turn g ops Hg Hok p pl). Qed.
Example C24_case : genesis gen0 /\ cops_ok (gstart gen0) silent3 /\ bp_storage (get_prop (after silent3) 0) = 51%N /\
  (match cmsg (after silent3) (CSubmit (sub 1 11 52 10 20 30 70)) with Some c' => map (points c' 0) [1; 2; 3]%N | None => [] end) = [Some 0; Some 0; Some 1].
Proof. split; [exact gen0_genesis|]. split; [exact silent3_ok|exact silent_case]. Qed.
(** A staker is slashed for inactivity though no bundle was ever submitted. *)
Theorem C24_no_bundle_refuted : exists g ops s, genesis g /\ cops_ok (gstart g) ops /\ (forall m, CSubmit m ∉ ops) /\
  slashes (crun (gstart g) ops) s = [p_timeout (g0_dp g)].
Proof. exact idle_refutes. Qed.

(** C29. Full claim: when the uploader let the upload interval and the timeout pass, the end of
    the block gives them a point and hands the role to an eligible staker, if there is one.
    What holds: the clock restarts; they get the point unless a stored bundle without quorum
    is dropped; and the role goes to a member with a stake, or to the late uploader again,
    who is removed then. A pool that cannot run has no next uploader. [c1] and [c2] are the
    states before and after the pool's turn. *)
Theorem C29_timeout_partial : forall g ops p pl, genesis g -> cops_ok (gstart g) ops -> let c := crun (gstart g) ops in let c' := cstep c CEnd in
  get_pool (upgraded c) p = Some pl -> c_halt c' = false ->
  exists c1 c2, apart c c1 p /\ apart c2 c' p /\
    (can_run c1 p = true -> deadline_over c p (pl_interval pl) -> handed c c1 c2 c' p) /\
    (can_run c1 p = false -> bp_next (get_prop c' p) = 0%N /\ forall s, points c' p s = points c p s).
Proof. exact r_handed. Qed.
Example C29_case : genesis gen0 /\ cops_ok (gstart gen0) late1 /\
  can_run (after late1) 0 = true /\ nxt late1 = (1%N, 20) /\ nxt (late1 ++ [CEnd]) = (1%N, 680) /\
  map fst (map fst (seen (late1 ++ [CEnd]))) = [Some 1; Some 0; Some 0].
Proof. split; [exact gen0_genesis|]. split; [exact late1_ok|exact late_case]. Qed.
(** The role stays with the late uploader, who is no member any more, though others could act. *)
Theorem C29_role_refuted : exists g ops p pl, genesis g /\ cops_ok (gstart g) (ops ++ [CEnd]) /\
  let c := crun (gstart g) ops in let c' := crun (gstart g) (ops ++ [CEnd]) in
  get_pool c p = Some pl /\ deadline_over c p (pl_interval pl) /\ can_run c p = true /\ can_run c' p = true /\
  (exists s, eligible c' p s) /\ points c' p (bp_next (get_prop c' p)) = None.
Proof. exact big_refutes. Qed.
(** The late uploader gets no point. *)
Theorem C29_point_refuted : exists g ops p pl, genesis g /\ cops_ok (gstart g) (ops ++ [CEnd]) /\
  let c := crun (gstart g) ops in let c' := crun (gstart g) (ops ++ [CEnd]) in
  get_pool c p = Some pl /\ deadline_over c p (pl_interval pl) /\ can_run c p = true /\
  ~ pointed c c' p (bp_next (get_prop c p)).
Proof. exact jump_refutes. Qed.

Print Assumptions C18_once.
Print Assumptions C18_power.
Print Assumptions C18_vote.
Print Assumptions C19_finalized.
Print Assumptions C19_one_outcome.
Print Assumptions C23_message.
Print Assumptions C23_block.
Print Assumptions C23_others.
Print Assumptions C24_vote_partial.
Print Assumptions C24_submit_partial.
Print Assumptions C24_tally_partial.
Print Assumptions C24_others_partial.
Print Assumptions C24_block_partial.
Print Assumptions C24_no_bundle_refuted.
Print Assumptions C29_timeout_partial.
Print Assumptions C29_role_refuted.
Print Assumptions C29_point_refuted.
