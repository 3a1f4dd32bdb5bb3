(** * The uploader role: the property C68 (statements; proofs are in RoleClaims.v and
    RoleExamples.v).

    [role c p] is who may submit the next bundle of the pool [p], 0 for nobody.
    [eligible c p s]: [s] is a member of the pool with a positive stake.
    [placed c p]: the role is with an eligible staker, with nobody only if there is none.
    [foremost c p a]: [a] is the eligible staker with the smallest address.
    [finalized c p]: the number of finalized bundles. *)
From Verif Require Import Base Delegation Stakers Funders Team RoundRobin Pool Bundles Chain ChainLift PoolClaims TallyClaims TallyEffects TallyProps
  ChainExamples PoolExamples VoteExamples RoleClaims RoleExamples.

(** Full claim: whenever the role changes hands it goes to an eligible staker, if there is one;
    after a finalized bundle to one of those who voted for it and after a skip to somebody else,
    if there is such a staker.

    Submissions. Missing: the role stays with the sender if the stored bundle turns out to be
    invalid; and the voters are preferred only if the first eligible staker is among them. *)
Theorem C68_submit_partial : forall g ops m c', genesis g -> cops_ok (gstart g) ops ->
  let c := crun (gstart g) ops in let p := sb_pool m in let b := get_prop c p in
  cmsg c (CSubmit m) = Some c' ->
  role c p = sb_staker m /\
  (bp_storage b = 0%N \/ finalized c' p <> finalized c p -> placed c' p) /\
  (bp_storage b <> 0%N -> finalized c' p <> finalized c p -> forall a, foremost c p a -> a ∈ bp_valid b -> role c' p ∈ bp_valid b) /\
  (bp_storage b <> 0%N -> finalized c' p = finalized c p -> role c' p = role c p) /\
  forall q, q <> p -> role c' q = role c q.
Proof. intros g ops m c' Hg Hok. exact (r_submit g ops Hg Hok m c'). Qed.
Example C68_submit_case : genesis gen0 /\ cops_ok (gstart gen0) silent3 /\ exists c', cmsg (after silent3) (CSubmit next1) = Some c' /\
  finalized c' 0 <> finalized (after silent3) 0 /\ foremost (after silent3) 0 1 /\ 1%N ∈ bp_valid (get_prop (after silent3) 0) /\ role c' 0 = 2%N.
Proof. split; [exact gen0_genesis|]. split; [exact silent3_ok|exact submit_ex]. Qed.

(** Skips. Missing: somebody else is chosen only if the first eligible staker is somebody else. *)
Theorem C68_skip_partial : forall g ops p s v from c', genesis g -> cops_ok (gstart g) ops -> let c := crun (gstart g) ops in
  cmsg c (CSkip p s v from) = Some c' ->
  role c p = s /\ placed c' p /\ (forall a, foremost c' p a -> a <> s -> role c' p <> s) /\ forall q, q <> p -> role c' q = role c q.
Proof. intros g ops p s v from c' Hg Hok. exact (r_skip g ops Hg Hok p s v from c'). Qed.
Example C68_skip_case : genesis gen0 /\ cops_ok (gstart gen0) late1 /\
  exists c', cmsg (after late1) (CSkip 0 1 11 0) = Some c' /\ foremost c' 0 1 /\ role c' 0 = 2%N.
Proof. split; [exact gen0_genesis|]. split; [exact late1_ok|exact skip_ex]. Qed.

(** The end of a block: nobody becomes eligible; the role stays, is taken away, or goes to a
    staker who was eligible. C29 says when. Missing: whoever gets the role can be removed by
    the same end of block (C29_role_refuted), and the voters are preferred only if the first
    eligible staker is among them and is still eligible after the block. *)
Theorem C68_block_partial : forall g ops p pl, genesis g -> cops_ok (gstart g) ops -> let c := crun (gstart g) ops in let c' := cstep c CEnd in
  get_pool c p = Some pl -> c_halt c' = false ->
  (forall q s, eligible c' q s -> eligible c q s) /\ (role c' p = role c p \/ role c' p = 0%N \/ eligible c p (role c' p)) /\
  (finalized c' p <> finalized c p -> forall a, foremost c p a -> eligible c' p a -> a ∈ bp_valid (get_prop c p) -> role c' p ∈ bp_valid (get_prop c p)).
Proof. intros g ops p pl Hg Hok c c' Hp Hh. exact (r_block g ops Hg Hok p pl Hp Hh). Qed.
Example C68_block_case : genesis gen0 /\ cops_ok (gstart gen0) overdue3 /\
  outcome (after overdue3) CEnd = Some (2%N, 1%N, [(1%N, 1000); (2%N, 1000); (3%N, 1000)]) /\ c_halt (after (overdue3 ++ [CEnd])) = false /\
  role (after overdue3) 0 = 1%N /\ finalized (after overdue3) 0 = 0%N /\ bp_valid (get_prop (after overdue3) 0) = [1; 2]%N.
Proof. split; [exact gen0_genesis|]. split; [exact overdue3_ok|exact overdue3_case]. Qed.

(** A claim: only by a member's own account, only while nobody has the role and the pool can
    run. No other step changes the role of any pool. These hold in every state. *)
Theorem C68_claim : forall c p s v c', cmsg c (CClaimRole p s v) = Some c' ->
  can_run c p = true /\ role c p = 0%N /\ signs c p s v /\ role c' p = s /\ forall q, q <> p -> role c' q = role c q.
Proof. exact claim_claimed. Qed.
Theorem C68_others : forall c o q, role_op o = false -> role (cstep c o) q = role c q.
Proof. exact role_others. Qed.
Example C68_claim_case : outcome (after idler) (CClaimRole 0 5 15) = Some (5%N, 0%N, [(1%N, 1000); (2%N, 1000); (5%N, 0)]) /\
  role_op (CVote 0 2 12 51 Valid) = false /\ role_op (CJoin 2 0 12 100) = false.
Proof. split; [exact idler_outcome|]. done. Qed.

(** A staker skips and gets the role again though others are eligible. *)
Theorem C68_skip_refuted : exists g ops p s v from c', genesis g /\ cops_ok (gstart g) ops /\ cmsg (crun (gstart g) ops) (CSkip p s v from) = Some c' /\
  role c' p = s /\ exists a, a <> s /\ eligible c' p a.
Proof. exact skip_refutes. Qed.
(** A bundle is finalized and the role goes to a member who did not vote for it though some
    who did are eligible. *)
Theorem C68_voter_refuted : exists g ops m c', genesis g /\ cops_ok (gstart g) ops /\ let c := crun (gstart g) ops in let p := sb_pool m in
  cmsg c (CSubmit m) = Some c' /\ finalized c' p <> finalized c p /\ (exists a, a ∈ bp_valid (get_prop c p) /\ eligible c' p a) /\
  role c' p ∉ bp_valid (get_prop c p).
Proof. exact voter_refutes. Qed.
(** A submission shows that the stored bundle is invalid: its uploader, the sender, is removed
    from the pool and keeps the role though others are eligible. *)
Theorem C68_invalid_refuted : exists g ops m c', genesis g /\ cops_ok (gstart g) ops /\ let p := sb_pool m in
  cmsg (crun (gstart g) ops) (CSubmit m) = Some c' /\ points c' p (role c' p) = None /\ exists a, eligible c' p a.
Proof. exact invalid_refutes. Qed.
(** A member without any stake claims the role though others are eligible. *)
Theorem C68_claim_refuted : exists g ops p s v c', genesis g /\ cops_ok (gstart g) ops /\ cmsg (crun (gstart g) ops) (CClaimRole p s v) = Some c' /\
  ~ eligible c' p (role c' p) /\ exists a, eligible c' p a.
Proof. exact claim_refutes. Qed.

Print Assumptions C68_submit_partial.
Print Assumptions C68_skip_partial.
Print Assumptions C68_block_partial.
Print Assumptions C68_claim.
Print Assumptions C68_others.
Print Assumptions C68_skip_refuted.
Print Assumptions C68_voter_refuted.
Print Assumptions C68_invalid_refuted.
Print Assumptions C68_claim_refuted.
