(** * Property C81: when a pool runs, and how many stakers it takes to finalize a bundle.
    [may_run]: the written conditions; [all_stake c p]: the stake of the members of pool [p];
    [supporters c p]: the members who voted for the stored bundle, its uploader among them;
    [tallies c p who o]: the message [o] of [who] counts the votes in [p]; [finalized]: the number of
    bundles of the pool; [apart c c1 p]: the turns of other pools lie between. Cases: RunsExamples.v. *)
From Verif Require Import Base BaseFacts Delegation Stakers Funders Team RoundRobin Pool Bundles Chain ChainLift PoolClaims TallyClaims TallyEffects TallyProps ChainExamples PoolExamples
  LiveClaims RunsClaims RunsExamples.

(** A pool runs exactly if it exists, is not being upgraded, not disabled, not at its end key, has
    the stake it needs, and no member has more than the allowed part of its stake. Otherwise every
    vote, submission, skip and claim of the uploader role is refused. *)
Theorem C81_runs : forall g ops p, genesis g -> cops_ok (gstart g) ops -> let c := crun (gstart g) ops in all_stake c p < two63 ->
  (may_run c p <-> can_run c p = true) /\
  (~ may_run c p -> (forall m, sb_pool m = p -> cmsg c (CSubmit m) = None) /\ (forall s v st w, cmsg c (CVote p s v st w) = None) /\
     (forall s v from, cmsg c (CSkip p s v from) = None) /\ (forall s v, cmsg c (CClaimRole p s v) = None)).
Proof. exact claim_runs. Qed.
Print Assumptions C81_runs.
(** With half of the stake as the maximum: 3000 of 6000 is allowed, 3000 of 5000 is not. *)
Example C81_runs_case : genesis gen0 /\ cops_ok g0 (alone ++ [skip2]) /\ map (fun l => look (after l)) [half; agree; agree ++ [next1]; alone; alone ++ [skip2]] =
  [ ([], 0%N, [Some 0; Some 0; Some 0], [3000; 2000; 1000], true); ([1%N; 2%N], 0%N, [Some 0; Some 0; Some 0], [3000; 2000; 1000], true);
    ([1%N], 1%N, [Some 0; Some 0; Some 1], [3000; 2000; 1000], true); ([1%N], 1%N, [Some 0; Some 0; Some 1], [3000; 2000; 1000], true);
    ([], 2%N, [Some 0; Some 1; None], [3000; 2000; 980], false) ].
Proof. exact (conj gen0_genesis (conj alone_ok alone_look)). Qed.
(** A message finalizes a bundle: more than half of the stake is for it, so with a maximum of half
    of the stake at least two members are. Missing: counts in which members are removed because
    they reach the maximum of points, see below. *)
Theorem C81_needs_partial : forall g ops o p who c', genesis g -> cops_ok (gstart g) ops -> let c := crun (gstart g) ops in
  all_stake c p < two63 -> tallies c p who o -> cmsg c o = Some c' -> finalized c' p <> finalized c p -> nobody_out c p who ->
  ONE < 2 * (pp_maxvp (c_pp c) * Z.of_nat (length (supporters c p))).
Proof. exact claim_needs. Qed.
Print Assumptions C81_needs_partial.
Example C81_needs_case : genesis gen0 /\ cops_ok g0 agree /\
  (tallies (after agree) 0 1 next1 /\ is_Some (cmsg (after agree) next1) /\ nobody_out (after agree) 0 1) /\
  facts (after agree) = (6000, [1; 2]%N, ONE / 2, 2, [], []).
Proof. exact (conj gen0_genesis (conj agree_ok (conj agree_case (proj1 agree_facts)))). Qed.
(** The end of a block finalizes a bundle: the same, whoever is removed. *)
Theorem C81_block_needs : forall g ops p pl, genesis g -> cops_ok (gstart g) ops -> let c := crun (gstart g) ops in let c' := cstep c CEnd in
  get_pool (upgraded c) p = Some pl -> c_halt c' = false -> waits c p ->
  exists c1 c2, apart c c1 p /\ apart c2 c' p /\
    (can_run c1 p = true -> all_stake c1 p < two63 -> finalized c' p <> finalized c p ->
     ONE < 2 * (pp_maxvp (c_pp c1) * Z.of_nat (length (supporters c1 p)))).
Proof. exact claim_block_needs. Qed.
Print Assumptions C81_block_needs.
Example C81_block_case : genesis gen0 /\ cops_ok g0 block /\ brief (after block) = (true, 3000, [1; 2]%N, ONE, 0%N) /\ bp_storage (get_prop (after block) 0) = 51%N /\
  finalized (cstep (after block) CEnd) 0 = 1%N /\ c_halt (cstep (after block) CEnd) = false.
Proof. exact (conj gen0_genesis (conj block_ok block_case)). Qed.
(** Without the condition on points it is false: nobody may have more than half of the pool, and the
    uploader has exactly half. Two others do not vote; one of them reaches the maximum of points, is
    removed before the votes are counted, and the uploader alone finalizes the bundle. *)
Theorem C81_alone_refuted : exists g ops o p who s, genesis g /\ cops_ok (gstart g) (ops ++ [o]) /\
  let c := crun (gstart g) ops in let c' := crun (gstart g) (ops ++ [o]) in
  tallies c p who o /\ may_run c p /\ pp_maxvp (c_pp c) = ONE / 2 /\ supporters c p = [s] /\ finalized c' p = (finalized c p + 1)%N.
Proof. exact alone_refutes. Qed.
Print Assumptions C81_alone_refuted.
