(** * C55: what a finalized bundle pays, in the chain. *)
From Verif Require Import Base BaseFacts Delegation Stakers Funders Team RoundRobin Pool Bundles Chain ChainFrame ArchiveInv
  BankMoves ChainLift PoolInv PayoutClaims PoolClaims PayFlow PayExamples ChainExamples PoolExamples.

(** A submission either finalizes the open bundle of its pool and pays for it exactly what
    [bundle_paid] says, or finalizes nothing and moves nothing but slashed stake. *)
Theorem C55_submit : forall g ops m c', genesis g -> cops_ok (gstart g) ops -> let c := crun (gstart g) ops in
  cmsg c (CSubmit m) = Some c' -> outcome c c' (sb_pool m).
Proof. exact pay_submit. Qed.
(** The same for skipping the uploader role. *)
Theorem C55_skip : forall g ops p s v from c', genesis g -> cops_ok (gstart g) ops -> let c := crun (gstart g) ops in
  cmsg c (CSkip p s v from) = Some c' -> outcome c c' p.
Proof. exact pay_skip. Qed.
(** At the end of a block every pool's account pays its share for the bundle finalized there,
    if one is, and nothing else. *)
Theorem C55_end : forall g ops p, genesis g -> cops_ok (gstart g) ops -> let c := crun (gstart g) ops in account c (cstep c CEnd) p.
Proof. exact pay_end. Qed.
(** The account of x/pool, through which every payment goes, keeps nothing of them: it holds what it held at
    genesis and what transfers outside the protocol put in ([from_outside]). *)
Theorem C55_nothing_left : forall g ops d, genesis g -> cops_ok (gstart g) ops ->
  bal (c_bank (crun (gstart g) ops)) MPool d = bal (g0_bank g) MPool d + from_outside MPool d (gstart g) ops.
Proof. exact pay_empty. Qed.
Example C55_case : genesis gen0 /\ cops_ok (gstart gen0) before_second /\ (if cmsg (after before_second) second_sub then true else false) = true /\
  (bundles (after before_second) 0, purse before_second, kx (after before_second) 0 KYVE, reward_of before_second 1) = (0%N, [1000; 132; 0; 0; 3000; 0], 13, Some 0) /\
  (bundles (after (before_second ++ [second_sub])) 0, purse (before_second ++ [second_sub]), reward_of (before_second ++ [second_sub]) 1) =
    (1%N, [900; 119; 101; 15; 2997; 0], Some 15) /\
  cops_ok (gstart gen0) before_late /\
  (bundles (after before_late) 0, purse before_late, kx (after before_late) 0 KYVE) = (0%N, [1000; 132; 0; 0; 3000; 0], 13) /\
  (bundles (after (before_late ++ [CEnd])) 0, purse (before_late ++ [CEnd])) = (1%N, [900; 119; 1; 15; 3097; 0]).
Proof. split; [exact gen0_genesis|]. destruct pay_case as (H1 & H2 & H3 & H4). repeat (split; [assumption|]). exact pay_end_case. Qed.

Print Assumptions C55_submit.
Print Assumptions C55_skip.
Print Assumptions C55_end.
Print Assumptions C55_nothing_left.
