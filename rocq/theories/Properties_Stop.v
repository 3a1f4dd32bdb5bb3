(** * Property C85: delegators cannot stop a pool.
    [can_run]: the check that every vote, submission, skip and claim of the role has to pass (C81);
    [stake_of], [all_stake]: the stake of a staker and of all members; [waits]: a bundle is stored and
    waits for its outcome. Case: StopExamples.v. *)
From Verif Require Import Base BaseFacts Delegation Stakers Funders Team RoundRobin Pool Bundles Chain ChainLift PoolClaims TallyClaims TallyEffects TallyProps
  ChainExamples PoolExamples LiveClaims RunsClaims SwingClaims StopClaims RunsExamples StopExamples.

(** A running pool runs on after a delegation, except exactly if it goes to a member who then has
    more than the allowed part of the stake. *)
Theorem C85_stop : forall g ops d s a p c', genesis g -> cops_ok (gstart g) (ops ++ [CDelegate d s a]) -> let c := crun (gstart g) ops in
  cmsg c (CDelegate d s a) = Some c' -> all_stake c p < two63 -> all_stake c' p < two63 -> can_run c p = true ->
  (can_run c' p = true <-> (is_member c p s -> (stake_of c s + a) * ONE <= pp_maxvp (c_pp c) * (all_stake c p + a))).
Proof. exact claim_stop. Qed.
Print Assumptions C85_stop.
(** Whether the pool runs, the stake of 1 and of all, whether the next bundle is accepted: before, after
    one unit to 1, to 2, to both. *)
Example C85_stop_case : genesis gen0 /\ (forall s, cops_ok g0 (agree ++ [poke s])) /\ (is_Some (cmsg (after agree) (poke 1)) /\ is_Some (cmsg (after agree) (poke 2))) /\
  map (fun l => runs_to (crun (after agree) l)) [[]; [poke 1]; [poke 2]; [poke 1; poke 2]] =
  [ (true, 3000, 6000, true); (false, 3001, 6001, false); (true, 3000, 6001, true); (true, 3001, 6002, true) ].
Proof. exact (conj gen0_genesis (conj poke_ok (conj poke_accepted poke_view))). Qed.
(** Somebody without any stake in the pool delegates one unit and stops it during a vote. *)
Theorem C85_outsider_refuted : exists g ops d s p, genesis g /\ cops_ok (gstart g) (ops ++ [CDelegate d s 1]) /\ let c := crun (gstart g) ops in let c1 := cstep c (CDelegate d s 1) in
  waits c p /\ can_run c p = true /\ (forall s, is_member c p s -> delegation_of (c_d c) s d = 0) /\ can_run c1 p = false /\
  (forall m, sb_pool m = p -> cmsg c1 (CSubmit m) = None) /\ (forall s v st w, cmsg c1 (CVote p s v st w) = None) /\ (forall s v from, cmsg c1 (CSkip p s v from) = None).
Proof. exact outsider_refuted. Qed.
Print Assumptions C85_outsider_refuted.
