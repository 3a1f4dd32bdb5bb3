(** * Property C83: the outcome of a vote is that of the votes and stakes when it took place.
    [moves o]: the message delegates or redelegates; [net c p l o]: by how much it changes the stake
    behind the members of pool [p] on the list [l]; [for_it], [against_it], [all_stake]: the stake of
    the members who voted for the stored bundle, against it, and of all; [agreed], [opposed]: more
    than half is for it, at least half against. Case: SwingExamples.v. *)
From Verif Require Import Base BaseFacts Delegation Stakers Funders Team RoundRobin Pool Bundles Chain ChainLift PoolClaims TallyClaims TallyEffects TallyProps
  ChainExamples PoolExamples LiveClaims RunsClaims SwingClaims SwingExamples.

(** A delegator who moves stake changes no vote, but exactly what the votes weigh. *)
Theorem C83_swing : forall g ops o p c', genesis g -> cops_ok (gstart g) (ops ++ [o]) -> let c := crun (gstart g) ops in moves o -> cmsg c o = Some c' ->
  all_stake c p < two63 -> all_stake c' p < two63 -> let b := get_prop c p in
  get_prop c' p = b /\ all_stake c' p = all_stake c p + net c p (members c p) o /\
  for_it c' p = for_it c p + net c p (bp_valid b) o /\ against_it c' p = against_it c p + net c p (bp_invalid b) o.
Proof. exact claim_swing. Qed.
Print Assumptions C83_swing.
(** 3000 of the 5000 against the bundle are moved to its uploader; then the end of the block with
    and without this message. *)
Example C83_swing_case : genesis gen0 /\ cops_ok g0 (voted_all ++ [shift]) /\ moves shift /\ is_Some (cmsg (after voted_all) shift) /\
  map (fun l => view (crun (after voted_all) l)) [[]; [shift]; [CEnd]; [shift; CEnd]] =
  [ (6000, 1000, 5000, 0%N, [1000; 1000; 4000], [Some 0; Some 0; Some 0], [0; 3000]); (6000, 4000, 2000, 0%N, [4000; 1000; 1000], [Some 0; Some 0; Some 0], [3000; 0]);
    (5000, 0, 0, 0%N, [800; 1000; 4000], [None; Some 0; Some 1], [0; 3000]); (4000, 0, 0, 1%N, [4000; 900; 900], [Some 0; None; None], [3000; 0]) ].
Proof. exact (conj gen0_genesis (conj voted_ok1 (conj I (conj shift_accepted voted_view)))). Qed.
(** The least amount that makes a bundle valid after the votes: what is missing to a majority as
    new stake, or half of it if it is taken from a member who is not for it. *)
Theorem C83_cost : forall g ops o p c', genesis g -> cops_ok (gstart g) (ops ++ [o]) -> let c := crun (gstart g) ops in moves o -> cmsg c o = Some c' ->
  all_stake c p < two63 -> all_stake c' p < two63 ->
  (forall d s a, o = CDelegate d s a -> s ∈ supporters c p -> (agreed c' p <-> all_stake c p - 2 * for_it c p < a)) /\
  (forall d from to a, o = CRedelegate d from to a -> is_member c p from -> from ∉ supporters c p -> to ∈ supporters c p ->
     (agreed c' p <-> all_stake c p - 2 * for_it c p < 2 * a)).
Proof. exact claim_cost. Qed.
Print Assumptions C83_cost.
(** In the same case 6000 - 2000 is missing, and 2 * 3000 is more than that. *)
Example C83_cost_case : supporters (after voted_all) 0 = [1%N] /\ members (after voted_all) 0 = [1; 2; 3]%N /\ 6000 - 2 * 1000 < 2 * 3000.
Proof. destruct voted_lists as (H1 & _ & _ & H4). split; [exact H4|]. split; [exact H1|done]. Qed.
(** Everybody has voted and the bundle is rejected; one redelegation, and the same end of the block
    finalizes it and removes those who voted against it. *)
Theorem C83_decided_refuted : exists g ops o p, genesis g /\ cops_ok (gstart g) (ops ++ [o; CEnd]) /\ let c := crun (gstart g) ops in
  let c1 := cstep (cstep c o) CEnd in (forall s, is_member c p s -> on_list (get_prop c p) s) /\ opposed c p /\ moves o /\ is_Some (cmsg c o) /\
  finalized (cstep c CEnd) p = finalized c p /\ finalized c1 p = (finalized c p + 1)%N /\ (forall s, s ∈ bp_invalid (get_prop c p) -> ~ is_member c1 p s).
Proof. exact decided_refuted. Qed.
Print Assumptions C83_decided_refuted.
