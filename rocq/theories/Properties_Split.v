(** * C30: the split of the block inflation. *)
From Verif Require Import Base BaseFacts Delegation Stakers Funders Team TeamInv TeamRun RoundRobin Pool Bundles Chain ChainFrame ArchiveInv
  BankMoves ChainLift PoolInv PayoutClaims PoolClaims SplitClaims SplitExamples ChainExamples PoolExamples.

(** Full statement of C30: in every block the protocol's share of the provision (what the team
    left, times the inflation share) goes to the pools that can run in proportion to their
    weights, all of it if there is one, the remainder to one that can run. The parts that do not
    hold are refuted below. *)

(** If the block does not stop the chain: every pool that can run gets its proportional part,
    rounded down, and every other pool the remainder; the fee collector pays. The team's part is
    the one computed after the team was paid. *)
Theorem C30_split_partial : forall g ops t prov, genesis g -> cops_ok (gstart g) ops -> let c := crun (gstart g) ops in
  cop_ok c (CBegin t prov) -> required_balance (c_t c) <= supply (c_bank c) ->
  let c' := cstep c (CBegin t prov) in let c0 := at_time c t in ts_halt (c_t c') = false -> c_halt c' = false ->
  exists team, block_provision (c_t c') prov (supply (c_bank c) + prov) = Some (false, team) /\
    fair_part team prov (required_balance (c_t c')) (supply (c_bank c)) /\
    0 <= team_gain c c' <= team /\
    collected c' = collected c + prov - team_gain c c' - to_all c c' /\
    (forall p, get_pool c p = None -> gain c c' p = 0) /\
    let P := (prov - team) * pp_share (c_pp c) / ONE in
    (P = 0 \/ weights c0 = 0 -> forall p, gain c c' p = 0) /\
    (0 < P -> 0 < weights c0 -> forall p pl, get_pool c p = Some pl ->
       if eligible_pool c0 p pl then fair_part (gain c c' p) P (pl_weight pl) (weights c0)
       else to_eligible c0 c c' <= P /\ gain c c' p = P - to_eligible c0 c c').
Proof. exact r_split. Qed.
(** When the block certainly does not stop the chain: no overspending at the pools that can run
    up to a provision of 2 * 10^18 over their number, and a remainder of at most their number
    plus one, which the fee collector must be able to hand to every pool that cannot. *)
Theorem C30_safe_partial : forall g ops t prov, genesis g -> cops_ok (gstart g) ops -> let c := crun (gstart g) ops in
  cop_ok c (CBegin t prov) -> required_balance (c_t c) <= supply (c_bank c) ->
  let c' := cstep c (CBegin t prov) in let c0 := at_time c t in ts_halt (c_t c') = false -> c_halt c = false ->
  required_balance (c_t c') <= supply (c_bank c) ->
  exists team, block_provision (c_t c') prov (supply (c_bank c) + prov) = Some (false, team) /\
    let P := (prov - team) * pp_share (c_pp c) / ONE in
    (n_eligible c0 * P < 2 * ONE -> n_other c0 * (n_eligible c0 + 1) <= collected c + (prov - team - P) ->
     c_halt c' = false /\ to_eligible c0 c c' <= P /\
     (0 < weights c0 -> P - to_eligible c0 c c' <= n_eligible c0 + 1 /\
                        to_all c c' = to_eligible c0 c c' + n_other c0 * (P - to_eligible c0 c c'))).
Proof. exact r_safe. Qed.
(** A case that meets the hypotheses of both. *)
Example C30_case : genesis gen0 /\ cops_ok (gstart gen0) (e1 ++ [CBegin 20 3300]) /\ let c := after e1 in let c' := cstep c (CBegin 20 3300) in
  gains e1 20 3300 5 = [(true, 18); (true, 36); (true, 55); (false, 1); (false, 1)] /\ team_gain c c' = 544 /\
  (required_balance (c_t c) <=? supply (c_bank c)) = true /\ (required_balance (c_t c') <=? supply (c_bank c)) = true /\
  block_provision (c_t c') 3300 (supply (c_bank c) + 3300) = Some (false, 544) /\
  (3300 - 544) * pp_share (c_pp c) / ONE = 110 /\ to_all c c' = 111 /\ goes_on c' /\ c_halt c = false /\
  weights (at_time c 20) = 600 /\ n_eligible (at_time c 20) = 3 /\ n_other (at_time c 20) = 2 /\ collected c = 0 /\ collected c' = 2645.
Proof. split; [exact gen0_genesis|]. split; [exact e1_ok|exact e1_case]. Qed.
(** The remainder goes to the pools that cannot run, to each of them, so that more than the
    protocol's share is spent. *)
Theorem C30_remainder_refuted : exists g ops t prov p, genesis g /\ cops_ok (gstart g) (ops ++ [CBegin t prov]) /\
  let c := crun (gstart g) ops in let c0 := at_time c t in let c' := cstep c (CBegin t prov) in
  goes_on c' /\ 0 < n_eligible c0 /\ (exists pl, get_pool c p = Some pl /\ eligible_pool c0 p pl = false) /\
  0 < gain c c' p /\ protocol_share c c' prov < to_all c c'.
Proof. exact remainder_refutes. Qed.
(** If all pools can run the remainder goes to none. *)
Theorem C30_complete_refuted : exists g ops t prov, genesis g /\ cops_ok (gstart g) (ops ++ [CBegin t prov]) /\
  let c := crun (gstart g) ops in let c0 := at_time c t in let c' := cstep c (CBegin t prov) in
  goes_on c' /\ 0 < n_eligible c0 /\ n_other c0 = 0 /\ to_all c c' < protocol_share c c' prov.
Proof. exact complete_refutes. Qed.
(** The remainder can stop the chain. *)
Theorem C30_halt_refuted : exists g ops t prov, genesis g /\ cops_ok (gstart g) (ops ++ [CBegin t prov]) /\
  let c := crun (gstart g) ops in let c' := cstep c (CBegin t prov) in
  c_halt c = false /\ ts_halt (c_t c') = false /\ required_balance (c_t c') <= supply (c_bank c) /\ c_halt c' = true.
Proof. exact halt_refutes. Qed.
(** The parts of the pools that can run may add up to more than the protocol's part. *)
Theorem C30_overspend_refuted : exists g ops t prov team, genesis g /\ cops_ok (gstart g) (ops ++ [CBegin t prov]) /\
  let c := crun (gstart g) ops in let c0 := at_time c t in let c' := cstep c (CBegin t prov) in
  goes_on c' /\ block_provision (c_t c') prov (supply (c_bank c) + prov) = Some (false, team) /\
  n_other c0 = 0 /\ (prov - team) * pp_share (c_pp c) / ONE < to_eligible c0 c c'.
Proof. exact overspend_refutes. Qed.
(** The pools' share is not the inflation share of what the team left. *)
Theorem C30_team_refuted : exists g ops t prov, genesis g /\ cops_ok (gstart g) (ops ++ [CBegin t prov]) /\
  let c := crun (gstart g) ops in let c0 := at_time c t in let c' := cstep c (CBegin t prov) in
  goes_on c' /\ n_eligible c0 = 1 /\ n_other c0 = 0 /\ to_all c c' + 1000000000 < protocol_share c c' prov.
Proof. exact team_refutes. Qed.

Print Assumptions C30_split_partial.
Print Assumptions C30_safe_partial.
Print Assumptions C30_remainder_refuted.
Print Assumptions C30_complete_refuted.
Print Assumptions C30_halt_refuted.
Print Assumptions C30_overspend_refuted.
Print Assumptions C30_team_refuted.
