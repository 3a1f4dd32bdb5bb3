(** * What an accepted message does: the property C72 (statements; the proofs are in
    EffectClaims.v, which also lists the effects per message).

    [accepted_after gr g gp ops m c c']: [c] is what a chain that starts at the genesis [g] has
    become by the raw messages and blocks [ops], [m] is accepted there and leads to [c'].
    [del c s d] is what [d] has delegated to [s], [balance c u d] what [u] holds of the denom [d],
    [record_of], [membership], [remaining] and [per_bundle] are what is stored about a staker, a
    node and a funding, [carried l d] is the amount of [d] in the coins of a message. *)
From Verif Require Import Base BaseFacts Delegation Stakers Funders Team RoundRobin Pool Bundles Chain ChainLift Global Params ParamsClaims
  IndexInv FundingsFrame Wire WireFrame WireClaims ChainExamples PoolExamples ParamsExamples WireExamples EffectClaims EffectExamples.

(** Nobody but the sender pays, and the sender pays at most what the message says. *)
Theorem C72_pays_partial : forall gr g gp ops m c c', accepted_after gr g gp ops m c c' ->
  forall u d, balance c u d - (if (sender_of m =? u)%N then pays m d else 0) <= balance c' u d.
Proof. exact after_pays. Qed.
(** Delegations: exactly the ones the message names change, by the amount in it. *)
Theorem C72_delegations_partial : forall gr g gp ops m c c', accepted_after gr g gp ops m c c' -> delegation_effect c c' m.
Proof. exact after_delegation. Qed.
(** Stakers, their rewards and their memberships. *)
Theorem C72_stakers_partial : forall gr g gp ops m c c', accepted_after gr g gp ops m c c' -> staker_effect c c' m.
Proof. exact after_staker. Qed.
(** Funders and fundings. *)
Theorem C72_funders_partial : forall gr g gp ops m c c', accepted_after gr g gp ops m c c' -> funder_effect c c' m.
Proof. exact after_funder. Qed.
(** The accounts of the team and the rewards of the authority. *)
Theorem C72_team_partial : forall gr g gp ops m c c', accepted_after gr g gp ops m c c' -> team_effect c c' m.
Proof. exact after_team. Qed.
(** Votes and the uploader role; who may propose. *)
Theorem C72_bundles_partial : forall gr g gp ops m c c', accepted_after gr g gp ops m c c' -> bundle_effect c c' m.
Proof. exact after_bundle. Qed.
(** Pools. *)
Theorem C72_pools_partial : forall gr g gp ops m c c', accepted_after gr g gp ops m c c' -> pool_effect c c' m.
Proof. exact after_pool. Qed.

(** ** Concrete cases *)
(** Fourteen kinds of messages that are accepted after the history of C70, and what some of them
    do to: the delegations of 5 to 1, 2, 3 and 5; the balances of 5 and 4; what 4 has left in pool
    0 and pays per bundle; the node of 1 in pool 0; the number of accounts of the team. *)
Example C72_case : forall m, m ∈ nexts -> typed m /\ moderate (r_c end1) m /\ exists r', deliver gr0 end1 m = Some r'.
Proof. exact nexts_ok. Qed.
Example C72_history_case : genesis gen0 /\ valid_all (params_of (mkU (gstart gen0) gp0)) /\ rops_ok gr0 (rinit (gstart gen0) gp0) raw1.
Proof. exact (conj gen0_genesis (conj (proj1 u0_valid) raw1_ok)). Qed.
Example C72_case_seen :
  seen end1 = (4900, 100, 0, 0, 834999999999995000, 999000, 1000, 100, Some (11%N, false), 0%nat) /\
  after_msg (RDelegate 5 3 70) = (4900, 100, 70, 0, 834999999999994930, 999000, 1000, 100, Some (11%N, false), 0%nat) /\
  after_msg (RRedelegate 5 2 3 50) = (4900, 50, 50, 0, 834999999999995000, 999000, 1000, 100, Some (11%N, false), 0%nat) /\
  after_msg (RCreateStaker 5 (Some 7) 60) = (4900, 100, 0, 60, 834999999999994940, 999000, 1000, 100, Some (11%N, false), 0%nat) /\
  after_msg (RLeave 1 0) = (4900, 100, 0, 0, 834999999999995000, 999000, 1000, 100, Some (11%N, true), 0%nat) /\
  after_msg (RFund 4 0 [(KYVE, Some 400)] [(KYVE, Some 30)]) = (4900, 100, 0, 0, 834999999999995000, 998600, 1400, 30, Some (11%N, false), 0%nat) /\
  after_msg (RDefund 4 0 [(KYVE, Some 300)]) = (4900, 100, 0, 0, 834999999999995000, 999300, 700, 100, Some (11%N, false), 0%nat) /\
  after_msg (RTeamCreate FOUNDATION 1000 5) = (4900, 100, 0, 0, 834999999999995000, 999000, 1000, 100, Some (11%N, false), 1%nat).
Proof. exact nexts_seen. Qed.

Print Assumptions C72_pays_partial.
Print Assumptions C72_delegations_partial.
Print Assumptions C72_stakers_partial.
Print Assumptions C72_funders_partial.
Print Assumptions C72_team_partial.
Print Assumptions C72_bundles_partial.
Print Assumptions C72_pools_partial.
