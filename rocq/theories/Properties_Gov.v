(** * Properties of the voting power reported to governance: C52, and C01 in the chain. *)
From Verif Require Import Base BaseFacts Delegation DelegationProps SlashCount Stakers Funders Team RoundRobin Pool Bundles Chain
  ChainLift Query IndexInv QueryClaims Gov GovClaims.
From Verif Require Import ChainExamples PoolExamples GovExamples.

(** ** C52 *)
(** The total is the sum over the active validators; these are the stakers that are in a pool, once
    each, with their delegation. *)
Theorem C52_power : forall g ops, genesis g -> cops_ok (gstart g) ops ->
  let c := crun (gstart g) ops in
  total_bonded c = lsum gi_bonded (active_validators c) /\
  NoDup (map gi_addr (active_validators c)) /\
  (forall s, In s (map gi_addr (active_validators c)) <-> in_some_pool c s) /\
  (forall v, In v (active_validators c) -> gi_shares v = gi_bonded v /\
     (delegation_amount (c_d c) (gi_addr v) < two63 -> gi_bonded v = delegation_amount (c_d c) (gi_addr v))).
Proof. exact claim_power. Qed.
(** A vote counts at every validator with exactly what the voter has delegated to it. *)
Theorem C52_delegations : forall g ops d, genesis g -> cops_ok (gstart g) ops ->
  let c := crun (gstart g) ops in
  NoDup (map fst (gov_delegations c d)) /\
  (forall s, delegation_of (c_d c) s d < two63 ->
     (in_some_pool c s -> cast c d s = delegation_of (c_d c) s d) /\ (~ in_some_pool c s -> cast c d s = 0)).
Proof. exact claim_delegations. Qed.
(** Whoever votes, the votes at a validator do not exceed its power, and what the tally of the SDK adds
    up for the voters and for the validator itself is that power. *)
Theorem C52_votes : forall g ops v D, genesis g -> cops_ok (gstart g) ops ->
  let c := crun (gstart g) ops in let s := gi_addr v in
  In v (active_validators c) -> gi_shares v <> 0 -> delegation_amount (c_d c) s < two63 ->
  Z.of_nat (length (recorded (c_d c) s)) * Z.of_nat (size (cjoined ops s)) < ONE -> NoDup D ->
  (forall d, 0 <= cast c d s) /\
  lsum (fun d => cast c d s) D <= gi_bonded v /\
  (forall d, counted v (cast c d s) = Some (dec_of_int (cast c d s))) /\
  counted v (gi_shares v - lsum (fun d => cast c d s) D) = Some (dec_of_int (gi_bonded v - lsum (fun d => cast c d s) D)).
Proof. exact claim_votes. Qed.
Example C52_case : let c := after govh in
  total_bonded c = 3749 /\ In v3 (active_validators c) /\ length (active_validators c) = 3%nat /\
  map (fun d => cast c d 3) [3; 4; 5; 6]%N = [900; 69; 79; 0] /\ cast c 4 2 = 700 /\ cast c 4 1 = 0 /\
  delegation_amount (c_d c) 3 = 1049 /\ length (recorded (c_d c) 3) = 1%nat /\ size (cjoined govh 3) = 3%nat.
Proof. exact govh_case. Qed.
Example C52_votes_case : lsum (fun d => cast (after govh) d 3) [4; 5]%N = 148 /\
  counted v3 (1049 - 148) = Some (dec_of_int (1049 - 148)).
Proof. exact govh_votes. Qed.
(** A validator with zero shares is reported; if it votes, the tally of the SDK divides by zero. *)
Theorem C52_zero_refuted : exists g ops v, genesis g /\ cops_ok (gstart g) ops /\
  In v (active_validators (crun (gstart g) ops)) /\ forall shares, counted v shares = None.
Proof. exact empty_refutes. Qed.

(** ** C01 in the chain *)
(** The number of slashes is the number of recorded ones, the number of delegators the number of
    accounts that ever delegated to the staker. *)
Theorem C01_chain : forall g ops s, genesis g -> cops_ok (gstart g) ops ->
  let c := crun (gstart g) ops in
  Z.of_nat (length (recorded (c_d c) s)) * Z.of_nat (size (cjoined ops s)) < ONE ->
  reported_sum (c_d c) s <= delegation_amount (c_d c) s /\ forall d, 0 <= delegation_of (c_d c) s d <= delegation_amount (c_d c) s.
Proof. exact claim_principal. Qed.
Example C01_chain_case : genesis gen0 /\ cops_ok (gstart gen0) govh. Proof. exact (conj gen0_genesis govh_ok). Qed.

Print Assumptions C52_power.
Print Assumptions C52_delegations.
Print Assumptions C52_votes.
Print Assumptions C52_zero_refuted.
Print Assumptions C01_chain.
