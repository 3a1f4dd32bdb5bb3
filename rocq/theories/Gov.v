(** * What x/stakers reports to governance (model only, no proofs).

    Modelled: x/stakers/keeper/exported_functions.go 77-132 (TotalBondedTokens, GetActiveValidators,
    GetDelegations), getters_staker.go 235-239 isActiveStaker and 299-309 getAllActiveStakers,
    x/delegation/keeper/getters_delegator.go 100-112 GetStakersByDelegator.

    Simplifications: addresses are valid, so MustAccAddressFromBech32 does not panic; the lists come in
    the order of [map_to_list] and not in the order of the keys; a decimal that is made of an integer
    is that integer; the second index of the delegators, which GetStakersByDelegator walks through,
    is read off the first (SetDelegator and RemoveDelegator write both, getters_delegator.go 14-54;
    see Keys.v for keys of other lengths). *)
From Verif Require Import Base Delegation Stakers Funders Team RoundRobin Pool Bundles Chain.

(** getters_staker.go 299-309 getAllActiveStakers. *)
Definition all_active (c : chain) : list N := map fst (map_to_list (ss_active (c_s c))).
(** getters_delegator.go 100-112 GetStakersByDelegator. *)
Definition stakers_of (d : dstate) (x : N) : list N :=
  map fst (List.filter (fun e => bool_decide (is_Some (f_delegators (snd e) !! x))) (map_to_list (ds_f1 d))).
(** exported_functions.go 80-91 TotalBondedTokens. *)
Definition total_bonded (c : chain) : Z :=
  fold_left (fun t s => t + i64 (delegation_amount (c_d c) s)) (all_active c) 0.
(** 93-115 GetActiveValidators: address, bonded tokens and delegator shares (the other fields are
    always zero or empty). *)
Record govinfo := mkGovInfo { gi_addr : N; gi_bonded : Z; gi_shares : Z }.
Definition active_validators (c : chain) : list govinfo :=
  map (fun s => let n := i64 (delegation_amount (c_d c) s) in mkGovInfo s n n) (all_active c).
(** 117-132 GetDelegations. *)
Definition gov_delegations (c : chain) (x : N) : list (N * Z) :=
  map (fun s => (s, i64 (delegation_of (c_d c) s x))) (List.filter (is_active (c_s c)) (stakers_of (c_d c) x)).
