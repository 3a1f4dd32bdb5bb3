(** * Queries about pools, their stakers and the current vote (model only, no proofs).

    Modelled: x/query/keeper/grpc_query_pool.go, helper.go 10-82, grpc_query_staker.go 60-72,
    grpc_query_stakers_by_pool.go, grpc_current_vote_status.go; x/pool/keeper/getters_pool.go 99-149;
    x/stakers/keeper/getters_valaccount.go 40-74.

    Simplifications: name, logo and metadata of stakers are left out, a search is the set of pools whose
    name matches; addresses sort as their numbers; the reverse flag of the SDK's pagination is not
    modelled; what Stakers and StakersByPoolCount list is in Query.v, each entry is [full_staker]. *)
From Verif Require Import Base Delegation Stakers Funders Team RoundRobin Pool Bundles Chain Query Account Fundings.

(** cosmossdk.io/math Int.Uint64: panics if the number does not fit. *)
Definition uint64_of (x : Z) : option Z := if (0 <=? x) && (x <? two64) then Some x else None.

(** ** Pools *)
(** x/query/types PoolResponse; the account of the pool is [PoolAcc] of its id. *)
Record presp := mkPR { pr_id : N; pr_data : pool; pr_prop : proposal; pr_stakers : list N; pr_self : Z; pr_total : Z;
  pr_status : pstatus; pr_balance : Z; pr_fundings : list (N * funding) }.
(** x/funders/keeper/getters_funding.go 57-70 GetFundingsOfPool. *)
Definition fundings_of_pool (st : fstate) (p : N) : list (N * funding) :=
  map (fun k => (snd k, funding_at st (snd k) p)) (List.filter (fun k => (fst k =? p)%N) (pool_store st)).
(** grpc_query_pool.go 54-89 parsePoolResponse; [None] is the panic of Uint64. *)
Definition parse_pool (c : chain) (p : N) (pl : pool) : option presp :=
  match uint64_of (bal (c_bank c) (PoolAcc p) KYVE) with
  | None => None
  | Some b =>
      Some (mkPR p pl (get_prop c p) (members c p)
        (fold_left (fun x s => u64_add x (delegation_of (c_d c) s s)) (members c p) 0)
        (total_power c p) (pool_status c p pl) b (fundings_of_pool (c_f c) p))
  end.
(** grpc_query_pool.go 40-52 Pool. *)
Definition pool_info (c : chain) (p : N) : option presp := match get_pool c p with None => None | Some pl => parse_pool c p pl end.
(** getters_pool.go 118-136: the filters; 0 is the empty runtime and no storage provider. *)
Definition pool_wanted (search : N -> bool) (runtime : N) (disabled : bool) (sp : N) (p : N) (pl : pool) : bool :=
  search p && ((runtime =? 0)%N || (runtime =? pl_runtime pl)%N) && eqb disabled (pl_disabled pl) && ((sp =? 0)%N || (sp =? pl_sp pl)%N).
Definition pool_ids (c : chain) : list N := merge_sort N.le (map fst (map_to_list (ps_pools (c_pools c)))).
(** grpc_query_pool.go 21-38 Pools and getters_pool.go 99-149. *)
Definition pools_page (c : chain) (search : N -> bool) (runtime : N) (disabled : bool) (sp : N)
    (key : option N) (offset limit : Z) (count : bool) : option (list presp * option N * Z) :=
  match filtered_paginate (fun p => match get_pool c p with Some pl => pool_wanted search runtime disabled sp p pl | None => false end)
          (pool_ids c) (keys_from (pool_ids c)) key offset limit count with
  | None => None
  | Some (r, k, n) => match all_or_none (map (pool_info c) r) with Some l => Some (l, k, n) | None => None end
  end.

(** ** Stakers *)
(** x/query/types PoolMembership with its BasicPool. *)
Record mresp := mkMR { mr_pool : N; mr_weight : Z; mr_interval : Z; mr_funds : coins; mr_delegation : Z; mr_status : pstatus;
  mr_points : Z; mr_leaving : bool; mr_addr : N; mr_balance : Z }.
(** helper.go 35-64: one membership; [None] is the panic of Uint64, and for a pool that does not exist the
    panic of GetPoolStatus on the missing upgrade plan of the zero value. *)
Definition membership (c : chain) (s p : N) : option mresp :=
  match get_val (c_s c) p s with
  | None => None
  | Some v =>
      match get_pool c p, uint64_of (bal (c_bank c) (User (vl_addr v)) KYVE) with
      | Some pl, Some b => Some (mkMR p (pl_weight pl) (pl_interval pl) (total_active_funding (c_f c) p) (total_power c p) (pool_status c p pl)
                    (vl_points v) (vl_leaving v) (vl_addr v) b)
      | _, _ => None
      end
  end.
(** getters_valaccount.go 57-74 GetValaccountsFromStaker: the pools in key order. *)
Definition pools_with (st : sstate) (s : N) : list N :=
  merge_sort N.le (List.filter (fun p => match get_val st p s with Some _ => true | None => false end) (map fst (map_to_list (ss_val st)))).
(** x/query/types FullStaker. *)
Record sresp := mkSR { sr_addr : N; sr_commission : Z; sr_rewards : coins; sr_pending : option (Z * Z); sr_self : Z; sr_unbonding : Z;
  sr_total : Z; sr_count : Z; sr_pools : list mresp }.
(** getters_commission.go 45-57 GetCommissionChangeEntryByIndex2. *)
Definition pending_commission (st : sstate) (s : N) : option (Z * Z) :=
  match ss_cindex st !! s with
  | None => None
  | Some i => match ss_centries st !! i with None => None | Some e => Some (ce_commission e, ce_date e) end
  end.
(** helper.go 10-82 GetFullStaker of a staker that exists. *)
Definition full_staker (c : chain) (s : N) (x : staker) : option sresp :=
  match all_or_none (map (membership c s) (pools_with (c_s c) s)) with
  | None => None
  | Some l =>
      Some (mkSR s (st_commission x) (st_rewards x) (pending_commission (c_s c) s) (delegation_of (c_d c) s s)
        (fold_left (fun n e => if (u_staker e =? s)%N then u64_add n (u_amount e) else n) (map (uentry_at (c_d c)) (unbondings_of (c_d c) s)) 0)
        (delegation_amount (c_d c) s) (dd_count (get_dd (getf (c_d c) s))) l)
  end.
(** grpc_query_staker.go 60-72 Staker. *)
Definition staker_info (c : chain) (s : N) : option sresp := match ss_stakers (c_s c) !! s with None => None | Some x => full_staker c s x end.
(** grpc_query_stakers_by_pool.go 13-39; a valaccount without staker is skipped. *)
Definition stakers_by_pool (c : chain) (p : N) : option (list (sresp * valacc)) :=
  match get_pool c p with
  | None => None
  | Some _ =>
      all_or_none (omap (fun s => match get_val (c_s c) p s, ss_stakers (c_s c) !! s with
        | Some v, Some x => Some (match full_staker c s x with Some r => Some (r, v) | None => None end)
        | _, _ => None end) (members c p))
  end.

(** ** The current vote *)
(** grpc_current_vote_status.go 13-36: valid, invalid, abstain, total. *)
Definition vote_status (c : chain) (p : N) : option (Z * Z * Z * Z) :=
  match get_pool c p with
  | None => None
  | Some _ => let v := distribution c p in Some (v_valid v, v_invalid v, v_abstain v, v_total v)
  end.
