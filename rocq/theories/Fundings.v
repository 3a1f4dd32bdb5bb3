(** * Queries about funders and fundings (model only, no proofs).

    Modelled: x/query/keeper/grpc_query_fundings.go, grpc_query_funders.go, grpc_account_funded.go,
    x/funders/keeper/getters_funding.go 40-70 and 115-168, getters_funder.go 67-102.

    Simplifications: the two stores of fundings hold the same records (getters_funding.go 89-106) and
    are read from one map in the order of their keys; addresses sort as their numbers and an iteration
    over the keys that start with an address finds this address only; moniker, website, name and logo
    are left out, a search is the set of funders whose moniker matches; the reverse flag of the SDK's
    pagination is not modelled. *)
From Verif Require Import Base Delegation Stakers Funders Team RoundRobin Pool Bundles Chain Query Account.

(** ** Stores *)
(** Keys [(x, y)] in store order: the first part, then the second (util/logic.go 22-37). *)
Definition pleb (x y : N * N) : bool := (fst x <? fst y)%N || ((fst x =? fst y)%N && (snd x <=? snd y)%N).
Definition ple (x y : N * N) : Prop := pleb x y = true.
Global Instance ple_dec x y : Decision (ple x y).
Proof. unfold ple. apply _. Defined.
(** types/keys.go FundingKeyByFunder: funder, pool. *)
Definition funder_store (st : fstate) : list (N * N) := merge_sort ple (map fst (map_to_list (fs_fundings st))).
(** types/keys.go FundingKeyByPool: pool, funder. *)
Definition pool_store (st : fstate) : list (N * N) :=
  merge_sort ple (map (fun x => (snd (fst x), fst (fst x))) (map_to_list (fs_fundings st))).
Definition pairs_from (l : list (N * N)) (k : N * N) : list (N * N) := List.filter (pleb k) l.
(** The record of a key that is in the store. *)
Definition funding_at (st : fstate) (a p : N) : funding := default (mkFd ∅ ∅ ∅) (fs_fundings st !! (a, p)).
(** getters_funding.go 40-54 GetFundingsOfFunder: the pools in key order. *)
Definition pools_of (st : fstate) (a : N) : list N := merge_sort N.le (map fst (fundings_of st a)).

(** ** Status *)
(** cosmos-sdk Coins.IsZero and Coins.IsAllPositive. *)
Definition czero (c : coins) : bool := forallb (fun x => snd x =? 0) (map_to_list c).
Definition call_positive (c : coins) : bool := negb (cempty c) && forallb (fun x => 0 <? snd x) (map_to_list c).
(** x/query/types FundingStatus: unspecified, active, inactive. *)
Inductive fstatus := AnyFunding | ActiveFunding | InactiveFunding.
(** types/funders.go 51-57 IsActive, IsInactive and getters_funding.go 148-154: what the filter keeps. *)
Definition keeps (s : fstatus) (f : funding) : bool :=
  match s with AnyFunding => true | ActiveFunding => negb (czero (fd_amounts f)) | InactiveFunding => czero (fd_amounts f) end.
(** grpc_query_funders.go 61-76 filterFundingsOnStatus. *)
Definition keeps_of_funder (s : fstatus) (f : funding) : bool :=
  match s with AnyFunding => true | ActiveFunding => call_positive (fd_amounts f) | InactiveFunding => czero (fd_amounts f) end.

(** ** Answers *)
(** A list of results, an error if one of them is. *)
Fixpoint all_or_none {A} (l : list (option A)) : option (list A) :=
  match l with
  | [] => Some []
  | x :: t => match x, all_or_none t with Some y, Some r => Some (y :: r) | _, _ => None end
  end.
(** x/query/types Funding. *)
Record fresp := mkFR { fr_funder : N; fr_pool : N; fr_amounts : coins; fr_apb : coins; fr_total : coins; fr_score : Z }.
(** grpc_query_fundings.go 45-58 parseFundings: one record; [None] if GetScore panics. *)
Definition parse_funding (st : fstate) (a p : N) : option fresp :=
  let f := funding_at st a p in
  match score (wl st) (fd_amounts f) with
  | None => None
  | Some z => Some (mkFR a p (fd_amounts f) (fd_apb f) (fd_total f) z)
  end.
(** grpc_query_fundings.go 13-27 FundingsByFunder and getters_funding.go 115-168. *)
Definition fundings_by_funder (st : fstate) (a : N) (s : fstatus) (key : option (N * N)) (offset limit : Z) (count : bool)
    : option (list fresp * option (N * N) * Z) :=
  match filtered_paginate (fun k => (fst k =? a)%N && keeps s (funding_at st (fst k) (snd k)))
          (funder_store st) (pairs_from (funder_store st)) key offset limit count with
  | None => None
  | Some (r, k, n) =>
      match all_or_none (map (fun x => parse_funding st (fst x) (snd x)) r) with Some l => Some (l, k, n) | None => None end
  end.
(** grpc_query_fundings.go 29-43 FundingsByPool. *)
Definition fundings_by_pool (st : fstate) (p : N) (s : fstatus) (key : option (N * N)) (offset limit : Z) (count : bool)
    : option (list fresp * option (N * N) * Z) :=
  match filtered_paginate (fun k => (fst k =? p)%N && keeps s (funding_at st (snd k) (fst k)))
          (pool_store st) (pairs_from (pool_store st)) key offset limit count with
  | None => None
  | Some (r, k, n) =>
      match all_or_none (map (fun x => parse_funding st (snd x) (fst x)) r) with Some l => Some (l, k, n) | None => None end
  end.

(** x/query/types FundingStats. *)
Record fstats := mkFSt { sf_used : coins; sf_allocated : coins; sf_perbundle : coins; sf_pools : list N; sf_score : Z }.
(** grpc_query_funders.go 87-99: the loop body of parseFunder. *)
Definition add_stats (st : fstate) (a : N) (acc : option fstats) (p : N) : option fstats :=
  match acc with
  | None => None
  | Some x =>
      let f := funding_at st a p in
      match score (wl st) (fd_amounts f) with
      | None => None
      | Some z =>
          Some (mkFSt (cadd (sf_used x) (fd_total f)) (cadd (sf_allocated x) (fd_amounts f))
            (if czero (fd_amounts f) then sf_perbundle x else cadd (sf_perbundle x) (fd_apb f))
            (sf_pools x ++ [p]) (u64_add (sf_score x) z))
      end
  end.
(** grpc_query_funders.go 78-110 parseFunder. *)
Definition parse_funder (st : fstate) (a : N) : option (N * fstats) :=
  match fold_left (add_stats st a) (pools_of st a) (Some (mkFSt ∅ ∅ ∅ [] 0)) with None => None | Some x => Some (a, x) end.
(** grpc_query_funders.go 37-59 Funder: the funder and the fundings with the wanted status. *)
Definition funder_info (st : fstate) (a : N) (s : fstatus) : option (N * fstats * list fresp) :=
  if decide (a ∈ fs_funders st) then
    match parse_funder st a, all_or_none (map (parse_funding st a) (List.filter (fun p => keeps_of_funder s (funding_at st a p)) (pools_of st a))) with
    | Some x, Some l => Some (x, l)
    | _, _ => None
    end
  else None.
(** grpc_query_funders.go 15-35 Funders and getters_funder.go 67-102; [search]: whose moniker contains
    the search string. *)
Definition funders_page (st : fstate) (search : N -> bool) (key : option N) (offset limit : Z) (count : bool)
    : option (list (N * fstats) * option N * Z) :=
  let l := merge_sort N.le (elements (fs_funders st)) in
  match filtered_paginate search l (keys_from l) key offset limit count with
  | None => None
  | Some (r, k, n) => match all_or_none (map (parse_funder st) r) with Some x => Some (x, k, n) | None => None end
  end.

(** ** AccountFundedList *)
(** x/query/types Funded: the amounts and the pool with total funds, total delegation and status. *)
Record fitem := mkFI { it_pool : N; it_amounts : coins; it_funds : coins; it_delegation : Z; it_status : pstatus }.
(** grpc_account_funded.go 12-47; [None]: pool not found. *)
Definition account_funded (c : chain) (a : N) : option (list fitem) :=
  all_or_none (map (fun p =>
      match get_pool c p with
      | None => None
      | Some pl => Some (mkFI p (fd_amounts (funding_at (c_f c) a p)) (total_active_funding (c_f c) p) (total_power c p) (pool_status c p pl))
      end)
    (List.filter (fun p => negb (czero (fd_amounts (funding_at (c_f c) a p)))) (pools_of (c_f c) a))).
