(** * Queries about an account and the questions of protocol nodes (model only, no proofs).

    Modelled, from x/query/keeper: grpc_account_assets.go, grpc_account_redelegation.go,
    grpc_account_delegation_unbondings.go, grpc_delegation_delegator.go,
    grpc_delegation_delegators_by_staker.go, grpc_delegation_stakers_by_delegator.go,
    grpc_query_can_vote.go, grpc_query_can_propose.go, grpc_query_can_validate.go.

    Simplifications: the second stores of the delegators (by delegator) and of the unbonding queue
    (by delegator) are written and deleted together with the first ones (x/delegation/keeper/
    getters_delegator.go 20-34, 65-81, getters_undelegation.go 21-35, 52-62), so their content is computed
    from them; addresses sort as their numbers; the full record of a staker inside an answer is its
    address; the reverse flag of the SDK's pagination is not modelled. *)
From Verif Require Import Base Delegation Stakers Funders Team RoundRobin Pool Bundles Chain Query.

(** ** Stores *)
(** getters_delegator.go 54-62 DoesDelegatorExist. *)
Definition delegates (st : dstate) (a s : N) : bool := bool_decide (is_Some (f_delegators (getf st s) !! a)).
(** The store DelegatorKeyPrefixIndex2 under [a]: the stakers in key order. *)
Definition stakers_of (st : dstate) (a : N) : list N :=
  merge_sort N.le (List.filter (delegates st a) (map fst (map_to_list (ds_f1 st)))).
(** The store DelegatorKeyPrefix under the staker [s]. *)
Definition delegators_of (st : dstate) (s : N) : list N :=
  merge_sort N.le (map fst (map_to_list (f_delegators (getf st s)))).
(** The store UndelegationQueueKeyPrefixIndex2 under [a]: the indices in key order. *)
Definition unbondings_of (st : dstate) (a : N) : list N :=
  merge_sort N.le (omap (fun x : N * uentry => if (u_delegator (snd x) =? a)%N then Some (fst x) else None) (map_to_list (ds_queue st))).
(** getters_undelegation.go 38-49 GetUndelegationQueueEntry: a zero record if there is none. *)
Definition uentry_at (st : dstate) (i : N) : uentry := default (mkU 0 0 0 0) (ds_queue st !! i).
(** x/funders/keeper/getters_funding.go 40-54 GetFundingsOfFunder: pools and fundings; only sums are
    taken over them, so they are not sorted. *)
Definition fundings_of (st : fstate) (a : N) : list (N * funding) :=
  omap (fun x : N * N * funding => if (fst (fst x) =? a)%N then Some (snd (fst x), snd x) else None) (map_to_list (fs_fundings st)).

(** ** AccountAssets *)
Record assets := mkAs {
  as_balance : Z; as_self : Z; as_self_unbonding : Z; as_delegation : Z; as_unbonding : Z;
  as_rewards : coins; as_funding : coins
}.
(** x/delegation/keeper/exported_functions.go GetOutstandingRewards. *)
Definition rewards_of (st : dstate) (s a : N) : coins := fst (f1_outstanding (getf st s) a).
(** grpc_account_assets.go 20-84; [None]: Uint64 panics. *)
Definition account_assets (c : chain) (a : N) : option assets :=
  let st := c_d c in
  let balance := bal (c_bank c) (User a) KYVE in
  if two64 <=? balance then None
  else
    let l := stakers_of st a in
    let u := map (uentry_at st) (unbondings_of st a) in
    Some (mkAs balance (delegation_of st a a)
      (fold_left (fun x e => if (u_staker e =? a)%N then u64_add x (u_amount e) else x) u 0)
      (fold_left (fun x s => u64_add x (delegation_of st s a)) l 0)
      (fold_left (fun x e => u64_add x (u_amount e)) u 0)
      (fold_left (fun x s => cadd x (rewards_of st s a)) l ∅)
      (fold_left (fun x y => cadd x (fd_amounts (snd y))) (fundings_of (c_f c) a) ∅)).

(** ** AccountRedelegation *)
(** grpc_account_redelegation.go 12-38: the entries (creation and finish date) and the free slots. *)
Definition redelegation_entries (st : dstate) (a : N) : list (Z * Z) :=
  omap (fun x => let finish := u64_add x (p_cooldown (ds_params st)) in
                 if ds_time st <=? finish then Some (x, finish) else None) (default [] (ds_cool st !! a)).
Definition available_slots (st : dstate) (a : N) : Z :=
  u64_sub (p_maxredel (ds_params st)) (Z.of_nat (length (redelegation_entries st a))).

(** ** Lists of delegations and requests *)
(** The keys from [k] on. *)
Definition keys_from (l : list N) (k : N) : list N := List.filter (fun x => (k <=? x)%N) l.
(** FilteredPaginate with an accumulator that appends the record [f] of every key. *)
Definition list_page {A} (f : N -> A) (l : list N) (key : option N) (offset limit : Z) (count : bool)
    : option (list A * option N * Z) :=
  match filtered_paginate (fun _ => true) l (keys_from l) key offset limit count with
  | None => None
  | Some (r, k, n) => Some (map f r, k, n)
  end.
(** grpc_delegation_delegator.go 16-31; types StakerDelegatorResponse. *)
Record dresp := mkDR { dr_delegator : N; dr_rewards : coins; dr_amount : Z; dr_staker : N }.
Definition delegator (st : dstate) (s a : N) : dresp := mkDR a (rewards_of st s a) (delegation_of st s a) s.
(** grpc_delegation_delegators_by_staker.go 17-57: page, total delegation, number of delegators. *)
Definition delegators_page (st : dstate) (s : N) (key : option N) (offset limit : Z) (count : bool)
    : option (list dresp * option N * Z * Z * Z) :=
  match list_page (delegator st s) (delegators_of st s) key offset limit count with
  | None => None
  | Some (r, k, n) => Some (r, k, n, dd_total (get_dd (getf st s)), dd_count (get_dd (getf st s)))
  end.
(** grpc_delegation_stakers_by_delegator.go 17-51. *)
Definition stakers_of_page (st : dstate) (a : N) (key : option N) (offset limit : Z) (count : bool)
    : option (list dresp * option N * Z) :=
  list_page (fun s => delegator st s a) (stakers_of st a) key offset limit count.
(** grpc_account_delegation_unbondings.go 19-51: amount, creation time, staker. *)
Definition unbondings_page (st : dstate) (a : N) (key : option N) (offset limit : Z) (count : bool)
    : option (list (Z * Z * N) * option N * Z) :=
  list_page (fun i => let e := uentry_at st i in (u_amount e, u_time e, u_staker e)) (unbondings_of st a) key offset limit count.

(** ** Questions of protocol nodes *)
(** grpc_query_can_vote.go 13-41. *)
Inductive can_vote_answer := CannotVote | CanVote | CanVoteNoAbstain.
Definition ask_vote (c : chain) (p s voter storage : N) : can_vote_answer :=
  if negb (can_vote c p s voter storage) then CannotVote
  else if memb s (bp_abstain (get_prop c p)) then CanVoteNoAbstain else CanVote.
(** grpc_query_can_propose.go 12-30. *)
Definition ask_propose (c : chain) (p s proposer : N) (from : Z) : bool := can_propose c p s proposer from.
(** grpc_query_can_validate.go 12-47: the staker, [None] if not possible. An empty staker address is
    also "not possible". *)
Definition ask_validate (c : chain) (p v : N) : option N :=
  match get_pool c p with
  | None => None
  | Some _ =>
      match List.find (fun s => match get_val (c_s c) p s with Some x => (vl_addr x =? v)%N | None => false end) (members c p) with
      | Some s => if (s =? 0)%N then None else Some s
      | None => None
      end
  end.
