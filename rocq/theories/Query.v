(** * Paginated queries: stakers and finalized bundles (model only, no proofs).

    Modelled: x/delegation/keeper/getters_index_stakers.go (all of it), the in-memory staker
    index after a restart (x/delegation/keeper/keeper.go 71-84), x/query/keeper/
    grpc_query_staker.go 14-58 Stakers, grpc_query_stakers_by_pool_count.go,
    x/bundles/keeper/getters_bundles.go 206-289 GetPaginatedFinalizedBundleQuery.

    The pagination helpers of the Cosmos SDK (types/query ParsePagination and FilteredPaginate)
    are not part of the repository; they are restated here from version 0.50.

    Simplifications: a query returns addresses or stored bundles, not the assembled response
    records; the reverse flag is ignored for the staker queries (the SDK handles it); a page key
    of the finalized bundles is the number its 8 bytes encode; listings of one page are
    computed without gas. *)
From Verif Require Import Base Delegation Stakers Funders Team RoundRobin Pool Bundles Chain.

(** ** Requests *)
(** query.DefaultLimit. *)
Definition DEFAULT_LIMIT : Z := 100.
(** cosmos-sdk types/query/pagination.go ParsePagination: page and limit from the offset and the
    limit (uint64, converted to int); [None] is an error. *)
Definition parse_pagination (offset limit : Z) : option (Z * Z) :=
  let o := i64 offset in
  let l := i64 limit in
  if o <? 0 then None
  else if l <? 0 then None
  else let l := if l =? 0 then DEFAULT_LIMIT else l in Some (o / l + 1, l).

(** ** Pages of a slice *)
Section slice.
  Context {A : Type}.
  (** The int64 the expression [x] evaluates to in Go. *)
  Definition int (x : Z) : Z := i64 (w64 x).
  (** getters_index_stakers.go 21-44 arrayPagination; [None]: an error, or a panic of [make] or of
      an index out of range. The second component is the total. *)
  Definition array_page (slice : list A) (offset limit : Z) : option (list A * Z) :=
    match parse_pagination offset limit with
    | None => None
    | Some (page, limit) =>
        let first := int (page * limit) in
        let len := Z.of_nat (length slice) in
        let n := Z.min limit (int (len - first)) in
        if n <? 0 then None                            (* make *)
        else if (0 <? n) && (first <? 0) then None     (* slice[page*limit] *)
        else Some (firstn (Z.to_nat n) (skipn (Z.to_nat first) slice), len)
    end.
  (** 48-74 arrayPaginationAccumulator; [hit] is what the accumulator returns, which also appends
      the item if it may. *)
  Fixpoint array_loop (hit : A -> bool) (slice : list A) (lo hi count : Z) : list A * Z :=
    match slice with
    | [] => ([], count)
    | x :: t =>
        if hit x then
          let '(r, n) := array_loop hit t lo hi (count + 1) in
          (if (lo <=? count) && (count <? hi) then x :: r else r, n)
        else array_loop hit t lo hi count
    end.
  Definition array_accumulate (hit : A -> bool) (slice : list A) (offset limit : Z) : option (list A * Z) :=
    match parse_pagination offset limit with
    | None => None
    | Some (page, limit) => Some (array_loop hit slice (int ((page - 1) * limit)) (int (page * limit)) 0)
    end.

  (** ** Pages of a store *)
  (** cosmos-sdk types/query/filtered_pagination.go FilteredPaginate over the keys [l] in store
      order. With a page key: the loop over the keys from there on. *)
  Fixpoint keyed_loop (hit : A -> bool) (l : list A) (hits limit : Z) : list A * option A :=
    match l with
    | [] => ([], None)
    | x :: t =>
        if hits =? limit then ([], Some x)
        else if hit x then let '(r, k) := keyed_loop hit t (hits + 1) limit in (x :: r, k)
        else keyed_loop hit t hits limit
    end.
  (** Without a page key. [next] is the next key found so far. *)
  Fixpoint offset_loop (hit : A -> bool) (l : list A) (offset stop : Z) (count : bool) (hits : Z) (next : option A)
      : list A * option A * Z :=
    match l with
    | [] => ([], next, hits)
    | x :: t =>
        let mine := if hit x && (offset <=? hits) && (hits <? stop) then [x] else [] in
        let hits := if hit x then hits + 1 else hits in
        if hits =? w64 (stop + 1) then
          let next := match next with None => Some x | Some _ => next end in
          if count then let '(r, k, n) := offset_loop hit t offset stop count hits next in (mine ++ r, k, n)
          else (mine, next, hits)
        else let '(r, k, n) := offset_loop hit t offset stop count hits next in (mine ++ r, k, n)
    end.
  (** The answer: items, next key, total (0 unless counted). [from k] are the keys not below [k]. *)
  Definition filtered_paginate (hit : A -> bool) (l : list A) (from : A -> list A)
      (key : option A) (offset limit : Z) (count : bool) : option (list A * option A * Z) :=
    let '(limit, count) := if limit =? 0 then (DEFAULT_LIMIT, true) else (limit, count) in
    match key with
    | Some k => if 0 <? offset then None else let '(r, n) := keyed_loop hit (from k) 0 limit in Some (r, n, 0)
    | None =>
        let '(r, n, hits) := offset_loop hit l offset (u64_add offset limit) count 0 None in
        Some (r, n, if count then hits else 0)
    end.
End slice.

(** ** Staker queries *)
(** The keys of the staker index in store order: MaxUint64 - amount, then the address. *)
Definition ileb (x y : Z * N) : bool := (fst y <? fst x) || ((fst x =? fst y) && (snd x <=? snd y)%N).
Definition ile (x y : Z * N) : Prop := ileb x y = true.
Global Instance ile_dec x y : Decision (ile x y).
Proof. unfold ile. apply _. Defined.
Definition index_list (c : chain) : list (Z * N) := merge_sort ile (elements (ds_index (c_d c))).
Definition index_from (c : chain) (k : Z * N) : list (Z * N) := List.filter (fun x => ileb k x) (index_list c).

(** grpc_query_staker.go 24-39: the accumulator. [None] is the empty search, which is part of any
    string; any other one is looked for in the address and the moniker of the stored staker, which
    are empty if there is none (helper.go 10-12). [m] is the outcome for a stored staker. *)
Definition found (c : chain) (search : option (N -> bool)) (s : N) : bool :=
  match search with None => true | Some m => staker_exists c s && m s end.
(** x/stakers/keeper/getters_staker.go GetPoolCount. *)
Definition pool_count (c : chain) (s : N) : Z := default 0 (ss_active (c_s c) !! s).
Inductive sfilter := AllStakers | InactiveStakers.
(** getters_index_stakers.go 96-108 and 131-145: the entries that count. *)
Definition listed (c : chain) (f : sfilter) (search : option (N -> bool)) (x : Z * N) : bool :=
  match f with
  | AllStakers => found c search (snd x)
  | InactiveStakers => if 0 <? pool_count c (snd x) then false else found c search (snd x)
  end.
Definition stakers_page (c : chain) (f : sfilter) (search : option (N -> bool))
    (key : option (Z * N)) (offset limit : Z) (count : bool) : option (list (Z * N) * option (Z * N) * Z) :=
  filtered_paginate (listed c f search) (index_list c) (index_from c) key offset limit count.
(** getters_index_stakers.go 112-127 and 150-163: the active stakers are sorted with sort.Slice, which
    is not stable; [slice] is the result of the sort. *)
Definition active_page (c : chain) (slice : list N) (search : option (N -> bool)) (offset limit : Z) : option (list N * Z) :=
  array_accumulate (found c search) slice offset limit.
Definition pool_count_page (slice : list N) (offset limit : Z) : option (list N * Z) :=
  array_page slice offset limit.

(** keeper.go 71-84 InitMemStore in the first begin block after a restart, when the memory store is
    empty: an entry for every delegation data. *)
Definition rebuild_index (d : dstate) : dstate :=
  fold_left (fun d s => set_index d s)
    (omap (fun x : N * f1 => match f_data (snd x) with Some _ => Some (fst x) | None => None end) (map_to_list (ds_f1 d)))
    (with_index d ∅).
Definition restart (c : chain) : chain := cw_d c (rebuild_index (c_d c)).

(** ** Finalized bundles *)
(** The finalized bundles of a pool in store order. *)
Definition fin_le (x y : N * fbundle) : Prop := (fst x <= fst y)%N.
Global Instance fin_le_dec x y : Decision (fin_le x y).
Proof. unfold fin_le. apply _. Defined.
Definition fin_list (c : chain) (p : N) : list (N * fbundle) :=
  merge_sort fin_le
    (omap (fun x : N * N * fbundle => if (fst (fst x) =? p)%N then Some (snd (fst x), snd x) else None)
       (map_to_list (c_fin c))).
Record fpage := mkFP { fp_items : list (N * fbundle); fp_next : option Z; fp_total : Z }.
(** getters_bundles.go 209-289; [None] is the error of lines 229-231. *)
Definition fin_page (c : chain) (p : N) (key : option Z) (offset limit : Z) (reverse : bool) : option fpage :=
  let limit := if limit =? 0 then DEFAULT_LIMIT else limit in
  if (0 <? offset) && match key with Some _ => true | None => false end then None
  else
    let l := fin_list c p in
    let total := match last l with Some x => u64_add (Z.of_N (fst x)) 1 | None => 0 end in
    let k := match key with
             | Some k => k
             | None => if reverse then u64_sub total offset else offset
             end in
    let it := if reverse then rev (List.filter (fun x => Z.of_N (fst x) <? k) l)
              else List.filter (fun x => k <=? Z.of_N (fst x)) l in
    let data := firstn (Z.to_nat limit) it in
    let next := match skipn (Z.to_nat limit) it with
                | [] => None
                | x :: _ => if reverse then (fun y => Z.of_N (fst y)) <$> last data else Some (Z.of_N (fst x))
                end in
    Some (mkFP data next total).
