(** * The byte keys of the stores.

    The modules' own models keep logical maps; this file models the byte keys under which the
    records of those maps are stored, and the functions that read records back by taking keys
    apart. A byte is a number below 256. *)
From Verif Require Import Base.
From stdpp Require Import sorting.

Notation bytes := (list N).
(** encoding/binary BigEndian.PutUint64 and Uint64. *)
Fixpoint be (k : nat) (n : N) : bytes := match k with O => [] | S k => be k (n / 256) ++ [(n mod 256)%N] end.
Definition be8 (n : N) : bytes := be 8 n.
Definition unbe (b : bytes) : N := fold_left (fun a x => a * 256 + x)%N b 0%N.

(** ** Keys (x/*/types/keys.go, util/logic.go 22-37 GetByteKey: the concatenation of the parts) *)
(** "total_stakers" (x/stakers/types/keys.go 53). *)
Definition STAT : bytes := [116;111;116;97;108;95;115;116;97;107;101;114;115]%N.
(** Every kind of record the modules keep, with the parts of its key. *)
Inductive rec :=
  (* x/delegation *)
  | DParams | DDelegator (staker delegator : bytes) | DDelegatorIx (delegator staker : bytes) | DEntry (staker : bytes) (k : N)
  | DData (staker : bytes) | DSlash (staker : bytes) (k : N) | DQueue | DUndel (k : N) | DUndelIx (a : bytes) (k : N) | DCooldown (a : bytes) (t : N)
  (* its memory store *)
  | MStaker (amount : N) (staker : bytes)
  (* x/stakers *)
  | SParams | SStaker (a : bytes) | SVal (p : N) (a : bytes) | SValIx (a : bytes) (p : N) | SComm (i : N) | SCommIx (a : bytes)
  | SLeave (i : N) | SLeaveIx (a : bytes) (p : N) | SActive (a : bytes) | SQueueComm | SQueueLeave | SCount (p : N)
  (* x/bundles *)
  | BParams | BProposal (p : N) | BFinal (p i : N) | BVersions | BRound (p : N)
  (* its memory store *)
  | BIndex (p from : N)
  (* x/funders *)
  | FParams | FFunder (a : bytes) | FByFunder (a : bytes) (p : N) | FByPool (p : N) (a : bytes) | FState (p : N)
  (* x/pool *)
  | PParams | PPool (i : N) | PCount
  (* x/global *)
  | GParams
  (* x/team *)
  | TParams | TAuthority | TAccount (i : N) | TCount.
(** The store a record is in: every module has its own (StoreKey), x/delegation and x/bundles also
    have a memory store (MemStoreKey). *)
Definition store_of (r : rec) : N :=
  match r with
  | DParams | DDelegator _ _ | DDelegatorIx _ _ | DEntry _ _ | DData _ | DSlash _ _ | DQueue | DUndel _ | DUndelIx _ _ | DCooldown _ _ => 1
  | MStaker _ _ => 2
  | SParams | SStaker _ | SVal _ _ | SValIx _ _ | SComm _ | SCommIx _ | SLeave _ | SLeaveIx _ _ | SActive _ | SQueueComm | SQueueLeave | SCount _ => 3
  | BParams | BProposal _ | BFinal _ _ | BVersions | BRound _ => 4
  | BIndex _ _ => 5
  | FParams | FFunder _ | FByFunder _ _ | FByPool _ _ | FState _ => 6
  | PParams | PPool _ | PCount => 7
  | GParams => 8
  | TParams | TAuthority | TAccount _ | TCount => 9
  end%N.
(** x/delegation/types/keys.go 21-92, x/stakers/types/keys.go 23-99, x/bundles/types/keys.go 19-52,
    x/funders/types/keys.go 23-70, x/pool/types/keys.go 21-34, x/global/types/keys.go 17,
    x/team/types/keys.go 42-51, x/stakers/keeper/getters_staker.go 213-230. *)
Definition key_of (r : rec) : bytes :=
  match r with
  | DParams => [0]
  | DDelegator s d => [1; 0] ++ s ++ d
  | DDelegatorIx d s => [1; 1] ++ d ++ s
  | DEntry s k => [2] ++ s ++ be8 k
  | DData s => [3] ++ s
  | DSlash s k => [4] ++ s ++ be8 k
  | DQueue => [5]
  | DUndel k => [6; 0] ++ be8 k
  | DUndelIx a k => [6; 1] ++ a ++ be8 k
  | DCooldown a t => [7] ++ a ++ be8 t
  | MStaker n s => [1] ++ be8 n ++ s
  | SParams => [0]
  | SStaker a => [1] ++ a
  | SVal p a => [2; 0] ++ be8 p ++ a
  | SValIx a p => [2; 1] ++ a ++ be8 p
  | SComm i => [4; 0] ++ be8 i
  | SCommIx a => [4; 1] ++ a
  | SLeave i => [5; 0] ++ be8 i
  | SLeaveIx a p => [5; 1] ++ a ++ be8 p
  | SActive a => [6] ++ a
  | SQueueComm => [30; 2]
  | SQueueLeave => [30; 3]
  | SCount p => STAT ++ be8 p
  | BParams => [0]
  | BProposal p => [1] ++ be8 p
  | BFinal p i => [2] ++ be8 p ++ be8 i
  | BVersions => [3]
  | BRound p => [4] ++ be8 p
  | BIndex p i => [11] ++ be8 p ++ be8 i
  | FParams => [0]
  | FFunder a => [1] ++ a
  | FByFunder a p => [2; 0] ++ a ++ be8 p
  | FByPool p a => [2; 1] ++ be8 p ++ a
  | FState p => [3; 0] ++ be8 p
  | PParams => [0]
  | PPool i => [1] ++ be8 i
  | PCount => [2]
  | GParams => [0]
  | TParams => [0]
  | TAuthority => [1]
  | TAccount i => [2] ++ be8 i
  | TCount => [3]
  end%N.

(** ** Iteration *)
(** bytes.Compare: the order in which a store is iterated. *)
Fixpoint blt (a b : bytes) : bool :=
  match a, b with
  | [], [] => false
  | [], _ :: _ => true
  | _ :: _, [] => false
  | x :: a, y :: b => if (x <? y)%N then true else if (y <? x)%N then false else blt a b
  end.
Definition ble (a b : bytes) : bool := negb (blt b a).
Fixpoint starts (p k : bytes) : bool :=
  match p, k with [], _ => true | x :: p, y :: k => (x =? y)%N && starts p k | _ :: _, [] => false end.
(** A store, and the keys an iterator over a prefix visits (KVStorePrefixIterator, SDK). *)
Notation kvs := (gmap bytes).
Definition visit {V} (p : bytes) (st : kvs V) : list bytes := merge_sort (fun a b => Is_true (ble a b)) (List.filter (starts p) (map fst (map_to_list st))).
(** store.Iterator(start, end): the end is excluded. *)
Definition visit_range {V} (lo hi : bytes) (st : kvs V) : list bytes :=
  merge_sort (fun a b => Is_true (ble a b)) (List.filter (fun k => ble lo k && blt k hi) (map fst (map_to_list st))).
(** Go's k[a:b]. *)
Definition slice (a b : nat) (k : bytes) : bytes := take (b - a) (drop a k).

(** ** Reading records back *)
(** The values of the store of x/stakers that matter here: a valaccount, or the empty marker of an
    index; of a valaccount its valaddress. *)
Inductive sval := VAcc (valaddress : bytes) | VMark.
Definition acc_of (v : sval) : option bytes := match v with VAcc a => Some a | VMark => None end.
(** x/stakers/keeper/getters_valaccount.go 102-117 SetValaccount: the record and its index entry. *)
Definition set_val (st : kvs sval) (p : N) (a v : bytes) : kvs sval := <[key_of (SValIx a p) := VMark]> (<[key_of (SVal p a) := VAcc v]> st).
(** Lines 136-150 GetValaccount. *)
Definition get_val (st : kvs sval) (p : N) (a : bytes) : option bytes := match st !! key_of (SVal p a) with Some v => acc_of v | None => None end.
(** Lines 57-74 GetValaccountsFromStaker; the prefix store removes the two bytes of the prefix from
    the keys. A key shorter than 51 bytes would panic in Go; no address is shorter than 43 bytes. *)
Definition vals_from_staker (st : kvs sval) (a : bytes) : list bytes :=
  omap (fun k => get_val st (unbe (slice 43 51 (drop 2 k))) a) (visit ([2; 1]%N ++ a) st).
(** Lines 40-54 GetAllValaccountsOfPool: the values under the prefix. *)
Definition vals_of_pool (st : kvs sval) (p : N) : list bytes :=
  omap (fun k => match st !! k with Some v => acc_of v | None => None end) (visit ([2; 0]%N ++ be8 p) st).
(** x/stakers/keeper/msg_server_join_pool.go 59-74: whether the valaddress is refused; the second loop
    takes the stakers of the pool and looks their valaccounts up again. *)
Definition val_used (st : kvs sval) (p : N) (a v : bytes) : bool :=
  existsb (fun x => if decide (x = v) then true else false) (vals_from_staker st a) ||
  existsb (fun x => if decide (x = v) then true else false) (vals_of_pool st p).
(** x/delegation/keeper/msg_server_redelegate.go 30-32: whether the destination is refused as inactive. *)
Definition dest_inactive (st : kvs sval) (a : bytes) : bool := match vals_from_staker st a with [] => true | _ => false end.
(** x/stakers/keeper/getters_valaccount.go 78-89 GetPoolCount. *)
Definition pool_count (st : kvs sval) (a : bytes) : nat := length (visit ([2; 1]%N ++ a) st).
(** x/delegation/keeper/getters_delegator.go 100-112 GetStakersByDelegator. *)
Definition stakers_by_delegator {V} (st : kvs V) (d : bytes) : list bytes := map (fun k => slice 43 86 (drop 2 k)) (visit ([1; 1]%N ++ d) st).
(** x/delegation/keeper/getters_redelegation.go 26-38 GetRedelegationCooldownEntries and 47-64 of all delegators. *)
Definition cooldowns {V} (st : kvs V) (d : bytes) : list N := map (fun k => unbe (take 8 (drop (1 + length d) k))) (visit ([7]%N ++ d) st).
Definition all_cooldowns {V} (st : kvs V) : list (bytes * N) := map (fun k => (slice 0 43 (drop 1 k), unbe (slice 43 51 (drop 1 k)))) (visit [7]%N st).
(** x/delegation/keeper/getters_delegation_slash.go 82-97 GetAllDelegationSlashesBetween: the periods found. *)
Definition slashes_between {V} (st : kvs V) (s : bytes) (lo hi : N) : list N :=
  map (fun k => unbe (drop (1 + length s) k)) (visit_range ([4]%N ++ s ++ be8 lo) ([4]%N ++ s ++ be8 ((hi + 1) mod 18446744073709551616)) st).
(** x/delegation/keeper/getters_index_stakers.go 76-92 SetStakerIndex, RemoveStakerIndex and 96-102 (the order of
    GetPaginatedStakersByDelegation). *)
Definition MAXU : N := 18446744073709551615.
Definition set_index {V} (st : kvs V) (amount : N) (s : bytes) (v : V) : kvs V := <[key_of (MStaker (MAXU - amount) s) := v]> st.
Definition del_index {V} (st : kvs V) (amount : N) (s : bytes) : kvs V := delete (key_of (MStaker (MAXU - amount) s)) st.
Definition stakers_by_delegation {V} (st : kvs V) : list bytes := map (fun k => slice 8 51 (drop 1 k)) (visit [1]%N st).
