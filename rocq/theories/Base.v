(** * Base: integers, decimals, coins, ordered stores and the bank.

    These are the pieces of Go, cosmossdk.io/math v1.3.0 and the Cosmos SDK
    (v0.50) that the modelled keepers call.  Their sources are not in /repo
    (see go.mod), so this file states their documented behaviour; it is part
    of the trusted base (DESIGN.md, section 2). *)
From Coq Require Export ZArith Lia List Bool.
From Coq Require Export ZifyBool ZifyNat ZifyN.
From stdpp Require Export base numbers option list gmap countable sorting.

#[global] Open Scope Z_scope.

(** ** uint64 arithmetic *)

(** Go: wrap-around of uint64 (language spec). *)
Definition two64 : Z := 18446744073709551616.
Definition two63 : Z := 9223372036854775808.
Definition w64 (x : Z) : Z := x mod two64.
(** Go: [a + b] and [a - b] on uint64.  For [a], [b] in range, [u64_sub] is
    [w64 (a - b)]; the case distinction only avoids an upper bound on [a]
    where a counter is modelled without wrap-around on increments. *)
Definition u64_add (a b : Z) : Z := w64 (a + b).
Definition u64_sub (a b : Z) : Z := if b <=? a then a - b else w64 (a - b).
(** Go: conversion [int64(x)] of a uint64. *)
Definition i64 (x : Z) : Z := if x <? two63 then x else x - two64.

(** util/logic_math.go: MinUInt64. *)
Definition min_u64 (a b : Z) : Z := if a <? b then a else b.

(** ** LegacyDec: fixed point numbers with 18 decimals, stored as integers *)

Definition ONE : Z := 1000000000000000000.

(** cosmossdk.io/math chopPrecisionAndRoundNonNegative: round half to even. *)
Definition chop_nonneg (x : Z) : Z :=
  let q := x / ONE in
  let r := x mod ONE in
  match 2 * r ?= ONE with
  | Lt => q
  | Gt => q + 1
  | Eq => if Z.even q then q else q + 1
  end.
Definition chop_round (x : Z) : Z :=
  if x <? 0 then - chop_nonneg (- x) else chop_nonneg x.

(** LegacyDec.Mul, MulTruncate, Quo, QuoInt64, MulInt64, TruncateInt,
    LegacyNewDec, RoundInt, Ceil. *)
Definition dec_mul (a b : Z) : Z := chop_round (a * b).
Definition dec_mul_trunc (a b : Z) : Z := (a * b) ÷ ONE.
Definition dec_quo (a b : Z) : Z := chop_round ((a * (ONE * ONE)) ÷ b).
Definition dec_quo_int (a i : Z) : Z := a ÷ i.
Definition dec_mul_int (a i : Z) : Z := a * i.
Definition dec_of_int (n : Z) : Z := n * ONE.
Definition trunc_int (d : Z) : Z := d ÷ ONE.
Definition round_int (d : Z) : Z := chop_round d.
Definition dec_ceil (d : Z) : Z :=
  let q := d ÷ ONE in
  let r := Z.rem d ONE in
  if r =? 0 then dec_of_int q
  else if r <? 0 then dec_of_int q else dec_of_int (q + 1).

(** ** Coins and DecCoins: finite maps denom -> amount without zero entries *)

Notation denom := N (only parsing).
Notation coins := (gmap N Z) (only parsing).

Definition nz (x : Z) : option Z := if x =? 0 then None else Some x.

(** Coins.AmountOf. *)
Definition amt (c : coins) (d : denom) : Z := default 0 (c !! d).

(** Pointwise combination that drops zero results, as NewCoins/Add/Sub do. *)
Definition cmerge (f : Z -> Z -> Z) (a b : coins) : coins :=
  merge (fun x y => match x, y with
                    | None, None => None
                    | _, _ => nz (f (default 0 x) (default 0 y))
                    end) a b.

(** Coins.Add / DecCoins.Add. *)
Definition cadd : coins -> coins -> coins := cmerge Z.add.
(** Coins.Sub / DecCoins.Sub without the panic; [cle b a] tells if it panics. *)
Definition csub : coins -> coins -> coins := cmerge Z.sub.
(** [b <= a] in every denom of [b] (Coins.SafeSub reports no negative). *)
Definition cle (b a : coins) : bool :=
  forallb (fun p => snd p <=? amt a (fst p)) (map_to_list b).
(** DecCoins.MulDec, DecCoins.QuoDec, truncation: per coin, dropping zeros. *)
Definition cmap (f : Z -> Z) (c : coins) : coins := omap (fun x => nz (f x)) c.
(** Coins.Min: pairwise minimum on the intersection. *)
Definition cmin : coins -> coins -> coins := cmerge Z.min.
(** sdk.NewCoins(sdk.NewCoin(d, x)). *)
Definition coin (d : denom) (x : Z) : coins :=
  match nz x with None => ∅ | Some v => {[ d := v ]} end.
(** Coins.IsZero / Empty for valid coins. *)
Definition cempty (c : coins) : bool := match map_to_list c with [] => true | _ => false end.

(** sdk.Coins invariant: only positive amounts. *)
Definition cpos (c : coins) : Prop := forall d x, c !! d = Some x -> 0 < x.
(** Coins.IsValid (the denoms of a map are distinct). *)
Definition cvalid (c : coins) : bool := forallb (fun p => 0 <? snd p) (map_to_list c).

(** ** Ordered stores: association lists sorted by key, as a KV iterator sees them *)

Section okv.
  Context {V : Type}.
  (** store.Set: insert or replace, keeping key order. *)
  Fixpoint kv_set (k : N) (v : V) (l : list (N * V)) : list (N * V) :=
    match l with
    | [] => [(k, v)]
    | (k', v') :: t =>
        if (k <? k')%N then (k, v) :: l
        else if (k =? k')%N then (k, v) :: t
        else (k', v') :: kv_set k v t
    end.
  (** store.Get. *)
  Fixpoint kv_get (k : N) (l : list (N * V)) : option V :=
    match l with
    | [] => None
    | (k', v') :: t => if (k =? k')%N then Some v' else kv_get k t
    end.
  (** store.Delete. *)
  Definition kv_del (k : N) (l : list (N * V)) : list (N * V) :=
    List.filter (fun p => negb (fst p =? k)%N) l.
End okv.

(** ** Bank *)

(** Accounts: a user, a module account, the account of a pool, the
    community pool ("treasury", x/distribution).  *)
Inductive acct :=
  | User (a : N)
  | MDelegation | MStakers | MFunders | MBundles | MTeam | MPool
  | MFeeCollector | MGov
  | PoolAcc (id : N)
  | Treasury.

#[global] Instance acct_eq_dec : EqDecision acct.
Proof. solve_decision. Defined.

#[global] Instance acct_countable : Countable acct.
Proof.
  refine (inj_countable'
    (fun a => match a with
      | User n => (0%N, n) | MDelegation => (1%N, 0%N) | MStakers => (2%N, 0%N)
      | MFunders => (3%N, 0%N) | MBundles => (4%N, 0%N) | MTeam => (5%N, 0%N)
      | MPool => (6%N, 0%N) | MFeeCollector => (7%N, 0%N) | MGov => (8%N, 0%N)
      | PoolAcc n => (9%N, n) | Treasury => (10%N, 0%N) end)
    (fun p => match p with
      | (0%N, n) => User n | (1%N, _) => MDelegation | (2%N, _) => MStakers
      | (3%N, _) => MFunders | (4%N, _) => MBundles | (5%N, _) => MTeam
      | (6%N, _) => MPool | (7%N, _) => MFeeCollector | (8%N, _) => MGov
      | (9%N, n) => PoolAcc n | _ => Treasury end) _).
  by intros [].
Defined.

Notation bank := (gmap acct (gmap N Z)) (only parsing).

Definition bal_of (b : bank) (a : acct) : coins := default ∅ (b !! a).
Definition bal (b : bank) (a : acct) (d : denom) : Z := amt (bal_of b a) d.

(** bankKeeper.SendCoins*: fails when the coins are not valid or a balance is insufficient. *)
Definition send (b : bank) (from to : acct) (c : coins) : option bank :=
  if cvalid c && cle c (bal_of b from) then
    let b1 := <[from := csub (bal_of b from) c]> b in
    Some (<[to := cadd (bal_of b1 to) c]> b1)
  else None.

(** bankKeeper.MintCoins / BurnCoins on one account. *)
Definition mint (b : bank) (to : acct) (c : coins) : bank :=
  <[to := cadd (bal_of b to) c]> b.
Definition burn (b : bank) (from : acct) (c : coins) : option bank :=
  if cle c (bal_of b from) then Some (<[from := csub (bal_of b from) c]> b) else None.

(** The bond denom (globalTypes.Denom, x/global/types/types.go). *)
Definition KYVE : denom := 1%N.

(** Sum of a function over a finite map. *)
Definition msum {K} `{Countable K} {A} (f : K -> A -> Z) (m : gmap K A) : Z :=
  map_fold (fun k a acc => f k a + acc) 0 m.
