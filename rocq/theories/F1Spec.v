(** * Independent specification of the delegation ledger of one staker.

    There are no periods, indices, entries or garbage collection here: every
    delegator has its own record, and every event touches every record.
    - [l_bal]: exact balance (18 decimals),
    - [l_pend]: reward per delegated token accrued since the balance last changed,
    - [l_acc]: reward (18 decimals) accrued before that. *)
From Verif Require Import Base.

Record ldel := mkL { l_bal : Z; l_pend : coins; l_acc : coins }.

Record ledger := mkLedger {
  lg_rewards : coins;         (* rewards received and not yet distributed *)
  lg_total : Z;               (* total delegation *)
  lg_dels : gmap N ldel
}.

Definition lg_empty : ledger := mkLedger ∅ 0 ∅.

(** Round half to even of reward-per-token times balance, per coin. *)
Definition times (c : coins) (b : Z) : coins := cmap (fun v => dec_mul v b) c.

(** Reward per token of the undistributed rewards. *)
Definition per_token (l : ledger) : coins :=
  if lg_total l =? 0 then ∅
  else cmap (fun r => dec_quo (dec_of_int r) (dec_of_int (lg_total l))) (lg_rewards l).

(** Credit the undistributed rewards to everybody. *)
Definition lg_distribute (l : ledger) : ledger :=
  let v := per_token l in
  mkLedger ∅ (lg_total l)
    ((fun x => mkL (l_bal x) (cadd (l_pend x) v) (l_acc x)) <$> lg_dels l).

(** A new delegator. *)
Definition lg_join (l : ledger) (d : N) (a : Z) : ledger :=
  if a =? 0 then l
  else let l := lg_distribute l in
       mkLedger (lg_rewards l) (lg_total l + a)
         (<[d := mkL (dec_of_int a) ∅ ∅]> (lg_dels l)).

(** Whole tokens held by a delegator. *)
Definition lg_balance (l : ledger) (d : N) : Z :=
  match lg_dels l !! d with Some x => trunc_int (l_bal x) | None => 0 end.

(** A delegator leaves with all whole tokens. *)
Definition lg_leave (l : ledger) (d : N) : ledger * Z :=
  match lg_dels l !! d with
  | None => (l, 0)
  | Some x =>
      let b := trunc_int (l_bal x) in
      let l := lg_distribute l in
      (mkLedger (lg_rewards l) (u64_sub (lg_total l) b) (delete d (lg_dels l)), b)
  end.

(** What a delegator is owed: everything accrued, including the undistributed
    rewards, rounded once. *)
Definition lg_owed (l : ledger) (d : N) : coins :=
  match lg_dels l !! d with
  | None => ∅
  | Some x => cmap trunc_int
                (cadd (l_acc x) (times (cadd (l_pend x) (per_token l)) (l_bal x)))
  end.

(** Pay a delegator. *)
Definition lg_withdraw (l : ledger) (d : N) : ledger * coins :=
  match lg_dels l !! d with
  | None => (l, ∅)
  | Some x =>
      let pay := lg_owed l d in
      let l := lg_distribute l in
      (mkLedger (lg_rewards l) (lg_total l)
         (<[d := mkL (dec_of_int (trunc_int (l_bal x))) ∅ ∅]> (lg_dels l)), pay)
  end.

(** Slash everybody by the fraction [fr]. *)
Definition lg_slash (l : ledger) (fr : Z) : ledger * Z :=
  let l := lg_distribute l in
  let s := lg_total l * fr / ONE in
  (mkLedger (lg_rewards l) (u64_sub (lg_total l) s)
     ((fun x => mkL (l_bal x - l_bal x * fr / ONE) ∅
                    (cadd (l_acc x) (times (l_pend x) (l_bal x)))) <$> lg_dels l), s).

Definition lg_reward (l : ledger) (c : coins) : ledger :=
  mkLedger (cadd (lg_rewards l) c) (lg_total l) (lg_dels l).
