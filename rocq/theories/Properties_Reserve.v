(** * Property C02 for histories of any length: the delegation module with a reserve.
    [rounding st ops s x]: closed form of the rounding of coin [x] at staker [s], in half units of 10^-18
    base units: (payouts in [x]) x (largest total) + 2 x (operations), with further terms when [s] was slashed;
    [units r = r / (2 * 10^18)] is the same in base units, rounded down. [reserve bk p t ops k]: the module
    account held, when the history started, the sum of [units (rounding + k)] over finitely many stakers, and
    all other stakers are below one unit. Cases: CushionExamples.v. *)
From Verif Require Import Base BaseFacts Delegation F1Spec DelegationInv DelegationBank DelegationQueue DelegationProps DelegationRewards
  DelegationClaims DelegationClaims2 DelegationCushion CushionExamples.

(** C02 without a bound on the rounding of a staker: the books balance to the unit
    ([donations]: what others put into the account) and the chain does not halt.
    Missing for the full statement: the reserve, without which it is false (C02_solvent_refuted; the same
    history with one unit in reserve meets the hypotheses here). Case: h6_ok, h6_paid, h6_halts. *)
Theorem C02_reserve_partial : forall bk p t ops,
  dparams_valid p = true -> ops_ok (dinit bk p t) ops ->
  (forall s, slack ops s < ONE) -> reserve bk p t ops 0 ->
  let st := drun (dinit bk p t) ops in
  let unpaid s x := received_total (dinit bk p t) ops s x - withdrawn_total (dinit bk p t) ops s x in
  ds_halt st = false /\
  (forall s x, - units (rounding (dinit bk p t) ops s x) <= unpaid s x) /\
  (forall X x, (forall s, s ∉ X -> delegation_amount st s = 0 /\ unpaid s x = 0) ->
     bal (ds_bank st) MDelegation x
     = bal bk MDelegation x + donations (dinit bk p t) ops x
       + sum_over X (fun s => (if (x =? KYVE)%N then delegation_amount st s else 0) + unpaid s x)).
Proof. exact claim_reserve. Qed.
Print Assumptions C02_reserve_partial.

(** Every delegator can withdraw at the end of such a history. Cases: h6_ok, and h1_reserve with h1_slack_all and h1_delegators. *)
Theorem C02_withdraw_reserve_partial : forall bk p t ops s d,
  dparams_valid p = true -> ops_ok (dinit bk p t) ops ->
  (forall s, slack ops s < ONE) -> reserve bk p t ops 1 ->
  is_delegator (drun (dinit bk p t) ops) s d ->
  exists st', msg_withdraw (drun (dinit bk p t) ops) d s = Some st'.
Proof. intros bk p t ops s d Hp Hok. exact (claim_reserve_withdraw bk p t ops Hp Hok s d). Qed.
Print Assumptions C02_withdraw_reserve_partial.
