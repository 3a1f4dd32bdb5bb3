(** * The events add up to the books: the property C75 (statements; the proofs are in EventMoney.v).

    [told a d e] is what the event [e] says about the account [a] in the denom [d]: a delegation
    takes its amount from the delegator and gives it to the module of the delegations, a finalized
    bundle moves its funders payout, its inflation payout and the parts of its reward, a slash
    moves its amount to the treasury, and so on. [tells] is the sum over a list of events. *)
From Verif Require Import Base BaseFacts Delegation Stakers Funders Team RoundRobin Pool Bundles Chain ChainLift ChainExamples PoolExamples
  Events EventFunds EventMoney EventExamples.

(** Over all histories the balance of every user and of the modules of the delegations, stakers,
    funders, pools and bundles is what it was at the genesis, what modules outside the model have
    changed ([outside]) and what the events tell. Missing: the event of a displaced funder has no
    amounts ([nothing_named]); then the module of the funders has less and a user has more than
    the events tell. If x/delegation ever lacked funds (its PanicHalt, C05), the event of an
    undelegation is published without a payout. *)
Theorem C75_accounts_partial : forall g, genesis g -> forall ops, cops_ok (gstart g) ops ->
  let l := elog (gstart g) ops in let c := crun (gstart g) ops in ds_halt (c_d c) = false ->
  forall a d, told_always a = true -> let known := bal (c_bank (gstart g)) a d + outside a d (gstart g) ops + tells a d l in
  (a <> MFunders -> known <= bal (c_bank c) a d) /\ (match a with User _ => False | _ => True end -> bal (c_bank c) a d <= known) /\
  (existsb nothing_named l = false -> known = bal (c_bank c) a d).
Proof. exact follow_balances. Qed.
(** One step of any history, also for the treasury, the team and the inflation of the pools.
    Missing ([untold]): the fees and what the block mints and splits, what is left of the
    inflation of a pool that is disabled, and modules outside the model. *)
Theorem C75_step_partial : forall g, genesis g -> forall ops, cops_ok (gstart g) ops -> forall o, let c := crun (gstart g) ops in
  ds_halt (c_d (cstep c o)) = false -> forall a d, untold o a = false -> existsb nothing_named (events c o) = false ->
  bal (c_bank (cstep c o)) a d = bal (c_bank c) a d + tells a d (events c o).
Proof. exact follow_step. Qed.
(** A pool is disabled and the treasury gets its 200 of inflation; no event has an amount. *)
Theorem C75_disabled_refuted : exists g ops o a d, genesis g /\ cops_ok (gstart g) ops /\ let c := crun (gstart g) ops in
  events c o = [EvLeave 0 1; EvLeave 0 2; EvDisabled 0] /\ bal (c_bank (cstep c o)) a d = bal (c_bank c) a d + 200 /\ tells a d (events c o) = 0.
Proof. exact off_refutes. Qed.

(** ** Cases that meet the hypotheses *)
(** [books]: users 1 and 4, the delegations, the stakers, the funders and the pools. *)
Example C75_case_books : map (fun a => tells a KYVE slog) books = [-1097; -1130; 3328; 28; 700; 0] /\
  map (fun a => bal (c_bank (crun g0 story)) a KYVE - bal (c_bank g0) a KYVE) books = [-1097; -1130; 3328; 28; 700; 0].
Proof. exact story_books. Qed.
(** [tills]: the funders, the inflation of pool 0, the pools, the stakers, the delegations and the
    treasury, at the submission that finalizes a bundle and slashes who has voted against it. *)
Example C75_case_step : cops_ok (gstart gen0) paying /\ let c := crun (gstart gen0) paying in map (untold pay_msg) tills = repeat false 6 /\
  ds_halt (c_d (cstep c pay_msg)) = false /\ existsb nothing_named (events c pay_msg) = false /\
  map (fun a => tells a KYVE (events c pay_msg)) tills = [-100; -13; 0; 15; -3; 101] /\
  map (fun a => bal (c_bank (cstep c pay_msg)) a KYVE - bal (c_bank c) a KYVE) tills = [-100; -13; 0; 15; -3; 101].
Proof. exact paying_case. Qed.

Print Assumptions C75_accounts_partial.
Print Assumptions C75_step_partial.
Print Assumptions C75_disabled_refuted.
