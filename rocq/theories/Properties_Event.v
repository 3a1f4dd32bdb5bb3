(** * What the events tell: the property C73 (statements; the proofs are in the Event*.v files).

    [elog (gstart g) ops] is the list of all events that a chain which starts at the genesis [g]
    has published in the history [ops]. A follower is a function that reads them one by one and
    sees nothing else: [see_seat] keeps who is in which pool with which node and how many points,
    [see_stake] what is delegated to every staker, [see_commission] and [see_reward] the
    commissions and the rewards that can be claimed, [see_bundle] the pending bundles with their
    votes, the finalized bundles and the progress of every pool, [see_config] the settings of the
    pools, [see_team] the accounts of the team, [see_fund] what the funders of every pool have
    left, [tells] what has changed in the account of a user. [seat_of], [power], [commission_at], [reward_at], [pending_of], [archived_of],
    [progress_of], [config_of], [account_of], [authority_of] and [pool_funds] are what is stored. *)
From Verif Require Import Base BaseFacts Delegation Stakers Funders Team RoundRobin Pool Bundles Chain ChainLift ChainExamples PoolExamples
  Events EventFollow EventStakers EventTally EventCommission EventStake EventBundles EventAdmin EventFunds EventMoney EventExamples.

Theorem C73_memberships : forall g, genesis g -> forall ops, cops_ok (gstart g) ops ->
  forall p s, fold_left see_seat (elog (gstart g) ops) (fun _ _ => None) p s = seat_of (crun (gstart g) ops) p s.
Proof. exact follow_seats. Qed.
(** Amounts of delegations are uint64; the sums are compared up to 2^64. *)
Theorem C73_stake : forall g, genesis g -> forall ops, cops_ok (gstart g) ops ->
  forall s, w64 (fold_left see_stake (elog (gstart g) ops) (fun _ => 0) s) = w64 (power (crun (gstart g) ops) s).
Proof. exact follow_stake. Qed.
Theorem C73_commissions : forall g, genesis g -> forall ops, cops_ok (gstart g) ops ->
  forall s, fold_left see_commission (elog (gstart g) ops) (fun _ => None) s = commission_at (crun (gstart g) ops) s.
Proof. exact follow_commissions. Qed.
Theorem C73_rewards : forall g, genesis g -> forall ops, cops_ok (gstart g) ops ->
  forall s d, fold_left see_reward (elog (gstart g) ops) (fun _ _ => 0) s d = reward_at (crun (gstart g) ops) s d.
Proof. exact follow_rewards. Qed.
Theorem C73_bundles : forall g, genesis g -> forall ops, cops_ok (gstart g) ops ->
  let v := fold_left see_bundle (elog (gstart g) ops) bview0 in let c := crun (gstart g) ops in
  (forall p, bv_pending v p = pending_of c p) /\ (forall p i, bv_archive v p i = archived_of c p i) /\ (forall p, bv_progress v p = progress_of c p).
Proof. exact follow_bundles. Qed.
Theorem C73_pools : forall g, genesis g -> forall ops, cops_ok (gstart g) ops ->
  forall p, fold_left see_config (elog (gstart g) ops) (fun _ => None) p = config_of (crun (gstart g) ops) p.
Proof. exact follow_configs. Qed.
Theorem C73_team : forall g, genesis g -> forall ops, cops_ok (gstart g) ops ->
  let v := fold_left see_team (elog (gstart g) ops) tview0 in let c := crun (gstart g) ops in
  (forall i, tv_accounts v i = account_of c i) /\ tv_authority v = authority_of c.
Proof. exact follow_team. Qed.
(** The full statement, equality for all histories, is refuted below: the event of a funder who is
    displaced has no amount. There is never more left than the events tell, and exactly as much
    unless an event of a defunding without amounts has been published. *)
Theorem C73_funds_partial : forall g, genesis g -> forall ops, cops_ok (gstart g) ops ->
  let l := elog (gstart g) ops in let c := crun (gstart g) ops in forall p d,
  pool_funds c p d <= fold_left see_fund l (fun _ _ => 0) p d /\
  (existsb nothing_named l = false -> fold_left see_fund l (fun _ _ => 0) p d = pool_funds c p d).
Proof. exact follow_funds. Qed.

(** The balance of every account of a user: what it was at the genesis, what modules outside the
    model have changed ([outside]), and what the events tell ([told]: delegations, payouts of
    undelegations, rewards, commission, money for valaddresses, fundings, defundings, payouts of
    the team). The full statement, equality for all histories, is refuted below for the same reason.
    If x/delegation ever lacked funds (its PanicHalt, C05), the event of an undelegation is
    published without a payout. *)
Theorem C73_balances_partial : forall g, genesis g -> forall ops, cops_ok (gstart g) ops ->
  let l := elog (gstart g) ops in let c := crun (gstart g) ops in ds_halt (c_d c) = false ->
  forall u d, let known := bal (c_bank (gstart g)) (User u) d + outside (User u) d (gstart g) ops + tells (User u) d l in
  known <= bal (c_bank c) (User u) d /\ (existsb nothing_named l = false -> known = bal (c_bank c) (User u) d).
Proof. exact follow_user. Qed.

(** ** What they do not tell *)
Theorem C73_displaced_refuted : exists g ops p d, genesis g /\ cops_ok (gstart g) ops /\
  fold_left see_fund (elog (gstart g) ops) (fun _ _ => 0) p d <> pool_funds (crun (gstart g) ops) p d.
Proof. exact displaced_refutes. Qed.
Theorem C73_balances_refuted : exists g ops u d, genesis g /\ cops_ok (gstart g) ops /\ ds_halt (c_d (crun (gstart g) ops)) = false /\
  bal (c_bank (gstart g)) (User u) d + outside (User u) d (gstart g) ops + tells (User u) d (elog (gstart g) ops) <> bal (c_bank (crun (gstart g) ops)) (User u) d.
Proof. exact displaced_balance. Qed.
(** Two chains with the same messages, the same number of blocks and the same events: in one of
    them nobody is the next uploader, in the other one staker 1 is. *)
Theorem C73_role_refuted : exists g ops ops' p, genesis g /\ cops_ok (gstart g) ops /\ cops_ok (gstart g) ops' /\ messages ops = messages ops' /\
  elog (gstart g) ops = elog (gstart g) ops' /\ nextu (crun (gstart g) ops) p = 0%N /\ nextu (crun (gstart g) ops') p = 1%N.
Proof. exact role_refutes. Qed.
(** The same with a runtime upgrade that is applied in one of them. *)
Theorem C73_upgrade_refuted : exists g ops ops' p, genesis g /\ cops_ok (gstart g) ops /\ cops_ok (gstart g) ops' /\ messages ops = messages ops' /\
  elog (gstart g) ops = elog (gstart g) ops' /\ version (crun (gstart g) ops) p = Some 1%N /\ version (crun (gstart g) ops') p = Some 2%N.
Proof. exact upgrade_refutes. Qed.
(** The event of an upgrade for a time that is over says 50, the plan that is stored says 100. *)
Theorem C73_scheduled_refuted : exists g ops o r v b t d p, genesis g /\ cops_ok (gstart g) ops /\ let c := crun (gstart g) ops in
  events c o = [EvScheduled r v b t d [p]] /\ (pn_at ∘ pl_plan) <$> get_pool (cstep c o) p = Some 100 /\ t = 50.
Proof. exact past_refutes. Qed.
(** Somebody who is not in the pool leaves it. *)
Theorem C73_leave_refuted : exists g ops o p s, genesis g /\ cops_ok (gstart g) ops /\ let c := crun (gstart g) ops in
  EvLeave p s ∈ events c o /\ seat_of c p s = None.
Proof. exact gone_refutes. Qed.

(** ** Concrete cases *)
(** What the followers say about [story] (and about [h1], its first part): two bundles are
    finalized, one is pending, staker 3 has been slashed and removed, 4 has taken 100 back, the
    pool has been changed, disabled and enabled, the team has an account. *)
Example C73_case : cops_ok g0 story /\ genesis gen0 /\ gstart gen0 = g0. Proof. exact (conj story_ok (conj gen0_genesis gen0_start)). Qed.
Example C73_case_stakers : map s_stake [1; 2; 3; 4]%N = [1030; 1200; 900; 0] /\ map (s_seat 0%N) [1; 2; 3; 4]%N = [Some (11%N, 0); Some (12%N, 0); None; None] /\
  map s_com [1; 2; 3; 4]%N = [Some (ONE / 10); Some (ONE / 4); Some (ONE / 10); None] /\ map (fun s => s_rew s KYVE) [1; 2; 3]%N = [28; 0; 0].
Proof. exact story_stakers. Qed.
Example C73_case_bundles : bv_pending s_bun 0%N = Some (mkPd 53 2 10 50 5 80 81 253 153 1 1 [2%N] [] []) /\
  map (bv_archive s_bun 0%N) [0; 1; 2]%N = [Some (mkAr 51 1 0 20 60 61 251 151 200 1 1 2000 3000); Some (mkAr 52 1 20 50 70 71 252 152 300 1 1 2000 2000); None] /\
  bv_progress s_bun 0%N = Some (50, 2%N, 71%N, 252%N).
Proof. exact story_bundles. Qed.
Example C73_case_admin : s_cfg 0%N = Some (mkCf 7 9 77 1000 100 100 1 1 false) /\ s_cfg 1%N = None /\ tv_accounts s_team 0%nat = Some (mkAcc 1000 5 40 0 0) /\
  s_fund 0%N KYVE = 700 /\ existsb nothing_named slog = false.
Proof. exact story_admin. Qed.
Example C73_case_balances : ds_halt (c_d (crun g0 story)) = false /\
  map (fun u => tells (User u) KYVE slog) [1; 2; 3; 4; 11]%N = [-1097; -1100; -1100; -1130; 100] /\
  map (fun u => bal (c_bank (crun g0 story)) (User u) KYVE - bal (c_bank g0) (User u) KYVE) [1; 2; 3; 4; 11]%N = [-1097; -1100; -1100; -1130; 100].
Proof. exact story_balances. Qed.

Print Assumptions C73_memberships.
Print Assumptions C73_stake.
Print Assumptions C73_commissions.
Print Assumptions C73_rewards.
Print Assumptions C73_bundles.
Print Assumptions C73_pools.
Print Assumptions C73_team.
Print Assumptions C73_funds_partial.
Print Assumptions C73_balances_partial.
Print Assumptions C73_balances_refuted.
Print Assumptions C73_displaced_refuted.
Print Assumptions C73_role_refuted.
Print Assumptions C73_upgrade_refuted.
Print Assumptions C73_scheduled_refuted.
Print Assumptions C73_leave_refuted.
