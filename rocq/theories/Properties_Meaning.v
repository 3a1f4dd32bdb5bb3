(** * What single events say: the property C76 (statements; the proofs are in EventQueue.v,
    EventMeaning.v, EventVotes.v, EventFacts.v and EventContents.v).

    C73 to C75 are about what a reader knows who has read all events. Here: what the fields of one
    event say about the state before and after the step that publishes it. *)
From Verif Require Import Base BaseFacts Delegation Stakers Funders Team RoundRobin Pool Bundles Chain ChainLift ChainExamples PoolExamples
  VoteClaims TallyClaims Events EventFollow EventCommission EventQueue EventMeaning EventVotes EventFacts EventContents EventExamples MeaningExamples.

(** Who reads the starts and the ends of undelegations knows the queue: the open requests in the
    order in which they are paid, each answered by one payout of at most the amount. *)
Theorem C76_unbondings : forall g, genesis g -> forall ops, cops_ok (gstart g) ops ->
  let v := fold_left see_unbond (elog (gstart g) ops) ([], true) in
  snd v = true /\ map asked (fst v) = map (fun e => (u_delegator e, u_staker e, u_amount e)) (open_at (crun (gstart g) ops)).
Proof. exact follow_unbondings. Qed.
(** The date of the event is when it is paid, as long as the time of unbonding is not changed. *)
Theorem C76_dates_partial : forall g, genesis g -> forall ops, cops_ok (gstart g) ops ->
  (forall s p, CParamsD s p ∈ ops -> p_unbonding p = p_unbonding (g0_dp g)) ->
  map date_of (fst (fold_left see_unbond (elog (gstart g) ops) ([], true))) = map (fun e => u64_add (u_time e) (p_unbonding (g0_dp g))) (open_at (crun (gstart g) ops)).
Proof. exact follow_dates. Qed.
(** Otherwise it is not: the date has passed and nothing is paid, or it is paid before the date. *)
Theorem C76_dates_refuted : exists g ops ops' d s a t, genesis g /\ cops_ok (gstart g) ops /\ cops_ok (gstart g) ops' /\
  EvStartUndelegation d s a t ∈ elog (gstart g) ops /\ t < c_time (crun (gstart g) ops) /\ map (fun e => (u_delegator e, u_staker e, u_amount e)) (open_at (crun (gstart g) ops)) = [(d, s, a)] /\
  EvStartUndelegation d s a t ∈ elog (gstart g) ops' /\ c_time (crun (gstart g) ops') < t /\ EvUndelegate d s a ∈ elog (gstart g) ops'.
Proof. exact dates_refute. Qed.

(** The event of a judged bundle: its status follows from its own counts, the uploader is the one
    of the bundle, the next uploader the stored one. A skip names the number of finalized bundles
    and the new uploader. Whoever is slashed has the reason of the event: the points of an event
    of the same step have reached the maximum, or they were on the losing side of the votes. *)
Theorem C76_says : forall g, genesis g -> forall ops o, cops_ok (gstart g) ops -> let c := crun (gstart g) ops in
  forall x, x ∈ events c o -> says c (cstep c o) (events c o) x.
Proof. exact say_events. Qed.
(** The counts are the powers of the members who voted; in the turns at the end of a block a
    power may be less, if the staker has been slashed in the turn of another pool before. *)
Theorem C76_votes : forall g, genesis g -> forall ops o e, cops_ok (gstart g) ops -> let c := crun (gstart g) ops in
  EvFinalized e ∈ events c o -> ef_status e <> Stopped -> pool_power c (ef_pool e) < two64 ->
  exists w, (forall s, 0 <= w s <= power c s) /\ (o <> CEnd -> forall s, w s = power c s) /\ tells_votes c w e.
Proof. exact votes_events. Qed.
(** The lists of the pools an upgrade is planned for or cancelled, what a clawback takes away, who
    gets the role, the staker and the funder who are created, the amounts per bundle, who skipped. *)
Theorem C76_contents : forall g, genesis g -> forall ops o, cops_ok (gstart g) ops -> let c := crun (gstart g) ops in
  forall x, x ∈ events c o -> reports c (cstep c o) (events c o) x.
Proof. exact tell_events. Qed.
(** No event is missing: for a skip, for a new funder, for a pool that runs out of funds. *)
Theorem C76_skipped : forall g, genesis g -> forall ops p s v from, cops_ok (gstart g) ops -> let c := crun (gstart g) ops in
  is_Some (cmsg c (CSkip p s v from)) -> exists i n, EvSkipped p i s n ∈ events c (CSkip p s v from).
Proof. exact (fun g _ => skip_events g). Qed.
Theorem C76_funders : forall g, genesis g -> forall ops o a, cops_ok (gstart g) ops -> let c := crun (gstart g) ops in
  EvCreateFunder a ∈ events c o <-> a ∉ fs_funders (c_f c) /\ a ∈ fs_funders (c_f (cstep c o)).
Proof. exact funder_events. Qed.
Theorem C76_out_of_funds : forall g, genesis g -> forall ops o p, cops_ok (gstart g) ops -> let c := crun (gstart g) ops in
  EvOutOfFunds p ∈ events c o <-> payers c p <> [] /\ payers (cstep c o) p = [] /\ forall a x, o <> CDefund a p x.
Proof. exact out_of_funds. Qed.

(** ** Where an event says something else than it seems to *)
(** The last funder takes the rest back: the pool is out of funds, without the event. *)
Theorem C76_rest_refuted : exists g ops o p, genesis g /\ cops_ok (gstart g) ops /\ let c := crun (gstart g) ops in
  payers c p <> [] /\ payers (cstep c o) p = [] /\ EvOutOfFunds p ∉ events c o.
Proof. exact rest_refutes. Qed.
(** A bundle is invalid: its event has no next uploader, though there is one. *)
Theorem C76_next_refuted : exists g ops o e, genesis g /\ cops_ok (gstart g) ops /\ let c := crun (gstart g) ops in
  EvFinalized e ∈ events c o /\ ef_status e = Judged VInvalid /\ ef_next e = 0%N /\ next_of c (ef_pool e) = 1%N /\ next_of (cstep c o) (ef_pool e) = 1%N.
Proof. exact next_refutes. Qed.
(** The event of a planned upgrade has the time that was asked for, not the one of the plan. *)
Theorem C76_plan_refuted : exists g ops o r v b t d l p pl, genesis g /\ cops_ok (gstart g) ops /\ let c := crun (gstart g) ops in
  EvScheduled r v b t d l ∈ events c o /\ p ∈ l /\ get_pool (cstep c o) p = Some pl /\ pn_at (pl_plan pl) <> t.
Proof. exact plan_refutes. Qed.
(** The event of a funding has an amount per bundle that is not kept. *)
Theorem C76_fund_refuted : exists g ops o p a x y d n f, genesis g /\ cops_ok (gstart g) ops /\ let c := crun (gstart g) ops in
  EvFund p a x y ∈ events c o /\ y !! d = Some n /\ 0 < n /\ fs_fundings (c_f (cstep c o)) !! (a, p) = Some f /\ amt (fd_apb f) d = 0.
Proof. exact fund_refutes. Qed.

(** ** Cases that meet the hypotheses *)
(** 1 and 2 have voted for the first bundle, 3 against it; 3 is slashed, 2 is next. *)
Example C76_case_votes : counts (events (crun g0 upto) again) = [(2000, 1000, 0, 3000, 1%N, 2%N)] /\ slashes_in (events (crun g0 upto) again) = [(0%N, 3%N, 100, SlashVote)] /\
  (bp_valid (get_prop (crun g0 upto) 0), bp_invalid (get_prop (crun g0 upto) 0), map (power (crun g0 upto)) [1; 2; 3]%N) = ([1%N; 2%N], [3%N], [1000; 1000; 1000]) /\
  next_of (crun g0 (upto ++ [again])) 0 = 2%N /\ kinds (events (crun g0 upto) skipped) = [EvSkipped 0 1 1 2].
Proof. exact votes_case. Qed.
(** 2 and 3 have voted against it; the uploader is slashed. *)
Example C76_case_rejected : counts (events (crun g0 rejected) again) = [(1000, 2000, 0, 3000, 1%N, 0%N)] /\ slashes_in (events (crun g0 rejected) again) = [(0%N, 1%N, 200, SlashUpload)].
Proof. exact rejected_case. Qed.
(** Two undelegations wait; at 131 the first one has been paid. *)
Example C76_case_waiting : fst (fold_left see_unbond (elog g0 waiting) ([], true)) = [(1%N, 1%N, 20, 130); (2%N, 2%N, 50, 140)] /\
  fold_left see_unbond (elog g0 (waiting ++ [CBegin 131 0])) ([], true) = ([(2%N, 2%N, 50, 140)], true) /\
  open_at (crun g0 (waiting ++ [CBegin 131 0])) = [mkU 2 2 50 40].
Proof. exact waiting_case. Qed.
(** The funder of the pool can pay for one bundle. *)
Example C76_case_poor : kinds (events (crun (gstart gen1) poor) again) = [EvOutOfFunds 0] /\ payers (crun (gstart gen1) poor) 0 = [4%N] /\ payers (crun (gstart gen1) (poor ++ [again])) 0 = [].
Proof. exact poor_case. Qed.
(** An upgrade, a clawback in the middle of the vesting of 1000, the role of the uploader, a funder. *)
Example C76_case_plain : events (crun g0 setup) too_late = [EvScheduled 7 2 3 5 10 [0%N]] /\ events (crun g0 story) half_way = [EvTeamClawback BCP 0 (5 + VESTING / 2) 500] /\
  events (crun g0 (take 12 setup)) (CClaimRole 0 1 11) = [EvClaimedRole 0 0 1] /\ events (crun g0 setup) (CCreateFunder 5) = [EvCreateFunder 5].
Proof. exact plain_case. Qed.

Print Assumptions C76_unbondings.
Print Assumptions C76_dates_partial.
Print Assumptions C76_dates_refuted.
Print Assumptions C76_says.
Print Assumptions C76_votes.
Print Assumptions C76_contents.
Print Assumptions C76_skipped.
Print Assumptions C76_funders.
Print Assumptions C76_out_of_funds.
Print Assumptions C76_rest_refuted.
Print Assumptions C76_next_refuted.
Print Assumptions C76_plan_refuted.
Print Assumptions C76_fund_refuted.
