(** * The queries of x/team: the property C69 (statements; proofs are in the TeamQuery* files).

    [treach b t ops], [treach44 b t ops] and [tend b t ops] are as in Properties_Team; [spec_dur],
    [spec_vested], [spec_max], [spec_unlock] and [spec_unlocked] say what a plan promises, without
    decimals and wrap-around (TeamQueryClaims). *)
From Verif Require Import Base BaseFacts Team TeamInv TeamRun TeamClaims TeamQuery TeamQueryClaims TeamQueryExamples.

(** The answer about any account for any time, for a commencement more than three years below 2^63
    seconds: the plan, the amounts, how they add up, and what the dates of the plan mean. *)
Theorem C69_status_partial : forall b t ops i q r, treach b t ops -> 0 <= q < two64 ->
  status_by_time (tend b t ops) i q = Some r ->
  exists a, ts_accounts (tend b t ops) !! i = Some a /\ an_date r = ts_time (tend b t ops) /\
    (va_start a + VESTING < two63 ->
      let p := an_plan r in let s := an_status r in
      (vp_commencement p = va_start a /\ vp_vest_start p = va_start a + CLIFF /\ vp_vest_end p = va_start a + VESTING /\
       vp_unlock_start p = spec_unlock a /\ vp_unlock_end p = spec_unlock a + UNLOCK /\
       vp_clawback p = va_clawback a /\ vp_max p = spec_max a /\ vp_max p + vp_clawed p = va_total a) /\
      (vs_vested s = spec_vested a q /\ vs_unlocked s = spec_unlocked a q /\
       vs_claimable s = Z.max 0 (vs_unlocked s - va_claimed a) /\ vs_claimed s = va_claimed a /\
       vs_unlocked s + vs_locked s = vs_vested s /\ vs_vested s + vs_unvested s = vp_max p /\
       0 <= vs_unlocked s /\ 0 <= vs_locked s /\ 0 <= vs_unvested s) /\
      ((q < vp_vest_start p -> vs_vested s = 0) /\ (vp_vest_end p <= q -> vs_unvested s = 0) /\
       (q <= vp_unlock_start p -> vs_unlocked s = 0) /\ (vp_unlock_end p <= q -> vs_unlocked s = vp_max p))).
Proof. exact shown_status. Qed.
(** The answer without a time is the one for the current block; everything unlocked is then claimed
    or claimable. *)
Theorem C69_now : forall b t ops i r, treach b t ops -> status_now (tend b t ops) i = Some r ->
  exists a, ts_accounts (tend b t ops) !! i = Some a /\
  status_by_time (tend b t ops) i (ts_time (tend b t ops)) = Some r /\
  vs_claimed (an_status r) = va_claimed a /\
  vs_claimed (an_status r) + vs_claimable (an_status r) = vs_unlocked (an_status r).
Proof. exact shown_now. Qed.
(** What is shown for a later time is what is shown then, whatever happens meanwhile except a claim or
    a clawback of this account. *)
Theorem C69_forecast : forall st ops i r, Forall (leaves i) ops ->
  let st' := trun st ops in
  status_by_time st i (ts_time st') = Some r ->
  exists r', status_now st' i = Some r' /\ an_plan r' = an_plan r /\
    vs_vested (an_status r') = vs_vested (an_status r) /\ vs_unlocked (an_status r') = vs_unlocked (an_status r) /\
    vs_claimable (an_status r') = vs_claimable (an_status r) /\ vs_locked (an_status r') = vs_locked (an_status r) /\
    vs_unvested (an_status r') = vs_unvested (an_status r) /\ vs_claimed (an_status r') = vs_claimed (an_status r).
Proof. exact forecast. Qed.
(** Within the cap: an authority can claim exactly up to the shown amounts. *)
Theorem C69_claim_partial : forall b t ops i r s x who, treach44 b t ops -> 0 <= x < two64 ->
  status_now (tend b t ops) i = Some r ->
  (exists st', msg_claim_unlocked (tend b t ops) s i x who = Some st') <->
  (s = FOUNDATION \/ s = BCP) /\ x <= vs_claimable (an_status r).
Proof. exact claim_shown. Qed.
Theorem C69_rewards_partial : forall b t ops i r s x who, treach44 b t ops -> 0 <= x < two64 ->
  status_now (tend b t ops) i = Some r ->
  vs_rclaimed (an_status r) + vs_ravail (an_status r) = vs_rewards (an_status r) /\
  ((exists st', msg_claim_rewards (tend b t ops) s i x who = Some st') <->
   (s = FOUNDATION \/ s = BCP) /\ x <= vs_ravail (an_status r)).
Proof. exact reward_claim_shown. Qed.
(** Within the cap: the summary is the sum of the accounts and the module can pay what it owes. *)
Theorem C69_info_partial : forall b t ops r, treach44 b t ops -> let st := tend b t ops in team_info st = Some r ->
  ti_foundation r = FOUNDATION /\ ti_bcp r = BCP /\ ti_total r = TEAM_ALLOCATION /\
  ti_issued r = zsum vesting_max (ts_accounts st) /\ ti_issued r + ti_available r = ti_total r /\ 0 <= ti_available r /\
  ti_arewards r = ts_arewards st /\ ti_aclaimed r = ts_aclaimed st /\ ti_aclaimed r + ti_aavail r = ti_arewards r /\ 0 <= ti_aavail r /\
  ti_rewards r = zsum va_rewards (ts_accounts st) /\ ti_rclaimed r = zsum va_rclaimed (ts_accounts st) /\
  ti_rclaimed r + ti_ravail r = ti_rewards r /\
  ti_required r = TEAM_ALLOCATION - zsum va_claimed (ts_accounts st) + ti_ravail r + ti_aavail r /\
  ti_balance r = bal (ts_bank st) MTeam KYVE /\ ti_required r <= ti_balance r.
Proof. exact info_spec. Qed.
(** Within the cap: a new account is accepted exactly up to the shown available allocation, and the
    authority's rewards can be claimed exactly up to the shown amount. *)
Theorem C69_create_partial : forall b t ops r s total start, treach44 b t ops -> team_info (tend b t ops) = Some r ->
  0 <= total < two63 -> 0 <= start < two64 ->
  (exists st', msg_create (tend b t ops) s total start = Some st') <->
  (s = ti_foundation r \/ s = ti_bcp r) /\ 0 < total /\ 0 < start /\ total <= ti_available r.
Proof. exact create_shown. Qed.
Theorem C69_authority_partial : forall b t ops r s x who, treach44 b t ops -> team_info (tend b t ops) = Some r -> 0 <= x < two64 ->
  (exists st', msg_claim_authority (tend b t ops) s x who = Some st') <->
  s = ti_foundation r /\ x <= ti_aavail r.
Proof. exact authority_claim_shown. Qed.
(** The list of accounts has every account once, under its id, in the order of the ids. *)
Theorem C69_list : forall st, (forall i a, (i, a) ∈ list_accounts st <-> show_account st i = Some a) /\
  (list_accounts st).*1 = seq 0 (length (ts_accounts st)).
Proof. exact (fun st => conj (list_complete st) (list_ids st)). Qed.
(** Above the cap, which lifting a clawback allows (C43): almost 2^64 is shown as available although
    no account can be created; an amount is shown as claimable of which nothing can be claimed. *)
Theorem C69_info_refuted : exists b t ops r, treach b t ops /\ team_info (tend b t ops) = Some r /\
  ti_available r = two64 - TEAM_ALLOCATION /\ msg_create (tend b t ops) FOUNDATION 1 1700000000 = None.
Proof. exact refute_info. Qed.
Theorem C69_claim_refuted : exists b t ops r, treach b t ops /\ status_now (tend b t ops) 1 = Some r /\
  vs_claimable (an_status r) = TEAM_ALLOCATION /\ msg_claim_unlocked (tend b t ops) FOUNDATION 1 1 3 = None.
Proof. exact refute_claim. Qed.
(** A commencement close to 2^64: everything is shown as clawed back although there is no clawback,
    vesting is shown to end before it begins, and the account does not count as issued. *)
Theorem C69_status_refuted : exists b t ops r, treach b t ops /\ status_now (tend b t ops) 0 = Some r /\
  vp_clawback (an_plan r) = 0 /\ vp_clawed (an_plan r) = 1000 /\ vp_max (an_plan r) = 0 /\
  vp_commencement (an_plan r) = -1 /\ vp_vest_end (an_plan r) = VESTING - 1 /\ issued (ts_accounts (tend b t ops)) = 0.
Proof. exact refute_plan. Qed.

Print Assumptions C69_status_partial.
Print Assumptions C69_now.
Print Assumptions C69_forecast.
Print Assumptions C69_claim_partial.
Print Assumptions C69_rewards_partial.
Print Assumptions C69_info_partial.
Print Assumptions C69_create_partial.
Print Assumptions C69_authority_partial.
Print Assumptions C69_list.
Print Assumptions C69_info_refuted.
Print Assumptions C69_claim_refuted.
Print Assumptions C69_status_refuted.
