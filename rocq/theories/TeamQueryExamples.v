(** * The queries of x/team: concrete answers and counterexamples. *)
From Verif Require Import Base BaseFacts Team TeamInv TeamRun TeamClaims TeamExamples TeamQuery TeamQueryClaims.

(** The answers after the history [h1] of TeamExamples. *)
Example ex_status : status_now hend 1 = Some (mkAnswer (T0 + 10 * VESTING)
  (mkPlan T0 (T0 + CLIFF) (T0 + VESTING) (T0 + CLIFF) (T0 + CLIFF + UNLOCK) (T0 + UNLOCK + 5) 24999996036276003 50000003963723997)
  (mkStatus 50000003963723997 50000003963723997 10000003963723997 0 0 40000000000000000 45051231 10 45051221)).
Proof. vm_compute. reflexivity. Qed.
(** The same account a year and a half after the start: part of it has vested, part of that is unlocked. *)
Example ex_by_time : option_map an_status (status_by_time hend 1 (T0 + CLIFF + CLIFF `div` 2)) = Some
  (mkStatus 37500000000000000 9375000000000000 0 28125000000000000 12500003963723997 40000000000000000 45051231 10 45051221).
Proof. vm_compute. reflexivity. Qed.
Example ex_info : exists r, team_info hend = Some r /\ 0 < ti_available r /\ 0 < ti_aavail r /\ ti_issued r < ti_total r.
Proof.
  destruct (some_with (team_info hend) (fun r => (0 <? ti_available r) && (0 <? ti_aavail r) && (ti_issued r <? ti_total r)))
    as (r & E & H); [vm_cast_no_check (eq_refl true)|].
  apply andb_true_iff in H as [H H3]. apply andb_true_iff in H as [H1 H2]. exists r. split; [exact E|]. lia.
Qed.
(** Between the first claim and the first clawback of account 1: nothing touches account 1. *)
Definition h_pre : list top := take 5 h1.
Definition h_mid : list top := [TClaim BCP 0 1000 3; TBegin (T0 + UNLOCK + 7) 200000000 (501 * supply0); TClaimRewards FOUNDATION 1 10 4].
Example ex_forecast : Forall (leaves 1) h_mid /\ treach tbk T0 (h_pre ++ h_mid) /\
  option_map (fun r => vs_claimable (an_status r)) (status_by_time (tend tbk T0 h_pre) 1 (ts_time (trun (tend tbk T0 h_pre) h_mid)))
    = Some 25000008323821011.
Proof.
  split; [repeat constructor; done|]. split.
  - split; [unfold T0, two63; lia|]. split; [apply tops_okb_ok; vm_cast_no_check (eq_refl true)|].
    apply smallb_ok. vm_cast_no_check (eq_refl true).
  - vm_compute. reflexivity.
Qed.

(** ** Counterexamples *)
Lemma some_and {A} (o : option A) (f : A -> bool) (P : A -> Prop) :
  (forall x, f x = true -> P x) -> match o with Some x => f x | None => false end = true -> exists x, o = Some x /\ P x.
Proof. intros Hf. destruct o; [by eauto|done]. Qed.
(** Above the cap the available allocation is shown as almost 2^64. *)
Lemma refute_info : exists b t ops r, treach b t ops /\ team_info (tend b t ops) = Some r /\
  ti_available r = two64 - TEAM_ALLOCATION /\ msg_create (tend b t ops) FOUNDATION 1 T0 = None.
Proof.
  destruct (some_and (team_info (tend tbk T0 r1)) (fun r => ti_available r =? two64 - TEAM_ALLOCATION) _
    (fun x => proj1 (Z.eqb_eq (ti_available x) _)) ltac:(vm_cast_no_check (eq_refl true))) as (r & E & H).
  exists tbk, T0, r1, r. split; [|split; [exact E|split; [exact H|vm_cast_no_check (eq_refl (@None tstate))]]].
  split; [unfold T0, two63; lia|]. split; [apply tops_okb_ok; vm_cast_no_check (eq_refl true)|].
  apply smallb_ok. vm_cast_no_check (eq_refl true).
Qed.
(** Above the cap an amount is shown as claimable of which nothing can be claimed. *)
Definition r1c : list top := r1 ++ [TBegin (T0 + 2 * VESTING) 0 (500 * supply0); TClaim FOUNDATION 0 TEAM_ALLOCATION 3].
Lemma refute_claim : exists b t ops r, treach b t ops /\ status_now (tend b t ops) 1 = Some r /\
  vs_claimable (an_status r) = TEAM_ALLOCATION /\ msg_claim_unlocked (tend b t ops) FOUNDATION 1 1 3 = None.
Proof.
  destruct (some_and (status_now (tend tbk T0 r1c) 1) (fun r => vs_claimable (an_status r) =? TEAM_ALLOCATION) _
    (fun x => proj1 (Z.eqb_eq (vs_claimable (an_status x)) _)) ltac:(vm_cast_no_check (eq_refl true))) as (r & E & H).
  exists tbk, T0, r1c, r. split; [|split; [exact E|split; [exact H|vm_cast_no_check (eq_refl (@None tstate))]]].
  split; [unfold T0, two63; lia|]. split; [apply tops_okb_ok; vm_cast_no_check (eq_refl true)|].
  apply smallb_ok. vm_cast_no_check (eq_refl true).
Qed.
(** A commencement close to 2^64: the plan shows the whole allocation as clawed back, without a
    clawback, a vesting period that ended in 1972, and nothing counts as issued. *)
Definition r_far : list top := [TCreate FOUNDATION 1000 (two64 - 1)].
Lemma refute_plan : exists b t ops r, treach b t ops /\ status_now (tend b t ops) 0 = Some r /\
  vp_clawback (an_plan r) = 0 /\ vp_clawed (an_plan r) = 1000 /\ vp_max (an_plan r) = 0 /\
  vp_commencement (an_plan r) = -1 /\ vp_vest_end (an_plan r) = VESTING - 1 /\ issued (ts_accounts (tend b t ops)) = 0.
Proof.
  exists tbk, T0, r_far. eexists. split.
  - split; [unfold T0, two63; lia|]. split; [apply tops_okb_ok; vm_cast_no_check (eq_refl true)|].
    apply smallb_ok. vm_cast_no_check (eq_refl true).
  - split; [vm_compute; reflexivity|]. vm_compute. done.
Qed.
