(** * C50: exported genesis states. *)
From Verif Require Import Base Delegation Stakers Funders Team TeamClaims RoundRobin Pool Bundles Chain ChainFrame ChainLift Query Params
  Genesis GenesisDelegation GenesisStakers GenesisClaims GenesisExamples.

(** C50, full statement: the genesis exported from any reachable state passes its own validation,
    re-importing it restores all stores, and validation rejects duplicate records.

    The restoring holds: a genesis with the records of the export, in any order, brings every store back. *)
Theorem C50_restored : forall g0 ops, genesis g0 -> cops_ok (gstart g0) ops -> let c := crun (gstart g0) ops in
  forall g b t h, cgen_eqv g (export c) -> restored c (import g b t h).
Proof. exact (fun g0 ops Hg Hok g b t h => genesis_restores g0 Hg ops Hok g b t h). Qed.
Print Assumptions C50_restored.

(** x/delegation, x/pool and x/bundles always accept their export. The other three do so under a condition:
    x/stakers if every leave entry belongs to a member that is leaving, x/funders if the whitelist is valid,
    x/team if the authority has not claimed more than it received, which [C50_team_accepted] discharges.
    The full statement fails: see below. *)
Theorem C50_accepted_partial : forall g0 ops, genesis g0 -> cops_ok (gstart g0) ops -> let c := crun (gstart g0) ops in
  forall g, cgen_eqv g (export c) ->
    validate_d (cg_d g) = true /\ validate_p (cg_p g) = true /\ validate_b (cg_b g) = true /\
    (validate_s (cg_s g) = true <-> ~ stale (c_s c)) /\
    (validate_f (cg_f g) = true <-> fparams_valid (fs_params (c_f c)) = true) /\
    (validate_t (cg_t g) = true <-> ts_aclaimed (c_t c) <= ts_arewards (c_t c)).
Proof. exact (fun g0 ops Hg Hok g => genesis_valid g0 Hg ops Hok g). Qed.
Print Assumptions C50_accepted_partial.
Theorem C50_team_accepted : forall b t ops g, treach44 b t ops ->
  tg_rewards g = ts_arewards (tend b t ops) -> tg_claimed g = ts_aclaimed (tend b t ops) ->
  tg_accounts g ≡ₚ tg_accounts (export_t (tend b t ops)) -> tg_count g = tg_count (export_t (tend b t ops)) -> validate_t g = true.
Proof. exact team_valid. Qed.
Print Assumptions C50_team_accepted.

(** A member that is leaving and is removed before its time leaves an entry behind: the export is rejected. *)
Theorem C50_leaver_refuted : exists g0 ops, genesis g0 /\ cops_ok (gstart g0) ops /\ c_halt (crun (gstart g0) ops) = false /\
  validate_s (cg_s (export (crun (gstart g0) ops))) = false.
Proof. exact leaver_refutes. Qed.
Print Assumptions C50_leaver_refuted.
(** Likewise when the whitelist has lost the base denom. *)
Theorem C50_whitelist_refuted : exists g0 ops, genesis g0 /\ cops_ok (gstart g0) ops /\ c_halt (crun (gstart g0) ops) = false /\
  validate_f (cg_f (export (crun (gstart g0) ops))) = false.
Proof. exact no_base_refutes. Qed.
Print Assumptions C50_whitelist_refuted.

(** Duplicates are rejected in these lists ... *)
Theorem C50_duplicates_partial :
  (forall g, validate_d g = true ->
    NoDup (map fst (dg_delegators g)) /\ NoDup (map fst (dg_entries g)) /\ NoDup (map fst (dg_data g)) /\ NoDup (map fst (dg_slashes g)) /\
    NoDup (map fst (dg_queue g)) /\ NoDup (dg_cool g)) /\
  (forall g, validate_s g = true ->
    NoDup (map fst (sg_vals g)) /\ NoDup (map fst (sg_centries g)) /\ NoDup (map (fun x => (le_pool (snd x), le_staker (snd x))) (sg_lentries g))) /\
  (forall g, validate_p g = true -> NoDup (map fst (pg_pools g))) /\
  (forall g, validate_b g = true -> NoDup (map fst (bg_props g)) /\ NoDup (map fst (bg_fin g))) /\
  (forall g, validate_t g = true -> NoDup (map fst (tg_accounts g))).
Proof. exact (conj duplicates_d (conj duplicates_s (conj duplicates_p (conj duplicates_b duplicates_t)))). Qed.
Print Assumptions C50_duplicates_partial.
(** ... and accepted in these: all three of x/funders, the stakers and the indices of the leave entries, the round-robin progresses. *)
Theorem C50_funders_refuted : exists g : fgen, validate_f g = true /\ ~ NoDup (fg_funders g) /\ ~ NoDup (map fst (fg_fundings g)) /\ ~ NoDup (map fst (fg_states g)) /\
  exists k x y, (k, x) ∈ fg_fundings g /\ (k, y) ∈ fg_fundings g /\ x <> y /\ fs_fundings (import_f g ∅) !! k = Some y.
Proof. exact funders_refutes. Qed.
Print Assumptions C50_funders_refuted.
Theorem C50_stakers_refuted : exists g : sgen, validate_s g = true /\ ~ NoDup (map fst (sg_stakers g)) /\ ~ NoDup (map fst (sg_lentries g)) /\
  exists p s v, get_val (import_s g ∅ 0) p s = Some v /\ vl_leaving v = true /\ (s, p) ∈ ss_lindex (import_s g ∅ 0) /\
    forall i e, ss_lentries (import_s g ∅ 0) !! i = Some e -> le_staker e <> s.
Proof. exact stakers_refutes. Qed.
Print Assumptions C50_stakers_refuted.
Theorem C50_progress_refuted : exists g : bgen, validate_b g = true /\ ~ NoDup (map fst (bg_rr g)).
Proof. exact rr_refutes. Qed.
Print Assumptions C50_progress_refuted.
