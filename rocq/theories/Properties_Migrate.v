(** * Properties of the upgrade to version 1.5.0: C67. *)
From Verif Require Import Base BaseFacts FundersClaims Delegation Stakers Funders Team RoundRobin Pool Bundles Chain ChainFrame ChainLift ArchiveInv SplitClaims ChainExamples PoolExamples
  Migrate MigrateClaims MigrateExamples.
Local Notation after ops := (crun g0 ops).

(** ** C67: the upgrade keeps what everybody owns *)
(** It does not panic exactly if every uint64 that becomes a coin is below 2^63 and no entry is negative. *)
Theorem C67_runs : forall a b us now o, typed o -> (is_Some (upgrade a b us now o) <->
  (forall k f, ol_fundings o !! k = Some f -> of_amount f < 2 ^ 63 /\ of_apb f < 2 ^ 63 /\ of_total f < 2 ^ 63) /\
  (forall s f, ol_f1 o !! s = Some f -> (forall d, o1_data f = Some d -> od_rewards d < 2 ^ 63) /\ (forall k v, o1_entries f !! k = Some v -> 0 <= v)) /\
  (forall s x, ol_stakers o !! s = Some x -> os_rewards x < 2 ^ 63)).
Proof. exact claim_runs. Qed.
(** [same_keys R]: the same keys and related records; the relations say that every amount is the same
    amount of the base denom and nothing of any other, and that the other fields are the same, except the
    weight (1 for every pool) and the plan ([planned]). The balances and everything else stay. *)
Theorem C67_keeps : forall a b us now o c, typed o -> 0 < now -> upgrade a b us now o = Some c ->
  let r := ol_rest o in
  same_keys funding_as (ol_fundings o) (fs_fundings (c_f c)) /\
  same_keys f1_as (ol_f1 o) (ds_f1 (c_d c)) /\
  same_keys staker_as (ol_stakers o) (ss_stakers (c_s c)) /\
  same_keys (fun x y => pool_as x y /\ pl_weight y = ONE /\ planned now us x y) (ol_pools o) (ps_pools (c_pools c)) /\
  c_bank c = c_bank r /\
  c_d c = with_f1 (c_d r) (ds_f1 (c_d c)) /\ c_s c = with_stakers (c_s r) (ss_stakers (c_s c)) /\ c_t c = c_t r /\
  fs_funders (c_f c) = fs_funders (c_f r) /\ fs_active (c_f c) = fs_active (c_f r) /\ ps_count (c_pools c) = ps_count (c_pools r) /\
  c_prop c = c_prop r /\ c_fin c = c_fin r /\ c_idx c = c_idx r /\ c_rr c = c_rr r /\ c_burn c = c_burn r /\
  c_time c = c_time r /\ c_height c = c_height r.
Proof. exact claim_keeps. Qed.
(** The rules for funding with the base denom and the other parameters are those of before; [meets] is
    the condition of C38. Only the storage costs and the maximum voting power are set anew. *)
Theorem C67_rules : forall a b us now o c, upgrade a b us now o = Some c -> a <> KYVE -> b <> KYVE ->
  let f := ol_fparams o in let p := ol_pparams o in let q := ol_bparams o in
  (forall x y, FundersClaims.meets (fs_params (c_f c)) KYVE x y <-> 0 < y /\ ofp_min f <= x /\ ofp_minpb f <= y /\ ofp_multiple f * y <= x) /\
  pp_share (c_pp c) = opp_share p /\ pp_rate (c_pp c) = opp_rate p /\
  b_timeout (c_bp c) = ob_timeout q /\ b_fee (c_bp c) = ob_fee q /\ b_maxpoints (c_bp c) = ob_maxpoints q.
Proof. exact claim_rules. Qed.
(** If the old records hold ([old_form]) a state that a history of this program leads to, the state after
    the upgrade is one too: the theorems about histories hold from there on. *)
Theorem C67_reached : forall a b us now o g ops, let c := crun (gstart g) ops in
  cops_ok (gstart g) ops -> typed o -> can_migrate o -> old_form o c -> oparams_ok o -> c_time c <= now -> 0 < now < 2 ^ 64 ->
  Forall (fun u => snd (fst u) <> 0%N /\ snd u <> 0%N) us ->
  exists ops', upgrade a b us now o = Some (crun (gstart g) (ops ++ ops')) /\ cops_ok (gstart g) (ops ++ ops').
Proof. exact claim_reached. Qed.
Example C67_case : typed old0 /\ can_migrate old0 /\ reached_old gen0 before old0 /\
  old_view old0 = ([31; 0; 0], [800; 200], [(1000, no_plan); (1000, no_plan)]) /\
  view <$> upgrade 2 3 runtimes 300 old0 = Some ([31; 0; 0], [800; 200], [(ONE, no_plan); (ONE, mkPlan 2 3 300 600)]).
Proof. split; [exact (proj1 old0_ready)|]. split; [exact (proj2 old0_ready)|]. split; [exact reached0|exact upgrade_case]. Qed.
Example C67_rules_case : 2%N <> KYVE /\ 3%N <> KYVE /\ (ofp_min (ol_fparams old0), ofp_minpb (ol_fparams old0), ofp_multiple (ol_fparams old0)) = (10, 1, 5) /\
  (fun c => (map (fun w => (w_denom w, w_min w, w_minpb w)) (fp_list (fs_params (c_f c))), fp_multiple (fs_params (c_f c)))) <$> upgrade 2 3 runtimes 300 old0 =
  Some ([(KYVE, 10, 1); (2%N, 1000000000, 100000); (3%N, 1000000000, 100000)], 5).
Proof. split_and!; [done|done|by vm_compute|by vm_compute]. Qed.
(** Not kept: the shares of the pools. One had three times the weight of the other; they get the same. *)
Theorem C67_shares_refuted : exists g ops o a b us now c' t prov p q, reached_old g ops o /\ upgrade a b us now o = Some c' /\
  let c := crun (gstart g) ops in let next c := cstep c (CBegin t prov) in
  can_run (at_time c t) p = true /\ can_run (at_time c t) q = true /\ can_run (at_time c' t) p = true /\ can_run (at_time c' t) q = true /\
  3 * gain c (next c) p <= gain c (next c) q /\ gain c' (next c') p = gain c' (next c') q.
Proof. exact shares_refutes. Qed.
(** A proposal that was to create a pool with the weight [w] all pools have creates one with [w] times
    their weight. *)
Theorem C67_proposal_refuted : exists g ops o a b us now c' m later t prov p q, reached_old g ops o /\ upgrade a b us now o = Some c' /\
  (forall k x, ol_pools o !! k = Some x -> op_weight x = oc_weight m) /\
  (exists later', later = CCreatePool AUTHORITY true (new_create m) :: later' /\ q = ps_count (c_pools c')) /\
  let c := crun c' later in let c1 := cstep c (CBegin t prov) in
  can_run (at_time c t) p = true /\ can_run (at_time c t) q = true /\ 0 < gain c c1 p /\ oc_weight m * gain c c1 p <= gain c c1 q.
Proof. exact proposal_refutes. Qed.
(** A pool in which one staker has more than half of the delegation stops with the upgrade. *)
Theorem C67_running_refuted : exists g ops o a b us now c' p, reached_old g ops o /\ upgrade a b us now o = Some c' /\
  can_run (crun (gstart g) ops) p = true /\ can_run c' p = false.
Proof. exact running_refutes. Qed.
Print Assumptions C67_runs.
Print Assumptions C67_keeps.
Print Assumptions C67_rules.
Print Assumptions C67_reached.
Print Assumptions C67_shares_refuted.
Print Assumptions C67_proposal_refuted.
Print Assumptions C67_running_refuted.
