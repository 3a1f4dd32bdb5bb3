(** * Genesis: concrete states and counterexamples. *)
From Verif Require Import Base BaseFacts Delegation Stakers StakersInv Funders Team RoundRobin Pool Bundles Chain ChainFrame ArchiveInv ChainLift Query Params
  ChainExamples PoolExamples Genesis GenesisInv GenesisFacts GenesisDelegation GenesisStakers GenesisClaims.

(** ** A state with every kind of record *)
Definition busy : list cop :=
  h1 ++ [ CBegin 310 0; CDelegate 5 1 700; CDelegate 5 2 300; CUndelegate 5 1 200; CRedelegate 5 2 1 100; CUpdateCommission 1 (ONE / 5);
          CLeave 2 0; CTeam (TCreate FOUNDATION 1000000 (TGE + 1)); CEnd ].
Definition listed : list nat :=
  let g := export (after busy) in
  [ length (dg_delegators (cg_d g)); length (dg_entries (cg_d g)); length (dg_data (cg_d g)); length (dg_slashes (cg_d g)); length (dg_queue (cg_d g));
    length (dg_cool (cg_d g)); length (sg_stakers (cg_s g)); length (sg_vals (cg_s g)); length (sg_centries (cg_s g)); length (sg_lentries (cg_s g));
    length (fg_funders (cg_f g)); length (fg_fundings (cg_f g)); length (fg_states (cg_f g)); length (pg_pools (cg_p g));
    length (bg_props (cg_b g)); length (bg_fin (cg_b g)); length (bg_rr (cg_b g)); length (tg_accounts (cg_t g)) ].
Definition verdicts (c : chain) : list bool :=
  let g := export c in
  [validate_d (cg_d g); validate_s (cg_s g); validate_f (cg_f g); validate_p (cg_p g); validate_b (cg_b g); validate_t (cg_t g)].
Lemma busy_ok : cops_ok g0 busy. Proof. apply cops_okb_ok. vm_cast_no_check (eq_refl true). Qed.
(** Delegators, entries, data, slashes, undelegations, cooldowns; stakers, members, commission changes, leavers; funders, fundings,
    funding states; pools; proposals, finalized bundles, progresses; team accounts. *)
Example busy_lists : listed = [5; 6; 3; 1; 1; 1; 3; 2; 1; 1; 1; 1; 1; 1; 1; 2; 1; 1]%nat.
Proof. vm_compute. reflexivity. Qed.
Example busy_accepted : verdicts (after busy) = [true; true; true; true; true; true].
Proof. vm_compute. reflexivity. Qed.
Lemma eqv_refl g : cgen_eqv g g.
Proof. repeat (split; try reflexivity). Qed.
Example busy_restored : restored (after busy) (import (export (after busy)) (c_bank (after busy)) 0 1).
Proof. exact (genesis_restores gen0 gen0_genesis busy busy_ok _ _ _ _ (eqv_refl _)). Qed.
(** The index of stakers after the import: the staker whose delegations are gone would be missing. *)
Example busy_counts : (fun c => (count_of (c_s c) 0, default 0 (ss_active (c_s c) !! 1%N), ds_low (c_d c), ds_high (c_d c), ss_llow (c_s c), ss_lhigh (c_s c), elements (ds_index (c_d c))))
    (import (export (after busy)) ∅ 0 1)
  = (fun c => (count_of (c_s c) 0, default 0 (ss_active (c_s c) !! 1%N), ds_low (c_d c), ds_high (c_d c), ss_llow (c_s c), ss_lhigh (c_s c), elements (ds_index (c_d c)))) (after busy).
Proof. vm_compute. reflexivity. Qed.

(** ** A leave entry of a member that was removed *)
Definition leaver : list cop :=
  setup ++ first ++ [ CBegin 110 0; CVote 0 2 12 51 Valid; CVote 0 3 13 51 Invalid; CLeave 3 0; CEnd; CBegin 165 0; CSubmit (sub 1 11 52 10 20 30 70); CEnd ].
Lemma leaver_ok : cops_ok g0 leaver. Proof. apply cops_okb_ok. vm_cast_no_check (eq_refl true). Qed.
Lemma leaver_rejected : validate_s (cg_s (export (crun (gstart gen0) leaver))) = false.
Proof. vm_compute. reflexivity. Qed.
Lemma leaver_refutes : exists g0 ops, genesis g0 /\ cops_ok (gstart g0) ops /\ c_halt (crun (gstart g0) ops) = false /\
  validate_s (cg_s (export (crun (gstart g0) ops))) = false.
Proof.
  refine (ex_intro _ gen0 (ex_intro _ leaver (conj gen0_genesis (conj leaver_ok (conj _ leaver_rejected))))). vm_compute. reflexivity.
Qed.
(** ** A whitelist without the base denom (reachable by payloads: C59_whitelist_refuted) *)
Definition no_base : list cop := setup ++ [ CParamsF AUTHORITY (Funders.mkFP [mkW 2 6 10 1 ONE] 5) ].
Lemma no_base_ok : cops_ok g0 no_base. Proof. apply cops_okb_ok. vm_cast_no_check (eq_refl true). Qed.
Lemma no_base_refutes : exists g0 ops, genesis g0 /\ cops_ok (gstart g0) ops /\ c_halt (crun (gstart g0) ops) = false /\
  validate_f (cg_f (export (crun (gstart g0) ops))) = false.
Proof.
  refine (ex_intro _ gen0 (ex_intro _ no_base (conj gen0_genesis (conj no_base_ok (conj _ _))))); vm_compute; reflexivity.
Qed.

(** ** Duplicates that are accepted *)
Definition fd0 (a : Z) : funding := mkFd (coin KYVE a) (coin KYVE 1) ∅.
Lemma funders_refutes : exists g : fgen, validate_f g = true /\ ~ NoDup (fg_funders g) /\ ~ NoDup (map fst (fg_fundings g)) /\ ~ NoDup (map fst (fg_states g)) /\
  (* of two fundings with one key only the later one is stored *)
  exists k x y, (k, x) ∈ fg_fundings g /\ (k, y) ∈ fg_fundings g /\ x <> y /\ fs_fundings (import_f g ∅) !! k = Some y.
Proof.
  exists (mkFG fp0 [4; 4]%N [(4%N, 0%N, fd0 100); (4%N, 0%N, fd0 50)] [(0%N, [4%N]); (0%N, [])]).
  split; [vm_compute; reflexivity|]. cbn [fg_funders fg_fundings fg_states map fst].
  split; [intros H; inversion H; set_solver|]. split; [intros H; inversion H; set_solver|]. split; [intros H; inversion H; set_solver|].
  exists (4%N, 0%N), (fd0 100), (fd0 50). split; [set_solver|]. split; [set_solver|]. split; [|vm_compute; reflexivity].
  intros E. assert (E2 : amt (fd_amounts (fd0 100)) KYVE = amt (fd_amounts (fd0 50)) KYVE) by by rewrite E. by vm_compute in E2.
Qed.
Lemma stakers_refutes : exists g : sgen, validate_s g = true /\ ~ NoDup (map fst (sg_stakers g)) /\ ~ NoDup (map fst (sg_lentries g)) /\
  (* of two leave entries with one index only the later one is stored, so a leaving member stays for ever *)
  exists p s v, get_val (import_s g ∅ 0) p s = Some v /\ vl_leaving v = true /\ (s, p) ∈ ss_lindex (import_s g ∅ 0) /\
    forall i e, ss_lentries (import_s g ∅ 0) !! i = Some e -> le_staker e <> s.
Proof.
  exists (mkSG 50 60 [(1%N, mkSt 0 ∅); (1%N, mkSt ONE ∅); (2%N, mkSt 0 ∅)] [(0%N, 1%N, mkVal 11 0 true); (0%N, 2%N, mkVal 12 0 true)] []
    [(1%N, mkLE 1 0 5); (1%N, mkLE 2 0 6)] 0 0 0 1).
  split; [vm_compute; reflexivity|]. cbn [sg_stakers sg_lentries map fst].
  split; [intros H; inversion H; set_solver|]. split; [intros H; inversion H; set_solver|].
  exists 0%N, 1%N, (mkVal 11 0 true). split; [vm_compute; reflexivity|]. split; [done|]. split.
  - vm_compute. reflexivity.
  - intros i e. set (m := ss_lentries _). assert (E : map_to_list m = [(1%N, mkLE 2 0 6)]) by (vm_compute; reflexivity).
    intros H. apply elem_of_map_to_list in H. rewrite E in H. apply elem_of_list_singleton in H as [= _ ->]. done.
Qed.
Lemma rr_refutes : exists g : bgen, validate_b g = true /\ ~ NoDup (map fst (bg_rr g)).
Proof.
  exists (mkBG bp0 [] [] [(0%N, {[1%N := 5]}); (0%N, ∅)]). split; [vm_compute; reflexivity|]. cbn [bg_rr map fst]. intros H. inversion H. set_solver.
Qed.
