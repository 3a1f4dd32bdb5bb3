(** * The upgrade to version 1.5.0: a concrete upgrade and counterexamples (C67). *)
From Verif Require Import Base BaseFacts Delegation Stakers Funders Team TeamInv TeamRun RoundRobin Pool Bundles Chain ChainFrame ArchiveInv
  BankMoves ChainLift PoolInv PayoutClaims PoolClaims SplitClaims ChainExamples PoolExamples Migrate MigrateClaims.

(** ** Boolean forms of the hypotheses *)
Definition fitsb (x : Z) : bool := (0 <=? x) && (x <? two63).
Lemma fitsb_ok x : fitsb x = true -> u64 x /\ fits x.
Proof. unfold fitsb, u64, fits, two63, two64. rewrite andb_true_iff. lia. Qed.
Definition readyb (o : old) : bool :=
  all_in (fun f => fitsb (of_amount f) && fitsb (of_apb f) && fitsb (of_total f)) (ol_fundings o) &&
  all_in (fun f => match o1_data f with Some d => fitsb (od_rewards d) | None => true end && all_in (fun v => 0 <=? v) (o1_entries f)) (ol_f1 o) &&
  all_in (fun x => fitsb (os_rewards x)) (ol_stakers o).
Lemma readyb_ok o : readyb o = true -> typed o /\ can_migrate o.
Proof.
  unfold readyb. rewrite !andb_true_iff. intros [[H1 H2] H3].
  assert (K1 : forall k f, ol_fundings o !! k = Some f -> (u64 (of_amount f) /\ u64 (of_apb f) /\ u64 (of_total f)) /\ (fits (of_amount f) /\ fits (of_apb f) /\ fits (of_total f))).
  { intros k f Hk. apply (all_in_ok _ _ H1) in Hk. rewrite !andb_true_iff in Hk. destruct Hk as [[E1 E2] E3]. apply fitsb_ok in E1, E2, E3. tauto. }
  assert (K2 : forall s f, ol_f1 o !! s = Some f -> (forall d, o1_data f = Some d -> u64 (od_rewards d) /\ fits (od_rewards d)) /\ (forall k v, o1_entries f !! k = Some v -> 0 <= v)).
  { intros s f Hk. apply (all_in_ok _ _ H2) in Hk. rewrite andb_true_iff in Hk. destruct Hk as [E1 E2]. split.
    - intros d Hd. rewrite Hd in E1. by apply fitsb_ok.
    - intros k v Hv. apply (all_in_ok _ _ E2) in Hv. by apply Z.leb_le. }
  assert (K3 : forall s x, ol_stakers o !! s = Some x -> u64 (os_rewards x) /\ fits (os_rewards x)).
  { intros s x Hk. apply (all_in_ok _ _ H3) in Hk. by apply fitsb_ok. }
  split; (split; [|split]).
  - intros k f Hk. by apply (K1 k f).
  - intros s f d Hk Hd. by apply (K2 s f Hk).
  - intros s x Hk. by apply (K3 s x).
  - intros k f Hk. by apply (K1 k f).
  - intros s f Hk. destruct (K2 s f Hk) as [E1 E2]. split; [|done]. intros d Hd. by apply E1.
  - intros s x Hk. by apply (K3 s x).
Qed.

(** ** A pool with a finalized bundle, commission rewards, pending rewards; a second pool with another runtime *)
Definition ofp0 : ofparams := mkOFP 10 1 5.
Definition obp0 : obparams := mkOBP 600 (ONE / 2) (ONE / 100) 2.
Definition opp0 : opparams := mkOPP (ONE / 25) (ONE / 10).
Definition before : list cop := h1 ++ [CCreatePool AUTHORITY true (mkCA 9 0 60 1000 100 100 1 1 1 1)].
Lemma before_ok : cops_ok g0 before. Proof. apply cops_okb_ok. vm_cast_no_check (eq_refl true). Qed.
Definition old0 : old := old_of ofp0 obp0 opp0 (after before).
Definition runtimes : list (N * N * N) := [(8, 2, 3); (9, 2, 3); (10, 2, 3)]%N.
Lemma old0_ready : typed old0 /\ can_migrate old0. Proof. apply readyb_ok. vm_cast_no_check (eq_refl true). Qed.
Lemma old0_form : old_form old0 (after before). Proof. apply old_of_form. vm_cast_no_check (eq_refl true). Qed.
Lemma params_of c : oparams_ok (old_of ofp0 obp0 opp0 c). Proof. unfold oparams_ok, two64, two62. cbn. repeat split; try lia. Qed.
Definition view (c : chain) : list Z * list Z * list (Z * plan) :=
  (map (fun s => default (-1) ((fun x => amt (st_rewards x) KYVE) <$> ss_stakers (c_s c) !! s)) [1; 2; 3]%N,
   [default (-1) ((fun f => amt (fd_amounts f) KYVE) <$> fs_fundings (c_f c) !! (4, 0)%N); default (-1) ((fun f => amt (fd_total f) KYVE) <$> fs_fundings (c_f c) !! (4, 0)%N)],
   map (fun p => default (-1, no_plan) ((fun x => (pl_weight x, pl_plan x)) <$> get_pool c p)) [0; 1]%N).
Definition old_view (o : old) : list Z * list Z * list (Z * plan) :=
  (map (fun s => default (-1) (os_rewards <$> ol_stakers o !! s)) [1; 2; 3]%N,
   [default (-1) (of_amount <$> ol_fundings o !! (4, 0)%N); default (-1) (of_total <$> ol_fundings o !! (4, 0)%N)],
   map (fun p => default (-1, no_plan) ((fun x => (op_weight x, op_plan x)) <$> ol_pools o !! p)) [0; 1]%N).
Definition up0 : chain := default g0 (upgrade 2 3 runtimes 300 old0).
Definition prop0 : ocreate := mkOC 7 60 1000 100 100 1 1 1 1.
Definition later0 : list cop := [CCreatePool AUTHORITY true (new_create prop0); CJoin 1 2 31 100; CJoin 2 2 32 100; CEnd].
Lemma upgrade_case : old_view old0 = ([31; 0; 0], [800; 200], [(1000, no_plan); (1000, no_plan)]) /\
  view <$> upgrade 2 3 runtimes 300 old0 = Some ([31; 0; 0], [800; 200], [(ONE, no_plan); (ONE, mkPlan 2 3 300 600)]).
Proof. split; vm_compute; reflexivity. Qed.

(** ** What it does not keep *)
Lemma up_some a b us now o : typed o /\ can_migrate o -> upgrade a b us now o = Some (default g0 (upgrade a b us now o)).
Proof. intros [HT HC]. destruct (proj2 (claim_runs a b us now o HT) HC) as [c ->]. done. Qed.
(** Two stakers in two pools whose weights are 100 and 300. *)
Definition two_pools : list cop :=
  [CBegin 10 0; CCreateStaker 1 (ONE / 10) 1000; CCreateStaker 2 (ONE / 10) 1000;
   CCreatePool AUTHORITY true (mkCA 7 0 60 100 100 100 1 1 1 1); CCreatePool AUTHORITY true (mkCA 7 0 60 300 100 100 1 1 1 1);
   CJoin 1 0 11 100; CJoin 2 0 12 100; CJoin 1 1 21 100; CJoin 2 1 22 100; CEnd].
Lemma two_pools_ok : cops_ok (gstart gen0) two_pools. Proof. apply cops_okb_ok. vm_cast_no_check (eq_refl true). Qed.
Definition old1 : old := old_of ofp0 obp0 opp0 (after two_pools).
Definition up1 : chain := default g0 (upgrade 2 3 runtimes 10 old1).
Lemma old1_ready : typed old1 /\ can_migrate old1. Proof. apply readyb_ok. vm_cast_no_check (eq_refl true). Qed.
Lemma old1_form : old_form old1 (after two_pools). Proof. apply old_of_form. vm_cast_no_check (eq_refl true). Qed.
Lemma shares_case : let c := after two_pools in let next c := cstep c (CBegin 20 10000) in
  map (fun p => can_run (at_time c 20) p) [0; 1]%N = [true; true] /\ map (fun p => can_run (at_time up1 20) p) [0; 1]%N = [true; true] /\
  map (gain c (next c)) [0; 1]%N = [83; 250] /\ map (gain up1 (next up1)) [0; 1]%N = [167; 167].
Proof. repeat split; vm_compute; reflexivity. Qed.
Lemma proposal_case : let c := crun up0 later0 in
  map (fun p => can_run (at_time c 400) p) [0; 2]%N = [true; true] /\ map (gain c (cstep c (CBegin 400 1000000000))) [0; 2]%N = [33366; 33366633] /\
  forallb (fun x => op_weight (snd x) =? 1000) (map_to_list (ol_pools old0)) = true.
Proof. repeat split; vm_compute; reflexivity. Qed.
(** Three stakers, one of them with more than half of the delegation. *)
Definition heavy : list cop := setup ++ [CDelegate 5 1 5000].
Lemma heavy_ok : cops_ok (gstart gen0) heavy. Proof. apply cops_okb_ok. vm_cast_no_check (eq_refl true). Qed.
Definition old2 : old := old_of ofp0 obp0 opp0 (after heavy).
Definition up2 : chain := default g0 (upgrade 2 3 runtimes 20 old2).
Lemma old2_ready : typed old2 /\ can_migrate old2. Proof. apply readyb_ok. vm_cast_no_check (eq_refl true). Qed.
Lemma old2_form : old_form old2 (after heavy). Proof. apply old_of_form. vm_cast_no_check (eq_refl true). Qed.
Lemma heavy_case : can_run (after heavy) 0 = true /\ can_run up2 0 = false.
Proof. split; vm_compute; reflexivity. Qed.
(** [reached g ops o]: [o] holds, in the old records, a state a history leads to. *)
Definition reached_old (g : gen) (ops : list cop) (o : old) : Prop :=
  genesis g /\ cops_ok (gstart g) ops /\ typed o /\ old_form o (crun (gstart g) ops) /\ oparams_ok o.
Lemma reached0 : reached_old gen0 before old0.
Proof. exact (conj gen0_genesis (conj before_ok (conj (proj1 old0_ready) (conj old0_form (params_of _))))). Qed.
Lemma reached1 : reached_old gen0 two_pools old1.
Proof. exact (conj gen0_genesis (conj two_pools_ok (conj (proj1 old1_ready) (conj old1_form (params_of _))))). Qed.
Lemma reached2 : reached_old gen0 heavy old2.
Proof. exact (conj gen0_genesis (conj heavy_ok (conj (proj1 old2_ready) (conj old2_form (params_of _))))). Qed.
Lemma two_eq {A} (a b x y : A) : [a; b] = [x; y] -> a = x /\ b = y. Proof. intros H. by injection H. Qed.
Lemma shares_with g ops o a b us now c' t prov p q x y z : reached_old g ops o -> upgrade a b us now o = Some c' ->
  (let c := crun (gstart g) ops in let next c := cstep c (CBegin t prov) in
  map (fun p => can_run (at_time c t) p) [p; q] = [true; true] /\ map (fun p => can_run (at_time c' t) p) [p; q] = [true; true] /\
  map (gain c (next c)) [p; q] = [x; y] /\ map (gain c' (next c')) [p; q] = [z; z]) -> 3 * x <= y ->
  reached_old g ops o /\ upgrade a b us now o = Some c' /\
  let c := crun (gstart g) ops in let next c := cstep c (CBegin t prov) in
  can_run (at_time c t) p = true /\ can_run (at_time c t) q = true /\ can_run (at_time c' t) p = true /\ can_run (at_time c' t) q = true /\
  3 * gain c (next c) p <= gain c (next c) q /\ gain c' (next c') p = gain c' (next c') q.
Proof.
  intros H1 H2 (H3 & H4 & H5 & H6) H. split; [done|]. split; [done|]. cbv zeta in *. apply two_eq in H3 as [E1 E2]. apply two_eq in H4 as [E3 E4].
  apply two_eq in H5 as [E5 E6]. apply two_eq in H6 as [E7 E8]. rewrite E5, E6, E7, E8. auto 10.
Qed.
Lemma l1 : 3 * 83 <= 250. Proof. lia. Qed.
Lemma shares_refutes : exists g ops o a b us now c' t prov p q, reached_old g ops o /\ upgrade a b us now o = Some c' /\
  let c := crun (gstart g) ops in let next c := cstep c (CBegin t prov) in
  can_run (at_time c t) p = true /\ can_run (at_time c t) q = true /\ can_run (at_time c' t) p = true /\ can_run (at_time c' t) q = true /\
  3 * gain c (next c) p <= gain c (next c) q /\ gain c' (next c') p = gain c' (next c') q.
Proof.
  exact (ex_intro _ gen0 (ex_intro _ two_pools (ex_intro _ old1 (ex_intro _ 2%N (ex_intro _ 3%N (ex_intro _ runtimes (ex_intro _ 10 (ex_intro _ up1
    (ex_intro _ 20 (ex_intro _ 10000 (ex_intro _ 0%N (ex_intro _ 1%N
    (shares_with gen0 two_pools old1 2 3 runtimes 10 up1 20 10000 0 1 83 250 167 reached1 (up_some _ _ _ _ _ old1_ready) shares_case l1))))))))))))).
Qed.
Lemma proposal_with g ops o a b us now c' m later t prov p q x y w : reached_old g ops o -> upgrade a b us now o = Some c' ->
  (let c := crun c' later in map (fun p => can_run (at_time c t) p) [p; q] = [true; true] /\ map (gain c (cstep c (CBegin t prov))) [p; q] = [x; y] /\
  forallb (fun x => op_weight (snd x) =? w) (map_to_list (ol_pools o)) = true) -> 0 < x /\ w * x <= y -> oc_weight m = w ->
  (exists later', later = CCreatePool AUTHORITY true (new_create m) :: later' /\ q = ps_count (c_pools c')) ->
  reached_old g ops o /\ upgrade a b us now o = Some c' /\ (forall k x, ol_pools o !! k = Some x -> op_weight x = oc_weight m) /\
  (exists later', later = CCreatePool AUTHORITY true (new_create m) :: later' /\ q = ps_count (c_pools c')) /\
  let c := crun c' later in let c1 := cstep c (CBegin t prov) in
  can_run (at_time c t) p = true /\ can_run (at_time c t) q = true /\ 0 < gain c c1 p /\ oc_weight m * gain c c1 p <= gain c c1 q.
Proof.
  intros H1 H2 (H3 & H4 & H5) [H6 H6'] H7 H8. split; [done|]. split; [done|]. split; [|split; [done|]].
  - intros k z Hz. rewrite forallb_forall in H5. specialize (H5 (k, z)). simpl in H5. rewrite Z.eqb_eq in H5. rewrite H7. apply H5.
    by apply elem_of_list_In, elem_of_map_to_list.
  - cbv zeta in *. apply two_eq in H3 as [E1 E2]. apply two_eq in H4 as [E3 E4]. rewrite E3, E4, H7. auto 10.
Qed.
Lemma l2 : 0 < 33366 /\ 1000 * 33366 <= 33366633. Proof. lia. Qed.
Lemma l3 : oc_weight prop0 = 1000. Proof. reflexivity. Qed.
Lemma l4 : exists later', later0 = CCreatePool AUTHORITY true (new_create prop0) :: later' /\ 2%N = ps_count (c_pools up0).
Proof. refine (ex_intro _ _ (conj eq_refl _)). vm_compute; reflexivity. Qed.
Lemma proposal_refutes : exists g ops o a b us now c' m later t prov p q, reached_old g ops o /\ upgrade a b us now o = Some c' /\
  (forall k x, ol_pools o !! k = Some x -> op_weight x = oc_weight m) /\
  (exists later', later = CCreatePool AUTHORITY true (new_create m) :: later' /\ q = ps_count (c_pools c')) /\
  let c := crun c' later in let c1 := cstep c (CBegin t prov) in
  can_run (at_time c t) p = true /\ can_run (at_time c t) q = true /\ 0 < gain c c1 p /\ oc_weight m * gain c c1 p <= gain c c1 q.
Proof.
  exact (ex_intro _ gen0 (ex_intro _ before (ex_intro _ old0 (ex_intro _ 2%N (ex_intro _ 3%N (ex_intro _ runtimes (ex_intro _ 300 (ex_intro _ up0
    (ex_intro _ prop0 (ex_intro _ later0 (ex_intro _ 400 (ex_intro _ 1000000000 (ex_intro _ 0%N (ex_intro _ 2%N
    (proposal_with gen0 before old0 2 3 runtimes 300 up0 prop0 later0 400 1000000000 0 2 33366 33366633 1000 reached0 (up_some _ _ _ _ _ old0_ready) proposal_case l2 l3 l4))))))))))))))).
Qed.
Lemma running_refutes : exists g ops o a b us now c' p, reached_old g ops o /\ upgrade a b us now o = Some c' /\
  can_run (crun (gstart g) ops) p = true /\ can_run c' p = false.
Proof.
  exact (ex_intro _ gen0 (ex_intro _ heavy (ex_intro _ old2 (ex_intro _ 2%N (ex_intro _ 3%N (ex_intro _ runtimes (ex_intro _ 20 (ex_intro _ up2
    (ex_intro _ 0%N (conj reached2 (conj (up_some _ _ _ _ _ old2_ready) heavy_case))))))))))).
Qed.
