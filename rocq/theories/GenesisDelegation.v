(** * Export, validation and import of x/delegation. *)
From stdpp Require Import sorting.
From Verif Require Import Base BaseFacts Delegation Stakers Funders Team RoundRobin Pool Bundles Chain Query Params Genesis GenesisInv IndexInv GenesisFacts.

(** The same records in some other order. *)
Record dgen_eqv (g g' : dgen) : Prop := mkDGE {
  dge_params : dg_params g = dg_params g';
  dge_delegators : dg_delegators g ≡ₚ dg_delegators g';
  dge_entries : dg_entries g ≡ₚ dg_entries g';
  dge_data : dg_data g ≡ₚ dg_data g';
  dge_slashes : dg_slashes g ≡ₚ dg_slashes g';
  dge_queue : dg_queue g ≡ₚ dg_queue g';
  dge_low : dg_low g = dg_low g';
  dge_high : dg_high g = dg_high g';
  dge_cool : dg_cool g ≡ₚ dg_cool g'
}.
(** The stores of two states of the module hold the same. *)
Record drestored (st st' : dstate) : Prop := mkDR {
  dr_f : forall s, getf st' s = getf st s;
  dr_queue : ds_queue st' = ds_queue st;
  dr_low : ds_low st' = ds_low st;
  dr_high : ds_high st' = ds_high st;
  dr_cool : forall a, default [] (ds_cool st' !! a) = default [] (ds_cool st !! a);
  dr_params : ds_params st' = ds_params st;
  (* the index kept in memory: entries for the stakers with delegation data *)
  dr_index : forall a s, (a, s) ∈ ds_index st' <-> a = delegation_amount st s /\ f_data (getf st s) <> None
}.

Definition dempty (g : dgen) (b : bank) (t : Z) : dstate := mkD ∅ b 0 0 ∅ ∅ ∅ (dg_params g) t false.
Lemma dempty_getf g b t s : getf (dempty g b t) s = f1_empty. Proof. unfold getf. cbn. by rewrite lookup_empty. Qed.

(** ** What the import leaves in each store *)
Section imp.
  Context (g : dgen) (b : bank) (t : Z).
  Let e := dempty g b t.
  Let s1 := fold_left put_delegator (dg_delegators g) e.
  Let s2 := fold_left put_entry (dg_entries g) s1.
  Let s3 := fold_left put_data (dg_data g) s2.
  Let s4 := fold_left put_slash (dg_slashes g) s3.
  Let s5 := fold_left put_queue (dg_queue g) s4.
  Let s6 := with_queue s5 (dg_low g) (dg_high g) (ds_queue s5).
  Let s7 := fold_left put_cool (dg_cool g) s6.
  Lemma import_unfold : import_d g b t = rebuild_index s7. Proof. done. Qed.
  Lemma rebuild_getf st s : getf (rebuild_index st) s = getf st s.
  Proof. unfold getf. by destruct (rebuild_spec st) as (-> & _ & _). Qed.
  Lemma rebuild_other st : (ds_queue (rebuild_index st), ds_low (rebuild_index st), ds_high (rebuild_index st), ds_cool (rebuild_index st), ds_params (rebuild_index st))
    = (ds_queue st, ds_low st, ds_high st, ds_cool st, ds_params st).
  Proof. unfold rebuild_index. by rewrite (fold_frame (fun d s => set_index d s) (fun st => (ds_queue st, ds_low st, ds_high st, ds_cool st, ds_params st))). Qed.
  Lemma late_getf s : getf s7 s = getf s4 s.
  Proof.
    unfold s7. rewrite (fold_frame put_cool (fun st => getf st s)) by done.
    change (getf s6 s) with (getf s5 s). unfold s5. by rewrite (fold_frame put_queue (fun st => getf st s)) by done.
  Qed.
  Lemma import_delegators s : f_delegators (getf (import_d g b t) s) = f_delegators (getf s1 s).
  Proof.
    rewrite import_unfold, rebuild_getf, late_getf. unfold s4, s3, s2.
    rewrite (fold_frame put_slash (fun st => f_delegators (getf st s))) by (intros; rewrite put_slash_getf; by case_decide).
    rewrite (fold_frame put_data (fun st => f_delegators (getf st s))) by (intros; rewrite put_data_getf; by case_decide).
    by rewrite (fold_frame put_entry (fun st => f_delegators (getf st s))) by (intros; rewrite put_entry_getf; by case_decide).
  Qed.
  Lemma import_entries s : f_entries (getf (import_d g b t) s) = f_entries (getf s2 s).
  Proof.
    rewrite import_unfold, rebuild_getf, late_getf. unfold s4, s3.
    rewrite (fold_frame put_slash (fun st => f_entries (getf st s))) by (intros; rewrite put_slash_getf; by case_decide).
    by rewrite (fold_frame put_data (fun st => f_entries (getf st s))) by (intros; rewrite put_data_getf; by case_decide).
  Qed.
  Lemma import_data s : f_data (getf (import_d g b t) s) = f_data (getf s3 s).
  Proof.
    rewrite import_unfold, rebuild_getf, late_getf. unfold s4.
    by rewrite (fold_frame put_slash (fun st => f_data (getf st s))) by (intros; rewrite put_slash_getf; by case_decide).
  Qed.
  Lemma import_slashes s : f_slashes (getf (import_d g b t) s) = f_slashes (getf s4 s).
  Proof. by rewrite import_unfold, rebuild_getf, late_getf. Qed.
  Lemma import_halt s : f_halt (getf (import_d g b t) s) = false.
  Proof.
    rewrite import_unfold, rebuild_getf, late_getf. unfold s4, s3, s2, s1.
    rewrite (fold_frame put_slash (fun st => f_halt (getf st s))) by (intros; rewrite put_slash_getf; by case_decide).
    rewrite (fold_frame put_data (fun st => f_halt (getf st s))) by (intros; rewrite put_data_getf; by case_decide).
    rewrite (fold_frame put_entry (fun st => f_halt (getf st s))) by (intros; rewrite put_entry_getf; by case_decide).
    rewrite (fold_frame put_delegator (fun st => f_halt (getf st s))) by (intros; rewrite put_delegator_getf; by case_decide).
    unfold e. by rewrite dempty_getf.
  Qed.
  (* Before its own loop every store is empty. *)
  Lemma early_entries s : f_entries (getf s1 s) = ∅.
  Proof.
    unfold s1. rewrite (fold_frame put_delegator (fun st => f_entries (getf st s))) by (intros; rewrite put_delegator_getf; by case_decide).
    unfold e. by rewrite dempty_getf.
  Qed.
  Lemma early_data s : f_data (getf s2 s) = None.
  Proof.
    unfold s2, s1. rewrite (fold_frame put_entry (fun st => f_data (getf st s))) by (intros; rewrite put_entry_getf; by case_decide).
    rewrite (fold_frame put_delegator (fun st => f_data (getf st s))) by (intros; rewrite put_delegator_getf; by case_decide).
    unfold e. by rewrite dempty_getf.
  Qed.
  Lemma early_slashes s : f_slashes (getf s3 s) = [].
  Proof.
    unfold s3, s2, s1. rewrite (fold_frame put_data (fun st => f_slashes (getf st s))) by (intros; rewrite put_data_getf; by case_decide).
    rewrite (fold_frame put_entry (fun st => f_slashes (getf st s))) by (intros; rewrite put_entry_getf; by case_decide).
    rewrite (fold_frame put_delegator (fun st => f_slashes (getf st s))) by (intros; rewrite put_delegator_getf; by case_decide).
    unfold e. by rewrite dempty_getf.
  Qed.
  Lemma slashes_sorted s : StronglySorted N.lt (map fst (f_slashes (getf s4 s))).
  Proof.
    unfold s4. pose proof (early_slashes s) as E. generalize (dg_slashes g) as l.
    assert (H0 : StronglySorted N.lt (map fst (f_slashes (getf s3 s)))) by (rewrite E; constructor). clear E. revert H0. generalize s3 as st.
    intros st H0 l. revert st H0. induction l as [|x l IH]; intros st H0; cbn [fold_left]; [done|]. apply IH. rewrite put_slash_getf.
    case_decide; [|done]. cbn. by apply kv_set_sorted.
  Qed.
  Definition dother (st : dstate) := (ds_queue st, ds_low st, ds_high st, ds_cool st, ds_params st).
  Lemma early_other : dother s4 = dother e.
  Proof. unfold s4, s3, s2, s1. by rewrite !(fold_frame _ dother) by done. Qed.
End imp.

Lemma put_cool_elem st x a z : z ∈ default [] (ds_cool (put_cool st x) !! a) <-> x = (a, z) \/ z ∈ default [] (ds_cool st !! a).
Proof.
  destruct x as [a' z']. unfold put_cool. cbn. destruct (decide (a' = a)) as [->|Hne].
  - rewrite lookup_insert. cbn. rewrite insert_date_elem. naive_solver.
  - rewrite lookup_insert_ne by done. naive_solver.
Qed.
Lemma put_cool_sorted st x : (forall a, StronglySorted Z.lt (default [] (ds_cool st !! a))) ->
  forall a, StronglySorted Z.lt (default [] (ds_cool (put_cool st x) !! a)).
Proof.
  intros H a. destruct x as [a' z']. unfold put_cool. cbn. destruct (decide (a' = a)) as [->|Hne].
  - rewrite lookup_insert. cbn. apply insert_date_sorted, H.
  - rewrite lookup_insert_ne by done. apply H.
Qed.

(** ** Round trip *)
Lemma per_staker_elem {A} (m : f1 -> list (N * A)) st s k v : m f1_empty = [] ->
  (s, k, v) ∈ per_staker m st <-> (k, v) ∈ m (getf st s).
Proof.
  intros Hm. unfold per_staker. change (flat_map _ _) with (flat m (map_to_list (ds_f1 st))). rewrite flat_elem. split.
  - intros (f & Hf & Hx). apply elem_of_map_to_list in Hf. unfold getf. by rewrite Hf.
  - unfold getf. destruct (ds_f1 st !! s) as [f|] eqn:E; cbn.
    + intros Hx. exists f. by rewrite elem_of_map_to_list.
    + rewrite Hm. intros Hx. by apply elem_of_nil in Hx.
Qed.
Lemma data_elem st s dd : (s, dd) ∈ dg_data (export_d st) <-> f_data (getf st s) = Some dd.
Proof.
  cbn. rewrite elem_of_list_omap. split.
  - intros ([s' f] & Hf & E). apply elem_of_map_to_list in Hf. cbn in E. destruct (f_data f) eqn:Ed; [|done]. injection E as <- <-.
    unfold getf. by rewrite Hf.
  - unfold getf. destruct (ds_f1 st !! s) as [f|] eqn:E; cbn; [|done]. intros Ed. exists (s, f). rewrite elem_of_map_to_list.
    split; [done|]. cbn. by rewrite Ed.
Qed.
Lemma cool_elem st a z : (a, z) ∈ dg_cool (export_d st) <-> z ∈ default [] (ds_cool st !! a).
Proof.
  cbn. rewrite elem_of_list_In, in_flat_map. split.
  - intros ([a' l] & Hl & Hx). apply in_map_iff in Hx as (z' & [= -> ->] & Hz). apply elem_of_list_In, elem_of_map_to_list in Hl.
    rewrite Hl. cbn. by apply elem_of_list_In.
  - destruct (ds_cool st !! a) as [l|] eqn:E; cbn; [|intros Hx; by apply elem_of_nil in Hx]. intros Hz.
    exists (a, l). split; [by apply elem_of_list_In, elem_of_map_to_list|]. apply in_map_iff. exists z. split; [done|]. by apply elem_of_list_In.
Qed.

Lemma import_d_restores st g b t : DK st -> (forall s, f_halt (getf st s) = false) -> dgen_eqv g (export_d st) ->
  drestored st (import_d g b t).
Proof.
  intros HK Hh [E1 E2 E3 E4 E5 E6 E7 E8 E9].
  assert (HF : forall s, getf (import_d g b t) s = getf st s).
  { intros s.
    assert (A1 : f_delegators (getf (import_d g b t) s) = f_delegators (getf st s)).
    { rewrite import_delegators. apply map_eq. intros d.
      apply (fold_restore put_delegator fst snd (fun st k => f_delegators (getf st (fst k)) !! snd k)) with (k := (s, d)) (look0 := fun k : N * N => f_delegators (getf st (fst k)) !! snd k).
      - intros st1 [[s1 d1] v] [s2 d2]. cbn [fst snd]. rewrite put_delegator_getf. cbn [fst snd]. destruct (decide (s1 = s2)) as [->|Hne].
        + cbn. destruct (decide (d1 = d2)) as [->|Hd]; [rewrite lookup_insert, decide_True by done; done|].
          rewrite lookup_insert_ne by done. by rewrite decide_False by congruence.
        + by rewrite decide_False by congruence.
      - intros [s1 d1]. rewrite dempty_getf. apply lookup_empty.
      - intros [s1 d1] v. cbn [fst snd]. rewrite <- elem_of_map_to_list. rewrite <- (per_staker_elem (fun f => map_to_list (f_delegators f)) st s1 d1 v) by done.
        change (per_staker _ st) with (dg_delegators (export_d st)). rewrite <- E2. split; [intros Hx; by exists (s1, d1, v)|].
        intros ([k v'] & Hx & <- & <-). done. }
    assert (A2 : f_entries (getf (import_d g b t) s) = f_entries (getf st s)).
    { rewrite import_entries. apply map_eq. intros d.
      apply (fold_restore put_entry fst snd (fun st k => f_entries (getf st (fst k)) !! snd k)) with (k := (s, d)) (look0 := fun k : N * N => f_entries (getf st (fst k)) !! snd k).
      - intros st1 [[s1 d1] v] [s2 d2]. cbn [fst snd]. rewrite put_entry_getf. cbn [fst snd]. destruct (decide (s1 = s2)) as [->|Hne].
        + cbn. destruct (decide (d1 = d2)) as [->|Hd]; [rewrite lookup_insert, decide_True by done; done|].
          rewrite lookup_insert_ne by done. by rewrite decide_False by congruence.
        + by rewrite decide_False by congruence.
      - intros [s1 d1]. cbn [fst snd]. rewrite early_entries. apply lookup_empty.
      - intros [s1 d1] v. cbn [fst snd]. rewrite <- elem_of_map_to_list. rewrite <- (per_staker_elem (fun f => map_to_list (f_entries f)) st s1 d1 v) by done.
        change (per_staker _ st) with (dg_entries (export_d st)). rewrite <- E3. split; [intros Hx; by exists (s1, d1, v)|].
        intros ([k v'] & Hx & <- & <-). done. }
    assert (A3 : f_data (getf (import_d g b t) s) = f_data (getf st s)).
    { rewrite import_data. apply (fold_restore put_data fst snd (fun st k => f_data (getf st k))) with (k := s) (look0 := fun k => f_data (getf st k)).
      - intros st1 [s1 v] s2. rewrite put_data_getf. cbn [fst snd]. by case_decide.
      - intros s1. apply early_data.
      - intros s1 v. rewrite <- data_elem, <- E4. split; [intros Hx; by exists (s1, v)|]. intros ([k v'] & Hx & <- & <-). done. }
    assert (A4 : f_slashes (getf (import_d g b t) s) = f_slashes (getf st s)).
    { rewrite import_slashes. apply sorted_fst_ext; [apply slashes_sorted|apply (fk_sort _ _ (dk_f _ HK s))|]. intros k.
      apply (fold_restore put_slash fst snd (fun st k => kv_get (snd k) (f_slashes (getf st (fst k))))) with (k := (s, k)) (look0 := fun k : N * N => kv_get (snd k) (f_slashes (getf st (fst k)))).
      - intros st1 [[s1 d1] v] [s2 d2]. cbn [fst snd]. rewrite put_slash_getf. cbn [fst snd]. destruct (decide (s1 = s2)) as [->|Hne].
        + cbn. rewrite kv_get_set. destruct (decide (d1 = d2)) as [->|Hd]; [rewrite N.eqb_refl, decide_True by done; done|].
          rewrite decide_False by congruence. destruct (d2 =? d1)%N eqn:Ed; [|done]. apply N.eqb_eq in Ed. congruence.
        + by rewrite decide_False by congruence.
      - intros [s1 d1]. cbn [fst snd]. by rewrite early_slashes.
      - intros [s1 d1] v. cbn [fst snd]. rewrite (kv_get_elem _ _ _ (fk_sort _ _ (dk_f _ HK s1))).
        rewrite <- (per_staker_elem f_slashes st s1 d1 v) by done.
        change (per_staker _ st) with (dg_slashes (export_d st)). rewrite <- E5. split; [intros Hx; by exists (s1, d1, v)|].
        intros ([k' v'] & Hx & <- & <-). done. }
    pose proof (import_halt g b t s) as A5. specialize (Hh s).
    destruct (getf (import_d g b t) s), (getf st s). cbn in *. congruence. }
  pose proof (early_other g b t) as EO. unfold dother, dempty in EO. cbn [ds_queue ds_low ds_high ds_cool ds_params] in EO.
  set (s4 := fold_left put_slash _ _) in EO. injection EO as O1 O2 O3 O4 O5.
  pose proof (rebuild_other (fold_left put_cool (dg_cool g) (with_queue (fold_left put_queue (dg_queue g) s4) (dg_low g) (dg_high g) (ds_queue (fold_left put_queue (dg_queue g) s4))))) as RO.
  change (rebuild_index _) with (import_d g b t) in RO. set (s6 := with_queue _ _ _ _) in RO.
  pose proof (fold_frame put_cool (fun st => (ds_queue st, ds_low st, ds_high st, ds_params st)) (dg_cool g) (fun _ _ => eq_refl) s6) as CO. cbn beta in CO.
  injection CO as C1 C2 C3 C4. injection RO as R1 R2 R3 R4 R5.
  assert (Q6 : ds_queue s6 = ds_queue st).
  { unfold s6. cbn [with_queue ds_queue]. apply map_eq. intros i. apply (fold_restore put_queue fst snd (fun st k => ds_queue st !! k)) with (k := i) (look0 := fun k => ds_queue st !! k).
    - intros st1 x k. cbn. destruct (decide (fst x = k)) as [<-|Hne]; [by rewrite lookup_insert|by rewrite lookup_insert_ne].
    - intros k. rewrite O1. apply lookup_empty.
    - intros k v. rewrite <- elem_of_map_to_list. change (map_to_list (ds_queue st)) with (dg_queue (export_d st)). rewrite <- E6.
      split; [intros Hx; by exists (k, v)|]. intros ([k' v'] & Hx & <- & <-). done. }
  split.
  - exact HF.
  - rewrite R1, C1. exact Q6.
  - rewrite R2, C2. exact E7.
  - rewrite R3, C3. exact E8.
  - intros a. rewrite R4.
    assert (K0 : ds_cool s6 = ∅). { unfold s6. cbn [with_queue ds_cool]. rewrite (fold_frame put_queue ds_cool) by done. exact O4. }
    assert (S0 : forall a, StronglySorted Z.lt (default [] (ds_cool s6 !! a))) by (intros; rewrite K0, lookup_empty; constructor).
    assert (M0 : forall a z, z ∉ default [] (ds_cool s6 !! a)) by (intros; rewrite K0, lookup_empty; apply not_elem_of_nil).
    clearbody s6. clear -HK E9 S0 M0.
    assert (HS : forall l st, (forall a, StronglySorted Z.lt (default [] (ds_cool st !! a))) ->
      forall a, StronglySorted Z.lt (default [] (ds_cool (fold_left put_cool l st) !! a))).
    { induction l as [|x l IH]; intros st1 H1; cbn [fold_left]; [done|]. apply IH. by apply put_cool_sorted. }
    assert (HM : forall l st a z, z ∈ default [] (ds_cool (fold_left put_cool l st) !! a) <-> (a, z) ∈ l \/ z ∈ default [] (ds_cool st !! a)).
    { induction l as [|x l IH]; intros st1 a1 z1; cbn [fold_left]; [set_solver|]. rewrite IH, put_cool_elem, elem_of_cons. naive_solver. }
    apply sorted_dates_ext.
    + by apply HS.
    + destruct (ds_cool st !! a) as [l|] eqn:E; [by apply (dk_cool _ HK a)|constructor].
    + intros z. rewrite HM, E9, cool_elem. specialize (M0 a z). naive_solver.
  - rewrite R5, C4. rewrite (fold_frame put_queue ds_params) by done. rewrite O5. exact E1.
  - intros a s. rewrite import_unfold. destruct (rebuild_spec (fold_left put_cool (dg_cool g) s6)) as (_ & _ & B3).
    change (rebuild_index _) with (rebuild_index (fold_left put_cool (dg_cool g) s6)). rewrite B3.
    unfold delegation_amount. rewrite <- (HF s). rewrite <- (rebuild_getf (fold_left put_cool (dg_cool g) s6)). done.
Qed.

(** ** The exported state is accepted *)
Lemma map_fst_perm {A B} (l l' : list (A * B)) : l ≡ₚ l' -> map fst l ≡ₚ map fst l'.
Proof. intros H. by apply Permutation_map. Qed.
Lemma mtl_nodup {K V} `{Countable K} (m : gmap K V) : NoDup (map fst (map_to_list m)).
Proof. apply NoDup_fst_map_to_list. Qed.
Lemma sorted_nodup (l : list N) : StronglySorted N.lt l -> NoDup l.
Proof.
  induction 1 as [|a t H IH HF]; constructor; [|done]. intros Hx. eapply Forall_forall in HF; [|exact Hx]. lia.
Qed.
Lemma sorted_nodupZ (l : list Z) : StronglySorted Z.lt l -> NoDup l.
Proof.
  induction 1 as [|a t H IH HF]; constructor; [|done]. intros Hx. eapply Forall_forall in HF; [|exact Hx]. lia.
Qed.
Lemma cool_nodup st : DK st -> NoDup (dg_cool (export_d st)).
Proof.
  intros HK. cbn. assert (Hs : forall x, x ∈ map_to_list (ds_cool st) -> NoDup (snd x)).
  { intros [a l] Hx. apply elem_of_map_to_list in Hx. apply sorted_nodupZ. by apply (dk_cool _ HK a). }
  pose proof (mtl_nodup (ds_cool st)) as Hn. revert Hs Hn. generalize (map_to_list (ds_cool st)) as l.
  induction l as [|[a x] l IH]; intros Hs Hn; cbn [flat_map]; [constructor|]. cbn [map fst] in Hn. apply NoDup_cons in Hn as [Ha Hn].
  apply NoDup_app. split; [|split].
  - apply (NoDup_fmap_2 (pair a) x). specialize (Hs (a, x)). apply Hs. by left.
  - intros [a' z] H1 H2. apply elem_of_list_In, in_map_iff in H1 as (z' & [= <- <-] & _).
    apply elem_of_list_In, in_flat_map in H2 as ([a2 x2] & H2 & H3). apply in_map_iff in H3 as (z2 & [= -> ->] & _).
    apply Ha. apply elem_of_list_In, in_map_iff. by exists (a, x2).
  - apply IH; [|done]. intros y Hy. apply Hs. by right.
Qed.
Lemma kidx_nodup st : DK st -> NoDup (map (fun x : N * N * delegator => (fst (fst x), d_k (snd x))) (dg_delegators (export_d st))).
Proof.
  intros HK. pose proof (flat_nodup (fun f => map_to_list (f_delegators f)) (map_to_list (ds_f1 st)) (mtl_nodup _)
    (fun x _ => mtl_nodup (f_delegators (snd x)))) as Hn.
  change (flat _ _) with (dg_delegators (export_d st)) in Hn.
  assert (Hinj : forall s d dl d' dl', (s, d, dl) ∈ dg_delegators (export_d st) -> (s, d', dl') ∈ dg_delegators (export_d st) -> d_k dl = d_k dl' -> d = d').
  { intros s d dl d' dl' H1 H2 E. apply per_staker_elem in H1; [|done]. apply per_staker_elem in H2; [|done].
    apply elem_of_map_to_list in H1. apply elem_of_map_to_list in H2. by eapply (fk_inj _ _ (dk_f _ HK s)). }
  revert Hinj Hn. generalize (dg_delegators (export_d st)) as l.
  induction l as [|[[s d] dl] l IH]; intros Hi Hn; cbn [map fst snd]; [constructor|]. cbn [map fst] in Hn. apply NoDup_cons in Hn as [Ha Hn].
  apply NoDup_cons. split.
  - intros Hx. apply elem_of_list_In, in_map_iff in Hx as ([[s' d'] dl'] & [= -> Ek] & Hx). apply elem_of_list_In in Hx.
    apply Ha. rewrite (Hi s d dl d' dl'); [|by left|by right|done]. apply (elem_of_list_fmap_1 fst _ _ Hx).
  - apply IH; [|done]. intros s1 d1 dl1 d2 dl2 H1 H2. eapply Hi; by right.
Qed.
Lemma validate_d_export st g : DK st -> dparams_valid (ds_params st) = true -> dgen_eqv g (export_d st) -> validate_d g = true.
Proof.
  intros HK Hp [E1 E2 E3 E4 E5 E6 E7 E8 E9]. unfold validate_d. rewrite !andb_true_iff, !fresh_nodup, !forallb_forall. split_and!.
  - rewrite (map_fst_perm _ _ E2). apply (flat_nodup (fun f => map_to_list (f_delegators f)) (map_to_list (ds_f1 st)) (mtl_nodup _)). intros x _. apply mtl_nodup.
  - rewrite (Permutation_map _ E2). by apply kidx_nodup.
  - rewrite (map_fst_perm _ _ E3). apply (flat_nodup (fun f => map_to_list (f_entries f)) (map_to_list (ds_f1 st)) (mtl_nodup _)). intros x _. apply mtl_nodup.
  - rewrite (map_fst_perm _ _ E4). cbn. pose proof (mtl_nodup (ds_f1 st)) as Hn. revert Hn. generalize (map_to_list (ds_f1 st)) as l.
    induction l as [|[s f] l IH]; cbn [map fst omap list_omap snd]; intros Hn; [constructor|]. apply NoDup_cons in Hn as [Hs Hn].
    destruct (f_data f); [|by apply IH]. cbn [map fst]. apply NoDup_cons. split; [|by apply IH].
    intros Hx. apply elem_of_list_In, in_map_iff in Hx as ([s' dd] & E & Hx). cbn in E. subst s'. apply elem_of_list_In, elem_of_list_omap in Hx as ([s' f'] & Hx & Ex).
    cbn in Ex. destruct (f_data f'); [|done]. injection Ex as -> _. apply Hs. apply (elem_of_list_fmap_1 fst _ _ Hx).
  - rewrite (map_fst_perm _ _ E5). apply (flat_nodup f_slashes (map_to_list (ds_f1 st)) (mtl_nodup _)). intros [s f] Hx. apply elem_of_map_to_list in Hx.
    apply sorted_nodup. pose proof (fk_sort _ _ (dk_f _ HK s)) as Hs. unfold getf in Hs. by rewrite Hx in Hs.
  - intros [s k] Hx. apply bool_decide_eq_true. rewrite (map_fst_perm _ _ E3). apply elem_of_list_In in Hx. rewrite (map_fst_perm _ _ E5) in Hx.
    apply elem_of_list_In, in_map_iff in Hx as ([[s' k'] fr] & [= -> ->] & Hx). apply elem_of_list_In, per_staker_elem in Hx; [|done].
    destruct (fk_slash _ _ (dk_f _ HK s) _ _ Hx) as [[v Hv] _].
    apply elem_of_list_In, in_map_iff. exists (s, k, v). split; [done|]. apply elem_of_list_In, per_staker_elem; [done|]. by apply elem_of_map_to_list.
  - rewrite (map_fst_perm _ _ E6). apply mtl_nodup.
  - intros i Hx. apply elem_of_list_In in Hx. rewrite (map_fst_perm _ _ E6) in Hx. apply elem_of_list_In, in_map_iff in Hx as ([i' e] & <- & Hx).
    apply elem_of_list_In in Hx. change (dg_queue (export_d st)) with (map_to_list (ds_queue st)) in Hx. apply elem_of_map_to_list in Hx. destruct (dk_queue _ HK i') as [H1 H2]; [by eexists|]. unfold within. rewrite E7, E8. cbn. lia.
  - rewrite E9. by apply cool_nodup.
  - by rewrite E1.
Qed.
