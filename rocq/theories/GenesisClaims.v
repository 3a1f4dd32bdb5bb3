(** * C50: the exported genesis of a reachable chain, its validation and its import. *)
From stdpp Require Import sorting.
From Verif Require Import Base BaseFacts Delegation F1Spec F1Refine DelegationInv DelegationProps DelegationClaims Stakers StakersInv StakersClaims
  Funders Team TeamInv TeamRun TeamClaims RoundRobin Pool Bundles Chain ChainFrame ArchiveInv ChainLift Query IndexInv Params
  Genesis GenesisInv GenesisFacts GenesisDelegation GenesisStakers.

(** ** The same records in any order *)
Record cgen_eqv (g g' : cgen) : Prop := mkCGE {
  cge_d : dgen_eqv (cg_d g) (cg_d g');
  cge_s : sgen_eqv (cg_s g) (cg_s g');
  cge_fp : fg_params (cg_f g) = fg_params (cg_f g');
  cge_funders : fg_funders (cg_f g) ≡ₚ fg_funders (cg_f g');
  cge_fundings : fg_fundings (cg_f g) ≡ₚ fg_fundings (cg_f g');
  cge_states : fg_states (cg_f g) ≡ₚ fg_states (cg_f g');
  cge_pp : pg_params (cg_p g) = pg_params (cg_p g');
  cge_pools : pg_pools (cg_p g) ≡ₚ pg_pools (cg_p g');
  cge_pcount : pg_count (cg_p g) = pg_count (cg_p g');
  cge_bp : bg_params (cg_b g) = bg_params (cg_b g');
  cge_props : bg_props (cg_b g) ≡ₚ bg_props (cg_b g');
  cge_fin : bg_fin (cg_b g) ≡ₚ bg_fin (cg_b g');
  cge_rr : bg_rr (cg_b g) ≡ₚ bg_rr (cg_b g');
  cge_rewards : tg_rewards (cg_t g) = tg_rewards (cg_t g');
  cge_claimed : tg_claimed (cg_t g) = tg_claimed (cg_t g');
  cge_accounts : tg_accounts (cg_t g) ≡ₚ tg_accounts (cg_t g');
  cge_tcount : tg_count (cg_t g) = tg_count (cg_t g');
  cge_burn : cg_burn g = cg_burn g'
}.
(** Everything the modules store is there again. *)
Record restored (c c' : chain) : Prop := mkRestored {
  rs_d : drestored (c_d c) (c_d c');
  rs_s : srestored (c_s c) (c_s c');
  rs_fp : fs_params (c_f c') = fs_params (c_f c);
  rs_funders : fs_funders (c_f c') = fs_funders (c_f c);
  rs_fundings : fs_fundings (c_f c') = fs_fundings (c_f c);
  rs_active : fs_active (c_f c') = fs_active (c_f c);
  rs_pools : c_pools c' = c_pools c;
  rs_pp : c_pp c' = c_pp c;
  rs_prop : c_prop c' = c_prop c;
  rs_fin : c_fin c' = c_fin c;
  rs_idx : c_idx c' = c_idx c;
  rs_rr : c_rr c' = c_rr c;
  rs_bp : c_bp c' = c_bp c;
  rs_accounts : ts_accounts (c_t c') = ts_accounts (c_t c);
  rs_rewards : ts_arewards (c_t c') = ts_arewards (c_t c);
  rs_claimed : ts_aclaimed (c_t c') = ts_aclaimed (c_t c);
  rs_burn : c_burn c' = c_burn c
}.

(** ** The single modules *)
Lemma imap_keys (l : list vacc) : map fst (imap (fun i a => (N.of_nat i, a)) l) = map N.of_nat (seq 0 (length l)).
Proof.
  apply list_eq. intros i. change (map fst ?x) with (fst <$> x). change (map N.of_nat ?x) with (N.of_nat <$> x).
  rewrite !list_lookup_fmap, list_lookup_imap. destruct (l !! i) as [a|] eqn:E.
  - rewrite lookup_seq_lt by (by eapply lookup_lt_Some). done.
  - rewrite lookup_seq_ge by (by apply lookup_ge_None). done.
Qed.
Lemma imap_elem (l : list vacc) i a : (i, a) ∈ imap (fun i a => (N.of_nat i, a)) l <-> l !! N.to_nat i = Some a.
Proof.
  rewrite elem_of_lookup_imap. split.
  - intros (j & y & [= -> ->] & H). by rewrite Nat2N.id.
  - intros H. exists (N.to_nat i), a. by rewrite N2Nat.id.
Qed.
Lemma omap_same {A B} (f g : A -> option B) (l : list A) : (forall x, x ∈ l -> f x = g x) -> omap f l = omap g l.
Proof.
  induction l as [|x l IH]; intros H; [done|]. cbn. rewrite (H x) by (by left). destruct (g x); [f_equal|]; apply IH; intros y Hy; apply H; by right.
Qed.
Lemma seq_omap (l : list vacc) : omap (fun i => l !! i) (seq 0 (length l)) = l.
Proof.
  induction l as [|a l IH] using rev_ind; [done|]. rewrite app_length, Nat.add_1_r, seq_S, Nat.add_0_l, omap_app. f_equal.
  - rewrite <- IH at 2. apply omap_same. intros i Hi. apply elem_of_seq in Hi. apply lookup_app_l. lia.
  - cbn. rewrite lookup_app_r by lia. by rewrite Nat.sub_diag.
Qed.
Lemma import_t_restores st g b t : tg_accounts g ≡ₚ tg_accounts (export_t st) -> tg_count g = tg_count (export_t st) ->
  ts_accounts (import_t g b t) = ts_accounts st.
Proof.
  intros E1 E2. cbn. rewrite E2. cbn. rewrite Nat2N.id.
  set (m := fold_left _ (tg_accounts g) ∅).
  assert (Hm : forall i, m !! i = ts_accounts st !! N.to_nat i).
  { intros i. unfold m. apply (fold_restore (fun (m : gmap N vacc) x => <[fst x := snd x]> m) fst snd (fun m k => m !! k)) with (k := i) (look0 := fun k => ts_accounts st !! N.to_nat k).
    - intros st1 x k. destruct (decide (fst x = k)) as [<-|Hne]; [by rewrite lookup_insert|by rewrite lookup_insert_ne].
    - apply lookup_empty.
    - intros k v. rewrite <- imap_elem. change (imap _ _) with (tg_accounts (export_t st)). rewrite <- E1.
      split; [intros Hx; by exists (k, v)|]. intros ([k' v'] & Hx & <- & <-). done. }
  rewrite <- (seq_omap (ts_accounts st)) at 2. apply omap_same. intros i _. rewrite Hm. by rewrite Nat2N.id.
Qed.
Lemma import_fin_restores c g : AInv c -> bg_fin g ≡ₚ map_to_list (c_fin c) -> import_fin (bg_fin g) = (c_fin c, c_idx c).
Proof.
  intros HI HP. unfold import_fin. set (put := fun (m : gmap (N * N) fbundle * gmap (N * Z) N) (x : N * N * fbundle) => _).
  rewrite (surjective_pairing (fold_left put (bg_fin g) (∅, ∅))). f_equal; apply map_eq.
  - apply (fold_restore put fst snd (fun m k => fst m !! k)).
    + intros st x k. cbn. destruct (decide (fst x = k)) as [<-|Hne]; [by rewrite lookup_insert|by rewrite lookup_insert_ne].
    + intros k. apply lookup_empty.
    + intros k v. rewrite <- elem_of_map_to_list, <- HP. split; [intros Hx; by exists (k, v)|]. intros ([k' v'] & Hx & <- & <-). done.
  - apply (fold_restore put (fun x => (fst (fst x), fb_from (snd x))) (fun x => snd (fst x)) (fun m k => snd m !! k)).
    + intros st x k. cbn. destruct (decide (_ = k)) as [<-|Hne]; [by rewrite lookup_insert|by rewrite lookup_insert_ne].
    + intros k. apply lookup_empty.
    + intros [p i] id. assert (H : c_idx c !! (p, i) = Some id <-> exists f, c_fin c !! (p, id) = Some f /\ fb_from f = i).
      { destruct (get_pool c p) as [pl|] eqn:E; [apply (ar_idx _ _ _ _ _ (ai_arch _ HI _ _ E))|]. destruct (ai_none _ HI _ E) as (_ & H1 & H2).
        rewrite H2. split; [done|]. intros (f & Hf & _). by rewrite H1 in Hf. }
      rewrite H. split.
      * intros (f & Hf & <-). exists (p, id, f). rewrite HP. by rewrite elem_of_map_to_list.
      * intros ([[p' id'] f] & Hx & [= -> <-] & Ei). cbn in Ei. subst id'. exists f. rewrite HP in Hx. by apply elem_of_map_to_list in Hx.
Qed.
Lemma funders_import l (s : gset N) : l ≡ₚ elements s -> fold_left (fun (m : gset N) a => {[a]} ∪ m) l ∅ = s.
Proof.
  intros HP. assert (H : forall l (m : gset N) a, a ∈ fold_left (fun (m : gset N) a => {[a]} ∪ m) l m <-> a ∈ l \/ a ∈ m).
  { clear. induction l as [|x l IH]; intros m a; cbn [fold_left]; [set_solver|]. rewrite IH. set_solver. }
  apply set_eq. intros a. rewrite H, HP, elem_of_elements. set_solver.
Qed.

(** ** The archive has no gaps *)
Lemma gapless_ok l : forall m, StronglySorted id_le l -> NoDup (map fst l) ->
  (forall p id, (p, id) ∈ map fst l -> (default 0 (m !! p) <= id)%N /\ forall id', (default 0 (m !! p) <= id' < id)%N -> (p, id') ∈ map fst l) ->
  gapless m l = true.
Proof.
  induction l as [|[[p id] f] l IH]; intros m Hs Hn Hm; cbn [gapless]; [done|]. cbn [map fst] in Hn, Hm.
  apply NoDup_cons in Hn as [Hx Hn]. inversion Hs as [|? ? Hs' HF]; subst.
  assert (Hge : forall q j, (q, j) ∈ map fst l -> (id <= j)%N).
  { intros q j Hj. apply elem_of_list_In, in_map_iff in Hj as ([[q' j'] f'] & [= -> ->] & Hj). apply elem_of_list_In in Hj.
    eapply Forall_forall in HF; [|exact Hj]. exact HF. }
  assert (Ep : (default 0 (m !! p) = id)%N).
  { destruct (Hm p id) as [H1 H2]; [by left|]. destruct (decide (default 0 (m !! p) = id)%N) as [|Hne]; [done|]. exfalso.
    specialize (H2 (default 0 (m !! p))%N). apply elem_of_cons in H2 as [[= H2]|H2]; [congruence| |lia]. apply Hge in H2. lia. }
  rewrite Ep, N.eqb_refl. apply IH; [done..|]. intros q j Hj. destruct (Hm q j) as [H1 H2]; [by right|].
  destruct (decide (p = q)) as [<-|Hne].
  - rewrite lookup_insert. cbn [from_option Datatypes.id]. assert (j <> id) by (intros ->; done). pose proof (Hge _ _ Hj). split; [lia|].
    intros id' Hi. assert (Hin : (p, id') ∈ (p, id) :: map fst l) by (apply H2; lia).
    apply elem_of_cons in Hin as [[= ->]|Hin]; [lia|done].
  - rewrite lookup_insert_ne by done. split; [done|]. intros id' Hi. apply H2 in Hi. apply elem_of_cons in Hi as [[= -> _]|Hi]; [done|done].
Qed.
Global Instance id_le_trans : Transitive id_le.
Proof. intros x y z. unfold id_le. lia. Qed.
Global Instance id_le_total : Total id_le.
Proof. intros x y. unfold id_le. lia. Qed.
Lemma validate_b_export c g : AInv c -> bparams_valid (c_bp c) = true ->
  bg_params g = c_bp c -> bg_props g ≡ₚ map_to_list (c_prop c) -> bg_fin g ≡ₚ map_to_list (c_fin c) -> validate_b g = true.
Proof.
  intros HI Hp E1 E2 E3. unfold validate_b. rewrite !andb_true_iff, !fresh_nodup. split_and!.
  - rewrite (map_fst_perm _ _ E2). apply mtl_nodup.
  - rewrite (map_fst_perm _ _ E3). apply mtl_nodup.
  - assert (HP : merge_sort id_le (bg_fin g) ≡ₚ map_to_list (c_fin c)) by (etransitivity; [apply merge_sort_Permutation|exact E3]).
    apply gapless_ok.
    + apply StronglySorted_merge_sort; apply _.
    + rewrite (map_fst_perm _ _ HP). apply mtl_nodup.
    + intros p id. rewrite (map_fst_perm _ _ HP), lookup_empty. cbn [from_option]. intros Hx. split; [lia|]. intros id' Hi.
      apply elem_of_list_In, in_map_iff in Hx as ([[p' j] f] & [= -> ->] & Hx). apply elem_of_list_In, elem_of_map_to_list in Hx.
      destruct (get_pool c p) as [pl|] eqn:E; [|destruct (ai_none _ HI _ E) as (_ & H1 & _); by rewrite H1 in Hx].
      pose proof (ar_ids _ _ _ _ _ (ai_arch _ HI _ _ E)) as Hids.
      assert (Hid : (id < pl_total pl)%N) by (apply Hids; eauto).
      destruct (proj2 (Hids id')) as [f' Hf']; [lia|]. apply elem_of_list_In, in_map_iff. exists (p, id', f'). split; [done|].
      apply elem_of_list_In. rewrite HP. by apply elem_of_map_to_list.
  - by rewrite E1.
Qed.
Lemma validate_p_export c g : AInv c -> pparams_valid (c_pp c) = true -> pg_params g = c_pp c ->
  pg_pools g ≡ₚ map_to_list (ps_pools (c_pools c)) -> pg_count g = ps_count (c_pools c) -> validate_p g = true.
Proof.
  intros HI Hp E1 E2 E3. unfold validate_p. rewrite !andb_true_iff, !fresh_nodup, forallb_forall. split_and!.
  - rewrite (map_fst_perm _ _ E2). apply mtl_nodup.
  - intros id Hx. apply elem_of_list_In in Hx. rewrite (map_fst_perm _ _ E2) in Hx. apply elem_of_list_In, in_map_iff in Hx as ([i pl] & <- & Hx).
    apply elem_of_list_In, elem_of_map_to_list in Hx. rewrite E3. cbn [fst]. apply N.ltb_lt. apply (ai_pools _ HI). eexists. exact Hx.
  - by rewrite E1.
Qed.
Lemma validate_t_export st g : tg_rewards g = ts_arewards st -> tg_claimed g = ts_aclaimed st ->
  tg_accounts g ≡ₚ tg_accounts (export_t st) -> tg_count g = tg_count (export_t st) ->
  validate_t g = true <-> ts_aclaimed st <= ts_arewards st.
Proof.
  intros E1 E2 E3 E4. unfold validate_t. rewrite !andb_true_iff, fresh_nodup, forallb_forall, E1, E2, E4.
  assert (H1 : NoDup (map fst (tg_accounts g))). { rewrite (map_fst_perm _ _ E3). cbn. rewrite imap_keys. apply (NoDup_fmap_2 N.of_nat), NoDup_seq. }
  assert (H2 : forall x, In x (map fst (tg_accounts g)) -> (x <? tg_count (export_t st))%N = true).
  { intros x Hx. apply elem_of_list_In in Hx. rewrite (map_fst_perm _ _ E3) in Hx. cbn in Hx. rewrite imap_keys in Hx.
    apply elem_of_list_In, in_map_iff in Hx as (i & <- & Hi). apply in_seq in Hi. cbn. lia. }
  split; [intros [_ H]; lia|]. intros H. split; [done|lia].
Qed.

(** ** The chain *)
Section chain.
  Context (g0 : gen) (Hg : genesis g0) (ops : list cop) (Hok : cops_ok (gstart g0) ops).
  Let c := crun (gstart g0) ops.
  Local Instance any : joiners := fun _ _ => True.
  Lemma chain_DK : DK (c_d c) /\ (forall s, f_halt (getf (c_d c) s) = false) /\ dparams_valid (ds_params (c_d c)) = true.
  Proof.
    pose proof (G_run g0 Hg ops Hok) as HG. fold c in HG. destruct (g_d _ _ HG) as (dl & Hd & E & _).
    destruct Hg as (_ & _ & _ & Hp & _).
    assert (HK : DK (d_in c)) by (rewrite E; apply DK_run, DK_init).
    assert (Hh : forall s, f_halt (getf (d_in c) s) = false).
    { intros s. rewrite E. by apply (claim_no_halt (g0_bank g0) (g0_dp g0) (g0_time g0) dl Hp Hd s). }
    assert (Hv : dparams_valid (ds_params (d_in c)) = true) by (rewrite E; by apply dparams_run).
    split; [|done]. apply (DK_same (d_in c)); [done|exact (dk_f _ HK)|done].
  Qed.
  Lemma chain_SK : SK (c_s c) /\ MI (c_s c).
  Proof.
    pose proof (G_run g0 Hg ops Hok) as HG. fold c in HG. destruct (g_s _ _ HG) as (sl & Hs & E).
    assert (HK : SK (s_in c)) by (rewrite E; apply SK_run, SK_init).
    assert (HM : MI (s_in c)) by (rewrite E; apply MI_run; [done|apply MI_init]).
    split; [by apply (SK_vals (s_in c))|]. by apply (MI_ext (s_in c)).
  Qed.
  Lemma chain_AI : AInv c.
  Proof. apply AInv_run; [apply AInv_init|done]. Qed.

  (** The import restores every store. *)
  Lemma genesis_restores g b t h : cgen_eqv g (export c) -> restored c (import g b t h).
  Proof.
    intros E. destruct chain_DK as (HK & Hh & _). destruct chain_SK as (HS & HM). pose proof chain_AI as HI.
    pose proof (import_fin_restores c (cg_b g) HI (cge_fin _ _ E)) as Hf.
    split.
    - apply import_d_restores; [done..|]. apply (cge_d _ _ E).
    - apply import_s_restores; [done..|]. apply (cge_s _ _ E).
    - apply (cge_fp _ _ E).
    - apply funders_import, (cge_funders _ _ E).
    - apply fold_map, (cge_fundings _ _ E).
    - apply fold_map, (cge_states _ _ E).
    - unfold import, import_p. cbn [c_pools]. rewrite (fold_map (ps_pools (c_pools c))) by apply (cge_pools _ _ E).
      rewrite (cge_pcount _ _ E). cbn. by destruct (c_pools c).
    - apply (cge_pp _ _ E).
    - apply fold_map, (cge_props _ _ E).
    - unfold import. cbn [c_fin]. by rewrite Hf.
    - unfold import. cbn [c_idx]. by rewrite Hf.
    - apply fold_map, (cge_rr _ _ E).
    - apply (cge_bp _ _ E).
    - apply import_t_restores; [apply (cge_accounts _ _ E)|apply (cge_tcount _ _ E)].
    - apply (cge_rewards _ _ E).
    - apply (cge_claimed _ _ E).
    - apply (cge_burn _ _ E).
  Qed.
  (** Which of the exported states are accepted. *)
  Lemma genesis_valid g : cgen_eqv g (export c) ->
    validate_d (cg_d g) = true /\ validate_p (cg_p g) = true /\ validate_b (cg_b g) = true /\
    (validate_s (cg_s g) = true <-> ~ stale (c_s c)) /\
    (validate_f (cg_f g) = true <-> fparams_valid (fs_params (c_f c)) = true) /\
    (validate_t (cg_t g) = true <-> ts_aclaimed (c_t c) <= ts_arewards (c_t c)).
  Proof.
    intros E. destruct chain_DK as (HK & Hh & Hp). destruct chain_SK as (HS & HM). pose proof chain_AI as HI.
    pose proof (g_par _ _ (G_run g0 Hg ops Hok)) as (P1 & _ & P2 & _). fold c in P1, P2.
    split_and!.
    - eapply validate_d_export; [done..|]. apply (cge_d _ _ E).
    - apply (validate_p_export c); [done..|apply (cge_pp _ _ E)|apply (cge_pools _ _ E)|apply (cge_pcount _ _ E)].
    - apply (validate_b_export c); [done..|apply (cge_bp _ _ E)|apply (cge_props _ _ E)|apply (cge_fin _ _ E)].
    - apply validate_s_export; [done|]. apply (cge_s _ _ E).
    - unfold validate_f. rewrite !fresh_no_insert_true. cbn [andb]. by rewrite (cge_fp _ _ E).
    - apply validate_t_export; [apply (cge_rewards _ _ E)|apply (cge_claimed _ _ E)|apply (cge_accounts _ _ E)|apply (cge_tcount _ _ E)].
  Qed.
End chain.
(** The state of x/team within the bounds under which C44 is proved. *)
Lemma team_valid b t ops g : treach44 b t ops -> tg_rewards g = ts_arewards (tend b t ops) -> tg_claimed g = ts_aclaimed (tend b t ops) ->
  tg_accounts g ≡ₚ tg_accounts (export_t (tend b t ops)) -> tg_count g = tg_count (export_t (tend b t ops)) -> validate_t g = true.
Proof.
  intros Hr E1 E2 E3 E4. apply (validate_t_export (tend b t ops)); [done..|]. apply (rewards_backed b t ops Hr).
Qed.

(** ** Duplicates *)
Lemma duplicates_d g : validate_d g = true ->
  NoDup (map fst (dg_delegators g)) /\ NoDup (map fst (dg_entries g)) /\ NoDup (map fst (dg_data g)) /\ NoDup (map fst (dg_slashes g)) /\
  NoDup (map fst (dg_queue g)) /\ NoDup (dg_cool g).
Proof. unfold validate_d. rewrite !andb_true_iff, !fresh_nodup. tauto. Qed.
Lemma duplicates_s g : validate_s g = true ->
  NoDup (map fst (sg_vals g)) /\ NoDup (map fst (sg_centries g)) /\ NoDup (map (fun x => (le_pool (snd x), le_staker (snd x))) (sg_lentries g)).
Proof. rewrite validate_s_spec. intros [H1 H2 _ _ H3 _ _]. done. Qed.
Lemma duplicates_p g : validate_p g = true -> NoDup (map fst (pg_pools g)).
Proof. unfold validate_p. rewrite !andb_true_iff, !fresh_nodup. tauto. Qed.
Lemma duplicates_b g : validate_b g = true -> NoDup (map fst (bg_props g)) /\ NoDup (map fst (bg_fin g)).
Proof. unfold validate_b. rewrite !andb_true_iff, !fresh_nodup. tauto. Qed.
Lemma duplicates_t g : validate_t g = true -> NoDup (map fst (tg_accounts g)).
Proof. unfold validate_t. rewrite !andb_true_iff, !fresh_nodup. tauto. Qed.
(** x/funders accepts any list of funders, of fundings and of funding states. *)
Lemma funders_accepts_all p l1 l2 l3 : validate_f (mkFG p l1 l2 l3) = fparams_valid p.
Proof. unfold validate_f. by rewrite !fresh_no_insert_true. Qed.
