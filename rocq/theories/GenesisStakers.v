(** * Export, validation and import of x/stakers. *)
From stdpp Require Import sorting.
From Verif Require Import Base BaseFacts Delegation Stakers StakersInv Genesis GenesisInv GenesisFacts GenesisDelegation.

Record sgen_eqv (g g' : sgen) : Prop := mkSGE {
  sge_ctime : sg_ctime g = sg_ctime g';
  sge_ltime : sg_ltime g = sg_ltime g';
  sge_stakers : sg_stakers g ≡ₚ sg_stakers g';
  sge_vals : sg_vals g ≡ₚ sg_vals g';
  sge_centries : sg_centries g ≡ₚ sg_centries g';
  sge_lentries : sg_lentries g ≡ₚ sg_lentries g';
  sge_clow : sg_clow g = sg_clow g';
  sge_chigh : sg_chigh g = sg_chigh g';
  sge_llow : sg_llow g = sg_llow g';
  sge_lhigh : sg_lhigh g = sg_lhigh g'
}.
Record srestored (st st' : sstate) : Prop := mkSR {
  sr_stakers : ss_stakers st' = ss_stakers st;
  sr_vals : forall p s, get_val st' p s = get_val st p s;
  sr_count : forall p, count_of st' p = count_of st p;
  sr_active : ss_active st' = ss_active st;
  sr_centries : ss_centries st' = ss_centries st;
  sr_cindex : ss_cindex st' = ss_cindex st;
  sr_clow : ss_clow st' = ss_clow st;
  sr_chigh : ss_chigh st' = ss_chigh st;
  sr_lentries : ss_lentries st' = ss_lentries st;
  sr_lindex : ss_lindex st' = ss_lindex st;
  sr_llow : ss_llow st' = ss_llow st;
  sr_lhigh : ss_lhigh st' = ss_lhigh st;
  sr_ctime : ss_ctime st' = ss_ctime st;
  sr_ltime : ss_ltime st' = ss_ltime st
}.

(** ** Counting the memberships *)
Lemma vals_elem st p s v : (p, s, v) ∈ sg_vals (export_s st) <-> get_val st p s = Some v.
Proof.
  cbn. change (flat_map _ _) with (flat (fun m : gmap N valacc => map_to_list m) (map_to_list (ss_val st))). rewrite flat_elem.
  unfold get_val, vals_of. split.
  - intros (m & Hm & Hx). apply elem_of_map_to_list in Hm. apply elem_of_map_to_list in Hx. by rewrite Hm.
  - destruct (ss_val st !! p) as [m|] eqn:E; cbn; [|by rewrite lookup_empty]. intros Hv. exists m. by rewrite !elem_of_map_to_list.
Qed.
Lemma flat_cons {A B} (m : A -> list (N * B)) k a l : flat m ((k, a) :: l) = map (fun y : N * B => (k, fst y, snd y)) (m a) ++ flat m l.
Proof. done. Qed.
Lemma flat_perm {A B} (m : A -> list (N * B)) l l' : l ≡ₚ l' -> flat m l ≡ₚ flat m l'.
Proof. intros H. unfold flat. by apply Permutation_flat_map. Qed.
Definition nrec (Q : N * N * valacc -> bool) (l : list (N * N * valacc)) : nat := length (List.filter Q l).
Lemma nrec_perm Q l l' : l ≡ₚ l' -> nrec Q l = nrec Q l'.
Proof.
  unfold nrec. induction 1 as [|x l l' H IH|x y l|l1 l2 l3 H1 IH1 H2 IH2]; cbn; [done| | |congruence].
  - destruct (Q x); cbn; congruence.
  - by destruct (Q x), (Q y).
Qed.
Lemma nrec_app Q l l' : nrec Q (l ++ l') = (nrec Q l + nrec Q l')%nat.
Proof. unfold nrec. by rewrite List.filter_app, app_length. Qed.
Lemma nrec_cons Q x l : nrec Q (x :: l) = ((if Q x then 1 else 0) + nrec Q l)%nat.
Proof. unfold nrec. cbn [List.filter]. by destruct (Q x). Qed.
Definition vlist (m : gmap N (gmap N valacc)) : list (N * N * valacc) := flat (fun m : gmap N valacc => map_to_list m) (map_to_list m).
Lemma vlist_export st : sg_vals (export_s st) = vlist (ss_val st). Proof. done. Qed.
Lemma vlist_insert Q m i x : m !! i = None ->
  nrec Q (vlist (<[i := x]> m)) = (nrec Q (map (fun y : N * valacc => (i, fst y, snd y)) (map_to_list x)) + nrec Q (vlist m))%nat.
Proof.
  intros Hi. unfold vlist. pose proof (flat_perm (fun m : gmap N valacc => map_to_list m) _ _ (map_to_list_insert m i x Hi)) as HP.
  rewrite (nrec_perm Q _ _ HP), flat_cons, nrec_app. done.
Qed.
Lemma nrec_pool st p : nrec (fun x => (fst (fst x) =? p)%N) (sg_vals (export_s st)) = size (vals_of st p).
Proof.
  rewrite vlist_export. unfold vals_of. generalize (ss_val st) as m. induction m as [|i x m Hi IH] using map_ind.
  - rewrite lookup_empty. done.
  - rewrite (vlist_insert _ _ _ _ Hi), IH.
    assert (Hall : forall (c : bool) l, nrec (fun z => (fst (fst z) =? p)%N) (map (fun y : N * valacc => (i, fst y, snd y)) l) = if (i =? p)%N then length l else 0%nat).
    { intros _ l. induction l as [|y l IHl]; [by destruct (i =? p)%N|]. unfold nrec in *. cbn. destruct (i =? p)%N; cbn; by rewrite IHl. }
    rewrite (Hall true). destruct (i =? p)%N eqn:E.
    + apply N.eqb_eq in E as ->. rewrite lookup_insert, Hi. cbn. rewrite Nat.add_0_r. done.
    + apply N.eqb_neq in E. by rewrite lookup_insert_ne by done.
Qed.
Lemma one_rec (m : gmap N valacc) i s : nrec (fun x => (snd (fst x) =? s)%N) (map (fun y : N * valacc => (i, fst y, snd y)) (map_to_list m))
  = match m !! s with Some _ => 1%nat | None => 0%nat end.
Proof.
  induction m as [|k x m Hk IH] using map_ind; [by rewrite map_to_list_empty, lookup_empty|].
  rewrite (nrec_perm _ _ _ (Permutation_map _ (map_to_list_insert m k x Hk))). cbn [map fst snd].
  change (nrec ?q (?a :: ?l)) with (nrec q ([a] ++ l)). rewrite nrec_app, IH. unfold nrec. cbn. destruct (k =? s)%N eqn:E.
  - apply N.eqb_eq in E as ->. by rewrite lookup_insert, Hk.
  - apply N.eqb_neq in E. by rewrite lookup_insert_ne.
Qed.
Lemma nrec_staker st s : Z.of_nat (nrec (fun x => (snd (fst x) =? s)%N) (sg_vals (export_s st))) = npools st s.
Proof.
  rewrite vlist_export. unfold npools. generalize (ss_val st) as m. induction m as [|i x m Hi IH] using map_ind; [done|].
  rewrite (vlist_insert _ _ _ _ Hi), Nat2Z.inj_add, IH, one_rec.
  rewrite msum_insert, Hi. unfold in_map. destruct (x !! s); lia.
Qed.

Section vals.
  Lemma put_val_get st x p s : get_val (put_val st x) p s = if decide (fst x = (p, s)) then Some (snd x) else get_val st p s.
  Proof.
    destruct x as [[p' s'] v]. unfold put_val. cbn [fst snd].
    change (get_val (with_counts ?y _ _) p s) with (get_val y p s). rewrite get_set_val.
    destruct (decide (p' = p /\ s' = s)) as [[-> ->]|Hn]; [by rewrite decide_True|]. rewrite decide_False; [done|]. intros [= -> ->]. by apply Hn.
  Qed.
  Lemma put_val_count l : forall st p, count_of (fold_left put_val l st) p =
    if decide (l = []) then count_of st p else if (nrec (fun x => (fst (fst x) =? p)%N) l =? 0)%nat then count_of st p
    else (count_of st p + Z.of_nat (nrec (fun x => (fst (fst x) =? p)%N) l)) mod two64.
  Proof.
    intros st p. destruct (decide (l = [])) as [->|_]; [done|]. revert st. induction l as [|[[p' s'] v] l IH]; intros st; cbn [fold_left]; [done|].
    rewrite IH, nrec_cons. cbn [fst snd].
    assert (E : count_of (put_val st (p', s', v)) p = if (p' =? p)%N then u64_add (count_of st p) 1 else count_of st p).
    { unfold put_val, count_of. cbn. destruct (p' =? p)%N eqn:E.
      - apply N.eqb_eq in E as ->. by rewrite lookup_insert.
      - apply N.eqb_neq in E. by rewrite lookup_insert_ne. }
    rewrite E. destruct (p' =? p)%N; [|rewrite Nat.add_0_l; done].
    set (n := nrec _ l). clearbody n. destruct (n =? 0)%nat eqn:En.
    - apply Nat.eqb_eq in En as ->. unfold u64_add, w64. cbn [Nat.add Nat.eqb]. f_equal.
    - unfold u64_add, w64. cbn [Nat.add Nat.eqb]. rewrite Zplus_mod_idemp_l. f_equal. lia.
  Qed.
  Lemma put_val_active l : forall st s, ss_active (fold_left put_val l st) !! s =
    if (nrec (fun x => (snd (fst x) =? s)%N) l =? 0)%nat then ss_active st !! s
    else Some (default 0 (ss_active st !! s) + Z.of_nat (nrec (fun x => (snd (fst x) =? s)%N) l)).
  Proof.
    induction l as [|[[p' s'] v] l IH]; intros st s; cbn [fold_left]; [done|].
    rewrite IH, nrec_cons. cbn [fst snd].
    unfold put_val at 1 2. cbn [with_counts ss_active fst snd]. set (n := nrec _ l). clearbody n. destruct (s' =? s)%N eqn:E.
    - apply N.eqb_eq in E as ->. rewrite lookup_insert. cbn [Nat.add Nat.eqb default]. destruct (n =? 0)%nat eqn:En.
      + apply Nat.eqb_eq in En as ->. done.
      + f_equal. unfold default, id. lia.
    - apply N.eqb_neq in E. rewrite lookup_insert_ne by done. done.
  Qed.
End vals.

Definition sempty (g : sgen) (b : bank) (t : Z) : sstate := mkSS ∅ ∅ ∅ ∅ ∅ ∅ 0 0 ∅ ∅ 0 0 (sg_ctime g) (sg_ltime g) t b.
Definition sq (st : sstate) := (ss_centries st, ss_cindex st, ss_lentries st, ss_lindex st, (ss_ctime st, ss_ltime st)).
Definition sm (st : sstate) := (ss_stakers st, ss_val st, ss_count st, ss_active st, (ss_ctime st, ss_ltime st)).

Lemma import_s_restores st g b t : MI st -> SK st -> sgen_eqv g (export_s st) -> srestored st (import_s g b t).
Proof.
  intros HM HK [E1 E2 E3 E4 E5 E6 E7 E8 E9 E10].
  set (e := sempty g b t). set (s1 := fold_left put_staker (sg_stakers g) e). set (s2 := fold_left put_val (sg_vals g) s1).
  set (s3 := fold_left put_centry (sg_centries g) s2). set (s4 := fold_left put_lentry (sg_lentries g) s3).
  change (import_s g b t) with (with_lq (with_cq s4 (ss_centries s4) (ss_cindex s4) (sg_clow g) (sg_chigh g)) (ss_lentries s4) (ss_lindex s4) (sg_llow g) (sg_lhigh g)).
  assert (Q2 : sq s2 = sq e). { unfold s2, s1. rewrite (fold_frame put_val sq), (fold_frame put_staker sq); done. }
  assert (M4 : sm s4 = sm s2). { unfold s4, s3. rewrite (fold_frame put_lentry sm), (fold_frame put_centry sm); done. }
  assert (C4 : (ss_centries s4, ss_cindex s4) = (ss_centries s3, ss_cindex s3)).
  { unfold s4. by rewrite (fold_frame put_lentry (fun st => (ss_centries st, ss_cindex st))). }
  assert (L3 : (ss_lentries s3, ss_lindex s3) = (ss_lentries s2, ss_lindex s2)).
  { unfold s3. by rewrite (fold_frame put_centry (fun st => (ss_lentries st, ss_lindex st))). }
  unfold sq in Q2. unfold sm in M4. injection Q2 as A1 A2 A3 A4 A5 A6. injection M4 as B1 B2 B3 B4 B5 B6. injection C4 as C1 C2. injection L3 as L1 L2.
  assert (V2 : forall p s, get_val s2 p s = get_val st p s).
  { intros p s. apply (fold_restore put_val fst snd (fun st k => get_val st (fst k) (snd k))) with (k := (p, s)) (look0 := fun k : N * N => get_val st (fst k) (snd k)).
    - intros st1 x [p1 s1']. cbn [fst snd]. by rewrite put_val_get.
    - intros [p1 s1']. cbn [fst snd]. unfold s1, get_val, vals_of. rewrite (fold_frame put_staker ss_val) by done. cbn. by rewrite lookup_empty.
    - intros [p1 s1'] v. cbn [fst snd]. rewrite <- vals_elem, <- E4. split; [intros Hx; by exists (p1, s1', v)|]. intros ([k v'] & Hx & <- & <-). done. }
  split; cbn [with_lq with_cq ss_stakers ss_val ss_count ss_active ss_centries ss_cindex ss_clow ss_chigh ss_lentries ss_lindex ss_llow ss_lhigh ss_ctime ss_ltime].
  - rewrite B1. unfold s2. rewrite (fold_frame put_val ss_stakers) by done. unfold s1. apply map_eq. intros s.
    apply (fold_restore put_staker fst snd (fun st k => ss_stakers st !! k)) with (k := s) (look0 := fun k => ss_stakers st !! k).
    + intros st1 x k. cbn. destruct (decide (fst x = k)) as [<-|Hne]; [by rewrite lookup_insert|by rewrite lookup_insert_ne].
    + intros k. apply lookup_empty.
    + intros k v. rewrite <- elem_of_map_to_list. change (map_to_list (ss_stakers st)) with (sg_stakers (export_s st)). rewrite <- E3.
      split; [intros Hx; by exists (k, v)|]. intros ([k' v'] & Hx & <- & <-). done.
  - intros p s. rewrite <- V2. unfold get_val, vals_of. cbn. by rewrite B2.
  - intros p. transitivity (count_of s2 p); [unfold count_of; cbn [with_lq with_cq ss_count]; by rewrite B3|].
    unfold s2. rewrite put_val_count.
    assert (Z0 : count_of s1 p = 0). { unfold s1, count_of. rewrite (fold_frame put_staker ss_count) by done. cbn. by rewrite lookup_empty. }
    rewrite Z0. rewrite (nrec_perm _ _ _ E4), nrec_pool. destruct (mi_count _ HM p) as [H1 H2].
    destruct (decide (sg_vals g = [])) as [En|_].
    { rewrite H1, <- nrec_pool, <- (nrec_perm _ _ _ E4), En. done. }
    destruct (size (vals_of st p) =? 0)%nat eqn:Es; [apply Nat.eqb_eq in Es; lia|].
    rewrite Z.mod_small; [lia|]. unfold MAX_STAKERS, two64 in *. lia.
  - rewrite B4. unfold s2. apply map_eq. intros s. rewrite put_val_active, (mi_active _ HM s).
    assert (Z0 : ss_active s1 !! s = None). { unfold s1. rewrite (fold_frame put_staker ss_active) by done. cbn. by rewrite lookup_empty. }
    rewrite Z0. rewrite (nrec_perm _ _ _ E4). rewrite <- nrec_staker. set (n := nrec _ _). clearbody n. cbn [default].
    destruct (n =? 0)%nat eqn:En; [apply Nat.eqb_eq in En as ->; done|]. apply Nat.eqb_neq in En.
    destruct (Z.of_nat n =? 0) eqn:Ez; [lia|]. f_equal.
  - rewrite C1. unfold s3. apply map_eq. intros i.
    apply (fold_restore put_centry fst snd (fun st k => ss_centries st !! k)) with (k := i) (look0 := fun k => ss_centries st !! k).
    + intros st1 x k. cbn. destruct (decide (fst x = k)) as [<-|Hne]; [by rewrite lookup_insert|by rewrite lookup_insert_ne].
    + intros k. rewrite A1. apply lookup_empty.
    + intros k v. rewrite <- elem_of_map_to_list. change (map_to_list (ss_centries st)) with (sg_centries (export_s st)). rewrite <- E5.
      split; [intros Hx; by exists (k, v)|]. intros ([k' v'] & Hx & <- & <-). done.
  - rewrite C2. unfold s3. apply map_eq. intros s.
    apply (fold_restore put_centry (fun x => ce_staker (snd x)) fst (fun st k => ss_cindex st !! k)) with (k := s) (look0 := fun k => ss_cindex st !! k).
    + intros st1 x k. cbn. destruct (decide (ce_staker (snd x) = k)) as [<-|Hne]; [by rewrite lookup_insert|by rewrite lookup_insert_ne].
    + intros k. rewrite A2. apply lookup_empty.
    + intros k i. split.
      * intros Hi. destruct (sk_cindex _ HK _ _ Hi) as (x & Hx & <-). exists (i, x). rewrite E5. split; [by apply elem_of_map_to_list|done].
      * intros ([i' x] & Hx & <- & <-). rewrite E5 in Hx. change (sg_centries (export_s st)) with (map_to_list (ss_centries st)) in Hx.
        apply elem_of_map_to_list in Hx. cbn. by apply (sk_centry _ HK).
  - exact E7.
  - exact E8.
  - unfold s4. apply map_eq. intros i.
    apply (fold_restore put_lentry fst snd (fun st k => ss_lentries st !! k)) with (k := i) (look0 := fun k => ss_lentries st !! k).
    + intros st1 x k. cbn. destruct (decide (fst x = k)) as [<-|Hne]; [by rewrite lookup_insert|by rewrite lookup_insert_ne].
    + intros k. rewrite L1, A3. apply lookup_empty.
    + intros k v. rewrite <- elem_of_map_to_list. change (map_to_list (ss_lentries st)) with (sg_lentries (export_s st)). rewrite <- E6.
      split; [intros Hx; by exists (k, v)|]. intros ([k' v'] & Hx & <- & <-). done.
  - assert (Hin : forall l st0 s p, (s, p) ∈ ss_lindex (fold_left put_lentry l st0) <-> (exists x, x ∈ l /\ le_staker (snd x) = s /\ le_pool (snd x) = p) \/ (s, p) ∈ ss_lindex st0).
    { clear. induction l as [|x l IH]; intros st0 s p; cbn [fold_left].
      - split; [by right|]. intros [(x & Hx & _)|H]; [by apply elem_of_nil in Hx|done].
      - rewrite IH. unfold put_lentry at 1. cbn [with_lq ss_lindex]. rewrite elem_of_union, elem_of_singleton. split.
        + intros [(y & Hy & H)|[[= -> ->]|H]]; [left; exists y; split; [by right|done]|left; exists x; split; [by left|done]|by right].
        + intros [(y & Hy & Es & Ep)|H]; [|by right; right]. apply elem_of_cons in Hy as [->|Hy]; [right; left; by rewrite <- Es, <- Ep|].
          left. by exists y. }
    unfold s4. apply set_eq. intros [s p]. rewrite Hin, L2, A4. split.
    + intros [([i x] & Hx & <- & <-)|H]; [|cbn in H; set_solver]. rewrite E6 in Hx. change (sg_lentries (export_s st)) with (map_to_list (ss_lentries st)) in Hx.
      apply elem_of_map_to_list in Hx. cbn. by apply (sk_lentry _ HK i x).
    + intros H. left. destruct (sk_lindex _ HK _ _ H) as (i & x & Hx & Es & Ep). exists (i, x). split; [|done]. rewrite E6. by apply elem_of_map_to_list.
  - exact E9.
  - exact E10.
  - rewrite B5, A5. exact E1.
  - rewrite B6, A6. exact E2.
Qed.

(** ** Validation *)
Lemma leave_loop_spec low high l : forall m m', leave_loop low high m l = Some m' <->
  (forall x, x ∈ l -> within low high (fst x) = true /\ m !! (le_pool (snd x), le_staker (snd x)) = Some true) /\
  NoDup (map (fun x : N * lentry => (le_pool (snd x), le_staker (snd x))) l) /\
  m' = fold_left (fun (m : gmap (N * N) bool) x => <[(le_pool (snd x), le_staker (snd x)) := false]> m) l m.
Proof.
  induction l as [|[i e] l IH]; intros m m'; cbn [leave_loop fold_left map snd].
  - split; [|intros (_ & _ & ->); done]. intros [= <-]. split; [|split; [constructor|done]]. intros x Hx. by apply elem_of_nil in Hx.
  - destruct (within low high i) eqn:Ew; cbn [negb].
    2: { split; [done|]. intros [H _]. specialize (H (i, e)). cbn in H. destruct H as [H _]; [by left|]. congruence. }
    destruct (m !! (le_pool e, le_staker e)) as [[]|] eqn:Em; cbn [from_option id negb].
    2: { split; [done|]. intros [H _]. specialize (H (i, e)). cbn in H. destruct H as [_ H]; [by left|]. congruence. }
    2: { split; [done|]. intros [H _]. specialize (H (i, e)). cbn in H. destruct H as [_ H]; [by left|]. congruence. }
    rewrite IH, NoDup_cons. split.
    + intros (H1 & H2 & ->). split; [|split; [split|]].
      * intros x Hx. apply elem_of_cons in Hx as [->|Hx]; [done|]. destruct (H1 x Hx) as [G1 G2]. split; [done|].
        apply lookup_insert_Some in G2 as [[_ ?]|[_ ?]]; done.
      * intros Hx. apply elem_of_list_In, in_map_iff in Hx as (x & Ex & Hx). apply elem_of_list_In in Hx. destruct (H1 x Hx) as [_ G2].
        rewrite Ex, lookup_insert in G2. done.
      * done.
      * done.
    + intros (H1 & [H2 H3] & ->). split; [|done]. intros x Hx. destruct (H1 x) as [G1 G2]; [by right|]. split; [done|].
      rewrite lookup_insert_ne; [done|]. intros Eq. apply H2. rewrite Eq. apply elem_of_list_In, in_map_iff. exists x. split; [done|]. by apply elem_of_list_In.
Qed.
Lemma nodup_fun {K V} (l : list (K * V)) k v w : NoDup (map fst l) -> (k, v) ∈ l -> (k, w) ∈ l -> v = w.
Proof.
  induction l as [|[k' v'] l IH]; cbn [map fst]; [intros _ H; by apply elem_of_nil in H|]. intros Hn. apply NoDup_cons in Hn as [Hk Hn].
  rewrite !elem_of_cons. intros [[= -> ->]|H1] [[= ->]|H2]; try done.
  - exfalso. apply Hk. apply (elem_of_list_fmap_1 fst _ _ H2).
  - subst. exfalso. apply Hk. apply (elem_of_list_fmap_1 fst _ _ H1).
  - by apply IH.
Qed.
Lemma leaving_map (l : list (N * N * valacc)) (k : N * N) (c : bool) : NoDup (map fst l) ->
  fold_left (fun (m : gmap (N * N) bool) (x : N * N * valacc) => <[fst x := vl_leaving (snd x)]> m) l ∅ !! k = Some c
  <-> exists v, (k, v) ∈ l /\ vl_leaving v = c.
Proof.
  intros Hn. destruct (fold_look (fun (m : gmap (N * N) bool) (x : N * N * valacc) => <[fst x := vl_leaving (snd x)]> m) fst (fun x => vl_leaving (snd x)) (fun m k => m !! k)) with (l := l) (st := (∅ : gmap (N * N) bool)) (k := k)
    as [([k' v'] & Hx & Ek & E)|[Hno E]].
  - intros st x k0. destruct (decide (fst x = k0)) as [<-|Hne]; [by rewrite lookup_insert|by rewrite lookup_insert_ne].
  - rewrite E. cbn in Ek. subst k'. cbn. split; [intros [= <-]; by exists v'|]. intros (v & Hv & <-). by rewrite (nodup_fun _ _ _ _ Hn Hx Hv).
  - rewrite E, lookup_empty. split; [done|]. intros (v & Hv & _). exfalso. by apply (Hno (k, v)).
Qed.
Lemma cleared_map (l : list (N * lentry)) (m : gmap (N * N) bool) (k : N * N) (c : bool) :
  fold_left (fun (m : gmap (N * N) bool) (x : N * lentry) => <[(le_pool (snd x), le_staker (snd x)) := false]> m) l m !! k = Some c <->
  (c = false /\ exists x, x ∈ l /\ (le_pool (snd x), le_staker (snd x)) = k) \/ (m !! k = Some c /\ forall x, x ∈ l -> (le_pool (snd x), le_staker (snd x)) <> k).
Proof.
  destruct (fold_look (fun (m : gmap (N * N) bool) (x : N * lentry) => <[(le_pool (snd x), le_staker (snd x)) := false]> m) (fun x => (le_pool (snd x), le_staker (snd x))) (fun _ => false) (fun m k => m !! k)) with (l := l) (st := m) (k := k)
    as [(x & Hx & Ek & E)|[Hno E]].
  - intros st x k0. destruct (decide (_ = k0)) as [<-|Hne]; [by rewrite lookup_insert|by rewrite lookup_insert_ne].
  - rewrite E. split; [intros [= <-]; left; eauto|]. intros [[-> _]|[_ H]]; [done|]. exfalso. by apply (H x).
  - rewrite E. split; [by right|]. intros [[_ (x & Hx & Ek)]|[H _]]; [|done]. exfalso. by apply (Hno x).
Qed.
(** What the validation of x/stakers accepts. *)
Record sgen_valid (g : sgen) : Prop := mkSV {
  sv_vals : NoDup (map fst (sg_vals g));
  sv_centries : NoDup (map fst (sg_centries g));
  sv_crange : forall i, i ∈ map fst (sg_centries g) -> (sg_clow g <= i <= sg_chigh g)%N;
  sv_lrange : forall i, i ∈ map fst (sg_lentries g) -> (sg_llow g <= i <= sg_lhigh g)%N;
  sv_lentries : NoDup (map (fun x : N * lentry => (le_pool (snd x), le_staker (snd x))) (sg_lentries g));
  (* every leave entry belongs to a member that is leaving, and the other way round *)
  sv_stale : forall i e, (i, e) ∈ sg_lentries g -> exists v, (le_pool e, le_staker e, v) ∈ sg_vals g /\ vl_leaving v = true;
  sv_leaving : forall p s v, (p, s, v) ∈ sg_vals g -> vl_leaving v = true -> exists i e, (i, e) ∈ sg_lentries g /\ le_pool e = p /\ le_staker e = s
}.
Lemma within_spec low high i : within low high i = true <-> (low <= i <= high)%N.
Proof. unfold within. lia. Qed.
Lemma validate_s_spec g : validate_s g = true <-> sgen_valid g.
Proof.
  unfold validate_s. cbv zeta. rewrite !andb_true_iff, !fresh_nodup, forallb_forall.
  set (m := fold_left _ (sg_vals g) ∅). split.
  - intros [[[H1 H2] H3] H4]. destruct (leave_loop _ _ _ _) as [m'|] eqn:E; [|done]. apply leave_loop_spec in E as (L1 & L2 & ->).
    rewrite forallb_forall in H4. split; [done|done| | |done| |].
    + intros i Hi. apply within_spec, H3. by apply elem_of_list_In.
    + intros i Hi. apply elem_of_list_In, in_map_iff in Hi as (x & <- & Hx). apply elem_of_list_In in Hx. apply within_spec. by apply L1.
    + intros i e Hx. destruct (L1 _ Hx) as [_ Hl]. by apply leaving_map in Hl.
    + intros p s v Hv Hl. set (m' := fold_left _ _ m) in H4.
      destruct (m' !! (p, s)) as [c|] eqn:Ec.
      * assert (c = false) as ->. { specialize (H4 (p, s, c)). cbn in H4. rewrite negb_true_iff in H4. apply H4. by apply elem_of_list_In, elem_of_map_to_list. }
        apply cleared_map in Ec as [[_ ([i e] & Hx & [= <- <-])]|[Ec _]]; [eauto|].
        apply leaving_map in Ec as (v' & Hv' & Hl'); [|done]. rewrite (nodup_fun _ _ _ _ H1 Hv Hv') in Hl. congruence.
      * exfalso. assert (Hm : m !! (p, s) = Some true) by (apply leaving_map; [done|by exists v]).
        destruct (m' !! (p, s)) as [c|] eqn:Ec'; [done|].
        assert (Hc : exists c, m' !! (p, s) = Some c); [|destruct Hc; congruence].
        destruct (fold_look (fun (m : gmap (N * N) bool) (x : N * lentry) => <[(le_pool (snd x), le_staker (snd x)) := false]> m) (fun x => (le_pool (snd x), le_staker (snd x))) (fun _ => false) (fun m k => m !! k)) with (l := sg_lentries g) (st := m) (k := (p, s))
          as [(x & Hx & Ek & E)|[Hno E]]; [|unfold m'; rewrite E; eauto|unfold m'; rewrite E; eauto].
        intros st x k0. destruct (decide (_ = k0)) as [<-|Hne]; [by rewrite lookup_insert|by rewrite lookup_insert_ne].
  - intros [V1 V2 V3 V4 V5 V6 V7]. split; [split; [split|]|]; [done|done| |].
    + intros i Hi. apply within_spec, V3. by apply elem_of_list_In.
    + destruct (leave_loop _ _ _ _) as [m'|] eqn:E.
      * apply leave_loop_spec in E as (L1 & L2 & ->). apply forallb_forall. intros [[p s] c] Hx. apply elem_of_list_In, elem_of_map_to_list in Hx.
        cbn. apply negb_true_iff. apply cleared_map in Hx as [[-> _]|[Hm Hno]]; [done|]. apply leaving_map in Hm as (v & Hv & <-); [|done].
        apply not_true_iff_false. intros Hl. destruct (V7 _ _ _ Hv Hl) as (i & e & Hi & <- & <-). by apply (Hno (i, e)).
      * exfalso. assert (L : leave_loop (sg_llow g) (sg_lhigh g) m (sg_lentries g) = Some (fold_left (fun (m : gmap (N * N) bool) (x : N * lentry) => <[(le_pool (snd x), le_staker (snd x)) := false]> m) (sg_lentries g) m)); [|congruence].
        apply leave_loop_spec. split; [|done]. intros [i e] Hx. split.
        -- apply within_spec, V4. apply (elem_of_list_fmap_1 fst _ _ Hx).
        -- apply leaving_map; [done|]. cbn. by apply (V6 i).
Qed.
(** An exported state is accepted if and only if no leave entry is stale. *)
Definition stale (st : sstate) : Prop :=
  exists i e, ss_lentries st !! i = Some e /\ forall v, get_val st (le_pool e) (le_staker e) = Some v -> vl_leaving v = false.
Lemma validate_s_export st g : SK st -> sgen_eqv g (export_s st) -> validate_s g = true <-> ~ stale st.
Proof.
  intros HK [E1 E2 E3 E4 E5 E6 E7 E8 E9 E10]. rewrite validate_s_spec.
  assert (HL : forall i e, (i, e) ∈ sg_lentries g <-> ss_lentries st !! i = Some e).
  { intros i e. rewrite E6. apply (elem_of_map_to_list (ss_lentries st)). }
  assert (HV : forall p s v, (p, s, v) ∈ sg_vals g <-> get_val st p s = Some v) by (intros; rewrite E4; apply vals_elem).
  split.
  - intros HS (i & e & He & Hn). destruct (sv_stale _ HS i e) as (v & Hv & Hl); [by apply HL|]. apply HV in Hv. rewrite (Hn _ Hv) in Hl. done.
  - intros Hst. split.
    + rewrite (map_fst_perm _ _ E4), vlist_export. apply flat_nodup; [apply mtl_nodup|]. intros x _. apply mtl_nodup.
    + rewrite (map_fst_perm _ _ E5). apply mtl_nodup.
    + intros i Hi. rewrite (map_fst_perm _ _ E5) in Hi. apply elem_of_list_In, in_map_iff in Hi as ([i' e] & <- & Hx).
      apply elem_of_list_In in Hx. apply (elem_of_map_to_list (ss_centries st)) in Hx. destruct (sk_centry _ HK _ _ Hx) as [Hr _].
      rewrite E7, E8. cbn. lia.
    + intros i Hi. apply elem_of_list_In, in_map_iff in Hi as ([i' e] & <- & Hx). apply elem_of_list_In, HL in Hx.
      destruct (sk_lentry _ HK _ _ Hx) as [Hr _]. rewrite E9, E10. cbn. lia.
    + rewrite (Permutation_map _ E6). change (sg_lentries (export_s st)) with (map_to_list (ss_lentries st)).
      assert (Hu : forall i e j f, (i, e) ∈ map_to_list (ss_lentries st) -> (j, f) ∈ map_to_list (ss_lentries st) ->
        (le_pool e, le_staker e) = (le_pool f, le_staker f) -> i = j).
      { intros i e j f Hi Hj [= Hp Hs]. apply elem_of_map_to_list in Hi. apply elem_of_map_to_list in Hj. by eapply (sk_luniq _ HK). }
      pose proof (mtl_nodup (ss_lentries st)) as Hn. revert Hu Hn. generalize (map_to_list (ss_lentries st)) as l.
      induction l as [|[i e] l IH]; intros Hu Hn; cbn [map fst snd]; [constructor|]. cbn [map fst] in Hn. apply NoDup_cons in Hn as [Hi Hn]. apply NoDup_cons. split.
      * intros Hx. apply elem_of_list_In, in_map_iff in Hx as ([j f] & Ef & Hx). apply elem_of_list_In in Hx. cbn in Ef.
        apply Hi. rewrite (Hu i e j f); [apply (elem_of_list_fmap_1 fst _ _ Hx)|by left|by right|done].
      * apply IH; [|done]. intros i1 e1 j1 f1 H1 H2. apply Hu; by right.
    + intros i e Hx. apply HL in Hx. destruct (get_val st (le_pool e) (le_staker e)) as [v|] eqn:Ev.
      * destruct (vl_leaving v) eqn:El; [exists v; split; [by apply HV|done]|]. exfalso. apply Hst. exists i, e. split; [done|]. intros w. congruence.
      * exfalso. apply Hst. exists i, e. split; [done|]. intros w. congruence.
    + intros p s v Hv Hl. apply HV in Hv. pose proof (sk_leaving _ HK _ _ _ Hv Hl) as Hin. destruct (sk_lindex _ HK _ _ Hin) as (i & e & Hi & <- & <-).
      exists i, e. split; [by apply HL|done].
Qed.
