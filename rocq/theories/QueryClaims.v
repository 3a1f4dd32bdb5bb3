(** * C49 and C58: the paginated queries (proofs). *)
From Verif Require Import Base BaseFacts Delegation Stakers StakersInv StakersClaims Funders Team RoundRobin Pool Bundles Chain ChainFrame
  ArchiveInv ArchiveClaims ChainLift Query QueryFacts IndexInv.

(** ** The index in store order *)
Lemma ile_total x y : ile x y \/ ile y x.
Proof. unfold ile, ileb. rewrite !orb_true_iff, !andb_true_iff, !Z.ltb_lt, !Z.eqb_eq, !N.leb_le. lia. Qed.
Lemma ile_trans x y z : ile x y -> ile y z -> ile x z.
Proof. unfold ile, ileb. rewrite !orb_true_iff, !andb_true_iff, !Z.ltb_lt, !Z.eqb_eq, !N.leb_le. lia. Qed.
Lemma ile_anti x y : ile x y -> ile y x -> x = y.
Proof.
  destruct x as [a s], y as [b t]. unfold ile, ileb. cbn [fst snd].
  rewrite !orb_true_iff, !andb_true_iff, !Z.ltb_lt, !Z.eqb_eq, !N.leb_le. intros. f_equal; lia.
Qed.
Lemma ile_amount x y : ile x y -> fst y <= fst x.
Proof. unfold ile, ileb. rewrite !orb_true_iff, !andb_true_iff, !Z.ltb_lt, !Z.eqb_eq, !N.leb_le. lia. Qed.
Lemma index_perm c : index_list c ≡ₚ elements (ds_index (c_d c)).
Proof. apply merge_sort_Permutation. Qed.
Lemma index_sorted c : StronglySorted ile (index_list c).
Proof.
  assert (Ht : Transitive ile) by (intros x y z; apply ile_trans). assert (Hd : Total ile) by (intros x y; apply ile_total).
  apply (StronglySorted_merge_sort ile).
Qed.
Lemma index_nodup c : NoDup (index_list c).
Proof. rewrite index_perm. apply NoDup_elements. Qed.
Lemma index_in c x : In x (index_list c) <-> x ∈ ds_index (c_d c).
Proof. rewrite <- elem_of_list_In, index_perm, elem_of_elements. done. Qed.

Lemma sorted_from {A} (R : A -> A -> Prop) (f : A -> A -> bool) :
  (forall x y, f x y = true <-> R x y) -> (forall x y, R x y -> R y x -> x = y) -> (forall x, R x x) ->
  forall l1 k l2, StronglySorted R (l1 ++ k :: l2) -> NoDup (l1 ++ k :: l2) -> List.filter (f k) (l1 ++ k :: l2) = k :: l2.
Proof.
  intros Hf Ha Hr. induction l1 as [|x l1 IH]; intros k l2 Hs Hn; cbn [app List.filter] in *.
  - apply StronglySorted_inv in Hs as [_ Hall]. rewrite (proj2 (Hf k k)) by apply Hr. f_equal.
    clear Hn. induction l2 as [|y l2 IH]; [done|]. cbn [List.filter]. apply Forall_cons in Hall as [Hy Hall].
    rewrite (proj2 (Hf k y)) by done. f_equal. by apply IH.
  - apply StronglySorted_inv in Hs as [Hs Hall]. apply NoDup_cons in Hn as [Hx Hn].
    destruct (f k x) eqn:E; [|by apply IH]. exfalso. apply Hf in E.
    rewrite Forall_forall in Hall. assert (R x k) by (apply Hall; set_solver). apply Hx. rewrite (Ha x k) by done. set_solver.
Qed.
Lemma index_from_spec c l1 k l2 : index_list c = l1 ++ k :: l2 -> index_from c k = k :: l2.
Proof.
  intros E. unfold index_from. rewrite E. apply (sorted_from ile ileb); [done|apply ile_anti| | |].
  - intros x. by destruct (ile_total x x).
  - rewrite <- E. apply index_sorted.
  - rewrite <- E. apply index_nodup.
Qed.

(** ** C49 *)
(** The staker takes part in a pool. *)
Definition in_some_pool (c : chain) (s : N) : Prop := exists p v, get_val (c_s c) p s = Some v.
Definition wanted_status (c : chain) (f : sfilter) (s : N) : Prop :=
  match f with AllStakers => True | InactiveStakers => ~ in_some_pool c s end.
(** The requests of a client with one page size. *)
Definition ask_stakers (c : chain) (f : sfilter) (search : option (N -> bool)) (limit : Z) (key : option (Z * N)) :=
  match stakers_page c f search key 0 limit false with Some (r, k, _) => Some (r, k) | None => None end.

Lemma MI_chain g c : G g c -> MI (c_s c).
Proof.
  intros HG. destruct (g_s _ _ HG) as (ops & Hok & E).
  assert (HM : MI (s_in c)) by (rewrite E; by apply MI_run, MI_init).
  eapply MI_ext; [exact HM|done|done|done|done].
Qed.
Lemma pool_count_spec c s : MI (c_s c) -> (0 <? pool_count c s) = true <-> in_some_pool c s.
Proof.
  intros HM. unfold pool_count. rewrite (mi_active _ HM). pose proof (npools_pos (c_s c) s) as Hp. pose proof (npools_nonneg (c_s c) s) as H0.
  rewrite Z.ltb_lt. destruct (Z.eqb_spec (npools (c_s c) s) 0) as [E|E]; cbn [default from_option].
  - split; [lia|]. intros (p & v & Hv). assert (0 < npools (c_s c) s) by (apply Hp; eauto). lia.
  - change (0 < npools (c_s c) s <-> in_some_pool c s). exact Hp.
Qed.
Lemma listed_spec c f search x : MI (c_s c) -> listed c f search x = true <->
  wanted_status c f (snd x) /\ found c search (snd x) = true.
Proof.
  intros HM. unfold listed, wanted_status. destruct f; [tauto|]. pose proof (pool_count_spec c (snd x) HM) as Hp.
  destruct (0 <? pool_count c (snd x)).
  - split; [done|]. intros [H _]. exfalso. apply H. by apply Hp.
  - split; [|tauto]. intros H. split; [|done]. intros H'. apply Hp in H'. done.
Qed.
Lemma found_spec c search s : found c search s = true <-> match search with None => True | Some m => is_staker c s /\ m s = true end.
Proof. unfold found, staker_exists, is_staker. destruct search; [|done]. rewrite andb_true_iff, bool_decide_eq_true. done. Qed.

(** A list sorted by falling delegation in which every staker occurs at most once, with its
    delegation. *)
Definition by_delegation (c : chain) (L : list (Z * N)) : Prop :=
  StronglySorted (fun x y => fst y <= fst x) L /\ NoDup (map snd L) /\ forall a s, In (a, s) L -> a = delegation_amount (c_d c) s.
Lemma filter_sorted {A} (R : A -> A -> Prop) (f : A -> bool) l : StronglySorted R l -> StronglySorted R (List.filter f l).
Proof.
  induction 1 as [|x l Hs IH Hall]; [constructor|]. cbn [List.filter]. destruct (f x); [|done]. constructor; [done|].
  rewrite Forall_forall in *. intros y Hy. apply Hall. rewrite elem_of_list_In in *. apply filter_In in Hy. tauto.
Qed.
Lemma filter_nodup {A} (f : A -> bool) l : NoDup l -> NoDup (List.filter f l).
Proof.
  induction 1 as [|x l Hx Hn IH]; cbn [List.filter]; [constructor|]. destruct (f x); [|done]. constructor; [|done].
  rewrite elem_of_list_In in Hx |- *. rewrite filter_In. tauto.
Qed.
Lemma sorted_impl {A} (R S : A -> A -> Prop) l : (forall x y, R x y -> S x y) -> StronglySorted R l -> StronglySorted S l.
Proof. intros H. induction 1 as [|x l Hs IH Hall]; constructor; [done|]. eapply Forall_impl; [exact Hall|]. intros y. apply H. Qed.
Lemma nodup_snd (L : list (Z * N)) (f : N -> Z) : NoDup L -> (forall a s, In (a, s) L -> a = f s) -> NoDup (map snd L).
Proof.
  induction 1 as [|[a s] L Hx Hn IH]; intros Hf; cbn [map]; constructor.
  - intros H. apply Hx. apply elem_of_list_In, in_map_iff in H as ([b t] & E & Hin). cbn in E. subst t.
    assert (a = f s) by (apply Hf; by left). assert (b = f s) by (apply Hf; by right). apply elem_of_list_In. congruence.
  - apply IH. intros b t H. apply Hf. by right.
Qed.
Lemma index_by_delegation c full h : CJ full c -> by_delegation c (List.filter h (index_list c)).
Proof.
  intros HJ.
  assert (Hf : forall a s, In (a, s) (List.filter h (index_list c)) -> a = delegation_amount (c_d c) s).
  { intros a s H. apply filter_In in H as [H _]. apply index_in in H. by apply (dj_amount _ _ _ HJ) in H. }
  split; [|split; [|done]].
  - apply (sorted_impl ile); [intros x y; apply ile_amount|]. apply filter_sorted, index_sorted.
  - apply (nodup_snd _ (delegation_amount (c_d c))); [|done].
    apply filter_nodup, index_nodup.
Qed.
Lemma in_snd (L : list (Z * N)) (c : chain) s : (forall a s, In (a, s) L -> a = delegation_amount (c_d c) s) ->
  In s (map snd L) <-> In (delegation_amount (c_d c) s, s) L.
Proof.
  intros H. rewrite in_map_iff. split.
  - intros ([a t] & E & Hin). cbn in E. subst t. pose proof (H _ _ Hin) as ->. done.
  - intros Hin. eexists. split; [|exact Hin]. done.
Qed.

(** What a client gets from the listing [L], page by page. *)
Definition pages_of (c : chain) (f : sfilter) (search : option (N -> bool)) (L : list (Z * N)) : Prop :=
  (forall limit, 0 <= limit -> page_size limit + 1 < two64 -> exists n, walk n (ask_stakers c f search limit) None = Some L) /\
  (forall offset limit, 0 <= offset -> 0 <= limit -> offset + page_size limit + 1 < two64 ->
     exists next, stakers_page c f search None offset limit true =
       Some (firstn (Z.to_nat (page_size limit)) (skipn (Z.to_nat offset) L), next, Z.of_nat (length L))).
Lemma pages_listed c f search : pages_of c f search (List.filter (listed c f search) (index_list c)).
Proof.
  split.
  - intros limit H1 H2. apply (walk_all (listed c f search) (index_list c) (index_from c) limit false); [|done|done].
    intros l1 k l2. apply index_from_spec.
  - intros o limit H1 H2 H3. destruct (filtered_offset (listed c f search) (index_list c) (index_from c) limit true (index_from_spec c) H2 ltac:(lia) o H1 H3) as (n & E & En).
    eexists. unfold stakers_page. rewrite E, En by auto. done.
Qed.
Lemma claim_search g ops f m : genesis g -> cops_ok (gstart g) ops ->
  let c := crun (gstart g) ops in
  exists L, pages_of c f (Some m) L /\ by_delegation c L /\
    forall s, In s (map snd L) <-> is_staker c s /\ m s = true /\ wanted_status c f s.
Proof.
  intros Hg Hok c. pose proof (CJ_run g ops Hok) as HJ. change (crun (gstart g) ops) with c in HJ.
  pose proof (MI_chain _ _ (G_run g Hg ops Hok)) as HM. change (crun (gstart g) ops) with c in HM.
  eexists. split; [apply pages_listed|]. pose proof (index_by_delegation c true (listed c f (Some m)) HJ) as HB. split; [done|].
  intros s. rewrite (in_snd _ c) by apply HB. rewrite filter_In, index_in, (listed_spec c f) by done. cbn [snd]. rewrite found_spec.
  split; [tauto|]. intros (H1 & H2 & H3). split; [|tauto]. by apply (dj_full _ _ _ HJ).
Qed.
Lemma claim_all g ops f : genesis g -> cops_ok (gstart g) ops ->
  let c := crun (gstart g) ops in
  exists L, pages_of c f None L /\ by_delegation c L /\
    (forall s, is_staker c s -> wanted_status c f s -> In s (map snd L)) /\
    (forall a s, In (a, s) L -> wanted_status c f s /\ (is_staker c s \/ (a = 0 /\ f_data (getf (c_d c) s) = None))).
Proof.
  intros Hg Hok c. pose proof (CJ_run g ops Hok) as HJ. change (crun (gstart g) ops) with c in HJ.
  pose proof (MI_chain _ _ (G_run g Hg ops Hok)) as HM. change (crun (gstart g) ops) with c in HM.
  eexists. split; [apply pages_listed|]. pose proof (index_by_delegation c true (listed c f None) HJ) as HB. split; [done|]. split.
  - intros s Hs Hw. rewrite (in_snd _ c) by apply HB. rewrite filter_In, index_in, (listed_spec c f) by done. cbn [snd].
    split; [by apply (dj_full _ _ _ HJ)|]. split; [done|done].
  - intros a s H. apply filter_In in H as [Hi H]. apply listed_spec in H as [Hw _]; [|done]. split; [done|].
    apply index_in in Hi. pose proof (dj_amount _ _ _ HJ _ _ Hi) as ->.
    destruct (f_data (getf (c_d c) s)) eqn:E; [left; apply (dj_data _ _ _ HJ); by rewrite E|].
    right. split; [|done]. unfold delegation_amount, f1_total. by rewrite E.
Qed.
(** A node that may have been restarted: without the stakers nobody ever delegated to. *)
Lemma claim_restarted g ops m : nops_ok (gstart g) ops ->
  let c := nrun (gstart g) ops in
  exists L, pages_of c AllStakers (Some m) L /\ by_delegation c L /\
    (forall s, In s (map snd L) -> is_staker c s /\ m s = true) /\
    (forall s, f_data (getf (c_d c) s) <> None -> m s = true -> In s (map snd L)).
Proof.
  intros Hok c. pose proof (CJ_nrun ops (gstart g) (CJ_start g false) Hok) as HJ. change (nrun (gstart g) ops) with c in HJ.
  eexists. split; [apply pages_listed|]. pose proof (index_by_delegation c false (listed c AllStakers (Some m)) HJ) as HB. split; [done|]. split.
  - intros s. rewrite (in_snd _ c) by apply HB. rewrite filter_In. cbn [listed snd]. rewrite found_spec. tauto.
  - intros s Hs Hm. rewrite (in_snd _ c) by apply HB. rewrite filter_In, index_in. cbn [listed snd]. rewrite found_spec.
    destruct (dj_data _ _ _ HJ s Hs). tauto.
Qed.

(** The active stakers. *)
Lemma parse_ok o limit : 0 <= o -> 0 <= limit -> o + 2 * page_size limit < two63 ->
  parse_pagination o limit = Some (o / page_size limit + 1, page_size limit).
Proof.
  intros H1 H2 H3. unfold parse_pagination. pose proof (page_size_pos limit H2). 
  assert (limit < two63). { unfold page_size in *. destruct (limit =? 0) eqn:E; [apply Z.eqb_eq in E; subst; unfold two63; lia|lia]. }
  assert (E1 : i64 o = o) by (unfold i64; destruct (Z.ltb_spec o two63); lia).
  assert (E2 : i64 limit = limit) by (unfold i64; destruct (Z.ltb_spec limit two63); lia).
  rewrite E1, E2. destruct (Z.ltb_spec o 0); [lia|]. destruct (Z.ltb_spec limit 0); [lia|]. done.
Qed.
Lemma int_id x : 0 <= x < two63 -> int x = x.
Proof. intros. unfold int, w64. rewrite Z.mod_small by (unfold two63, two64 in *; lia). unfold i64. destruct (Z.ltb_spec x two63); lia. Qed.
Lemma accumulate_spec {A} (hit : A -> bool) slice o limit : 0 <= o -> 0 <= limit -> o + 2 * page_size limit < two63 ->
  array_accumulate hit slice o limit =
    Some (firstn (Z.to_nat (page_size limit)) (skipn (Z.to_nat (o / page_size limit * page_size limit)) (List.filter hit slice)),
          Z.of_nat (length (List.filter hit slice))).
Proof.
  intros H1 H2 H3. unfold array_accumulate. rewrite parse_ok by done. pose proof (page_size_pos limit H2) as Hp.
  set (L := page_size limit) in *. pose proof (Z.mul_div_le o L Hp). assert (0 <= o / L) by (apply Z.div_pos; lia).
  rewrite (int_id ((o / L + 1 - 1) * L)), (int_id ((o / L + 1) * L)) by nia.
  pose proof (array_spec hit slice ((o / L + 1 - 1) * L) ((o / L + 1) * L) 0 ltac:(lia) ltac:(nia)) as H4.
  destruct (array_loop _ _ _ _ _) as [r n]. destruct H4 as [-> ->]. rewrite Z.max_l, Z.sub_0_r by nia.
  replace (o / L + 1 - 1) with (o / L) by lia. replace ((o / L + 1) * L - o / L * L) with L by lia. done.
Qed.
Lemma claim_active g ops search slice : genesis g -> cops_ok (gstart g) ops ->
  let c := crun (gstart g) ops in
  slice ≡ₚ map fst (map_to_list (ss_active (c_s c))) ->
  let L := List.filter (found c search) slice in
  NoDup L /\
  (forall s, In s L <-> in_some_pool c s /\ match search with None => True | Some m => m s = true end) /\
  (forall n limit, 0 <= limit -> Z.of_nat n * page_size limit + page_size limit < two63 ->
     Z.of_nat (length L) <= Z.of_nat n * page_size limit ->
     by_offset n (fun o => fst <$> active_page c slice search o limit) (page_size limit) 0 = Some L).
Proof.
  intros Hg Hok c Hs L. pose proof (MI_chain _ _ (G_run g Hg ops Hok)) as HM. change (crun (gstart g) ops) with c in HM.
  assert (Hin : forall s, In s slice <-> in_some_pool c s).
  { intros s. rewrite <- elem_of_list_In, Hs, elem_of_list_fmap. rewrite <- (pool_count_spec c s HM). unfold pool_count.
    pose proof (mi_active _ HM s) as Ha. pose proof (npools_nonneg (c_s c) s) as H0. split.
    - intros ([t n] & E & H). cbn in E. subst t. apply elem_of_map_to_list in H. rewrite H. cbn. rewrite H in Ha.
      destruct (Z.eqb_spec (npools (c_s c) s) 0); [done|]. injection Ha as ->. apply Z.ltb_lt. lia.
    - destruct (ss_active (c_s c) !! s) as [n|] eqn:E; [|done]. intros _. exists (s, n). split; [done|]. by apply elem_of_map_to_list. }
  assert (Hd : NoDup slice) by (rewrite Hs; apply NoDup_fst_map_to_list).
  split; [|split].
  - by apply filter_nodup.
  - intros s. unfold L. rewrite filter_In, Hin, found_spec. destruct search as [m|]; [|tauto]. split; [tauto|].
    intros [H1 H2]. split; [done|]. split; [|done]. destruct H1 as (p & v & Hv). by apply (mi_known _ HM p s v).
  - intros n limit H1 H2 H3. pose proof (page_size_pos limit H1) as Hp.
    rewrite (by_offset_all _ L); [|done|lia|].
    + cbn [skipn Z.to_nat]. f_equal. apply firstn_all2. nia.
    + intros i Hi. rewrite Z.add_0_l. unfold active_page. rewrite accumulate_spec by nia. cbn [fmap option_fmap option_map fst].
      rewrite Z.div_mul by lia. done.
Qed.
(** The stakers by pool count: the first page is never shown. *)
Lemma page_skips {A} (slice : list A) o limit r n : 0 <= o -> 0 <= limit -> o + 2 * page_size limit < two63 ->
  NoDup slice -> array_page slice o limit = Some (r, n) -> forall x, In x (firstn (Z.to_nat (page_size limit)) slice) -> ~ In x r.
Proof.
  intros H1 H2 H3 Hn. unfold array_page. rewrite parse_ok by done. pose proof (page_size_pos limit H2) as Hp.
  set (L := page_size limit) in *. pose proof (Z.mul_div_le o L Hp). assert (0 <= o / L) by (apply Z.div_pos; lia).
  rewrite (int_id ((o / L + 1) * L)) by nia. destruct (_ <? 0); [done|]. destruct (_ && _); [done|].
  intros [= <- <-] x Hx Hy. set (k := Z.to_nat ((o / L + 1) * L)) in *.
  assert (Hk : (Z.to_nat L <= k)%nat) by (unfold k; nia).
  assert (Hy' : In x (skipn (Z.to_nat L) slice)).
  { rewrite <- (firstn_skipn (k - Z.to_nat L) (skipn (Z.to_nat L) slice)). apply in_or_app. right. rewrite drop_drop.
    replace (Z.to_nat L + (k - Z.to_nat L))%nat with k by lia. rewrite <- (firstn_skipn (Z.to_nat (Z.min L (int (Z.of_nat (length slice) - (o / L + 1) * L)))) (skipn k slice)).
    apply in_or_app. by left. }
  rewrite <- (firstn_skipn (Z.to_nat L) slice) in Hn. apply NoDup_app in Hn as (_ & Hn & _).
  apply (Hn x); by apply elem_of_list_In.
Qed.

(** ** C58 *)
Lemma fin_in c p id fb : In (id, fb) (fin_list c p) <-> c_fin c !! (p, id) = Some fb.
Proof.
  unfold fin_list. rewrite <- elem_of_list_In, merge_sort_Permutation, elem_of_list_omap. split.
  - intros ([[q i] b] & H & E). cbn [fst snd] in E. destruct (N.eqb_spec q p) as [->|]; [|done]. injection E as -> ->.
    by apply elem_of_map_to_list in H.
  - intros H. exists ((p, id), fb). split; [by apply elem_of_map_to_list|]. cbn [fst snd]. by rewrite N.eqb_refl.
Qed.
Lemma fin_sorted c p : StronglySorted fin_le (fin_list c p).
Proof.
  assert (Ht : Transitive fin_le) by (intros x y z; unfold fin_le; lia). assert (Hd : Total fin_le) by (intros x y; unfold fin_le; lia).
  apply (StronglySorted_merge_sort fin_le).
Qed.
Lemma fin_nodup c p : NoDup (map fst (fin_list c p)).
Proof.
  unfold fin_list. rewrite (fmap_Permutation fst _ _ (merge_sort_Permutation fin_le _) : map fst _ ≡ₚ _).
  assert (H : forall l : list (N * N * fbundle), NoDup (map fst l) ->
    NoDup (fst <$> omap (fun x : N * N * fbundle => if (fst (fst x) =? p)%N then Some (snd (fst x), snd x) else None) l)).
  2: { apply H, NoDup_fst_map_to_list. }
  induction l as [|[[q i] b] l IH]; cbn [omap list_omap map fst snd]; intros Hn; [constructor|].
  apply NoDup_cons in Hn as [Hx Hn]. specialize (IH Hn). destruct (N.eqb_spec q p) as [->|]; [|done]. cbn [fmap list_fmap fst].
  constructor; [|done]. intros H. apply Hx. apply elem_of_list_fmap in H as ([j b'] & E & H). cbn in E. subst j.
  apply elem_of_list_omap in H as ([[q j] b2] & H & E). cbn [fst snd] in E. destruct (N.eqb_spec q p) as [->|]; [|done].
  injection E as -> ->. apply elem_of_list_fmap. by exists ((p, i), b').
Qed.
(** The archive of a pool with [n] bundles: [L !! i] is the bundle with id [i]. *)
Definition archive (c : chain) (p : N) (n : N) (L : list (N * fbundle)) : Prop :=
  length L = N.to_nat n /\ forall i, (i < n)%N -> exists fb, c_fin c !! (p, i) = Some fb /\ nth_error L (N.to_nat i) = Some (i, fb).

Lemma seq_sorted a n : StronglySorted N.le (map N.of_nat (seq a n)).
Proof.
  revert a. induction n as [|n IH]; intros a; cbn [seq map]; [constructor|]. constructor; [apply IH|].
  rewrite Forall_forall. intros x Hx. apply elem_of_list_In, in_map_iff in Hx as (y & <- & Hy). apply in_seq in Hy. lia.
Qed.
Lemma fin_ids c p n : (forall id, is_Some (c_fin c !! (p, id)) <-> (id < n)%N) ->
  map fst (fin_list c p) = map N.of_nat (seq 0 (N.to_nat n)).
Proof.
  intros H. assert (Ha : AntiSymm (=) N.le) by (intros x y; lia).
  apply (StronglySorted_unique N.le).
  - assert (Hm : forall l, StronglySorted fin_le l -> StronglySorted N.le (map fst l)); [|apply Hm, fin_sorted].
    induction 1 as [|x l Hs IH Hall]; cbn [map]; constructor; [done|]. by apply Forall_map.
  - apply seq_sorted.
  - apply NoDup_Permutation; [apply fin_nodup| |].
    + apply (NoDup_fmap_2 N.of_nat), NoDup_ListNoDup, seq_NoDup.
    + intros x. rewrite !elem_of_list_In, !in_map_iff. split.
      * intros ([i b] & <- & Hi). apply fin_in in Hi. exists (N.to_nat i). cbn [fst]. split; [lia|]. apply in_seq.
        assert (i < n)%N by (apply H; eauto). lia.
      * intros (y & <- & Hy). apply in_seq in Hy. destruct (proj2 (H (N.of_nat y)) ltac:(lia)) as [fb Hfb].
        exists (N.of_nat y, fb). split; [done|]. by apply fin_in.
Qed.
Lemma fin_archive c p n : (forall id, is_Some (c_fin c !! (p, id)) <-> (id < n)%N) -> archive c p n (fin_list c p).
Proof.
  intros H. pose proof (fin_ids c p n H) as E. split.
  - rewrite <- (map_length fst), E, map_length, seq_length. done.
  - intros i Hi. assert (Hn : nth_error (map fst (fin_list c p)) (N.to_nat i) = Some i).
    { rewrite E, nth_error_map, (nth_error_nth' _ 0%nat) by (rewrite seq_length; lia). cbn. rewrite seq_nth by lia. f_equal. lia. }
    rewrite nth_error_map in Hn. destruct (nth_error (fin_list c p) (N.to_nat i)) as [[j fb]|] eqn:Ej; [|done].
    injection Hn as ->. exists fb. split; [|done]. apply fin_in. by eapply nth_error_In.
Qed.
(** Splitting at a key. *)
Lemma split_ids k : forall (l : list (N * fbundle)) a, map fst l = map N.of_nat (seq a (length l)) ->
  List.filter (fun x => k <=? Z.of_N (fst x)) l = skipn (Z.to_nat (k - Z.of_nat a)) l /\
  List.filter (fun x => Z.of_N (fst x) <? k) l = firstn (Z.to_nat (k - Z.of_nat a)) l.
Proof.
  induction l as [|[i b] l IH]; intros a E; cbn [List.filter]; [by rewrite skipn_nil, firstn_nil|].
  cbn [length seq map fst] in E |- *. injection E as -> E.
  destruct (IH (S a) E) as [E1 E2]. rewrite E1, E2. rewrite nat_N_Z.
  destruct (Z.leb_spec k (Z.of_nat a)); destruct (Z.ltb_spec (Z.of_nat a) k); try lia.
  - rewrite !nat0 by lia. done.
  - replace (Z.to_nat (k - Z.of_nat a)) with (S (Z.to_nat (k - Z.of_nat (S a)))) by lia. done.
Qed.

Lemma rev_alt' {A} (l : list A) : reverse l = rev l.
Proof. unfold reverse. by rewrite rev_alt. Qed.
Lemma nth_lookup {A} (l : list A) i : nth_error l i = l !! i.
Proof. revert i. induction l as [|x l IH]; intros [|i]; try done. apply IH. Qed.
Section archive.
  Context (c : chain) (p : N) (n : N).
  Hypothesis Hids : forall id, is_Some (c_fin c !! (p, id)) <-> (id < n)%N.
  Hypothesis Hn : Z.of_N n < two64.
  Let L := fin_list c p.
  Lemma fin_len : length L = N.to_nat n.
  Proof. apply (fin_archive c p n Hids). Qed.
  Lemma fin_total : match last L with Some x => u64_add (Z.of_N (fst x)) 1 | None => 0 end = Z.of_N n.
  Proof.
    pose proof (fin_ids c p n Hids) as E. destruct (last L) as [x|] eqn:El.
    - apply last_Some in El as [l' El]. pose proof fin_len as Hlen. rewrite El, app_length in Hlen. cbn in Hlen.
      fold L in E. rewrite El, map_app in E. cbn [map] in E.
      replace (N.to_nat n) with (length l' + 1)%nat in E by lia. rewrite seq_app, map_app in E. cbn [seq map] in E.
      apply app_inj_2 in E as [_ E]; [|done]. injection E as ->. unfold u64_add, w64. rewrite Z.mod_small; lia.
    - apply last_None in El. pose proof fin_len as Hlen. rewrite El in Hlen. cbn in Hlen. lia.
  Qed.
  Lemma fin_split k : List.filter (fun x => k <=? Z.of_N (fst x)) L = skipn (Z.to_nat k) L /\
    List.filter (fun x => Z.of_N (fst x) <? k) L = firstn (Z.to_nat k) L.
  Proof.
    pose proof (split_ids k L 0) as H. rewrite Z.sub_0_r in H. apply H. rewrite fin_len. by apply fin_ids.
  Qed.
  Lemma fin_at i x : nth_error L i = Some x -> Z.of_N (fst x) = Z.of_nat i.
  Proof.
    intros H. pose proof (fin_ids c p n Hids) as E. fold L in E. assert (Hi : (i < N.to_nat n)%nat).
    { rewrite <- fin_len. apply nth_error_Some. by rewrite H. }
    pose proof (map_nth_error fst _ _ H) as H'. rewrite E, nth_error_map, (nth_error_nth' _ 0%nat) in H' by (rewrite seq_length; lia).
    cbn in H'. rewrite seq_nth in H' by lia. injection H' as <-. lia.
  Qed.
  (** Forward, with an offset or a key. *)
  Lemma page_forward key o limit : 0 <= o -> 0 <= limit -> match key with Some k => 0 <= k /\ o = 0 | None => True end ->
    fin_page c p key o limit false =
      let k := match key with Some k => k | None => o end in
      Some (mkFP (firstn (Z.to_nat (page_size limit)) (skipn (Z.to_nat k) L))
              (if k + page_size limit <? Z.of_N n then Some (k + page_size limit) else None) (Z.of_N n)).
  Proof.
    intros Ho Hl Hk. unfold fin_page. fold (page_size limit). fold L. rewrite fin_total. pose proof (page_size_pos limit Hl) as Hp.
    assert (E0 : ((0 <? o) && match key with Some _ => true | None => false end) = false).
    { destruct key; [|by rewrite andb_false_r]. destruct Hk as [_ ->]. done. }
    rewrite E0. assert (Hk' : 0 <= match key with Some k => k | None => o end) by (destruct key; [lia|done]).
    cbn zeta. cbv iota. set (k := match key with Some k => k | None => o end) in *.
    rewrite (proj1 (fin_split k)). f_equal. f_equal. rewrite drop_drop.
    destruct (Z.ltb_spec (k + page_size limit) (Z.of_N n)) as [Hlt|Hge].
    - destruct (skipn _ L) as [|x t] eqn:E.
      + exfalso. apply (f_equal (@length _)) in E. rewrite skipn_length, fin_len in E. cbn in E. lia.
      + assert (nth_error L (Z.to_nat (k + page_size limit)) = Some x) as Hx.
        { rewrite <- (firstn_skipn (Z.to_nat k + Z.to_nat (page_size limit)) L), E. rewrite nth_error_app2 by (rewrite firstn_length, fin_len; lia).
          rewrite firstn_length, fin_len. replace (_ - _)%nat with 0%nat by lia. done. }
        rewrite (fin_at _ _ Hx). f_equal. lia.
    - by rewrite skipn_all2 by (rewrite fin_len; lia).
  Qed.
  (** Backward from the bundle before [k]. *)
  Lemma back_list k : 0 <= k <= Z.of_N n -> rev (firstn (Z.to_nat k) L) = skipn (N.to_nat n - Z.to_nat k) (rev L).
  Proof. intros Hk. rewrite skipn_rev, fin_len. do 2 f_equal. lia. Qed.
  Lemma page_back k limit : 0 <= k -> 0 <= limit ->
    let m := Z.min k (Z.of_N n) in
    fin_page c p (Some k) 0 limit true =
      Some (mkFP (firstn (Z.to_nat (page_size limit)) (skipn (Z.to_nat (Z.of_N n - m)) (rev L)))
              (if page_size limit <? m then Some (m - page_size limit) else None) (Z.of_N n)).
  Proof.
    intros Hk Hl m. unfold fin_page. fold (page_size limit). fold L. rewrite fin_total. pose proof (page_size_pos limit Hl) as Hp.
    cbn [Z.ltb Z.compare andb]. rewrite (proj2 (fin_split k)).
    assert (Em : firstn (Z.to_nat k) L = firstn (Z.to_nat m) L).
    { destruct (Z.min_spec k (Z.of_N n)) as [[H E]|[H E]]; unfold m; rewrite E; [done|].
      rewrite !firstn_all2 by (rewrite fin_len; lia). done. }
    rewrite Em, back_list by lia. f_equal.
    replace (Z.to_nat (Z.of_N n - m)) with (N.to_nat n - Z.to_nat m)%nat by lia. f_equal. rewrite drop_drop.
    destruct (Z.ltb_spec (page_size limit) m) as [Hlt|Hge].
    - destruct (skipn (_ + _) (rev L)) as [|x t] eqn:E.
      + exfalso. apply (f_equal (@length _)) in E. rewrite skipn_length, rev_length, fin_len in E. cbn in E. lia.
      + set (q := (N.to_nat n - Z.to_nat m)%nat) in *.
        assert (Hlast : last (firstn (Z.to_nat (page_size limit)) (skipn q (rev L))) = nth_error L (Z.to_nat (m - page_size limit))).
        { rewrite last_lookup, firstn_length, skipn_length, rev_length, fin_len.
          replace (Init.Nat.pred _) with (Z.to_nat (page_size limit) - 1)%nat by lia.
          rewrite lookup_take, lookup_drop by lia. rewrite <- rev_alt', reverse_lookup by (rewrite fin_len; lia).
          rewrite fin_len, nth_lookup. f_equal. lia. }
        rewrite Hlast. destruct (nth_error L (Z.to_nat (m - page_size limit))) as [y|] eqn:Ey.
        * cbn [fmap option_fmap option_map]. rewrite (fin_at _ _ Ey). f_equal. lia.
        * apply nth_error_None in Ey. rewrite fin_len in Ey. lia.
    - by rewrite skipn_all2 by (rewrite rev_length, fin_len; lia).
  Qed.
  Lemma page_back_offset o limit : 0 <= o < two64 -> 0 <= limit ->
    fin_page c p None o limit true = fin_page c p (Some (if o <=? Z.of_N n then Z.of_N n - o else Z.of_N n)) 0 limit true.
  Proof.
    intros Ho Hl. rewrite page_back by (try destruct (Z.leb_spec o (Z.of_N n)); lia).
    assert (E : fin_page c p None o limit true = fin_page c p (Some (u64_sub (Z.of_N n) o)) 0 limit true).
    { unfold fin_page. fold L. rewrite fin_total. rewrite andb_false_r. cbn [Z.ltb Z.compare andb]. done. }
    rewrite E. assert (Hu : 0 <= u64_sub (Z.of_N n) o) by (unfold u64_sub, w64; destruct (Z.leb_spec o (Z.of_N n)); [lia|]; apply Z.mod_pos_bound; unfold two64; lia).
    rewrite page_back by done.
    assert (Eu : Z.min (u64_sub (Z.of_N n) o) (Z.of_N n) = Z.min (if o <=? Z.of_N n then Z.of_N n - o else Z.of_N n) (Z.of_N n)); [|by rewrite Eu].
    unfold u64_sub, w64. destruct (Z.leb_spec o (Z.of_N n)); [done|].
    rewrite <- (Z.mod_unique_pos (Z.of_N n - o) two64 (-1) (Z.of_N n - o + two64)); lia.
  Qed.
End archive.

Lemma walk_positions {A} (D : list A) (ask : option Z -> option (list A * option Z)) (key : Z -> Z) size : 0 < size ->
  (forall pos, 0 <= pos <= Z.of_nat (length D) -> ask (Some (key pos)) = Some (firstn (Z.to_nat size) (skipn (Z.to_nat pos) D),
     if pos + size <? Z.of_nat (length D) then Some (key (pos + size)) else None)) ->
  ask None = ask (Some (key 0)) -> exists n, walk n ask None = Some D.
Proof.
  intros Hs Hask H0.
  assert (H : forall m pos, 0 <= pos <= Z.of_nat (length D) -> (Z.to_nat (Z.of_nat (length D) - pos) <= m)%nat ->
    exists n, walk n ask (Some (key pos)) = Some (skipn (Z.to_nat pos) D)).
  { induction m as [|m IH]; intros pos Hp Hm.
    - exists 1%nat. cbn [walk]. rewrite Hask by done. destruct (Z.ltb_spec (pos + size) (Z.of_nat (length D))); [lia|].
      f_equal. apply firstn_all2. rewrite skipn_length. lia.
    - destruct (Z.ltb_spec (pos + size) (Z.of_nat (length D))) as [Hlt|Hge].
      + destruct (IH (pos + size) ltac:(lia) ltac:(lia)) as [n E]. exists (S n). cbn [walk]. rewrite Hask by done.
        destruct (Z.ltb_spec (pos + size) (Z.of_nat (length D))); [|lia]. rewrite E. f_equal.
        rewrite Z2Nat.inj_add, <- drop_drop by lia. apply firstn_skipn.
      + exists 1%nat. cbn [walk]. rewrite Hask by done. destruct (Z.ltb_spec (pos + size) (Z.of_nat (length D))); [lia|].
        f_equal. apply firstn_all2. rewrite skipn_length. lia. }
  destruct (H (length D) 0 ltac:(lia) ltac:(lia)) as [n E]. exists n. destruct n; [done|]. cbn [walk] in E |- *. by rewrite H0.
Qed.

Lemma ids_below fin idx p index total : arch fin idx p index total -> forall id fb, fin !! (p, id) = Some fb -> Z.of_N id <= fb_from fb.
Proof.
  intros A. induction id as [|id IH] using N.peano_ind; intros fb Hfb.
  - rewrite (ar_first _ _ _ _ _ A _ Hfb). done.
  - assert (Hid : (N.succ id < total)%N) by (apply (ar_ids _ _ _ _ _ A); eauto).
    destruct (proj2 (ar_ids _ _ _ _ _ A id) ltac:(lia)) as [f Hf]. pose proof (IH _ Hf).
    pose proof (ar_size _ _ _ _ _ A _ _ Hf). rewrite <- N.add_1_r in Hfb. rewrite (ar_next _ _ _ _ _ A _ _ _ Hf Hfb). lia.
Qed.
Lemma total_bound fin idx p index total : arch fin idx p index total -> Z.of_N total < two64.
Proof.
  intros A. destruct (N.eq_dec total 0) as [->|]; [done|]. destruct (proj2 (ar_ids _ _ _ _ _ A (N.pred total)) ltac:(lia)) as [f Hf].
  pose proof (ids_below _ _ _ _ _ A _ _ Hf). pose proof (ar_size _ _ _ _ _ A _ _ Hf). pose proof (ar_index _ _ _ _ _ A). lia.
Qed.
Definition ask_bundles (c : chain) (p : N) (limit : Z) (reverse : bool) (key : option Z) : option (list (N * fbundle) * option Z) :=
  (fun r => (fp_items r, fp_next r)) <$> fin_page c p key 0 limit reverse.
Definition directed {A} (reverse : bool) (L : list A) : list A := if reverse then rev L else L.
Lemma directed_length {A} r (L : list A) : length (directed r L) = length L.
Proof. destruct r; [apply rev_length|done]. Qed.

Lemma claim_bundles c0 ops p pl : start c0 -> cops_ok c0 ops -> get_pool (crun c0 ops) p = Some pl ->
  let c := crun c0 ops in
  exists L, archive c p (pl_total pl) L /\
    (forall reverse limit, 0 <= limit -> exists n, walk n (ask_bundles c p limit reverse) None = Some (directed reverse L)) /\
    (forall reverse offset limit, 0 <= offset < two64 -> 0 <= limit -> (reverse = true -> offset <= Z.of_N (pl_total pl)) ->
       exists next, fin_page c p None offset limit reverse =
         Some (mkFP (firstn (Z.to_nat (page_size limit)) (skipn (Z.to_nat offset) (directed reverse L))) next (Z.of_N (pl_total pl)))).
Proof.
  intros Hs Hok Hpl c. destruct (history _ _ Hs Hok) as (HI & _ & _). pose proof (ai_arch _ HI _ _ Hpl) as A.
  fold c in HI, A, Hpl. set (n := pl_total pl) in *.
  assert (Hids : forall id, is_Some (c_fin c !! (p, id)) <-> (id < n)%N) by apply (ar_ids _ _ _ _ _ A).
  pose proof (total_bound _ _ _ _ _ A) as Hn. pose proof (fin_archive c p n Hids) as HA. pose proof (proj1 HA) as Hlen.
  exists (fin_list c p). split; [done|]. split.
  - intros reverse limit Hl. pose proof (page_size_pos limit Hl) as Hp.
    apply (walk_positions _ _ (fun pos => if reverse then Z.of_N n - pos else pos) (page_size limit) Hp).
    + intros pos Hpos. rewrite directed_length, Hlen in *. unfold ask_bundles. destruct reverse; cbn [directed].
      * rewrite (page_back c p n) by (try done; lia). cbn [fmap option_fmap option_map fp_items fp_next].
        rewrite Z.min_l by lia. replace (Z.of_N n - (Z.of_N n - pos)) with pos by lia. f_equal. f_equal.
        destruct (Z.ltb_spec (page_size limit) (Z.of_N n - pos)), (Z.ltb_spec (pos + page_size limit) (Z.of_nat (N.to_nat n))); try lia; [|done].
        f_equal. lia.
      * rewrite (page_forward c p n) by (try done; lia). cbn [fmap option_fmap option_map fp_items fp_next].
        f_equal. f_equal.
        destruct (Z.ltb_spec (pos + page_size limit) (Z.of_N n)), (Z.ltb_spec (pos + page_size limit) (Z.of_nat (N.to_nat n))); try lia; done.
    + unfold ask_bundles. destruct reverse.
      * rewrite (page_back_offset c p n) by (try done; unfold two64; lia). destruct (Z.leb_spec 0 (Z.of_N n)); [done|lia].
      * rewrite !(page_forward c p n) by (try done; lia). done.
  - intros reverse o limit Ho Hl Hr. destruct reverse; cbn [directed].
    + rewrite (page_back_offset c p n) by done. destruct (Z.leb_spec o (Z.of_N n)); [|specialize (Hr eq_refl); lia].
      rewrite (page_back c p n) by (try done; lia). rewrite Z.min_l by lia.
      replace (Z.of_N n - (Z.of_N n - o)) with o by lia. by eexists.
    + rewrite (page_forward c p n) by (try done; lia). by eexists.
Qed.
(** An offset beyond the end gives the newest bundles again. *)
Lemma claim_wrap c0 ops p pl o limit : start c0 -> cops_ok c0 ops -> get_pool (crun c0 ops) p = Some pl ->
  Z.of_N (pl_total pl) < o < two64 -> 0 <= limit ->
  fin_page (crun c0 ops) p None o limit true = fin_page (crun c0 ops) p None 0 limit true.
Proof.
  intros Hs Hok Hpl Ho Hl. destruct (history _ _ Hs Hok) as (HI & _ & _). pose proof (ai_arch _ HI _ _ Hpl) as A.
  pose proof (total_bound _ _ _ _ _ A) as Hn.
  rewrite !(page_back_offset _ p (pl_total pl)) by (try apply (ar_ids _ _ _ _ _ A); try done; unfold two64 in *; lia).
  destruct (Z.leb_spec o (Z.of_N (pl_total pl))); [lia|]. destruct (Z.leb_spec 0 (Z.of_N (pl_total pl))); [|lia]. by rewrite Z.sub_0_r.
Qed.
