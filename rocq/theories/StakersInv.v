(** * Stakers: membership invariant. *)
From stdpp Require Import sorting.
From Verif Require Import Base BaseFacts Stakers.

Definition in_map (s : N) (m : gmap N valacc) : Z := match m !! s with Some _ => 1 | None => 0 end.
Definition npools (st : sstate) (s : N) : Z := msum (fun _ m => in_map s m) (ss_val st).

Lemma npools_nonneg st s : 0 <= npools st s.
Proof. apply msum_nonneg. intros k m _. unfold in_map. destruct (m !! s); lia. Qed.
Lemma npools_pos st s : 0 < npools st s <-> exists p v, get_val st p s = Some v.
Proof.
  unfold npools, get_val, vals_of. split.
  - intros H. destruct (decide (exists p m, ss_val st !! p = Some m /\ is_Some (m !! s))) as [(p & m & E & [v Ev])|Hn].
    { exists p, v. by rewrite E. }
    exfalso. assert (msum (fun _ m => in_map s m) (ss_val st) <= 0); [|lia].
    rewrite <- (msum_ext (fun _ _ => 0) (fun _ m => in_map s m)).
    + assert (msum (fun _ _ => 0) (ss_val st) <= msum (fun _ _ => 0) (ss_val st)) by lia.
      clear. induction (ss_val st) as [|k a m Hk IH] using map_ind; [by rewrite msum_empty|].
      rewrite msum_insert_fresh by done. lia.
    + intros k m E. unfold in_map. destruct (m !! s) as [v|] eqn:Ev; [|done]. exfalso. apply Hn. exists k, m. by rewrite Ev.
  - intros (p & v & E). destruct (ss_val st !! p) as [m|] eqn:Em; [|done]. simpl in E.
    assert (in_map s m <= msum (fun _ m => in_map s m) (ss_val st)).
    { apply (msum_elem_le (fun _ m => in_map s m) _ p); [|done]. intros k m' _. unfold in_map. destruct (m' !! s); lia. }
    unfold in_map in H at 1. rewrite E in H. lia.
Qed.

Lemma vals_of_insert st p p' m :
  vals_of (with_val st (<[p := m]> (ss_val st))) p' = (if decide (p = p') then m else vals_of st p').
Proof.
  unfold vals_of. simpl. destruct (decide (p = p')) as [->|H]; [by rewrite lookup_insert|by rewrite lookup_insert_ne].
Qed.
Lemma npools_insert st p m s :
  npools (with_val st (<[p := m]> (ss_val st))) s = npools st s - in_map s (vals_of st p) + in_map s m.
Proof.
  unfold npools. simpl. rewrite msum_insert. unfold vals_of. destruct (ss_val st !! p) as [m'|]; simpl; [lia|].
  assert (in_map s ∅ = 0) as -> by (unfold in_map; by rewrite lookup_empty). lia.
Qed.

Record MI (st : sstate) : Prop := mkMI {
  mi_count : forall p, count_of st p = Z.of_nat (size (vals_of st p)) /\ count_of st p <= MAX_STAKERS;
  mi_active : forall s, ss_active st !! s = if npools st s =? 0 then None else Some (npools st s);
  mi_known : forall p s v, get_val st p s = Some v -> is_Some (ss_stakers st !! s) /\ s <> 0%N /\ vl_addr v <> s;
  mi_pool : forall p s1 s2 v1 v2, get_val st p s1 = Some v1 -> get_val st p s2 = Some v2 -> vl_addr v1 = vl_addr v2 -> s1 = s2;
  mi_self : forall p1 p2 s v1 v2, get_val st p1 s = Some v1 -> get_val st p2 s = Some v2 -> vl_addr v1 = vl_addr v2 -> p1 = p2
}.

Lemma MI_ext st st' : MI st -> ss_val st' = ss_val st -> ss_count st' = ss_count st -> ss_active st' = ss_active st ->
  (forall s, is_Some (ss_stakers st !! s) -> is_Some (ss_stakers st' !! s)) -> MI st'.
Proof.
  intros [H1 H2 H3 H4 H5] Ev Ec Ea Es.
  assert (Hg : forall p s, get_val st' p s = get_val st p s) by (intros; unfold get_val, vals_of; by rewrite Ev).
  constructor.
  - intros p. specialize (H1 p). unfold count_of, vals_of in *. by rewrite Ev, Ec.
  - intros s. specialize (H2 s). unfold npools in *. by rewrite Ev, Ea.
  - intros p s v. rewrite Hg. intros E. destruct (H3 _ _ _ E) as (? & ? & ?). eauto.
  - intros p s1 s2 v1 v2. rewrite !Hg. eauto.
  - intros p1 p2 s v1 v2. rewrite !Hg. eauto.
Qed.

Lemma get_set_val st p s v p' s' :
  get_val (set_val st p s v) p' s' = if decide (p = p' /\ s = s') then Some v else get_val st p' s'.
Proof.
  unfold get_val, set_val. rewrite (vals_of_insert st p p').
  destruct (decide (p = p')) as [<-|Hp].
  - destruct (decide (s = s')) as [<-|Hs]; [rewrite lookup_insert, decide_True by done; done|].
    rewrite lookup_insert_ne by done. rewrite decide_False by naive_solver. done.
  - rewrite decide_False by naive_solver. done.
Qed.
(** Changing points or the leaving flag keeps membership. *)
Lemma MI_update st p s v v' : MI st -> get_val st p s = Some v -> vl_addr v' = vl_addr v -> MI (set_val st p s v').
Proof.
  intros [H1 H2 H3 H4 H5] E Ea. 
  assert (Hmap : forall p', size (vals_of (set_val st p s v') p') = size (vals_of st p')).
  { intros p'. unfold set_val. rewrite (vals_of_insert st p p'). destruct (decide (p = p')) as [<-|]; [|done].
    rewrite map_size_insert_Some; [done|by exists v]. }
  assert (Hold : forall p' s' x, get_val (set_val st p s v') p' s' = Some x -> exists y, get_val st p' s' = Some y /\ vl_addr x = vl_addr y).
  { intros p' s' x. rewrite get_set_val. destruct (decide _) as [[<- <-]|]; intros; simplify_eq; eauto. }
  constructor.
  - intros p'. change (count_of (set_val st p s v') p') with (count_of st p'). rewrite Hmap. apply H1.
  - intros s'. change (ss_active (set_val st p s v')) with (ss_active st).
    assert (npools (set_val st p s v') s' = npools st s') as ->; [|apply H2].
    unfold set_val. rewrite npools_insert. unfold in_map at 2. unfold get_val in E.
    destruct (decide (s = s')) as [<-|Hs]; [rewrite lookup_insert; unfold in_map; rewrite E; lia|].
    rewrite lookup_insert_ne by done. unfold in_map. lia.
  - intros p' s' x Hx. destruct (Hold _ _ _ Hx) as (y & Hy & ->). exact (H3 _ _ _ Hy).
  - intros p' s1 s2 v1 v2 E1 E2 Ev. destruct (Hold _ _ _ E1) as (y1 & Hy1 & G1). destruct (Hold _ _ _ E2) as (y2 & Hy2 & G2).
    rewrite G1, G2 in Ev. eauto.
  - intros p1 p2 s' v1 v2 E1 E2 Ev. destruct (Hold _ _ _ E1) as (y1 & Hy1 & G1). destruct (Hold _ _ _ E2) as (y2 & Hy2 & G2).
    rewrite G1, G2 in Ev. eauto.
Qed.

(** ** Leaving *)
Lemma get_leave st s p p' s' :
  get_val (leave_pool st s p) p' s' = if decide (p = p' /\ s = s') then None else get_val st p' s'.
Proof.
  unfold leave_pool. destruct (get_val st p s) as [v|] eqn:E.
  - change (get_val (with_counts (with_val st ?x) ?c ?a) p' s') with (get_val (with_val st x) p' s').
    unfold get_val at 1. rewrite (vals_of_insert st p p').
    destruct (decide (p = p')) as [<-|Hp].
    + destruct (decide (s = s')) as [<-|Hs]; [rewrite lookup_delete, decide_True by done; done|].
      rewrite lookup_delete_ne by done. rewrite decide_False by naive_solver. done.
    + rewrite decide_False by naive_solver. done.
  - destruct (decide _) as [[<- <-]|]; done.
Qed.
Lemma size_leave st s p v : get_val st p s = Some v ->
  forall p', (size (vals_of (leave_pool st s p) p') + (if decide (p = p') then 1 else 0) = size (vals_of st p'))%nat.
Proof.
  intros E p'. unfold leave_pool. rewrite E.
  change (vals_of (with_counts (with_val st ?x) ?c ?a) p') with (vals_of (with_val st x) p').
  rewrite (vals_of_insert st p p'). destruct (decide (p = p')) as [<-|]; [|lia].
  unfold get_val in E. assert (size (delete s (vals_of st p)) = pred (size (vals_of st p))) as H by (apply map_size_delete_Some; by exists v).
  assert (size (vals_of st p) <> 0)%nat. { intros H0. apply map_size_empty_inv in H0. rewrite H0 in E. done. }
  lia.
Qed.
Lemma leave_frame st s p : ss_stakers (leave_pool st s p) = ss_stakers st /\ ss_centries (leave_pool st s p) = ss_centries st /\
  ss_cindex (leave_pool st s p) = ss_cindex st /\ ss_clow (leave_pool st s p) = ss_clow st /\ ss_chigh (leave_pool st s p) = ss_chigh st /\
  ss_lentries (leave_pool st s p) = ss_lentries st /\ ss_lindex (leave_pool st s p) = ss_lindex st /\
  ss_llow (leave_pool st s p) = ss_llow st /\ ss_lhigh (leave_pool st s p) = ss_lhigh st /\
  ss_ctime (leave_pool st s p) = ss_ctime st /\ ss_ltime (leave_pool st s p) = ss_ltime st /\
  ss_time (leave_pool st s p) = ss_time st /\ ss_bank (leave_pool st s p) = ss_bank st.
Proof. unfold leave_pool. destruct (get_val st p s); repeat split. Qed.
Lemma MI_leave st s p : MI st -> MI (leave_pool st s p).
Proof.
  intros HI. destruct (get_val st p s) as [v|] eqn:E; [|unfold leave_pool; by rewrite E].
  pose proof HI as [H1 H2 H3 H4 H5].
  assert (Hold : forall p' s' x, get_val (leave_pool st s p) p' s' = Some x -> get_val st p' s' = Some x).
  { intros p' s' x. rewrite get_leave. by destruct (decide _). }
  constructor.
  - intros p'. pose proof (size_leave st s p v E p') as Hs. destruct (H1 p') as [Hc Hm].
    assert (count_of (leave_pool st s p) p' = count_of st p' - (if decide (p = p') then 1 else 0)) as ->.
    { unfold leave_pool. rewrite E. unfold count_of at 1. simpl. destruct (decide (p = p')) as [<-|Hp].
      - rewrite lookup_insert. simpl. unfold u64_sub. destruct (1 <=? count_of st p) eqn:El; [lia|]. lia.
      - rewrite lookup_insert_ne by done. unfold count_of. lia. }
    destruct (decide (p = p')); lia.
  - intros s'. assert (Hn : npools (leave_pool st s p) s' = npools st s' - if decide (s = s') then 1 else 0).
    { unfold leave_pool. rewrite E. change (npools (with_counts (with_val st ?x) ?c ?a) s') with (npools (with_val st x) s').
      rewrite npools_insert. unfold in_map. unfold get_val in E. destruct (decide (s = s')) as [<-|Hs].
      - rewrite E, lookup_delete. lia.
      - rewrite lookup_delete_ne by done. lia. }
    rewrite Hn. unfold leave_pool. rewrite E. simpl. unfold remove_active.
    assert (Hpos : 0 < npools st s) by (apply npools_pos; eauto).
    pose proof (H2 s) as Hs2. destruct (npools st s =? 0) eqn:E0; [lia|]. rewrite Hs2. simpl.
    destruct ((npools st s =? 0) || (npools st s =? 1)) eqn:E1.
    + destruct (decide (s = s')) as [<-|Hs].
      * rewrite lookup_delete. destruct (npools st s - 1 =? 0) eqn:E2; [done|lia].
      * rewrite lookup_delete_ne by done. rewrite H2. by rewrite Z.sub_0_r.
    + destruct (decide (s = s')) as [<-|Hs].
      * rewrite lookup_insert. destruct (npools st s - 1 =? 0) eqn:E2; [lia|done].
      * rewrite lookup_insert_ne by done. rewrite H2. by rewrite Z.sub_0_r.
  - intros p' s' x Hx. rewrite (proj1 (leave_frame st s p)). eauto.
  - intros p' s1 s2 v1 v2 E1 E2. eauto.
  - intros p1 p2 s' v1 v2 E1 E2. eauto.
Qed.

(** ** Joining *)
Lemma get_add st p s v p' s' : is_Some (ss_stakers st !! s) -> get_val st p s = None ->
  get_val (add_val st p s v) p' s' = if decide (p = p' /\ s = s') then Some (mkVal v 0 false) else get_val st p' s'.
Proof.
  intros [x Ex] E. unfold add_val. rewrite Ex, E. rewrite <- get_set_val. done.
Qed.
Lemma add_frame st s p v : ss_stakers (add_val st p s v) = ss_stakers st /\ ss_centries (add_val st p s v) = ss_centries st /\
  ss_cindex (add_val st p s v) = ss_cindex st /\ ss_clow (add_val st p s v) = ss_clow st /\ ss_chigh (add_val st p s v) = ss_chigh st /\
  ss_lentries (add_val st p s v) = ss_lentries st /\ ss_lindex (add_val st p s v) = ss_lindex st /\
  ss_llow (add_val st p s v) = ss_llow st /\ ss_lhigh (add_val st p s v) = ss_lhigh st /\
  ss_ctime (add_val st p s v) = ss_ctime st /\ ss_ltime (add_val st p s v) = ss_ltime st /\
  ss_time (add_val st p s v) = ss_time st /\ ss_bank (add_val st p s v) = ss_bank st.
Proof. unfold add_val. destruct (ss_stakers st !! s) as [x|]; [destruct (get_val st p s)|]; repeat split. Qed.
Lemma MI_add st p s v : MI st -> is_Some (ss_stakers st !! s) -> s <> 0%N -> get_val st p s = None -> v <> s ->
  count_of st p < MAX_STAKERS ->
  (forall p' x, get_val st p' s = Some x -> vl_addr x <> v) -> (forall s' x, get_val st p s' = Some x -> vl_addr x <> v) ->
  MI (add_val st p s v).
Proof.
  intros [H1 H2 H3 H4 H5] Hs Hs0 E Hv Hc Hself Hpool. pose proof (fun p' s' => get_add st p s v p' s' Hs E) as Hg.
  constructor.
  - intros p'. destruct (H1 p') as [Hc1 Hc2]. destruct Hs as [x Ex]. unfold add_val. rewrite Ex, E.
    change (vals_of (with_counts (set_val st p s ?w) ?c ?a) p') with (vals_of (set_val st p s w) p').
    assert (Hcount : forall w a, count_of (with_counts w (<[p := u64_add (count_of st p) 1]> (ss_count st)) a) p' =
              if decide (p = p') then u64_add (count_of st p) 1 else count_of st p').
    { intros w a. unfold count_of at 1. simpl. destruct (decide (p = p')) as [<-|Hp]; [by rewrite lookup_insert|by rewrite lookup_insert_ne]. }
    cbv zeta. rewrite Hcount. unfold set_val. rewrite (vals_of_insert st p p').
    destruct (decide (p = p')) as [<-|Hp]; [|lia].
    rewrite map_size_insert_None by exact E. unfold u64_add, w64.
    rewrite Z.mod_small by (unfold MAX_STAKERS, two64 in *; lia). lia.
  - intros s'. destruct Hs as [x Ex].
    assert (Hn : npools (add_val st p s v) s' = npools st s' + if decide (s = s') then 1 else 0).
    { unfold add_val. rewrite Ex, E. change (npools (with_counts (set_val st p s ?w) ?c ?a) s') with (npools (set_val st p s w) s').
      unfold set_val. rewrite npools_insert. unfold in_map. unfold get_val in E. destruct (decide (s = s')) as [<-|Hss].
      - rewrite E, lookup_insert. lia.
      - rewrite lookup_insert_ne by done. lia. }
    rewrite Hn. unfold add_val. rewrite Ex, E. simpl. pose proof (npools_nonneg st s) as Hnn.
    destruct (decide (s = s')) as [<-|Hss].
    + rewrite lookup_insert. rewrite H2. destruct (npools st s =? 0) eqn:E0; simpl.
      * destruct (npools st s + 1 =? 0) eqn:E1; [lia|]. f_equal. lia.
      * destruct (npools st s + 1 =? 0) eqn:E1; [lia|]. done.
    + rewrite lookup_insert_ne by done. rewrite H2. by rewrite Z.add_0_r.
  - intros p' s' x. rewrite Hg. rewrite (proj1 (add_frame st s p v)). destruct (decide _) as [[<- <-]|].
    + intros; simplify_eq. simpl. done.
    + apply H3.
  - intros p' s1 s2 v1 v2. rewrite !Hg.
    destruct (decide (p = p' /\ s = s1)) as [[A1 A2]|N1], (decide (p = p' /\ s = s2)) as [[B1 B2]|N2]; intros G1 G2 Ev; simplify_eq; try done.
    + simpl in Ev. exfalso. eapply Hpool; [exact G2|done].
    + simpl in Ev. exfalso. eapply Hpool; [exact G1|done].
    + eauto.
  - intros p1 p2 s' v1 v2. rewrite !Hg.
    destruct (decide (p = p1 /\ s = s')) as [[A1 A2]|N1], (decide (p = p2 /\ s = s')) as [[B1 B2]|N2]; intros G1 G2 Ev; simplify_eq; try done.
    + simpl in Ev. exfalso. eapply Hself; [exact G2|done].
    + simpl in Ev. exfalso. eapply Hself; [exact G1|done].
    + eauto.
Qed.

(** ** Members and the lowest staker *)
Lemma elem_pool_stakers st p s : s ∈ pool_stakers st p <-> is_Some (get_val st p s).
Proof.
  unfold pool_stakers, get_val. rewrite merge_sort_Permutation. rewrite elem_of_list_fmap. split.
  - intros ([k v] & -> & H). apply elem_of_map_to_list in H. simpl. by exists v.
  - intros [v H]. exists (s, v). split; [done|]. by apply elem_of_map_to_list.
Qed.
Lemma NoDup_pool_stakers st p : NoDup (pool_stakers st p).
Proof. unfold pool_stakers. rewrite merge_sort_Permutation. apply NoDup_fst_map_to_list. Qed.
Lemma length_pool_stakers st p : length (pool_stakers st p) = size (vals_of st p).
Proof. unfold pool_stakers. rewrite merge_sort_Permutation. by rewrite map_length. Qed.
Lemma elem_valaddrs st s a : a ∈ valaddrs_of st s <-> exists p v, get_val st p s = Some v /\ vl_addr v = a.
Proof.
  unfold valaddrs_of, get_val, vals_of. rewrite elem_of_list_omap. split.
  - intros ([p m] & H & E). apply elem_of_map_to_list in H. simpl in E. destruct (m !! s) as [v|] eqn:Ev; [|done].
    simpl in E. simplify_eq. exists p, v. rewrite H. done.
  - intros (p & v & E & <-). destruct (ss_val st !! p) as [m|] eqn:Em; [|done]. simpl in E.
    exists (p, m). rewrite elem_of_map_to_list. split; [done|]. simpl. by rewrite E.
Qed.
Lemma known_pool st p : MI st -> map (known st) (pool_stakers st p) = pool_stakers st p.
Proof.
  intros HI. rewrite <- (map_id (pool_stakers st p)) at 2. apply map_ext_in. intros s Hs. apply elem_of_list_In in Hs.
  apply elem_pool_stakers in Hs as [v Hv]. destruct (mi_known st HI _ _ _ Hv) as ([x Ex] & _). unfold known. by rewrite Ex.
Qed.
Lemma fold_lowest (del : N -> Z) l acc :
  let r := fold_left (fun acc s => if del s <? fst acc then (del s, s) else acc) l acc in
  fst r <= fst acc /\ Forall (fun s => fst r <= del s) l /\ (r = acc \/ (snd r ∈ l /\ fst r = del (snd r))).
Proof.
  revert acc. induction l as [|x l IH]; intros acc; cbv zeta.
  - simpl. split; [done|]. split; [constructor|by left].
  - cbn [fold_left]. specialize (IH (if del x <? fst acc then (del x, x) else acc)). cbv zeta in IH.
    destruct IH as (I1 & I2 & I3). set (r := fold_left _ l _) in *. destruct (del x <? fst acc) eqn:E; simpl in I1.
    + split; [lia|]. split; [constructor; [lia|done]|]. right. destruct I3 as [I3|[I3 I4]].
      * rewrite I3. simpl. split; [left|done].
      * split; [by right|done].
    + split; [done|]. split; [constructor; [lia|done]|]. destruct I3 as [I3|[I3 I4]]; [by left|]. right. split; [by right|done].
Qed.
Lemma lowest_spec st del p : MI st -> (forall x, 0 <= del x < two63) -> 0 < count_of st p ->
  let l := lowest_staker st del p in
  is_Some (get_val st p l) /\ forall s, is_Some (get_val st p s) -> del l <= del s.
Proof.
  intros HI Hd Hc. cbv zeta. unfold lowest_staker. rewrite known_pool by done.
  pose proof (fold_lowest del (pool_stakers st p) (two64 - 1, 0%N)) as H. cbv zeta in H.
  set (r := fold_left _ _ _) in *. destruct H as (H1 & H2 & H3).
  assert (Hne : exists s, s ∈ pool_stakers st p).
  { destruct (pool_stakers st p) as [|s l] eqn:E; [|exists s; left].
    exfalso. destruct (mi_count st HI p) as [Hcc _]. rewrite <- length_pool_stakers, E in Hcc. simpl in Hcc. lia. }
  destruct Hne as [s0 Hs0]. rewrite Forall_forall in H2.
  destruct H3 as [H3|[H3 H4]].
  - exfalso. specialize (H2 _ Hs0). rewrite H3 in H2. simpl in H2. specialize (Hd s0). unfold two63, two64 in *. lia.
  - split; [by apply elem_pool_stakers|]. intros s Hs. rewrite <- H4. apply H2. by apply elem_pool_stakers.
Qed.

(** What [ensure_slot] does. *)
Lemma ensure_slot_spec st del p s st1 : MI st -> (forall x, 0 <= del x < two63) -> ensure_slot st del p s = Some st1 ->
  MI st1 /\ count_of st1 p < MAX_STAKERS /\
  ((count_of st p < MAX_STAKERS /\ st1 = st) \/
   (count_of st p = MAX_STAKERS /\ exists l, st1 = leave_pool st l p /\ is_Some (get_val st p l) /\ del l < del s /\
      forall s', is_Some (get_val st p s') -> del l <= del s')).
Proof.
  intros HI Hd H. unfold ensure_slot in H. pose proof (mi_count st HI p) as [Hc1 Hc2].
  destruct (MAX_STAKERS <=? count_of st p) eqn:E.
  - destruct (del (lowest_staker st del p) <? del s) eqn:E1; [|done]. simplify_eq.
    destruct (lowest_spec st del p HI Hd ltac:(unfold MAX_STAKERS in *; lia)) as [Hl Hm]. cbv zeta in *.
    pose proof (MI_leave st (lowest_staker st del p) p HI) as HI1. split; [done|].
    destruct Hl as [v Hv]. pose proof (size_leave st (lowest_staker st del p) p v Hv p) as Hsz. rewrite decide_True in Hsz by done.
    destruct (mi_count _ HI1 p) as [Hc3 _]. split; [lia|]. right. split; [lia|].
    exists (lowest_staker st del p). split; [done|]. split; [by eauto|]. split; [lia|done].
  - simplify_eq. split; [done|]. split; [lia|]. left. split; [lia|done].
Qed.
Lemma ensure_slot_None st del p s : MI st -> (forall x, 0 <= del x < two63) -> ensure_slot st del p s = None ->
  count_of st p = MAX_STAKERS /\ forall s', is_Some (get_val st p s') -> del s <= del s'.
Proof.
  intros HI Hd H. unfold ensure_slot in H. pose proof (mi_count st HI p) as [Hc1 Hc2].
  destruct (MAX_STAKERS <=? count_of st p) eqn:E; [|done].
  destruct (del (lowest_staker st del p) <? del s) eqn:E1; [done|].
  destruct (lowest_spec st del p HI Hd ltac:(unfold MAX_STAKERS in *; lia)) as [Hl Hm]. cbv zeta in *.
  split; [lia|]. intros s' Hs'. specialize (Hm _ Hs'). lia.
Qed.
