(** * Stakers: claims over all histories. *)
From Verif Require Import Base BaseFacts Stakers StakersInv StakersRun.

(** ** Observables *)
Definition member (st : sstate) (p s : N) : Prop := is_Some (get_val st p s).
Definition member_b (st : sstate) (p s : N) : bool := match get_val st p s with Some _ => true | None => false end.
Lemma member_b_spec st p s : member_b st p s = true <-> member st p s.
Proof. unfold member_b, member. destruct (get_val st p s); split; try done. by intros [? ?]. Qed.
(** The stakers registered in a pool. *)
Definition members (st : sstate) (p : N) : Z := Z.of_nat (size (vals_of st p)).
(** What a staker can claim. *)
Definition owed (st : sstate) (s d : N) : Z := match ss_stakers st !! s with Some x => amt (st_rewards x) d | None => 0 end.
Definition owed_all (st : sstate) (d : N) : Z := msum (fun _ x => amt (st_rewards x) d) (ss_stakers st).

(** ** Joining, unfolded *)
Lemma join_inv st pool del s p v amount st' : msg_join st pool del s p v amount = Some st' ->
  pool = Some false /\ is_Some (ss_stakers st !! s) /\ s <> v /\ get_val st p s = None /\
  exists st1 b, ensure_slot st del p s = Some st1 /\
    (forall p' x, get_val st1 p' s = Some x -> vl_addr x <> v) /\ (forall s' x, get_val st1 p s' = Some x -> vl_addr x <> v) /\
    pay_kyve (ss_bank st1) (User s) (User v) amount = Some b /\ st' = with_sbank (add_val st1 p s v) b.
Proof.
  unfold msg_join. destruct pool as [[]|]; try done. destruct (ss_stakers st !! s) as [x|] eqn:Ex; [|done].
  destruct (s =? v)%N eqn:Esv; [done|]. destruct (get_val st p s) as [y|] eqn:Ey; [done|].
  destruct (ensure_slot st del p s) as [st1|] eqn:Ee; [|done].
  destruct (existsb _ (valaddrs_of st1 s)) eqn:E1; [done|].
  destruct (existsb _ (pool_stakers st1 p)) eqn:E2; [done|].
  rewrite (proj2 (proj2 (proj2 (proj2 (proj2 (proj2 (proj2 (proj2 (proj2 (proj2 (proj2 (proj2 (add_frame st1 s p v))))))))))))).
  destruct (pay_kyve _ _ _ _) as [b|] eqn:Eb; [|done]. intros; simplify_eq.
  split; [done|]. split; [eauto|]. split; [lia|]. split; [done|]. exists st1, b. split; [done|]. split; [|split; [|done]].
  - intros p' z Hz Hv. assert (existsb (fun x => x =? v)%N (valaddrs_of st1 s) = true) as Ht; [|congruence].
    apply existsb_exists. exists (vl_addr z). split; [|lia]. apply elem_of_list_In, elem_valaddrs. eauto.
  - intros s' z Hz Hv. match type of E2 with ?t = false => assert (t = true) as Ht; [|congruence] end.
    apply existsb_exists. exists s'. split; [apply elem_of_list_In, elem_pool_stakers; eauto|]. rewrite Hz. lia.
Qed.
Lemma join_intro st del s p v amount st1 b : is_Some (ss_stakers st !! s) -> s <> v -> get_val st p s = None ->
  ensure_slot st del p s = Some st1 ->
  (forall p' x, get_val st1 p' s = Some x -> vl_addr x <> v) -> (forall s' x, get_val st1 p s' = Some x -> vl_addr x <> v) ->
  pay_kyve (ss_bank st1) (User s) (User v) amount = Some b ->
  msg_join st (Some false) del s p v amount = Some (with_sbank (add_val st1 p s v) b).
Proof.
  intros [x Ex] Hsv Ey Ee H1 H2 Eb. unfold msg_join. rewrite Ex, Ey, Ee. destruct (s =? v)%N eqn:E; [lia|]. clear E.
  destruct (existsb _ (valaddrs_of st1 s)) eqn:E1.
  { apply existsb_exists in E1 as (a & Ha & Hav). apply elem_of_list_In, elem_valaddrs in Ha as (p' & z & Hz & <-).
    exfalso. apply (H1 _ _ Hz). lia. }
  destruct (existsb _ (pool_stakers st1 p)) eqn:E2.
  { apply existsb_exists in E2 as (a & Ha & Hav). destruct (get_val st1 p a) as [z|] eqn:Ez; [|done].
    exfalso. apply (H2 _ _ Ez). lia. }
  rewrite (proj2 (proj2 (proj2 (proj2 (proj2 (proj2 (proj2 (proj2 (proj2 (proj2 (proj2 (proj2 (add_frame st1 s p v))))))))))))).
  by rewrite Eb.
Qed.
Lemma ensure_frame st del p s st1 : ensure_slot st del p s = Some st1 -> exists l, st1 = st \/ st1 = leave_pool st l p.
Proof.
  unfold ensure_slot. destruct (_ <=? _); [|intros; simplify_eq; exists 0%N; by left].
  destruct (_ <? _); [|done]. intros; simplify_eq. eexists. by right.
Qed.

(** ** Membership invariant over all histories, any times *)
Lemma MI_pc st i st1 : MI st -> process_centry st i = Some st1 -> MI st1.
Proof.
  intros HI. unfold process_centry. destruct (ss_centries st !! i) as [e|]; [|by intros; simplify_eq].
  destruct (_ <=? _); [|done]. intros; simplify_eq.
  destruct (ss_stakers (remove_centry st i e) !! ce_staker e) as [x|] eqn:Ex.
  - eapply MI_ext; [exact HI|done|done|done|]. intros s Hs. simpl. destruct (decide (ce_staker e = s)) as [<-|].
    + rewrite lookup_insert. eauto. + by rewrite lookup_insert_ne.
  - eapply MI_ext; [exact HI|done..].
Qed.
Lemma MI_pl st i st1 : MI st -> process_lentry st i = Some st1 -> MI st1.
Proof.
  intros HI. unfold process_lentry. destruct (ss_lentries st !! i) as [e|]; [|by intros; simplify_eq].
  destruct (_ <=? _); [|done]. intros; simplify_eq. apply MI_leave. eapply MI_ext; [exact HI|done..].
Qed.
Lemma queue_loop_inv (f : sstate -> N -> option sstate) (P : sstate -> Prop) high fuel st low :
  (forall st i st1, P st -> f st i = Some st1 -> P st1) -> P st -> P (fst (queue_loop f high fuel st low)).
Proof.
  intros Hf. revert st low. induction fuel as [|fuel IH]; intros st low HP; [done|]. simpl.
  destruct (f st (low + 1)%N) as [st1|] eqn:E; [|done]. destruct (low <? high)%N; [apply IH|simpl]; by eapply Hf.
Qed.
Lemma MI_step st o : sop_ok st o -> MI st -> MI (sstep st o).
Proof.
  intros Hok HI. destruct o; simpl in *.
  - unfold msg_create_staker. destruct (ss_stakers st !! s) eqn:E; [done|]. destruct delegates; [|done]. simpl.
    eapply MI_ext; [exact HI|done|done|done|]. intros s' Hs'. simpl. destruct (decide (s = s')) as [<-|].
    + rewrite lookup_insert. eauto. + by rewrite lookup_insert_ne.
  - unfold msg_update_commission. destruct (ss_stakers st !! s) eqn:E; [|done]. simpl. unfold order_commission.
    destruct (ss_cindex st !! s) as [i|]; [destruct (ss_centries st !! i)|]; (eapply MI_ext; [exact HI|done..]).
  - unfold msg_claim_commission. destruct (ss_stakers st !! s) eqn:E; [|done]. destruct (negb _); [done|].
    destruct (send _ _ _ _); [|done]. simpl. eapply MI_ext; [exact HI|done|done|done|]. intros s' Hs'. simpl. destruct (decide (s = s')) as [<-|].
    + rewrite lookup_insert. eauto. + by rewrite lookup_insert_ne.
  - destruct (msg_join st pool del s p v amount) as [st'|] eqn:E; [|done]. change (default st (Some st')) with st'.
    destruct Hok as (Hs0 & Hv0 & Hd & Ha). destruct (join_inv _ _ _ _ _ _ _ _ E) as (-> & Hs & Hsv & Hn & st1 & b & Ee & H1 & H2 & Eb & ->).
    destruct (ensure_slot_spec _ _ _ _ _ HI Hd Ee) as (HI1 & Hc & _).
    destruct (ensure_frame _ _ _ _ _ Ee) as [l Hl].
    assert (is_Some (ss_stakers st1 !! s)).
    { destruct Hl as [ -> | -> ]; [done|]. by rewrite (proj1 (leave_frame st l p)). }
    assert (get_val st1 p s = None).
    { destruct Hl as [ -> | -> ]; [done|]. rewrite get_leave. by destruct (decide _). }
    eapply (MI_ext (add_val st1 p s v)); [|done..]. apply MI_add; auto.
  - unfold msg_leave. destruct (get_val st p s) as [x|] eqn:E; [|done]. destruct (bool_decide _); [done|]. simpl.
    eapply (MI_ext (set_val st p s (mkVal (vl_addr x) (vl_points x) true))); [|done..]. by eapply MI_update.
  - by apply MI_leave.
  - unfold increase_commission_rewards. destruct (cempty amount); [done|]. destruct (ss_stakers st !! s) eqn:E; [|done].
    destruct (send _ _ _ _); [|done]. simpl. eapply MI_ext; [exact HI|done|done|done|]. intros s' Hs'. simpl. destruct (decide (s = s')) as [<-|].
    + rewrite lookup_insert. eauto. + by rewrite lookup_insert_ne.
  - unfold increment_points. destruct (get_val st p s) as [x|] eqn:E; [|done]. simpl. by eapply MI_update.
  - unfold reset_points. destruct (get_val st p s) as [x|] eqn:E; [|done]. simpl. by eapply MI_update.
  - eapply MI_ext; [exact HI|done..].
  - unfold stakers_begin, process_leaves, process_commissions.
    set (st0 := with_stime st t). assert (H0 : MI st0) by (eapply MI_ext; [exact HI|done..]).
    pose proof (queue_loop_inv process_centry MI (ss_chigh st0) (S (N.to_nat (ss_chigh st0 - ss_clow st0))) st0 (ss_clow st0) MI_pc H0) as H1.
    destruct (queue_loop process_centry _ _ _ _) as [s1 l1]. simpl in H1.
    set (st1 := with_cq s1 _ _ _ _). assert (H2 : MI st1) by (eapply MI_ext; [exact H1|done..]).
    pose proof (queue_loop_inv process_lentry MI (ss_lhigh st1) (S (N.to_nat (ss_lhigh st1 - ss_llow st1))) st1 (ss_llow st1) MI_pl H2) as H3.
    destruct (queue_loop process_lentry _ _ _ _) as [s2 l2]. simpl in H3. eapply MI_ext; [exact H3|done..].
  - eapply MI_ext; [exact HI|done..].
Qed.
Lemma MI_run ops st : sops_ok st ops -> MI st -> MI (srun st ops).
Proof. revert st. induction ops as [|o ops IH]; intros st; simpl; [done|]. intros [H1 H2] HI. apply IH; [done|]. by apply MI_step. Qed.
Lemma MI_init b t c l : MI (sinit b t c l).
Proof.
  assert (Hg : forall p s, get_val (sinit b t c l) p s = None) by (intros; unfold get_val, vals_of; simpl; by rewrite !lookup_empty).
  constructor; intros; rewrite ?Hg in *; try done.
Qed.

(** ** C12 and C13 *)
Lemma count_claim b t c l ops : sops_ok (sinit b t c l) ops ->
  let st := srun (sinit b t c l) ops in
  (forall p, count_of st p = members st p /\ members st p <= 50) /\
  (forall s, is_active st s = true <-> exists p, member st p s).
Proof.
  intros Hok. cbv zeta. pose proof (MI_run _ _ Hok (MI_init b t c l)) as HI. set (st := srun _ ops) in *. split.
  - intros p. destruct (mi_count st HI p) as [H1 H2]. unfold members, MAX_STAKERS in *. lia.
  - intros s. unfold is_active. rewrite (mi_active st HI). pose proof (npools_pos st s) as Hp. pose proof (npools_nonneg st s).
    destruct (npools st s =? 0) eqn:E.
    + split; [done|]. intros (p & v & Hv). assert (0 < npools st s) by (apply Hp; eauto). lia.
    + split; [|done]. intros _. destruct Hp as [Hp _]. destruct Hp as (p & v & Hv); [lia|]. exists p, v. done.
Qed.
Lemma valaddr_claim b t c l ops : sops_ok (sinit b t c l) ops ->
  let st := srun (sinit b t c l) ops in
  (forall p s1 s2 v1 v2, get_val st p s1 = Some v1 -> get_val st p s2 = Some v2 -> vl_addr v1 = vl_addr v2 -> s1 = s2) /\
  (forall s p1 p2 v1 v2, get_val st p1 s = Some v1 -> get_val st p2 s = Some v2 -> vl_addr v1 = vl_addr v2 -> p1 = p2) /\
  (forall p s v, get_val st p s = Some v -> vl_addr v <> s) /\
  (forall p a s1 s2, authorized st p s1 a = true -> authorized st p s2 a = true -> s1 = s2).
Proof.
  intros Hok. cbv zeta. pose proof (MI_run _ _ Hok (MI_init b t c l)) as HI. set (st := srun _ ops) in *.
  split; [|split; [|split]].
  - intros p s1 s2 v1 v2. apply (mi_pool st HI).
  - intros s p1 p2 v1 v2. apply (mi_self st HI).
  - intros p s v Hv. by destruct (mi_known st HI _ _ _ Hv) as (_ & _ & ?).
  - intros p a s1 s2. unfold authorized. destruct (get_val st p s1) as [v1|] eqn:E1; [|done].
    destruct (get_val st p s2) as [v2|] eqn:E2; [|done]. intros H1 H2. apply N.eqb_eq in H1, H2.
    apply (mi_pool st HI p s1 s2 v1 v2); congruence.
Qed.

(** ** C16 *)
Lemma pay_kyve_is_Some b s v amount : 0 <= amount < two63 -> amount <= bal b (User s) KYVE ->
  exists b', pay_kyve b (User s) (User v) amount = Some b'.
Proof.
  intros Ha Hb. unfold pay_kyve, i64. destruct (amount <? two63) eqn:E; [|lia]. destruct (amount <? 0) eqn:E0; [lia|].
  apply send_is_Some; [apply cpos_coin; lia|]. apply cle_spec. intros d x. unfold coin, nz. destruct (amount =? 0) eqn:Ez.
  - by rewrite lookup_empty.
  - intros Hx. apply lookup_singleton_Some in Hx as [<- <-]. exact Hb.
Qed.
Lemma join_effect st del s p v amount st' : MI st -> (forall x, 0 <= del x < two63) ->
  msg_join st (Some false) del s p v amount = Some st' ->
  (members st p < 50 -> forall p' s', member st' p' s' <-> member st p' s' \/ (p' = p /\ s' = s)) /\
  (50 <= members st p -> exists l, member st p l /\ del l < del s /\ (forall m, member st p m -> del l <= del m) /\
     forall p' s', member st' p' s' <-> (member st p' s' /\ ~ (p' = p /\ s' = l)) \/ (p' = p /\ s' = s)) /\
  get_val st' p s = Some (mkVal v 0 false).
Proof.
  intros HI Hd E. destruct (join_inv _ _ _ _ _ _ _ _ E) as (_ & Hs & Hsv & Hn & st1 & b & Ee & H1 & H2 & Eb & ->).
  destruct (ensure_slot_spec _ _ _ _ _ HI Hd Ee) as (HI1 & Hc & Hcase).
  destruct (ensure_frame _ _ _ _ _ Ee) as [l0 Hl0].
  assert (Hs1 : is_Some (ss_stakers st1 !! s)).
  { destruct Hl0 as [ -> | -> ]; [done|]. by rewrite (proj1 (leave_frame st l0 p)). }
  assert (Hn1 : get_val st1 p s = None).
  { destruct Hl0 as [ -> | -> ]; [done|]. rewrite get_leave. by destruct (decide _). }
  assert (Hg : forall p' s', member (with_sbank (add_val st1 p s v) b) p' s' <-> member st1 p' s' \/ (p' = p /\ s' = s)).
  { intros p' s'. unfold member. change (get_val (with_sbank ?x b) p' s') with (get_val x p' s').
    rewrite get_add by done. destruct (decide (p = p' /\ s = s')) as [[<- <-]|Hne].
    - split; [by right|by eauto].
    - split; [by left|]. intros [H|[-> ->]]; [done|]. exfalso. by apply Hne. }
  destruct (mi_count st HI p) as [Hc1 Hc2]. fold (members st p) in Hc1. unfold MAX_STAKERS in *.
  split; [|split].
  - intros Hm. destruct Hcase as [[_ ->]|[Hx _]]; [done|lia].
  - intros Hm. destruct Hcase as [[Hx _]|(Hx & l & -> & Hl & Hlt & Hmin)]; [lia|].
    exists l. split; [done|]. split; [done|]. split; [done|]. intros p' s'. rewrite Hg. unfold member at 1. rewrite get_leave.
    destruct (decide (p = p' /\ l = s')) as [[<- <-]|Hne].
    + split; [intros [[? ?]|?]; [done|by right]|]. intros [[_ Hx0]|?]; [exfalso; by apply Hx0|by right].
    + split; [intros [?|?]; [left|by right]|intros [[? ?]|?]; [by left|by right]]. split; [done|]. intros [-> ->]. by apply Hne.
  - change (get_val (with_sbank ?x b) p s) with (get_val x p s). rewrite get_add by done. by rewrite decide_True.
Qed.
Lemma join_claim b0 t c l ops : sops_ok (sinit b0 t c l) ops ->
  let st := srun (sinit b0 t c l) ops in
  forall pool del s p v amount, (forall x, 0 <= del x < two63) ->
  is_Some (ss_stakers st !! s) -> s <> v -> ~ member st p s ->
  (forall p' x, get_val st p' s = Some x -> vl_addr x <> v) -> (forall s' x, get_val st p s' = Some x -> vl_addr x <> v) ->
  0 <= amount < two63 -> amount <= bal (ss_bank st) (User s) KYVE ->
  (is_Some (msg_join st pool del s p v amount) <->
     pool = Some false /\ (members st p < 50 \/ exists m, member st p m /\ del m < del s)) /\
  (forall st', msg_join st pool del s p v amount = Some st' ->
     (members st p < 50 -> forall p' s', member st' p' s' <-> member st p' s' \/ (p' = p /\ s' = s)) /\
     (50 <= members st p -> exists l, member st p l /\ del l < del s /\ (forall m, member st p m -> del l <= del m) /\
        forall p' s', member st' p' s' <-> (member st p' s' /\ ~ (p' = p /\ s' = l)) \/ (p' = p /\ s' = s)) /\
     get_val st' p s = Some (mkVal v 0 false)).
Proof.
  intros Hok. cbv zeta. pose proof (MI_run _ _ Hok (MI_init b0 t c l)) as HI. set (st := srun _ ops) in *. clearbody st.
  intros pool del s p v amount Hd Hs Hsv Hnm H1 H2 Ha Hb.
  assert (Hn : get_val st p s = None). { destruct (get_val st p s) eqn:E; [|done]. exfalso. apply Hnm. unfold member. rewrite E. eauto. }
  split.
  - split.
    + intros [st' E]. destruct (join_inv _ _ _ _ _ _ _ _ E) as (-> & _ & _ & _ & st1 & b & Ee & _).
      split; [done|]. destruct (join_effect _ _ _ _ _ _ _ HI Hd E) as (_ & J2 & _).
      destruct (decide (members st p < 50)) as [Hm|Hm]; [by left|]. right.
      destruct J2 as (l0 & J1 & J3 & _); [lia|]. eauto.
    + intros (-> & Hslot). destruct (ensure_slot st del p s) as [st1|] eqn:Ee.
      * destruct (ensure_frame _ _ _ _ _ Ee) as [l0 Hl0].
        assert (Hold : forall p' s' x, get_val st1 p' s' = Some x -> get_val st p' s' = Some x).
        { intros p' s' x. destruct Hl0 as [ -> | -> ]; [done|]. rewrite get_leave. by destruct (decide _). }
        assert (Hbk : ss_bank st1 = ss_bank st).
        { destruct Hl0 as [ -> | -> ]; [done|]. apply (leave_frame st l0 p). }
        destruct (pay_kyve_is_Some (ss_bank st1) s v amount Ha ltac:(by rewrite Hbk)) as [b Eb].
        erewrite (join_intro st del s p v amount st1 b); eauto.
      * exfalso. destruct (ensure_slot_None _ _ _ _ HI Hd Ee) as [Hc Hall]. destruct (mi_count st HI p) as [Hc1 _].
        fold (members st p) in Hc1. unfold MAX_STAKERS in *. destruct Hslot as [?|(m & Hm & Hlt)]; [lia|].
        specialize (Hall m Hm). lia.
  - intros st' E. destruct (join_inv _ _ _ _ _ _ _ _ E) as (-> & _). by eapply join_effect.
Qed.

(** ** C17 *)
Record BI (st : sstate) : Prop := mkBI {
  bi_sum : forall d, owed_all st d <= bal (ss_bank st) MStakers d;
  bi_pos : forall s x, ss_stakers st !! s = Some x -> cpos (st_rewards x)
}.
Lemma BI_ext st st' : BI st -> ss_stakers st' = ss_stakers st -> (forall d, bal (ss_bank st) MStakers d <= bal (ss_bank st') MStakers d) -> BI st'.
Proof.
  intros [H1 H2] Hs Hb. constructor.
  - intros d. unfold owed_all in *. rewrite Hs. specialize (H1 d). specialize (Hb d). lia.
  - intros s x. rewrite Hs. apply H2.
Qed.
Lemma BI_set st s x r b' c : BI st -> ss_stakers st !! s = Some x -> cpos r ->
  (forall d, bal (ss_bank st) MStakers d + amt r d - amt (st_rewards x) d <= bal b' MStakers d) ->
  BI (with_sbank (with_stakers st (<[s := mkSt c r]> (ss_stakers st))) b').
Proof.
  intros [H1 H2] Hs Hr Hb. constructor; simpl.
  - intros d. unfold owed_all in *. simpl. rewrite msum_insert, Hs. simpl. specialize (H1 d). specialize (Hb d). lia.
  - intros s' y. destruct (decide (s = s')) as [<-|]; [rewrite lookup_insert; intros; by simplify_eq|].
    rewrite lookup_insert_ne by done. apply H2.
Qed.
Lemma BI_pc st i st1 : BI st -> process_centry st i = Some st1 -> BI st1.
Proof.
  intros HI. unfold process_centry. destruct (ss_centries st !! i) as [e|]; [|by intros; simplify_eq].
  destruct (_ <=? _); [|done]. intros; simplify_eq.
  assert (HI2 : BI (remove_centry st i e)) by (eapply BI_ext; [exact HI|done|done]).
  destruct (ss_stakers (remove_centry st i e) !! ce_staker e) as [x|] eqn:Ex; [|done].
  pose proof (BI_set _ _ _ (st_rewards x) (ss_bank st) (ce_commission e) HI2 Ex (bi_pos _ HI2 _ _ Ex)) as H.
  eapply BI_ext; [apply H|done|done]. intros d. simpl. lia.
Qed.
Lemma BI_pl st i st1 : BI st -> process_lentry st i = Some st1 -> BI st1.
Proof.
  intros HI. unfold process_lentry. destruct (ss_lentries st !! i) as [e|]; [|by intros; simplify_eq].
  destruct (_ <=? _); [|done]. intros; simplify_eq.
  set (st2 := with_lq st _ _ _ _).
  pose proof (leave_frame st2 (le_staker e) (le_pool e)) as (F1 & F2 & F3 & F4 & F5 & F6 & F7 & F8 & F9 & F10 & F11 & F12 & F13).
  eapply BI_ext; [exact HI|by rewrite F1|]. intros d. rewrite F13. subst st2. simpl. lia.
Qed.
Lemma pay_kyve_stakers b s v a b' : pay_kyve b (User s) (User v) a = Some b' -> forall d, bal b' MStakers d = bal b MStakers d.
Proof.
  unfold pay_kyve. destruct (_ <? 0); [done|]. intros H d. destruct (send_Some _ _ _ _ _ H) as [_ Hb]. rewrite Hb.
  rewrite !decide_False by done. lia.
Qed.
Lemma BI_step st o : sop_ok st o -> BI st -> BI (sstep st o).
Proof.
  intros Hok HI. destruct o; simpl in *.
  - unfold msg_create_staker. destruct (ss_stakers st !! s) eqn:E; [done|]. destruct delegates; [|done]. simpl.
    destruct HI as [H1 H2]. constructor; simpl.
    + intros d. unfold owed_all in *. simpl. rewrite msum_insert_fresh by done. simpl. rewrite amt_empty. specialize (H1 d). lia.
    + intros s' y. destruct (decide (s = s')) as [<-|].
      * rewrite lookup_insert. intros; simplify_eq. simpl. apply cpos_empty.
      * rewrite lookup_insert_ne by done. apply H2.
  - unfold msg_update_commission. destruct (ss_stakers st !! s) eqn:E; [|done]. simpl. unfold order_commission.
    destruct (ss_cindex st !! s) as [i|]; [destruct (ss_centries st !! i)|]; (eapply BI_ext; [exact HI|done..]).
  - unfold msg_claim_commission. destruct (ss_stakers st !! s) as [x|] eqn:E; [|done].
    destruct (cle amounts (st_rewards x)) eqn:Ec; [|done]. simpl.
    destruct (send _ _ _ _) as [b|] eqn:Es; [|done]. simpl. pose proof (bi_pos _ HI _ _ E) as Hp.
    assert (Hle : forall d, amt amounts d <= amt (st_rewards x) d).
    { apply cle_amt; [|done]. intros d. by apply cpos_amt. }
    apply (BI_set st s x); [done|done| |].
    + apply cpos_of_amt; [apply cnz_cmerge|]. intros d. rewrite amt_csub. specialize (Hle d). lia.
    + intros d. destruct (send_Some _ _ _ _ _ Es) as [_ Hb]. rewrite Hb, amt_csub. rewrite decide_True by done. rewrite decide_False by done. lia.
  - destruct (msg_join st pool del s p v amount) as [st'|] eqn:E; [|done]. change (default st (Some st')) with st'.
    destruct (join_inv _ _ _ _ _ _ _ _ E) as (-> & Hs & Hsv & Hn & st1 & b & Ee & H1 & H2 & Eb & ->).
    destruct (ensure_frame _ _ _ _ _ Ee) as [l Hl].
    pose proof (add_frame st1 s p v) as (F1 & F2 & F3 & F4 & F5 & F6 & F7 & F8 & F9 & F10 & F11 & F12 & F13).
    pose proof (leave_frame st l p) as (G1 & G2 & G3 & G4 & G5 & G6 & G7 & G8 & G9 & G10 & G11 & G12 & G13).
    eapply BI_ext; [exact HI| |].
    + simpl. rewrite F1. destruct Hl as [ -> | -> ]; done.
    + intros d. simpl. rewrite (pay_kyve_stakers _ _ _ _ _ Eb). destruct Hl as [ -> | -> ]; [lia|]. rewrite G13. lia.
  - unfold msg_leave. destruct (get_val st p s) as [x|] eqn:E; [|done]. destruct (bool_decide _); [done|]. simpl.
    eapply BI_ext; [exact HI|done|done].
  - pose proof (leave_frame st s p) as (G1 & G2 & G3 & G4 & G5 & G6 & G7 & G8 & G9 & G10 & G11 & G12 & G13).
    eapply BI_ext; [exact HI|done|]. intros d. rewrite G13. lia.
  - unfold increase_commission_rewards. destruct (cempty amount); [done|]. destruct (ss_stakers st !! s) as [x|] eqn:E; [|done].
    destruct (send _ _ _ _) as [b|] eqn:Es; [|done]. simpl. destruct Hok as [Hpa Hpy].
    apply (BI_set st s x); [done|done|apply cpos_cadd; [by apply (bi_pos _ HI s)|done]|].
    intros d. destruct (send_Some _ _ _ _ _ Es) as [_ Hb]. rewrite Hb, amt_cadd. rewrite (decide_True (P := MStakers = MStakers)) by done.
    rewrite decide_False; [lia|]. by intros ->.
  - unfold increment_points. destruct (get_val st p s) as [x|] eqn:E; [|done]. simpl. eapply BI_ext; [exact HI|done|done].
  - unfold reset_points. destruct (get_val st p s) as [x|] eqn:E; [|done]. simpl. eapply BI_ext; [exact HI|done|done].
  - eapply BI_ext; [exact HI|done..].
  - unfold stakers_begin, process_leaves, process_commissions.
    set (st0 := with_stime st t). assert (H0 : BI st0) by (eapply BI_ext; [exact HI|done..]).
    pose proof (queue_loop_inv process_centry BI (ss_chigh st0) (S (N.to_nat (ss_chigh st0 - ss_clow st0))) st0 (ss_clow st0) BI_pc H0) as H1.
    destruct (queue_loop process_centry _ _ _ _) as [s1 l1]. simpl in H1.
    set (st1 := with_cq s1 _ _ _ _). assert (H2 : BI st1) by (eapply BI_ext; [exact H1|done..]).
    pose proof (queue_loop_inv process_lentry BI (ss_lhigh st1) (S (N.to_nat (ss_lhigh st1 - ss_llow st1))) st1 (ss_llow st1) BI_pl H2) as H3.
    destruct (queue_loop process_lentry _ _ _ _) as [s2 l2]. simpl in H3. eapply BI_ext; [exact H3|done..].
  - eapply BI_ext; [exact HI|done..].
Qed.
Lemma BI_run ops st : sops_ok st ops -> BI st -> BI (srun st ops).
Proof. revert st. induction ops as [|o ops IH]; intros st; simpl; [done|]. intros [H1 H2] HI. apply IH; [done|]. by apply BI_step. Qed.
Lemma BI_init b t c l : (forall d, 0 <= bal b MStakers d) -> BI (sinit b t c l).
Proof.
  intros Hb. constructor; simpl.
  - intros d. unfold owed_all. simpl. rewrite msum_empty. apply Hb.
  - intros s x. by rewrite lookup_empty.
Qed.
Lemma commission_backed b t c l ops : (forall d, 0 <= bal b MStakers d) -> sops_ok (sinit b t c l) ops ->
  let st := srun (sinit b t c l) ops in
  (forall d, owed_all st d <= bal (ss_bank st) MStakers d) /\
  (forall s amounts, cpos amounts -> is_Some (ss_stakers st !! s) ->
     (is_Some (msg_claim_commission st s amounts) <-> forall d, amt amounts d <= owed st s d)) /\
  (forall s amounts st', cpos amounts -> msg_claim_commission st s amounts = Some st' ->
     forall d, (forall s', owed st' s' d = owed st s' d - if decide (s' = s) then amt amounts d else 0) /\
       bal (ss_bank st') (User s) d = bal (ss_bank st) (User s) d + amt amounts d /\
       bal (ss_bank st') MStakers d = bal (ss_bank st) MStakers d - amt amounts d).
Proof.
  intros Hb Hok. cbv zeta. pose proof (BI_run _ _ Hok (BI_init b t c l Hb)) as HI. set (st := srun _ ops) in *. clearbody st.
  split; [apply HI|]. split.
  - intros s amounts Hpa [x Ex]. unfold msg_claim_commission, owed. rewrite Ex. pose proof (bi_pos _ HI _ _ Ex) as Hp.
    assert (Hx : forall d, 0 <= amt (st_rewards x) d) by (intros d; by apply cpos_amt).
    pose proof (cle_amt amounts (st_rewards x) Hx) as Hc.
    destruct (cle amounts (st_rewards x)) eqn:Ec; simpl.
    + split; [intros _; by apply Hc|]. intros H.
      assert (Hbank : cle amounts (bal_of (ss_bank st) MStakers) = true).
      { apply cle_spec. intros d y Hy. specialize (H d). unfold amt in H at 1. rewrite Hy in H. simpl in H.
        pose proof (bi_sum _ HI d) as Hs. unfold owed_all in Hs. fold (bal (ss_bank st) MStakers d).
        assert (amt (st_rewards x) d <= msum (fun _ x => amt (st_rewards x) d) (ss_stakers st)); [|lia].
        apply (msum_elem_le (fun _ x => amt (st_rewards x) d) _ s x); [|done]. intros k a Hk. apply cpos_amt. by apply (bi_pos _ HI k). }
      destruct (send_is_Some _ _ (User s) _ Hpa Hbank) as [b' ->]. eauto.
    + split; [by intros [? ?]|]. intros H. by destruct Hc as [_ Hc]; specialize (Hc H).
  - intros s amounts st' Hpa. unfold msg_claim_commission. destruct (ss_stakers st !! s) as [x|] eqn:Ex; [|done].
    destruct (negb _); [done|]. destruct (send _ _ _ _) as [b'|] eqn:Es; [|done]. intros; simplify_eq. simpl.
    destruct (send_Some _ _ _ _ _ Es) as [_ Hbb]. split; [|split].
    + intros s'. unfold owed. simpl. destruct (decide (s' = s)) as [->|].
      * rewrite lookup_insert, Ex. simpl. by rewrite amt_csub.
      * rewrite lookup_insert_ne by done. lia.
    + rewrite Hbb. rewrite decide_False by done. rewrite decide_True by done. lia.
    + rewrite Hbb. rewrite decide_True by done. rewrite decide_False by done. lia.
Qed.
