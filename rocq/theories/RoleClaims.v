(** * Who gets the uploader role (C68). *)
From Coq Require Import Sorted.
From Verif Require Import Base BaseFacts Delegation Stakers StakersInv Funders Team RoundRobin RoundRobinClaims Pool Bundles Chain ChainFrame ArchiveInv
  BankMoves ChainLift PoolFrame PoolInv PayoutClaims PoolClaims TallyFacts VoteClaims StepCases PaySafe PointsInv TallyClaims TallyEffects TallyProps GenesisInv IndexInv.

(** Who has the role; 0 is nobody. *)
Definition role (c : chain) (p : N) : N := bp_next (get_prop c p).
(** The role is with a member that has a stake, with nobody only if there is no such member. *)
Definition placed (c : chain) (p : N) : Prop :=
  ((exists s, eligible c p s) -> eligible c p (role c p)) /\ ((forall s, ~ eligible c p s) -> role c p = 0%N).
(** The member with a stake that comes first in the store. *)
Definition foremost (c : chain) (p a : N) : Prop := eligible c p a /\ forall s, eligible c p s -> (a <= s)%N.

(** ** The first in the list the round robin works on *)
Lemma head_least f (l : list N) a : StronglySorted N.le l -> a ∈ l -> 0 < f a -> (forall x, x ∈ l -> 0 < f x -> (a <= x)%N) ->
  head (map fst (RoundRobinClaims.eligible (map (fun s => (s, f s)) l))) = Some a.
Proof.
  intros HS. induction HS as [|x l HS IH Hx]; intros Ha Hf Hmin; [by apply elem_of_nil in Ha|].
  unfold RoundRobinClaims.eligible. cbn [map List.filter snd]. destruct (Z.ltb_spec 0 (f x)) as [Hp|Hp].
  - cbn [map head fst]. f_equal. apply elem_of_cons in Ha as [->|Ha]; [done|].
    rewrite Forall_forall in Hx. specialize (Hx a Ha). specialize (Hmin x ltac:(by left) Hp). lia.
  - apply elem_of_cons in Ha as [->|Ha]; [lia|]. apply IH; [done|done|]. intros y Hy. apply Hmin. by right.
Qed.
Lemma members_sorted c p : StronglySorted N.le (members c p).
Proof. unfold members, pool_stakers. apply Sorted_StronglySorted; [intros x y z; lia|]. apply Sorted_merge_sort, _. Qed.
Lemma eligible_power c p s : eligible c p s <-> s ∈ members c p /\ 0 < power c s.
Proof.
  rewrite eligible_avail. unfold avail, ob. cbn [fst snd]. rewrite <- stake_power, members_in. unfold in_pool.
  destruct (get_val _ _ _); (split; intros [H1 H2]; [|]); try done; try (by destruct H1); split; eauto.
Qed.
Lemma foremost_first c p a : foremost c p a -> first_eligible (pool_powers c p) = Some a.
Proof.
  intros [Ha Hm]. apply eligible_power in Ha as [Ha Hp]. apply head_least; [apply members_sorted|done|done|].
  intros x Hx Hpx. apply Hm. by apply eligible_power.
Qed.
Lemma powers_NoDup c p : NoDup (map fst (pool_powers c p)).
Proof. unfold pool_powers. rewrite map_map. cbn. rewrite map_id. apply members_NoDup. Qed.
Lemma choose_from_in c p l a : foremost c p a -> a ∈ l -> fst (choose_from c p l) ∈ l.
Proof.
  intros Ha Hl. assert (E : fst (choose_from c p l) = fst (choose_next_from (pool_powers c p) (rr_of c p) l)) by (unfold choose_from; by destruct (choose_next_from _ _ _)).
  rewrite E. eapply claim_from; [by apply foremost_first|done].
Qed.
Lemma choose_other c p s a : foremost c p a -> a <> s -> fst (choose c p [s]) <> s.
Proof.
  intros Ha Hl. assert (E : fst (choose c p [s]) = fst (choose_next (pool_powers c p) (rr_of c p) [s])) by (unfold choose; by destruct (choose_next _ _ _)).
  rewrite E. eapply claim_skip; [apply powers_NoDup|by apply foremost_first|done].
Qed.
(** Members and stakes are all that counts. *)
Lemma foremost_ob c c' p a : (forall s, ob c' p s = ob c p s) -> foremost c p a -> foremost c' p a.
Proof. intros H [H1 H2]. split; [apply eligible_avail; rewrite H; by apply eligible_avail|]. intros s Hs. apply H2. apply eligible_avail. rewrite <- H. by apply eligible_avail. Qed.
Lemma placed_fit c p n : role c p = n -> fit (ob c p) n -> placed c p.
Proof.
  intros <- [H1 H2]. split.
  - intros (s & Hs). apply eligible_avail, H1. exists s. by apply eligible_avail.
  - intros Hn. apply H2. intros s Hs. apply (Hn s). by apply eligible_avail.
Qed.

Section S.
Context (g : gen) (Hg : genesis g).

(** A tally only takes away; those who voted for the winning side keep what they have. *)
Lemma avail_kick fr o : ~ avail (kick fr o). Proof. by intros [[? ?] _]. Qed.
Lemma avail_miss mx fr o : avail (miss mx fr o) -> avail o.
Proof. unfold miss. destruct (fst o) as [v|] eqn:E; [|done]. destruct (_ <=? _); [by intros [[? ?] _]|]. intros [_ H]. split; [rewrite E; eauto|done]. Qed.
Lemma avail_absent c p s : avail (absent c p s) -> avail (ob c p s).
Proof. unfold absent. destruct (decide _); [apply avail_miss|done]. Qed.
Lemma listed_absent c p s : on_list (get_prop c p) s -> absent c p s = ob c p s.
Proof.
  intros H. unfold absent. rewrite decide_False; [done|]. intros [_ Hv]. unfold voted in Hv.
  apply not_true_iff_false in Hv. apply Hv. unfold on_list in H. rewrite !orb_true_iff, !memb_spec. tauto.
Qed.
Lemma tally_foremost c p c2 v f x r a : G g c -> AInv c -> tally c (get_prop c p) p = TrValid c2 v f x r ->
  foremost c p a -> a ∈ bp_valid (get_prop c p) -> foremost c2 p a.
Proof.
  intros HG HA E [Ha Hm] Hv. pose proof (ob_tally g Hg c p HG HA) as Ht. cbv zeta in Ht. rewrite E in Ht.
  destruct Ht as (_ & _ & _ & _ & _ & Ho). pose proof (votes_once c p HA) as [Hnd _]. split.
  - apply eligible_avail. rewrite Ho. rewrite decide_False.
    + rewrite listed_absent; [by apply eligible_avail|]. unfold on_list. tauto.
    + cbv zeta in Hnd. apply NoDup_app in Hnd as (_ & Hnd & _). intros Hi. apply (Hnd a Hv). set_solver.
  - intros s Hs. apply Hm. apply eligible_avail in Hs. rewrite Ho in Hs. apply eligible_avail.
    destruct (decide _); [by apply avail_kick in Hs|by apply avail_absent].
Qed.
Lemma reset_foremost c p m q a : G g c -> foremost c q a -> foremost (reset_pts c p m) q a.
Proof.
  intros HG [Ha Hm].
  assert (H : forall s, eligible (reset_pts c p m) q s <-> eligible c q s).
  { intros s. unfold eligible, points, delegated. change (c_d (reset_pts c p m)) with (c_d c).
    destruct (decide (q = p)) as [->|Hq].
    - change (get_val (c_s (reset_pts c p m)) p s) with (fst (ob (reset_pts c p m) p s)). rewrite (ob_took g) by done. unfold took.
      destruct (decide _); [|done]. cbn [fst]. unfold ob. cbn [fst]. destruct (get_val (c_s c) p s); cbn; split; intros [? ?]; done.
    - destruct (ob_reset g c p m s HG) as [_ Ho]. rewrite Ho by done. done. }
  split; [by apply H|]. intros s Hs. apply Hm. by apply H.
Qed.

(** ** Submissions *)
Lemma sender_role c p s v from : can_propose c p s v from = true -> role c p = s.
Proof.
  unfold can_propose, role. destruct (get_pool c p); [|done]. rewrite !andb_true_iff, N.eqb_eq. tauto.
Qed.
Lemma finalized_pools c c' p : c_pools c' = c_pools c -> finalized c' p = finalized c p.
Proof. intros H. unfold finalized, get_pool. by rewrite H. Qed.
Lemma submit_chosen c m c' : G g c -> AInv c -> cmsg c (CSubmit m) = Some c' -> let p := sb_pool m in
  bp_storage (get_prop c p) <> 0%N -> finalized c' p <> finalized c p ->
  forall a, foremost c p a -> a ∈ bp_valid (get_prop c p) -> role c' p ∈ bp_valid (get_prop c p).
Proof.
  intros HG HA E p Hs Hfin a Ha Hv. cbn [cmsg] in E. unfold msg_submit in E. fold p in E.
  destruct (can_propose c p _ _ _); cbn [negb] in E; [|done]. destruct (submit_valid c m); cbn [negb] in E; [|done].
  apply (reset_foremost c p (sb_staker m) p a HG) in Ha. assert (HG1 : G g (reset_pts c p (sb_staker m))) by (by apply G_reset).
  assert (B1 : bpart (reset_pts c p (sb_staker m)) = bpart c) by apply b_reset. assert (HA1 : AInv (reset_pts c p (sb_staker m))) by (by apply (agood_frame c)).
  assert (Hp1 : get_prop (reset_pts c p (sb_staker m)) p = get_prop c p) by done.
  cbv zeta in E. set (c1 := reset_pts c p (sb_staker m)) in *. clearbody c1.
  destruct (N.eqb_spec (bp_storage (get_prop c p)) 0) as [E0|_]; [done|].
  destruct (tally c1 (get_prop c p) p) as [c2 v f x r|c2 v|c2 v|c2|] eqn:Et; try done.
  - rewrite <- Hp1 in Et, Hv. pose proof (tally_foremost c1 p c2 v f x r a HG1 HA1 Et Ha Hv) as H2.
    rewrite <- Hp1. pose proof (choose_from_in c2 p _ a H2 Hv) as Hc. rewrite <- Hp1 in E.
    destruct (choose_from c2 p _) as [n c3]. cbn [fst] in Hc. injection E as <-.
    destruct (register_prop (finalize c3 p v) m n) as (b' & -> & Hn). unfold role, get_prop, set_prop. fold p. cbn [c_prop cw_prop].
    rewrite lookup_insert. cbn [default from_option id]. destruct Hn as (_ & _ & -> & _). done.
  - injection E as <-. destruct Hfin. apply finalized_pools. unfold drop, set_prop. cbn.
    pose proof (b_tally c1 (get_prop c p) p) as Hb. rewrite Et in Hb. rewrite B1 in Hb. apply bpart_eq in Hb. tauto.
Qed.
Lemma claim_submit c m c' : G g c -> AInv c -> cmsg c (CSubmit m) = Some c' -> let p := sb_pool m in let b := get_prop c p in
  role c p = sb_staker m /\
  (bp_storage b = 0%N \/ finalized c' p <> finalized c p -> placed c' p) /\
  (bp_storage b <> 0%N -> finalized c' p <> finalized c p -> forall a, foremost c p a -> a ∈ bp_valid b -> role c' p ∈ bp_valid b) /\
  (bp_storage b <> 0%N -> finalized c' p = finalized c p -> role c' p = role c p) /\
  forall q, q <> p -> role c' q = role c q.
Proof.
  intros HG HA E p b. split; [|split; [|split; [by apply submit_chosen|]]].
  - cbn [cmsg] in E. unfold msg_submit in E. fold p in E. destruct (can_propose c p _ _ _) eqn:Ec; cbn [negb] in E; [|done]. by eapply sender_role.
  - intros Hc. destruct (submit_cases g Hg c m c' HG HA E) as [(H0 & n & b' & Hn & Hf & HP)|[(H0 & n & b' & v & Hn & Hj & Hst & Hf & HP)|(H0 & v & Hj & Hst & HP)]].
    + apply (placed_fit c' p n); [change (bp_next (get_prop c' (sb_pool m)) = n); rewrite (po_prop _ _ _ _ _ _ HP); apply Hn|]. eapply fit_ext; [|exact Hf]. intros s. symmetry. apply (po_ob _ _ _ _ _ _ HP).
    + apply (placed_fit c' p n); [change (bp_next (get_prop c' (sb_pool m)) = n); rewrite (po_prop _ _ _ _ _ _ HP); apply Hn|]. eapply fit_ext; [|exact Hf]. intros s. symmetry. apply (po_ob _ _ _ _ _ _ HP).
    + exfalso. destruct Hc as [Hc|Hc]; [done|]. apply Hc. apply finalized_pools. apply (po_fin _ _ _ _ _ _ HP).
  - destruct (submit_cases g Hg c m c' HG HA E) as [(H0 & n & b' & Hn & Hf & HP)|[(H0 & n & b' & v & Hn & Hj & Hst & Hf & HP)|(H0 & v & Hj & Hst & HP)]].
    + split; [done|]. intros q Hq. unfold role. by rewrite (po_props _ _ _ _ _ _ HP) by done.
    + split; [|intros q Hq; unfold role; by rewrite (po_props _ _ _ _ _ _ HP) by done]. intros _ Hx. exfalso. revert Hx.
      destruct (po_fin _ _ _ _ _ _ HP) as (pl & fb & Hpl & _ & _ & _ & _ & Ht & _). fold p in Hpl, Ht. unfold finalized.
      destruct (get_pool c' p); [|done]. injection Ht as Ht. rewrite Hpl. cbn. rewrite Ht. lia.
    + split; [|intros q Hq; unfold role; by rewrite (po_props _ _ _ _ _ _ HP) by done]. intros _ _. change (bp_next (get_prop c' (sb_pool m)) = bp_next b). by rewrite (po_prop _ _ _ _ _ _ HP).
Qed.

(** ** Skips *)
Lemma skip_foremost c1 b p m a c' : foremost c' p a -> a <> m ->
  match tally c1 b p with
  | TrValid c2 v _ _ _ => let '(next, c3) := choose c2 p [m] in
      let c4 := finalize c3 p v in Some (set_prop c4 p (bp_none next (c_time c4)))
  | TrInvalid c2 _ => let '(next, c3) := choose c2 p [m] in Some (drop c3 p next)
  | TrNoQuorum c2 _ => let '(next, c3) := choose c2 p [m] in Some (set_prop c3 p (with_next b next (c_time c3)))
  | _ => None
  end = Some c' -> role c' p <> m.
Proof.
  intros Ha Hm E.
  assert (H : exists c2, (forall s, ob c2 p s = ob c' p s) /\ role c' p = fst (choose c2 p [m])).
  { destruct (tally c1 b p) as [c2 v f x r|c2 v|c2 v|c2|]; try done; exists c2;
      pose proof (m_choose c2 p [m]) as Hc; destruct (choose c2 p [m]) as [n c3]; cbn [fst snd] in *; injection E as <-.
    - split; [|unfold role, get_prop, set_prop; cbn [c_prop cw_prop]; by rewrite lookup_insert].
      intros s. symmetry. apply ob_m. rewrite <- Hc, <- (m_finalize c3 p v). done.
    - split; [|unfold role, get_prop, drop, set_prop; cbn [c_prop cw_prop]; by rewrite lookup_insert].
      intros s. symmetry. apply ob_m. by rewrite <- Hc.
    - split; [|unfold role, get_prop, set_prop; cbn [c_prop cw_prop]; by rewrite lookup_insert].
      intros s. symmetry. apply ob_m. by rewrite <- Hc. }
  destruct H as (c2 & Ho & ->). apply (choose_other c2 p m a); [|done]. eapply foremost_ob; [|exact Ha]. done.
Qed.
Lemma claim_skipped c p m v from c' : G g c -> AInv c -> is_Some (c_prop c !! p) -> cmsg c (CSkip p m v from) = Some c' ->
  role c p = m /\ placed c' p /\ (forall a, foremost c' p a -> a <> m -> role c' p <> m) /\
  forall q, q <> p -> role c' q = role c q.
Proof.
  intros HG HA Hs E.
  assert (H : exists o b' fin n, fit o n /\ bp_next b' = n /\ post c c' p o b' fin).
  { destruct (skip_cases g Hg c p m v from c' HG HA Hs E) as [(n & w & _ & _ & Hf & HP)|[(n & w & _ & _ & Hf & HP)|(n & w & _ & _ & _ & Hf & HP)]];
      eexists _, _, _, n; (split; [exact Hf|]; split; [|exact HP]; done). }
  destruct H as (o & b' & fin & n & Hf & Hn & HP).
  split; [|split; [|split]].
  - cbn [cmsg] in E. unfold msg_skip in E. destruct (can_propose c p _ _ _) eqn:Ec; cbn [negb] in E; [|done]. by eapply sender_role.
  - apply (placed_fit c' p n); [unfold role; by rewrite (po_prop _ _ _ _ _ _ HP)|]. eapply fit_ext; [|exact Hf]. intros s. symmetry. apply (po_ob _ _ _ _ _ _ HP).
  - intros a Ha Hne. cbn [cmsg] in E. unfold msg_skip in E. destruct (can_propose c p _ _ _) eqn:Ec; cbn [negb] in E; [|done].
    by eapply skip_foremost.
  - intros q Hq. unfold role. by rewrite (po_props _ _ _ _ _ _ HP) by done.
Qed.

(** ** The turn of a pool at the end of a block *)
Lemma turn_chosen c p i c' : G g c -> AInv c -> timeout_pool c p i = Some c' -> finalized c' p <> finalized c p ->
  forall a, foremost c p a -> a ∈ bp_valid (get_prop c p) -> role c' p ∈ bp_valid (get_prop c p).
Proof.
  intros HG HA E Hfin a Ha Hv. unfold timeout_pool in E. destruct (pool_error c p) as [e|].
  { injection E as <-. destruct Hfin. apply finalized_pools. destruct (_ && _); [done|]. by destruct (negb _). }
  destruct (_ <? _); [by injection E as <-|].
  destruct (negb _ && _).
  { pose proof (b_choose (handle_non_voters c p) p []) as Hb. rewrite b_non_voters in Hb. destruct (choose _ p []) as [n c1]. injection E as <-.
    destruct Hfin. apply finalized_pools. cbn. apply bpart_eq in Hb. tauto. }
  destruct (_ <? _); [by injection E as <-|].
  destruct (bp_storage (get_prop c p) =? 0)%N.
  { pose proof (b_choose c p []) as Hb. destruct (choose _ p []) as [n c1]. injection E as <-.
    destruct Hfin. apply finalized_pools. pose proof (b_timeout_point (set_prop c1 p (with_next (get_prop c p) n (c_time c1))) p (bp_next (get_prop c p))) as Ht.
    apply bpart_eq in Ht as (-> & _). cbn. apply bpart_eq in Hb. tauto. }
  pose proof (b_tally c (get_prop c p) p) as Hbt.
  destruct (tally c (get_prop c p) p) as [c2 v f x r|c2 v|c2 v|c2|] eqn:Et; try done.
  - pose proof (tally_foremost c p c2 v f x r a HG HA Et Ha Hv) as H2. pose proof (choose_from_in c2 p _ a H2 Hv) as Hc.
    destruct (choose_from c2 p _) as [n c3]. cbn [fst] in Hc. injection E as <-. unfold role.
    rewrite (get_prop_b _ (timeout_point _ _ _) p (b_timeout_point _ _ _)).
    unfold get_prop at 1, set_prop. cbn [c_prop cw_prop]. by rewrite lookup_insert.
  - pose proof (b_choose c2 p []) as Hb. destruct (choose _ p []) as [n c1]. injection E as <-.
    destruct Hfin. apply finalized_pools. pose proof (b_timeout_point (drop c1 p n) p (bp_next (get_prop c p))) as Ht.
    apply bpart_eq in Ht as (-> & _). cbn. rewrite Hbt in Hb. apply bpart_eq in Hb. tauto.
  - pose proof (b_choose c2 p []) as Hb. destruct (choose _ p []) as [n c1]. injection E as <-.
    destruct Hfin. apply finalized_pools. pose proof (b_timeout_point (drop c1 p n) p (bp_next (get_prop c p))) as Ht.
    apply bpart_eq in Ht as (-> & _). cbn. rewrite Hbt in Hb. apply bpart_eq in Hb. tauto.
  - injection E as <-. destruct Hfin. apply finalized_pools. cbn. apply bpart_eq in Hbt. tauto.
Qed.

(** ** Members and stakes during the end of a block: nobody gets more *)
Definition shrinks (o o' : obs) : Prop := (is_Some (fst o') -> is_Some (fst o)) /\ (0 < default 0 (fst (snd o')) -> 0 < default 0 (fst (snd o))).
Lemma shrinks_refl o : shrinks o o. Proof. by split. Qed.
Lemma shrinks_trans a b c : shrinks a b -> shrinks b c -> shrinks a c. Proof. intros [? ?] [? ?]. split; auto. Qed.
Lemma hit_pos fr o : fr <= ONE -> 0 < default 0 (fst (hit fr o)) -> 0 < default 0 (fst o).
Proof.
  intros Hf. unfold hit. destruct (fst o) as [t|] eqn:E; [|by rewrite E]. cbn. intros H. destruct (Z_lt_le_dec 0 t) as [|Ht]; [done|].
  assert (t <= t * fr / ONE); [|lia]. apply Z.div_le_lower_bound; [done|]. nia.
Qed.
Lemma shrinks_kick fr o : fr <= ONE -> shrinks o (kick fr o).
Proof. intros Hf. split; [by intros [? ?]|]. by apply hit_pos. Qed.
Lemma shrinks_miss mx fr o : fr <= ONE -> shrinks o (miss mx fr o).
Proof.
  intros Hf. unfold miss. destruct (fst o) eqn:E; [|apply shrinks_refl]. split; [rewrite E; eauto|].
  destruct (_ <=? _); [by apply hit_pos|done].
Qed.
Definition fractions_ok (c : chain) : Prop := p_timeout (ds_params (c_d c)) <= ONE /\ p_vote (ds_params (c_d c)) <= ONE /\ p_upload (ds_params (c_d c)) <= ONE.
Lemma G_fractions c : G g c -> fractions_ok c.
Proof.
  intros HG. destruct (g_d _ _ HG) as (ops & H1 & H2 & _).
  assert (H : dparams_valid (ds_params (d_in c)) = true) by (rewrite H2; apply dparams_run; [done|]; by destruct Hg as (_ & _ & _ & ? & _)).
  change (ds_params (d_in c)) with (ds_params (c_d c)) in H. unfold dparams_valid in H. rewrite !andb_true_iff, !Z.leb_le in H. unfold fractions_ok. lia.
Qed.
Lemma shrinks_lose c p s o : fractions_ok c -> shrinks o (lose c p s o).
Proof. intros (H & _). unfold lose. destruct (decide _); [by apply shrinks_miss|apply shrinks_refl]. Qed.
Lemma shrinks_late c n s o : fractions_ok c -> shrinks o (late c n s o).
Proof. intros (H & _). unfold late. destruct (decide _); [by apply shrinks_miss|apply shrinks_refl]. Qed.
Lemma shrinks_valid c p s o : fractions_ok c -> shrinks o (when_valid c p s o).
Proof. intros (_ & H & _). unfold when_valid. destruct (decide _); [by apply shrinks_kick|apply shrinks_refl]. Qed.
Lemma shrinks_invalid c p s o : fractions_ok c -> shrinks o (when_invalid c p s o).
Proof. intros (_ & H & H'). unfold when_invalid. destruct (decide _); [|apply shrinks_refl]. apply shrinks_kick. by destruct (decide _). Qed.

(** The members and stakes of all pools. *)
Definition less (c c' : chain) : Prop := forall q s, eligible c' q s -> eligible c q s.
Lemma less_post c c' p o b' fin : post c c' p o b' fin -> (forall s, shrinks (ob c p s) (o s)) -> less c c'.
Proof.
  intros HP Ho q s He. pose proof (po_ob _ _ _ _ _ _ HP s) as Hs. specialize (Ho s). rewrite <- Hs in Ho. destruct Ho as [H1 H2].
  apply eligible_avail in He as [E1 E2]. apply eligible_avail. split; [|exact (H2 E2)].
  destruct (decide (q = p)) as [->|Hq]; [exact (H1 E1)|]. unfold ob in *. cbn [fst snd] in *. by rewrite <- (po_others _ _ _ _ _ _ HP q s Hq).
Qed.
(** A pool's turn: the role stays, is nobody's or is with somebody who was eligible. *)
Lemma turn_role c p i c' : G g c -> AInv c -> is_Some (get_pool c p) -> timeout_pool c p i = Some c' ->
  less c c' /\ (forall q, q <> p -> role c' q = role c q) /\ (role c' p = role c p \/ role c' p = 0%N \/ eligible c p (role c' p)).
Proof.
  intros HG HA Hpl E. pose proof (G_fractions c HG) as HF.
  assert (HX : forall o b' fin, post c c' p o b' fin -> (forall s, shrinks (ob c p s) (o s)) ->
    (bp_next b' = role c p \/ bp_next b' = 0%N \/ eligible c p (bp_next b')) ->
    less c c' /\ (forall q, q <> p -> role c' q = role c q) /\ (role c' p = role c p \/ role c' p = 0%N \/ eligible c p (role c' p))).
  { intros o b' fin HP Ho Hb. split; [by eapply less_post|]. split; [intros q Hq; unfold role; by rewrite (po_props _ _ _ _ _ _ HP)|].
    unfold role at 1 3 4. rewrite (po_prop _ _ _ _ _ _ HP). done. }
  assert (HY : forall o n, fit o n -> (forall s, shrinks (ob c p s) (o s)) -> n = role c p \/ n = 0%N \/ eligible c p n).
  { intros o n [H1 H2] Ho. destruct (decide (avail (o n))) as [[Ha Hb]|Hn].
    - right; right. apply eligible_avail. destruct (Ho n) as [I1 I2]. split; auto.
    - right; left. apply H2. intros s Hs. apply Hn, H1. by exists s. }
  assert (L1 : forall s, shrinks (ob c p s) (lose c p s (ob c p s))) by (intros; by apply shrinks_lose).
  assert (LL : forall o, (forall s, shrinks (ob c p s) (o s)) -> forall n s, shrinks (ob c p s) (late c n s (o s))).
  { intros o Ho n s. eapply shrinks_trans; [apply Ho|by apply shrinks_late]. }
  assert (L2 : forall s, shrinks (ob c p s) (when_valid c p s (lose c p s (ob c p s)))) by (intros s; eapply shrinks_trans; [apply L1|by apply shrinks_valid]).
  assert (L3 : forall s, shrinks (ob c p s) (when_invalid c p s (lose c p s (ob c p s)))) by (intros s; eapply shrinks_trans; [apply L1|by apply shrinks_invalid]).
  destruct (timeout_cases g Hg c p i c' HG HA E) as [(_ & b' & HP & Hb)|[(_ & -> & _)|[(_ & _ & _ & _ & n & Hf & HP)|[(_ & _ & _ & n & Hf & HP)|[(_ & _ & _ & _ & n & v & _ & [(_ & Hf & HP)|[(_ & Hf & HP)|(_ & _ & Hf & HP)]])|(c1 & Et & _)]]]]].
  - eapply HX; [exact HP|intros; apply shrinks_refl|]. destruct Hb as [[_ ->]|[->|[_ ->]]]; cbn; auto.
  - split; [by intros q s|]. split; [done|]. by left.
  - eapply HX; [exact HP|exact L1|]. cbn [bp_next bp_none]. by eapply HY.
  - eapply HX; [exact HP|apply LL; intros; apply shrinks_refl|]. cbn [bp_next with_next]. eapply HY; [exact Hf|intros; apply shrinks_refl].
  - eapply HX; [exact HP|by apply LL|]. cbn [bp_next bp_none]. eapply HY; [exact Hf|done].
  - eapply HX; [exact HP|by apply LL|]. cbn [bp_next bp_none]. eapply HY; [exact Hf|done].
  - eapply HX; [exact HP|by apply LL|]. cbn [bp_next bp_none]. eapply HY; [exact Hf|done].
  - by destruct (tally_safe g Hg c p HG HA Hpl c1).
Qed.
Lemma turns_role l c c' : turn_ready g c -> (forall p i, (p, i) ∈ l -> is_Some (get_pool c p) /\ 0 <= i < two62) -> timeouts c l = Some c' ->
  less c c' /\ forall q, q ∉ l.*1 -> role c' q = role c q.
Proof.
  revert c. induction l as [|[p i] l IH]; intros c HR Hl; simpl; [intros [= <-]; split; [by intros q s|done]|].
  destruct (timeout_pool c p i) as [c1|] eqn:E; [|done]. intros E'. destruct (Hl p i) as [Hp Hi]; [by left|].
  destruct (ready_turn g Hg c p i c1 HR Hp Hi E) as (R1 & _ & S1 & _). destruct (turn_role c p i c1 (proj1 HR) (proj1 (proj2 HR)) Hp E) as (L1 & O1 & _).
  destruct (IH c1 R1) as (L2 & O2); [|done|].
  - intros q j Hq. destruct (Hl q j) as [Hq1 Hq2]; [by right|]. auto.
  - split; [intros q s Hs; by apply L1, L2|]. intros q Hq. apply not_elem_of_cons in Hq as [Hq1 Hq2]. rewrite O2 by done. by apply O1.
Qed.
Lemma block_role c p pl : turn_ready g c -> (forall p pl, get_pool (upgraded c) p = Some pl -> 0 <= pl_interval pl < two62) ->
  get_pool (upgraded c) p = Some pl -> let c' := cstep c CEnd in c_halt c' = false ->
  less c c' /\ (role c' p = role c p \/ role c' p = 0%N \/ eligible c p (role c' p)) /\
  (finalized c' p <> finalized c p -> forall a, foremost c p a -> eligible c' p a -> a ∈ bp_valid (get_prop c p) -> role c' p ∈ bp_valid (get_prop c p)).
Proof.
  intros HR Hiv Hpl c'. subst c'. unfold cstep. cbn [cmsg default from_option id]. unfold end_block. fold (upgraded c).
  assert (HRu : turn_ready g (upgraded c)).
  { destruct HR as (H1 & H2 & H3 & H4 & H5). split; [by apply G_upgrades|]. split; [|done].
    apply (agood_keep c); try done. apply keep_upgrades. }
  assert (Hfu : finalized (upgraded c) p = finalized c p) by (by apply finalized_keep, keep_upgrades).
  assert (Hru : forall q, get_prop (upgraded c) q = get_prop c q) by done. assert (Heu : forall q s, eligible (upgraded c) q s <-> eligible c q s) by done.
  set (cu := upgraded c) in *. clearbody cu. unfold handle_upload_timeout. destruct (timeouts cu _) as [c3|] eqn:Et.
  2: { unfold burn_fees. intros H. exfalso. revert H. cbn. destruct (_ =? 1); [done|]. destruct (_ =? 0); [done|]. by destruct (burn _ _ _). }
  set (c' := burn_fees c3). intros _. assert (Hin : (p, pl_interval pl) ∈ pool_intervals cu) by (apply pool_intervals_in; eauto).
  pose proof (intervals_NoDup cu) as Hn.
  assert (Hall : forall q i, (q, i) ∈ pool_intervals cu -> is_Some (get_pool cu q) /\ 0 <= i < two62).
  { intros q i Hq. apply pool_intervals_in in Hq as (x & Hx & ->). split; [eauto|by eapply Hiv]. }
  apply elem_of_list_split in Hin as (l1 & l2 & Hl). rewrite Hl in Et, Hn, Hall. rewrite timeouts_app in Et.
  destruct (timeouts cu l1) as [c1|] eqn:E1; [|done]. cbn [timeouts] in Et. destruct (timeout_pool c1 p _) as [c2|] eqn:E2; [|done].
  rewrite fmap_app in Hn. apply NoDup_app in Hn as (_ & Hn1 & Hn2). cbn in Hn2. apply NoDup_cons in Hn2 as [Hn2 _].
  assert (Hl1 : p ∉ l1.*1) by (intros Hq; apply (Hn1 p Hq); by left).
  assert (Hall1 : forall q i, (q, i) ∈ l1 -> is_Some (get_pool cu q) /\ 0 <= i < two62) by (intros q i Hq; apply Hall; set_solver).
  destruct (ready_turns g Hg l1 cu c1 HRu Hall1 E1) as (R1 & S1 & A1). destruct (turns_role l1 cu c1 HRu Hall1 E1) as (L1 & O1).
  destruct (Hall p (pl_interval pl)) as [Hp Hi]; [set_solver|].
  destruct (ready_turn g Hg c1 p (pl_interval pl) c2 R1 (S1 p Hp) Hi E2) as (R2 & T2 & S2 & _).
  destruct (turn_role c1 p _ c2 (proj1 R1) (proj1 (proj2 R1)) (S1 p Hp) E2) as (L2 & _ & O2).
  assert (Hall2 : forall q i, (q, i) ∈ l2 -> is_Some (get_pool c2 q) /\ 0 <= i < two62) by (intros q i Hq; destruct (Hall q i) as [Hq1 Hq2]; [set_solver|]; auto).
  destruct (ready_turns g Hg l2 c2 c3 R2 Hall2 Et) as (R3 & S3 & A3). destruct (turns_role l2 c2 c3 R2 Hall2 Et) as (L3 & O3).
  assert (Ep : get_prop c' p = get_prop c3 p) by (apply get_prop_b, b_burn_fees).
  assert (Er : role c' p = role c2 p) by (unfold role at 1; rewrite Ep; by apply O3).
  assert (Ee : forall q s, eligible c' q s <-> eligible c3 q s) by (intros q s; unfold eligible, points, delegated, c'; by rewrite s_burn_fees, d_burn_fees).
  specialize (A1 p Hl1). assert (Hr1 : role c1 p = role c p) by (unfold role; by rewrite (ap_prop _ _ _ A1), Hru).
  split; [|split].
  - intros q s Hs. apply Heu, L1, L2, L3. by apply Ee.
  - rewrite Er. destruct O2 as [->|[->|H]]; [by left; rewrite Hr1|by right; left|right; right]. by apply Heu, L1.
  - intros Hf a [Ha Hm] Ha' Hv. rewrite Er. pose proof (turn_chosen c1 p _ c2 (proj1 R1) (proj1 (proj2 R1)) E2) as HC.
    rewrite (ap_prop _ _ _ A1), Hru in HC. apply (HC) with (a := a); [| |done].
    + intros Hx. apply Hf. unfold c'. rewrite (finalized_b c3 _ (b_burn_fees c3)). rewrite (ap_fin _ _ _ (A3 p Hn2)), Hx, (ap_fin _ _ _ A1). done.
    + split; [apply L2, L3; by apply Ee|]. intros s Hs. apply Hm. by apply Heu, L1.
Qed.

(** ** Nothing else *)
Definition role_op (o : cop) : bool := match o with CSubmit _ | CSkip _ _ _ _ | CClaimRole _ _ _ | CEnd => true | _ => false end.
Lemma role_b c c' q : bpart c' = bpart c -> role c' q = role c q.
Proof. intros H. unfold role. by rewrite (get_prop_b c c'). Qed.
Lemma role_others c o q : role_op o = false -> role (cstep c o) q = role c q.
Proof.
  intros Ho. unfold cstep. destruct (cmsg c o) as [c'|] eqn:E; simpl in *; [|done].
  destruct o; try discriminate Ho; simpl in E;
    try (match type of E with ?f <$> ?x = _ => destruct x; [injection E as <-; done|done] end);
    try (match type of E with (if ?x then _ else _) = _ => destruct x; [injection E as <-; done|done] end).
  - unfold chain_create_staker in E. destruct (msg_delegate _ _ _ _ _); [|done]. destruct (msg_create_staker _ _ _ _); [|done]. by injection E as <-.
  - unfold msg_vote in E. destruct (can_vote _ _ _ _ _); simpl in E; [|done].
    match type of E with match ?x with Some _ => _ | None => _ end = _ => destruct x as [b'|] eqn:Eb end; [|done]. injection E as <-.
    assert (Hb : bp_next b' = bp_next (get_prop c p)).
    { destruct w; [injection Eb as <-; done| injection Eb as <-; done | |done]. destruct (memb _ _); [done|]. by injection Eb as <-. }
    unfold role. change (get_prop (reset_pts (set_prop c p b') p s) q) with (get_prop (set_prop c p b') q). unfold get_prop at 1, set_prop. cbn [c_prop cw_prop].
    destruct (decide (q = p)) as [->|Hq]; [by rewrite lookup_insert|by rewrite lookup_insert_ne].
  - unfold chain_create_pool in E. destruct (msg_create_pool _ _ _ _ _) as [ps|] eqn:Em; [|done]. by injection E as <-.
  - unfold chain_disable_pool in E. destruct (disable_record _ _ _) as [ps|] eqn:Ed; [|done].
    pose proof (b_leave_all (cw_pools c ps) (members (cw_pools c ps) p) p) as Hb.
    set (c2 := fold_left _ _ _) in *. assert (H2 : role c2 q = role c q) by (rewrite (role_b _ _ q Hb); done).
    destruct (two64 <=? _); [done|]. destruct (0 <? _); [|by injection E as <-]. destruct (i64 _ <? 0); [done|].
    destruct (send _ _ _ _); [|done]. by injection E as <-.
  - injection E as <-. unfold role, get_prop. by rewrite (proj1 (begin_parts c t provision)).
  - by injection E as <-.
Qed.
Lemma claim_claimed c p s v c' : cmsg c (CClaimRole p s v) = Some c' ->
  can_run c p = true /\ role c p = 0%N /\ signs c p s v /\ role c' p = s /\ forall q, q <> p -> role c' q = role c q.
Proof.
  cbn [cmsg]. unfold msg_claim_role. destruct (can_run c p); cbn [negb]; [|done]. destruct (authorized _ _ _ _) eqn:Ea; cbn [negb]; [|done].
  destruct (N.eqb_spec (bp_next (get_prop c p)) 0) as [E0|]; cbn [negb]; [|done]. intros [= <-]. split; [done|]. split; [done|]. split; [by apply signs_auth|].
  unfold role, get_prop, set_prop. cbn [c_prop cw_prop]. split; [by rewrite lookup_insert|]. intros q Hq. by rewrite lookup_insert_ne.
Qed.
End S.

(** ** Over all histories *)
Section R.
Context (g : gen) (ops : list cop) (Hg : genesis g) (Hok : cops_ok (gstart g) ops).
Let c := crun (gstart g) ops.
Lemma r_submit m c' : cmsg c (CSubmit m) = Some c' -> let p := sb_pool m in let b := get_prop c p in
  role c p = sb_staker m /\
  (bp_storage b = 0%N \/ finalized c' p <> finalized c p -> placed c' p) /\
  (bp_storage b <> 0%N -> finalized c' p <> finalized c p -> forall a, foremost c p a -> a ∈ bp_valid b -> role c' p ∈ bp_valid b) /\
  (bp_storage b <> 0%N -> finalized c' p = finalized c p -> role c' p = role c p) /\
  forall q, q <> p -> role c' q = role c q.
Proof. intros E. apply (claim_submit g Hg c m c'); [by apply r_G|by apply (r_A g)|done]. Qed.
Lemma r_skip p m v from c' : cmsg c (CSkip p m v from) = Some c' ->
  role c p = m /\ placed c' p /\ (forall a, foremost c' p a -> a <> m -> role c' p <> m) /\ forall q, q <> p -> role c' q = role c q.
Proof.
  intros E. assert (HG : G g c) by (by apply r_G). apply (claim_skipped g Hg c p m v from c'); [done|by apply (r_A g)|by eapply (skip_prop g)|done].
Qed.
Lemma r_block p pl : get_pool c p = Some pl -> let c' := cstep c CEnd in c_halt c' = false ->
  (forall q s, eligible c' q s -> eligible c q s) /\ (role c' p = role c p \/ role c' p = 0%N \/ eligible c p (role c' p)) /\
  (finalized c' p <> finalized c p -> forall a, foremost c p a -> eligible c' p a -> a ∈ bp_valid (get_prop c p) -> role c' p ∈ bp_valid (get_prop c p)).
Proof.
  intros Hp c' Hh. assert (Hu : exists pl', get_pool (upgraded c) p = Some pl').
  { unfold get_pool, upgraded, handle_upgrades in *. cbn. rewrite lookup_fmap, Hp. cbn. eauto. }
  destruct Hu as [pl' Hu]. apply (block_role g Hg c p pl'); [by apply r_ready| |done|done].
  intros q x Hq. unfold upgraded, get_pool, handle_upgrades in Hq. cbn in Hq. rewrite lookup_fmap in Hq.
  destruct (ps_pools (c_pools c) !! q) as [y|] eqn:Ey; [|done]. injection Hq as <-.
  exact (proj1 (upgrade_ok (c_time c) y (bi_pool _ (r_B g ops Hg Hok) q y Ey))).
Qed.
End R.
