(** * The flag of those who are leaving (C15) *)
From Verif Require Import Base BaseFacts Stakers StakersInv StakersRun StakersClaims StakersClaims2.

(** What is stored about a member only goes away in a block. *)
Definition thinner (st st' : sstate) : Prop := forall p s v, get_val st' p s = Some v -> get_val st p s = Some v.
Lemma thinner_refl st : thinner st st. Proof. intros p s v H. exact H. Qed.
Lemma thinner_trans a b c : thinner a b -> thinner b c -> thinner a c.
Proof. intros H1 H2 p s v H. by apply H1, H2. Qed.
Lemma thinner_leave st s p : thinner st (leave_pool st s p).
Proof. intros q t v. rewrite get_leave. by destruct (decide _). Qed.
Lemma thinner_loop f high n st low : (forall st i st', f st i = Some st' -> thinner st st') -> thinner st (fst (queue_loop f high n st low)).
Proof.
  intros Hf. revert st low. induction n as [|n IH]; intros st low; simpl; [apply thinner_refl|].
  destruct (f st (low + 1)%N) as [st1|] eqn:E; [|apply thinner_refl].
  destruct (low <? high)%N; [|by eapply Hf]. eapply thinner_trans; [by eapply Hf|apply IH].
Qed.
Lemma thinner_begin st : thinner st (stakers_begin st).
Proof.
  unfold stakers_begin. eapply thinner_trans with (process_commissions st).
  - unfold process_commissions. destruct (queue_loop _ _ _ _ _) as [st1 low] eqn:E.
    change (thinner st st1). replace st1 with (fst (queue_loop process_centry (ss_chigh st) (S (N.to_nat (ss_chigh st - ss_clow st))) st (ss_clow st))) by (by rewrite E).
    apply thinner_loop. clear. intros st i st'. unfold process_centry. destruct (ss_centries st !! i) as [e|]; [|intros [= <-]; apply thinner_refl].
    destruct (_ <=? _); [|done]. intros [= <-]. destruct (ss_stakers _ !! _); intros p s' v H; exact H.
  - set (st0 := process_commissions st). unfold process_leaves. destruct (queue_loop _ _ _ _ _) as [st1 low] eqn:E.
    change (thinner st0 st1). replace st1 with (fst (queue_loop process_lentry (ss_lhigh st0) (S (N.to_nat (ss_lhigh st0 - ss_llow st0))) st0 (ss_llow st0))) by (by rewrite E).
    apply thinner_loop. clear. intros st i st'. unfold process_lentry. destruct (ss_lentries st !! i) as [e|]; [|intros [= <-]; apply thinner_refl].
    destruct (_ <=? _); [|done]. intros [= <-]. set (st1 := with_lq _ _ _ _ _). change (thinner st1 (leave_pool st1 (le_staker e) (le_pool e))). apply thinner_leave.
Qed.

(** The flag after one operation. *)
Lemma flag_step st o p s v : get_val (sstep st o) p s = Some v ->
  (get_val st p s = None /\ vl_leaving v = false) \/
  (o = SLeave s p /\ is_Some (msg_leave st s p) /\ vl_leaving v = true) \/
  ((o = SLeave s p -> msg_leave st s p = None) /\ exists w, get_val st p s = Some w /\ vl_leaving v = vl_leaving w).
Proof.
  intros H.
  assert (Hkeep : (forall s' p', o <> SLeave s' p') -> get_val st p s = Some v ->
     (o = SLeave s p -> msg_leave st s p = None) /\ exists w, get_val st p s = Some w /\ vl_leaving v = vl_leaving w).
  { intros Ho Hv. split; [intros ->; exfalso; by eapply Ho|eauto]. }
  destruct o; simpl in H.
  - right; right; apply Hkeep; [done|]. revert H. unfold msg_create_staker. destruct (ss_stakers st !! s0); [done|]. by destruct delegates.
  - right; right; apply Hkeep; [done|]. revert H. unfold msg_update_commission. destruct (ss_stakers st !! s0); [|done]. simpl. unfold order_commission.
    destruct (ss_cindex st !! s0) as [i|]; [destruct (ss_centries st !! i)|]; done.
  - right; right; apply Hkeep; [done|]. revert H. unfold msg_claim_commission. destruct (ss_stakers st !! s0); [|done]. destruct (negb _); [done|]. by destruct (send _ _ _ _).
  - destruct (msg_join st pool del s0 p0 v0 amount) as [st'|] eqn:E; [|right; right; by apply Hkeep].
    change (default st (Some st')) with st' in H. destruct (join_inv _ _ _ _ _ _ _ _ E) as (-> & Hs & Hsv & Hn & st1 & b & Ee & H1 & H2 & Eb & ->).
    destruct (ensure_frame _ _ _ _ _ Ee) as [l Hl].
    assert (Ht : thinner st st1) by (destruct Hl as [-> | ->]; [apply thinner_refl|apply thinner_leave]).
    change (get_val (with_sbank ?y _) p s) with (get_val y p s) in H.
    assert (Hn1 : get_val st1 p0 s0 = None) by (destruct (get_val st1 p0 s0) as [w|] eqn:Ew; [apply Ht in Ew; congruence|done]).
    assert (Hs1 : is_Some (ss_stakers st1 !! s0)).
    { destruct Hl as [-> | ->]; [done|]. by pose proof (leave_frame st l p0) as (-> & _). }
    rewrite get_add in H by done. destruct (decide _) as [[<- <-]|Hne].
    + left. split; [done|]. injection H as <-. done.
    + right; right; apply Hkeep; [done|]. by apply Ht.
  - destruct (msg_leave st s0 p0) as [st'|] eqn:E; simpl in H.
    + pose proof E as E'. unfold msg_leave in E. destruct (get_val st p0 s0) as [x|] eqn:Ex; [|done].
      destruct (bool_decide _); [done|]. injection E as <-.
      change (get_val (with_lq ?y _ _ _ _) p s) with (get_val y p s) in H. rewrite get_set_val in H.
      destruct (decide _) as [[<- <-]|Hne].
      * right; left. injection H as <-. rewrite E'. eauto.
      * right; right. split; [intros [= -> ->]; exfalso; by apply Hne|]. eauto.
    + right; right. split; [by intros [= -> ->]|eauto].
  - right; right; apply Hkeep; [done|]. by eapply thinner_leave.
  - right; right; apply Hkeep; [done|]. revert H. unfold increase_commission_rewards. destruct (cempty amount); [done|]. destruct (ss_stakers st !! s0); [|done]. by destruct (send _ _ _ _).
  - right; right. split; [done|]. revert H. unfold increment_points. destruct (get_val st p0 s0) as [x|] eqn:E; [|simpl; eauto]. simpl. rewrite get_set_val.
    destruct (decide _) as [[<- <-]|]; [|eauto]. intros [= <-]. eauto.
  - right; right. split; [done|]. revert H. unfold reset_points. destruct (get_val st p0 s0) as [x|] eqn:E; [|simpl; eauto]. simpl. rewrite get_set_val.
    destruct (decide _) as [[<- <-]|]; [|eauto]. intros [= <-]. eauto.
  - right; right. by apply Hkeep.
  - right; right; apply Hkeep; [done|]. by apply (thinner_begin (with_stime st t)) in H.
  - right; right. by apply Hkeep.
Qed.

(** For a member: the flag is set iff it has asked to leave during this membership. *)
Definition FL (st : sstate) (r : N -> N -> option Z) : Prop :=
  forall p s v, get_val st p s = Some v -> (vl_leaving v = true <-> is_Some (r s p)).
Lemma FL_step st o r : LQ st -> LR st r -> FL st r -> FL (sstep st o) (lreq_step st o r).
Proof.
  intros HL HLR HF p s v Hv. unfold lreq_step.
  assert (Hm : member_b (sstep st o) p s = true) by (apply member_b_spec; unfold member; rewrite Hv; eauto). rewrite Hm.
  destruct (flag_step st o p s v Hv) as [[Hn Hf]|[(-> & Ha & Hf)|(Hno & w & Hw & Hf)]].
  - assert (Hr : r s p = None).
    { destruct (r s p) as [d|] eqn:E; [|done]. apply HLR in E as [[x Hx] _]. congruence. }
    rewrite Hf. destruct o; try (rewrite Hr; split; [done|by intros [? ?]]).
    destruct ((s0 =? s)%N && (p0 =? p)%N) eqn:E; [|rewrite Hr; split; [done|by intros [? ?]]].
    apply andb_prop in E as [E1 E2]. apply N.eqb_eq in E1, E2. subst s0 p0.
    exfalso. simpl in Hv. unfold msg_leave in Hv. rewrite Hn in Hv. simpl in Hv. congruence.
  - rewrite !N.eqb_refl. simpl. rewrite Hf. destruct (r s p); split; eauto.
  - rewrite Hf, (HF _ _ _ Hw). destruct o; try done.
    destruct ((s0 =? s)%N && (p0 =? p)%N) eqn:E; [|done].
    apply andb_prop in E as [E1 E2]. apply N.eqb_eq in E1, E2. subst s0 p0. specialize (Hno eq_refl).
    destruct (r s p) as [d|] eqn:Er; [done|]. split; [by intros [? ?]|]. intros _. exfalso.
    unfold msg_leave in Hno. rewrite Hw in Hno. change (ss_lindex (set_val st p s ?w)) with (ss_lindex st) in Hno.
    destruct (bool_decide _) eqn:Eb; [|done]. apply bool_decide_eq_true in Eb.
    destruct (lq_index _ HL _ _ Eb) as (i & e & He & Q1 & Q2).
    assert (r s p = Some (le_date e)); [|congruence]. apply HLR. split; [unfold member; eauto|]. exists i, e. done.
Qed.
Lemma FL_run ops st sp r : sops_ok st ops -> Forall sop_small ops -> no_stales st ops -> MI st -> CR st sp -> LQ st -> LR st r -> FL st r ->
  FL (srun st ops) (lreqs st ops r).
Proof.
  revert st sp r. induction ops as [|o ops IH]; intros st sp r; simpl; [done|]. intros [H1 H2] Hs [Hn1 Hn2] HM HR HL HLR HF.
  apply Forall_cons in Hs as [Hs1 Hs2]. destruct (CR_step st sp o H1 Hs1 HM HR HL) as [HR' HL'].
  eapply IH; try done; [by apply MI_step|by eapply LR_step|by apply FL_step].
Qed.
(** [r] starts empty; a request that is accepted is the first one of the membership. *)
Lemma flag_claim b t c l ops : small_time t -> small_time c -> small_time l ->
  sops_ok (sinit b t c l) ops -> Forall sop_small ops -> no_stales (sinit b t c l) ops ->
  let st := srun (sinit b t c l) ops in
  forall s p v, get_val st p s = Some v ->
  let asked := is_Some (lreqs (sinit b t c l) ops (fun _ _ => None) s p) in
  (vl_leaving v = true <-> asked) /\ (is_Some (msg_leave st s p) <-> ~ asked).
Proof.
  intros Ht Hc Hl Hok Hsm Hns. cbv zeta. intros s p v Hv. destruct (CR_init b t c l Ht Hc Hl) as [HR0 HL0].
  assert (HLR0 : LR (sinit b t c l) (fun _ _ => None)).
  { intros s' p' d. split; [done|]. intros [_ (i & e & He & _)]. simpl in He. by rewrite lookup_empty in He. }
  assert (HF0 : FL (sinit b t c l) (fun _ _ => None)) by (intros p' s' v' H; change (default (∅ : gmap N valacc) ((∅ : gmap N (gmap N valacc)) !! p') !! s' = Some v') in H; rewrite lookup_empty in H; change ((∅ : gmap N valacc) !! s' = Some v') in H; by rewrite lookup_empty in H).
  destruct (CR_run _ _ _ Hok Hsm (MI_init b t c l) HR0 HL0) as [_ HL].
  pose proof (LR_run _ _ _ _ Hok Hsm Hns (MI_init b t c l) HR0 HL0 HLR0) as HLR.
  split; [by eapply (FL_run _ _ _ _ Hok Hsm Hns (MI_init b t c l) HR0 HL0 HLR0 HF0)|].
  unfold msg_leave. rewrite Hv. change (ss_lindex (set_val ?st p s ?w)) with (ss_lindex st).
  set (st := srun _ _) in *. set (r := lreqs _ _ _) in *. destruct (bool_decide _) eqn:Eb.
  - apply bool_decide_eq_true in Eb. destruct (lq_index _ HL _ _ Eb) as (i & e & He & Q1 & Q2).
    split; [by intros [? ?]|]. intros H. exfalso. apply H. exists (le_date e). apply HLR. split; [unfold member; eauto|]. exists i, e. done.
  - apply bool_decide_eq_false in Eb. split; [|eauto]. intros _ [d Hd]. apply HLR in Hd as [_ (i & e & He & <- & <- & _)].
    apply Eb. by destruct (lq_entry _ HL _ _ He) as (_ & ? & _).
Qed.
