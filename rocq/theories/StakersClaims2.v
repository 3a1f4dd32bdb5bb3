(** * Stakers: delayed commission changes and delayed leaving. *)
From Verif Require Import Base BaseFacts Stakers StakersInv StakersRun StakersClaims.

(** Block times and waiting times for which the int64 sums of the code do not wrap. *)
Definition sop_small (o : sop) : Prop :=
  match o with SParams c l => small_time c /\ small_time l | SBegin t => small_time t | _ => True end.

(** ** Specification of commission changes: per staker one commission and at most one pending
    request (new commission, time of the request). *)
Record cspec := mkCS { cs_now : Z; cs_wait : Z; cs_cur : N -> option Z; cs_pend : N -> option (Z * Z) }.
Definition fset {A} (f : N -> A) (k : N) (v : A) : N -> A := fun x => if (x =? k)%N then v else f x.
Definition cspec_step (sp : cspec) (o : sop) : cspec :=
  match o with
  | SCreate s c true => match cs_cur sp s with None => mkCS (cs_now sp) (cs_wait sp) (fset (cs_cur sp) s (Some c)) (cs_pend sp) | Some _ => sp end
  | SUpdateCommission s c =>
      match cs_cur sp s with Some _ => mkCS (cs_now sp) (cs_wait sp) (cs_cur sp) (fset (cs_pend sp) s (Some (c, cs_now sp))) | None => sp end
  | SParams w _ => mkCS (cs_now sp) w (cs_cur sp) (cs_pend sp)
  | SBegin t =>
      mkCS t (cs_wait sp)
        (fun s => match cs_pend sp s with Some (c, d) => if d + cs_wait sp <=? t then Some c else cs_cur sp s | None => cs_cur sp s end)
        (fun s => match cs_pend sp s with Some (c, d) => if d + cs_wait sp <=? t then None else Some (c, d) | None => None end)
  | _ => sp
  end.
Definition cspec_init (t w : Z) : cspec := mkCS t w (fun _ => None) (fun _ => None).
Fixpoint cspec_run (sp : cspec) (ops : list sop) : cspec := match ops with [] => sp | o :: l => cspec_run (cspec_step sp o) l end.

Record CR (st : sstate) (sp : cspec) : Prop := mkCR {
  cr_cq : CQ st; cr_ct : small_time (ss_ctime st); cr_lt : small_time (ss_ltime st); cr_t : small_time (ss_time st);
  cr_now : cs_now sp = ss_time st; cr_wait : cs_wait sp = ss_ctime st;
  cr_cur : forall s, commission_of st s = cs_cur sp s;
  cr_pend : forall s, cpending st s = cs_pend sp s
}.
Lemma CR_ext st st' sp : CR st sp -> ss_centries st' = ss_centries st -> ss_cindex st' = ss_cindex st -> ss_clow st' = ss_clow st ->
  ss_chigh st' = ss_chigh st -> ss_ctime st' = ss_ctime st -> ss_ltime st' = ss_ltime st -> ss_time st' = ss_time st ->
  (forall s, commission_of st' s = commission_of st s) -> CR st' sp.
Proof.
  intros [HC H1 H2 H3 H4 H5 H6 H7] E1 E2 E3 E4 E5 E6 E7 Hc. constructor; rewrite ?E5, ?E6, ?E7; try done.
  - destruct HC as [C1 C2 C3 C4 C5]. constructor; rewrite ?E1, ?E2, ?E3, ?E4, ?E7; try done.
    + intros i e He. destruct (C1 _ _ He) as (Q1 & Q2 & Q3 & Q4 & Q5 & [x Q6]). repeat (split; [done|]).
      specialize (Hc (ce_staker e)). unfold commission_of in Hc. rewrite Q6 in Hc. destruct (ss_stakers st' !! ce_staker e); [eauto|done].
    + intros s x Hx. specialize (Hc s). unfold commission_of in Hc. rewrite Hx in Hc. simpl in Hc.
      destruct (ss_stakers st !! s) as [y|] eqn:Ey; [|done]. simpl in Hc. injection Hc as ->. by eapply C5.
  - intros s. by rewrite Hc.
  - intros s. rewrite <- H7. unfold cpending. by rewrite E1, E2.
Qed.
Lemma commission_set_same st s x c r : ss_stakers st !! s = Some x -> st_commission x = c ->
  forall s', st_commission <$> (<[s := mkSt c r]> (ss_stakers st) !! s') = commission_of st s'.
Proof.
  intros Hx Hc s'. unfold commission_of. destruct (decide (s = s')) as [<-|]; [rewrite lookup_insert, Hx; simpl; by rewrite Hc|by rewrite lookup_insert_ne].
Qed.

Lemma CR_order st sp s c : CR st sp -> is_Some (ss_stakers st !! s) -> 0 <= c <= ONE ->
  CR (order_commission st s c) (mkCS (cs_now sp) (cs_wait sp) (cs_cur sp) (fset (cs_pend sp) s (Some (c, cs_now sp)))).
Proof.
  intros [HC H1 H2 H3 H4 H5 H6 H7] Hs Hc. pose proof HC as [C1 C2 C3 C4 C5].
  (* state after removing the old entry of the staker *)
  set (st1 := match ss_cindex st !! s with
              | None => st
              | Some i => match ss_centries st !! i with None => st | Some e => remove_centry st i e end end).
  assert (F : ss_clow st1 = ss_clow st /\ ss_chigh st1 = ss_chigh st /\ ss_time st1 = ss_time st /\ ss_stakers st1 = ss_stakers st /\
              ss_ctime st1 = ss_ctime st /\ ss_ltime st1 = ss_ltime st).
  { unfold st1. destruct (ss_cindex st !! s) as [i|]; [destruct (ss_centries st !! i)|]; done. }
  destruct F as (F1 & F2 & F3 & F4 & F5 & F6).
  assert (He1 : forall i e, ss_centries st1 !! i = Some e <-> ss_centries st !! i = Some e /\ ce_staker e <> s).
  { intros i e. unfold st1. destruct (ss_cindex st !! s) as [i0|] eqn:E.
    - destruct (C2 _ _ E) as (e0 & He0 & Hs0). rewrite He0. simpl. rewrite lookup_delete_Some. split.
      + intros [Hne He]. split; [done|]. intros Heq. destruct (C1 _ _ He) as (_ & Hx & _). rewrite Heq in Hx. congruence.
      + intros [He Hne]. split; [|done]. intros <-. congruence.
    - split; [|tauto]. intros He. split; [done|]. intros Heq. destruct (C1 _ _ He) as (_ & Hx & _). congruence. }
  assert (Hi1 : forall s' i, ss_cindex st1 !! s' = Some i <-> ss_cindex st !! s' = Some i /\ s' <> s).
  { intros s' i. unfold st1. destruct (ss_cindex st !! s) as [i0|] eqn:E.
    - destruct (C2 _ _ E) as (e0 & He0 & Hs0). rewrite He0. simpl. rewrite Hs0, lookup_delete_Some. naive_solver.
    - split; [|tauto]. intros He. split; [done|]. congruence. }
  unfold order_commission. fold st1. cbv zeta.
  assert (Hfresh : ss_centries st1 !! (ss_chigh st1 + 1)%N = None).
  { destruct (ss_centries st1 !! (ss_chigh st1 + 1)%N) as [e|] eqn:E; [|done]. apply He1 in E as [E _]. destruct (C1 _ _ E) as (Hi & _). lia. }
  constructor; simpl; rewrite ?F3, ?F5, ?F6; try done.
  - constructor; simpl; rewrite ?F1, ?F2, ?F3, ?F4.
    + intros i e. rewrite lookup_insert_Some. intros [[<- <-]|[Hne He]]; simpl.
      * split; [lia|]. rewrite lookup_insert. split; [done|]. split; [lia|]. done.
      * apply He1 in He as [He Hse]. destruct (C1 _ _ He) as (Q1 & Q2 & Q3 & Q4 & Q5 & Q6).
        split; [lia|]. split; [rewrite lookup_insert_ne by done; apply Hi1; done|]. done.
    + intros s' i. rewrite lookup_insert_Some. intros [[<- <-]|[Hne He]].
      * eexists. rewrite lookup_insert. split; [done|done].
      * apply Hi1 in He as [He Hse]. destruct (C2 _ _ He) as (e & Q1 & Q2). exists e. split; [|done].
        rewrite lookup_insert_ne; [apply He1; by rewrite Q2|]. destruct (C1 _ _ Q1) as (Hi & _). lia.
    + intros i j ei ej. rewrite !lookup_insert_Some. intros [[<- <-]|[Hne He]] [[<- <-]|[Hne' He']] Hij; simpl.
      * lia.
      * apply He1 in He' as [He' _]. destruct (C1 _ _ He') as (Hi & _). lia.
      * apply He1 in He as [He _]. by destruct (C1 _ _ He) as (_ & _ & ? & _).
      * apply He1 in He as [He _]. apply He1 in He' as [He' _]. by eapply C3.
    + lia.
    + exact C5.
  - intros s'. unfold commission_of. simpl. rewrite F4. apply H6.
  - intros s'. unfold cpending, fset. simpl. destruct (s' =? s)%N eqn:E.
    + apply N.eqb_eq in E as ->. rewrite lookup_insert. simpl. rewrite lookup_insert. simpl. by rewrite H4.
    + rewrite lookup_insert_ne by lia. rewrite <- H7. unfold cpending.
      destruct (ss_cindex st1 !! s') as [i|] eqn:Ei.
      * apply Hi1 in Ei as [Ei Hne]. rewrite Ei. simpl. destruct (C2 _ _ Ei) as (e & Q1 & Q2). rewrite Q1.
        rewrite lookup_insert_ne; [|destruct (C1 _ _ Q1) as (Hi & _); lia].
        assert (ss_centries st1 !! i = Some e) as -> by (apply He1; by rewrite Q2). done.
      * destruct (ss_cindex st !! s') as [i|] eqn:Ei'; [|done]. exfalso.
        assert (ss_cindex st1 !! s' = Some i); [apply Hi1; split; [done|lia]|congruence].
Qed.

Lemma CR_step st sp o : sop_ok st o -> sop_small o -> MI st -> CR st sp -> LQ st -> CR (sstep st o) (cspec_step sp o) /\ LQ (sstep st o).
Proof.
  intros Hok Hsm HM HR HL. assert (Hex : forall st', ss_lentries st' = ss_lentries st -> ss_lindex st' = ss_lindex st -> ss_llow st' = ss_llow st ->
     ss_lhigh st' = ss_lhigh st -> ss_time st <= ss_time st' -> LQ st').
  { intros st' E1 E2 E3 E4 E5. destruct HL as [L1 L2 L3 L4 L5]. constructor; rewrite ?E1, ?E2, ?E3, ?E4; try done.
    intros i e He. destruct (L1 _ _ He) as (Q1 & Q2 & Q3 & Q4). repeat (split; [done|]). split; [lia|done]. }
  destruct o; simpl in *.
  - unfold msg_create_staker. destruct (ss_stakers st !! s) eqn:E.
    { simpl. destruct delegates; [|done]. rewrite <- (cr_cur _ _ HR s). unfold commission_of. by rewrite E. }
    destruct delegates; [|done]. rewrite <- (cr_cur _ _ HR s). unfold commission_of. rewrite E. simpl. split; [|by apply Hex].
    destruct HR as [HC H1 H2 H3 H4 H5 H6 H7]. constructor; simpl; try done.
    + destruct HC as [C1 C2 C3 C4 C5]. constructor; simpl; try done.
      * intros i e He. destruct (C1 _ _ He) as (Q1 & Q2 & Q3 & Q4 & Q5 & Q6). repeat (split; [done|]).
        destruct (decide (s = ce_staker e)) as [<-|]; [rewrite lookup_insert; eauto|by rewrite lookup_insert_ne].
      * intros s' x. rewrite lookup_insert_Some. intros [[<- <-]|[_ Hx]]; [simpl; lia|by eapply C5].
    + intros s'. unfold commission_of, fset. simpl. destruct (s' =? s)%N eqn:Es.
      * apply N.eqb_eq in Es as ->. by rewrite lookup_insert.
      * rewrite lookup_insert_ne by lia. apply H6.
  - unfold msg_update_commission. pose proof (cr_cur _ _ HR s) as Hcur. unfold commission_of in Hcur.
    destruct (ss_stakers st !! s) as [x|] eqn:E; simpl in Hcur; rewrite <- Hcur; [|done]. simpl.
    split; [apply CR_order; eauto|]. apply Hex; unfold order_commission; destruct (ss_cindex st !! s) as [i|]; try destruct (ss_centries st !! i); try done; simpl; lia.
  - unfold msg_claim_commission. destruct (ss_stakers st !! s) as [x|] eqn:E; [|done]. destruct (negb _); [done|].
    destruct (send _ _ _ _); [|done]. simpl. split; [|by apply Hex]. eapply CR_ext; [exact HR|done..|].
    intros s'. by apply (commission_set_same st s x).
  - destruct (msg_join st pool del s p v amount) as [st'|] eqn:E; [|done]. change (default st (Some st')) with st'.
    destruct (join_inv _ _ _ _ _ _ _ _ E) as (-> & Hs & Hsv & Hn & st1 & b & Ee & H1 & H2 & Eb & ->).
    destruct (ensure_frame _ _ _ _ _ Ee) as [l Hl].
    pose proof (add_frame st1 s p v) as (F1 & F2 & F3 & F4 & F5 & F6 & F7 & F8 & F9 & F10 & F11 & F12 & F13).
    pose proof (leave_frame st l p) as (G1 & G2 & G3 & G4 & G5 & G6 & G7 & G8 & G9 & G10 & G11 & G12 & G13).
    split.
    + eapply CR_ext; [exact HR|..]; simpl; rewrite ?F2, ?F3, ?F4, ?F5, ?F10, ?F11, ?F12; try (destruct Hl as [ -> | -> ]; done).
      intros s'. unfold commission_of. simpl. rewrite F1. destruct Hl as [ -> | -> ]; [done|]. by rewrite G1.
    + apply Hex; simpl; rewrite ?F6, ?F7, ?F8, ?F9, ?F12; destruct Hl as [ -> | -> ]; try done; try lia; rewrite ?G12; lia.
  - unfold msg_leave. destruct (get_val st p s) as [x|] eqn:E; [|done].
    change (ss_lindex (set_val st p s ?w)) with (ss_lindex st).
    destruct (bool_decide ((s, p) ∈ ss_lindex st)) eqn:Eb; [done|]. apply bool_decide_eq_false in Eb. simpl.
    split; [eapply CR_ext; [exact HR|done..]|]. destruct HL as [L1 L2 L3 L4 L5].
    assert (Hfresh : ss_lentries st !! (ss_lhigh st + 1)%N = None).
    { destruct (ss_lentries st !! (ss_lhigh st + 1)%N) as [e|] eqn:Ee; [|done]. destruct (L1 _ _ Ee) as (Hi & _). lia. }
    constructor; simpl.
    + intros i e. rewrite lookup_insert_Some. intros [[<- <-]|[Hne He]]; simpl.
      * split; [lia|]. split; [set_solver|]. split; [lia|]. apply HR.
      * destruct (L1 _ _ He) as (Q1 & Q2 & Q3 & Q4). split; [lia|]. split; [set_solver|]. done.
    + intros s' p'. rewrite elem_of_union, elem_of_singleton. intros [H|H].
      * simplify_eq. eexists _, _. rewrite lookup_insert. done.
      * destruct (L2 _ _ H) as (i & e & He & Q1 & Q2). exists i, e. split; [|done]. rewrite lookup_insert_ne; [done|].
        intros <-. congruence.
    + intros i j ei ej. rewrite !lookup_insert_Some. intros [[<- <-]|[Hne He]] [[<- <-]|[Hne' He']]; simpl; intros Q1 Q2.
      * done.
      * destruct (L1 _ _ He') as (_ & Hin & _). rewrite <- Q1, <- Q2 in Hin. done.
      * destruct (L1 _ _ He) as (_ & Hin & _). rewrite Q1, Q2 in Hin. done.
      * by eapply L3.
    + intros i j ei ej. rewrite !lookup_insert_Some. intros [[<- <-]|[Hne He]] [[<- <-]|[Hne' He']] Hij; simpl.
      * lia.
      * destruct (L1 _ _ He') as (Hi & _). lia.
      * by destruct (L1 _ _ He) as (_ & _ & ? & _).
      * by eapply L4.
    + lia.
  - pose proof (leave_frame st s p) as (G1 & G2 & G3 & G4 & G5 & G6 & G7 & G8 & G9 & G10 & G11 & G12 & G13).
    split; [eapply CR_ext; [exact HR|done..|]|apply Hex; try done; rewrite ?G12; lia]. intros s'. unfold commission_of. by rewrite G1.
  - unfold increase_commission_rewards. destruct (cempty amount); [done|]. destruct (ss_stakers st !! s) as [x|] eqn:E; [|done].
    destruct (send _ _ _ _); [|done]. simpl. split; [|by apply Hex]. eapply CR_ext; [exact HR|done..|].
    intros s'. by apply (commission_set_same st s x).
  - unfold increment_points. destruct (get_val st p s) as [x|] eqn:E; [|done]. simpl.
    split; [eapply CR_ext; [exact HR|done..]|by apply Hex].
  - unfold reset_points. destruct (get_val st p s) as [x|] eqn:E; [|done]. simpl.
    split; [eapply CR_ext; [exact HR|done..]|by apply Hex].
  - split; [|by apply Hex]. destruct HR as [[C1 C2 C3 C4 C5] H1 H2 H3 H4 H5 H6 H7]. destruct Hsm. constructor; try done.
  - unfold stakers_begin. set (st0 := with_stime st t).
    assert (HL0 : LQ st0) by (apply Hex; try done; simpl; lia).
    assert (HC0 : CQ st0).
    { destruct HR as [[C1 C2 C3 C4 C5] H1 H2 H3 H4 H5 H6 H7]. constructor; try done.
      intros i e He. destruct (C1 _ _ He) as (Q1 & Q2 & Q3 & Q4 & Q5 & Q6). repeat (split; [done|]). simpl. split; [lia|done]. }
    assert (HM0 : MI st0) by (eapply MI_ext; [exact HM|done..]).
    destruct (process_commissions_spec st0 HC0 (cr_ct _ _ HR)) as (PC1 & (E & I & L & S & PC2) & PC3 & PC4). cbv zeta in *.
    set (st1 := process_commissions st0) in *.
    assert (HL1 : LQ st1).
    { rewrite PC2. destruct HL0 as [L1 L2 L3 L4 L5]. constructor; done. }
    assert (HM1 : MI st1).
    { eapply (MI_ext st0); [exact HM0|by rewrite PC2..|]. intros s [x Hx]. rewrite PC4, Hx. eauto. }
    assert (Hlt : ss_ltime st1 = ss_ltime st) by (by rewrite PC2).
    destruct (process_leaves_spec st1 HM1 HL1 ltac:(rewrite Hlt; apply HR)) as (PL1 & PL2 & (V & C & A & E' & I' & L' & PL3) & PL4 & PL5). cbv zeta in *.
    set (st2 := process_leaves st1) in *. split; [|done].
    destruct HR as [HC H1 H2 H3 H4 H5 H6 H7].
    assert (HCR1 : CR st1 (cspec_step sp (SBegin t))).
    { constructor; try done.
      - by rewrite PC2. - by rewrite Hlt. - by rewrite PC2. - by rewrite PC2. - rewrite PC2. done.
      - intros s. unfold commission_of. rewrite PC4. simpl. rewrite <- H7, <- H6, H5. unfold commission_of.
        change (cpending st0 s) with (cpending st s). change (ss_stakers st0) with (ss_stakers st).
        destruct (ss_stakers st !! s) as [x|] eqn:Ex; simpl.
        + destruct (cpending st s) as [[c d]|]; [|done]. unfold cdue. simpl. by destruct (d + ss_ctime st <=? t).
        + destruct (cpending st s) as [[c d]|] eqn:Ep; [|done]. exfalso. unfold cpending in Ep.
          destruct (ss_cindex st !! s) as [i|] eqn:Ei; [|done]. destruct (cq_index _ HC _ _ Ei) as (e & He & Hes).
          destruct (cq_entry _ HC _ _ He) as (_ & _ & _ & _ & _ & [x Hx]). rewrite Hes in Hx. congruence.
      - intros s. rewrite PC3. simpl. rewrite <- H7, H5. change (cpending st0 s) with (cpending st s).
        destruct (cpending st s) as [[c d]|]; [|done]. unfold cdue. simpl. by destruct (d + ss_ctime st <=? t). }
    eapply CR_ext; [exact HCR1|by rewrite PL3..].
  - split; [eapply CR_ext; [exact HR|done..]|by apply Hex].
Qed.
Lemma CR_init b t c l : small_time t -> small_time c -> small_time l -> CR (sinit b t c l) (cspec_init t c) /\ LQ (sinit b t c l).
Proof.
  intros Ht Hc Hl. split.
  - constructor; try done.
  - constructor; simpl; try done; intros *; rewrite ?lookup_empty; try done.
Qed.
Lemma CR_run ops st sp : sops_ok st ops -> Forall sop_small ops -> MI st -> CR st sp -> LQ st ->
  CR (srun st ops) (cspec_run sp ops) /\ LQ (srun st ops).
Proof.
  revert st sp. induction ops as [|o ops IH]; intros st sp; simpl; [done|]. intros [H1 H2] Hs HM HR HL.
  apply Forall_cons in Hs as [Hs1 Hs2]. destruct (CR_step st sp o H1 Hs1 HM HR HL) as [HR' HL'].
  apply IH; try done. by apply MI_step.
Qed.

(** ** C14 *)
Lemma commission_claim b t c l ops : small_time t -> small_time c -> small_time l ->
  sops_ok (sinit b t c l) ops -> Forall sop_small ops ->
  let st := srun (sinit b t c l) ops in let sp := cspec_run (cspec_init t c) ops in
  (forall s, commission_of st s = cs_cur sp s) /\
  (forall s x, commission_of st s = Some x -> 0 <= x <= ONE) /\
  (forall i j ei ej, ss_centries st !! i = Some ei -> ss_centries st !! j = Some ej -> ce_staker ei = ce_staker ej -> i = j) /\
  (forall s, cs_pend sp s = None <-> forall i e, ss_centries st !! i = Some e -> ce_staker e <> s).
Proof.
  intros Ht Hc Hl Hok Hsm. cbv zeta. destruct (CR_init b t c l Ht Hc Hl) as [HR0 HL0].
  destruct (CR_run ops _ _ Hok Hsm (MI_init b t c l) HR0 HL0) as [HR HL]. set (st := srun _ ops) in *. set (sp := cspec_run _ ops) in *.
  split; [apply HR|]. split; [|split].
  - intros s x. unfold commission_of. destruct (ss_stakers st !! s) as [y|] eqn:E; [|done]. simpl. intros; simplify_eq.
    by apply (cq_stakers _ (cr_cq _ _ HR) s).
  - intros i j ei ej H1 H2 Hs. destruct (cq_entry _ (cr_cq _ _ HR) _ _ H1) as (_ & Q1 & _).
    destruct (cq_entry _ (cr_cq _ _ HR) _ _ H2) as (_ & Q2 & _). rewrite Hs in Q1. congruence.
  - intros s. rewrite <- (cr_pend _ _ HR). unfold cpending. split.
    + intros Hn i e He <-. destruct (cq_entry _ (cr_cq _ _ HR) _ _ He) as (_ & Q1 & _). rewrite Q1 in Hn. simpl in Hn. by rewrite He in Hn.
    + intros Hn. destruct (ss_cindex st !! s) as [i|] eqn:Ei; [|done]. destruct (cq_index _ (cr_cq _ _ HR) _ _ Ei) as (e & He & Hes).
      exfalso. by eapply Hn.
Qed.

Lemma srun_app st a c : srun st (a ++ c) = srun (srun st a) c.
Proof. revert st. induction a as [|o a IH]; intros st; simpl; [done|]. apply IH. Qed.
Lemma cspec_run_app st a c : cspec_run st (a ++ c) = cspec_run (cspec_run st a) c.
Proof. revert st. induction a as [|o a IH]; intros st; simpl; [done|]. apply IH. Qed.
Lemma sops_ok_app st a c : sops_ok st (a ++ c) <-> sops_ok st a /\ sops_ok (srun st a) c.
Proof. revert st. induction a as [|o a IH]; intros st; simpl; [tauto|]. rewrite IH. tauto. Qed.

(** Every pending request of the specification is the last request of that staker. *)
Lemma cspec_pend t c ops : let sp := cspec_run (cspec_init t c) ops in
  (forall s x d, cs_pend sp s = Some (x, d) -> is_Some (cs_cur sp s) /\
    exists pre post, ops = pre ++ SUpdateCommission s x :: post /\ cs_now (cspec_run (cspec_init t c) pre) = d /\
      Forall (fun o => forall y, o <> SUpdateCommission s y) post).
Proof.
  cbv zeta. induction ops as [|o ops IH] using rev_ind; [done|]. intros s x d. rewrite cspec_run_app. simpl.
  set (sp := cspec_run (cspec_init t c) ops) in *.
  assert (Hkeep : forall s x d, cs_pend sp s = Some (x, d) -> (forall y, o <> SUpdateCommission s y) ->
    exists pre post, ops ++ [o] = pre ++ SUpdateCommission s x :: post /\ cs_now (cspec_run (cspec_init t c) pre) = d /\
      Forall (fun o => forall y, o <> SUpdateCommission s y) post).
  { intros s0 x0 d0 H Ho. destruct (IH _ _ _ H) as (_ & pre & post & Hp & Hd & Hf). exists pre, (post ++ [o]). split; [|split; [done|]].
    - rewrite Hp. by rewrite <- app_assoc. - apply Forall_app. split; [done|]. by constructor. }
  destruct o; simpl; try (intros H; split; [by apply (IH s x d)|by apply Hkeep]).
  - destruct delegates; [|intros H; split; [by apply (IH s x d)|by apply Hkeep]].
    destruct (cs_cur sp s0) eqn:E; [intros H; split; [by apply (IH s x d)|by apply Hkeep]|]. simpl.
    intros H. split; [|by apply Hkeep]. unfold fset. destruct (_ =? _)%N; [eauto|by apply (IH s x d)].
  - destruct (cs_cur sp s0) as [y|] eqn:E.
    + simpl. unfold fset. destruct (s =? s0)%N eqn:Es.
      * apply N.eqb_eq in Es as ->. intros [= -> <-]. split; [rewrite E; eauto|]. exists ops, []. done.
      * intros H. split; [by apply (IH s x d)|]. apply Hkeep; [done|]. intros y' [= -> _]. lia.
    + intros H. split; [by apply (IH s x d)|]. apply Hkeep; [done|]. intros y' [= -> _].
      destruct (IH _ _ _ H) as [[? ?] _]. congruence.
  - destruct (cs_pend sp s) as [[x' d']|] eqn:Ep; [|done]. destruct (d' + cs_wait sp <=? t0); [done|].
    intros [= -> ->]. split; [by apply (IH s x d)|by apply Hkeep].
Qed.
(** Only a request of the staker, old enough and not replaced, changes the commission. *)
Lemma commission_change b t c l ops o s x0 x1 : small_time t -> small_time c -> small_time l ->
  sops_ok (sinit b t c l) (ops ++ [o]) -> Forall sop_small (ops ++ [o]) ->
  commission_of (srun (sinit b t c l) ops) s = Some x0 ->
  commission_of (srun (sinit b t c l) (ops ++ [o])) s = Some x1 -> x0 <> x1 ->
  exists now pre post, o = SBegin now /\ ops = pre ++ SUpdateCommission s x1 :: post /\
    ss_time (srun (sinit b t c l) pre) + ss_ctime (srun (sinit b t c l) ops) <= now /\
    Forall (fun o => forall y, o <> SUpdateCommission s y) post.
Proof.
  intros Ht Hc Hl Hok Hsm Hx0 Hx1 Hne. destruct (CR_init b t c l Ht Hc Hl) as [HR0 HL0].
  pose proof (CR_run _ _ _ Hok Hsm (MI_init b t c l) HR0 HL0) as [HR' _].
  apply sops_ok_app in Hok as [Hok1 Hok2]. apply Forall_app in Hsm as [Hsm1 Hsm2].
  pose proof (CR_run _ _ _ Hok1 Hsm1 (MI_init b t c l) HR0 HL0) as [HR _].
  rewrite (cr_cur _ _ HR) in Hx0. rewrite (cr_cur _ _ HR') in Hx1. rewrite cspec_run_app in Hx1. simpl in Hx1.
  pose proof (cspec_pend t c ops) as HP. cbv zeta in HP. rewrite <- (cr_wait _ _ HR). set (sp := cspec_run _ ops) in *.
  destruct o; simpl in Hx1; try (destruct delegates); try congruence.
  - destruct (cs_cur sp s0) eqn:E; [congruence|]. simpl in Hx1. unfold fset in Hx1. destruct (s =? s0)%N eqn:Es; [|congruence].
    apply N.eqb_eq in Es as ->. congruence.
  - destruct (cs_cur sp s0); simpl in Hx1; congruence.
  - destruct (cs_pend sp s) as [[y d]|] eqn:Ep; [|congruence]. destruct (d + cs_wait sp <=? t0) eqn:Ed; [|congruence].
    simplify_eq. destruct (HP _ _ _ Ep) as (_ & pre & post & -> & Hd & Hf). exists t0, pre, post.
    split; [done|]. split; [done|]. split; [|done].
    apply sops_ok_app in Hok1 as [Hok3 _]. apply Forall_app in Hsm1 as [Hsm3 _].
    pose proof (CR_run _ _ _ Hok3 Hsm3 (MI_init b t c l) HR0 HL0) as [HR3 _]. rewrite <- (cr_now _ _ HR3), Hd. lia.
Qed.

(** ** C15: the leave request of the current membership of [s] in [p] *)
Definition lreq_step (st : sstate) (o : sop) (r : N -> N -> option Z) : N -> N -> option Z :=
  fun s p =>
    if member_b (sstep st o) p s then
      match o with
      | SLeave s' p' => if (s' =? s)%N && (p' =? p)%N then match r s p with None => Some (ss_time st) | x => x end else r s p
      | _ => r s p
      end
    else None.
Fixpoint lreqs (st : sstate) (ops : list sop) (r : N -> N -> option Z) : N -> N -> option Z :=
  match ops with [] => r | o :: l => lreqs (sstep st o) l (lreq_step st o r) end.
(** No staker joins a pool again while an old leave request of theirs for it is still queued. *)
Definition no_stale (st : sstate) (o : sop) : Prop :=
  match o with SJoin _ _ s p _ _ => (s, p) ∉ ss_lindex st | _ => True end.
Fixpoint no_stales (st : sstate) (ops : list sop) : Prop :=
  match ops with [] => True | o :: l => no_stale st o /\ no_stales (sstep st o) l end.

(** Effect of every operation on membership and on the leave queue. *)
Lemma begin_member st t p s : MI st -> LQ st -> CQ st -> small_time (ss_ctime st) -> small_time (ss_ltime st) -> ss_time st <= t -> small_time t ->
  (member (sstep st (SBegin t)) p s <-> member st p s /\ forall d, lqueued st s p d -> ~ d + ss_ltime st <= t) /\
  (forall d, lqueued (sstep st (SBegin t)) s p d <-> lqueued st s p d /\ ~ d + ss_ltime st <= t).
Proof.
  intros HM HL HC Hct Hlt Ht Hst. simpl. unfold stakers_begin. set (st0 := with_stime st t).
  assert (HL0 : LQ st0).
  { destruct HL as [L1 L2 L3 L4 L5]. constructor; try done. intros i e He. destruct (L1 _ _ He) as (Q1 & Q2 & Q3 & Q4).
    repeat (split; [done|]). simpl. split; [lia|done]. }
  assert (HC0 : CQ st0).
  { destruct HC as [C1 C2 C3 C4 C5]. constructor; try done.
    intros i e He. destruct (C1 _ _ He) as (Q1 & Q2 & Q3 & Q4 & Q5 & Q6). repeat (split; [done|]). simpl. split; [lia|done]. }
  assert (HM0 : MI st0) by (eapply MI_ext; [exact HM|done..]).
  destruct (process_commissions_spec st0 HC0 Hct) as (PC1 & (E & I & L & S & PC2) & PC3 & PC4). cbv zeta in *.
  set (st1 := process_commissions st0) in *.
  assert (HL1 : LQ st1) by (rewrite PC2; destruct HL0 as [L1 L2 L3 L4 L5]; constructor; done).
  assert (HM1 : MI st1).
  { eapply (MI_ext st0); [exact HM0|by rewrite PC2..|]. intros s' [x Hx]. rewrite PC4, Hx. eauto. }
  assert (Hlt1 : ss_ltime st1 = ss_ltime st /\ ss_time st1 = t) by (by rewrite PC2). destruct Hlt1 as [Hlt1 Htt].
  destruct (process_leaves_spec st1 HM1 HL1 ltac:(by rewrite Hlt1)) as (PL1 & PL2 & _ & PL4 & PL5). cbv zeta in *.
  set (st2 := process_leaves st1) in *.
  assert (Hq : forall d, lqueued st1 s p d <-> lqueued st s p d) by (intros d; rewrite PC2; done).
  assert (Hv : get_val st1 p s = get_val st p s) by (rewrite PC2; done).
  assert (Hdue : forall d, ldue st1 d = false <-> ~ d + ss_ltime st <= t).
  { intros d. unfold ldue. rewrite Hlt1, Htt. lia. }
  split.
  - unfold member. split.
    + intros [v Hv2]. apply PL5 in Hv2 as [Hv2 Hno]. rewrite Hv in Hv2. split; [eauto|]. intros d Hd. apply Hdue, Hno, Hq, Hd.
    + intros [[v Hv2] Hno]. exists v. apply PL5. rewrite Hv. split; [done|]. intros d Hd. apply Hdue, Hno, Hq, Hd.
  - intros d. rewrite PL4, Hq, Hdue. done.
Qed.
(** Operations other than blocks: who is a member afterwards, and what is queued. *)
Lemma other_member st o p s : sop_ok st o -> MI st -> (forall t, o <> SBegin t) ->
  (member (sstep st o) p s -> member st p s \/ exists pool del v a, o = SJoin pool del s p v a /\ ~ member st p s) /\
  (member st p s -> ~ member (sstep st o) p s -> o = SKick s p \/ exists pool del s' v a, o = SJoin pool del s' p v a /\ s' <> s).
Proof.
  intros Hok HM Hnb.
  assert (Hsame : (forall p s, is_Some (get_val (sstep st o) p s) <-> is_Some (get_val st p s)) ->
    (member (sstep st o) p s -> member st p s \/ exists pool del v a, o = SJoin pool del s p v a /\ ~ member st p s) /\
    (member st p s -> ~ member (sstep st o) p s -> o = SKick s p \/ exists pool del s' v a, o = SJoin pool del s' p v a /\ s' <> s)).
  { intros H. unfold member. rewrite H. tauto. }
  assert (Hsv : forall p0 s0 x x', get_val st p0 s0 = Some x -> forall p s, is_Some (get_val (set_val st p0 s0 x') p s) <-> is_Some (get_val st p s)).
  { intros p0 s0 x x' Hx p1 s1. rewrite get_set_val. destruct (decide _) as [[<- <-]|]; [|done]. rewrite Hx. split; eauto. }
  destruct o; try (exfalso; by eapply Hnb).
  - apply Hsame; simpl; intros p1 s1. unfold msg_create_staker. destruct (ss_stakers st !! s0); [done|]. by destruct delegates.
  - apply Hsame; simpl; intros p1 s1. unfold msg_update_commission. destruct (ss_stakers st !! s0); [|done]. simpl. unfold order_commission.
    destruct (ss_cindex st !! s0) as [i|]; [destruct (ss_centries st !! i)|]; done.
  - apply Hsame; simpl; intros p1 s1. unfold msg_claim_commission. destruct (ss_stakers st !! s0); [|done]. destruct (negb _); [done|]. by destruct (send _ _ _ _).
  - simpl in *. destruct (msg_join st pool del s0 p0 v amount) as [st'|] eqn:E; [|simpl; tauto]. change (default st (Some st')) with st'.
    destruct Hok as (Hs0 & Hv0 & Hd & Ha). destruct (join_inv _ _ _ _ _ _ _ _ E) as (-> & Hs & _ & Hn & _).
    destruct (join_effect _ _ _ _ _ _ _ HM Hd E) as (J1 & J2 & _).
    assert (Hnm : ~ member st p0 s0) by (unfold member; rewrite Hn; by intros [? ?]).
    destruct (decide (members st p0 < 50)) as [Hm|Hm].
    + rewrite (J1 Hm). split; [|tauto]. intros [?|[-> ->]]; [by left|]. right. eauto 10.
    + destruct J2 as (l & Hl & _ & _ & J2); [lia|]. rewrite J2. split.
      * intros [[? _]|[-> ->]]; [by left|]. right. eauto 10.
      * intros Hmem Hno. destruct (decide (p = p0 /\ s = l)) as [[-> ->]|Hne]; [|exfalso; tauto].
        right. eexists _, _, _, _, _. split; [done|]. by intros ->.
  - apply Hsame; simpl; intros p1 s1. unfold msg_leave. destruct (get_val st p0 s0) as [x|] eqn:E; [|done]. destruct (bool_decide _); [done|]. simpl.
    change (get_val (with_lq ?y _ _ _ _) p1 s1) with (get_val y p1 s1). by eapply Hsv.
  - simpl. unfold member. rewrite get_leave. destruct (decide (p0 = p /\ s0 = s)) as [[-> ->]|]; [|tauto].
    split; [by intros [? ?]|by left].
  - apply Hsame; simpl; intros p1 s1. unfold increase_commission_rewards. destruct (cempty amount); [done|]. destruct (ss_stakers st !! s0); [|done]. by destruct (send _ _ _ _).
  - apply Hsame; simpl; intros p1 s1. unfold increment_points. destruct (get_val st p0 s0) as [x|] eqn:E; [|done]. simpl. by eapply Hsv.
  - apply Hsame; simpl; intros p1 s1. unfold reset_points. destruct (get_val st p0 s0) as [x|] eqn:E; [|done]. simpl. by eapply Hsv.
  - apply Hsame; simpl; intros p1 s1. done.
  - apply Hsame; simpl; intros p1 s1. done.
Qed.
Lemma other_queue st o p s d : LQ st -> (forall t, o <> SBegin t) ->
  lqueued (sstep st o) s p d <-> lqueued st s p d \/ (o = SLeave s p /\ is_Some (msg_leave st s p) /\ d = ss_time st).
Proof.
  intros HL Hnb. assert (Hsame : ss_lentries (sstep st o) = ss_lentries st -> (forall s' p', o <> SLeave s' p') ->
    lqueued (sstep st o) s p d <-> lqueued st s p d \/ (o = SLeave s p /\ is_Some (msg_leave st s p) /\ d = ss_time st)).
  { intros H Hn. unfold lqueued. rewrite H. split; [by left|]. intros [?|[? _]]; [done|]. exfalso. by eapply Hn. }
  destruct o; try (exfalso; by eapply Hnb); try (apply Hsame; [|done]; simpl).
  - unfold msg_create_staker. destruct (ss_stakers st !! s0); [done|]. by destruct delegates.
  - unfold msg_update_commission. destruct (ss_stakers st !! s0); [|done]. simpl. unfold order_commission.
    destruct (ss_cindex st !! s0) as [i|]; [destruct (ss_centries st !! i)|]; done.
  - unfold msg_claim_commission. destruct (ss_stakers st !! s0); [|done]. destruct (negb _); [done|]. by destruct (send _ _ _ _).
  - destruct (msg_join st pool del s0 p0 v amount) as [st'|] eqn:E; [|done]. change (default st (Some st')) with st'.
    destruct (join_inv _ _ _ _ _ _ _ _ E) as (-> & Hs & Hsv & Hn & st1 & b & Ee & H1 & H2 & Eb & ->).
    destruct (ensure_frame _ _ _ _ _ Ee) as [l Hl].
    pose proof (add_frame st1 s0 p0 v) as (F1 & F2 & F3 & F4 & F5 & F6 & F7 & F8 & F9 & F10 & F11 & F12 & F13).
    pose proof (leave_frame st l p0) as (G1 & G2 & G3 & G4 & G5 & G6 & G7 & G8 & G9 & G10 & G11 & G12 & G13).
    simpl. rewrite F6. by destruct Hl as [ -> | -> ].
  - simpl. destruct (msg_leave st s0 p0) as [st'|] eqn:E.
    + change (default st (Some st')) with st'. pose proof E as E'. unfold msg_leave in E. destruct (get_val st p0 s0) as [x|] eqn:Ex; [|done].
      destruct (bool_decide _) eqn:Eb; [done|]. injection E as <-. unfold lqueued. simpl. split.
      * intros (i & e & He & Q1 & Q2 & Q3). apply lookup_insert_Some in He as [[<- <-]|[Hne He]].
        -- simpl in *. subst. right. split; [done|]. rewrite E'. eauto.
        -- left. eauto 10.
      * intros [(i & e & He & Q1 & Q2 & Q3)|(Q & _ & ->)].
        -- exists i, e. split; [|done]. rewrite lookup_insert_ne; [done|]. destruct (lq_entry _ HL _ _ He) as (Hi & _). lia.
        -- simplify_eq. eexists _, _. rewrite lookup_insert. done.
    + simpl. split; [by left|]. intros [?|(H & [? ?] & _)]; [done|]. simplify_eq.
  - by pose proof (leave_frame st s0 p0) as (G1 & G2 & G3 & G4 & G5 & G6 & _).
  - unfold increase_commission_rewards. destruct (cempty amount); [done|]. destruct (ss_stakers st !! s0); [|done]. by destruct (send _ _ _ _).
  - unfold increment_points. destruct (get_val st p0 s0) as [x|] eqn:E; done.
  - unfold reset_points. destruct (get_val st p0 s0) as [x|] eqn:E; done.
  - done.
  - done.
Qed.

(** ** The leave queue and the leave requests of current memberships *)
Lemma is_begin o : (exists t, o = SBegin t) \/ ~ exists t, o = SBegin t.
Proof. destruct o; try (right; by intros [? ?]). left. eauto. Qed.
Definition LR (st : sstate) (r : N -> N -> option Z) : Prop :=
  forall s p d, r s p = Some d <-> member st p s /\ lqueued st s p d.
Lemma lqueued_uniq st s p d d' : LQ st -> lqueued st s p d -> lqueued st s p d' -> d = d'.
Proof.
  intros HL (i & e & He & Q1 & Q2 & <-) (j & e' & He' & Q1' & Q2' & <-).
  assert (i = j) by (eapply (lq_uniq _ HL); [exact He|exact He'|congruence|congruence]). congruence.
Qed.
Lemma LR_step st o r sp : sop_ok st o -> sop_small o -> no_stale st o -> MI st -> CR st sp -> LQ st -> LR st r ->
  LR (sstep st o) (lreq_step st o r).
Proof.
  intros Hok Hsm Hns HM HR HL HLR s p d. unfold lreq_step.
  destruct (member_b (sstep st o) p s) eqn:Em.
  - apply member_b_spec in Em.
    destruct (is_begin o) as [[t ->]|Hnb].
    + destruct (begin_member st t p s HM HL (cr_cq _ _ HR) (cr_ct _ _ HR) (cr_lt _ _ HR) ltac:(simpl in Hok; lia) Hsm) as [B1 B2].
      rewrite (HLR s p d), B2. apply B1 in Em as Em'. destruct Em' as [Hm Hno]. split.
      * intros [_ Hq]. split; [done|]. split; [done|]. by apply Hno.
      * intros (_ & Hq & _). done.
    + assert (Hnb' : forall t, o <> SBegin t) by (intros t ->; apply Hnb; eauto).
      destruct (other_member st o p s Hok HM Hnb') as [O1 O2].
      rewrite (other_queue st o p s d HL Hnb').
      destruct (O1 Em) as [Hm|(pool & del & v & a & -> & Hm)].
      * destruct o; try (rewrite (HLR s p d); split; [tauto|intros [_ [?|[? _]]]; [tauto|done]]).
        destruct ((s0 =? s)%N && (p0 =? p)%N) eqn:E.
        -- apply andb_prop in E as [E1 E2]. apply N.eqb_eq in E1, E2. subst s0 p0.
           destruct (r s p) as [d0|] eqn:Er.
           ++ apply HLR in Er as [_ Hq0]. split.
              ** intros [= <-]. split; [done|]. by left.
              ** intros [_ [Hq|(_ & [st' Ha] & _)]]; [f_equal; by eapply lqueued_uniq|].
                 exfalso. unfold msg_leave in Ha. destruct (get_val st p s) as [x|]; [|done].
                 change (ss_lindex (set_val st p s ?w)) with (ss_lindex st) in Ha.
                 rewrite bool_decide_true in Ha; [done|]. destruct Hq0 as (i & e & He & <- & <- & _).
                 by destruct (lq_entry _ HL _ _ He) as (_ & ? & _).
           ++ assert (Hnq : forall d0, ~ lqueued st s p d0).
              { intros d0 Hq. assert (r s p = Some d0) by (apply HLR; done). congruence. }
              split.
              ** intros [= <-]. split; [done|]. right. split; [done|]. split; [|done]. unfold msg_leave. destruct Hm as [x Hx]. rewrite Hx.
                 change (ss_lindex (set_val st p s ?w)) with (ss_lindex st). rewrite bool_decide_false; [eauto|].
                 intros Hin. destruct (lq_index _ HL _ _ Hin) as (i & e & He & Q1 & Q2). apply (Hnq (le_date e)). exists i, e. done.
              ** intros [_ [Hq|(_ & _ & ->)]]; [exfalso; by eapply Hnq|done].
        -- rewrite (HLR s p d). split; [tauto|]. intros [_ [?|(Hx & _)]]; [tauto|]. simplify_eq.
           rewrite !N.eqb_refl in E. done.
      * simpl in Hns. rewrite (HLR s p d). split; [tauto|]. intros [_ [Hq|[? _]]]; [|done]. exfalso. apply Hns.
        destruct Hq as (i & e & He & <- & <- & _). by destruct (lq_entry _ HL _ _ He) as (_ & ? & _).
  - split; [done|]. intros [Hm _]. apply member_b_spec in Hm. congruence.
Qed.
Lemma LR_run ops st sp r : sops_ok st ops -> Forall sop_small ops -> no_stales st ops -> MI st -> CR st sp -> LQ st -> LR st r ->
  LR (srun st ops) (lreqs st ops r).
Proof.
  revert st sp r. induction ops as [|o ops IH]; intros st sp r; simpl; [done|]. intros [H1 H2] Hs [Hn1 Hn2] HM HR HL HLR.
  apply Forall_cons in Hs as [Hs1 Hs2]. destruct (CR_step st sp o H1 Hs1 HM HR HL) as [HR' HL'].
  eapply IH; try done; [by apply MI_step|]. by eapply LR_step.
Qed.

(** ** C15 *)
Lemma leave_claim b t c l ops o : small_time t -> small_time c -> small_time l ->
  sops_ok (sinit b t c l) (ops ++ [o]) -> Forall sop_small (ops ++ [o]) -> no_stales (sinit b t c l) ops ->
  let st := srun (sinit b t c l) ops in let st' := sstep st o in
  forall s p, member st p s ->
  match o with
  | SBegin now => member st' p s <-> ~ exists d, lreqs (sinit b t c l) ops (fun _ _ => None) s p = Some d /\ d + ss_ltime st <= now
  | SKick s' p' => member st' p s <-> ~ (s' = s /\ p' = p)
  | SJoin _ _ s' p' _ _ => ~ member st' p s -> s' <> s /\ p' = p
  | _ => member st' p s
  end.
Proof.
  intros Ht Hc Hl Hok Hsm Hns. cbv zeta. intros s p Hm. destruct (CR_init b t c l Ht Hc Hl) as [HR0 HL0].
  apply sops_ok_app in Hok as [Hok1 [Hok2 _]]. apply Forall_app in Hsm as [Hsm1 Hsm2]. apply Forall_cons in Hsm2 as [Hsm2 _].
  pose proof (MI_run _ _ Hok1 (MI_init b t c l)) as HM.
  destruct (CR_run _ _ _ Hok1 Hsm1 (MI_init b t c l) HR0 HL0) as [HR HL].
  assert (HLR0 : LR (sinit b t c l) (fun _ _ => None)).
  { intros s' p' d. split; [done|]. intros [_ (i & e & He & _)]. simpl in He. by rewrite lookup_empty in He. }
  pose proof (LR_run _ _ _ _ Hok1 Hsm1 Hns (MI_init b t c l) HR0 HL0 HLR0) as HLR.
  set (st := srun (sinit b t c l) ops) in *. set (r := lreqs _ ops _) in *.
  assert (Hother : (forall t, o <> SBegin t) -> ~ member (sstep st o) p s -> o = SKick s p \/ exists pool del s' v a, o = SJoin pool del s' p v a /\ s' <> s).
  { intros Hnb. by apply (other_member st o p s Hok2 HM Hnb). }
  assert (Hdec : ~ ~ member (sstep st o) p s -> member (sstep st o) p s).
  { intros H. destruct (get_val (sstep st o) p s) eqn:E; [unfold member; rewrite E; eauto|]. exfalso. apply H. unfold member. rewrite E. by intros [? ?]. }
  destruct o; try (apply Hdec; intros Hn; destruct (Hother ltac:(done) Hn) as [?|(? & ? & ? & ? & ? & ? & ?)]; done).
  - intros Hn. destruct (Hother ltac:(done) Hn) as [?|(? & ? & ? & ? & ? & ? & ?)]; [done|]. simplify_eq. done.
  - simpl. unfold member. rewrite get_leave. destruct (decide (p0 = p /\ s0 = s)) as [[-> ->]|Hne].
    + split; [by intros [? ?]|]. intros H. exfalso. by apply H.
    + split; [|done]. intros _ [-> ->]. by apply Hne.
  - destruct (begin_member st t0 p s HM HL (cr_cq _ _ HR) (cr_ct _ _ HR) (cr_lt _ _ HR) ltac:(simpl in Hok2; lia) Hsm2) as [B1 _].
    rewrite B1. split.
    + intros [_ Hno] (d & Hd & Hdue). apply HLR in Hd as [_ Hq]. by apply (Hno d).
    + intros Hno. split; [done|]. intros d Hq Hdue. apply Hno. exists d. split; [by apply HLR|done].
Qed.
(** Unconditional: the leave queue removes only stakers who asked to leave that pool at least the
    leave time before. *)
Lemma queued_requested b t c l ops s p d : small_time t -> small_time c -> small_time l ->
  sops_ok (sinit b t c l) ops -> Forall sop_small ops -> lqueued (srun (sinit b t c l) ops) s p d ->
  exists pre post, ops = pre ++ SLeave s p :: post /\ is_Some (msg_leave (srun (sinit b t c l) pre) s p) /\ ss_time (srun (sinit b t c l) pre) = d.
Proof.
  intros Ht Hc Hl. destruct (CR_init b t c l Ht Hc Hl) as [HR0 HL0].
  induction ops as [|o ops IH] using rev_ind; intros Hok Hsm.
  { intros (i & e & He & _). simpl in He. by rewrite lookup_empty in He. }
  apply sops_ok_app in Hok as [Hok1 [Hok2 _]]. apply Forall_app in Hsm as [Hsm1 Hsm2]. apply Forall_cons in Hsm2 as [Hsm2 _].
  pose proof (MI_run _ _ Hok1 (MI_init b t c l)) as HM.
  destruct (CR_run _ _ _ Hok1 Hsm1 (MI_init b t c l) HR0 HL0) as [HR HL].
  assert (Hkeep : lqueued (srun (sinit b t c l) ops) s p d ->
    exists pre post, ops ++ [o] = pre ++ SLeave s p :: post /\ is_Some (msg_leave (srun (sinit b t c l) pre) s p) /\ ss_time (srun (sinit b t c l) pre) = d).
  { intros H. destruct (IH Hok1 Hsm1 H) as (pre & post & -> & H1 & H2). exists pre, (post ++ [o]). split; [by rewrite <- app_assoc|done]. }
  rewrite srun_app. simpl. set (st := srun (sinit b t c l) ops) in *.
  destruct (is_begin o) as [[t0 ->]|Hnb].
  - destruct (begin_member st t0 p s HM HL (cr_cq _ _ HR) (cr_ct _ _ HR) (cr_lt _ _ HR) ltac:(simpl in Hok2; lia) Hsm2) as [_ B2].
    intros H. apply B2 in H as [H _]. auto.
  - intros H. apply (other_queue st o p s d HL) in H; [|intros t0 ->; apply Hnb; eauto].
    destruct H as [H|(-> & Ha & ->)]; [auto|]. exists ops, []. done.
Qed.
Lemma leave_requested b t c l ops now s p : small_time t -> small_time c -> small_time l ->
  sops_ok (sinit b t c l) (ops ++ [SBegin now]) -> Forall sop_small (ops ++ [SBegin now]) ->
  let st := srun (sinit b t c l) ops in
  member st p s -> ~ member (sstep st (SBegin now)) p s ->
  exists pre post, ops = pre ++ SLeave s p :: post /\ is_Some (msg_leave (srun (sinit b t c l) pre) s p) /\
    ss_time (srun (sinit b t c l) pre) + ss_ltime st <= now.
Proof.
  intros Ht Hc Hl Hok Hsm. cbv zeta. intros Hm Hn. destruct (CR_init b t c l Ht Hc Hl) as [HR0 HL0].
  apply sops_ok_app in Hok as [Hok1 [Hok2 _]]. apply Forall_app in Hsm as [Hsm1 Hsm2]. apply Forall_cons in Hsm2 as [Hsm2 _].
  pose proof (MI_run _ _ Hok1 (MI_init b t c l)) as HM.
  destruct (CR_run _ _ _ Hok1 Hsm1 (MI_init b t c l) HR0 HL0) as [HR HL].
  pose proof (queued_requested b t c l ops s p) as HQ.
  set (st := srun (sinit b t c l) ops) in *.
  destruct (begin_member st now p s HM HL (cr_cq _ _ HR) (cr_ct _ _ HR) (cr_lt _ _ HR) ltac:(simpl in Hok2; lia) Hsm2) as [B1 _].
  destruct (decide (map_Exists (fun _ e => le_staker e = s /\ le_pool e = p /\ le_date e + ss_ltime st <= now) (ss_lentries st))) as [(i & e & He & Q1 & Q2 & Hd)|Hno].
  - destruct (HQ (le_date e) Ht Hc Hl Hok1 Hsm1 ltac:(exists i, e; done)) as (pre & post & H1 & H2 & H3).
    exists pre, post. split; [done|]. split; [done|]. by rewrite H3.
  - exfalso. apply Hn, B1. split; [done|]. intros d (i & e & He & Q1 & Q2 & <-) Hd. apply Hno. exists i, e. done.
Qed.
