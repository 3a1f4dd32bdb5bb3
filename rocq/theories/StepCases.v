(** * What submissions, skips, votes and upload timeouts do, case by case. *)
From Verif Require Import Base BaseFacts Delegation Stakers StakersInv Funders Team RoundRobin RoundRobinClaims Pool Bundles Chain ChainFrame ArchiveInv
  BankMoves ChainLift PoolFrame PoolInv PayoutClaims PoolClaims TallyFacts VoteClaims.

(** The staker [m] takes part: points are reset. *)
Definition took (c : chain) (p m s : N) : obs :=
  if decide (s = m) then ((fun v => mkVal (vl_addr v) 0 (vl_leaving v)) <$> get_val (c_s c) p s, stake (c_d c) s) else ob c p s.
(** A member who is on none of the three lists of the current proposal. *)
Definition silent (c : chain) (p s : N) : Prop := in_pool c p s = true /\ voted (get_prop c p) s = false.
Definition one_miss (c : chain) (o : obs) : obs := miss (b_maxpoints (c_bp c)) (p_timeout (ds_params (c_d c))) o.
Definition lose (c : chain) (p s : N) (o : obs) : obs := if decide (silent c p s) then one_miss c o else o.
(** The voters of the losing side. *)
Definition when_valid (c : chain) (p s : N) (o : obs) : obs :=
  if decide (s ∈ bp_invalid (get_prop c p)) then kick (p_vote (ds_params (c_d c))) o else o.
Definition when_invalid (c : chain) (p s : N) (o : obs) : obs :=
  if decide (s ∈ bp_valid (get_prop c p))
  then kick (if decide (s = bp_uploader (get_prop c p)) then p_upload (ds_params (c_d c)) else p_vote (ds_params (c_d c))) o else o.

Section S.
Context (g : gen) (Hg : genesis g).
(** The state after: stakers as [o] says, the proposal of the pool is [b']; if [fin] then the
    old proposal was finalized. *)
Record post (c c' : chain) (p : N) (o : N -> obs) (b' : proposal) (fin : option votes) : Prop := mkPost {
  po_ob : forall s, ob c' p s = o s;
  po_others : others_same c c' p;
  po_par : par c' = par c;
  po_prop : get_prop c' p = b';
  po_props : forall q, q <> p -> get_prop c' q = get_prop c q;
  po_time : c_time c' = c_time c;
  po_fin : match fin with
           | None => c_fin c' = c_fin c /\ c_pools c' = c_pools c
           | Some v => exists pl fb, get_pool c p = Some pl /\ fb_valid fb = v_valid v /\ fb_total fb = v_total v /\
               fb_storage fb = bp_storage (get_prop c p) /\ c_fin c' = <[(p, pl_total pl) := fb]> (c_fin c) /\
               (pl_total <$> get_pool c' p) = Some (pl_total pl + 1)%N /\ forall q, q <> p -> get_pool c' q = get_pool c q
           end
}.
Lemma ob_m c c' : mpart c' = mpart c -> forall p s, ob c' p s = ob c p s.
Proof. intros H p s. apply mpart_eq in H as (E1 & E2 & _). unfold ob. by rewrite E1, E2. Qed.
Lemma others_m a c c' p : mpart c' = mpart c -> others_same a c p -> others_same a c' p.
Proof. intros H Ho q s Hq. apply mpart_eq in H as (_ & E2 & _). rewrite E2. by apply Ho. Qed.
Lemma par_eq c c' : mpart c' = mpart c -> c_bp c' = c_bp c -> par c' = par c.
Proof. intros H E. apply mpart_eq in H as (E1 & _). unfold par. by rewrite E1, E. Qed.

(** From the state [c1] left by a tally (or by none) to the end: a new proposal. *)
Lemma post_set c c1 c2 p o b' : bpart c1 = bpart c -> bpart c2 = bpart c -> mpart c2 = mpart c1 ->
  (forall s, ob c1 p s = o s) -> others_same c c1 p -> par c1 = par c ->
  post c (set_prop c2 p b') p o b' None.
Proof.
  intros B1 B2 M2 Ho Hot Hp. apply bpart_eq in B2 as (P1 & P2 & P3 & P4 & P5 & P6 & P7 & P8 & P9). split.
  - intros s. rewrite <- Ho. apply ob_m. done.
  - eapply others_m; [|exact Hot]. done.
  - rewrite <- Hp. apply par_eq; [done|]. cbn. apply bpart_eq in B1 as (_&_&_&_&_&->&_). done.
  - unfold get_prop, set_prop. cbn. by rewrite lookup_insert.
  - intros q Hq. unfold get_prop, set_prop. cbn. rewrite lookup_insert_ne by done. by rewrite P3.
  - done.
  - done.
Qed.
Lemma post_fin c c1 c2 p v o b' pl : bpart c1 = bpart c -> bpart c2 = bpart c -> mpart c2 = mpart c1 -> get_pool c p = Some pl ->
  (forall s, ob c1 p s = o s) -> others_same c c1 p -> par c1 = par c ->
  post c (set_prop (finalize c2 p v) p b') p o b' (Some v).
Proof.
  intros B1 B2 M2 Hpl Ho Hot Hp. pose proof (m_finalize c2 p v) as Mf. 
  assert (Hpl2 : get_pool c2 p = Some pl) by (rewrite (get_pool_b c c2 p) by done; done).
  assert (Hpr2 : get_prop c2 p = get_prop c p) by (by apply get_prop_b).
  pose proof (finalize_eq c2 p v pl Hpl2) as (fb0 & _ & _ & _ & _ & _ & E6 & _ & E8).
  assert (Ef : exists fb, fb_valid fb = v_valid v /\ fb_total fb = v_total v /\ fb_storage fb = bp_storage (get_prop c2 p) /\
    c_fin (finalize c2 p v) = <[(p, pl_total pl) := fb]> (c_fin c2) /\ c_bp (finalize c2 p v) = c_bp c2 /\ c_time (finalize c2 p v) = c_time c2).
  { unfold finalize. rewrite Hpl2. eexists (mkFB _ _ _ _ _ _ _ _ _ _ _ _ _ _). cbn. done. }
  destruct Ef as (fb & F1 & F2 & F3 & F4 & F5 & F6).
  set (c3 := finalize c2 p v) in *. clearbody c3.
  pose proof B2 as B2'. apply bpart_eq in B2' as (P1 & P2 & P3 & P4 & P5 & P6 & P7 & P8 & P9). split.
  - intros s. rewrite <- Ho. apply ob_m. rewrite <- M2, <- Mf. done.
  - eapply others_m; [|exact Hot]. rewrite <- M2, <- Mf. done.
  - rewrite <- Hp. apply par_eq; [rewrite <- M2, <- Mf; done|]. cbn. rewrite F5, P6. apply bpart_eq in B1 as (_&_&_&_&_&->&_). done.
  - unfold get_prop, set_prop. cbn. by rewrite lookup_insert.
  - intros q Hq. unfold get_prop, set_prop. cbn. rewrite lookup_insert_ne by done. by rewrite E6, P3.
  - cbn. congruence.
  - exists pl, fb. split; [done|]. split; [done|]. split; [done|]. split; [congruence|]. split; [cbn; by rewrite F4, P4|].
    split.
    + specialize (E8 p). rewrite decide_True in E8 by done. change (get_pool (set_prop c3 p b') p) with (get_pool c3 p). rewrite E8. done.
    + intros q Hq. specialize (E8 q). rewrite decide_False in E8 by done. change (get_pool (set_prop c3 p b') q) with (get_pool c3 q). rewrite E8. by apply get_pool_b.
Qed.

(** The state in which the votes are counted: after the silent members got their point. *)
Definition counted (c c1 : chain) (p : N) (o : N -> obs) : Prop :=
  G g c1 /\ AInv c1 /\ get_prop c1 p = get_prop c p /\ is_Some (c_prop c1 !! p) /\ (forall s, ob c1 p s = lose c p s (o s)).
Definition judged (c : chain) (p : N) (o : N -> obs) (v : votes) : Prop :=
  exists c1, counted c c1 p o /\ v = distribution c1 p.

Lemma ob_took c p m s : G g c -> ob (reset_pts c p m) p s = took c p m s.
Proof. intros HG. destruct (ob_reset g c p m s HG) as [-> _]. done. Qed.
Lemma in_pool_ob c p s : in_pool c p s = match fst (ob c p s) with Some _ => true | None => false end.
Proof. done. Qed.
Lemma in_ob c p s : get_val (c_s c) p s = fst (ob c p s). Proof. done. Qed.
Lemma in_took c p m s : G g c -> in_pool (reset_pts c p m) p s = in_pool c p s.
Proof.
  intros HG. rewrite !in_pool_ob, ob_took by done. unfold took. destruct (decide _); [|done]. cbn. by destruct (get_val _ _ _).
Qed.
Lemma absent_took c p m s : G g c -> absent (reset_pts c p m) p s = lose c p s (took c p m s).
Proof.
  intros HG. unfold absent, lose, silent. rewrite in_took by done. change (get_prop (reset_pts c p m) p) with (get_prop c p).
  change (c_bp (reset_pts c p m)) with (c_bp c). rewrite params_reset. rewrite ob_took by done. done.
Qed.
Lemma counted_took c p m : G g c -> AInv c -> is_Some (c_prop c !! p) -> counted c (handle_non_voters (reset_pts c p m) p) p (took c p m).
Proof.
  intros HG HA Hs. assert (HG0 : G g (reset_pts c p m)) by (by apply G_reset).
  destruct (ob_non_voters g Hg _ p HG0) as (HG1 & _ & _ & H1).
  assert (B1 : bpart (handle_non_voters (reset_pts c p m) p) = bpart c) by (rewrite b_non_voters; apply b_reset).
  split; [done|]. split; [by apply (agood_frame c)|]. split; [by apply get_prop_b|]. split; [by apply bpart_eq in B1 as (_&_&->&_)|].
  intros s. rewrite H1. change (if decide _ then _ else _) with (absent (reset_pts c p m) p s) at 1. by apply absent_took.
Qed.
Lemma counted_same c p : G g c -> AInv c -> is_Some (c_prop c !! p) -> counted c (handle_non_voters c p) p (ob c p).
Proof.
  intros HG HA Hs. destruct (ob_non_voters g Hg _ p HG) as (HG1 & _ & _ & H1).
  pose proof (b_non_voters c p) as B1.
  split; [done|]. split; [by apply (agood_frame c)|]. split; [by apply get_prop_b|]. split; [by apply bpart_eq in B1 as (_&_&->&_)|].
  intros s. rewrite H1. done.
Qed.

(** ** Votes *)
Lemma vote_cases c p s v st w c' : G g c -> AInv c -> cmsg c (CVote p s v st w) = Some c' ->
  exists b', post c c' p (took c p s) b' None /\ bp_next b' = bp_next (get_prop c p) /\ bp_updated b' = bp_updated (get_prop c p) /\
    bp_storage b' = bp_storage (get_prop c p) /\ bp_uploader b' = bp_uploader (get_prop c p).
Proof.
  intros HG HA E. cbn [cmsg] in E. unfold msg_vote in E. destruct (can_vote c p s v st) eqn:Ev; simpl in E; [|done].
  set (b := get_prop c p) in *.
  match type of E with match ?x with Some _ => _ | None => _ end = _ => destruct x as [b'|] eqn:Eb end; [|done]. injection E as <-.
  exists b'. split.
  - change (reset_pts (set_prop c p b') p s) with (set_prop (reset_pts c p s) p b').
    eapply (post_set c (reset_pts c p s) (reset_pts c p s)); try done.
    + intros x. by apply ob_took.
    + apply (ob_reset g c p s s HG).
  - destruct w; [injection Eb as <-; done| injection Eb as <-; done | |done]. destruct (memb _ _); [done|]. by injection Eb as <-.
Qed.

(** ** The next uploader *)
Definition avail (o : obs) : Prop := is_Some (fst o) /\ 0 < default 0 (fst (snd o)).
Definition fit (o : N -> obs) (n : N) : Prop := ((exists s, avail (o s)) -> avail (o n)) /\ ((forall s, ~ avail (o s)) -> n = 0%N).
Lemma avail_in c p s : avail (ob c p s) <-> exists w, (s, w) ∈ pool_powers c p /\ 0 < w.
Proof.
  unfold avail, pool_powers, ob. cbn [fst snd]. rewrite <- stake_power. split.
  - intros [H1 H2]. exists (power c s). split; [|done]. apply elem_of_list_fmap. exists s. split; [done|]. apply members_in.
    unfold in_pool. by destruct H1 as [v ->].
  - intros (w & H1 & H2). apply elem_of_list_fmap in H1 as (y & [= <- ->] & Hy). split; [|done].
    apply members_in in Hy. unfold in_pool in Hy. by destruct (get_val _ _ _).
Qed.
Lemma fit_choose c p ex : fit (ob c p) (fst (choose c p ex)).
Proof.
  assert (E : fst (choose c p ex) = fst (choose_next (pool_powers c p) (rr_of c p) ex)) by (unfold choose; by destruct (choose_next _ _ _)).
  rewrite E. split.
  - intros (s & Hs). apply avail_in. apply claim_selected. apply avail_in in Hs as (w & ? & ?). eauto.
  - intros Hn. refine (proj1 (claim_selected_none _ _ _ [] _)). intros a w Ha. destruct (Z_lt_le_dec 0 w); [|done].
    exfalso. apply (Hn a). apply avail_in. eauto.
Qed.
Lemma fit_choose_from c p l : fit (ob c p) (fst (choose_from c p l)).
Proof.
  assert (E : fst (choose_from c p l) = fst (choose_next_from (pool_powers c p) (rr_of c p) l)) by (unfold choose_from; by destruct (choose_next_from _ _ _)).
  rewrite E. split.
  - intros (s & Hs). apply avail_in. apply claim_selected_from. apply avail_in in Hs as (w & ? & ?). eauto.
  - intros Hn. refine (proj2 (claim_selected_none _ _ [] _ _)). intros a w Ha. destruct (Z_lt_le_dec 0 w); [|done].
    exfalso. apply (Hn a). apply avail_in. eauto.
Qed.
Lemma fit_ext o o' n : (forall s, o s = o' s) -> fit o n -> fit o' n.
Proof. intros H [H1 H2]. split; [intros (s & Hs); rewrite <- H; apply H1; exists s; by rewrite H|]. intros Hn. apply H2. intros s. rewrite H. apply Hn. Qed.

(** ** Submissions *)
Definition new_prop (c : chain) (m : submit) (n : N) (b : proposal) : Prop :=
  bp_storage b = sb_storage m /\ bp_uploader b = sb_staker m /\ bp_next b = n /\ bp_size b = sb_size m /\ bp_updated b = c_time c /\
  bp_valid b = [sb_staker m] /\ bp_invalid b = [] /\ bp_abstain b = [].
Lemma register_prop c m n : exists b, register c m n = set_prop c (sb_pool m) b /\ new_prop c m n b.
Proof. unfold register. destruct (get_pool c (sb_pool m)); (eexists; split; [reflexivity|]; done). Qed.
Lemma submit_cases c m c' : G g c -> AInv c -> cmsg c (CSubmit m) = Some c' ->
  let p := sb_pool m in let b := get_prop c p in let o := took c p (sb_staker m) in
  (bp_storage b = 0%N /\ exists n b', new_prop c m n b' /\ fit o n /\ post c c' p o b' None) \/
  (bp_storage b <> 0%N /\ exists n b' v, let o' := fun s => when_valid c p s (lose c p s (o s)) in
     new_prop c m n b' /\ judged c p o v /\ v_status v = VValid /\ fit o' n /\ post c c' p o' b' (Some v)) \/
  (bp_storage b <> 0%N /\ exists v, judged c p o v /\ v_status v = VInvalid /\
     post c c' p (fun s => when_invalid c p s (lose c p s (o s))) (bp_none (bp_next b) (c_time c)) None).
Proof.
  intros HG HA E p b o. cbn [cmsg] in E. unfold msg_submit in E. fold p b in E.
  destruct (can_propose c p (sb_staker m) (sb_creator m) (sb_from m)) eqn:Ec; simpl in E; [|done].
  destruct (submit_valid c m); simpl in E; [|done].
  assert (Hpl : is_Some (get_pool c p)). { destruct (get_pool c p) eqn:Ep; [eauto|]. unfold can_propose, can_run, pool_error in Ec. by rewrite Ep in Ec. }
  destruct Hpl as [pl Hpl].
  set (c1 := reset_pts c p (sb_staker m)) in *. assert (HG1 : G g c1) by (by apply G_reset).
  assert (B1 : bpart c1 = bpart c) by apply b_reset. assert (HA1 : AInv c1) by (by apply (agood_frame c)).
  assert (Hpar : par c1 = par c) by done.
  assert (Ho1 : others_same c c1 p) by (apply (ob_reset g c p (sb_staker m) (sb_staker m) HG)).
  assert (Hab : forall s, absent c1 p s = lose c p s (o s)) by (intros s; by apply absent_took).
  assert (Hdp : ds_params (c_d c1) = ds_params (c_d c)) by done.
  assert (Hto : forall s, ob c1 p s = o s) by (intros s; by apply ob_took).
  assert (Hcn : is_Some (c_prop c !! p) -> counted c (handle_non_voters c1 p) p o) by (by apply counted_took).
  assert (Hgp : get_prop c1 p = b) by done.
  clearbody c1.
  destruct (N.eqb_spec (bp_storage b) 0) as [E0|E0].
  - left. split; [done|]. pose proof (b_choose c1 p []) as Hb. pose proof (m_choose c1 p []) as Hm.
    pose proof (fit_choose c1 p []) as Hf.
    destruct (choose c1 p []) as [n c2]. cbn [fst snd] in *. injection E as <-. exists n.
    destruct (register_prop c2 m n) as (b' & -> & Hn). exists b'. split; [|split].
    + assert (Et : c_time c2 = c_time c) by (rewrite B1 in Hb; apply bpart_eq in Hb; tauto). unfold new_prop in *. by rewrite <- Et.
    + by eapply fit_ext.
    + fold p. eapply (post_set c c1 c2); try done; congruence.
  - right. assert (Hso : is_Some (c_prop c !! p)). { subst b. unfold get_prop in E0. destruct (c_prop c !! p) eqn:Ex; [eauto|]. done. }
    pose proof (ob_tally g Hg c1 p HG1 HA1) as Ht. rewrite Hgp in Ht. cbv zeta in Ht.
    pose proof (b_tally c1 b p) as Hbt. specialize (Hcn Hso).
    destruct (tally c1 b p) as [c2 v f x r|c2 v|c2 v|c2|]; try done.
    + left. split; [done|]. destruct Ht as (HG2 & HP2 & Ho2 & Hv & Hst & H2).
      pose proof (b_choose_from c2 p (bp_valid b)) as Hb. pose proof (m_choose_from c2 p (bp_valid b)) as Hm.
      pose proof (fit_choose_from c2 p (bp_valid b)) as Hf.
      destruct (choose_from c2 p (bp_valid b)) as [n c3]. cbn [fst snd] in *. injection E as <-.
      assert (H2' : forall s, ob c2 p s = when_valid c p s (lose c p s (o s))).
      { intros s. rewrite H2. unfold when_valid. fold b. by rewrite Hab, Hdp. }
      assert (Hb3 : bpart c3 = bpart c) by congruence.
      destruct (register_prop (finalize c3 p v) m n) as (b' & -> & Hn). exists n, b', v. cbv zeta.
      split; [|split; [by eexists|split; [done|split]]].
      * assert (Et : c_time (finalize c3 p v) = c_time c).
        { unfold finalize. destruct (get_pool c3 p); cbn; apply bpart_eq in Hb3; tauto. }
        unfold new_prop in *. by rewrite <- Et.
      * by eapply fit_ext.
      * fold p. eapply (post_fin c c2 c3); try done; try congruence. intros q s Hq. rewrite Ho2 by done. by apply Ho1.
    + right. split; [done|]. destruct Ht as (HG2 & HP2 & Ho2 & Hv & Hst & H2). injection E as <-. exists v.
      split; [by eexists|]. split; [done|]. unfold drop.
      assert (Et : c_time c2 = c_time c) by (rewrite B1 in Hbt; apply bpart_eq in Hbt; tauto). rewrite Et.
      eapply (post_set c c2 c2); try done; try congruence.
      * intros s. rewrite H2. unfold when_invalid. fold b. by rewrite Hab, Hdp.
      * intros q s Hq. rewrite Ho2 by done. by apply Ho1.
Qed.

(** ** Skipping the uploader role *)
Lemma skip_cases c p m v0 from c' : G g c -> AInv c -> is_Some (c_prop c !! p) -> cmsg c (CSkip p m v0 from) = Some c' ->
  let b := get_prop c p in let o := took c p m in let ol := fun s => lose c p s (o s) in
  (exists n v, judged c p o v /\ v_status v = VValid /\ fit (fun s => when_valid c p s (ol s)) n /\
     post c c' p (fun s => when_valid c p s (ol s)) (bp_none n (c_time c)) (Some v)) \/
  (exists n v, judged c p o v /\ v_status v = VInvalid /\ fit (fun s => when_invalid c p s (ol s)) n /\
     post c c' p (fun s => when_invalid c p s (ol s)) (bp_none n (c_time c)) None) \/
  (exists n v, judged c p o v /\ v_status v <> VValid /\ v_status v <> VInvalid /\ fit ol n /\
     post c c' p ol (with_next b n (c_time c)) None).
Proof.
  intros HG HA Hso E b o ol. cbn [cmsg] in E. unfold msg_skip in E. fold b in E.
  destruct (can_propose c p m v0 from) eqn:Ec; simpl in E; [|done].
  assert (Hpl : is_Some (get_pool c p)). { destruct (get_pool c p) eqn:Ep; [eauto|]. unfold can_propose, can_run, pool_error in Ec. by rewrite Ep in Ec. }
  destruct Hpl as [pl Hpl].
  set (c1 := reset_pts c p m) in *. assert (HG1 : G g c1) by (by apply G_reset).
  assert (B1 : bpart c1 = bpart c) by apply b_reset. assert (HA1 : AInv c1) by (by apply (agood_frame c)).
  pose proof (ob_tally g Hg c1 p HG1 HA1) as Ht. change (get_prop c1 p) with b in Ht. cbv zeta in Ht.
  pose proof (b_tally c1 b p) as Hbt. pose proof (counted_took c p m HG HA Hso) as Hcn. fold c1 o in Hcn.
  assert (Hpar : par c1 = par c) by done.
  assert (Ho1 : others_same c c1 p) by (apply (ob_reset g c p m m HG)).
  assert (Hab : forall s, absent c1 p s = ol s) by (intros s; by apply absent_took).
  assert (Hdp : ds_params (c_d c1) = ds_params (c_d c)) by done. clearbody c1.
  destruct (tally c1 b p) as [c2 v f x r|c2 v|c2 v|c2|]; try done.
  - left. destruct Ht as (HG2 & HP2 & Ho2 & Hv & Hst & H2).
    pose proof (b_choose c2 p [m]) as Hb. pose proof (m_choose c2 p [m]) as Hm. pose proof (fit_choose c2 p [m]) as Hf.
    destruct (choose c2 p [m]) as [n c3]. cbn [fst snd] in *. injection E as <-.
    assert (H2' : forall s, ob c2 p s = when_valid c p s (ol s)).
    { intros s. rewrite H2. unfold when_valid. fold b. by rewrite Hab, Hdp. }
    assert (Hb3 : bpart c3 = bpart c) by congruence.
    exists n, v. split; [by eexists|]. split; [done|]. split; [by eapply fit_ext|].
    assert (Et : c_time (finalize c3 p v) = c_time c).
    { unfold finalize. destruct (get_pool c3 p); cbn; apply bpart_eq in Hb3; tauto. }
    rewrite Et. eapply (post_fin c c2 c3); try done; try congruence. intros q s Hq. rewrite Ho2 by done. by apply Ho1.
  - right; left. destruct Ht as (HG2 & HP2 & Ho2 & Hv & Hst & H2).
    pose proof (b_choose c2 p [m]) as Hb. pose proof (m_choose c2 p [m]) as Hm. pose proof (fit_choose c2 p [m]) as Hf.
    destruct (choose c2 p [m]) as [n c3]. cbn [fst snd] in *. injection E as <-.
    assert (H2' : forall s, ob c2 p s = when_invalid c p s (ol s)).
    { intros s. rewrite H2. unfold when_invalid. fold b. by rewrite Hab, Hdp. }
    assert (Hb3 : bpart c3 = bpart c) by congruence.
    exists n, v. split; [by eexists|]. split; [done|]. split; [by eapply fit_ext|]. unfold drop.
    assert (Et : c_time c3 = c_time c) by (apply bpart_eq in Hb3; tauto).
    rewrite Et. eapply (post_set c c2 c3); try done; try congruence. intros q s Hq. rewrite Ho2 by done. by apply Ho1.
  - right; right. destruct Ht as (HG2 & HP2 & Ho2 & Hv & Hst & Hst' & H2).
    pose proof (b_choose c2 p [m]) as Hb. pose proof (m_choose c2 p [m]) as Hm. pose proof (fit_choose c2 p [m]) as Hf.
    destruct (choose c2 p [m]) as [n c3]. cbn [fst snd] in *. injection E as <-.
    assert (H2' : forall s, ob c2 p s = ol s).
    { intros s. by rewrite H2, Hab. }
    assert (Hb3 : bpart c3 = bpart c) by congruence.
    exists n, v. split; [by eexists|]. split; [done|]. split; [done|]. split; [by eapply fit_ext|].
    assert (Et : c_time c3 = c_time c) by (apply bpart_eq in Hb3; tauto).
    rewrite Et. eapply (post_set c c2 c3); try done; try congruence. intros q s Hq. rewrite Ho2 by done. by apply Ho1.
Qed.

(** ** Upload timeouts *)
Definition late (c : chain) (n s : N) (o : obs) : obs := if decide (s = n) then one_miss c o else o.
Lemma post_late c c' p o b' fin n : G g c' -> post c c' p o b' fin -> post c (timeout_point c' p n) p (fun s => late c n s (o s)) b' fin.
Proof.
  intros HG' [P1 P2 P3 P4 P5 P6 P7]. pose proof (b_timeout_point c' p n) as B.
  assert (Hm : (forall s, ob (timeout_point c' p n) p s = late c n s (ob c' p s)) /\ others_same c' (timeout_point c' p n) p /\
    ds_params (c_d (timeout_point c' p n)) = ds_params (c_d c')).
  { pose proof P3 as [= Ep1 Ep2]. unfold timeout_point, late, one_miss. rewrite <- Ep1, <- Ep2. destruct (in_pool c' p n) eqn:Ei.
    - split; [intros s; apply (ob_add_point g Hg c' p n s HG')|]. apply (ob_add_point g Hg c' p n n HG').
    - split; [|done]. intros s. destruct (decide (s = n)) as [->|]; [|done]. unfold miss. rewrite <- in_ob.
      unfold in_pool in Ei. by destruct (get_val (c_s c') p n). }
  destruct Hm as (H1 & H2 & H3). set (c2 := timeout_point c' p n) in *. clearbody c2.
  apply bpart_eq in B as (B1 & B2 & B3 & B4 & B5 & B6 & B7 & B8 & B9). split.
  - intros s. by rewrite H1, P1.
  - intros q s Hq. by rewrite H2, P2.
  - rewrite <- P3. unfold par. by rewrite B6, H3.
  - unfold get_prop in *. by rewrite B3.
  - intros q Hq. unfold get_prop. rewrite B3. by apply P5.
  - congruence.
  - unfold get_pool in *. by rewrite B1, B4.
Qed.
Lemma post_refl c p : post c c p (ob c p) (get_prop c p) None. Proof. by split. Qed.

(** The deadline for the uploader. *)
Definition overdue (c : chain) (p : N) (i : Z) : Prop :=
  u64_add (u64_add (bp_updated (get_prop c p)) i) (b_timeout (c_bp c)) <= c_time c /\ u64_add (bp_updated (get_prop c p)) i <= c_time c.
Lemma timeout_cases c p i c' : G g c -> AInv c -> timeout_pool c p i = Some c' ->
  let b := get_prop c p in let ol := fun s => lose c p s (ob c p s) in let n0 := bp_next b in
  (can_run c p = false /\ exists b', post c c' p (ob c p) b' None /\
     ((bp_storage b <> 0%N /\ b' = bp_none 0 (c_time c)) \/ b' = with_next b 0 (bp_updated b) \/ (bp_next b = 0%N /\ b' = b))) \/
  (can_run c p = true /\ c' = c /\ (c_time c < u64_add (bp_updated b) i \/
     (~ overdue c p i /\ (bp_storage b = 0%N \/ v_status (distribution c p) <> VNoQuorum)))) \/
  (can_run c p = true /\ bp_storage b <> 0%N /\ v_status (distribution c p) = VNoQuorum /\ u64_add (bp_updated b) i <= c_time c /\
     exists n, fit ol n /\ post c c' p ol (bp_none n (c_time c)) None) \/
  (can_run c p = true /\ overdue c p i /\ bp_storage b = 0%N /\
     exists n, fit (ob c p) n /\ post c c' p (fun s => late c n0 s (ob c p s)) (with_next b n (c_time c)) None) \/
  (can_run c p = true /\ overdue c p i /\ bp_storage b <> 0%N /\ v_status (distribution c p) <> VNoQuorum /\ exists n v, judged c p (ob c p) v /\
     ((v_status v = VValid /\ let o := fun s => when_valid c p s (ol s) in
         fit o n /\ post c c' p (fun s => late c n0 s (o s)) (bp_none n (c_time c)) (Some v)) \/
      (v_status v = VInvalid /\ let o := fun s => when_invalid c p s (ol s) in
         fit o n /\ post c c' p (fun s => late c n0 s (o s)) (bp_none n (c_time c)) None) \/
      (v_status v <> VValid /\ v_status v <> VInvalid /\
         fit ol n /\ post c c' p (fun s => late c n0 s (ol s)) (bp_none n (c_time c)) None))) \/
  (exists c1, tally c b p = TrError c1 /\ c' = cw_bad c1).
Proof.
  intros HG HA E b ol n0. unfold timeout_pool in E. fold b in E.
  destruct (pool_error c p) as [e|] eqn:Ee.
  { left. split; [unfold can_run; by rewrite Ee|]. injection E as <-.
    destruct (_ && _) eqn:E1.
    - exists (bp_none 0 (c_time c)). split; [by apply (post_set c c c)|]. left. split; [|done].
      apply andb_prop in E1 as [_ E1]. apply negb_true_iff, N.eqb_neq in E1. done.
    - destruct (N.eqb_spec (bp_next b) 0) as [E2|E2]; cbn [negb].
      + exists b. split; [apply post_refl|]. auto.
      + exists (with_next b 0 (bp_updated b)). split; [by apply (post_set c c c)|]. auto. }
  assert (Hcr : can_run c p = true) by (unfold can_run; by rewrite Ee).
  assert (Hpl : is_Some (get_pool c p)). { destruct (get_pool c p) eqn:Ep; [eauto|]. unfold pool_error in Ee. by rewrite Ep in Ee. }
  destruct Hpl as [pl Hpl]. right.
  destruct (Z.ltb_spec (c_time c) (u64_add (bp_updated b) i)) as [L1|L1].
  { left. injection E as <-. split; [done|]. split; [done|]. by left. }
  destruct (negb _ && _) eqn:E1.
  { right; left. apply andb_prop in E1 as [E1 E2]. apply negb_true_iff, N.eqb_neq in E1. split; [done|]. split; [done|].
    split; [by destruct (v_status _)|]. split; [done|].
    destruct (ob_non_voters g Hg c p HG) as (HG1 & HP1 & Ho1 & H1). pose proof (b_non_voters c p) as B1.
    set (c1 := handle_non_voters c p) in *. clearbody c1.
    pose proof (b_choose c1 p []) as Hb. pose proof (m_choose c1 p []) as Hm. pose proof (fit_choose c1 p []) as Hf.
    destruct (choose c1 p []) as [n c2]. cbn [fst snd] in *. injection E as <-. exists n. split.
    - eapply fit_ext; [|exact Hf]. intros s. rewrite H1. done.
    - unfold drop. assert (Et : c_time c2 = c_time c) by (rewrite B1 in Hb; apply bpart_eq in Hb; tauto). rewrite Et.
      eapply (post_set c c1 c2); try done; congruence. }
  assert (Enq : bp_storage b = 0%N \/ v_status (distribution c p) <> VNoQuorum).
  { destruct (N.eqb_spec (bp_storage b) 0); [by left|right]. cbn in E1. by destruct (v_status _). }
  destruct (Z.ltb_spec (c_time c) (u64_add (u64_add (bp_updated b) i) (b_timeout (c_bp c)))) as [L2|L2].
  { left. injection E as <-. split; [done|]. split; [done|]. right. split; [|done]. unfold overdue. fold b. lia. }
  assert (Hov : overdue c p i) by done. right; right.
  destruct (N.eqb_spec (bp_storage b) 0) as [E0|E0].
  { left. split; [done|]. split; [done|]. split; [done|].
    pose proof (b_choose c p []) as Hb. pose proof (m_choose c p []) as Hm. pose proof (fit_choose c p []) as Hf.
    destruct (choose c p []) as [n c2]. cbn [fst snd] in *. injection E as <-. exists n. split; [done|].
    assert (Et : c_time c2 = c_time c) by (apply bpart_eq in Hb; tauto). rewrite Et. apply post_late.
    - apply G_set_prop. by apply (G_bpart g c).
    - by eapply (post_set c c c2). }
  right. assert (Enq' : v_status (distribution c p) <> VNoQuorum) by (by destruct Enq). clear Enq E1.
  pose proof (ob_tally g Hg c p HG HA) as Ht. fold b in Ht. cbv zeta in Ht.
  assert (Hso : is_Some (c_prop c !! p)). { subst b. unfold get_prop in E0. destruct (c_prop c !! p) eqn:Ex; [eauto|]. done. }
  pose proof (b_tally c b p) as Hbt. pose proof (counted_same c p HG HA Hso) as Hcn.
  destruct (tally c b p) as [c2 v f x r|c2 v|c2 v|c2|]; try done.
  - left. split; [done|]. split; [done|]. split; [done|]. split; [done|]. destruct Ht as (HG2 & HP2 & Ho2 & Hv & Hst & H2).
    pose proof (b_choose_from c2 p (bp_valid b)) as Hb. pose proof (m_choose_from c2 p (bp_valid b)) as Hm. pose proof (fit_choose_from c2 p (bp_valid b)) as Hf.
    destruct (choose_from c2 p (bp_valid b)) as [n c3]. cbn [fst snd] in *. injection E as <-. exists n, v.
    split; [by eexists|]. left. split; [done|].
    assert (H2' : forall s, ob c2 p s = when_valid c p s (ol s)) by done.
    assert (Hb3 : bpart c3 = bpart c) by congruence. cbv zeta. split; [by eapply fit_ext|].
    assert (Et : c_time (finalize c3 p v) = c_time c).
    { unfold finalize. destruct (get_pool c3 p); cbn; apply bpart_eq in Hb3; tauto. }
    rewrite Et. apply post_late.
    + apply G_set_prop. apply G_finalize. by apply (G_bpart g c2).
    + eapply (post_fin c c2 c3); try done; congruence.
  - left. split; [done|]. split; [done|]. split; [done|]. split; [done|]. destruct Ht as (HG2 & HP2 & Ho2 & Hv & Hst & H2).
    pose proof (b_choose c2 p []) as Hb. pose proof (m_choose c2 p []) as Hm. pose proof (fit_choose c2 p []) as Hf.
    destruct (choose c2 p []) as [n c3]. cbn [fst snd] in *. injection E as <-. exists n, v.
    split; [by eexists|]. right; left. split; [done|].
    assert (H2' : forall s, ob c2 p s = when_invalid c p s (ol s)) by done.
    assert (Hb3 : bpart c3 = bpart c) by congruence. cbv zeta. split; [by eapply fit_ext|]. unfold drop.
    assert (Et : c_time c3 = c_time c) by (apply bpart_eq in Hb3; tauto).
    rewrite Et. apply post_late.
    + apply G_set_prop. by apply (G_bpart g c2).
    + eapply (post_set c c2 c3); try done; congruence.
  - left. split; [done|]. split; [done|]. split; [done|]. split; [done|]. destruct Ht as (HG2 & HP2 & Ho2 & Hv & Hst & Hst' & H2).
    pose proof (b_choose c2 p []) as Hb. pose proof (m_choose c2 p []) as Hm. pose proof (fit_choose c2 p []) as Hf.
    destruct (choose c2 p []) as [n c3]. cbn [fst snd] in *. injection E as <-. exists n, v.
    split; [by eexists|]. right; right. split; [done|]. split; [done|].
    assert (H2' : forall s, ob c2 p s = ol s) by done.
    assert (Hb3 : bpart c3 = bpart c) by congruence. split; [by eapply fit_ext|]. unfold drop.
    assert (Et : c_time c3 = c_time c) by (apply bpart_eq in Hb3; tauto).
    rewrite Et. apply post_late.
    + apply G_set_prop. by apply (G_bpart g c2).
    + eapply (post_set c c2 c3); try done; congruence.
  - right. injection E as <-. eauto.
Qed.
End S.
