(** * Invariants of proposals and finalized bundles. *)
From Verif Require Import Base BaseFacts Delegation Stakers Funders Team RoundRobin Pool Bundles Chain ChainFrame.

(** What the uploader put into a proposal. *)
Definition content (b : proposal) :=
  (bp_storage b, bp_uploader b, bp_data b, bp_size b, (bp_from b, bp_to b, bp_summary b, bp_hash b, bp_sp b, bp_comp b)).
Definition bare (b : proposal) : Prop :=
  bp_storage b = 0%N /\ bp_size b = 0 /\ bp_valid b = [] /\ bp_invalid b = [] /\ bp_abstain b = [].
Definition voters (b : proposal) : list N := bp_valid b ++ bp_invalid b ++ bp_abstain b.
Definition full (b : proposal) : Prop :=
  bp_storage b <> 0%N /\ 0 < bp_size b /\ 0 <= bp_data b < two64 /\ bp_uploader b ∈ bp_valid b /\ NoDup (voters b).
Definition prop_ok (b : proposal) : Prop := bare b \/ full b.

(** The archive of one pool. *)
Record arch (fin : gmap (N * N) fbundle) (idx : gmap (N * Z) N) (p : N) (index : Z) (total : N) : Prop := mkArch {
  ar_ids : forall id, is_Some (fin !! (p, id)) <-> (id < total)%N;
  ar_first : forall fb, fin !! (p, 0%N) = Some fb -> fb_from fb = 0;
  ar_next : forall id f g, fin !! (p, id) = Some f -> fin !! (p, (id + 1)%N) = Some g -> fb_from g = fb_to f;
  ar_last : forall id f, fin !! (p, id) = Some f -> (id + 1 = total)%N -> fb_to f = index;
  ar_size : forall id f, fin !! (p, id) = Some f -> 0 <= fb_from f < fb_to f /\ fb_to f <= index;
  ar_none : total = 0%N -> index = 0;
  ar_index : 0 <= index < two64;
  ar_idx : forall i id, idx !! (p, i) = Some id <-> exists f, fin !! (p, id) = Some f /\ fb_from f = i
}.
Record AInv (c : chain) : Prop := mkAInv {
  ai_pools : forall p, is_Some (get_pool c p) <-> (p < ps_count (c_pools c))%N;
  ai_arch : forall p pl, get_pool c p = Some pl -> arch (c_fin c) (c_idx c) p (pl_index pl) (pl_total pl);
  ai_none : forall p, get_pool c p = None ->
     c_prop c !! p = None /\ (forall id, c_fin c !! (p, id) = None) /\ (forall i, c_idx c !! (p, i) = None);
  ai_prop : forall p b, c_prop c !! p = Some b -> prop_ok b;
  ai_room : forall p b pl, c_prop c !! p = Some b -> get_pool c p = Some pl -> pl_index pl + bp_size b < two64
}.

(** How one state follows from another without a new proposal. *)
Record arel (c c' : chain) : Prop := mkArel {
  rl_pools : forall p, is_Some (get_pool c p) -> is_Some (get_pool c' p);
  rl_prop : forall p b', c_prop c' !! p = Some b' -> bp_storage b' <> 0%N ->
     exists b pl pl', c_prop c !! p = Some b /\ content b = content b' /\ get_pool c p = Some pl /\ get_pool c' p = Some pl'
       /\ pl_index pl' = pl_index pl /\ pl_total pl' = pl_total pl;
  rl_fin : forall p id fb, c_fin c' !! (p, id) = Some fb -> c_fin c !! (p, id) = Some fb \/
     exists b pl, c_prop c !! p = Some b /\ bp_storage b <> 0%N /\ get_pool c p = Some pl /\ id = pl_total pl
       /\ fb_from fb = pl_index pl /\ fb_to fb = pl_index pl + bp_size b
       /\ (fb_storage fb, fb_uploader fb, (fb_fromkey fb, fb_tokey fb, fb_summary fb, fb_hash fb, fb_sp fb, fb_comp fb))
          = (bp_storage b, bp_uploader b, (bp_from b, bp_to b, bp_summary b, bp_hash b, bp_sp b, bp_comp b));
  rl_keep : forall k fb, c_fin c !! k = Some fb -> c_fin c' !! k = Some fb
}.
Lemma prop_pool c p b : AInv c -> c_prop c !! p = Some b -> is_Some (get_pool c p).
Proof. intros HI Hb. destruct (get_pool c p) eqn:E; [by eexists|]. destruct (ai_none _ HI _ E). congruence. Qed.
Lemma arel_refl c : AInv c -> arel c c.
Proof.
  intros HI. split; eauto. intros p b' H _. destruct (prop_pool _ _ _ HI H) as [pl Hpl].
  exists b', pl, pl. auto 10.
Qed.
Lemma arel_trans a b c : arel a b -> arel b c -> arel a c.
Proof.
  intros [P1 R1 F1 K1] [P2 R2 F2 K2]. split.
  - auto.
  - intros p b' Hb' Hs. destruct (R2 _ _ Hb' Hs) as (b1 & pl1 & pl1' & Hb1 & E1 & G1 & G1' & I1 & T1).
    assert (Hs1 : bp_storage b1 <> 0%N) by (unfold content in E1; congruence).
    destruct (R1 _ _ Hb1 Hs1) as (b0 & pl0 & pl0' & Hb0 & E0 & G0 & G0' & I0 & T0).
    exists b0, pl0, pl1'. rewrite G1 in G0'. injection G0' as <-.
    repeat (split; [congruence|]). congruence.
  - intros p id fb Hfb. destruct (F2 _ _ _ Hfb) as [H|(b1 & pl1 & Hb1 & Hs1 & Hp1 & Hid & Hf & Ht & Hc)]; [by apply F1|].
    destruct (R1 _ _ Hb1 Hs1) as (b0 & pl0 & pl0' & Hb0 & E0 & G0 & G0' & I0 & T0). right.
    rewrite Hp1 in G0'. injection G0' as <-.
    exists b0, pl0. unfold content in E0. injection E0 as ? ? ? ? ? ? ? ? ? ?.
    repeat (split; [congruence|]). congruence.
  - eauto.
Qed.
(** A step that is fine in both respects. *)
Definition agood (c c' : chain) : Prop := AInv c' /\ arel c c'.
Lemma agood_refl c : AInv c -> agood c c.
Proof. intros. split; [done|]. by apply arel_refl. Qed.
Lemma agood_trans a b c : agood a b -> agood b c -> agood a c.
Proof. intros [] []. split; [done|]. by eapply arel_trans. Qed.

(** The pool records may change as long as the progress stays. *)
Definition pkeep (s s' : pstore) : Prop :=
  ps_count s' = ps_count s /\
  forall p, match ps_pools s !! p, ps_pools s' !! p with
            | Some a, Some b => pl_index b = pl_index a /\ pl_total b = pl_total a
            | None, None => True
            | _, _ => False
            end.
Lemma pkeep_refl s : pkeep s s.
Proof. split; [done|]. intros p. by destruct (ps_pools s !! p). Qed.
Lemma pkeep_fmap s (f : pool -> pool) :
  (forall p, pl_index (f p) = pl_index p /\ pl_total (f p) = pl_total p) -> pkeep s (mkPS (f <$> ps_pools s) (ps_count s)).
Proof. intros Hf. split; [done|]. intros p. simpl. rewrite lookup_fmap. destruct (ps_pools s !! p); simpl; auto. Qed.
Lemma pkeep_set s id p p' : ps_pools s !! id = Some p -> pl_index p' = pl_index p -> pl_total p' = pl_total p -> pkeep s (set_pool s id p').
Proof.
  intros H H1 H2. split; [done|]. intros q. simpl. destruct (decide (q = id)) as [->|Hne].
  - by rewrite H, lookup_insert.
  - rewrite lookup_insert_ne by done. by destruct (ps_pools s !! q).
Qed.
Lemma agood_keep c c' : AInv c -> pkeep (c_pools c) (c_pools c') ->
  c_prop c' = c_prop c -> c_fin c' = c_fin c -> c_idx c' = c_idx c -> agood c c'.
Proof.
  intros HI [Hc Hk] Hp Hf Hx. unfold agood.
  assert (Hget : forall p pl', get_pool c' p = Some pl' -> exists pl, get_pool c p = Some pl /\ pl_index pl' = pl_index pl /\ pl_total pl' = pl_total pl).
  { intros p pl' H. unfold get_pool in *. specialize (Hk p). rewrite H in Hk. destruct (ps_pools (c_pools c) !! p); [eauto|done]. }
  assert (Hget2 : forall p pl, get_pool c p = Some pl -> exists pl', get_pool c' p = Some pl' /\ pl_index pl' = pl_index pl /\ pl_total pl' = pl_total pl).
  { intros p pl H. unfold get_pool in *. specialize (Hk p). rewrite H in Hk. destruct (ps_pools (c_pools c') !! p); [eauto|done]. }
  split.
  - split.
    + intros p. rewrite Hc, <- (ai_pools _ HI p). split; intros [pl H].
      * destruct (Hget _ _ H) as (x & -> & _). by eexists.
      * destruct (Hget2 _ _ H) as (x & -> & _). by eexists.
    + intros p pl' H. destruct (Hget _ _ H) as (pl & H' & -> & ->). rewrite Hf, Hx. by apply (ai_arch _ HI).
    + intros p H. rewrite Hp, Hf, Hx. apply (ai_none _ HI).
      destruct (get_pool c p) as [pl|] eqn:E; [|done]. destruct (Hget2 _ _ E) as (x & E' & _). congruence.
    + rewrite Hp. apply (ai_prop _ HI).
    + rewrite Hp. intros p b pl' Hb H. destruct (Hget _ _ H) as (pl & H' & -> & _). by eapply (ai_room _ HI).
  - split.
    + intros p [pl H]. destruct (Hget2 _ _ H) as (x & -> & _). by eexists.
    + rewrite Hp. intros p b Hb _. destruct (prop_pool _ _ _ HI Hb) as [pl Hpl]. destruct (Hget2 _ _ Hpl) as (pl' & H & ? & ?).
      exists b, pl, pl'. auto 10.
    + rewrite Hf. auto.
    + by rewrite Hf.
Qed.
Lemma agood_frame c c' : AInv c -> bpart c' = bpart c -> agood c c'.
Proof.
  intros HI H. apply bpart_eq in H. destruct H as (H1 & _ & H2 & H3 & H4 & _).
  apply agood_keep; try done. rewrite H1. apply pkeep_refl.
Qed.

(** The proposal of a pool may be emptied or keep its content. *)
Lemma bp_zero_bare : bare bp_zero. Proof. done. Qed.
Lemma get_prop_ok c p : AInv c -> prop_ok (get_prop c p).
Proof.
  intros HI. unfold get_prop. destruct (c_prop c !! p) eqn:E; simpl; [by eapply (ai_prop _ HI)|]. by left.
Qed.
Lemma get_prop_room c p pl : AInv c -> get_pool c p = Some pl -> 0 <= pl_index pl /\ pl_index pl + bp_size (get_prop c p) < two64.
Proof.
  intros HI H. pose proof (ar_index _ _ _ _ _ (ai_arch _ HI _ _ H)). split; [lia|].
  unfold get_prop. destruct (c_prop c !! p) eqn:E; simpl; [by eapply (ai_room _ HI)|lia].
Qed.
Lemma full_found c p : bp_storage (get_prop c p) <> 0%N -> c_prop c !! p = Some (get_prop c p).
Proof. unfold get_prop. destruct (c_prop c !! p); simpl; [done|]. by intros []. Qed.
Lemma agood_set c p b' : AInv c -> is_Some (get_pool c p) -> prop_ok b' ->
  bare b' \/ content b' = content (get_prop c p) -> agood c (set_prop c p b').
Proof.
  intros HI [pl Hpl] Hok Hb'. split.
  - split; try apply HI.
    + intros q Hq. change (get_pool (set_prop c p b') q) with (get_pool c q) in Hq.
      simpl. rewrite lookup_insert_ne by congruence. by apply (ai_none _ HI).
    + intros q b. simpl. destruct (decide (q = p)) as [->|Hne].
      * rewrite lookup_insert. by intros [= <-].
      * rewrite lookup_insert_ne by done. apply (ai_prop _ HI).
    + intros q b pl'. simpl. destruct (decide (q = p)) as [->|Hne].
      * rewrite lookup_insert. intros [= <-] H. change (get_pool c p = Some pl') in H. rewrite Hpl in H. injection H as <-.
        destruct (get_prop_room _ _ _ HI Hpl) as [H0 H1].
        destruct Hb' as [(_ & Hs & _)|Hc].
        -- rewrite Hs. pose proof (ar_index _ _ _ _ _ (ai_arch _ HI _ _ Hpl)). lia.
        -- unfold content in Hc. injection Hc as _ _ _ -> _ _ _ _ _ _. lia.
      * rewrite lookup_insert_ne by done. apply (ai_room _ HI).
  - split.
    + done.
    + intros q b. simpl. destruct (decide (q = p)) as [->|Hne].
      * rewrite lookup_insert. intros [= <-] Hs. destruct Hb' as [(Hz & _)|Hc]; [done|].
        exists (get_prop c p), pl, pl. split; [|auto 10]. apply full_found. unfold content in Hc. congruence.
      * rewrite lookup_insert_ne by done. intros Hb _. destruct (prop_pool _ _ _ HI Hb) as [pl' H].
        exists b, pl', pl'. auto 10.
    + auto.
    + auto.
Qed.
Lemma with_next_ok b n t : prop_ok b -> prop_ok (with_next b n t).
Proof. by intros. Qed.
Lemma agood_next c p n t : AInv c -> is_Some (get_pool c p) -> agood c (set_prop c p (with_next (get_prop c p) n t)).
Proof. intros HI H. apply agood_set; try done; [apply with_next_ok, get_prop_ok, HI|by right]. Qed.
Lemma agood_empty c p n t : AInv c -> is_Some (get_pool c p) -> agood c (set_prop c p (bp_none n t)).
Proof. intros HI H. apply agood_set; try done; by left. Qed.

(** Finalizing the current proposal, which is then emptied or replaced. *)
Lemma finalize_eq c p v pl : get_pool c p = Some pl ->
  exists fb, fb_from fb = pl_index pl /\ fb_to fb = u64_add (pl_index pl) (bp_size (get_prop c p))
    /\ (fb_storage fb, fb_uploader fb, (fb_fromkey fb, fb_tokey fb, fb_summary fb, fb_hash fb, fb_sp fb, fb_comp fb))
       = (bp_storage (get_prop c p), bp_uploader (get_prop c p), (bp_from (get_prop c p), bp_to (get_prop c p), bp_summary (get_prop c p),
          bp_hash (get_prop c p), bp_sp (get_prop c p), bp_comp (get_prop c p)))
    /\ c_fin (finalize c p v) = <[(p, pl_total pl) := fb]> (c_fin c)
    /\ c_idx (finalize c p v) = <[(p, pl_index pl) := pl_total pl]> (c_idx c)
    /\ c_prop (finalize c p v) = c_prop c
    /\ ps_count (c_pools (finalize c p v)) = ps_count (c_pools c)
    /\ (forall q, get_pool (finalize c p v) q = if decide (q = p) then
          Some (with_progress pl (fb_to fb) (pl_total pl + 1) (bp_to (get_prop c p)) (bp_summary (get_prop c p))) else get_pool c q).
Proof.
  intros Hpl. unfold finalize. rewrite Hpl. eexists (mkFB _ _ _ _ _ _ _ _ _ _ _ _ _ _). cbn [fb_from fb_to c_fin c_idx cw_fin cw_pools].
  split; [reflexivity|]. split; [reflexivity|]. split; [reflexivity|].
  split; [reflexivity|]. split; [reflexivity|]. split; [reflexivity|].
  unfold increment_bundle. cbn [c_pools cw_fin cw_pools].
  unfold get_pool in Hpl. rewrite Hpl. split; [done|]. intros q. unfold get_pool. cbn [c_pools cw_fin cw_pools set_pool ps_pools].
  destruct (decide (q = p)) as [->|Hne]; [by rewrite lookup_insert|by rewrite lookup_insert_ne].
Qed.
Lemma arch_snoc fin idx p index total fb to : arch fin idx p index total ->
  fb_from fb = index -> fb_to fb = to -> index < to < two64 ->
  arch (<[(p, total) := fb]> fin) (<[(p, index) := total]> idx) p to (total + 1).
Proof.
  intros A Hf Ht Hlt. pose proof (ar_index _ _ _ _ _ A) as HI.
  assert (Hnew : fin !! (p, total) = None).
  { destruct (fin !! (p, total)) eqn:E; [|done]. exfalso. assert (total < total)%N by (apply (ar_ids _ _ _ _ _ A); eauto). lia. }
  assert (Hno : idx !! (p, index) = None).
  { destruct (idx !! (p, index)) as [id|] eqn:E; [|done]. exfalso. apply (ar_idx _ _ _ _ _ A) in E. destruct E as (f & Ef & Hi).
    pose proof (ar_size _ _ _ _ _ A _ _ Ef). lia. }
  split.
  - intros id. destruct (decide (id = total)) as [->|Hne].
    + rewrite lookup_insert. split; [lia|by eexists].
    + rewrite lookup_insert_ne by congruence. rewrite (ar_ids _ _ _ _ _ A). lia.
  - intros f. destruct (decide (total = 0%N)) as [->|Hne].
    + rewrite lookup_insert. intros [= <-]. rewrite Hf. by apply (ar_none _ _ _ _ _ A).
    + rewrite lookup_insert_ne by congruence. apply (ar_first _ _ _ _ _ A).
  - intros id f g. destruct (decide (id = total)) as [->|Hne].
    + rewrite (lookup_insert_ne _ (p, total) (p, (total + 1)%N)) by (intros [= ?]; lia). intros _ H. exfalso.
      assert (total + 1 < total)%N by (apply (ar_ids _ _ _ _ _ A); eauto). lia.
    + rewrite (lookup_insert_ne _ (p, total) (p, id)) by congruence. intros Hid.
      destruct (decide (id + 1 = total)%N) as [He|Hne'].
      * rewrite He, lookup_insert. intros [= <-]. rewrite Hf. symmetry. by apply (ar_last _ _ _ _ _ A _ _ Hid).
      * rewrite lookup_insert_ne by congruence. by apply (ar_next _ _ _ _ _ A).
  - intros id f Hid He. assert (id = total) as -> by lia. rewrite lookup_insert in Hid. congruence.
  - intros id f. destruct (decide (id = total)) as [->|Hne].
    + rewrite lookup_insert. intros [= <-]. lia.
    + rewrite lookup_insert_ne by congruence. intros H. apply (ar_size _ _ _ _ _ A) in H. lia.
  - lia.
  - lia.
  - intros i id. destruct (decide (i = index)) as [->|Hne].
    + rewrite lookup_insert. split.
      * intros [= <-]. exists fb. by rewrite lookup_insert.
      * intros (f & Hff & Hi). destruct (decide (id = total)) as [->|Hne]; [done|].
        rewrite lookup_insert_ne in Hff by congruence. pose proof (ar_size _ _ _ _ _ A _ _ Hff). lia.
    + rewrite lookup_insert_ne by congruence. rewrite (ar_idx _ _ _ _ _ A). split; intros (f & Hff & Hi); exists f; (split; [|done]).
      * rewrite lookup_insert_ne; [done|]. intros [= <-]. congruence.
      * destruct (decide (id = total)) as [->|Hne']; [rewrite lookup_insert in Hff; congruence|].
        by rewrite lookup_insert_ne in Hff by congruence.
Qed.
Lemma arch_other fin idx p index total q k i fb x : arch fin idx p index total -> q <> p ->
  arch (<[(q, k) := fb]> fin) (<[(q, i) := x]> idx) p index total.
Proof.
  intros A Hne.
  assert (E1 : forall id, <[(q, k) := fb]> fin !! (p, id) = fin !! (p, id)) by (intros; rewrite lookup_insert_ne by congruence; done).
  assert (E2 : forall j, <[(q, i) := x]> idx !! (p, j) = idx !! (p, j)) by (intros; rewrite lookup_insert_ne by congruence; done).
  split; intros *; rewrite ?E1, ?E2; apply A.
Qed.
Lemma u64_add_id a b : 0 <= a -> 0 <= b -> a + b < two64 -> u64_add a b = a + b.
Proof. intros. unfold u64_add, w64. apply Z.mod_small. unfold two64 in *. lia. Qed.
Lemma agood_final c p v n t : AInv c -> bp_storage (get_prop c p) <> 0%N ->
  agood c (set_prop (finalize c p v) p (bp_none n t)).
Proof.
  intros HI Hs. pose proof (full_found _ _ Hs) as Hb. destruct (prop_pool _ _ _ HI Hb) as [pl Hpl].
  destruct (finalize_eq c p v pl Hpl) as (fb & Hf & Ht & Hc & Efin & Eidx & Eprop & Ecnt & Eget).
  destruct (get_prop_room _ _ _ HI Hpl) as [H0 H1]. pose proof (get_prop_ok c p HI) as [(Hz & _)|(_ & Hsz & _)]; [done|].
  rewrite u64_add_id in Ht by lia.
  pose proof (ai_arch _ HI _ _ Hpl) as A.
  set (b := get_prop c p) in *. clearbody b.
  split.
  - split.
    + intros q. change (get_pool (set_prop ?x p ?y) q) with (get_pool x q). rewrite Eget. cbn [c_pools set_prop cw_prop].
      rewrite Ecnt, <- (ai_pools _ HI q). destruct (decide (q = p)) as [->|]; [|done]. split; intros _; [by eexists|by eexists].
    + intros q pl'. change (get_pool (set_prop ?x p ?y) q) with (get_pool x q). rewrite Eget. cbn [c_fin c_idx set_prop cw_prop].
      rewrite Efin, Eidx. destruct (decide (q = p)) as [->|Hne].
      * intros [= <-]. cbn [pl_index pl_total with_progress]. apply arch_snoc; try done. lia.
      * intros H. apply arch_other; [|done]. by apply (ai_arch _ HI).
    + intros q. change (get_pool (set_prop ?x p ?y) q) with (get_pool x q). rewrite Eget. cbn [c_prop c_fin c_idx set_prop cw_prop].
      rewrite Efin, Eidx, Eprop. destruct (decide (q = p)) as [->|Hne]; [done|]. intros H. destruct (ai_none _ HI _ H) as (H2 & H3 & H4).
      rewrite lookup_insert_ne by done. split; [done|]. split; intros; rewrite lookup_insert_ne by congruence; auto.
    + intros q b'. cbn [c_prop set_prop cw_prop]. rewrite Eprop. destruct (decide (q = p)) as [->|Hne].
      * rewrite lookup_insert. intros [= <-]. by left.
      * rewrite lookup_insert_ne by done. apply (ai_prop _ HI).
    + intros q b' pl'. change (get_pool (set_prop ?x p ?y) q) with (get_pool x q). rewrite Eget. cbn [c_prop set_prop cw_prop]. rewrite Eprop.
      destruct (decide (q = p)) as [->|Hne].
      * rewrite lookup_insert. intros [= <-] [= <-]. cbn [pl_index with_progress bp_size bp_none]. lia.
      * rewrite lookup_insert_ne by done. apply (ai_room _ HI).
  - split.
    + intros q. change (get_pool (set_prop ?x p ?y) q) with (get_pool x q). rewrite Eget. destruct (decide (q = p)); [by eexists|done].
    + intros q b'. change (get_pool (set_prop ?x p ?y) q) with (get_pool x q). cbn [c_prop set_prop cw_prop]. rewrite Eprop.
      destruct (decide (q = p)) as [->|Hne].
      * rewrite lookup_insert. by intros [= <-] [].
      * rewrite lookup_insert_ne by done. intros Hq _. destruct (prop_pool _ _ _ HI Hq) as [plq Hplq].
        exists b', plq, plq. rewrite Eget. rewrite decide_False by done. auto 10.
    + intros q id f. cbn [c_fin set_prop cw_prop]. rewrite Efin. destruct (decide ((q, id) = (p, pl_total pl))) as [[= -> ->]|Hne].
      * rewrite lookup_insert. intros [= <-]. right. exists b, pl. repeat (split; [done|]). done.
      * rewrite lookup_insert_ne by congruence. auto.
    + intros k f H. cbn [c_fin set_prop cw_prop]. rewrite Efin. rewrite lookup_insert_ne; [done|]. intros <-.
      assert (pl_total pl < pl_total pl)%N by (apply (ar_ids _ _ _ _ _ A); eauto). lia.
Qed.

(** A new proposal. *)
Definition from_submit (m : submit) (sp comp : N) (b : proposal) : Prop :=
  content b = (sb_storage m, sb_staker m, sb_data m, sb_size m, (sb_fromkey m, sb_tokey m, sb_summary m, sb_hash m, sp, comp)).
Lemma register_ok c m n pl : AInv c -> get_pool c (sb_pool m) = Some pl -> sb_storage m <> 0%N -> 0 < sb_size m -> 0 <= sb_data m < two64 ->
  pl_index pl + sb_size m < two64 -> AInv (register c m n) /\
  (exists b, c_prop (register c m n) = <[sb_pool m := b]> (c_prop c) /\ from_submit m (pl_sp pl) (pl_comp pl) b) /\
  c_pools (register c m n) = c_pools c /\ c_fin (register c m n) = c_fin c.
Proof.
  intros HI Hpl Hs Hz Hd Hr. unfold register. rewrite Hpl. split; [|split; [|done]].
  - split; try apply HI.
    + intros q Hq. change (get_pool c q = None) in Hq. cbn [c_prop set_prop cw_prop]. rewrite lookup_insert_ne by congruence. by apply (ai_none _ HI).
    + intros q b. cbn [c_prop set_prop cw_prop]. destruct (decide (q = sb_pool m)) as [->|Hne].
      * rewrite lookup_insert. intros [= <-]. right. split; [done|]. split; [done|]. split; [done|]. split; [by left|].
        cbn. apply NoDup_singleton.
      * rewrite lookup_insert_ne by done. apply (ai_prop _ HI).
    + intros q b pl'. cbn [c_prop set_prop cw_prop]. destruct (decide (q = sb_pool m)) as [->|Hne].
      * rewrite lookup_insert. intros [= <-] H. change (get_pool c (sb_pool m) = Some pl') in H. rewrite Hpl in H. injection H as <-. done.
      * rewrite lookup_insert_ne by done. apply (ai_room _ HI).
  - eexists. split; [reflexivity|]. done.
Qed.

(** Runnable pools exist. *)
Lemma can_run_pool c p : can_run c p = true -> is_Some (get_pool c p).
Proof. unfold can_run, pool_error. destruct (get_pool c p); [by eexists|done]. Qed.
Lemma get_pool_b c c' p : bpart c' = bpart c -> get_pool c' p = get_pool c p.
Proof. intros H. apply bpart_eq in H. unfold get_pool. by destruct H as (-> & _). Qed.
Lemma get_prop_b c c' p : bpart c' = bpart c -> get_prop c' p = get_prop c p.
Proof. intros H. apply bpart_eq in H. unfold get_prop. by destruct H as (_ & _ & -> & _). Qed.
Lemma total_power_nonneg c p : 0 <= total_power c p.
Proof.
  unfold total_power. assert (H : forall l a, 0 <= a -> 0 <= fold_left (fun a s => u64_add a (power c s)) l a).
  { induction l as [|s l IH]; intros a Ha; simpl; [done|]. apply IH. unfold u64_add, w64. apply Z.mod_pos_bound. done. }
  by apply H.
Qed.
Lemma valid_full c p : AInv c -> v_status (distribution c p) = VValid -> bp_storage (get_prop c p) <> 0%N.
Proof.
  intros HI. unfold distribution. destruct (c_prop c !! p) as [b|] eqn:E; [|done]. unfold get_prop. rewrite E. simpl.
  intros Hq. destruct (ai_prop _ HI _ _ E) as [(Hz & _ & Hv & Hi & _)|[]]; [|done].
  exfalso. rewrite Hv, Hi in Hq. simpl in Hq. unfold quorum in Hq. change (w64 (list_power c p [] * 2)) with 0 in Hq.
  pose proof (total_power_nonneg c p). destruct (Z.eqb_spec (total_power c p) 0); [done|].
  destruct (Z.ltb_spec (total_power c p) 0); [lia|]. by destruct (total_power c p <=? 0).
Qed.
Lemma tally_valid_full c b p c' v f x r : AInv c -> tally c b p = TrValid c' v f x r -> bp_storage (get_prop c p) <> 0%N.
Proof.
  intros HI. unfold tally. pose proof (b_non_voters c p) as Hn. set (c1 := handle_non_voters c p) in *.
  destruct (v_status _) eqn:Ev; try done. intros _.
  rewrite <- (get_prop_b c c1 p Hn). apply valid_full; [|done]. by apply (agood_frame c c1).
Qed.

Lemma agood_tally c b p : AInv c ->
  match tally c b p with TrValid c' _ _ _ _ | TrInvalid c' _ | TrNoQuorum c' _ | TrError c' => agood c c' | TrPanic => True end.
Proof. intros HI. pose proof (b_tally c b p). destruct (tally c b p); try done; by apply agood_frame. Qed.
Lemma agood_frame2 a c c' : agood a c -> bpart c' = bpart c -> agood a c'.
Proof. intros H Hb. eapply agood_trans; [exact H|]. apply agood_frame; [apply H|done]. Qed.
Lemma some_get a c p : agood a c -> is_Some (get_pool a p) -> is_Some (get_pool c p).
Proof. intros [_ H]. apply (rl_pools _ _ H). Qed.

(** ** x/bundles *)
Lemma remove_first_spec a l : NoDup l -> forall x, x ∈ remove_first a l <-> x ∈ l /\ x <> a.
Proof.
  induction l as [|y l IH]; intros Hnd x; simpl; [split; [by intros ?%elem_of_nil|intros [?%elem_of_nil _]; done]|].
  apply NoDup_cons in Hnd. destruct Hnd as [Hy Hnd]. destruct (N.eqb_spec y a) as [->|Hne].
  - rewrite elem_of_cons. split; [intros H; split; [by right|]; by intros ->|]. intros [[->|] ?]; done.
  - rewrite !elem_of_cons, IH by done. split; [intros [->|[]]; auto|]. intros [[->|] ?]; auto.
Qed.
Lemma remove_first_NoDup a l : NoDup l -> NoDup (remove_first a l).
Proof.
  induction l as [|y l IH]; intros Hnd; simpl; [done|]. apply NoDup_cons in Hnd. destruct Hnd as [Hy Hnd].
  destruct (N.eqb_spec y a); [done|]. apply NoDup_cons. split; [|auto]. rewrite remove_first_spec by done. by intros [].
Qed.
Lemma memb_spec a l : memb a l = true <-> a ∈ l.
Proof. unfold memb. rewrite existsb_exists. setoid_rewrite elem_of_list_In. split.
  - intros (x & Hx & E). apply N.eqb_eq in E. by subst.
  - intros H. exists a. split; [done|]. apply N.eqb_refl.
Qed.
Lemma memb_false a l : memb a l = false <-> a ∉ l.
Proof. rewrite <- memb_spec. destruct (memb a l); split; try done; by intros []. Qed.
Lemma agood_vote c p s v st w c' : AInv c -> msg_vote c p s v st w = Some c' -> agood c c'.
Proof.
  intros HI. unfold msg_vote. destruct (can_vote c p s v st) eqn:Ec; simpl; [|done].
  unfold can_vote in Ec. rewrite !andb_true_iff, !negb_true_iff in Ec. destruct Ec as [[[[[Hrun Ha] Hs] _] Hv] Hi].
  set (b := get_prop c p) in *. apply N.eqb_neq in Hs. apply memb_false in Hv, Hi.
  pose proof (get_prop_ok c p HI) as [(Hz & _)|(_ & Hsz & Hd & Hu & Hnd)]; [done|]. fold b in Hsz, Hd, Hu, Hnd.
  unfold voters in Hnd. apply NoDup_app in Hnd. destruct Hnd as (N1 & D1 & Hnd). apply NoDup_app in Hnd. destruct Hnd as (N2 & D2 & N3).
  set (a := if memb s (bp_abstain b) then remove_first s (bp_abstain b) else bp_abstain b).
  assert (Ha' : NoDup a /\ (forall x, x ∈ a -> x ∈ bp_abstain b /\ x <> s)).
  { unfold a. destruct (memb s (bp_abstain b)) eqn:Em.
    - split; [by apply remove_first_NoDup|]. intros x. by rewrite remove_first_spec.
    - split; [done|]. intros x Hx. split; [done|]. intros ->. by apply memb_false in Em. }
  destruct Ha' as [N3' Ha'].
  assert (Hgoal : forall v' i' a', NoDup (v' ++ i' ++ a') -> bp_uploader b ∈ v' ->
            agood c (reset_pts (set_prop c p (with_votes b v' i' a')) p s)).
  { intros v' i' a' Hn' Hu'. eapply agood_frame2; [|apply b_reset]. apply agood_set; try done.
    - by apply can_run_pool.
    - right. split; [done|]. split; [done|]. split; [done|]. by split.
    - by right. }
  destruct w.
  - intros [= <-]. apply Hgoal; [|apply elem_of_app; by left].
    rewrite !NoDup_app. split; [split; [done|split; [|apply NoDup_singleton]]|].
    { intros x Hx H%elem_of_list_singleton. by subst. }
    split; [|split; [done|split; [|done]]].
    + intros x [Hx| ->%elem_of_list_singleton]%elem_of_app.
      * rewrite elem_of_app. intros [H|H]; [apply (D1 x Hx), elem_of_app; by left|]. apply (D1 x Hx), elem_of_app. right. by apply Ha'.
      * rewrite elem_of_app. intros [H|H]; [done|]. by apply Ha' in H as [].
    + intros x Hx H. apply (D2 x Hx). by apply Ha'.
  - intros [= <-]. apply Hgoal; [|done].
    rewrite !NoDup_app. split; [done|]. split; [|split; [split; [done|split; [|apply NoDup_singleton]]|split; [|done]]].
    + intros x Hx. rewrite !elem_of_app, elem_of_list_singleton. intros [[H| ->]|H]; [apply (D1 x Hx), elem_of_app; by left|done|].
      apply (D1 x Hx), elem_of_app. right. by apply Ha'.
    + intros x Hx H%elem_of_list_singleton. by subst.
    + intros x [Hx| ->%elem_of_list_singleton]%elem_of_app H.
      * apply (D2 x Hx). by apply Ha'.
      * by apply Ha' in H as [].
  - destruct (memb s (bp_abstain b)) eqn:Em; [done|]. intros [= <-]. apply Hgoal; [|done].
    apply memb_false in Em. unfold a.
    rewrite !NoDup_app. split; [done|]. split; [|split; [done|split; [|split; [done|split; [|apply NoDup_singleton]]]]].
    + intros x Hx. rewrite !elem_of_app, elem_of_list_singleton. intros [H|[H| ->]]; [|..|done].
      * apply (D1 x Hx), elem_of_app. by left.
      * apply (D1 x Hx), elem_of_app. by right.
    + intros x Hx. rewrite elem_of_app, elem_of_list_singleton. intros [H| ->]; [by apply (D2 x Hx)|done].
    + intros x Hx H%elem_of_list_singleton. by subst.
  - done.
Qed.
Lemma agood_skip c p s v from c' : AInv c -> msg_skip c p s v from = Some c' -> agood c c'.
Proof.
  intros HI. unfold msg_skip. destruct (can_propose c p s v from) eqn:Ec; simpl; [|done].
  assert (Hpool : is_Some (get_pool c p)).
  { unfold can_propose in Ec. destruct (get_pool c p); [by eexists|done]. }
  set (c0 := reset_pts c p s). assert (G0 : agood c c0) by (by apply agood_frame).
  assert (Eb : get_prop c p = get_prop c0 p) by done. set (b := get_prop c p) in *.
  pose proof (agood_tally c0 b p (proj1 G0)) as Ht. pose proof (b_tally c0 b p) as Hb.
  destruct (tally c0 b p) as [c1 vv f x r|c1 vv|c1 vv|c1|] eqn:Et; try done.
  - pose proof (b_choose c1 p [s]) as Hch. destruct (choose c1 p [s]) as [n c2]. simpl in Hch. intros [= <-].
    assert (G2 : agood c c2) by (eapply agood_frame2; [eapply agood_trans; [exact G0|exact Ht]|exact Hch]).
    eapply agood_trans; [exact G2|]. apply agood_final; [apply G2|].
    rewrite (get_prop_b c0 c2 p) by congruence. eapply tally_valid_full; [apply G0|exact Et].
  - pose proof (b_choose c1 p [s]) as Hch. destruct (choose c1 p [s]) as [n c2]. simpl in Hch. intros [= <-].
    assert (G2 : agood c c2) by (eapply agood_frame2; [eapply agood_trans; [exact G0|exact Ht]|exact Hch]).
    eapply agood_trans; [exact G2|]. apply agood_empty; [apply G2|]. by eapply some_get.
  - pose proof (b_choose c1 p [s]) as Hch. destruct (choose c1 p [s]) as [n c2]. simpl in Hch. intros [= <-].
    assert (G2 : agood c c2) by (eapply agood_frame2; [eapply agood_trans; [exact G0|exact Ht]|exact Hch]).
    eapply agood_trans; [exact G2|]. rewrite Eb. rewrite <- (get_prop_b c0 c2 p) by congruence.
    apply agood_next; [apply G2|]. by eapply some_get.
Qed.
Lemma agood_claim_role c p s v c' : AInv c -> msg_claim_role c p s v = Some c' -> agood c c'.
Proof.
  intros HI. unfold msg_claim_role. destruct (can_run c p) eqn:E; simpl; [|done]. destruct (authorized _ _ _ _); simpl; [|done].
  destruct (_ =? _)%N; simpl; [|done]. intros [= <-]. apply agood_next; [done|]. by apply can_run_pool.
Qed.
Lemma agood_timeout c p i c' : AInv c -> is_Some (get_pool c p) -> timeout_pool c p i = Some c' -> agood c c'.
Proof.
  intros HI Hpool. unfold timeout_pool. set (b := get_prop c p). destruct (pool_error c p) as [e|] eqn:Ee.
  - intros [= <-]. destruct (_ && _); [by apply agood_empty|]. destruct (negb (bp_next b =? 0)%N); [by apply agood_next|by apply agood_refl].
  - destruct (c_time c <? _); [intros [= <-]; by apply agood_refl|].
    destruct (negb (bp_storage b =? 0)%N && _) eqn:E1.
    + pose proof (b_non_voters c p) as Hn. set (c1 := handle_non_voters c p) in *.
      pose proof (b_choose c1 p []) as Hch. destruct (choose c1 p []) as [n c2]. simpl in Hch. intros [= <-].
      assert (G2 : agood c c2) by (apply agood_frame; [done|congruence]).
      eapply agood_trans; [exact G2|]. apply agood_empty; [apply G2|]. by eapply some_get.
    + destruct (c_time c <? _); [intros [= <-]; by apply agood_refl|].
      destruct (bp_storage b =? 0)%N eqn:Es.
      * pose proof (b_choose c p []) as Hch. destruct (choose c p []) as [n c2]. simpl in Hch. intros [= <-].
        assert (G2 : agood c c2) by (by apply agood_frame).
        eapply agood_frame2; [|apply b_timeout_point]. eapply agood_trans; [exact G2|].
        unfold b. rewrite <- (get_prop_b c c2 p) by done. apply agood_next; [apply G2|]. by eapply some_get.
      * apply N.eqb_neq in Es.
        pose proof (agood_tally c b p HI) as Ht. pose proof (b_tally c b p) as Hb.
        destruct (tally c b p) as [c1 vv f x r|c1 vv|c1 vv|c1|] eqn:Et; try done.
        -- pose proof (b_choose_from c1 p (bp_valid b)) as Hch. destruct (choose_from c1 p (bp_valid b)) as [n c2]. simpl in Hch. intros [= <-].
           assert (G2 : agood c c2) by (by eapply agood_frame2).
           eapply agood_frame2; [|apply b_timeout_point]. eapply agood_trans; [exact G2|]. apply agood_final; [apply G2|].
           rewrite (get_prop_b c c2 p) by congruence. done.
        -- pose proof (b_choose c1 p []) as Hch. destruct (choose c1 p []) as [n c2]. simpl in Hch. intros [= <-].
           assert (G2 : agood c c2) by (by eapply agood_frame2).
           eapply agood_frame2; [|apply b_timeout_point]. eapply agood_trans; [exact G2|].
           apply agood_empty; [apply G2|]. by eapply some_get.
        -- pose proof (b_choose c1 p []) as Hch. destruct (choose c1 p []) as [n c2]. simpl in Hch. intros [= <-].
           assert (G2 : agood c c2) by (by eapply agood_frame2).
           eapply agood_frame2; [|apply b_timeout_point]. eapply agood_trans; [exact G2|].
           apply agood_empty; [apply G2|]. by eapply some_get.
        -- intros [= <-]. by eapply agood_frame2.
Qed.
Lemma agood_timeouts l c c' : AInv c -> (forall p i, (p, i) ∈ l -> is_Some (get_pool c p)) -> timeouts c l = Some c' -> agood c c'.
Proof.
  revert c. induction l as [|[p i] l IH]; intros c HI Hl; simpl; [intros [= <-]; by apply agood_refl|].
  destruct (timeout_pool c p i) as [c1|] eqn:E; [|done]. intros H.
  assert (G1 : agood c c1) by (eapply agood_timeout; [done| |done]; eapply Hl; by left).
  eapply agood_trans; [exact G1|]. apply IH; [apply G1| |done]. intros q j Hq. eapply some_get; [exact G1|]. eapply Hl. by right.
Qed.
Lemma pool_intervals_in c p i : (p, i) ∈ pool_intervals c <-> exists pl, get_pool c p = Some pl /\ i = pl_interval pl.
Proof.
  unfold pool_intervals. rewrite elem_of_list_omap. split.
  - intros (q & _ & H). destruct (get_pool c q) as [pl|] eqn:E; [|done]. simpl in H. injection H as <- <-. eauto.
  - intros (pl & H & ->). exists p. rewrite H. split; [|done]. unfold pool_ids. rewrite merge_sort_Permutation.
    change (p ∈ (map_to_list (ps_pools (c_pools c))).*1). apply elem_of_list_fmap. exists (p, pl). split; [done|]. by apply elem_of_map_to_list.
Qed.
Lemma agood_handle_timeout c : AInv c -> agood c (handle_upload_timeout c).
Proof.
  intros HI. unfold handle_upload_timeout. destruct (timeouts _ _) eqn:E; [|by apply agood_frame].
  eapply agood_timeouts; [done| |exact E]. intros p i H. apply pool_intervals_in in H. destruct H as (pl & -> & _). by eexists.
Qed.

(** Submitting. *)
Definition new_prop (c c' : chain) (m : submit) : Prop :=
  exists mid b pl plc, agood c mid
    /\ c_prop c' = <[sb_pool m := b]> (c_prop mid) /\ c_pools c' = c_pools mid /\ c_fin c' = c_fin mid /\ c_idx c' = c_idx mid
    /\ get_pool mid (sb_pool m) = Some pl /\ pl_index pl = sb_from m
    /\ get_pool c (sb_pool m) = Some plc /\ from_submit m (pl_sp plc) (pl_comp plc) b
    /\ 0 < sb_size m <= pl_maxsize plc
    /\ (bp_valid b = [sb_staker m] /\ bp_invalid b = [] /\ bp_abstain b = [] /\ bp_updated b = c_time c).
Lemma submit_step c m c' : AInv c -> cop_ok c (CSubmit m) -> msg_submit c m = Some c' ->
  AInv c' /\ (agood c c' \/ new_prop c c' m).
Proof.
  intros HI (Hd & Hfr & Hsz & Hroom). unfold msg_submit. destruct (can_propose _ _ _ _ _) eqn:Ec; simpl; [|done].
  destruct (submit_valid c m) eqn:Ev; simpl; [|done].
  unfold submit_valid in Ev. destruct (get_pool c (sb_pool m)) as [plc|] eqn:Hplc; [|done].
  rewrite !andb_true_iff, !negb_true_iff in Ev. destruct Ev as [[[[[Hs Hfrom] Hnz] Hmax] _] _].
  apply N.eqb_neq in Hs. apply Z.eqb_eq in Hfrom. apply Z.eqb_neq in Hnz. apply Z.leb_le in Hmax.
  destruct (get_prop_room _ _ _ HI Hplc) as [H0 H1].
  set (p := sb_pool m) in *.
  set (c0 := reset_pts c p (sb_staker m)). assert (G0 : agood c c0) by (by apply agood_frame).
  assert (Eb : get_prop c p = get_prop c0 p) by done. set (b := get_prop c p) in *.
  assert (Hb0 : bp_size b >= 0) by (destruct (get_prop_ok c p HI) as [(_ & Hz & _)|(_ & Hz & _)]; fold b in Hz; lia).
  rewrite u64_add_id in Hfrom by lia. unfold u64 in *.
  destruct (bp_storage b =? 0)%N eqn:Es.
  - apply N.eqb_eq in Es.
    assert (Hbz : bp_size b = 0) by (destruct (get_prop_ok c p HI) as [(_ & Hz & _)|(Hz & _)]; [exact Hz|done]).
    pose proof (b_choose c0 p []) as Hch. destruct (choose c0 p []) as [n c2]. simpl in Hch. intros [= <-].
    assert (G2 : agood c c2) by (by eapply agood_frame2). assert (Hp2 : get_pool c2 p = Some plc) by (by rewrite (get_pool_b c c2) by (by rewrite Hch)).
    destruct (register_ok c2 m n plc (proj1 G2) Hp2) as (HA & (b' & Hb' & Hfs) & Hps & Hfn); try done; try lia.
    split; [done|]. right. exists c2, b', plc, plc. split; [done|]. split; [done|]. split; [done|]. split; [done|].
    assert (Hreg : c_idx (register c2 m n) = c_idx c2 /\ bp_valid b' = [sb_staker m] /\ bp_invalid b' = [] /\ bp_abstain b' = [] /\ bp_updated b' = c_time c2).
    { unfold register in *. fold p in Hb', Hp2 |- *. rewrite Hp2 in *. split; [done|]. cbn [c_prop set_prop cw_prop] in Hb'.
      assert (Hx := f_equal (fun x => x !! p) Hb'). simpl in Hx. rewrite !lookup_insert in Hx. by injection Hx as <-. }
    destruct Hreg as (Hri & Hr1 & Hr2 & Hr3 & Hr4).
    assert (Ht2 : c_time c2 = c_time c) by (apply bpart_eq in Hch; by destruct Hch as (_ & _ & _ & _ & _ & _ & _ & -> & _)).
    split; [done|]. split; [done|]. split; [lia|]. split; [done|]. split; [done|]. split; [lia|].
    rewrite <- Ht2. auto.
  - apply N.eqb_neq in Es.
    pose proof (agood_tally c0 b p (proj1 G0)) as Ht. pose proof (b_tally c0 b p) as Hb.
    destruct (tally c0 b p) as [c1 vv f x r|c1 vv|c1 vv|c1|] eqn:Et; try done.
    + pose proof (b_choose_from c1 p (bp_valid b)) as Hch. destruct (choose_from c1 p (bp_valid b)) as [n c2]. simpl in Hch. intros [= <-].
      assert (Hb2 : bpart c2 = bpart c) by (rewrite Hch, Hb; done).
      assert (G2 : agood c c2) by (by apply agood_frame).
      assert (Hp2 : get_pool c2 p = Some plc) by (by rewrite (get_pool_b c c2)).
      assert (Eb2 : get_prop c2 p = b) by (by rewrite (get_prop_b c c2)).
      set (mid := set_prop (finalize c2 p vv) p (bp_none 0 0)).
      assert (G3 : agood c mid) by (eapply agood_trans; [exact G2|]; apply agood_final; [apply G2|by rewrite Eb2]).
      assert (Er : register (finalize c2 p vv) m n = register mid m n).
      { unfold register. fold p. change (get_pool mid p) with (get_pool (finalize c2 p vv) p).
        destruct (get_pool (finalize c2 p vv) p); unfold mid, set_prop, cw_prop; cbn [c_d c_s c_f c_t c_pools c_pp c_prop c_fin c_idx c_rr c_bp c_burn c_bank c_time c_height c_halt c_bad];
        by rewrite insert_insert. }
      destruct (finalize_eq c2 p vv plc Hp2) as (fb & Hf & Hto & _ & _ & _ & _ & _ & Eget). rewrite Eb2 in Hto.
      rewrite u64_add_id in Hto by lia.
      assert (Hpm : get_pool mid p = Some (with_progress plc (fb_to fb) (pl_total plc + 1) (bp_to b) (bp_summary b))).
      { change (get_pool mid p) with (get_pool (finalize c2 p vv) p). rewrite Eget, decide_True, Eb2 by done. done. }
      rewrite Er. destruct (register_ok mid m n _ (proj1 G3) Hpm) as (HA & (b' & Hb' & Hfs) & Hps & Hfn); try done; try (cbn [pl_index with_progress]; lia).
      split; [done|]. right. eexists mid, b', _, plc. split; [done|]. split; [done|]. split; [done|]. split; [done|].
      assert (Hreg : c_idx (register mid m n) = c_idx mid /\ bp_valid b' = [sb_staker m] /\ bp_invalid b' = [] /\ bp_abstain b' = [] /\ bp_updated b' = c_time mid).
      { unfold register in *. fold p in Hb', Hpm |- *. rewrite Hpm in *. split; [done|]. cbn [c_prop set_prop cw_prop] in Hb'.
        assert (Hx := f_equal (fun x => x !! p) Hb'). simpl in Hx. rewrite !lookup_insert in Hx. by injection Hx as <-. }
      destruct Hreg as (Hri & Hr1 & Hr2 & Hr3 & Hr4).
      assert (Ht2 : c_time mid = c_time c).
      { transitivity (c_time c2); [unfold mid, finalize; rewrite Hp2; done|]. apply bpart_eq in Hb2. by destruct Hb2 as (_ & _ & _ & _ & _ & _ & _ & -> & _). }
      split; [done|]. split; [exact Hpm|]. cbn [pl_index with_progress]. split; [lia|]. split; [done|]. split; [done|]. split; [lia|].
      rewrite <- Ht2. auto.
    + intros [= <-]. assert (G1 : agood c c1) by (by eapply agood_trans).
      assert (G2 : agood c (drop c1 p (bp_next b))).
      { eapply agood_trans; [exact G1|]. apply agood_empty; [apply G1|]. eapply some_get; [exact G1|]. rewrite Hplc. by eexists. }
      split; [apply G2|by left].
Qed.

(** ** x/pool *)
Lemma agood_create c sender json a c' : AInv c -> chain_create_pool c sender json a = Some c' -> agood c c'.
Proof.
  intros HI. unfold chain_create_pool. destruct (msg_create_pool _ _ _ _ _) as [ps|] eqn:E; [|done]. intros [= <-].
  unfold msg_create_pool in E. destruct (create_basic a); simpl in E; [|done]. destruct (sender =? AUTHORITY)%N; simpl in E; [|done].
  destruct json; simpl in E; [|done]. injection E as <-.
  set (n := ps_count (c_pools c)). set (c' := cw_f _ _).
  assert (Hn : get_pool c n = None).
  { destruct (get_pool c n) eqn:E; [|done]. exfalso. assert (n < n)%N by (apply (ai_pools _ HI); rewrite E; by eexists). lia. }
  assert (Hget : forall p, get_pool c' p = if decide (p = n) then Some (new_pool a (c_time c)) else get_pool c p).
  { intros p. unfold get_pool, c'. simpl. destruct (decide (p = n)) as [->|Hne]; [by rewrite lookup_insert|by rewrite lookup_insert_ne]. }
  split.
  - split.
    + intros p. rewrite Hget. unfold c'. simpl. fold n. destruct (decide (p = n)) as [->|Hne]; [split; [lia|by eexists]|].
      rewrite (ai_pools _ HI p). fold n. lia.
    + intros p pl. rewrite Hget. destruct (decide (p = n)) as [->|Hne]; [|apply (ai_arch _ HI)]. intros [= <-].
      destruct (ai_none _ HI _ Hn) as (_ & Hf & Hx).
      unfold c'. cbn [c_fin c_idx cw_f cw_pools pl_index pl_total new_pool]. split; intros *; rewrite ?Hf, ?Hx; try done.
      * split; [by intros []|lia].
      * split; [done|]. by intros (f & Hff & _).
    + intros p. rewrite Hget. destruct (decide (p = n)); [done|]. apply (ai_none _ HI).
    + apply (ai_prop _ HI).
    + intros p b pl Hb. rewrite Hget. destruct (decide (p = n)) as [->|Hne]; [|by apply (ai_room _ HI)].
      destruct (ai_none _ HI _ Hn) as (Hp & _). change (c_prop c !! n = Some b) in Hb. congruence.
  - split.
    + intros p. rewrite Hget. destruct (decide (p = n)); [by eexists|done].
    + intros p b Hb _. change (c_prop c !! p = Some b) in Hb. destruct (prop_pool _ _ _ HI Hb) as [pl Hpl]. exists b, pl, pl.
      rewrite Hget. rewrite decide_False by congruence. auto 10.
    + auto.
    + auto.
Qed.
Lemma b_leave_all c l p : bpart (fold_left (fun c s => s_out c (leave_pool (s_in c) s p)) l c) = bpart c.
Proof. apply b_fold. done. Qed.
Lemma keep_update s sender id a s' : msg_update_pool s sender id a = Some s' -> pkeep s s'.
Proof.
  unfold msg_update_pool. destruct (update_basic a); simpl; [|done]. destruct (_ =? _)%N; simpl; [|done].
  destruct (ps_pools s !! id) eqn:E; [|done]. intros [= <-]. by eapply pkeep_set.
Qed.
Lemma keep_enable s sender id s' : msg_enable_pool s sender id = Some s' -> pkeep s s'.
Proof.
  unfold msg_enable_pool. destruct (_ =? _)%N; simpl; [|done].
  destruct (ps_pools s !! id) as [p|] eqn:E; [|done]. destruct (pl_disabled p); [|done]. intros [= <-]. by eapply pkeep_set.
Qed.
Lemma keep_disable s sender id s' : disable_record s sender id = Some s' -> pkeep s s'.
Proof.
  unfold disable_record. destruct (_ =? _)%N; simpl; [|done].
  destruct (ps_pools s !! id) as [p|] eqn:E; [|done]. destruct (pl_disabled p); [done|]. intros [= <-]. by eapply pkeep_set.
Qed.
Lemma keep_schedule s now sender r v b t d s' : msg_schedule s now sender r v b t d = Some s' -> pkeep s s'.
Proof.
  unfold msg_schedule. destruct (_ =? AUTHORITY)%N; simpl; [|done]. destruct (_ || _); [done|]. intros [= <-]. apply pkeep_fmap.
  intros p. unfold schedule_one. destruct (negb _); [done|]. by destruct (negb _).
Qed.
Lemma keep_cancel s sender r s' : msg_cancel s sender r = Some s' -> pkeep s s'.
Proof.
  unfold msg_cancel. destruct (_ =? AUTHORITY)%N; simpl; [|done]. intros [= <-]. apply pkeep_fmap.
  intros p. unfold cancel_one. destruct (negb _); [done|]. by destruct (_ =? 0).
Qed.
Lemma keep_upgrades s now : pkeep s (handle_upgrades s now).
Proof.
  apply pkeep_fmap. intros p. unfold upgrade_one. destruct (_ && _); [|done]. destruct (_ || _); by destruct (_ <=? now).
Qed.
Lemma agood_disable c sender p c' : AInv c -> chain_disable_pool c sender p = Some c' -> agood c c'.
Proof.
  intros HI. unfold chain_disable_pool. destruct (disable_record _ _ _) as [ps|] eqn:E; [|done].
  apply keep_disable in E. pose proof (b_leave_all (cw_pools c ps) (members (cw_pools c ps) p) p) as Hb.
  set (c2 := fold_left _ _ _) in *.
  assert (G : agood c c2).
  { eapply agood_frame2; [|exact Hb]. by apply agood_keep. }
  destruct (two64 <=? _); [done|]. destruct (0 <? _); [|by intros [= <-]]. destruct (i64 _ <? 0); [done|].
  destruct (send _ _ _ _); [|done]. intros [= <-]. by eapply agood_frame2.
Qed.

(** ** All steps *)
Lemma agood_begin c t pr : AInv c -> agood c (begin_block c t pr).
Proof.
  intros HI. unfold begin_block. set (c0 := cw_time _ _ _). set (c1 := t_out c0 _).
  assert (G1 : agood c c1) by (apply agood_keep; try done; apply pkeep_refl).
  set (c2 := match split_inflation c1 pr with Some x => x | None => cw_halt c1 end).
  assert (Hb : bpart c2 = bpart c1).
  { unfold c2. destruct (split_inflation c1 pr) eqn:E; [by apply b_split in E|done]. }
  by eapply agood_frame2.
Qed.
Lemma agood_end c : AInv c -> agood c (end_block c).
Proof.
  intros HI. unfold end_block. set (c1 := cw_pools _ _).
  assert (G1 : agood c c1) by (apply agood_keep; try done; apply keep_upgrades).
  eapply agood_frame2; [|apply b_burn_fees]. eapply agood_trans; [exact G1|]. apply agood_handle_timeout, G1.
Qed.
Lemma chain_step c o : AInv c -> cop_ok c o -> AInv (cstep c o) /\
  (agood c (cstep c o) \/ exists m, o = CSubmit m /\ msg_submit c m = Some (cstep c o) /\ new_prop c (cstep c o) m).
Proof.
  intros HI Hok. unfold cstep.
  assert (Hg : agood c (default c (cmsg c o)) -> AInv (default c (cmsg c o)) /\
     (agood c (default c (cmsg c o)) \/ exists m, o = CSubmit m /\ msg_submit c m = Some (default c (cmsg c o)) /\ new_prop c (default c (cmsg c o)) m)).
  { intros G. split; [apply G|by left]. }
  destruct (cmsg c o) as [c'|] eqn:E; simpl in *; [|apply Hg, agood_refl, HI].
  destruct o; simpl in E;
    try (apply Hg; apply agood_frame; [done|]; match type of E with ?f <$> ?x = _ => destruct x; [injection E as <-; done|done] end);
    try (apply Hg; apply agood_keep; try done;
         match type of E with (if ?x then _ else _) = _ => destruct x; [injection E as <-; try done; apply pkeep_refl|done] end);
    try (apply Hg; match type of E with ?f <$> ?x = _ => destruct x eqn:E'; [injection E as <-|done] end;
         apply agood_keep; try done; first [eapply keep_update; eassumption|eapply keep_enable; eassumption|eapply keep_schedule; eassumption|eapply keep_cancel; eassumption]).
  - apply Hg. unfold chain_create_staker in E. destruct (msg_delegate _ _ _ _ _); [|done]. destruct (msg_create_staker _ _ _ _); [|done].
    injection E as <-. by apply agood_frame.
  - destruct (submit_step _ _ _ HI Hok E) as [HA [G|HN]]; [by apply Hg|]. split; [done|]. right. eauto.
  - apply Hg. by eapply agood_vote.
  - apply Hg. by eapply agood_skip.
  - apply Hg. by eapply agood_claim_role.
  - apply Hg. by eapply agood_create.
  - apply Hg. by eapply agood_disable.
  - apply Hg. injection E as <-. by apply agood_begin.
  - apply Hg. injection E as <-. by apply agood_end.
  - apply Hg. injection E as <-. by apply agood_frame.
Qed.
Lemma AInv_init b t dp ct lt fp pp bp br : AInv (cinit b t dp ct lt fp pp bp br).
Proof. split; try done. intros p. unfold get_pool. simpl. rewrite lookup_empty. split; [by intros []|lia]. Qed.

(** ** Reachable states *)
Definition start (c0 : chain) : Prop :=
  exists b t dp ct lt fp pp bp br, c0 = cinit b t dp ct lt fp pp bp br.
Lemma AInv_run c ops : AInv c -> cops_ok c ops -> AInv (crun c ops).
Proof. intros HI Hok. eapply (crun_inv AInv); eauto. intros. by apply chain_step. Qed.
