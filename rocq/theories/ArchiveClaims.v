(** * C20 and C21: the archive of finalized bundles. *)
From Verif Require Import Base BaseFacts Delegation Stakers Funders Team RoundRobin Pool Bundles Chain ChainFrame ArchiveInv.

(** ** Where bundles come from *)
(** The message [m] was accepted somewhere in the history [ops], for a pool with storage and
    compression ids [sp] and [comp], and its size was allowed. *)
Definition accepted (c0 : chain) (ops : list cop) (p : N) (m : submit) (sp comp : N) : Prop :=
  exists pre post c' pl, ops = pre ++ CSubmit m :: post /\ cmsg (crun c0 pre) (CSubmit m) = Some c'
    /\ sb_pool m = p /\ get_pool (crun c0 pre) p = Some pl /\ 0 < sb_size m <= pl_maxsize pl
    /\ pl_sp pl = sp /\ pl_comp pl = comp.
Lemma accepted_snoc c0 ops p m sp comp o : accepted c0 ops p m sp comp -> accepted c0 (ops ++ [o]) p m sp comp.
Proof.
  intros (pre & post & c' & pl & -> & H). exists pre, (post ++ [o]), c', pl. rewrite <- app_assoc. done.
Qed.
(** The bundle is what the message said. *)
Definition as_submitted (m : submit) (sp comp : N) (fb : fbundle) : Prop :=
  fb_storage fb = sb_storage m /\ fb_uploader fb = sb_staker m /\ fb_from fb = sb_from m /\ fb_to fb = sb_from m + sb_size m
  /\ fb_fromkey fb = sb_fromkey m /\ fb_tokey fb = sb_tokey m /\ fb_summary fb = sb_summary m /\ fb_hash fb = sb_hash m
  /\ fb_sp fb = sp /\ fb_comp fb = comp.
Definition pending_ok c0 ops (c : chain) : Prop :=
  forall p b, c_prop c !! p = Some b -> bp_storage b <> 0%N ->
    exists m sp comp pl, accepted c0 ops p m sp comp /\ from_submit m sp comp b /\ get_pool c p = Some pl /\ pl_index pl = sb_from m.
Definition bundles_ok c0 ops (c : chain) : Prop :=
  forall p id fb, c_fin c !! (p, id) = Some fb -> exists m sp comp, accepted c0 ops p m sp comp /\ as_submitted m sp comp fb.
Lemma arel_history c0 ops c c' :
  pending_ok c0 ops c -> bundles_ok c0 ops c -> arel c c' -> pending_ok c0 ops c' /\ bundles_ok c0 ops c'.
Proof.
  intros HP HB R. split.
  - intros p b' Hb' Hs. destruct (rl_prop _ _ R _ _ Hb' Hs) as (b & pl & pl' & Hb & Ec & G & G' & Ei & _).
    assert (Hs' : bp_storage b <> 0%N) by (unfold content in Ec; congruence).
    destruct (HP _ _ Hb Hs') as (m & sp & comp & pl0 & Hm & Hf & Hg & Hi).
    exists m, sp, comp, pl'. split; [done|]. split; [unfold from_submit in *; congruence|]. split; [done|]. congruence.
  - intros p id fb Hfb. destruct (rl_fin _ _ R _ _ _ Hfb) as [H|(b & pl & Hb & Hs & G & _ & Hfr & Hto & Ec)]; [by eapply HB|].
    destruct (HP _ _ Hb Hs) as (m & sp & comp & pl0 & Hm & Hf & Hg & Hi). exists m, sp, comp. split; [done|].
    unfold from_submit, content in Hf. injection Hf as ? ? ? ? ? ? ? ? ? ?. injection Ec as ? ? ? ? ? ? ? ?.
    unfold as_submitted. rewrite G in Hg. injection Hg as <-.
    split; [congruence|]. split; [congruence|]. split; [congruence|]. split; [congruence|].
    repeat (split; [congruence|]). congruence.
Qed.
Lemma history c0 ops : start c0 -> cops_ok c0 ops ->
  AInv (crun c0 ops) /\ pending_ok c0 ops (crun c0 ops) /\ bundles_ok c0 ops (crun c0 ops).
Proof.
  intros Hs. induction ops as [|o ops IH] using rev_ind; intros Hok.
  - destruct Hs as (b & t & dp & ct & lt & fp & pp & bp & br & ->). split; [apply AInv_init|]. by split.
  - rewrite cops_ok_snoc in Hok. destruct Hok as [Hok Ho]. destruct (IH Hok) as (HI & HP & HB).
    rewrite crun_snoc. destruct (chain_step _ _ HI Ho) as [HA Hcase]. split; [done|].
    assert (HP' : pending_ok c0 (ops ++ [o]) (crun c0 ops)).
    { intros p b Hb Hz. destruct (HP _ _ Hb Hz) as (m & sp & comp & pl & Hm & H). exists m, sp, comp, pl. split; [|done]. by apply accepted_snoc. }
    assert (HB' : bundles_ok c0 (ops ++ [o]) (crun c0 ops)).
    { intros p id fb Hfb. destruct (HB _ _ _ Hfb) as (m & sp & comp & Hm & H). exists m, sp, comp. split; [|done]. by apply accepted_snoc. }
    destruct Hcase as [[_ R]|(m & -> & Hmsg & mid & b & pl & plc & [HIm Rm] & Eprop & Epools & Efin & _ & Hpl & Hidx & Hplc & Hfs & Hsz & _)].
    + by eapply arel_history.
    + destruct (arel_history c0 (ops ++ [CSubmit m]) _ _ HP' HB' Rm) as [HPm HBm]. split.
      * intros p b' Hb' Hz. rewrite Eprop in Hb'. destruct (decide (p = sb_pool m)) as [->|Hne].
        -- rewrite lookup_insert in Hb'. injection Hb' as <-. exists m, (pl_sp plc), (pl_comp plc), pl. split; [|split; [done|split; [|done]]].
           ++ exists ops, [], (cstep (crun c0 ops) (CSubmit m)), plc. auto 10.
           ++ unfold get_pool in *. by rewrite Epools.
        -- rewrite lookup_insert_ne in Hb' by done. destruct (HPm _ _ Hb' Hz) as (m' & sp & comp & pl' & H1 & H2 & H3 & H4).
           exists m', sp, comp, pl'. split; [done|]. split; [done|]. split; [|done]. unfold get_pool in *. by rewrite Epools.
      * intros p id fb. rewrite Efin. apply HBm.
Qed.

(** Finalized bundles stay. *)
Lemma step_keeps c o k fb : AInv c -> cop_ok c o -> c_fin c !! k = Some fb -> c_fin (cstep c o) !! k = Some fb.
Proof.
  intros HI Ho H. destruct (chain_step _ _ HI Ho) as [_ [[_ R]|(m & _ & _ & mid & b & pl & plc & [_ R] & _ & _ & Efin & _)]].
  - by apply (rl_keep _ _ R).
  - rewrite Efin. by apply (rl_keep _ _ R).
Qed.
Lemma run_keeps ops c k fb : AInv c -> cops_ok c ops -> c_fin c !! k = Some fb -> c_fin (crun c ops) !! k = Some fb.
Proof.
  revert c. induction ops as [|o ops IH]; intros c HI Hok H; simpl in *; [done|]. destruct Hok as [Ho Hok].
  apply IH; [by apply chain_step|done|by apply step_keeps].
Qed.
Lemma start_AInv c0 : start c0 -> AInv c0.
Proof. intros (b & t & dp & ct & lt & fp & pp & bp & br & ->). apply AInv_init. Qed.

(** The archive of pool [p] in [c] as a user sees it. *)
Definition gapless (c : chain) (p : N) (pl : pool) : Prop :=
  (forall id, is_Some (c_fin c !! (p, id)) <-> (id < pl_total pl)%N)
  /\ (forall f, c_fin c !! (p, 0%N) = Some f -> fb_from f = 0)
  /\ (forall id f g, c_fin c !! (p, id) = Some f -> c_fin c !! (p, (id + 1)%N) = Some g -> fb_from g = fb_to f)
  /\ (forall id f, c_fin c !! (p, id) = Some f -> (id + 1 = pl_total pl)%N -> fb_to f = pl_index pl)
  /\ (pl_total pl = 0%N -> pl_index pl = 0).
Lemma claim_archive c0 ops : start c0 -> cops_ok c0 ops ->
  (forall p pl, get_pool (crun c0 ops) p = Some pl -> gapless (crun c0 ops) p pl)
  /\ (forall p id fb, c_fin (crun c0 ops) !! (p, id) = Some fb ->
        is_Some (get_pool (crun c0 ops) p) /\
        (exists m sp comp, accepted c0 ops p m sp comp /\ as_submitted m sp comp fb) /\
        forall more, cops_ok (crun c0 ops) more -> c_fin (crun c0 (ops ++ more)) !! (p, id) = Some fb).
Proof.
  intros Hs Hok. destruct (history _ _ Hs Hok) as (HI & HP & HB). set (c := crun c0 ops) in *. split.
  - intros p pl Hpl. pose proof (ai_arch _ HI _ _ Hpl) as A.
    split; [apply A|]. split; [apply A|]. split; [apply A|]. split; apply A.
  - intros p id fb Hfb. split; [|split].
    + destruct (get_pool c p) as [pl|] eqn:E; [by eexists|]. destruct (ai_none _ HI _ E) as (_ & H & _). congruence.
    + by eapply HB.
    + intros more Hmore. rewrite crun_app. by apply run_keeps.
Qed.

(** ** Lookup by index *)
Lemma last_entry_spec l :
  match last_entry l with
  | None => l = []
  | Some y => y ∈ l /\ forall x, x ∈ l -> fst x <= fst y
  end.
Proof.
  unfold last_entry.
  set (f := fun (acc : option (Z * N)) (x : Z * N) => match acc with Some y => if fst y <? fst x then Some x else acc | None => Some x end).
  assert (H : forall l acc, match fold_left f l acc with
      | None => acc = None /\ l = []
      | Some y => (Some y = acc \/ y ∈ l) /\ (forall x, x ∈ l -> fst x <= fst y) /\ (forall z, acc = Some z -> fst z <= fst y)
      end).
  { induction l0 as [|x l0 IH]; intros acc; simpl.
    - destruct acc; [|done]. split; [by left|]. split; [by intros ? ?%elem_of_nil|]. by intros z [= ->].
    - specialize (IH (f acc x)). destruct (fold_left f l0 (f acc x)) as [y|].
      + destruct IH as (Hy & Hmax & Hacc).
        assert (Hf : exists z, f acc x = Some z /\ fst x <= fst z /\ (forall a, acc = Some a -> fst a <= fst z) /\ (Some z = acc \/ z = x)).
        { unfold f. destruct acc as [a|]; [|exists x; split; [done|split; [lia|split; [done|by right]]]].
          destruct (Z.ltb_spec (fst a) (fst x)).
          - exists x. split; [done|]. split; [lia|]. split; [|by right]. intros ? [= ->]. lia.
          - exists a. split; [done|]. split; [lia|]. split; [|by left]. intros ? [= ->]. lia. }
        destruct Hf as (z & Ez & Hz1 & Hz2 & Hz3). specialize (Hacc z Ez). split; [|split].
        * destruct Hy as [Hy|Hy]; [|right; by right]. rewrite Ez in Hy. injection Hy as ->.
          destruct Hz3 as [Hz3| ->]; [by left|right; by left].
        * intros w [ -> |Hw]%elem_of_cons; [lia|]. by apply Hmax.
        * intros a Ha. specialize (Hz2 a Ha). lia.
      + destruct IH as [IH _]. unfold f in IH. destruct acc as [a|]; [|done]. by destruct (fst a <? fst x). }
  specialize (H l None). fold f. destruct (fold_left f l None) as [y|]; [|apply H].
  destruct H as ([H|H] & H2 & _); [done|]. done.
Qed.
Lemma idx_below_in c p e i id : (i, id) ∈ idx_below c p e <-> c_idx c !! (p, i) = Some id /\ i < e.
Proof.
  unfold idx_below. rewrite elem_of_list_omap. split.
  - intros ([[q j] k] & Hin & H). apply elem_of_map_to_list in Hin. cbn [fst snd] in H.
    destruct (N.eqb_spec q p) as [->|]; [|done]. destruct (Z.ltb_spec j e); [|done]. injection H as <- <-. done.
  - intros [H Hlt]. exists ((p, i), id). rewrite elem_of_map_to_list. split; [done|]. cbn [fst snd].
    rewrite N.eqb_refl. destruct (Z.ltb_spec i e); [done|lia].
Qed.
Lemma arch_order fin idx p index total : arch fin idx p index total ->
  forall id id' f g, (id < id')%N -> fin !! (p, id) = Some f -> fin !! (p, id') = Some g -> fb_to f <= fb_from g.
Proof.
  intros A id id' f g Hlt Hf. revert g. induction id' as [|n IH] using N.peano_ind; intros g Hg; [lia|].
  rewrite <- N.add_1_r in Hg, Hlt. destruct (decide (id = n)) as [->|Hne].
  - rewrite (ar_next _ _ _ _ _ A _ _ _ Hf Hg). lia.
  - assert (Hn : is_Some (fin !! (p, n))).
    { apply (ar_ids _ _ _ _ _ A). assert (n + 1 < total)%N by (apply (ar_ids _ _ _ _ _ A); eauto). lia. }
    destruct Hn as [h Hh]. assert (fb_to f <= fb_from h) by (apply IH; [lia|done]).
    pose proof (ar_size _ _ _ _ _ A _ _ Hh). rewrite (ar_next _ _ _ _ _ A _ _ _ Hh Hg). lia.
Qed.
Definition contains (fb : fbundle) (i : Z) : Prop := fb_from fb <= i < fb_to fb.
Lemma claim_lookup c0 ops p i : start c0 -> cops_ok c0 ops -> 0 <= i < two64 ->
  let c := crun c0 ops in
  (forall fb, find_by_index c p i = Some fb <-> exists id, c_fin c !! (p, id) = Some fb /\ contains fb i)
  /\ (forall id id' f g, c_fin c !! (p, id) = Some f -> c_fin c !! (p, id') = Some g -> contains f i -> contains g i -> id = id')
  /\ (is_Some (find_by_index c p i) <-> exists pl, get_pool c p = Some pl /\ i < pl_index pl).
Proof.
  intros Hs Hok Hi c. assert (HI : AInv c) by (apply AInv_run; [by apply start_AInv|done]).
  assert (Huniq : forall id id' f g, c_fin c !! (p, id) = Some f -> c_fin c !! (p, id') = Some g -> contains f i -> contains g i -> id = id').
  { intros id id' f g Hf Hg Cf Cg. destruct (get_pool c p) as [pl|] eqn:E.
    - pose proof (ai_arch _ HI _ _ E) as A. unfold contains in *.
      destruct (N.lt_trichotomy id id') as [Hlt|[->|Hlt]]; [|done|].
      + pose proof (arch_order _ _ _ _ _ A _ _ _ _ Hlt Hf Hg). lia.
      + pose proof (arch_order _ _ _ _ _ A _ _ _ _ Hlt Hg Hf). lia.
    - destruct (ai_none _ HI _ E) as (_ & H & _). congruence. }
  (* what the lookup finds is a bundle that contains the index *)
  assert (Hsound : forall fb, find_by_index c p i = Some fb -> exists id, c_fin c !! (p, id) = Some fb /\ contains fb i).
  { intros fb. unfold find_by_index. destruct (last_entry _) as [[j id]|]; [|done]. destruct (c_fin c !! (p, id)) as [fb'|] eqn:Ef; [|done].
    destruct ((fb_from fb' <=? i) && (i <? fb_to fb')) eqn:Eb; [|done]. intros [= <-]. exists id. split; [done|].
    apply andb_true_iff in Eb. destruct Eb as [E1 E2]. apply Z.leb_le in E1. apply Z.ltb_lt in E2. done. }
  (* below the pool's index there is one *)
  assert (Hcomp : forall pl, get_pool c p = Some pl -> i < pl_index pl -> is_Some (find_by_index c p i)).
  { intros pl Hpl Hlt. pose proof (ai_arch _ HI _ _ Hpl) as A. pose proof (ar_index _ _ _ _ _ A) as Hidx.
    unfold find_by_index. rewrite u64_add_id by lia.
    pose proof (last_entry_spec (idx_below c p (i + 1))) as Hl. destruct (last_entry _) as [[j id]|].
    - destruct Hl as [Hin Hmax]. apply idx_below_in in Hin. destruct Hin as [Hj Hji]. apply (ar_idx _ _ _ _ _ A) in Hj.
      destruct Hj as (f & Hf & Hfj). rewrite Hf.
      destruct (Z.ltb_spec i (fb_to f)) as [|Hge]; [|exfalso].
      + rewrite (proj2 (Z.leb_le _ _)) by lia. simpl. by eexists.
      + assert (Hid : (id < pl_total pl)%N) by (apply (ar_ids _ _ _ _ _ A); eauto).
        destruct (decide (id + 1 = pl_total pl)%N) as [He|Hne].
        * pose proof (ar_last _ _ _ _ _ A _ _ Hf He). lia.
        * assert (Hn : is_Some (c_fin c !! (p, (id + 1)%N))) by (apply (ar_ids _ _ _ _ _ A); lia).
          destruct Hn as [g Hg]. pose proof (ar_next _ _ _ _ _ A _ _ _ Hf Hg) as Hn. pose proof (ar_size _ _ _ _ _ A _ _ Hf) as Hsz.
          assert (Hin : (fb_from g, (id + 1)%N) ∈ idx_below c p (i + 1)).
          { apply idx_below_in. split; [apply (ar_idx _ _ _ _ _ A); eauto|lia]. }
          specialize (Hmax _ Hin). cbn [fst] in Hmax. lia.
    - exfalso. assert (Ht : pl_total pl <> 0%N) by (intros H; apply (ar_none _ _ _ _ _ A) in H; lia).
      assert (Hn : is_Some (c_fin c !! (p, 0%N))) by (apply (ar_ids _ _ _ _ _ A); lia).
      destruct Hn as [g Hg]. pose proof (ar_first _ _ _ _ _ A _ Hg).
      assert (Hin : (fb_from g, 0%N) ∈ idx_below c p (i + 1)).
      { apply idx_below_in. split; [apply (ar_idx _ _ _ _ _ A); eauto|lia]. }
      rewrite Hl in Hin. by apply elem_of_nil in Hin. }
  assert (Hbound : forall id fb, c_fin c !! (p, id) = Some fb -> contains fb i -> exists pl, get_pool c p = Some pl /\ i < pl_index pl).
  { intros id fb Hfb Hc. destruct (get_pool c p) as [pl|] eqn:E.
    - exists pl. split; [done|]. pose proof (ar_size _ _ _ _ _ (ai_arch _ HI _ _ E) _ _ Hfb). unfold contains in Hc. lia.
    - destruct (ai_none _ HI _ E) as (_ & H & _). congruence. }
  split; [|split; [done|]].
  - intros fb. split; [apply Hsound|]. intros (id & Hfb & Hc). destruct (Hbound _ _ Hfb Hc) as (pl & Hpl & Hlt).
    destruct (Hcomp _ Hpl Hlt) as [fb' Hf']. destruct (Hsound _ Hf') as (id' & Hfb' & Hc').
    rewrite (Huniq _ _ _ _ Hfb Hfb' Hc Hc') in Hfb. congruence.
  - split.
    + intros [fb Hfb]. destruct (Hsound _ Hfb) as (id & H1 & H2). by eapply Hbound.
    + intros (pl & Hpl & Hlt). by eapply Hcomp.
Qed.
