(** * Funders: messages and runs. *)
From Verif Require Import Base BaseFacts Funders FundersInv.

(** ** Parameter checks *)
(** Sum of a field over the whitelist entries of a denom. *)
Definition listed_sum (g : wentry -> Z) (l : list wentry) (x : N) : Z :=
  foldr (fun e z => (if (w_denom e =? x)%N then g e else 0) + z) 0 l.

Lemma amt_mins g l x : amt (mins g l) x = listed_sum g l x.
Proof.
  unfold mins. enough (forall acc, amt (fold_left (fun acc e => cadd acc (coin (w_denom e) (g e))) l acc) x
    = amt acc x + listed_sum g l x) as H by (rewrite H, amt_empty; lia).
  induction l as [|e l IH]; intros acc; simpl; [lia|]. rewrite IH, amt_cadd, amt_coin.
  destruct (decide (w_denom e = x)) as [->|Hn]; [rewrite N.eqb_refl; lia|].
  apply N.eqb_neq in Hn. rewrite Hn. lia.
Qed.
Lemma listed_sum_nonneg g l x : Forall (fun e => 0 <= g e) l -> 0 <= listed_sum g l x.
Proof. induction 1 as [|e l He Hl IH]; simpl; [done|]. destruct (_ =? _)%N; lia. Qed.
Lemma cpos_mins g l : Forall (fun e => 0 <= g e) l -> cpos (mins g l).
Proof.
  intros H. apply cpos_of_amt.
  - unfold mins. assert (forall acc, cnz acc -> cnz (fold_left (fun acc e => cadd acc (coin (w_denom e) (g e))) l acc)) as HX.
    { clear H. induction l as [|e l IH]; intros acc Ha; [done|]. simpl. apply IH. apply cnz_cmerge. }
    apply HX, cnz_empty.
  - intros x. rewrite amt_mins. by apply listed_sum_nonneg.
Qed.
Lemma listed_spec l x : listed l x = true <-> exists e, In e l /\ w_denom e = x.
Proof.
  unfold listed, wl_find.
  assert (forall acc, (match fold_left (fun acc e => if (w_denom e =? x)%N then Some e else acc) l acc with
     Some _ => true | None => false end = true) <-> (acc <> None \/ exists e, In e l /\ w_denom e = x)) as H.
  { induction l as [|e l IH]; intros acc; simpl.
    - destruct acc; split; try done; [by left|]. intros [H|(e & [] & _)]. done.
    - rewrite IH. destruct (w_denom e =? x)%N eqn:E.
      + apply N.eqb_eq in E. split; [|by left]. intros _. right. exists e. split; [by left|done].
      + apply N.eqb_neq in E. split; (intros [H|(e' & H1 & H2)]; [by left|right]).
        * exists e'. split; [by right|done].
        * destruct H1 as [->|H1]; [done|]. by exists e'. }
  rewrite H. split; [intros [?|?]; done|by right].
Qed.
Lemma listed_sum_pos g l x : 0 < listed_sum g l x -> listed l x = true.
Proof.
  intros H. apply listed_spec. induction l as [|e l IH]; simpl in H; [done|].
  destruct (w_denom e =? x)%N eqn:E.
  - apply N.eqb_eq in E. exists e. split; [by left|done].
  - destruct IH as (e' & H1 & H2); [lia|]. exists e'. split; [by right|done].
Qed.

Lemma denoms_subset_spec a b : cpos a -> cpos b ->
  denoms_subset a b = true <-> forall x, amt a x <> 0 -> amt b x <> 0.
Proof.
  intros Ha Hb. unfold denoms_subset. rewrite andb_true_iff, Nat.leb_le, forallb_forall.
  assert (HL : forall c x, cpos c -> amt c x <> 0 <-> is_Some (c !! x)).
  { intros c x Hc. unfold amt. destruct (c !! x) as [v|] eqn:E; simpl.
    - specialize (Hc _ _ E). split; [by eexists|lia].
    - split; [done|by intros [? ?]]. }
  split.
  - intros [_ H] x Hx. apply HL in Hx as [v Hv]; [|done]. specialize (H (x, v)). simpl in H.
    assert (negb (amt b x =? 0) = true) as H0; [|lia]. apply H, elem_of_list_In, elem_of_map_to_list, Hv.
  - intros H. split.
    + rewrite <- !size_dom. apply subseteq_size. intros x. rewrite !elem_of_dom.
      intros Hx. apply HL, H, HL; done.
    + intros [x v] Hx. simpl. apply elem_of_list_In, elem_of_map_to_list in Hx.
      assert (amt b x <> 0); [|lia]. apply H, HL; [done|eauto].
Qed.
Lemma any_gt_spec a b : cpos a -> cpos b ->
  any_gt a b = false <-> forall x, amt b x <> 0 -> amt a x <= amt b x.
Proof.
  intros Ha Hb. unfold any_gt. rewrite andb_false_iff, negb_false_iff, cempty_spec.
  assert (HE : existsb (fun p => (snd p >? amt b (fst p)) && negb (amt b (fst p) =? 0)) (map_to_list a) = false
    <-> forall x, amt b x <> 0 -> amt a x <= amt b x).
  { rewrite <- not_true_iff_false, existsb_exists. split.
    - intros H x Hx. destruct (Z.le_gt_cases (amt a x) (amt b x)); [done|]. exfalso. apply H.
      unfold amt in H0 at 2. destruct (a !! x) as [v|] eqn:E; simpl in H0.
      + exists (x, v). split; [apply elem_of_list_In, elem_of_map_to_list, E|]. simpl. lia.
      + pose proof (cpos_amt b x Hb). lia.
    - intros H ([x v] & Hx & Hgt). apply elem_of_list_In, elem_of_map_to_list in Hx. simpl in Hgt.
      specialize (H x). unfold amt in H at 2. rewrite Hx in H. simpl in H. lia. }
  rewrite HE. split; [|by right]. intros [->|H]; [|done]. intros x. by rewrite amt_empty.
Qed.

Lemma clean_pos f : fpos f -> fpos (clean_apb f).
Proof. intros (A & B & C). split; [done|]. split; [by apply cpos_cfilter|done]. Qed.
Lemma clean_apb_amt f x : fpos f ->
  amt (fd_apb (clean_apb f)) x = if amt (fd_amounts f) x =? 0 then 0 else amt (fd_apb f) x.
Proof. intros (A & B & C). simpl. rewrite amt_cfilter, has_denom_spec by done. by destruct (_ =? 0). Qed.

(** Exact acceptance condition of the parameter checks. *)
Definition compatible (p : fparams) (am apb : coins) : Prop :=
  forall x, amt am x <> 0 ->
    0 < listed_sum w_min (fp_list p) x <= amt am x /\
    0 < listed_sum w_minpb (fp_list p) x <= amt apb x /\
    fp_multiple p < two63 /\ fp_multiple p * amt apb x <= amt am x.

Lemma ensure_params_spec p f : fparams_ok p -> fpos f ->
  (forall f1, ensure_params p f = Some f1 -> f1 = clean_apb f) /\
  (ensure_params p f = Some (clean_apb f) <-> compatible p (fd_amounts f) (fd_apb f)).
Proof.
  intros [Hl Hm] Hf. pose proof (clean_pos f Hf) as Hc. pose proof (fun x => clean_apb_amt f x Hf) as Hca.
  destruct Hf as (Ha & Hb & Ht). destruct Hc as (Hca0 & Hcb & _).
  assert (Hmin : cpos (mins w_min (fp_list p))).
  { apply cpos_mins. eapply Forall_impl; [exact Hl|]. intros e (?&?&?&?). done. }
  assert (Hminpb : cpos (mins w_minpb (fp_list p))).
  { apply cpos_mins. eapply Forall_impl; [exact Hl|]. intros e (?&?&?&?). done. }
  pose proof (fun x => amt_mins w_min (fp_list p) x) as Hsm.
  pose proof (fun x => amt_mins w_minpb (fp_list p) x) as Hsp.
  pose proof (denoms_subset_spec (fd_amounts (clean_apb f)) _ Hca0 Hcb) as D1.
  pose proof (denoms_subset_spec (fd_amounts (clean_apb f)) _ Hca0 Hmin) as D2.
  pose proof (denoms_subset_spec _ _ Hcb Hminpb) as D3.
  pose proof (any_gt_spec _ (fd_amounts (clean_apb f)) Hmin Hca0) as D4.
  pose proof (any_gt_spec _ _ Hminpb Hcb) as D5.
  unfold ensure_params. cbv zeta.
  set (m1 := mins w_min (fp_list p)) in *. set (m2 := mins w_minpb (fp_list p)) in *.
  set (am := fd_amounts (clean_apb f)) in *. set (pb := fd_apb (clean_apb f)) in *.
  change (fd_amounts f) with am in *.
  assert (Hpbnn : forall x, 0 <= amt (fd_apb f) x) by (intros x; by apply cpos_amt).
  assert (Hamnn : forall x, 0 <= amt am x) by (intros x; by apply cpos_amt).
  assert (Hm1 : forall x, 0 <= amt m1 x) by (intros x; by apply cpos_amt).
  assert (Hm2 : forall x, 0 <= amt m2 x) by (intros x; by apply cpos_amt).
  destruct (denoms_subset am pb) eqn:E1; cbn [negb].
  2:{ split; [done|]. split; [done|]. intros HC. exfalso. assert (false = true); [|done]. apply D1. intros x Hx.
      destruct (HC x Hx) as (? & ? & ? & ?). rewrite Hca. destruct (amt am x =? 0) eqn:E; lia. }
  destruct (denoms_subset am m1) eqn:E2; cbn [negb].
  2:{ split; [done|]. split; [done|]. intros HC. exfalso. assert (false = true); [|done]. apply D2. intros x Hx.
      destruct (HC x Hx) as (? & ? & ? & ?). rewrite Hsm. lia. }
  destruct (denoms_subset pb m2) eqn:E3; cbn [negb].
  2:{ split; [done|]. split; [done|]. intros HC. exfalso. assert (false = true); [|done]. apply D3. intros x Hx.
      rewrite Hca in Hx. destruct (amt am x =? 0) eqn:E; [done|].
      destruct (HC x ltac:(lia)) as (? & ? & ? & ?). rewrite Hsp. lia. }
  destruct (any_gt m1 am) eqn:E4.
  { split; [done|]. split; [done|]. intros HC. exfalso. assert (true = false); [|done]. apply D4. intros x Hx.
    destruct (HC x Hx) as (? & ? & ? & ?). rewrite Hsm. lia. }
  destruct (any_gt m2 pb) eqn:E5.
  { split; [done|]. split; [done|]. intros HC. exfalso. assert (true = false); [|done]. apply D5. intros x Hx.
    rewrite Hca in Hx |- *. destruct (amt am x =? 0) eqn:E; [done|].
    destruct (HC x ltac:(lia)) as (? & ? & ? & ?). rewrite Hsp. lia. }
  (* facts from the first five checks *)
  assert (HB : forall x, amt am x <> 0 -> 0 < listed_sum w_min (fp_list p) x <= amt am x /\
    0 < listed_sum w_minpb (fp_list p) x <= amt (fd_apb f) x).
  { intros x Hx. pose proof (proj1 D1 eq_refl x Hx) as A1. pose proof (proj1 D2 eq_refl x Hx) as A2.
    pose proof (proj1 D3 eq_refl x A1) as A3. pose proof (proj1 D4 eq_refl x Hx) as A4.
    pose proof (proj1 D5 eq_refl x A1) as A5. rewrite Hca in A1, A5. specialize (Hm1 x). specialize (Hm2 x).
    rewrite Hsm in *. rewrite Hsp in *. destruct (amt am x =? 0) eqn:E; [lia|]. lia. }
  assert (Hpb0 : cempty pb = true -> forall x, amt am x = 0).
  { intros He x. apply cempty_spec in He. destruct (Z.eq_dec (amt am x) 0); [done|]. exfalso.
    apply (proj1 D1 eq_refl x n). by rewrite He, amt_empty. }
  destruct (0 <? fp_multiple p) eqn:E6.
  2:{ split; [by intros f1 [= <-]|]. split; [|done]. intros _ x Hx.
      destruct (HB x Hx) as [? ?]. split; [done|]. split; [done|]. assert (fp_multiple p = 0) as -> by lia.
      specialize (Hamnn x). unfold two63. lia. }
  unfold i64. destruct (fp_multiple p <? two63) eqn:E7.
  - destruct (fp_multiple p <? 0) eqn:E8; [lia|]. cbn [andb].
    assert (Hcm : cpos (cmap (fun a => a * fp_multiple p) pb)).
    { apply cpos_of_amt; [apply cnz_cmap|]. intros x. rewrite amt_cmap by lia. pose proof (cpos_amt _ x Hcb). nia. }
    pose proof (any_gt_spec _ am Hcm Hca0) as D6.
    destruct (any_gt (cmap (fun a => a * fp_multiple p) pb) am) eqn:E9.
    + split; [done|]. split; [done|]. intros HC. exfalso. assert (true = false); [|done]. apply D6. intros x Hx.
      rewrite amt_cmap, Hca by lia. destruct (HC x Hx) as (? & ? & ? & ?). destruct (amt am x =? 0); lia.
    + split; [by intros f1 [= <-]|]. split; [|done]. intros _ x Hx. destruct (HB x Hx) as [? ?].
      split; [done|]. split; [done|]. split; [lia|]. pose proof (proj1 D6 eq_refl x Hx) as A6.
      rewrite amt_cmap, Hca in A6 by lia. destruct (amt am x =? 0) eqn:E; lia.
  - assert (fp_multiple p - two64 <? 0 = true) as -> by (unfold two64 in *; lia). cbn [andb].
    destruct (cempty pb) eqn:E8; cbn [negb].
    + pose proof (Hpb0 eq_refl) as H0.
      assert (any_gt (cmap (fun a => a * (fp_multiple p - two64)) pb) am = false) as ->.
      { unfold any_gt. apply andb_false_iff. right. apply cempty_spec in E8. rewrite E8. done. }
      split; [by intros f1 [= <-]|]. split; [|done]. intros _ x Hx. by rewrite H0 in Hx.
    + split; [done|]. split; [done|]. intros HC. exfalso.
      assert (exists x, amt pb x <> 0) as [x Hx].
      { apply cempty_false in E8. apply map_choose in E8 as (x & v & Hx). exists x. unfold amt. rewrite Hx. simpl.
        specialize (Hcb _ _ Hx). lia. }
      rewrite Hca in Hx. destruct (amt am x =? 0) eqn:E; [done|].
      destruct (HC x ltac:(lia)) as (? & ? & ? & ?). lia.
Qed.

(** ** Lowest funding *)
Lemma lowest_from_spec l t : forall best bs b fb s,
  score l (fd_amounts (snd best)) = Some bs ->
  lowest_from l best bs t = Some (b, fb, s) ->
  (b, fb) ∈ best :: t /\ score l (fd_amounts fb) = Some s /\
  forall a f, (a, f) ∈ best :: t -> exists s', score l (fd_amounts f) = Some s' /\ s <= s'.
Proof.
  induction t as [|af t IH]; intros best bs b fb s Hb H; simpl in H.
  - simplify_eq. split; [left|]. split; [done|]. intros a f Ha. apply elem_of_list_singleton in Ha.
    injection Ha as -> ->. exists s. split; [done|lia].
  - destruct (score l (fd_amounts (snd af))) as [s1|] eqn:Es; [|done].
    destruct (s1 <? bs) eqn:Elt; apply IH in H as (H1 & H2 & H3); try done.
    + split; [by right|]. split; [done|]. intros a f Ha. apply elem_of_cons in Ha as [Ha|Ha]; [|by eapply H3].
      subst best. simpl in Hb. destruct (H3 (fst af) (snd af)) as (s' & Hs' & Hle); [destruct af; left|].
      exists bs. split; [done|]. rewrite Es in Hs'. injection Hs' as <-. lia.
    + split; [set_solver|]. split; [done|]. intros a f Ha.
      apply elem_of_cons in Ha as [Ha|Ha]; [apply (H3 a f); rewrite Ha; left|].
      apply elem_of_cons in Ha as [Ha|Ha]; [|apply (H3 a f); by right].
      subst af. simpl in Es. destruct best as [b0 f0]. destruct (H3 b0 f0) as (s' & Hs' & Hle); [left|].
      simpl in Hb. rewrite Hb in Hs'. injection Hs' as <-. exists s1. split; [done|]. lia.
Qed.
Lemma lowest_spec l afs b fb s : lowest_funding l afs = Some (b, fb, s) ->
  (b, fb) ∈ afs /\ score l (fd_amounts fb) = Some s /\
  forall a f, (a, f) ∈ afs -> exists s', score l (fd_amounts f) = Some s' /\ s <= s'.
Proof.
  unfold lowest_funding. destruct afs as [|af t]; [done|].
  destruct (score l (fd_amounts (snd af))) as [s0|] eqn:E; [|done]. by apply lowest_from_spec.
Qed.

(** ** Free slots *)
Lemma free_slot_spec base st p a new act st1 act1 :
  FInv base st -> fs_active st !! p = Some act -> ensure_free_slot st p a new act = Some (st1, act1) ->
  (st1 = st /\ act1 = act /\ ((length act < MAX_FUNDERS)%nat \/ a ∈ act)) \/
  (exists b fb s s0 bk, b <> a /\ b ∈ act /\ length act = MAX_FUNDERS /\ fs_fundings st !! (b, p) = Some fb /\
     lowest_funding (wl st) (active_fundings st p act) = Some (b, fb, s0) /\
     score (wl st) (fd_amounts new) = Some s /\ s0 <= s /\
     send (fs_bank st) MFunders (User b) (fd_amounts fb) = Some bk /\
     st1 = set_funding (fwith_bank st bk) b p (mkFd ∅ ∅ (fd_total fb)) /\ act1 = set_inactive act b).
Proof.
  intros HI Hact H. unfold ensure_free_slot in H.
  destruct (fi_act _ _ HI _ _ Hact) as [Hnd Hlen].
  pose proof (fun x => fi_found _ _ HI p act x Hact) as Hfound.
  rewrite (active_fundings_length st p act Hfound) in H.
  destruct (length act <? MAX_FUNDERS)%nat eqn:E1.
  { injection H as <- <-. left. split; [done|]. split; [done|]. left. by apply Nat.ltb_lt. }
  apply Nat.ltb_ge in E1.
  destruct (lowest_funding _ _) as [[[b fb] s0]|] eqn:El; [|done].
  pose proof (lowest_spec _ _ _ _ _ El) as (Hb & Hs0 & Hmin). apply active_fundings_elem in Hb as [Hb Hfb].
  destruct (b =? a)%N eqn:E2.
  { apply N.eqb_eq in E2 as ->. injection H as <- <-. left. by auto. }
  apply N.eqb_neq in E2. destruct (score (wl st) (fd_amounts new)) as [s|] eqn:Es; [|done].
  destruct (s <? s0) eqn:E3; [done|].
  destruct (send _ _ _ _) as [bk|] eqn:Ebk; [|done]. injection H as <- <-.
  right. exists b, fb, s, s0, bk. repeat split; try done; lia.
Qed.

(** ** FundPool *)
Definition new_funding (st : fstate) (a p : N) (amounts apb : coins) : funding :=
  match fs_fundings st !! (a, p) with
  | Some f => mkFd (cadd (fd_amounts f) amounts) (merge_apb apb (fd_apb f)) (fd_total f)
  | None => mkFd amounts apb ∅
  end.
Lemma new_funding_pos base st a p amounts apb : FInv base st -> cpos amounts -> cpos apb ->
  fpos (new_funding st a p amounts apb).
Proof.
  intros HI Ha Hb. unfold new_funding. destruct (fs_fundings st !! (a, p)) as [f|] eqn:E.
  - destruct (fi_pos _ _ HI _ _ E) as (H1 & H2 & H3). split; [by apply cpos_cadd|]. split; [|done].
    apply cpos_cadd; [done|]. by apply cpos_cfilter.
  - split; [done|]. split; [done|]. apply cpos_empty.
Qed.


Lemma fund_spec base st ex a p amounts apb st' :
  FInv base st -> cpos amounts -> cpos apb -> msg_fund st ex a p amounts apb = Some st' ->
  let f1 := clean_apb (new_funding st a p amounts apb) in
  exists act, fs_active st !! p = Some act /\ a ∈ fs_funders st /\ ex = true /\
  compatible (fs_params st) (fd_amounts f1) (fd_apb f1) /\
  fs_params st' = fs_params st /\ fs_funders st' = fs_funders st /\ fs_halt st' = fs_halt st /\
  ((((length act < MAX_FUNDERS)%nat \/ a ∈ act) /\
    fs_fundings st' = <[(a, p) := f1]> (fs_fundings st) /\ fs_active st' = <[p := set_active act a]> (fs_active st) /\
    (forall c x, bal (fs_bank st') c x = bal (fs_bank st) c x
       - (if decide (c = User a) then amt amounts x else 0) + (if decide (c = MFunders) then amt amounts x else 0)))
   \/
   (exists b fb s s0, b <> a /\ b ∈ act /\ length act = MAX_FUNDERS /\ fs_fundings st !! (b, p) = Some fb /\
    lowest_funding (wl st) (active_fundings st p act) = Some (b, fb, s0) /\
    score (wl st) (fd_amounts f1) = Some s /\ s0 <= s /\
    fs_fundings st' = <[(a, p) := f1]> (<[(b, p) := mkFd ∅ ∅ (fd_total fb)]> (fs_fundings st)) /\
    fs_active st' = <[p := set_active (set_inactive act b) a]> (fs_active st) /\
    (forall c x, bal (fs_bank st') c x = bal (fs_bank st) c x
       - (if decide (c = User a) then amt amounts x else 0) + (if decide (c = User b) then amt (fd_amounts fb) x else 0)
       + (if decide (c = MFunders) then amt amounts x - amt (fd_amounts fb) x else 0)))).
Proof.
  intros HI Ha Hb H. cbv zeta. unfold msg_fund in H.
  destruct (bool_decide (a ∈ fs_funders st)) eqn:Ea; [|done]. apply bool_decide_eq_true in Ea. cbn [negb] in H.
  destruct ex; [|done]. cbn [negb] in H.
  destruct (fs_active st !! p) as [act|] eqn:Eact; [|done]. fold (new_funding st a p amounts apb) in H.
  pose proof (new_funding_pos base st a p amounts apb HI Ha Hb) as Hfp.
  destruct (ensure_params_spec (fs_params st) _ (fi_params _ _ HI) Hfp) as [HE1 HE2].
  destruct (ensure_params _ _) as [f1|] eqn:Ef1; [|done]. rewrite (HE1 f1 eq_refl) in *. clear f1 HE1.
  pose proof (proj1 HE2 eq_refl) as Hcomp. clear HE2.
  set (nf := new_funding st a p amounts apb) in *.
  destruct (ensure_free_slot st p a (clean_apb nf) act) as [[st1 act1]|] eqn:Efs; [|done].
  destruct (send (fs_bank st1) (User a) MFunders amounts) as [bk|] eqn:Ebk; [|done]. injection H as <-.
  exists act. split; [done|]. split; [done|]. split; [done|]. split.
  { intros x Hx. destruct (Hcomp x Hx) as (? & ? & ? & ?). rewrite (clean_apb_amt nf x Hfp).
    change (fd_amounts (clean_apb nf)) with (fd_amounts nf) in Hx |- *. destruct (amt (fd_amounts nf) x =? 0) eqn:E; [lia|]. done. }
  apply send_Some in Ebk as [_ Ebk].
  destruct (free_slot_spec base st p a _ act st1 act1 HI Eact Efs) as [(-> & -> & Hsl)|Hev].
  - split; [done|]. split; [done|]. split; [done|]. left. split; [done|]. split; [done|]. split; [done|].
    intros c x. cbn [set_fstate set_funding fwith_bank fs_bank]. rewrite Ebk.
    repeat case_decide; simplify_eq; lia.
  - destruct Hev as (b & fb & s & s0 & bk0 & Hne & Hbin & Hlen & Hfb & Hlow & Hs & Hle & Hsend & -> & ->).
    split; [done|]. split; [done|]. split; [done|]. right. exists b, fb, s, s0.
    repeat (split; [done|]). intros c x. cbn [set_fstate set_funding fwith_bank fs_bank]. rewrite Ebk.
    cbn [set_fstate set_funding fwith_bank fs_bank]. apply send_Some in Hsend as [_ Hsend]. rewrite Hsend.
    repeat case_decide; simplify_eq; lia.
Qed.

Lemma sum_rem_insert st st' a p f x : fs_fundings st' = <[(a, p) := f]> (fs_fundings st) ->
  sum_rem st' x = sum_rem st x + amt (fd_amounts f) x - rem st a p x.
Proof. intros H. unfold sum_rem, rem. rewrite H, msum_insert. destruct (_ !! _); lia. Qed.

Lemma new_funding_rem st a p amounts apb x :
  amt (fd_amounts (clean_apb (new_funding st a p amounts apb))) x = rem st a p x + amt amounts x.
Proof. unfold new_funding, rem. destruct (fs_fundings st !! (a, p)); simpl; [apply amt_cadd|lia]. Qed.
Lemma new_funding_tot st a p amounts apb x :
  amt (fd_total (clean_apb (new_funding st a p amounts apb))) x = tot st a p x.
Proof. unfold new_funding, tot. destruct (fs_fundings st !! (a, p)); done. Qed.

Lemma FInv_fund base st ex a p amounts apb st' :
  FInv base st -> cpos amounts -> cpos apb -> msg_fund st ex a p amounts apb = Some st' -> FInv base st'.
Proof.
  intros HI Ha Hb H. pose proof (new_funding_pos base st a p amounts apb HI Ha Hb) as Hfp.
  destruct (fund_spec base st ex a p amounts apb st' HI Ha Hb H) as (act & Hact & Hfu & _ & _ & Hpar & Hfun & Hh & Hcase).
  cbv zeta in *. set (f1 := clean_apb (new_funding st a p amounts apb)) in *.
  assert (Hf1 : fpos f1) by (by apply clean_pos).
  destruct (fi_act _ _ HI _ _ Hact) as [Hnd Hlen].
  destruct Hcase as [(Hsl & Hf & Hac & Hbk)|(b & fb & s & s0 & Hne & Hbin & Hlen50 & Hfb & Hlow & Hs & Hle & Hf & Hac & Hbk)].
  - constructor; rewrite ?Hpar, ?Hh; try apply HI.
    + intros k f Hk. rewrite Hf in Hk. apply lookup_insert_Some in Hk as [[_ <-]|[_ Hk]]; [done|]. by eapply fi_pos.
    + intros a' q f Hk. rewrite Hf in Hk. rewrite Hac. destruct (decide (q = p)) as [->|Hq]; [rewrite lookup_insert; by eexists|].
      rewrite lookup_insert_ne by done. rewrite lookup_insert_ne in Hk by congruence. by eapply fi_state.
    + intros q l. rewrite Hac. destruct (decide (q = p)) as [->|Hq].
      * rewrite lookup_insert. intros [= <-]. split; [by apply set_active_nodup|].
        destruct Hsl as [Hsl|Hsl]; [pose proof (set_active_length act a); lia|by rewrite set_active_in].
      * rewrite lookup_insert_ne by done. apply HI.
    + intros q l a'. rewrite Hac, Hf. destruct (decide (q = p)) as [->|Hq].
      * rewrite lookup_insert. intros [= <-] Ha'. apply set_active_elem in Ha' as [Ha'| ->]; [|rewrite lookup_insert; by eexists].
        destruct (decide (a' = a)) as [->|]; [rewrite lookup_insert; by eexists|].
        rewrite lookup_insert_ne by congruence. by eapply fi_found.
      * rewrite !lookup_insert_ne by congruence. apply HI.
    + intros a' q f l. rewrite Hac, Hf. destruct (decide (q = p)) as [->|Hq].
      * rewrite (lookup_insert (fs_active st)). intros Hk Hn [= <-]. apply set_active_elem.
        destruct (decide (a' = a)) as [->|]; [by right|]. left. rewrite lookup_insert_ne in Hk by congruence. by eapply fi_nonzero.
      * rewrite !lookup_insert_ne by congruence. apply HI.
    + intros x. rewrite Hbk, (sum_rem_insert st st' a p f1 x Hf), (fi_bank _ _ HI).
      unfold f1. rewrite new_funding_rem. rewrite decide_False by done. rewrite decide_True by done. lia.
  - assert (Hb0 : fpos (mkFd ∅ ∅ (fd_total fb))).
    { split; [apply cpos_empty|]. split; [apply cpos_empty|]. apply (fi_pos _ _ HI _ _ Hfb). }
    constructor; rewrite ?Hpar, ?Hh; try apply HI.
    + intros k f Hk. rewrite Hf in Hk. apply lookup_insert_Some in Hk as [[_ <-]|[_ Hk]]; [done|].
      apply lookup_insert_Some in Hk as [[_ <-]|[_ Hk]]; [done|]. by eapply fi_pos.
    + intros a' q f Hk. rewrite Hf in Hk. rewrite Hac. destruct (decide (q = p)) as [->|Hq]; [rewrite lookup_insert; by eexists|].
      rewrite lookup_insert_ne by done. rewrite !lookup_insert_ne in Hk by congruence. by eapply fi_state.
    + intros q l. rewrite Hac. destruct (decide (q = p)) as [->|Hq].
      * rewrite lookup_insert. intros [= <-]. split; [by apply set_active_nodup, set_inactive_nodup|].
        pose proof (set_active_length (set_inactive act b) a). pose proof (set_inactive_length_in act b Hbin). lia.
      * rewrite lookup_insert_ne by done. apply HI.
    + intros q l a'. rewrite Hac, Hf. destruct (decide (q = p)) as [->|Hq].
      * rewrite lookup_insert. intros [= <-] Ha'.
        destruct (decide (a' = a)) as [->|]; [rewrite lookup_insert; by eexists|].
        rewrite lookup_insert_ne by congruence.
        destruct (decide (a' = b)) as [->|]; [rewrite lookup_insert; by eexists|]. rewrite lookup_insert_ne by congruence.
        apply set_active_elem in Ha' as [Ha'| ->]; [|done]. apply set_inactive_elem in Ha' as [Ha' _]; [|done]. by eapply fi_found.
      * rewrite !lookup_insert_ne by congruence. apply HI.
    + intros a' q f l. rewrite Hac, Hf. destruct (decide (q = p)) as [->|Hq].
      * rewrite (lookup_insert (fs_active st)). intros Hk Hn [= <-]. apply set_active_elem.
        destruct (decide (a' = a)) as [->|]; [by right|]. left. rewrite lookup_insert_ne in Hk by congruence.
        destruct (decide (a' = b)) as [->|]; [rewrite lookup_insert in Hk; by injection Hk as <-|].
        rewrite lookup_insert_ne in Hk by congruence. apply set_inactive_elem; [done|]. split; [|done]. by eapply fi_nonzero.
      * rewrite !lookup_insert_ne by congruence. apply HI.
    + intros x. rewrite Hbk.
      set (stm := set_funding st b p (mkFd ∅ ∅ (fd_total fb))).
      rewrite (sum_rem_insert stm st' a p f1 x Hf).
      rewrite (sum_rem_insert st stm b p _ x eq_refl), (fi_bank _ _ HI). cbn [fd_amounts]. rewrite amt_empty.
      assert (rem stm a p x = rem st a p x) as ->.
      { unfold rem, stm. simpl. rewrite lookup_insert_ne by congruence. done. }
      assert (rem st b p x = amt (fd_amounts fb) x) as -> by (unfold rem; by rewrite Hfb).
      unfold f1. rewrite new_funding_rem. repeat case_decide; simplify_eq; lia.
Qed.

(** ** DefundPool *)
Lemma defund_spec base st a p amounts st' :
  FInv base st -> cpos amounts -> msg_defund st a p amounts = Some st' ->
  exists f act, fs_fundings st !! (a, p) = Some f /\ fs_active st !! p = Some act /\
  let d := cmin (fd_amounts f) amounts in
  let f1 := clean_apb (mkFd (csub (fd_amounts f) d) (fd_apb f) (fd_total f)) in
  d <> ∅ /\ fpos f1 /\
  compatible (fs_params st) (fd_amounts f1) (fd_apb f1) /\
  fs_params st' = fs_params st /\ fs_funders st' = fs_funders st /\ fs_halt st' = fs_halt st /\
  fs_fundings st' = <[(a, p) := f1]> (fs_fundings st) /\
  fs_active st' = <[p := if cempty (fd_amounts f1) then set_inactive act a else act]> (fs_active st) /\
  (forall c x, bal (fs_bank st') c x = bal (fs_bank st) c x
     + (if decide (c = User a) then amt d x else 0) - (if decide (c = MFunders) then amt d x else 0)).
Proof.
  intros HI Ha H. unfold msg_defund in H.
  destruct (fs_fundings st !! (a, p)) as [f|] eqn:Ef; [|done].
  destruct (fi_state _ _ HI _ _ _ Ef) as [act Hact]. rewrite Hact in H.
  exists f, act. split; [done|]. split; [done|]. cbv zeta.
  destruct (fi_pos _ _ HI _ _ Ef) as (H1 & H2 & H3).
  set (d := cmin (fd_amounts f) amounts) in *.
  destruct (cempty d) eqn:Ed; [done|]. apply cempty_false in Ed.
  assert (Hdp : forall x, 0 <= amt d x <= amt (fd_amounts f) x).
  { intros x. unfold d. rewrite amt_cmin. pose proof (cpos_amt _ x H1). pose proof (cpos_amt _ x Ha). lia. }
  set (nf := mkFd (csub (fd_amounts f) d) (fd_apb f) (fd_total f)) in *.
  assert (Hnf : fpos nf). { split; [apply cpos_csub; intros x; apply Hdp|]. by split. }
  destruct (ensure_params_spec (fs_params st) nf (fi_params _ _ HI) Hnf) as [HE1 HE2].
  destruct (ensure_params _ _) as [f1|] eqn:Ef1; [|done]. rewrite (HE1 f1 eq_refl) in *. clear f1 HE1.
  pose proof (proj1 HE2 eq_refl) as Hcomp.
  destruct (send _ _ _ _) as [bk|] eqn:Ebk; [|done]. injection H as <-.
  split; [done|]. split; [by apply clean_pos|]. split.
  { intros x Hx. destruct (Hcomp x Hx) as (? & ? & ? & ?). rewrite (clean_apb_amt nf x Hnf).
    change (fd_amounts (clean_apb nf)) with (fd_amounts nf) in Hx |- *. destruct (amt (fd_amounts nf) x =? 0) eqn:E; [lia|]. done. }
  split; [done|]. split; [done|]. split; [cbn; by rewrite orb_false_r|]. split; [done|]. split; [done|].
  intros c x. cbn [fwith_halt set_fstate set_funding fwith_bank fs_bank]. apply send_Some in Ebk as [_ Ebk]. rewrite Ebk.
  repeat case_decide; simplify_eq; lia.
Qed.

Lemma FInv_defund base st a p amounts st' :
  FInv base st -> cpos amounts -> msg_defund st a p amounts = Some st' -> FInv base st'.
Proof.
  intros HI Ha H. destruct (defund_spec base st a p amounts st' HI Ha H) as (f & act & Ef & Hact & HS).
  cbv zeta in HS. destruct HS as (Hd & Hf1 & _ & Hpar & Hfun & Hh & Hf & Hac & Hbk).
  set (d := cmin (fd_amounts f) amounts) in *.
  set (f1 := clean_apb (mkFd (csub (fd_amounts f) d) (fd_apb f) (fd_total f))) in *.
  destruct (fi_act _ _ HI _ _ Hact) as [Hnd Hlen].
  constructor; rewrite ?Hpar, ?Hh; try apply HI.
  - intros k g Hk. rewrite Hf in Hk. apply lookup_insert_Some in Hk as [[_ <-]|[_ Hk]]; [done|]. by eapply fi_pos.
  - intros a' q g Hk. rewrite Hf in Hk. rewrite Hac. destruct (decide (q = p)) as [->|Hq]; [rewrite lookup_insert; by eexists|].
    rewrite lookup_insert_ne by done. rewrite lookup_insert_ne in Hk by congruence. by eapply fi_state.
  - intros q l. rewrite Hac. destruct (decide (q = p)) as [->|Hq].
    + rewrite lookup_insert. intros [= <-]. destruct (cempty _); [|done]. split; [by apply set_inactive_nodup|].
      pose proof (set_inactive_length act a). lia.
    + rewrite lookup_insert_ne by done. apply HI.
  - intros q l a'. rewrite Hac, Hf. destruct (decide (q = p)) as [->|Hq].
    + rewrite lookup_insert. intros [= <-] Ha'.
      destruct (decide (a' = a)) as [->|]; [rewrite lookup_insert; by eexists|]. rewrite lookup_insert_ne by congruence.
      assert (a' ∈ act). { destruct (cempty _); [by apply set_inactive_elem in Ha' as [? _]|done]. } by eapply fi_found.
    + rewrite !lookup_insert_ne by congruence. apply HI.
  - intros a' q g l. rewrite Hac, Hf. destruct (decide (q = p)) as [->|Hq].
    + rewrite (lookup_insert (fs_active st)). intros Hk Hn [= <-].
      assert (a' ∈ act /\ (a' = a -> fd_amounts f1 <> ∅)) as [Hin Hne].
      { destruct (decide (a' = a)) as [->|].
        - rewrite lookup_insert in Hk. injection Hk as <-. split; [|done]. eapply fi_nonzero; [exact HI|exact Ef| |done].
          intros He. apply Hn. unfold f1. simpl. apply cpos_empty_iff; [apply Hf1|]. intros x. rewrite amt_csub.
          unfold d. rewrite amt_cmin, He, amt_empty. pose proof (cpos_amt _ x Ha). lia.
        - rewrite lookup_insert_ne in Hk by congruence. split; [by eapply fi_nonzero|done]. }
      change (csub (fd_amounts f) d) with (fd_amounts f1).
      destruct (cempty (fd_amounts f1)) eqn:Ee; [|done]. apply cempty_spec in Ee.
      apply set_inactive_elem; [done|]. split; [done|]. intros ->. by apply Hne.
    + rewrite !lookup_insert_ne by congruence. apply HI.
  - intros x. rewrite Hbk, (sum_rem_insert st st' a p f1 x Hf), (fi_bank _ _ HI).
    assert (rem st a p x = amt (fd_amounts f) x) as -> by (unfold rem; by rewrite Ef).
    unfold f1. cbn [clean_apb fd_amounts]. rewrite amt_csub. repeat case_decide; simplify_eq; lia.
Qed.

(** ** Steps and runs *)
(** Coins put into the module account from outside. *)
Definition fdonated (st : fstate) (o : fop) (x : N) : Z :=
  match o with FBank b => bal b MFunders x - bal (fs_bank st) MFunders x | _ => 0 end.
Fixpoint fdonations (st : fstate) (ops : list fop) (x : N) : Z :=
  match ops with [] => 0 | o :: t => fdonated st o x + fdonations (fstep st o) t x end.
Lemma fdonated_nonneg st o x : fop_ok st o -> 0 <= fdonated st o x.
Proof. intros H. destruct o; simpl in *; try done. specialize (H x). lia. Qed.
Lemma FInv_ext base base' st : (forall x, base x = base' x) -> FInv base st -> FInv base' st.
Proof. intros H [A B C D E F G K L]. constructor; try done; intros x; rewrite <- H; done. Qed.
Lemma FInv_step base st o : FInv base st -> fop_ok st o -> FInv (fun x => base x + fdonated st o x) (fstep st o).
Proof.
  intros HI Hok. destruct (match o with FBank _ => true | _ => false end) eqn:Eo.
  { pose proof (fun x => fdonated_nonneg st o x Hok) as Hd. destruct o; try done. destruct HI as [A B C D E F G H I]. constructor; try done.
    - intros x. specialize (H x). specialize (Hd x). lia.
    - intros x. specialize (I x). cbn [fstep fwith_bank fs_bank fdonated]. change (sum_rem (fwith_bank st b) x) with (sum_rem st x). lia. }
  apply (FInv_ext base); [intros x; destruct o; try done; simpl; lia|].
  destruct o; simpl in *.
  - unfold msg_create_funder. destruct (bool_decide _); [done|]. destruct HI; by constructor.
  - constructor; cbn [set_fstate fs_params fs_fundings fs_active fs_halt fs_bank]; try apply HI.
    + intros a q f Hk. destruct (decide (q = p)) as [->|]; [rewrite lookup_insert; by eexists|].
      rewrite lookup_insert_ne by done. by eapply fi_state.
    + intros q l. destruct (decide (q = p)) as [->|].
      * rewrite lookup_insert. intros [= <-]. split; [constructor|simpl; unfold MAX_FUNDERS; lia].
      * rewrite lookup_insert_ne by done. apply HI.
    + intros q l a. destruct (decide (q = p)) as [->|].
      * rewrite lookup_insert. intros [= <-]. set_solver.
      * rewrite lookup_insert_ne by done. apply HI.
    + intros a q f l Hk. destruct (decide (q = p)) as [->|].
      * destruct (fi_state _ _ HI _ _ _ Hk) as [? ?]. congruence.
      * rewrite lookup_insert_ne by done. by apply HI.
  - destruct Hok as (Ha & Hb & _). destruct (msg_fund _ _ _ _ _ _) eqn:E; [|done]. simpl. eapply FInv_fund; [exact HI|exact Ha|exact Hb|exact E].
  - destruct Hok as (Ha & _). destruct (msg_defund _ _ _ _) eqn:E; [|done]. simpl. eapply FInv_defund; [exact HI|exact Ha|exact E].
  - exact (proj1 (charge_spec base st p recipient HI Hok)).
  - destruct HI; by constructor.
  - done.
Qed.
Lemma FInv_init b p : fparams_ok p -> (forall x, 0 <= bal b MFunders x) -> FInv (bal b MFunders) (finit b p).
Proof.
  intros Hp Hb. constructor; simpl; try done.
  intros x. unfold sum_rem. simpl. rewrite msum_empty. lia.
Qed.
Lemma FInv_run base st ops : FInv base st -> fops_ok st ops -> FInv (fun x => base x + fdonations st ops x) (frun st ops).
Proof.
  revert base st. induction ops as [|o t IH]; intros base st HI Hok; simpl in *.
  { eapply FInv_ext; [|exact HI]. intros x. simpl. lia. }
  destruct Hok as [Ho Hok]. eapply FInv_ext; [|apply (IH _ _ (FInv_step _ _ _ HI Ho) Hok)]. intros x. simpl. lia.
Qed.
