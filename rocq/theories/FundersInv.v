(** * Funders: invariants of the machine. *)
From Verif Require Import Base BaseFacts Funders.

(** ** Coins *)
Lemma lookup_cfilter f c x : cfilter f c !! x = if f x then c !! x else None.
Proof.
  unfold cfilter. destruct (f x) eqn:E.
  - destruct (c !! x) as [v|] eqn:Ec.
    + by apply map_filter_lookup_Some_2.
    + apply map_filter_lookup_None_2. by left.
  - apply map_filter_lookup_None_2. right. intros v _. simpl. by rewrite E.
Qed.
Lemma amt_cfilter f c x : amt (cfilter f c) x = if f x then amt c x else 0.
Proof. unfold amt. rewrite lookup_cfilter. by destruct (f x). Qed.
Lemma cpos_cfilter f c : cpos c -> cpos (cfilter f c).
Proof. intros H x v. rewrite lookup_cfilter. destruct (f x); [apply H|done]. Qed.
Lemma has_denom_spec c x : cpos c -> has_denom c x = negb (amt c x =? 0).
Proof.
  intros H. unfold has_denom, amt. destruct (c !! x) as [v|] eqn:E.
  - rewrite bool_decide_eq_true_2 by eauto. simpl. specialize (H _ _ E). lia.
  - rewrite bool_decide_eq_false_2; [done|]. by intros [? ?].
Qed.
Lemma cpos_csub a b : (forall x, amt b x <= amt a x) -> cpos (csub a b).
Proof. intros H. apply cpos_of_amt; [apply cnz_cmerge|]. intros x. rewrite amt_csub. specialize (H x). lia. Qed.
Lemma cpos_cmin a b : cpos a -> cpos b -> cpos (cmin a b).
Proof.
  intros Ha Hb. apply cpos_of_amt; [apply cnz_cmerge|]. intros x. rewrite amt_cmin.
  pose proof (cpos_amt _ x Ha). pose proof (cpos_amt _ x Hb). lia.
Qed.
Lemma cpos_empty_iff c : cpos c -> (forall x, amt c x = 0) <-> c = ∅.
Proof.
  intros H. split; [|intros -> x; apply amt_empty]. intros H0.
  apply coins_ext; [by apply cpos_cnz|apply cnz_empty|]. intros x. by rewrite H0, amt_empty.
Qed.
Lemma cempty_false c : cempty c = false <-> c <> ∅.
Proof. rewrite <- not_true_iff_false, cempty_spec. done. Qed.
Lemma cle_bal b a c : (forall x, 0 <= amt c x <= bal b a x) -> cle c (bal_of b a) = true.
Proof. intros H. apply cle_amt; intros x; specialize (H x); unfold bal in H; lia. Qed.

(** ** The active list *)
Lemma index_of_None a l : index_of a l = None <-> a ∉ l.
Proof.
  induction l as [|b l IH]; simpl; [set_solver|].
  destruct (b =? a)%N eqn:E.
  - apply N.eqb_eq in E as ->. split; [done|]. set_solver.
  - apply N.eqb_neq in E. destruct (index_of a l) as [i|]; simpl.
    + split; [done|]. intros H. exfalso. destruct IH as [_ IH]. assert (a ∉ l) by set_solver. by specialize (IH H0).
    + split; [|done]. intros _. assert (a ∉ l) by (by apply IH). set_solver.
Qed.
Lemma index_of_Some a l i : index_of a l = Some i -> exists l1 l2, l = l1 ++ a :: l2 /\ length l1 = i.
Proof.
  revert i. induction l as [|b l IH]; simpl; intros i H; [done|].
  destruct (b =? a)%N eqn:E.
  - apply N.eqb_eq in E as ->. injection H as <-. by exists [], l.
  - destruct (index_of a l) as [j|]; simpl in H; [|done]. injection H as <-.
    destruct (IH j eq_refl) as (l1 & l2 & -> & <-). by exists (b :: l1), l2.
Qed.
Lemma set_inactive_perm l a : a ∈ l -> Permutation (a :: set_inactive l a) l.
Proof.
  intros Ha. unfold set_inactive. destruct (index_of a l) as [i|] eqn:E; [|by apply index_of_None in E].
  apply index_of_Some in E as (l1 & l2 & -> & <-).
  destruct (decide (l2 = [])) as [->|Hne].
  - rewrite last_app. simpl. rewrite insert_app_r_alt, Nat.sub_diag by lia. simpl.
    rewrite app_length. simpl. rewrite take_app_alt by lia. by rewrite Permutation_app_comm.
  - destruct (exists_last Hne) as (l2' & z & ->). 
    assert (last (l1 ++ a :: l2' ++ [z]) = Some z) as ->.
    { rewrite app_comm_cons, app_assoc. apply last_snoc. }
    simpl. rewrite insert_app_r_alt, Nat.sub_diag by lia. simpl.
    replace (l1 ++ z :: l2' ++ [z]) with ((l1 ++ z :: l2') ++ [z]) by (by rewrite <- app_assoc).
    rewrite take_app_alt.
    2:{ rewrite ?app_length; simpl; rewrite ?app_length; simpl; lia. }
    rewrite (Permutation_app_comm l1 (z :: l2')). rewrite (Permutation_app_comm l1 (a :: _)). simpl.
    constructor. rewrite app_comm_cons. rewrite <- (Permutation_cons_append l2' z). done.
Qed.
Lemma set_inactive_notin l a : a ∉ l -> set_inactive l a = l.
Proof. intros H. unfold set_inactive. apply index_of_None in H. by rewrite H. Qed.
Lemma set_inactive_elem l a b : NoDup l -> b ∈ set_inactive l a <-> b ∈ l /\ b <> a.
Proof.
  intros Hnd. destruct (decide (a ∈ l)) as [Ha|Ha].
  - pose proof (set_inactive_perm l a Ha) as HP. rewrite <- HP in Hnd. apply NoDup_cons in Hnd as [Hni _].
    assert (b ∈ l <-> b = a \/ b ∈ set_inactive l a) as -> by (rewrite <- elem_of_cons; by apply elem_of_Permutation_proper).
    split; [|naive_solver]. intros H. split; [by right|]. by intros ->.
  - rewrite set_inactive_notin by done. split; [|tauto]. intros H. split; [done|]. by intros ->.
Qed.
Lemma set_inactive_nodup l a : NoDup l -> NoDup (set_inactive l a).
Proof.
  intros Hnd. destruct (decide (a ∈ l)) as [Ha|Ha]; [|by rewrite set_inactive_notin].
  rewrite <- (set_inactive_perm l a Ha) in Hnd. by apply NoDup_cons in Hnd as [_ ?].
Qed.
Lemma set_inactive_length l a : (length (set_inactive l a) <= length l)%nat.
Proof.
  destruct (decide (a ∈ l)) as [Ha|Ha]; [|by rewrite set_inactive_notin].
  pose proof (Permutation_length (set_inactive_perm l a Ha)). simpl in *. lia.
Qed.
Lemma set_inactive_length_in l a : a ∈ l -> length l = S (length (set_inactive l a)).
Proof. intros Ha. by pose proof (Permutation_length (set_inactive_perm l a Ha)). Qed.
Lemma set_active_elem l a b : b ∈ set_active l a <-> b ∈ l \/ b = a.
Proof.
  unfold set_active. destruct (index_of a l) as [i|] eqn:E.
  - apply index_of_Some in E as (l1 & l2 & -> & _). set_solver.
  - rewrite elem_of_app, elem_of_list_singleton. done.
Qed.
Lemma set_active_nodup l a : NoDup l -> NoDup (set_active l a).
Proof.
  intros H. unfold set_active. destruct (index_of a l) eqn:E; [done|]. apply index_of_None in E.
  apply NoDup_app. split; [done|]. split; [|apply NoDup_singleton]. set_solver.
Qed.
Lemma set_active_in l a : a ∈ l -> set_active l a = l.
Proof. intros H. unfold set_active. destruct (index_of a l) eqn:E; [done|]. by apply index_of_None in E. Qed.
Lemma set_active_length l a : (length (set_active l a) <= S (length l))%nat.
Proof. unfold set_active. destruct (index_of a l); [lia|]. rewrite app_length. simpl. lia. Qed.

(** ** One charge *)
Definition fpos (f : funding) : Prop := cpos (fd_amounts f) /\ cpos (fd_apb f) /\ cpos (fd_total f).

Lemma charge_one_spec l f : fpos f ->
  let f' := fst (charge_one l f) in
  let pay := snd (charge_one l f) in
  fpos f' /\ cpos pay /\ forall x,
  amt pay x = (if listed l x then Z.min (amt (fd_amounts f) x) (amt (fd_apb f) x) else 0) /\
  amt (fd_amounts f') x = amt (fd_amounts f) x - amt pay x /\
  amt (fd_total f') x = amt (fd_total f) x + amt pay x /\
  amt (fd_apb f') x = (if amt (fd_amounts f') x =? 0 then 0 else amt (fd_apb f) x).
Proof.
  intros (Ha & Hb & Ht). cbv zeta. unfold charge_one. cbn [fst snd clean_apb fd_amounts fd_apb fd_total].
  set (pay := cfilter (listed l) (cmin (fd_amounts f) (fd_apb f))).
  assert (Hpay : forall x, amt pay x = if listed l x then Z.min (amt (fd_amounts f) x) (amt (fd_apb f) x) else 0).
  { intros x. unfold pay. rewrite amt_cfilter, amt_cmin. done. }
  assert (Hpp : cpos pay) by (apply cpos_cfilter, cpos_cmin; done).
  assert (Hle : forall x, 0 <= amt pay x <= amt (fd_amounts f) x).
  { intros x. rewrite Hpay. pose proof (cpos_amt _ x Ha). pose proof (cpos_amt _ x Hb). destruct (listed l x); lia. }
  assert (Hs : cpos (csub (fd_amounts f) pay)) by (apply cpos_csub; intros x; apply Hle).
  split; [|split; [done|]].
  - split; [done|]. split; [by apply cpos_cfilter|by apply cpos_cadd].
  - intros x. split; [apply Hpay|]. rewrite amt_csub, amt_cadd. split; [done|]. split; [done|].
    rewrite amt_cfilter, has_denom_spec by done. rewrite amt_csub. by destruct (_ =? 0).
Qed.

(** ** The state *)
Definition rem (st : fstate) (a p x : N) : Z :=
  match fs_fundings st !! (a, p) with Some f => amt (fd_amounts f) x | None => 0 end.
Definition tot (st : fstate) (a p x : N) : Z :=
  match fs_fundings st !! (a, p) with Some f => amt (fd_total f) x | None => 0 end.
Definition sum_rem (st : fstate) (x : N) : Z := msum (fun _ f => amt (fd_amounts f) x) (fs_fundings st).
Definition sum_tot (st : fstate) (p x : N) : Z :=
  msum (fun k f => if (snd k =? p)%N then amt (fd_total f) x else 0) (fs_fundings st).

Record FInv (base : N -> Z) (st : fstate) : Prop := {
  fi_params : fparams_ok (fs_params st);
  fi_pos : forall k f, fs_fundings st !! k = Some f -> fpos f;
  fi_state : forall a p f, fs_fundings st !! (a, p) = Some f -> is_Some (fs_active st !! p);
  fi_act : forall p l, fs_active st !! p = Some l -> NoDup l /\ (length l <= MAX_FUNDERS)%nat;
  fi_found : forall p l a, fs_active st !! p = Some l -> a ∈ l -> is_Some (fs_fundings st !! (a, p));
  fi_nonzero : forall a p f l, fs_fundings st !! (a, p) = Some f -> fd_amounts f <> ∅ ->
                 fs_active st !! p = Some l -> a ∈ l;
  fi_halt : fs_halt st = false;
  fi_base : forall x, 0 <= base x;
  fi_bank : forall x, bal (fs_bank st) MFunders x = base x + sum_rem st x
}.

Lemma active_fundings_elem st p l a f :
  (a, f) ∈ active_fundings st p l <-> a ∈ l /\ fs_fundings st !! (a, p) = Some f.
Proof.
  unfold active_fundings. rewrite elem_of_list_omap. split.
  - intros (b & Hb & H). destruct (fs_fundings st !! (b, p)) eqn:E; [|done]. simpl in H. by simplify_eq.
  - intros [Ha Hf]. exists a. split; [done|]. by rewrite Hf.
Qed.
Lemma active_fundings_fst st p l :
  (forall a, a ∈ l -> is_Some (fs_fundings st !! (a, p))) -> map fst (active_fundings st p l) = l.
Proof.
  induction l as [|a l IH]; intros H; [done|]. unfold active_fundings in *. simpl.
  destruct (H a) as [f Hf]; [set_solver|]. rewrite Hf. simpl. f_equal. apply IH. set_solver.
Qed.
Lemma active_fundings_length st p l :
  (forall a, a ∈ l -> is_Some (fs_fundings st !! (a, p))) -> length (active_fundings st p l) = length l.
Proof. intros H. rewrite <- (active_fundings_fst st p l H) at 2. by rewrite map_length. Qed.

(** *** Charging *)
Definition pay_sum (l : list wentry) (afs : list (N * funding)) (x : N) : Z :=
  foldr (fun af z => amt (snd (charge_one l (snd af))) x + z) 0 afs.

Lemma charge_loop l p afs : forall st act pays st' act' pays',
  fold_left (charge_step l p) afs (st, act, pays) = (st', act', pays') ->
  NoDup (map fst afs) ->
  (forall a f, (a, f) ∈ afs -> fs_fundings st !! (a, p) = Some f /\ fpos f) ->
  cpos pays -> NoDup act ->
  fs_params st' = fs_params st /\ fs_funders st' = fs_funders st /\ fs_active st' = fs_active st /\
  fs_bank st' = fs_bank st /\ fs_halt st' = fs_halt st /\
  (forall k, (forall f, ~ (snd k = p /\ (fst k, f) ∈ afs)) -> fs_fundings st' !! k = fs_fundings st !! k) /\
  (forall a f, (a, f) ∈ afs -> fs_fundings st' !! (a, p) = Some (fst (charge_one l f))) /\
  cpos pays' /\ (forall x, amt pays' x = amt pays x + pay_sum l afs x) /\
  (forall x, sum_rem st' x = sum_rem st x - pay_sum l afs x) /\
  (forall q x, sum_tot st' q x = sum_tot st q x + if (q =? p)%N then pay_sum l afs x else 0) /\
  NoDup act' /\ (length act' <= length act)%nat /\
  (forall b, b ∈ act' <-> b ∈ act /\ forall f, (b, f) ∈ afs -> fd_amounts (fst (charge_one l f)) <> ∅).
Proof.
  induction afs as [|[a f] afs IH]; intros st act pays st' act' pays' H Hnd Hin Hpays Hact.
  - simpl in H. simplify_eq. repeat split; try done; try (intros; simpl; lia).
    + intros a f H. set_solver.
    + intros q x. simpl. destruct (_ =? _)%N; lia.
    + intros f H0. set_solver.
    + tauto.
  - simpl map in Hnd. apply NoDup_cons in Hnd as [Hni Hnd].
    cbn [fold_left charge_step] in H.
    destruct (Hin a f) as [Hf Hfp]; [left|].
    pose proof (charge_one_spec l f Hfp) as HC. cbv zeta in HC.
    destruct (charge_one l f) as [f' pay] eqn:Ec. cbn [fst snd] in HC. destruct HC as (Hf'p & Hpay & HC).
    assert (Hnot : forall g, (a, g) ∉ afs).
    { intros g Hg. apply Hni. apply elem_of_list_fmap. by exists (a, g). }
    apply IH in H; clear IH; [|done| |by apply cpos_cadd|by destruct (cempty _); [apply set_inactive_nodup|]].
    2:{ intros b g Hb. cbn [set_funding fs_fundings]. rewrite lookup_insert_ne.
        - apply Hin. by right.
        - intros [= <-]. by apply (Hnot g). }
    cbn [set_funding fs_params fs_funders fs_active fs_bank fs_halt fs_fundings] in H.
    destruct H as (H1 & H2 & H3 & H4 & H5 & H6 & H7 & H8 & H9 & H10 & H11 & H12 & H13 & H14).
    split; [done|]. split; [done|]. split; [done|]. split; [done|]. split; [done|].
    split.
    { intros k Hk. rewrite H6. 2:{ intros g [Hg1 Hg2]. apply (Hk g). split; [done|]. by right. }
      rewrite lookup_insert_ne; [done|]. intros <-. apply (Hk f). split; [done|]. left. }
    split.
    { intros b g Hb. apply elem_of_cons in Hb as [[= -> ->]|Hb].
      - rewrite H6. + rewrite lookup_insert. by rewrite Ec. + intros g [_ Hg]. by apply (Hnot g).
      - by apply H7. }
    split; [done|].
    assert (Hps : forall x, pay_sum l ((a, f) :: afs) x = amt pay x + pay_sum l afs x).
    { intros x. unfold pay_sum. cbn [foldr snd]. by rewrite Ec. }
    split. { intros x. rewrite H9, amt_cadd, Hps. lia. }
    split. { intros x. rewrite H10, Hps. unfold sum_rem. cbn [set_funding fs_fundings]. rewrite msum_insert, Hf.
             destruct (HC x) as (_ & -> & _). lia. }
    split. { intros q x. rewrite H11, Hps. unfold sum_tot. cbn [set_funding fs_fundings]. rewrite msum_insert, Hf. cbn [snd].
             destruct (HC x) as (_ & _ & -> & _). rewrite (N.eqb_sym p q). destruct (q =? p)%N; lia. }
    split; [done|].
    split. { etransitivity; [exact H13|]. destruct (cempty _); [apply set_inactive_length|done]. }
    intros b. rewrite H14.
    assert (Hb : b ∈ (if cempty (fd_amounts f') then set_inactive act a else act)
                 <-> b ∈ act /\ (b = a -> fd_amounts f' <> ∅)).
    { destruct (cempty (fd_amounts f')) eqn:Ee.
      - apply cempty_spec in Ee. rewrite set_inactive_elem by done. split; intros [? ?]; split; try done; naive_solver.
      - apply cempty_false in Ee. split; [intros; by split|tauto]. }
    rewrite Hb. split.
    + intros [[Hb1 Hb2] Hb3]. split; [done|]. intros g Hg. apply elem_of_cons in Hg as [[= -> ->]|Hg].
      * rewrite Ec. by apply Hb2. * by apply Hb3.
    + intros [Hb1 Hb2]. split; [split; [done|]|].
      * intros ->. specialize (Hb2 f). rewrite Ec in Hb2. apply Hb2. left.
      * intros g Hg. apply Hb2. by right.
Qed.

Lemma pay_sum_bound l p afs st x :
  NoDup (map fst afs) -> (forall k f, fs_fundings st !! k = Some f -> fpos f) ->
  (forall a f, (a, f) ∈ afs -> fs_fundings st !! (a, p) = Some f) ->
  0 <= pay_sum l afs x <= sum_rem st x.
Proof.
  intros Hnd Hpos Hin.
  assert (HX : forall m : gmap (N * N) funding, (forall k f, m !! k = Some f -> fpos f) ->
    (forall a f, (a, f) ∈ afs -> m !! (a, p) = Some f) ->
    0 <= pay_sum l afs x <= msum (fun _ f => amt (fd_amounts f) x) m); [|by apply HX].
  clear st Hpos Hin. induction afs as [|[a f] afs IH]; intros m Hpos Hin.
  - simpl. split; [done|]. apply msum_nonneg. intros k f Hk. apply cpos_amt. by apply (Hpos k f Hk).
  - simpl map in Hnd. apply NoDup_cons in Hnd as [Hni Hnd]. cbn [pay_sum foldr snd].
    specialize (IH Hnd (delete (a, p) m)).
    assert (Hf : m !! (a, p) = Some f) by (apply Hin; left).
    rewrite (msum_delete _ m _ f Hf) in IH.
    destruct IH as [H1 H2].
    + intros k g Hk. apply lookup_delete_Some in Hk as [_ Hk]. by eapply Hpos.
    + intros b g Hb. rewrite lookup_delete_ne; [apply Hin; by right|].
      intros [= <-]. apply Hni. apply elem_of_list_fmap. by exists (a, g).
    + pose proof (Hpos _ _ Hf) as Hfp. pose proof (charge_one_spec l f Hfp) as (_ & Hpy & HC). cbv zeta in HC.
      destruct (HC x) as (HC1 & _). pose proof (cpos_amt _ x Hpy). destruct Hfp as (Ha & Hb & _).
      pose proof (cpos_amt _ x Ha). pose proof (cpos_amt _ x Hb). unfold pay_sum in *.
      destruct (listed l x); lia.
Qed.

(** Full description of a charge in a state satisfying the invariant. *)
Lemma charge_spec base st p r : FInv base st ->
  match r with MFunders | User _ => False | _ => True end ->
  let st' := fst (charge_funders st p r) in
  FInv base st' /\ fs_params st' = fs_params st /\ fs_funders st' = fs_funders st /\
  (fs_active st !! p = None -> st' = st /\ snd (charge_funders st p r) = None) /\
  forall l, fs_active st !! p = Some l ->
  exists pays, snd (charge_funders st p r) = Some pays /\ cpos pays /\
    (forall q, q <> p -> fs_active st' !! q = fs_active st !! q) /\
    (forall k, ~ (snd k = p /\ fst k ∈ l) -> fs_fundings st' !! k = fs_fundings st !! k) /\
    (forall a f, a ∈ l -> fs_fundings st !! (a, p) = Some f ->
       fs_fundings st' !! (a, p) = Some (fst (charge_one (wl st) f))) /\
    (forall a x, bal (fs_bank st') a x = bal (fs_bank st) a x
       + (if decide (a = r) then amt pays x else 0) - (if decide (a = MFunders) then amt pays x else 0)) /\
    (forall x, amt pays x = sum_rem st x - sum_rem st' x) /\
    (forall q x, sum_tot st' q x = sum_tot st q x + if (q =? p)%N then amt pays x else 0) /\
    (exists l', fs_active st' !! p = Some l' /\
       forall b, b ∈ l' <-> b ∈ l /\ forall f, fs_fundings st' !! (b, p) = Some f -> fd_amounts f <> ∅).
Proof.
  intros HI Hr. cbv zeta. unfold charge_funders.
  destruct (fs_active st !! p) as [l|] eqn:El.
  2:{ cbn [fst snd]. split; [done|]. split; [done|]. split; [done|]. split; [done|]. intros ? [=]. }
  destruct (fi_act _ _ HI _ _ El) as [Hnd Hlen].
  pose proof (fun a => fi_found _ _ HI p l a El) as Hfound.
  pose proof (active_fundings_fst st p l Hfound) as Hfst.
  destruct (active_fundings st p l) as [|af0 afs0] eqn:Eafs.
  { cbn [fst snd]. split; [done|]. split; [done|]. split; [done|]. split; [done|].
    intros l0 [= <-]. exists ∅. simpl in Hfst. subst l. split; [done|]. split; [apply cpos_empty|].
    split; [done|]. split; [done|]. split; [set_solver|]. split.
    { intros a x. rewrite amt_empty. repeat case_decide; lia. }
    split; [intros; rewrite amt_empty; lia|]. split; [intros q x; rewrite amt_empty; destruct (_ =? _)%N; lia|].
    exists []. split; [done|]. set_solver. }
  rewrite <- Eafs in *. clear Eafs af0 afs0.
  assert (Hin : forall a f, (a, f) ∈ active_fundings st p l -> fs_fundings st !! (a, p) = Some f /\ fpos f).
  { intros a f Haf. apply active_fundings_elem in Haf as [_ Haf]. split; [done|]. by eapply fi_pos. }
  set (afs := active_fundings st p l) in *.
  destruct (fold_left (charge_step (wl st) p) afs (st, l, ∅)) as [[st1 act] pays] eqn:Ef.
  assert (Hnd' : NoDup (map fst afs)) by (by rewrite Hfst).
  destruct (charge_loop _ _ _ _ _ _ _ _ _ Ef Hnd' Hin cpos_empty Hnd)
    as (H1 & H2 & H3 & H4 & H5 & H6 & H7 & H8 & H9 & H10 & H11 & H12 & H13 & H14).
  assert (Hps : forall x, amt pays x = pay_sum (wl st) afs x) by (intros x; rewrite H9, amt_empty; lia).
  assert (Hpb : forall x, 0 <= amt pays x <= sum_rem st x).
  { intros x. rewrite Hps. eapply pay_sum_bound; [done|apply HI|]. intros a f Haf. by apply Hin. }
  assert (Hl' : forall b, b ∈ act <-> b ∈ l /\ forall f, fs_fundings st1 !! (b, p) = Some f -> fd_amounts f <> ∅).
  { intros b. rewrite H14. split; intros [Hb1 Hb2]; (split; [done|]); intros f Hf.
    - destruct (Hfound b Hb1) as [g Hg].
      assert ((b, g) ∈ afs) as Hbg by (by apply active_fundings_elem). rewrite (H7 _ _ Hbg) in Hf. simplify_eq. by apply Hb2.
    - apply Hb2. by apply H7. }
  (* the bank *)
  assert (exists bk, (if cempty pays then (set_fstate st1 p act, Some pays)
     else match send (fs_bank (set_fstate st1 p act)) MFunders r pays with
          | Some b => (fwith_bank (set_fstate st1 p act) b, Some pays)
          | None => (set_fstate st1 p act, None) end)
     = (fwith_bank (set_fstate st1 p act) bk, Some pays) /\
     forall a x, bal bk a x = bal (fs_bank st) a x
       + (if decide (a = r) then amt pays x else 0) - (if decide (a = MFunders) then amt pays x else 0))
    as (bk & -> & Hbk).
  { destruct (cempty pays) eqn:Ee.
    - apply cempty_spec in Ee. subst pays. exists (fs_bank st1). split.
      + destruct st1. done.
      + intros a x. rewrite H4, amt_empty. repeat case_decide; lia.
    - cbn [set_fstate fs_bank]. rewrite H4. destruct (send (fs_bank st) MFunders r pays) as [bk|] eqn:Es.
      + exists bk. split; [done|]. intros a x. apply send_Some in Es as [_ Es]. rewrite Es.
        repeat case_decide; simplify_eq; lia.
      + exfalso. apply send_None in Es; [|done]. assert (cle pays (bal_of (fs_bank st) MFunders) = true); [|congruence].
        apply cle_bal. intros x. rewrite (fi_bank _ _ HI). pose proof (fi_base _ _ HI x). specialize (Hpb x). lia. }
  cbn [fst snd].
  assert (Hact : forall q, q <> p -> fs_active (fwith_bank (set_fstate st1 p act) bk) !! q = fs_active st !! q).
  { intros q Hq. cbn [fwith_bank set_fstate fs_active]. rewrite lookup_insert_ne by done. by rewrite H3. }
  assert (Hactp : fs_active (fwith_bank (set_fstate st1 p act) bk) !! p = Some act).
  { cbn [fwith_bank set_fstate fs_active]. by rewrite lookup_insert. }
  assert (Hfund : forall k, fs_fundings st1 !! k = 
     if decide (snd k = p /\ fst k ∈ l) then (fun f => fst (charge_one (wl st) f)) <$> fs_fundings st !! k
     else fs_fundings st !! k).
  { intros [a q]. cbn [fst snd]. destruct (decide _) as [[-> Ha]|Hn].
    - destruct (Hfound a Ha) as [f Hf]. rewrite Hf. simpl. apply H7. by apply active_fundings_elem.
    - apply H6. cbn [fst snd]. intros f [-> Hf]. apply Hn. split; [done|]. by apply active_fundings_elem in Hf as [? _]. }
  split; [|split; [by cbn; rewrite H1|split; [by cbn; rewrite H2|split; [done|]]]].
  - constructor; cbn [fwith_bank set_fstate fs_params fs_fundings fs_active fs_halt fs_bank].
    + rewrite H1. apply HI.
    + intros k f Hk. rewrite Hfund in Hk. case_decide.
      * destruct (fs_fundings st !! k) as [g|] eqn:Eg; [|done]. simpl in Hk. injection Hk as <-.
        apply charge_one_spec. by eapply fi_pos.
      * by eapply fi_pos.
    + intros a q f Hk. rewrite Hfund in Hk. destruct (decide (q = p)) as [->|]; [rewrite lookup_insert; by eexists|].
      rewrite lookup_insert_ne, H3 by done. rewrite decide_False in Hk by (cbn; tauto). by eapply fi_state.
    + intros q l0. destruct (decide (q = p)) as [->|].
      * rewrite lookup_insert. intros [= <-]. split; [done|]. lia.
      * rewrite lookup_insert_ne, H3 by done. apply HI.
    + intros q l0 a. destruct (decide (q = p)) as [->|].
      * rewrite lookup_insert. intros [= <-] Ha. apply Hl' in Ha as [Ha _]. rewrite Hfund.
        rewrite decide_True by done. destruct (Hfound a Ha) as [f ->]. by eexists.
      * rewrite lookup_insert_ne, H3 by done. rewrite Hfund, decide_False by (cbn; tauto). apply HI.
    + intros a q f l0. destruct (decide (q = p)) as [->|].
      * intros Hf Hne. rewrite lookup_insert. intros [= <-]. apply Hl'.
        assert (a ∈ l) as Ha.
        { rewrite Hfund in Hf. destruct (decide _) as [[_ Ha]|Hn]; [done|]. by eapply fi_nonzero. }
        split; [done|]. intros g Hg. by simplify_eq.
      * rewrite Hfund, decide_False by (cbn; tauto). rewrite lookup_insert_ne, H3 by done. apply HI.
    + rewrite H5. apply HI.
    + apply HI.
    + intros x. rewrite Hbk. rewrite decide_False by (by intros <-). rewrite decide_True by done.
      change (sum_rem (fwith_bank (set_fstate st1 p act) bk) x) with (sum_rem st1 x).
      rewrite H10, (fi_bank _ _ HI), Hps. lia.
  - intros l0 [= <-]. exists pays. split; [done|]. split; [done|]. split; [done|]. split.
    { intros k Hn. cbn [fwith_bank set_fstate fs_fundings]. by rewrite Hfund, decide_False. }
    split. { intros a f Ha Hf. cbn [fwith_bank set_fstate fs_fundings]. rewrite Hfund, decide_True by done. by rewrite Hf. }
    split; [done|]. split.
    { intros x. change (sum_rem (fwith_bank (set_fstate st1 p act) bk) x) with (sum_rem st1 x). rewrite H10, Hps. lia. }
    split. { intros q x. change (sum_tot (fwith_bank (set_fstate st1 p act) bk) q x) with (sum_tot st1 q x).
             rewrite H11, Hps. done. }
    exists act. split; [done|]. done.
Qed.
