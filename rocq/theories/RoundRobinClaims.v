(** * Uploader selection: proofs about RoundRobin.v. *)
From Verif Require Import Base BaseFacts RoundRobin.

(** ** Specification vocabulary *)
(** Stakers that can be selected, in store order. *)
Definition eligible (stakers : list (N * Z)) : list (N * Z) := List.filter (fun p => 0 <? snd p) stakers.
Definition weight (stakers : list (N * Z)) : Z := foldr (fun p a => snd p + a) 0 (eligible stakers).
Definition stakers_ok (stakers : list (N * Z)) : Prop :=
  NoDup (map fst stakers) /\ Forall (fun p => 0 <= snd p < two63) stakers.
(** [n] selections in a row without exclusions, with the progress stored in between. *)
Fixpoint selections (n : nat) (stakers : list (N * Z)) (stored : gmap N Z) : list N * gmap N Z :=
  match n with
  | O => ([], stored)
  | S n => let '(us, st) := selections n stakers stored in
           let '(u, st') := choose_next stakers st [] in (us ++ [u], st')
  end.
Definition times_selected (a : N) (us : list N) : Z := Z.of_nat (length (List.filter (fun u => u =? a)%N us)).
(** The progress is stored for exactly the eligible stakers, their values differ by at most
    twice the total weight (the protocol does not rescale them) and add up to almost zero. *)
Definition level (stakers : list (N * Z)) (stored : gmap N Z) : Prop :=
  forall p q, p ∈ eligible stakers -> q ∈ eligible stakers ->
  default 0 (stored !! fst p) - default 0 (stored !! fst q) <= 2 * weight stakers.

(** ** Lists *)
Lemma foldr_add_nonneg (f : rrv -> Z) l : (forall v, v ∈ l -> 0 <= f v) -> 0 <= foldr (fun v a => f v + a) 0 l.
Proof.
  induction l as [|v l IH]; simpl; [lia|]. intros H. pose proof (H v ltac:(constructor)).
  assert (0 <= foldr (fun v a => f v + a) 0 l) by (apply IH; intros; apply H; by constructor). lia.
Qed.
Lemma power_elem l v : (forall v, v ∈ l -> 0 <= rv_power v) -> v ∈ l -> rv_power v <= rr_power l.
Proof.
  unfold rr_power. induction l as [|u l IH]; simpl; [by intros _ ?%elem_of_nil|]. intros H [->|Hv]%elem_of_cons.
  - pose proof (foldr_add_nonneg rv_power l ltac:(intros; apply H; by constructor)). lia.
  - pose proof (H u ltac:(constructor)). specialize (IH ltac:(intros; apply H; by constructor) Hv). lia.
Qed.
Lemma memb_spec a l : memb a l = true <-> a ∈ l.
Proof.
  unfold memb. rewrite existsb_exists. split.
  - intros (x & Hx & E). apply N.eqb_eq in E as ->. by apply elem_of_list_In.
  - intros H. exists a. split; [by apply elem_of_list_In|apply N.eqb_refl].
Qed.
Lemma memb_false a l : memb a l = false <-> a ∉ l.
Proof. rewrite <- memb_spec. by destruct (memb a l). Qed.

(** Address and power are never changed. *)
Definition key (v : rrv) : N * Z := (rv_addr v, rv_power v).
Lemma key_with_prog f l : map key (map (fun v => with_prog v (f v)) l) = map key l.
Proof. rewrite map_map. by apply map_ext. Qed.
Lemma key_addr l l' : map key l = map key l' -> map rv_addr l = map rv_addr l'.
Proof.
  intros H. assert (map fst (map key l) = map fst (map key l')) by by rewrite H.
  rewrite !map_map in H0. by simpl in H0.
Qed.
Lemma key_power l l' : map key l = map key l' -> rr_power l = rr_power l'.
Proof.
  unfold rr_power. revert l'. induction l as [|v l IH]; intros [|v' l']; try done.
  intros [= H1 H2 H3]. simpl. rewrite (IH l') by done. by rewrite H2.
Qed.
Lemma key_length l l' : map key l = map key l' -> length l = length l'.
Proof. intros H. rewrite <- (map_length key l), <- (map_length key l'). by rewrite H. Qed.
Lemma key_scale l : map key (rr_scale l) = map key l.
Proof. unfold rr_scale. destruct (_ <? _); [apply key_with_prog|done]. Qed.
Lemma key_center l : map key (rr_center l) = map key l.
Proof. apply key_with_prog. Qed.
Lemma key_normalize l : map key (rr_normalize l) = map key l.
Proof. destruct l; [done|]. unfold rr_normalize. by rewrite key_center, key_scale. Qed.
Lemma key_advance ex l : map key (rr_advance ex l) = map key l.
Proof. unfold rr_advance. rewrite map_map. apply map_ext. intros v. by destruct (memb _ _). Qed.
Lemma key_charge a x l : map key (rr_charge a x l) = map key l.
Proof. unfold rr_charge. rewrite map_map. apply map_ext. intros v. by destruct (_ =? _)%N. Qed.

Lemma key_load stakers stored : map key (rr_load stakers stored) = map (fun p => (fst p, i64 (snd p))) (eligible stakers).
Proof.
  unfold rr_load. rewrite key_normalize, map_map. by apply map_ext.
Qed.
Lemma addr_load stakers stored : map rv_addr (rr_load stakers stored) = map fst (eligible stakers).
Proof.
  pose proof (key_load stakers stored) as H.
  assert (H2 : map fst (map key (rr_load stakers stored)) = map fst (map (fun p => (fst p, i64 (snd p))) (eligible stakers))) by by rewrite H.
  rewrite !map_map in H2. by simpl in H2.
Qed.
Lemma best_elem ex cur l : rr_best ex cur l = cur \/ rr_best ex cur l ∈ l /\ memb (rv_addr (rr_best ex cur l)) ex = false.
Proof.
  unfold rr_best. revert cur. induction l as [|v l IH]; intros cur; simpl; [by left|].
  destruct (memb (rv_addr v) ex) eqn:E.
  - destruct (IH cur) as [->|[H1 H2]]; [by left|right]. split; [by constructor|done].
  - destruct (rv_prog cur <? rv_prog v).
    + destruct (IH v) as [->|[H1 H2]]; right; split; [by constructor|done|by constructor|done].
    + destruct (IH cur) as [->|[H1 H2]]; [by left|right]. split; [by constructor|done].
Qed.

Lemma next_spec ex l : l <> [] ->
  let l1 := rr_normalize l in
  let ex' := if (length ex =? length l1)%nat then [] else ex in
  let l2 := rr_advance ex' l1 in
  exists v t, l2 = v :: t /\
  rr_next ex l = (rv_addr (rr_best ex' v l2), rr_charge (rv_addr (rr_best ex' v l2)) (rr_power l2 - rr_excluded_power ex' l2) l2).
Proof.
  intros Hl. cbv zeta.
  assert (H : length (rr_advance (if (length ex =? length (rr_normalize l))%nat then [] else ex) (rr_normalize l)) = length l).
  { rewrite (key_length _ _ (key_advance _ _)), (key_length _ _ (key_normalize _)). done. }
  destruct (rr_advance _ _) as [|v t] eqn:E; [by destruct l|].
  exists v, t. split; [done|]. unfold rr_next. destruct l; [done|]. by rewrite E.
Qed.
Lemma next_addr ex l : l <> [] -> fst (rr_next ex l) ∈ map rv_addr l.
Proof.
  intros Hl. destruct (next_spec ex l Hl) as (v & t & E & ->). cbn [fst].
  rewrite <- (key_addr _ _ (key_normalize l)).
  rewrite <- (key_addr _ _ (key_advance (if (length ex =? length (rr_normalize l))%nat then [] else ex) (rr_normalize l))).
  rewrite E. apply elem_of_list_fmap_1.
  destruct (best_elem (if (length ex =? length (rr_normalize l))%nat then [] else ex) v (v :: t)) as [->|[H _]]; [constructor|done].
Qed.
(** The first validator is not excluded: the selected one is not excluded either. *)
Lemma next_not_excluded ex l : (length ex =? length l)%nat = false -> hd 0%N (map rv_addr l) ∉ ex -> l <> [] ->
  fst (rr_next ex l) ∉ ex.
Proof.
  intros Hlen Hhd Hl. destruct (next_spec ex l Hl) as (v & t & E & ->). cbn [fst].
  rewrite (key_length _ _ (key_normalize l)), Hlen in *.
  assert (Hv : rv_addr v = hd 0%N (map rv_addr l)).
  { rewrite <- (key_addr _ _ (key_normalize l)), <- (key_addr _ _ (key_advance ex (rr_normalize l))), E. done. }
  rewrite E. destruct (best_elem ex v (v :: t)) as [->|[_ H]]; [by rewrite Hv|by apply memb_false].
Qed.

Lemma filter_length_le {A} (f : A -> bool) l : (length (List.filter f l) <= length l)%nat.
Proof. induction l as [|x l IH]; simpl; [done|]. destruct (f x); simpl; lia. Qed.

(** ** C25 *)
Lemma elig_in stakers a : a ∈ map fst (eligible stakers) <-> exists w, (a, w) ∈ stakers /\ 0 < w.
Proof.
  unfold eligible. rewrite elem_of_list_fmap. split.
  - intros ([b w] & -> & H). apply elem_of_list_In, filter_In in H as [H1 H2]. apply elem_of_list_In in H1. simpl in *. exists w. split; [done|lia].
  - intros (w & H1 & H2). exists (a, w). split; [done|]. apply elem_of_list_In, filter_In. split; [by apply elem_of_list_In|]. simpl. lia.
Qed.
Lemma load_nil stakers stored : rr_load stakers stored = [] <-> eligible stakers = [].
Proof.
  pose proof (addr_load stakers stored) as H. split; intros E; rewrite E in H; simpl in H.
  - by destruct (eligible stakers).
  - by destruct (rr_load stakers stored).
Qed.

Lemma choose_fst stakers stored ex : fst (choose_next stakers stored ex) = fst (rr_next ex (rr_load stakers stored)).
Proof. unfold choose_next. by destruct (rr_next _ _). Qed.
Lemma choose_from_fst stakers stored incl :
  fst (choose_next_from stakers stored incl)
  = fst (rr_next (List.filter (fun a => negb (memb a incl)) (map rv_addr (rr_load stakers stored))) (rr_load stakers stored)).
Proof. unfold choose_next_from. by destruct (rr_next _ _). Qed.

Lemma claim_selected stakers stored ex :
  (exists a w, (a, w) ∈ stakers /\ 0 < w) ->
  exists w, (fst (choose_next stakers stored ex), w) ∈ stakers /\ 0 < w.
Proof.
  intros (a & w & Ha & Hw). apply elig_in. rewrite choose_fst, <- (addr_load stakers stored). apply next_addr.
  intros E. apply load_nil in E. assert (a ∈ map fst (eligible stakers)) as Hin by (apply elig_in; eauto).
  rewrite E in Hin. by apply elem_of_nil in Hin.
Qed.
Lemma claim_selected_from stakers stored incl :
  (exists a w, (a, w) ∈ stakers /\ 0 < w) ->
  exists w, (fst (choose_next_from stakers stored incl), w) ∈ stakers /\ 0 < w.
Proof.
  intros (a & w & Ha & Hw). apply elig_in. rewrite choose_from_fst, <- (addr_load stakers stored). apply next_addr.
  intros E. apply load_nil in E. assert (a ∈ map fst (eligible stakers)) as Hin by (apply elig_in; eauto).
  rewrite E in Hin. by apply elem_of_nil in Hin.
Qed.
Lemma claim_selected_none stakers stored ex incl : (forall a w, (a, w) ∈ stakers -> w <= 0) ->
  fst (choose_next stakers stored ex) = 0%N /\ fst (choose_next_from stakers stored incl) = 0%N.
Proof.
  intros H. assert (E : eligible stakers = []).
  { destruct (eligible stakers) as [|p l] eqn:E; [done|].
    assert (Hp : fst p ∈ map fst (eligible stakers)) by (rewrite E; simpl; constructor).
    apply elig_in in Hp as (w & Hw & H0). specialize (H _ _ Hw). lia. }
  rewrite choose_fst, choose_from_fst. apply (load_nil stakers stored) in E. by rewrite E.
Qed.

(** [first_eligible]: the eligible staker that comes first in the store. *)
Definition first_eligible (stakers : list (N * Z)) : option N := head (map fst (eligible stakers)).
Lemma claim_skip stakers stored s a :
  NoDup (map fst stakers) -> first_eligible stakers = Some a -> a <> s -> fst (choose_next stakers stored [s]) <> s.
Proof.
  intros HN Ha Hne. rewrite choose_fst. set (l := rr_load stakers stored).
  assert (Hm : map rv_addr l = map fst (eligible stakers)) by apply addr_load.
  assert (Hl : l <> []). { intros E. rewrite E in Hm. unfold first_eligible in Ha. by rewrite <- Hm in Ha. }
  assert (Hhd : hd 0%N (map rv_addr l) = a).
  { rewrite Hm. unfold first_eligible in Ha. destruct (map fst (eligible stakers)); [done|]. simpl in *. by injection Ha. }
  destruct (decide (length l = 1%nat)) as [E|E].
  - pose proof (next_addr [s] l Hl) as Hin. revert Hin. generalize (fst (rr_next [s] l)). intros u Hin.
    destruct l as [|v [|]]; try done. simpl in Hin, Hhd. apply elem_of_list_singleton in Hin. congruence.
  - pose proof (next_not_excluded [s] l ltac:(apply Nat.eqb_neq; simpl; lia) ltac:(rewrite Hhd; by intros ?%elem_of_list_singleton) Hl) as H.
    intros H2. apply H. rewrite H2. constructor.
Qed.
Lemma claim_from stakers stored incl a :
  first_eligible stakers = Some a -> a ∈ incl -> fst (choose_next_from stakers stored incl) ∈ incl.
Proof.
  intros Ha Hin. rewrite choose_from_fst. set (l := rr_load stakers stored).
  assert (Hm : map rv_addr l = map fst (eligible stakers)) by apply addr_load.
  assert (Hl : l <> []). { intros E. rewrite E in Hm. unfold first_eligible in Ha. by rewrite <- Hm in Ha. }
  assert (Hhd : hd 0%N (map rv_addr l) = a).
  { rewrite Hm. unfold first_eligible in Ha. destruct (map fst (eligible stakers)); [done|]. simpl in *. by injection Ha. }
  set (ex := List.filter (fun a => negb (memb a incl)) (map rv_addr l)).
  assert (Hx : forall b, b ∈ map rv_addr l -> b ∉ ex -> b ∈ incl).
  { intros b Hb Hn. destruct (memb b incl) eqn:E; [by apply memb_spec|]. exfalso. apply Hn. unfold ex.
    apply elem_of_list_In, filter_In. split; [by apply elem_of_list_In|]. by rewrite E. }
  apply Hx; [by apply next_addr|]. apply next_not_excluded; [|rewrite Hhd|done].
  - apply Nat.eqb_neq. unfold ex. destruct l as [|v t] eqn:El; [done|]. simpl in *. rewrite Hhd. subst a.
    apply memb_spec in Hin. rewrite Hin. simpl.
    pose proof (filter_length_le (fun a => negb (memb a incl)) (map rv_addr t)) as H. rewrite map_length in H. lia.
  - unfold ex. intros H. apply elem_of_list_In, filter_In in H as [_ H]. apply memb_spec in Hin. by rewrite Hin in H.
Qed.

(** ** Arithmetic of normalize *)
Lemma max_spec l v : v ∈ l -> rv_prog v <= rr_max l.
Proof.
  unfold rr_max. destruct l as [|u l]; [by intros ?%elem_of_nil|]. generalize (u :: l). intros t.
  generalize (rv_prog u). intros z. induction t as [|x t IH]; [by intros ?%elem_of_nil|].
  intros [->|H]%elem_of_cons; simpl; [lia|]. specialize (IH H). lia.
Qed.
Lemma min_spec l v : v ∈ l -> rr_min l <= rv_prog v.
Proof.
  unfold rr_min. destruct l as [|u l]; [by intros ?%elem_of_nil|]. generalize (u :: l). intros t.
  generalize (rv_prog u). intros z. induction t as [|x t IH]; [by intros ?%elem_of_nil|].
  intros [->|H]%elem_of_cons; simpl; [lia|]. specialize (IH H). lia.
Qed.
Lemma max_in l : l <> [] -> exists v, v ∈ l /\ rr_max l = rv_prog v.
Proof.
  unfold rr_max. destruct l as [|u l]; [done|]. intros _.
  assert (H : forall t, exists v, v ∈ u :: t /\ foldr (fun v a => Z.max (rv_prog v) a) (rv_prog u) t = rv_prog v).
  { induction t as [|x t (v & Hv & E)]; [exists u; split; [constructor|done]|]. simpl. rewrite E.
    destruct (Z.max_spec (rv_prog x) (rv_prog v)) as [[_ ->]|[_ ->]]; [|exists x; split; [constructor; constructor|done]].
    exists v. split; [|done]. apply elem_of_cons in Hv as [->|Hv]; [constructor|by constructor; constructor]. }
  destruct (H (u :: l)) as (v & Hv & E). exists v. split; [|done].
  apply elem_of_cons in Hv as [->|Hv]; [constructor|done].
Qed.
Lemma min_in l : l <> [] -> exists v, v ∈ l /\ rr_min l = rv_prog v.
Proof.
  unfold rr_min. destruct l as [|u l]; [done|]. intros _.
  assert (H : forall t, exists v, v ∈ u :: t /\ foldr (fun v a => Z.min (rv_prog v) a) (rv_prog u) t = rv_prog v).
  { induction t as [|x t (v & Hv & E)]; [exists u; split; [constructor|done]|]. simpl. rewrite E.
    destruct (Z.min_spec (rv_prog x) (rv_prog v)) as [[_ ->]|[_ ->]]; [exists x; split; [constructor; constructor|done]|].
    exists v. split; [|done]. apply elem_of_cons in Hv as [->|Hv]; [constructor|by constructor; constructor]. }
  destruct (H (u :: l)) as (v & Hv & E). exists v. split; [|done].
  apply elem_of_cons in Hv as [->|Hv]; [constructor|done].
Qed.
(** Pairwise spread. *)
Definition spread (D : Z) (l : list rrv) : Prop := forall u v, u ∈ l -> v ∈ l -> rv_prog u - rv_prog v <= D.
Lemma spread_diff l D : l <> [] -> spread D l <-> rr_diff l <= D.
Proof.
  intros Hl. unfold rr_diff. split.
  - intros H. destruct (max_in l Hl) as (u & Hu & ->), (min_in l Hl) as (v & Hv & ->). by apply H.
  - intros H u v Hu Hv. pose proof (max_spec l u Hu). pose proof (min_spec l v Hv). lia.
Qed.

Lemma scaled_quot thr diff p : 0 < diff -> rr_scaled thr diff p = (p * thr) ÷ diff.
Proof.
  intros Hd. unfold rr_scaled, trunc_int, dec_quo_int, dec_mul_int, dec_of_int.
  assert (HO : 0 < ONE) by apply ONE_pos.
  rewrite Z.quot_quot by lia. replace (p * ONE * thr) with (p * thr * ONE) by ring. by rewrite Z.quot_mul_cancel_r by lia.
Qed.
Lemma quot_mono a b c : 0 < c -> a <= b -> a ÷ c <= b ÷ c.
Proof. intros Hc H. by apply Z.quot_le_mono. Qed.
Lemma quot_shift y c t : 0 < c -> 0 <= t -> (y + t * c) ÷ c <= y ÷ c + t.
Proof.
  intros Hc Ht. destruct (Z.le_gt_cases 0 y) as [Hy|Hy].
  - rewrite !Z.quot_div_nonneg by nia. rewrite Z.div_add by lia. lia.
  - assert (Ey : y ÷ c = - ((- y) / c)).
    { replace y with (- (- y)) at 1 by lia. rewrite Z.quot_opp_l by lia. by rewrite Z.quot_div_nonneg by lia. }
    pose proof (Z.div_mod (- y) c ltac:(lia)) as D. pose proof (Z.mod_pos_bound (- y) c Hc) as M.
    destruct (Z.le_gt_cases 0 (y + t * c)) as [Hz|Hz].
    + rewrite Z.quot_div_nonneg by lia. rewrite Z.div_add by lia. rewrite Ey.
      pose proof (Z.div_mod y c ltac:(lia)). pose proof (Z.mod_pos_bound y c Hc). nia.
    + assert (Ez : (y + t * c) ÷ c = - ((- (y + t * c)) / c)).
      { replace (y + t * c) with (- (- (y + t * c))) at 1 by lia. rewrite Z.quot_opp_l by lia. by rewrite Z.quot_div_nonneg by lia. }
      rewrite Ez, Ey. replace (- (y + t * c)) with (- y + (- t) * c) by ring. rewrite Z.div_add by lia. lia.
Qed.
Lemma scale_pair thr diff p q : 0 < diff -> 0 <= thr -> p - q <= diff -> rr_scaled thr diff p - rr_scaled thr diff q <= thr.
Proof.
  intros Hd Ht H. rewrite !scaled_quot by done.
  assert (p * thr <= q * thr + thr * diff) by nia.
  pose proof (quot_mono (p * thr) (q * thr + thr * diff) diff Hd H0). pose proof (quot_shift (q * thr) diff thr Hd Ht). lia.
Qed.
Lemma spread_scale l : 0 <= rr_power l -> l <> [] -> spread (2 * rr_power l) (rr_scale l).
Proof.
  intros Hp Hl. unfold rr_scale. destruct (2 * rr_power l <? rr_diff l) eqn:E.
  - intros u v Hu Hv. apply elem_of_list_fmap in Hu as (u0 & -> & Hu), Hv as (v0 & -> & Hv). simpl.
    apply scale_pair; [lia|lia|]. pose proof (max_spec l u0 Hu). pose proof (min_spec l v0 Hv). unfold rr_diff. lia.
  - apply spread_diff; [done|]. lia.
Qed.
Lemma total_shift z l : rr_total (map (fun v => with_prog v (rv_prog v - z)) l) = rr_total l - Z.of_nat (length l) * z.
Proof. unfold rr_total. induction l as [|v l IH]; cbn [map foldr length]; [lia|]. rewrite IH. cbn [rv_prog with_prog]. lia. Qed.
Lemma avg_quot t k : 0 < k -> trunc_int (dec_quo_int (dec_of_int t) k) = t ÷ k.
Proof.
  intros Hk. unfold trunc_int, dec_quo_int, dec_of_int. assert (0 < ONE) by apply ONE_pos.
  rewrite Z.quot_quot by lia. by rewrite Z.quot_mul_cancel_r by lia.
Qed.
Lemma total_center l : l <> [] -> Z.abs (rr_total (rr_center l)) < Z.of_nat (length l).
Proof.
  intros Hl. assert (0 < Z.of_nat (length l)) by (destruct l; [done|simpl; lia]).
  unfold rr_center. rewrite total_shift, avg_quot by done.
  pose proof (Z.quot_rem' (rr_total l) (Z.of_nat (length l))). pose proof (Z.rem_bound_abs (rr_total l) (Z.of_nat (length l)) ltac:(lia)). lia.
Qed.
Lemma spread_shift D z l : spread D l -> spread D (map (fun v => with_prog v (rv_prog v - z)) l).
Proof.
  intros H u v Hu Hv. apply elem_of_list_fmap in Hu as (u0 & -> & Hu), Hv as (v0 & -> & Hv). simpl.
  specialize (H u0 v0 Hu Hv). lia.
Qed.
Lemma total_bounds l D x : (forall v, v ∈ l -> x - rv_prog v <= D) -> Z.of_nat (length l) * (x - D) <= rr_total l.
Proof.
  unfold rr_total. induction l as [|v l IH]; cbn [foldr length]; [lia|]. intros H.
  pose proof (H v ltac:(constructor)). specialize (IH ltac:(intros; apply H; by constructor)). lia.
Qed.
Lemma total_bounds_up l D x : (forall v, v ∈ l -> rv_prog v - x <= D) -> rr_total l <= Z.of_nat (length l) * (x + D).
Proof.
  unfold rr_total. induction l as [|v l IH]; cbn [foldr length]; [lia|]. intros H.
  pose proof (H v ltac:(constructor)). specialize (IH ltac:(intros; apply H; by constructor)). lia.
Qed.
Lemma spread_bound D l v : spread D l -> Z.abs (rr_total l) < Z.of_nat (length l) -> v ∈ l -> Z.abs (rv_prog v) <= D.
Proof.
  intros HS HT Hv. pose proof (total_bounds l D (rv_prog v) ltac:(intros; by apply HS)).
  pose proof (total_bounds_up l D (rv_prog v) ltac:(intros; by apply HS)). nia.
Qed.

(** ** C26 *)
Definition centered (l : list rrv) : Prop := Z.abs (rr_total l) < Z.of_nat (length l).
Lemma normalize_ok l : 0 <= rr_power l -> l <> [] -> spread (2 * rr_power l) (rr_normalize l) /\ centered (rr_normalize l).
Proof.
  intros Hp Hl. assert (Hs : rr_scale l <> []).
  { intros E. apply Hl. pose proof (key_length _ _ (key_scale l)) as H. rewrite E in H. by destruct l. }
  assert (E : rr_normalize l = rr_center (rr_scale l)) by by destruct l.
  rewrite E. split.
  - apply spread_shift. by apply spread_scale.
  - unfold centered. rewrite (key_length _ _ (key_center _)). by apply total_center.
Qed.
Lemma normalize_id l : spread (2 * rr_power l) l -> centered l -> rr_normalize l = l.
Proof.
  intros HS HC. destruct (decide (l = [])) as [->|Hl]; [done|].
  assert (E : rr_normalize l = rr_center (rr_scale l)) by by destruct l.
  assert (Hs : rr_scale l = l).
  { unfold rr_scale. apply (spread_diff l _ Hl) in HS. assert (2 * rr_power l <? rr_diff l = false) as -> by lia. done. }
  assert (0 < Z.of_nat (length l)) by (destruct l; [done|simpl; lia]).
  rewrite E, Hs. unfold rr_center. rewrite avg_quot by done. unfold centered in HC.
  assert (rr_total l ÷ Z.of_nat (length l) = 0) as ->.
  { destruct (Z.le_gt_cases 0 (rr_total l)); [apply Z.quot_small; lia|].
    assert (rr_total l = - (- rr_total l)) as -> by lia. rewrite Z.quot_opp_l by lia. rewrite Z.quot_small by lia. lia. }
  clear. induction l as [|v l IH]; cbn [map]; [done|]. rewrite IH. f_equal. destruct v. unfold with_prog. cbn. f_equal. lia.
Qed.

Lemma total_advance ex l : rr_total (rr_advance ex l) = rr_total l + (rr_power l - rr_excluded_power ex l).
Proof.
  unfold rr_total, rr_advance, rr_power, rr_excluded_power. induction l as [|v l IH]; cbn [map foldr]; [lia|].
  destruct (memb (rv_addr v) ex); cbn [rv_prog with_prog]; lia.
Qed.
Lemma charge_notin a x l : a ∉ map rv_addr l -> rr_charge a x l = l.
Proof.
  induction l as [|v l IH]; cbn [map]; [done|]. rewrite not_elem_of_cons. intros [H1 H2].
  unfold rr_charge in *. cbn [map]. rewrite IH by done. destruct (N.eqb_spec (rv_addr v) a); [by subst|done].
Qed.
Lemma total_charge a x l : NoDup (map rv_addr l) -> a ∈ map rv_addr l -> rr_total (rr_charge a x l) = rr_total l - x.
Proof.
  induction l as [|v l IH]; cbn [map]; [by intros _ ?%elem_of_nil|]. intros [H1 H2]%NoDup_cons Hin.
  destruct (N.eq_dec (rv_addr v) a) as [<-|Hne].
  - unfold rr_charge. cbn [map]. rewrite N.eqb_refl. fold (rr_charge (rv_addr v) x l). rewrite charge_notin by done.
    unfold rr_total. cbn [foldr rv_prog with_prog]. lia.
  - apply elem_of_cons in Hin as [->|Hin]; [done|]. specialize (IH H2 Hin).
    unfold rr_charge in *. cbn [map]. destruct (N.eqb_spec (rv_addr v) a); [done|]. unfold rr_total in *. cbn [foldr]. lia.
Qed.
Lemma excluded_power_le ex l : (forall v, v ∈ l -> 0 <= rv_power v) -> 0 <= rr_excluded_power ex l <= rr_power l.
Proof.
  unfold rr_excluded_power, rr_power. induction l as [|v l IH]; cbn [foldr]; [lia|]. intros H.
  pose proof (H v ltac:(constructor)). specialize (IH ltac:(intros; apply H; by constructor)). destruct (memb _ _); lia.
Qed.
Lemma excluded_key ex l l' : map key l = map key l' -> rr_excluded_power ex l = rr_excluded_power ex l'.
Proof.
  unfold rr_excluded_power. revert l'. induction l as [|v l IH]; intros [|v' l']; try done.
  intros [= H1 H2 H3]. cbn [foldr]. rewrite (IH l') by done. by rewrite H1, H2.
Qed.
Lemma excluded_nil l : rr_excluded_power [] l = 0.
Proof. unfold rr_excluded_power. by induction l. Qed.

(** One selection changes the values of a normalized list by at most the total power. *)
Lemma next_bounded ex l : l <> [] -> NoDup (map rv_addr l) -> (forall v, v ∈ l -> 0 <= rv_power v) ->
  let l' := snd (rr_next ex l) in
  map key l' = map key l /\ rr_total l' = rr_total (rr_normalize l) /\
  (forall v, v ∈ l' -> Z.abs (rv_prog v) <= 3 * rr_power l).
Proof.
  intros Hl Hnd Hpos. cbv zeta.
  assert (H0 : 0 <= rr_power l) by by apply foldr_add_nonneg.
  destruct (normalize_ok l H0 Hl) as [HS HC].
  destruct (next_spec ex l Hl) as (v & t & E & ->). cbn [snd].
  set (ex' := if (length ex =? length (rr_normalize l))%nat then [] else ex) in *.
  assert (K : map key (rr_advance ex' (rr_normalize l)) = map key l) by by rewrite key_advance, key_normalize.
  assert (Hin : rv_addr (rr_best ex' v (rr_advance ex' (rr_normalize l))) ∈ map rv_addr (rr_advance ex' (rr_normalize l))).
  { apply elem_of_list_fmap_1. rewrite E. destruct (best_elem ex' v (v :: t)) as [->|[H _]]; [constructor|done]. }
  split; [by rewrite key_charge|]. split.
  - rewrite total_charge; [|by rewrite (key_addr _ _ K)|done]. rewrite total_advance.
    rewrite (key_power _ _ (key_advance ex' (rr_normalize l))), (excluded_key ex' _ _ (key_advance ex' (rr_normalize l))). lia.
  - intros u Hu. pose proof (excluded_power_le ex' l Hpos) as HE.
    rewrite (key_power _ _ K), (excluded_key ex' _ _ K) in Hu.
    unfold rr_charge in Hu. apply elem_of_list_fmap in Hu as (u1 & -> & Hu).
    unfold rr_advance in Hu. apply elem_of_list_fmap in Hu as (u0 & -> & Hu).
    pose proof (spread_bound _ _ u0 HS HC Hu) as HB.
    assert (Hk : 0 <= rv_power u0 <= rr_power l).
    { assert (In0 : key u0 ∈ map key l) by (rewrite <- key_normalize; by apply elem_of_list_fmap_1).
      apply elem_of_list_fmap in In0 as (w & Ew & Hw). unfold key in Ew. injection Ew as _ Ep. rewrite Ep.
      split; [by apply Hpos|by apply power_elem]. }
    repeat match goal with |- context [if ?b then _ else _] => destruct b end; cbn [rv_prog with_prog]; lia.
Qed.

Lemma save_lookup l v : NoDup (map rv_addr l) -> v ∈ l -> rr_save l !! rv_addr v = Some (rv_prog v).
Proof.
  intros Hnd Hv. unfold rr_save. apply elem_of_list_to_map.
  - rewrite <- list_fmap_compose. exact Hnd.
  - apply elem_of_list_fmap. by exists v.
Qed.
Lemma save_inv l a x : rr_save l !! a = Some x -> exists v, v ∈ l /\ rv_addr v = a /\ rv_prog v = x.
Proof.
  intros H. apply elem_of_list_to_map_2 in H. apply elem_of_list_fmap in H as (v & E & Hv). injection E as -> ->. by exists v.
Qed.
Lemma save_none l a : a ∉ map rv_addr l -> rr_save l !! a = None.
Proof.
  intros H. destruct (rr_save l !! a) eqn:E; [|done]. apply save_inv in E as (v & Hv & <- & _).
  exfalso. apply H. by apply elem_of_list_fmap_1.
Qed.

(** Facts about the list loaded from the store. *)
Lemma elig_ok stakers : stakers_ok stakers ->
  NoDup (map fst (eligible stakers)) /\ (forall p, p ∈ eligible stakers -> 0 < snd p < two63) /\ (forall p, p ∈ eligible stakers -> p ∈ stakers).
Proof.
  intros [H1 H2]. split; [|split].
  - unfold eligible. clear H2. induction stakers as [|p t IH]; [done|]. cbn [map List.filter] in *. apply NoDup_cons in H1 as [Hp Ht].
    destruct (0 <? snd p); [|by apply IH]. cbn [map]. apply NoDup_cons. split; [|by apply IH].
    intros Hin. apply Hp. apply elem_of_list_fmap in Hin as (q & E & Hq). rewrite E. apply elem_of_list_fmap_1.
    apply elem_of_list_In in Hq. apply filter_In in Hq as [Hq _]. by apply elem_of_list_In.
  - intros p Hp. apply elem_of_list_In in Hp. apply filter_In in Hp as [Hp Hq]. rewrite Forall_forall in H2.
    specialize (H2 p ltac:(by apply elem_of_list_In)). lia.
  - intros p Hp. apply elem_of_list_In in Hp. apply filter_In in Hp as [Hp Hq]. by apply elem_of_list_In.
Qed.
Lemma i64_id z : 0 <= z < two63 -> i64 z = z.
Proof. intros H. unfold i64. by assert (z <? two63 = true) as -> by lia. Qed.
Lemma key_load_ok stakers stored : stakers_ok stakers -> map key (rr_load stakers stored) = eligible stakers.
Proof.
  intros H. destruct (elig_ok _ H) as (_ & H2 & _). rewrite key_load.
  revert H2. generalize (eligible stakers). intros l Hl. induction l as [|[a w] l IH]; [done|]. cbn [map fst snd].
  rewrite i64_id by (specialize (Hl (a, w) ltac:(constructor)); cbn in Hl; lia). f_equal. apply IH. intros p Hp. apply Hl. by constructor.
Qed.
Lemma power_keys l : rr_power l = foldr (fun p a => snd p + a) 0 (map key l).
Proof. unfold rr_power. induction l as [|v l IH]; [done|]. cbn [foldr map]. by rewrite IH. Qed.
Lemma keys_facts stakers l : stakers_ok stakers -> map key l = eligible stakers ->
  NoDup (map rv_addr l) /\ (forall v, v ∈ l -> 0 < rv_power v) /\ rr_power l = weight stakers /\ length l = length (eligible stakers).
Proof.
  intros Hok HK. destruct (elig_ok _ Hok) as (H1 & H2 & _).
  assert (HA : map rv_addr l = map fst (eligible stakers)) by (rewrite <- HK, map_map; done).
  split; [by rewrite HA|]. split; [|split].
  - intros v Hv. assert (key v ∈ eligible stakers) by (rewrite <- HK; by apply elem_of_list_fmap_1). by specialize (H2 _ H) as [? _].
  - rewrite power_keys, HK. done.
  - by rewrite <- HK, map_length.
Qed.

(** The sum of the stored progress of the eligible stakers. *)
Definition stored_sum (stakers : list (N * Z)) (st : gmap N Z) : Z :=
  foldr (fun p a => default 0 (st !! fst p) + a) 0 (eligible stakers).
Lemma stored_sum_save stakers l : stakers_ok stakers -> map key l = eligible stakers ->
  stored_sum stakers (rr_save l) = rr_total l.
Proof.
  intros Hok HK. destruct (keys_facts _ _ Hok HK) as (Hnd & _ & _ & _). unfold stored_sum. rewrite <- HK.
  assert (H : forall t, (forall v, v ∈ t -> v ∈ l) -> foldr (fun p a => default 0 (rr_save l !! fst p) + a) 0 (map key t) = rr_total t).
  { induction t as [|v t IH]; intros Ht; [done|]. cbn [map foldr]. rewrite IH by (intros; apply Ht; by constructor).
    unfold key. cbn [fst]. rewrite (save_lookup l v Hnd) by (apply Ht; constructor). done. }
  by apply H.
Qed.
Lemma choose_snd stakers stored ex : snd (choose_next stakers stored ex) = rr_save (snd (rr_next ex (rr_load stakers stored))).
Proof. unfold choose_next. by destruct (rr_next _ _). Qed.

Lemma bounded_list stakers stored ex : stakers_ok stakers -> eligible stakers <> [] ->
  let l := snd (rr_next ex (rr_load stakers stored)) in
  map key l = eligible stakers /\ centered l /\ (forall v, v ∈ l -> Z.abs (rv_prog v) <= 3 * weight stakers).
Proof.
  intros Hok Hel. cbv zeta. set (l := rr_load stakers stored).
  pose proof (key_load_ok stakers stored Hok) as HK. fold l in HK.
  destruct (keys_facts _ _ Hok HK) as (Hnd & Hpos & HW & HL).
  assert (Hl : l <> []) by (intros E; rewrite E in HK; cbn in HK; congruence).
  destruct (next_bounded ex l Hl Hnd) as (K & T & B); [intros v Hv; specialize (Hpos v Hv); lia|].
  assert (Hp0 : 0 <= rr_power l) by (apply foldr_add_nonneg; intros v Hv; specialize (Hpos v Hv); lia).
  destruct (normalize_ok l Hp0 Hl) as [_ HC].
  split; [by rewrite K|]. split; [|by rewrite <- HW].
  unfold centered in *. rewrite T, (key_length _ _ K). by rewrite (key_length _ _ (key_normalize l)) in HC.
Qed.
Lemma claim_bounded stakers stored ex : stakers_ok stakers -> eligible stakers <> [] ->
  let st := snd (choose_next stakers stored ex) in
  (forall a, is_Some (st !! a) <-> a ∈ map fst (eligible stakers)) /\
  (forall a x, st !! a = Some x -> Z.abs x <= 3 * weight stakers) /\
  Z.abs (stored_sum stakers st) < Z.of_nat (length (eligible stakers)).
Proof.
  intros Hok Hel. cbv zeta. rewrite choose_snd. destruct (bounded_list stakers stored ex Hok Hel) as (HK & HC & HB).
  set (l := snd (rr_next ex (rr_load stakers stored))) in *.
  destruct (keys_facts _ _ Hok HK) as (Hnd & Hpos & HW & HL).
  assert (HA : map rv_addr l = map fst (eligible stakers)) by (rewrite <- HK, map_map; done).
  split; [|split].
  - intros a. rewrite <- HA. split.
    + intros [x Hx]. apply save_inv in Hx as (v & Hv & <- & _). by apply elem_of_list_fmap_1.
    + intros (v & -> & Hv)%elem_of_list_fmap. rewrite (save_lookup l v Hnd Hv). by eexists.
  - intros a x Hx. apply save_inv in Hx as (v & Hv & _ & <-). by apply HB.
  - rewrite stored_sum_save by done. unfold centered in HC. by rewrite HL in HC.
Qed.

(** A selection from level values: nothing is rescaled. *)
Lemma load_save stakers l : stakers_ok stakers -> map key l = eligible stakers ->
  spread (2 * weight stakers) l -> centered l -> rr_load stakers (rr_save l) = l.
Proof.
  intros Hok HK HS HC. destruct (keys_facts _ _ Hok HK) as (Hnd & Hpos & HW & HL).
  unfold rr_load. fold (eligible stakers). destruct (elig_ok _ Hok) as (_ & H2 & _).
  match goal with |- rr_normalize ?m = _ => assert (m = l) as -> end; [|apply normalize_id; [by rewrite HW|done]].
  generalize (foldr (fun p a => i64 (snd p) + a) 0 (eligible stakers)). intros total. rewrite <- HK.
  assert (H : forall t, (forall v, v ∈ t -> v ∈ l) -> map (fun p => mkRR (fst p) (i64 (snd p))
            (match rr_save l !! fst p with Some x => x | None => trunc_int (dec_mul_int PENALTY total) end)) (map key t) = t).
  { induction t as [|v t IH]; intros Ht; [done|]. cbn [map]. rewrite IH by (intros; apply Ht; by constructor).
    unfold key. cbn [fst snd]. pose proof (Ht v ltac:(constructor)) as Hv. rewrite (save_lookup l v Hnd Hv).
    rewrite i64_id; [by destruct v|]. assert (HI : key v ∈ eligible stakers) by (rewrite <- HK; by apply elem_of_list_fmap_1).
    specialize (H2 _ HI). cbn in H2. lia. }
  by apply H.
Qed.
Lemma advance_nil l : rr_advance [] l = map (fun v => with_prog v (rv_prog v + rv_power v)) l.
Proof. by apply map_ext. Qed.
Lemma next_level stakers l : stakers_ok stakers -> eligible stakers <> [] -> map key l = eligible stakers ->
  spread (2 * weight stakers) l -> centered l ->
  exists u, rr_next [] l = (u, rr_charge u (weight stakers) (map (fun v => with_prog v (rv_prog v + rv_power v)) l)).
Proof.
  intros Hok Hel HK HS HC. destruct (keys_facts _ _ Hok HK) as (Hnd & Hpos & HW & HL).
  assert (Hl : l <> []) by (intros E; rewrite E in HK; cbn in HK; congruence).
  destruct (next_spec [] l Hl) as (v & t & E & ->).
  assert (HN : rr_normalize l = l) by (apply normalize_id; [by rewrite HW|done]). rewrite HN in *.
  assert (HE : (if (length (@nil N) =? length l)%nat then [] else []) = @nil N) by by destruct (_ =? _)%nat.
  rewrite HE in *. rewrite excluded_nil, (key_power _ _ (key_advance [] l)), HW, advance_nil in *.
  eexists. f_equal. f_equal. lia.
Qed.

Lemma times_app a us u : times_selected a (us ++ [u]) = times_selected a us + (if (u =? a)%N then 1 else 0).
Proof.
  unfold times_selected. induction us as [|x us IH]; cbn [app List.filter]; [by destruct (u =? a)%N|].
  destruct (x =? a)%N; cbn [length]; lia.
Qed.
Lemma level_spread stakers l : stakers_ok stakers -> map key l = eligible stakers -> level stakers (rr_save l) ->
  spread (2 * weight stakers) l.
Proof.
  intros Hok HK HL u v Hu Hv. destruct (keys_facts _ _ Hok HK) as (Hnd & _).
  assert (Iu : key u ∈ eligible stakers) by (rewrite <- HK; by apply elem_of_list_fmap_1).
  assert (Iv : key v ∈ eligible stakers) by (rewrite <- HK; by apply elem_of_list_fmap_1).
  specialize (HL _ _ Iu Iv). unfold key in HL. cbn [fst] in HL. by rewrite (save_lookup l u), (save_lookup l v) in HL.
Qed.

Lemma selections_inv stakers l0 n : stakers_ok stakers -> eligible stakers <> [] ->
  map key l0 = eligible stakers -> centered l0 ->
  (forall m, (m < n)%nat -> level stakers (snd (selections m stakers (rr_save l0)))) ->
  exists l, snd (selections n stakers (rr_save l0)) = rr_save l /\ map key l = eligible stakers /\ rr_total l = rr_total l0 /\
  (forall a w, (a, w) ∈ eligible stakers ->
    default 0 (rr_save l !! a) =
    default 0 (rr_save l0 !! a) + Z.of_nat n * w - times_selected a (fst (selections n stakers (rr_save l0))) * weight stakers).
Proof.
  intros Hok Hel HK HC. induction n as [|n IH]; intros HLv.
  - exists l0. split; [done|]. split; [done|]. split; [done|]. intros a w _. unfold times_selected. cbn. lia.
  - destruct IH as (l & E & HKl & HT & HF); [intros m Hm; apply HLv; lia|].
    cbn [selections]. destruct (selections n stakers (rr_save l0)) as [us st] eqn:ES. cbn [fst snd] in *. subst st.
    assert (HCl : centered l).
    { unfold centered in *. rewrite HT. by rewrite (key_length l l0) by by rewrite HKl. }
    assert (HSl : spread (2 * weight stakers) l).
    { apply level_spread; [done|done|]. specialize (HLv n ltac:(lia)). by rewrite ES in HLv. }
    destruct (keys_facts _ _ Hok HKl) as (Hnd & Hpos & HW & HL).
    destruct (next_level stakers l Hok Hel HKl HSl HCl) as [u EN].
    unfold choose_next. rewrite (load_save stakers l Hok HKl HSl HCl), EN. cbn [fst snd].
    set (l' := rr_charge u (weight stakers) (map (fun v => with_prog v (rv_prog v + rv_power v)) l)).
    assert (HK' : map key l' = map key l) by (unfold l'; by rewrite key_charge, key_with_prog).
    exists l'. split; [done|]. split; [by rewrite HK'|]. split.
    + pose proof (next_bounded [] l) as NB. rewrite EN in NB. cbn [snd] in NB. fold l' in NB.
      assert (Hl : l <> []) by (intros E; rewrite E in HKl; cbn in HKl; congruence).
      destruct NB as (_ & T & _); [done|done|intros v Hv; specialize (Hpos v Hv); lia|].
      rewrite T, normalize_id by (rewrite ?HW; done). done.
    + intros a w Haw. specialize (HF a w Haw). rewrite times_app.
      rewrite <- HKl in Haw. apply elem_of_list_fmap in Haw as (v & Ev & Hv). unfold key in Ev. injection Ev as -> ->.
      rewrite (save_lookup l v Hnd Hv) in HF. cbn [default] in HF.
      assert (Hnd' : NoDup (map rv_addr l')) by by rewrite (key_addr _ _ HK').
      set (v' := with_prog v (rv_prog v + rv_power v - (if (rv_addr v =? u)%N then weight stakers else 0))).
      assert (Hv' : v' ∈ l').
      { unfold l', rr_charge. apply elem_of_list_fmap. exists (with_prog v (rv_prog v + rv_power v)). split.
        - unfold v'. cbn [rv_addr with_prog]. destruct (rv_addr v =? u)%N; unfold with_prog; cbn; f_equal; lia.
        - apply elem_of_list_fmap. by exists v. }
      pose proof (save_lookup l' v' Hnd' Hv') as HS'. change (rv_addr v') with (rv_addr v) in HS'. rewrite HS'.
      unfold v'. cbn [default rv_prog with_prog]. unfold id in *. rewrite (N.eqb_sym u). destruct (rv_addr v =? u)%N; lia.
Qed.

Lemma claim_proportional stakers stored0 n a w : stakers_ok stakers -> (a, w) ∈ stakers -> 0 < w ->
  let st1 := snd (choose_next stakers stored0 []) in
  (forall m, (m < n)%nat -> level stakers (snd (selections m stakers st1))) ->
  Z.abs (times_selected a (fst (selections n stakers st1)) * weight stakers - Z.of_nat n * w) <= 5 * weight stakers /\
  stored_sum stakers (snd (selections n stakers st1)) = stored_sum stakers st1.
Proof.
  intros Hok Haw Hw. cbv zeta. rewrite choose_snd. intros HLv.
  assert (Hael : (a, w) ∈ eligible stakers).
  { apply elem_of_list_In. apply filter_In. split; [by apply elem_of_list_In|]. cbn. lia. }
  assert (Hel : eligible stakers <> []) by (intros E; rewrite E in Hael; by apply elem_of_nil in Hael).
  destruct (bounded_list stakers stored0 [] Hok Hel) as (HK & HC & HB).
  set (l0 := snd (rr_next [] (rr_load stakers stored0))) in *.
  destruct (selections_inv stakers l0 n Hok Hel HK HC HLv) as (l & E & HKl & HT & HF).
  split; [|rewrite E, !stored_sum_save by done; done].
  destruct (keys_facts _ _ Hok HK) as (Hnd & Hpos & HW & HL).
  destruct (keys_facts _ _ Hok HKl) as (Hnd' & _).
  assert (HWpos : 0 <= weight stakers) by (rewrite <- HW; apply foldr_add_nonneg; intros v Hv; specialize (Hpos v Hv); lia).
  destruct n as [|n].
  { cbn [selections fst]. unfold times_selected. cbn. lia. }
  specialize (HF a w Hael).
  (* the first values are level *)
  assert (H0 : Z.abs (default 0 (rr_save l0 !! a)) <= 2 * weight stakers).
  { pose proof (level_spread stakers l0 Hok HK (HLv 0%nat ltac:(lia))) as HS.
    pose proof Hael as Hv. rewrite <- HK in Hv. apply elem_of_list_fmap in Hv as (v & Ev & Hv). unfold key in Ev. injection Ev as -> _.
    rewrite (save_lookup l0 v Hnd Hv). cbn. by apply (spread_bound _ l0). }
  (* the last values are bounded *)
  assert (HN : Z.abs (default 0 (rr_save l !! a)) <= 3 * weight stakers).
  { rewrite <- E. cbn [selections]. destruct (selections n stakers (rr_save l0)) as [us st].
    pose proof (claim_bounded stakers st [] Hok Hel) as (_ & HBn & _). destruct (choose_next stakers st []) as [u st']. cbn [snd] in *.
    destruct (st' !! a) eqn:Ea; cbn; [by apply (HBn a)|]. lia. }
  lia.
Qed.

Lemma from_is_next stakers stored incl : exists ex, choose_next_from stakers stored incl = choose_next stakers stored ex.
Proof. by eexists. Qed.

(** ** Examples *)
Definition levelb (stakers : list (N * Z)) (stored : gmap N Z) : bool :=
  forallb (fun p => forallb (fun q => default 0 (stored !! fst p) - default 0 (stored !! fst q) <=? 2 * weight stakers)
    (eligible stakers)) (eligible stakers).
Lemma levelb_spec stakers stored : levelb stakers stored = true -> level stakers stored.
Proof.
  unfold levelb, level. intros H p q Hp Hq. rewrite forallb_forall in H. specialize (H p ltac:(by apply elem_of_list_In)).
  rewrite forallb_forall in H. specialize (H q ltac:(by apply elem_of_list_In)). lia.
Qed.
Definition ex_stakers : list (N * Z) := [(1%N, 700); (2%N, 0); (3%N, 200); (4%N, 100)].
Example ex_ok : stakers_ok ex_stakers /\ eligible ex_stakers <> [].
Proof.
  split; [|done]. split; [repeat (apply NoDup_cons; split; [by vm_compute; set_solver|]); apply NoDup_nil_2|].
  repeat (apply Forall_cons; split; [by cbn; unfold two63; lia|]). apply Forall_nil_2.
Qed.
(** Twenty selections in a row: 14, 4 and 2 times, as the weights demand. *)
Example ex_selected :
  let st1 := snd (choose_next ex_stakers ∅ []) in
  (forall m, (m < 20)%nat -> level ex_stakers (snd (selections m ex_stakers st1))) /\
  times_selected 1 (fst (selections 20 ex_stakers st1)) = 14 /\
  times_selected 3 (fst (selections 20 ex_stakers st1)) = 4 /\
  times_selected 4 (fst (selections 20 ex_stakers st1)) = 2.
Proof.
  cbv zeta. split; [|split; [|split]]; [|vm_cast_no_check (eq_refl 14)|vm_cast_no_check (eq_refl 4)|vm_cast_no_check (eq_refl 2)].
  assert (H : forallb (fun m => levelb ex_stakers (snd (selections m ex_stakers (snd (choose_next ex_stakers ∅ []))))) (seq 0 20) = true)
    by (vm_cast_no_check (eq_refl true)).
  intros m Hm. apply levelb_spec. rewrite forallb_forall in H. apply H. apply in_seq. lia.
Qed.
(** Skipping and the selection among the voters. *)
Example ex_skip : first_eligible ex_stakers = Some 1%N /\ fst (choose_next ex_stakers ∅ [3%N]) = 1%N /\
  fst (choose_next_from ex_stakers ∅ [1%N; 4%N]) = 1%N.
Proof. split; [done|]. split; vm_cast_no_check (eq_refl 1%N). Qed.

(** The first validator in store order is selected although it is excluded and others are not:
    NextProposer starts its search with Validators[0] (line 240) and only skips excluded
    validators while looking for a larger progress. The progress is the stored one after
    eight selections, and the excluded staker is the one selected last (the one who may skip). *)
Definition ref_stakers : list (N * Z) := [(1%N, 100); (2%N, 10)].
Lemma refute_excluded :
  exists n stakers s, let st := snd (selections n stakers ∅) in
  stakers_ok stakers /\ s ∈ map fst stakers /\
  last (fst (selections n stakers ∅)) = Some s /\
  (exists a w, a <> s /\ (a, w) ∈ stakers /\ 0 < w /\ fst (choose_next_from stakers st [a]) = s) /\
  fst (choose_next stakers st [s]) = s.
Proof.
  exists 8%nat, ref_stakers, 1%N. cbv zeta. split; [|split; [|split; [|split]]].
  - split; [repeat (apply NoDup_cons; split; [by vm_compute; set_solver|]); apply NoDup_nil_2|].
    repeat (apply Forall_cons; split; [by cbn; unfold two63; lia|]). apply Forall_nil_2.
  - cbn. constructor.
  - vm_cast_no_check (eq_refl (Some 1%N)).
  - exists 2%N, 10. split; [done|]. split; [unfold ref_stakers; set_solver|]. split; [lia|]. vm_cast_no_check (eq_refl 1%N).
  - vm_cast_no_check (eq_refl 1%N).
Qed.
