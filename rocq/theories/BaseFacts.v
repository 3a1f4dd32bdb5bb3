(** * Facts about Base definitions (no model content). *)
From Verif Require Import Base.

Ltac Zify.zify_post_hook ::= Z.div_mod_to_equations.

(** ** Sums over maps *)
Section msum.
  Context {K} `{Countable K} {A : Type}.
  Implicit Types (f g : K -> A -> Z) (m : gmap K A).

  Lemma msum_empty f : msum f ∅ = 0.
  Proof. unfold msum. by rewrite map_fold_empty. Qed.

  Lemma msum_insert_fresh f m k a :
    m !! k = None -> msum f (<[k:=a]> m) = f k a + msum f m.
  Proof.
    intros Hk. unfold msum. rewrite map_fold_insert_L; [done| |done].
    intros; lia.
  Qed.

  Lemma msum_delete f m k a :
    m !! k = Some a -> msum f (delete k m) = msum f m - f k a.
  Proof.
    intros Hk.
    assert (E : m = <[k:=a]> (delete k m)) by (by rewrite insert_delete).
    rewrite E at 2. rewrite msum_insert_fresh; [lia|apply lookup_delete].
  Qed.

  Lemma msum_delete_none f m k :
    m !! k = None -> msum f (delete k m) = msum f m.
  Proof. intros. by rewrite delete_notin. Qed.

  Lemma msum_insert f m k a :
    msum f (<[k:=a]> m)
    = f k a + msum f m - match m !! k with Some a' => f k a' | None => 0 end.
  Proof.
    destruct (m !! k) as [a'|] eqn:E.
    - rewrite <- insert_delete_insert.
      rewrite msum_insert_fresh; [|apply lookup_delete].
      rewrite (msum_delete f m k a' E). lia.
    - rewrite msum_insert_fresh by done. lia.
  Qed.

  Lemma msum_ext f g m :
    (forall k a, m !! k = Some a -> f k a = g k a) -> msum f m = msum g m.
  Proof.
    induction m as [|k a m Hk IH] using map_ind; intros Hfg.
    - by rewrite !msum_empty.
    - rewrite !msum_insert_fresh by done.
      rewrite (Hfg k a) by apply lookup_insert.
      rewrite IH; [done|]. intros k' a' Hk'. apply Hfg.
      rewrite lookup_insert_ne; [done|]. intros ->. congruence.
  Qed.

  Lemma msum_le f g m :
    (forall k a, m !! k = Some a -> f k a <= g k a) -> msum f m <= msum g m.
  Proof.
    induction m as [|k a m Hk IH] using map_ind; intros Hfg.
    - by rewrite !msum_empty.
    - rewrite !msum_insert_fresh by done.
      pose proof (Hfg k a (lookup_insert _ _ _)).
      assert (msum f m <= msum g m); [|lia].
      apply IH. intros k' a' Hk'. apply Hfg.
      rewrite lookup_insert_ne; [done|]. intros ->. congruence.
  Qed.

  Lemma msum_nonneg f m :
    (forall k a, m !! k = Some a -> 0 <= f k a) -> 0 <= msum f m.
  Proof.
    induction m as [|k a m Hk IH] using map_ind; intros Hf; [by rewrite msum_empty|].
    rewrite msum_insert_fresh by done.
    pose proof (Hf k a (lookup_insert _ _ _)).
    assert (0 <= msum f m); [|lia].
    apply IH. intros k' a' Hk'. apply (Hf k').
    rewrite lookup_insert_ne; [done|]. intros ->. congruence.
  Qed.

  Lemma msum_elem_le f m k a :
    (forall k a, m !! k = Some a -> 0 <= f k a) ->
    m !! k = Some a -> f k a <= msum f m.
  Proof.
    intros Hf Hk. pose proof (msum_delete f m k a Hk).
    assert (0 <= msum f (delete k m)); [|lia].
    apply msum_nonneg. intros k' a' Hk'. apply Hf.
    by apply lookup_delete_Some in Hk' as [_ ?].
  Qed.

  Lemma msum_add f g m :
    msum (fun k a => f k a + g k a) m = msum f m + msum g m.
  Proof.
    induction m as [|k a m Hk IH] using map_ind; [by rewrite !msum_empty|].
    rewrite !msum_insert_fresh by done. lia.
  Qed.

  Lemma msum_scale c f m : msum (fun k a => c * f k a) m = c * msum f m.
  Proof.
    induction m as [|k a m Hk IH] using map_ind; [rewrite !msum_empty; lia|].
    rewrite !msum_insert_fresh by done. lia.
  Qed.

  Lemma msum_const c m : msum (fun _ _ => c) m = c * Z.of_nat (size m).
  Proof.
    induction m as [|k a m Hk IH] using map_ind.
    - rewrite msum_empty, map_size_empty. lia.
    - rewrite msum_insert_fresh by done. rewrite map_size_insert, Hk. lia.
  Qed.
End msum.

(** ** Decimal arithmetic *)
Lemma ONE_pos : 0 < ONE. Proof. unfold ONE; lia. Qed.
#[global] Hint Resolve ONE_pos : core.

Lemma chop_nonneg_spec x :
  0 <= x -> 0 <= chop_nonneg x /\ -ONE <= 2 * (chop_nonneg x * ONE - x) <= ONE.
Proof.
  intros Hx. unfold chop_nonneg.
  pose proof (Z.div_mod x ONE ltac:(unfold ONE; lia)).
  pose proof (Z.mod_pos_bound x ONE ONE_pos).
  pose proof (Z.div_pos x ONE Hx ONE_pos).
  destruct (2 * (x mod ONE) ?= ONE) eqn:E;
    [apply Z.compare_eq in E; destruct (Z.even (x / ONE))
    |rewrite Z.compare_lt_iff in E|rewrite Z.compare_gt_iff in E]; nia.
Qed.

Lemma chop_round_nonneg x :
  0 <= x -> 0 <= chop_round x /\ -ONE <= 2 * (chop_round x * ONE - x) <= ONE.
Proof.
  intros Hx. unfold chop_round. destruct (x <? 0) eqn:E; [lia|].
  by apply chop_nonneg_spec.
Qed.

Lemma chop_round_exact n : chop_round (n * ONE) = n.
Proof.
  unfold chop_round, chop_nonneg.
  destruct (n * ONE <? 0) eqn:E.
  - replace (- (n * ONE)) with ((-n) * ONE) by lia.
    rewrite Z.div_mul, Z.mod_mul by (unfold ONE; lia). simpl. lia.
  - rewrite Z.div_mul, Z.mod_mul by (unfold ONE; lia). simpl. lia.
Qed.

Lemma chop_round_mono x y : 0 <= x <= y -> chop_round x <= chop_round y.
Proof.
  intros [Hx Hxy]. unfold chop_round.
  destruct (x <? 0) eqn:?; [lia|]. destruct (y <? 0) eqn:?; [lia|].
  unfold chop_nonneg.
  pose proof (Z.div_mod x ONE ltac:(unfold ONE; lia)).
  pose proof (Z.div_mod y ONE ltac:(unfold ONE; lia)).
  pose proof (Z.mod_pos_bound x ONE ONE_pos).
  pose proof (Z.mod_pos_bound y ONE ONE_pos).
  assert (Hq : x / ONE <= y / ONE) by (apply Z.div_le_mono; auto).
  destruct (Z.eq_dec (x / ONE) (y / ONE)) as [Eq|Ne].
  - rewrite <- Eq in *. assert (x mod ONE <= y mod ONE) by nia.
    destruct (2 * (x mod ONE) ?= ONE) eqn:E1;
    [apply Z.compare_eq in E1|rewrite Z.compare_lt_iff in E1|rewrite Z.compare_gt_iff in E1];
    (destruct (2 * (y mod ONE) ?= ONE) eqn:E2;
    [apply Z.compare_eq in E2|rewrite Z.compare_lt_iff in E2|rewrite Z.compare_gt_iff in E2]);
    try destruct (Z.even (x / ONE)); lia.
  - assert (x / ONE + 1 <= y / ONE) by lia.
    destruct (2 * (x mod ONE) ?= ONE), (2 * (y mod ONE) ?= ONE);
      destruct (Z.even (x / ONE)), (Z.even (y / ONE)); lia.
Qed.

Lemma dec_mul_int_l n f : dec_mul (dec_of_int n) f = n * f.
Proof.
  unfold dec_mul, dec_of_int.
  replace (n * ONE * f) with ((n * f) * ONE) by ring. apply chop_round_exact.
Qed.

Lemma dec_mul_int_r n f : dec_mul f (dec_of_int n) = n * f.
Proof.
  unfold dec_mul, dec_of_int.
  replace (f * (n * ONE)) with ((n * f) * ONE) by ring. apply chop_round_exact.
Qed.

Lemma dec_mul_spec a b :
  0 <= a -> 0 <= b ->
  0 <= dec_mul a b /\ -ONE <= 2 * (dec_mul a b * ONE - a * b) <= ONE.
Proof. intros. unfold dec_mul. apply chop_round_nonneg. nia. Qed.

Lemma dec_mul_trunc_spec a b :
  0 <= a -> 0 <= b ->
  0 <= dec_mul_trunc a b /\ dec_mul_trunc a b * ONE <= a * b < dec_mul_trunc a b * ONE + ONE.
Proof.
  intros Ha Hb. unfold dec_mul_trunc.
  rewrite Z.quot_div_nonneg by (auto; nia).
  pose proof (Z.div_mod (a * b) ONE ltac:(unfold ONE; lia)).
  pose proof (Z.mod_pos_bound (a * b) ONE ONE_pos).
  pose proof (Z.div_pos (a * b) ONE ltac:(nia) ONE_pos). nia.
Qed.

Lemma trunc_int_spec d :
  0 <= d -> 0 <= trunc_int d /\ trunc_int d * ONE <= d < trunc_int d * ONE + ONE.
Proof.
  intros Hd. unfold trunc_int. rewrite Z.quot_div_nonneg by auto.
  pose proof (Z.div_mod d ONE ltac:(unfold ONE; lia)).
  pose proof (Z.mod_pos_bound d ONE ONE_pos).
  pose proof (Z.div_pos d ONE Hd ONE_pos). nia.
Qed.

Lemma trunc_int_of_int n : trunc_int (dec_of_int n) = n.
Proof. unfold trunc_int, dec_of_int. apply Z.quot_mul. unfold ONE; lia. Qed.

Lemma trunc_int_mono a b : 0 <= a <= b -> trunc_int a <= trunc_int b.
Proof.
  intros. pose proof (trunc_int_spec a ltac:(lia)).
  pose proof (trunc_int_spec b ltac:(lia)). unfold ONE in *. lia.
Qed.

(** [dec_quo] of an integer [n] (as a decimal) by an integer [t]: the error of
    [v * t] against [n * ONE] is at most [t / 2] upward. *)
Lemma dec_quo_int_spec n t :
  0 <= n -> 0 < t ->
  let v := dec_quo (dec_of_int n) (dec_of_int t) in
  0 <= v /\ 2 * (v * t) <= 2 * (n * ONE) + t.
Proof.
  intros Hn Ht v. unfold v, dec_quo, dec_of_int.
  set (q := (n * ONE * (ONE * ONE)) ÷ (t * ONE)).
  assert (Hq : 0 <= q /\ q * t <= n * (ONE * ONE)).
  { unfold q. rewrite Z.quot_div_nonneg by (unfold ONE; nia).
    replace (n * ONE * (ONE * ONE)) with ((n * (ONE * ONE)) * ONE) by ring.
    rewrite Z.div_mul_cancel_r by (unfold ONE; lia).
    pose proof (Z.mul_div_le (n * (ONE * ONE)) t Ht).
    split; [apply Z.div_pos; unfold ONE; nia|nia]. }
  destruct Hq as [Hq0 Hq].
  destruct (chop_round_nonneg q Hq0) as [Hc0 [_ Hc]].
  split; [done|].
  set (c := chop_round q) in *.
  assert (2 * (c * t) * ONE <= (2 * (n * ONE) + t) * ONE); [|unfold ONE in *; nia].
  assert (2 * (c * ONE) * t <= (2 * q + ONE) * t) by (apply Z.mul_le_mono_nonneg_r; lia).
  nia.
Qed.

(** ** Coins *)
Lemma nz_default x : default 0 (nz x) = x.
Proof. unfold nz. destruct (x =? 0) eqn:E; simpl; lia. Qed.

Lemma amt_empty d : amt ∅ d = 0.
Proof. unfold amt. by rewrite lookup_empty. Qed.

Lemma amt_cmerge f a b d : f 0 0 = 0 -> amt (cmerge f a b) d = f (amt a d) (amt b d).
Proof.
  intros Hf. unfold amt, cmerge. rewrite lookup_merge. unfold diag_None.
  destruct (a !! d), (b !! d); simpl; rewrite ?nz_default; done.
Qed.

Lemma amt_cadd a b d : amt (cadd a b) d = amt a d + amt b d.
Proof. by apply amt_cmerge. Qed.
Lemma amt_csub a b d : amt (csub a b) d = amt a d - amt b d.
Proof. by apply amt_cmerge. Qed.
Lemma amt_cmin a b d : amt (cmin a b) d = Z.min (amt a d) (amt b d).
Proof. by apply amt_cmerge. Qed.

Lemma amt_cmap f c d : f 0 = 0 -> amt (cmap f c) d = f (amt c d).
Proof.
  intros Hf. unfold amt, cmap. rewrite lookup_omap.
  destruct (c !! d); simpl; [apply nz_default|done].
Qed.

Lemma amt_coin d x d' : amt (coin d x) d' = if decide (d = d') then x else 0.
Proof.
  unfold coin, nz. destruct (x =? 0) eqn:E.
  - rewrite amt_empty. destruct (decide _); lia.
  - unfold amt. destruct (decide (d = d')) as [->|Hne].
    + by rewrite lookup_singleton.
    + by rewrite lookup_singleton_ne.
Qed.

Lemma cpos_amt c d : cpos c -> 0 <= amt c d.
Proof.
  intros Hc. unfold amt. destruct (c !! d) eqn:E; simpl; [|lia].
  specialize (Hc _ _ E). lia.
Qed.

Lemma cle_spec b a : cle b a = true <-> forall d x, b !! d = Some x -> x <= amt a d.
Proof.
  unfold cle. rewrite forallb_forall. split.
  - intros Hf d x Hd. specialize (Hf (d, x)). simpl in Hf.
    apply Z.leb_le, Hf, elem_of_list_In, elem_of_map_to_list, Hd.
  - intros Hf [d x] Hin. simpl. apply Z.leb_le, Hf.
    by apply elem_of_map_to_list, elem_of_list_In.
Qed.

(** With a nonnegative right-hand side, [cle] is the pointwise order. *)
Lemma cle_amt b a : (forall d, 0 <= amt a d) ->
  cle b a = true <-> forall d, amt b d <= amt a d.
Proof.
  intros Ha. rewrite cle_spec. split.
  - intros Hf d. unfold amt at 1. destruct (b !! d) eqn:E; simpl; [by apply Hf|apply Ha].
  - intros Hf d x Hd. specialize (Hf d). unfold amt at 1 in Hf. by rewrite Hd in Hf.
Qed.

Lemma cempty_spec c : cempty c = true <-> c = ∅.
Proof.
  unfold cempty. split.
  - destruct (map_to_list c) eqn:E; [|done]. intros _. by apply map_to_list_empty_iff.
  - intros ->. by rewrite map_to_list_empty.
Qed.

(** No zero entries: two such maps with equal amounts are equal. *)
Definition cnz (c : coins) : Prop := forall d, c !! d <> Some 0.

Lemma cpos_cnz c : cpos c -> cnz c.
Proof. intros Hc d Hd. specialize (Hc _ _ Hd). lia. Qed.

Lemma coins_ext a b : cnz a -> cnz b -> (forall d, amt a d = amt b d) -> a = b.
Proof.
  intros Ha Hb Heq. apply map_eq. intros d. specialize (Heq d). unfold amt in Heq.
  specialize (Ha d). specialize (Hb d).
  destruct (a !! d), (b !! d); simpl in *; congruence.
Qed.

Lemma nz_Some x y : nz x = Some y -> x = y /\ y <> 0.
Proof. unfold nz. destruct (x =? 0) eqn:E; [done|]. intros [= <-]. lia. Qed.

Lemma cnz_cmerge f a b : cnz (cmerge f a b).
Proof.
  intros d Hd. unfold cmerge in Hd. rewrite lookup_merge in Hd. unfold diag_None in Hd.
  destruct (a !! d), (b !! d); simplify_eq;
    apply nz_Some in Hd as [? ?]; done.
Qed.
Lemma cnz_cmap f c : cnz (cmap f c).
Proof.
  intros d Hd. unfold cmap in Hd. rewrite lookup_omap in Hd.
  destruct (c !! d); simpl in Hd; [|done]. by apply nz_Some in Hd as [? ?].
Qed.
Lemma cnz_empty : cnz ∅.
Proof. intros d. by rewrite lookup_empty. Qed.

Lemma cpos_of_amt c : cnz c -> (forall d, 0 <= amt c d) -> cpos c.
Proof.
  intros Hc Ha d x Hd. specialize (Ha d). specialize (Hc d). unfold amt in Ha.
  rewrite Hd in *. simpl in *. destruct (Z.eq_dec x 0); [congruence|lia].
Qed.

Lemma cpos_cadd a b : cpos a -> cpos b -> cpos (cadd a b).
Proof.
  intros Ha Hb. apply cpos_of_amt; [apply cnz_cmerge|]. intros d.
  rewrite amt_cadd. pose proof (cpos_amt a d Ha). pose proof (cpos_amt b d Hb). lia.
Qed.
Lemma cpos_empty : cpos ∅.
Proof. intros d x. by rewrite lookup_empty. Qed.

(** ** Bank *)
Lemma bal_insert b a a' c d :
  bal (<[a := c]> b) a' d = if decide (a = a') then amt c d else bal b a' d.
Proof.
  unfold bal, bal_of. destruct (decide (a = a')) as [->|Hne].
  - by rewrite lookup_insert.
  - by rewrite lookup_insert_ne.
Qed.

Lemma cvalid_spec c : cvalid c = true <-> cpos c.
Proof.
  unfold cvalid, cpos. rewrite forallb_forall. split.
  - intros H d x Hx. specialize (H (d, x)). simpl in H. apply Z.ltb_lt, H.
    apply elem_of_list_In. by apply elem_of_map_to_list.
  - intros H [d x] Hin. apply elem_of_list_In, elem_of_map_to_list in Hin. simpl. apply Z.ltb_lt. eauto.
Qed.
Lemma send_pos b from to c b' : send b from to c = Some b' -> cpos c.
Proof. unfold send. destruct (cvalid c) eqn:E; [|done]. intros _. by apply cvalid_spec. Qed.
Lemma send_Some b from to c b' :
  send b from to c = Some b' ->
  cle c (bal_of b from) = true /\
  forall a d, bal b' a d = bal b a d
       - (if decide (from = a) then amt c d else 0)
       + (if decide (to = a) then amt c d else 0).
Proof.
  unfold send. destruct (cvalid c); [|done]. destruct (cle c (bal_of b from)) eqn:E; [|done].
  intros [= <-]. split; [done|]. intros a d.
  rewrite bal_insert, amt_cadd.
  fold (bal (<[from:=csub (bal_of b from) c]> b) to d).
  rewrite !bal_insert, amt_csub.
  fold (bal b from d).
  destruct (decide (to = a)) as [->|], (decide (from = a)) as [->|];
    repeat (destruct (decide _); simplify_eq); try lia.
Qed.

Lemma send_None b from to c :
  send b from to c = None -> cpos c -> cle c (bal_of b from) = false.
Proof. unfold send. intros H Hc. rewrite (proj2 (cvalid_spec c) Hc) in H. by destruct (cle c (bal_of b from)). Qed.

Lemma send_is_Some b from to c :
  cpos c -> cle c (bal_of b from) = true -> exists b', send b from to c = Some b'.
Proof. unfold send. intros Hc ->. rewrite (proj2 (cvalid_spec c) Hc). simpl. eauto. Qed.
Lemma cpos_coin d x : 0 <= x -> cpos (coin d x).
Proof.
  intros Hx e y. unfold coin, nz. destruct (Z.eqb_spec x 0); [by rewrite lookup_empty|].
  intros H. apply lookup_singleton_Some in H as [_ <-]. lia.
Qed.

(** ** Ordered stores *)
Section okv.
  Context {V : Type}.
  Implicit Types l : list (N * V).

  Definition kv_sorted (l : list (N * V)) : Prop :=
    StronglySorted N.lt (map fst l).

  Lemma kv_get_set k v l k' :
    kv_get k' (kv_set k v l) = if (k' =? k)%N then Some v else kv_get k' l.
  Proof.
    induction l as [|[k1 v1] l IH]; simpl.
    - destruct (k' =? k)%N eqn:E; done.
    - destruct (k <? k1)%N eqn:E1; simpl.
      + destruct (k' =? k)%N eqn:E; done.
      + destruct (k =? k1)%N eqn:E2; simpl.
        * apply N.eqb_eq in E2 as ->. destruct (k' =? k1)%N eqn:E; done.
        * rewrite IH. destruct (k' =? k1)%N eqn:E; [|done].
          apply N.eqb_eq in E as ->.
          destruct (k1 =? k)%N eqn:E3; [|done]. lia.
  Qed.

  Lemma kv_get_del k l k' :
    kv_get k' (kv_del k l) = if (k' =? k)%N then None else kv_get k' l.
  Proof.
    unfold kv_del. induction l as [|[k1 v1] l IH]; simpl.
    - by destruct (k' =? k)%N.
    - destruct (k1 =? k)%N eqn:E1; simpl.
      + rewrite IH. apply N.eqb_eq in E1 as ->. by destruct (k' =? k)%N.
      + rewrite IH. destruct (k' =? k1)%N eqn:E2; [|done].
        apply N.eqb_eq in E2 as ->. by rewrite E1.
  Qed.

  Lemma kv_set_append k v l :
    Forall (fun p => (fst p < k)%N) l -> kv_set k v l = l ++ [(k, v)].
  Proof.
    induction l as [|[k1 v1] l IH]; intros Hl; simpl; [done|].
    inversion Hl as [|? ? H1 H2]; subst. simpl in H1.
    destruct (k <? k1)%N eqn:E1; [lia|]. destruct (k =? k1)%N eqn:E2; [lia|].
    by rewrite IH.
  Qed.
End okv.
