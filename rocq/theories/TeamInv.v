(** * Team: arithmetic of the curves, invariants. *)
From Verif Require Import Base BaseFacts Team.

(** ** Arithmetic *)
Lemma w64_small x : 0 <= x < two64 -> w64 x = x.
Proof. intros. unfold w64. by apply Z.mod_small. Qed.
Lemma u64_sub_w a b : 0 <= a < two64 -> 0 <= b -> u64_sub a b = w64 (a - b).
Proof. intros Ha Hb. unfold u64_sub. destruct (b <=? a) eqn:E; [|done]. rewrite w64_small; lia. Qed.
Lemma i64_small x : x < two63 -> i64 x = x.
Proof. intros. unfold i64. destruct (x <? two63) eqn:E; lia. Qed.
Lemma u64_sub_le a b : b <= a -> u64_sub a b = a - b.
Proof. intros. unfold u64_sub. destruct (b <=? a) eqn:E; lia. Qed.

Lemma round_lower O q c y : 2 <= O -> q * (O * O) <= y -> -O <= 2 * (c * O - y) -> q * O <= c.
Proof.
  intros HO H1 H2. destruct (Z.le_gt_cases (q * O) c) as [|Hlt]; [done|].
  assert (H3 : (c + 1) * O <= q * O * O) by (apply Z.mul_le_mono_nonneg_r; lia).
  rewrite <- Z.mul_assoc in H3. rewrite Z.mul_add_distr_r in H3. clear Hlt.
  set (m := q * (O * O)) in *. set (k := c * O) in *. clearbody m k. lia.
Qed.
Lemma round_upper O q c y : 2 <= O -> y <= q * (O * O) - O -> 2 * (c * O - y) <= O -> c < q * O.
Proof.
  intros HO H1 H2. destruct (Z.le_gt_cases (q * O) c) as [Hle|]; [|done].
  assert (H3 : q * O * O <= c * O) by (apply Z.mul_le_mono_nonneg_r; lia).
  rewrite <- Z.mul_assoc in H3. clear Hle.
  set (m := q * (O * O)) in *. set (k := c * O) in *. clearbody m k. lia.
Qed.
Lemma quo_arg O x n : 2 <= O -> 0 <= x -> 0 < n -> (x * O * (O * O)) ÷ (n * O) = (x * (O * O)) / n.
Proof.
  intros HO Hx Hn. assert (0 < O * O) by (apply Z.mul_pos_pos; lia).
  rewrite Z.quot_div_nonneg; [|repeat apply Z.mul_nonneg_nonneg; lia|apply Z.mul_pos_pos; lia].
  replace (x * O * (O * O)) with ((x * (O * O)) * O) by ring.
  rewrite Z.div_mul_cancel_r by lia. done.
Qed.
Lemma quo_floor x n : 0 <= x -> 0 < n <= ONE ->
  trunc_int (dec_quo (dec_of_int x) (dec_of_int n)) = x / n.
Proof.
  intros Hx Hn. unfold trunc_int, dec_quo, dec_of_int.
  assert (HO : 2 <= ONE) by (unfold ONE; lia).
  rewrite quo_arg by lia. set (y := (x * (ONE * ONE)) / n).
  assert (HOO : 0 < ONE * ONE) by (apply Z.mul_pos_pos; lia).
  assert (Hy0 : 0 <= y) by (unfold y; apply Z.div_pos; [apply Z.mul_nonneg_nonneg; lia|lia]).
  pose proof (Z.mul_div_le (x * (ONE * ONE)) n ltac:(lia)) as HY. fold y in HY.
  destruct (chop_round_nonneg y Hy0) as [Hc0 [Hc1 Hc2]].
  pose proof (Z.mul_div_le x n ltac:(lia)) as HA. pose proof (Z.mul_succ_div_gt x n ltac:(lia)) as HB.
  assert (Hq0 : 0 <= x / n) by (apply Z.div_pos; lia).
  assert (H1 : x / n * (ONE * ONE) <= y).
  { unfold y. apply Z.div_le_lower_bound; [lia|].
    rewrite Z.mul_assoc. apply Z.mul_le_mono_nonneg_r; lia. }
  assert (H2 : y <= (x / n + 1) * (ONE * ONE) - ONE).
  { apply Z.mul_le_mono_pos_r with n; [lia|].
    assert (G1 : x * (ONE * ONE) <= ((x / n + 1) * n - 1) * (ONE * ONE)) by (apply Z.mul_le_mono_nonneg_r; lia).
    assert (G2 : n * ONE <= ONE * ONE) by (apply Z.mul_le_mono_nonneg_r; lia).
    replace (((x / n + 1) * n - 1) * (ONE * ONE)) with ((x / n + 1) * n * (ONE * ONE) - ONE * ONE) in G1 by ring.
    replace (((x / n + 1) * (ONE * ONE) - ONE) * n) with ((x / n + 1) * n * (ONE * ONE) - n * ONE) by ring. lia. }
  pose proof (round_lower ONE _ _ _ HO H1 Hc1) as H3. pose proof (round_upper ONE _ _ _ HO H2 Hc2) as H4.
  rewrite Z.quot_div_nonneg by lia. symmetry.
  apply Z.div_unique with (chop_round y - x / n * ONE).
  - left. rewrite Z.mul_add_distr_r in H4. lia.
  - ring.
Qed.

Lemma prorate_floor a b n : 0 <= a < two63 -> 0 <= b <= n -> 0 < n <= ONE -> prorate a b n = a * b / n.
Proof.
  intros Ha Hb Hn. unfold prorate. rewrite !i64_small by (unfold two63, ONE in *; lia).
  rewrite dec_mul_int_l. replace (a * dec_of_int b) with (dec_of_int (a * b)) by (unfold dec_of_int; ring).
  rewrite quo_floor by nia. apply w64_small. split; [apply Z.div_pos; nia|].
  apply Z.div_lt_upper_bound; [lia|]. unfold two63, two64 in *. nia.
Qed.

(** ** Curves *)
(** The vested amount as a function of the vesting duration. *)
Definition curve (total d : Z) : Z :=
  if d <? CLIFF then 0 else if d <? VESTING then total * d / VESTING else total.
Lemma curve_bounds T d : 0 <= T -> 0 <= curve T d <= T.
Proof.
  intros HT. unfold curve. destruct (d <? CLIFF) eqn:E1; [lia|]. destruct (d <? VESTING) eqn:E2; [|lia].
  unfold CLIFF, VESTING in *. split; [apply Z.div_pos; nia|]. apply Z.div_le_upper_bound; nia.
Qed.
Lemma curve_mono T d1 d2 : 0 <= T -> d1 <= d2 -> curve T d1 <= curve T d2.
Proof.
  intros HT Hd. pose proof (curve_bounds T d1 HT). pose proof (curve_bounds T d2 HT).
  unfold curve in *. destruct (d1 <? CLIFF) eqn:E1; [lia|]. destruct (d2 <? CLIFF) eqn:E2; [lia|].
  destruct (d1 <? VESTING) eqn:E3, (d2 <? VESTING) eqn:E4; try lia.
  unfold VESTING in *. apply Z.div_le_mono; nia.
Qed.

(** Accounts the messages can produce. *)
Definition va_ok (a : vacc) : Prop :=
  0 <= va_total a < two63 /\ 0 < va_start a < two64 /\
  (va_clawback a = 0 \/ va_start a <= va_clawback a < two64).
(** Times at which nothing wraps around: block times, or any time for sane start dates. *)
Definition sane (a : vacc) (t : Z) : Prop :=
  0 <= t < two64 /\ (t < two63 \/ va_start a + VESTING < two64).

Definition dur (a : vacc) (t : Z) : Z :=
  if (0 <? va_clawback a) && (va_clawback a <? t) then va_clawback a - va_start a
  else Z.max 0 (t - va_start a).
Lemma dur_mono a t1 t2 : va_ok a -> t1 <= t2 -> dur a t1 <= dur a t2.
Proof.
  intros (_ & Hs & Hc) Ht. unfold dur.
  destruct (0 <? va_clawback a) eqn:E0; cbn [andb]; [|lia].
  destruct (va_clawback a <? t1) eqn:E1, (va_clawback a <? t2) eqn:E2; lia.
Qed.
Lemma vested_curve a t : va_ok a -> vested a t = curve (va_total a) (dur a t).
Proof.
  intros (HT & Hs & Hc). unfold vested, curve, dur.
  assert ((if (0 <? va_clawback a) && (va_clawback a <? t) then u64_sub (va_clawback a) (va_start a)
     else if va_start a <? t then t - va_start a else 0)
    = if (0 <? va_clawback a) && (va_clawback a <? t) then va_clawback a - va_start a
  else Z.max 0 (t - va_start a)) as ->.
  { destruct (0 <? va_clawback a) eqn:E0, (va_clawback a <? t) eqn:E1; cbn [andb].
    - apply u64_sub_le. lia.
    - destruct (va_start a <? t) eqn:E; lia.
    - destruct (va_start a <? t) eqn:E; lia.
    - destruct (va_start a <? t) eqn:E; lia. }
  destruct (_ <? CLIFF) eqn:E1; [done|]. destruct (_ <? VESTING) eqn:E2; [|done].
  apply prorate_floor; unfold CLIFF, VESTING, ONE in *; lia.
Qed.
Lemma vested_mono a t1 t2 : va_ok a -> t1 <= t2 -> vested a t1 <= vested a t2.
Proof.
  intros Ha Ht. rewrite !vested_curve by done. apply curve_mono; [apply Ha|]. by apply dur_mono.
Qed.
Lemma vested_bounds a t : va_ok a -> 0 <= vested a t <= va_total a.
Proof. intros Ha. rewrite vested_curve by done. apply curve_bounds, Ha. Qed.
Lemma vested_cliff a t : va_ok a -> t < va_start a + CLIFF -> vested a t = 0.
Proof.
  intros Ha Ht. rewrite vested_curve by done. unfold curve. destruct (dur a t <? CLIFF) eqn:E; [done|].
  destruct Ha as (_ & Hs & Hc). unfold dur in E. unfold CLIFF in *.
  destruct (0 <? va_clawback a) eqn:E0; cbn [andb] in E; [|lia].
  destruct (va_clawback a <? t) eqn:E1; lia.
Qed.
Lemma max_wrap a : va_ok a -> two64 <= va_start a + VESTING -> vesting_max a = 0.
Proof.
  intros Ha Hw. unfold vesting_max. apply vested_cliff; [done|].
  destruct Ha as (_ & Hs & _). unfold u64_add, w64.
  replace (va_start a + VESTING) with (va_start a + VESTING - two64 + 1 * two64) by lia.
  rewrite Z.mod_add by done. rewrite Z.mod_small; unfold VESTING, CLIFF, two64 in *; lia.
Qed.
Lemma max_nowrap a : va_ok a -> va_start a + VESTING < two64 -> vesting_max a = vested a (va_start a + VESTING).
Proof. intros (_ & Hs & _) Hw. unfold vesting_max, u64_add. rewrite w64_small; [done|]. unfold VESTING in *; lia. Qed.
(** After the vesting period nothing changes any more. *)
Lemma vested_late a t : va_ok a -> va_start a + VESTING <= t -> vested a t = vested a (va_start a + VESTING).
Proof.
  intros Ha Ht. rewrite !vested_curve by done. destruct Ha as (HT & Hs & Hc).
  unfold curve, dur. unfold CLIFF, VESTING in *.
  destruct (0 <? va_clawback a) eqn:E0; cbn [andb].
  - destruct (va_clawback a <? t) eqn:E1, (va_clawback a <? va_start a + 94608000) eqn:E2; try done; try lia;
      repeat match goal with |- context [?x <? ?y] => destruct (x <? y) eqn:?; try lia end; done.
  - repeat match goal with |- context [?x <? ?y] => destruct (x <? y) eqn:?; try lia end; done.
Qed.
Lemma vested_le_max a t : va_ok a -> sane a t -> vested a t <= vesting_max a.
Proof.
  intros Ha [Ht Hs]. destruct (Z.lt_ge_cases (va_start a + VESTING) two64) as [Hw|Hw].
  - rewrite max_nowrap by done. destruct (Z.le_gt_cases (va_start a + VESTING) t) as [H|H].
    + rewrite (vested_late a t) by done. lia.
    + apply vested_mono; [done|lia].
  - rewrite max_wrap by done. rewrite vested_cliff; [lia|done|]. unfold VESTING, CLIFF, two63, two64 in *. lia.
Qed.
Lemma max_bounds a : va_ok a -> 0 <= vesting_max a <= va_total a.
Proof. intros Ha. unfold vesting_max. by apply vested_bounds. Qed.

(** ** Unlocking *)
Lemma lockup_nowrap a : va_ok a -> va_start a + CLIFF < two64 -> lockup_date a = Z.max (va_start a) TGE + CLIFF.
Proof.
  intros (_ & Hs & _) Hw. unfold lockup_date, u64_add. apply w64_small. unfold TGE, CLIFF, two64 in *. lia.
Qed.
(** Everything is zero when the lock-up date wraps around. *)
Lemma unlocked_wrap a t : va_ok a -> sane a t -> two64 <= va_start a + CLIFF -> unlocked a t = 0.
Proof.
  intros Ha [Ht Hs] Hw. unfold unlocked. destruct (t <? lockup_date a) eqn:E0; [done|].
  assert (vested a t = 0) as ->.
  { apply vested_cliff; [done|]. lia. }
  destruct (_ <? UNLOCK) eqn:E1.
  - assert (0 <= lockup_date a) by (unfold lockup_date, u64_add, w64; apply Z.mod_pos_bound; done).
    rewrite prorate_floor by (unfold two63, UNLOCK, ONE in *; lia). done.
  - apply max_wrap; [done|]. unfold VESTING, CLIFF in *. lia.
Qed.
Definition ucurve (v d : Z) : Z := v * d / UNLOCK.

Lemma unlocked_cases a t : va_ok a -> va_start a + CLIFF < two64 ->
  let tu := Z.max (va_start a) TGE + CLIFF in
  unlocked a t = if t <? tu then 0 else if t - tu <? UNLOCK then vested a t * (t - tu) / UNLOCK else vesting_max a.
Proof.
  intros Ha Hw tu. unfold unlocked. rewrite lockup_nowrap by done. fold tu.
  destruct (t <? tu) eqn:E0; [done|]. destruct (_ <? UNLOCK) eqn:E1; [|done].
  pose proof (vested_bounds a t Ha). destruct Ha as (HT & _). apply prorate_floor; unfold UNLOCK, ONE in *; lia.
Qed.

Lemma unlocked_le_vested a t : va_ok a -> sane a t -> unlocked a t <= vested a t.
Proof.
  intros Ha Hs. destruct (Z.lt_ge_cases (va_start a + CLIFF) two64) as [Hw|Hw].
  - rewrite unlocked_cases by done. cbv zeta. pose proof (vested_bounds a t Ha) as Hb.
    destruct (t <? _) eqn:E0; [lia|]. destruct (_ <? UNLOCK) eqn:E1.
    + unfold UNLOCK in *. apply Z.div_le_upper_bound; nia.
    + destruct (Z.lt_ge_cases (va_start a + VESTING) two64) as [Hv|Hv].
      * rewrite max_nowrap by done. rewrite (vested_late a t); [lia|done|]. unfold VESTING, CLIFF, UNLOCK in *. lia.
      * rewrite max_wrap by done. lia.
  - rewrite unlocked_wrap by done. apply vested_bounds, Ha.
Qed.
Lemma unlocked_nonneg a t : va_ok a -> sane a t -> 0 <= unlocked a t.
Proof.
  intros Ha Hs. destruct (Z.lt_ge_cases (va_start a + CLIFF) two64) as [Hw|Hw].
  - rewrite unlocked_cases by done. cbv zeta. pose proof (vested_bounds a t Ha) as Hb.
    destruct (t <? _) eqn:E0; [lia|]. destruct (_ <? UNLOCK) eqn:E1.
    + unfold UNLOCK in *. apply Z.div_pos; nia.
    + apply max_bounds, Ha.
  - rewrite unlocked_wrap by done. done.
Qed.
Lemma unlocked_mono a t1 t2 : va_ok a -> 0 <= t1 <= t2 -> sane a t2 -> unlocked a t1 <= unlocked a t2.
Proof.
  intros Ha Ht Hs2. assert (Hs1 : sane a t1) by (destruct Hs2 as [? [?|?]]; split; [lia|left; lia|lia|right; lia]).
  destruct (Z.lt_ge_cases (va_start a + CLIFF) two64) as [Hw|Hw].
  2:{ rewrite !unlocked_wrap by done. done. }
  pose proof (unlocked_nonneg a t2 Ha Hs2). pose proof (unlocked_le_vested a t1 Ha Hs1).
  pose proof (vested_le_max a t1 Ha Hs1).
  revert H H0. rewrite !unlocked_cases by done. cbv zeta. set (tu := Z.max _ _ + _). intros H H0.
  destruct (t1 <? tu) eqn:E1; [done|]. destruct (t2 <? tu) eqn:E2; [lia|].
  destruct (t1 - tu <? UNLOCK) eqn:E3, (t2 - tu <? UNLOCK) eqn:E4; try lia.
  pose proof (vested_mono a t1 t2 Ha ltac:(lia)). pose proof (vested_bounds a t1 Ha).
  unfold UNLOCK in *. apply Z.div_le_mono; nia.
Qed.
Lemma unlocked_before a t : va_ok a -> sane a t -> t < Z.max (va_start a) TGE + CLIFF -> unlocked a t = 0.
Proof.
  intros Ha Hs Ht. destruct (Z.lt_ge_cases (va_start a + CLIFF) two64) as [Hw|Hw].
  - rewrite unlocked_cases by done. cbv zeta. destruct (t <? _) eqn:E; lia.
  - by apply unlocked_wrap.
Qed.

(** A later clawback date (or none) does not lower what was unlocked at the last claim. *)
Definition with_clawback (a : vacc) (c : Z) : vacc :=
  mkVA (va_total a) (va_start a) c (va_claimed a) (va_last a) (va_rewards a) (va_rclaimed a).
Lemma clawback_unlocked a c t : va_ok a -> va_ok (with_clawback a c) -> sane a t -> (c = 0 \/ t <= c) ->
  unlocked a t <= unlocked (with_clawback a c) t.
Proof.
  intros Ha Ha' Hs Hc. assert (Hs' : sane (with_clawback a c) t) by done.
  assert (Hv : vested a t <= vested (with_clawback a c) t).
  { rewrite !vested_curve by done. apply curve_mono; [apply Ha|]. destruct Ha as (_ & ? & Hcb). unfold dur. simpl.
    destruct (0 <? c) eqn:E0; cbn [andb].
    - destruct (c <? t) eqn:E1; [lia|]. destruct (0 <? va_clawback a) eqn:E2; cbn [andb]; [|lia].
      destruct (va_clawback a <? t) eqn:E3; lia.
    - destruct (0 <? va_clawback a) eqn:E2; cbn [andb]; [|lia]. destruct (va_clawback a <? t) eqn:E3; lia. }
  destruct (Z.lt_ge_cases (va_start a + CLIFF) two64) as [Hw|Hw].
  2:{ rewrite !unlocked_wrap by done. done. }
  pose proof (unlocked_le_vested a t Ha Hs) as Hle.
  rewrite (unlocked_cases (with_clawback a c)) by done. cbv zeta. rewrite (unlocked_cases a) in * by done. cbv zeta in *.
  change (va_start (with_clawback a c)) with (va_start a).
  set (tu := Z.max _ _ + _) in *. destruct (t <? tu) eqn:E1; [done|]. destruct (t - tu <? UNLOCK) eqn:E2.
  - unfold UNLOCK in *. apply Z.div_le_mono; [lia|]. nia.
  - destruct (Z.lt_ge_cases (va_start a + VESTING) two64) as [Hq|Hq].
    + rewrite (max_nowrap a) in * by done. rewrite (max_nowrap (with_clawback a c)) by done.
      change (va_start (with_clawback a c)) with (va_start a).
      assert (va_start a + VESTING <= t) by (unfold UNLOCK, CLIFF, VESTING in *; lia).
      rewrite <- (vested_late a t) by done. etransitivity; [exact Hv|].
      rewrite (vested_late (with_clawback a c) t) by done. done.
    + rewrite (max_wrap a) by done. apply max_bounds, Ha'.
Qed.
