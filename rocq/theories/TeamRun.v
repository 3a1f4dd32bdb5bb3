(** * Team: invariants over whole histories. *)
From Verif Require Import Base BaseFacts Team TeamInv.

Definition zsum {A} (f : A -> Z) (l : list A) : Z := foldr (fun a s => f a + s) 0 l.
Lemma zsum_app {A} (f : A -> Z) l1 l2 : zsum f (l1 ++ l2) = zsum f l1 + zsum f l2.
Proof. induction l1; simpl; [lia|]. fold (zsum f (l1 ++ l2)) (zsum f l1). lia. Qed.
Lemma zsum_insert {A} (f : A -> Z) l i a b : l !! i = Some a -> zsum f (<[i := b]> l) = zsum f l - f a + f b.
Proof.
  revert i. induction l as [|x l IH]; intros [|i] H; simpl in *; simplify_eq; [lia|].
  rewrite IH by done. lia.
Qed.
Lemma zsum_le {A} (f g : A -> Z) l : Forall (fun a => f a <= g a) l -> zsum f l <= zsum g l.
Proof. induction 1; simpl; [lia|]. fold (zsum f l) (zsum g l). lia. Qed.
Lemma zsum_nonneg {A} (f : A -> Z) l : Forall (fun a => 0 <= f a) l -> 0 <= zsum f l.
Proof. induction 1; simpl; [lia|]. fold (zsum f l). lia. Qed.
Lemma zsum_elem {A} (f : A -> Z) l i a : Forall (fun a => 0 <= f a) l -> l !! i = Some a -> f a <= zsum f l.
Proof.
  intros H. revert i. induction H as [|x l Hx Hl IH]; intros [|i] E; simpl in *; simplify_eq.
  - pose proof (zsum_nonneg f l Hl). lia.
  - specialize (IH _ E). lia.
Qed.
Lemma zsum_Forall2 {A} (f : A -> Z) l l' : Forall2 (fun a b => f a = f b) l l' -> zsum f l = zsum f l'.
Proof. induction 1; simpl; [done|]. fold (zsum f l) (zsum f l'). lia. Qed.

(** ** Claims stay below the unlocked amount *)
Definition acc_inv (t : Z) (a : vacc) : Prop :=
  va_ok a /\ 0 <= va_last a <= t /\ 0 <= va_claimed a <= unlocked a (va_last a).
Definition TI (st : tstate) : Prop :=
  0 <= ts_time st < two63 /\ Forall (acc_inv (ts_time st)) (ts_accounts st).
(** Allocations below 2^63. *)
Definition small_op (o : top) : Prop := match o with TCreate _ total _ => total < two63 | _ => True end.

Definition same_base (a a' : vacc) : Prop :=
  va_total a = va_total a' /\ va_start a = va_start a' /\ va_clawback a = va_clawback a' /\
  va_claimed a = va_claimed a' /\ va_last a = va_last a' /\ va_rclaimed a = va_rclaimed a'.
Lemma same_base_refl a : same_base a a. Proof. done. Qed.
Lemma same_vested a a' t : same_base a a' -> vested a t = vested a' t.
Proof. intros (E1 & E2 & E3 & _). unfold vested. by rewrite E1, E2, E3. Qed.
Lemma same_max a a' : same_base a a' -> vesting_max a = vesting_max a'.
Proof. intros H. unfold vesting_max. destruct H as (E1 & E2 & E3 & ?) eqn:Eh. rewrite E2. by apply same_vested. Qed.
Lemma same_unlocked a a' t : same_base a a' -> unlocked a t = unlocked a' t.
Proof.
  intros H. unfold unlocked, lockup_date. rewrite (same_max a a') by done. rewrite (same_vested a a') by done.
  destruct H as (E1 & E2 & _). by rewrite E2.
Qed.
Lemma same_acc_inv t a a' : same_base a a' -> acc_inv t a -> acc_inv t a'.
Proof.
  intros Hs (H1 & H2 & H3). pose proof (same_unlocked a a' (va_last a) Hs).
  destruct Hs as (E1 & E2 & E3 & E4 & E5 & E6). unfold acc_inv, va_ok in *.
  rewrite <- E1, <- E2, <- E3, <- E4, <- E5. split; [done|]. split; [done|]. lia.
Qed.
Lemma acc_inv_later t t' a : t <= t' -> acc_inv t a -> acc_inv t' a.
Proof. intros ? (H1 & H2 & H3). split; [done|]. split; [lia|done]. Qed.

Lemma distribute_same l t r l' s : distribute l t r = Some (l', s) -> Forall2 same_base l l'.
Proof.
  revert l' s. induction l as [|a l IH]; simpl; intros l' s H; simplify_eq; [done|].
  destruct (account_reward a t r) as [x|]; [|done]. destruct (distribute l t r) as [[l1 s1]|] eqn:E; [|done].
  simplify_eq. constructor; [done|]. by eapply IH.
Qed.
(** What a begin block does to the accounts. *)
Lemma team_begin_accounts st p s : Forall2 same_base (ts_accounts st) (ts_accounts (team_begin st p s)) /\
  ts_time (team_begin st p s) = ts_time st.
Proof.
  assert (Hr : Forall2 same_base (ts_accounts st) (ts_accounts st)) by (apply Forall_Forall2_diag, Forall_true; done).
  unfold team_begin. destruct (block_provision st p s) as [[h r]|]; [|done].
  destruct (distribute _ _ _) as [[l tot]|] eqn:E; [|done]. apply distribute_same in E.
  cbv zeta. destruct (transfer _ _ _ _); done.
Qed.

Lemma sane_now a t : 0 <= t < two63 -> sane a t.
Proof. intros. split; [unfold two63, two64 in *; lia|left; lia]. Qed.

Lemma claimable_spec a t x : acc_inv t a -> 0 <= t < two63 -> x <= claimable a t -> 0 <= x ->
  u64_add (va_claimed a) x = va_claimed a + x /\ va_claimed a + x <= unlocked a t.
Proof.
  intros (Ha & Hl & Hc) Ht Hx H0. pose proof (unlocked_mono a (va_last a) t Ha ltac:(lia) (sane_now a t Ht)) as Hm.
  pose proof (unlocked_le_vested a t Ha (sane_now a t Ht)). pose proof (vested_bounds a t Ha).
  assert (Hle : va_claimed a + x <= unlocked a t).
  { unfold claimable in Hx. destruct (va_claimed a <? unlocked a t) eqn:E; [|lia]. rewrite u64_sub_le in Hx by lia. lia. }
  split; [|done]. unfold u64_add. apply w64_small. destruct Ha as ((? & ?) & _). unfold two63, two64 in *. lia.
Qed.

Lemma TI_step st o : TI st -> top_ok st o -> small_op o -> TI (tstep st o).
Proof.
  intros [Ht HF] Hok Hsm. destruct o as [s total start|s id x r|s id c|s id x r|s x r|t p sup|b]; simpl.
  - unfold msg_create. destruct (negb _); [done|]. destruct ((total =? 0) || (start =? 0)) eqn:E0; [done|].
    destruct (_ <? _) eqn:E1; [done|]. split; [done|]. simpl. apply Forall_app. split; [done|].
    constructor; [|done]. apply orb_false_iff in E0 as [Ea Eb]. simpl in Hok, Hsm.
    assert (va_ok (mkVA total start 0 0 0 0 0)) by (split; [simpl; lia|]; split; [simpl; lia|by left]).
    split; [done|]. split; [simpl; lia|]. simpl. split; [lia|].
    apply unlocked_nonneg; [done|]. apply sane_now. unfold two63. lia.
  - unfold msg_claim_unlocked. destruct (negb _); [done|]. destruct (ts_accounts st !! id) as [a|] eqn:Ei; [|done].
    destruct (_ <? x) eqn:E1; [done|]. destruct (transfer _ _ _ _) as [b|]; [|done]. split; [done|]. simpl.
    rewrite Forall_lookup in HF. pose proof (HF _ _ Ei) as Ha. simpl in Hok.
    destruct (claimable_spec a (ts_time st) x Ha Ht ltac:(lia) ltac:(lia)) as [E2 E3].
    apply Forall_insert; [by apply Forall_lookup|]. destruct Ha as (Ha1 & Ha2 & Ha3).
    split; [done|]. split; [simpl; lia|]. simpl. rewrite E2. split; [lia|].
    etransitivity; [exact E3|]. by apply Z.eq_le_incl.
  - unfold msg_clawback. destruct (negb _); [done|]. destruct (ts_accounts st !! id) as [a|] eqn:Ei; [|done].
    destruct ((0 <? c) && (c <? va_start a)) eqn:E1; [done|]. destruct ((0 <? c) && (c <? va_last a)) eqn:E2; [done|].
    split; [done|]. simpl. rewrite Forall_lookup in HF. pose proof (HF _ _ Ei) as Ha.
    apply Forall_insert; [by apply Forall_lookup|]. fold (with_clawback a c). simpl in Hok.
    destruct Ha as (Ha & Hl & Hc).
    assert (Ha' : va_ok (with_clawback a c)).
    { destruct Ha as (H1 & H2 & H3). split; [done|]. split; [done|]. simpl. destruct (0 <? c) eqn:E; simpl in *; lia. }
    split; [done|]. split; [done|].
    assert (Hcl : c = 0 \/ va_last a <= c) by (destruct (0 <? c) eqn:E; simpl in *; lia).
    pose proof (clawback_unlocked a c (va_last a) Ha Ha' (sane_now a (va_last a) ltac:(lia)) Hcl) as Hu.
    split; [apply Hc|]. etransitivity; [apply Hc|exact Hu].
  - unfold msg_claim_rewards. destruct (negb _); [done|]. destruct (ts_accounts st !! id) as [a|] eqn:Ei; [|done].
    destruct (_ <? x) eqn:E1; [done|]. destruct (transfer _ _ _ _) as [b|]; [|done]. split; [done|]. simpl.
    apply Forall_insert; [done|]. rewrite Forall_lookup in HF. pose proof (HF _ _ Ei) as Ha.
    destruct Ha as (Ha1 & Ha2 & Ha3). split; [done|]. split; [done|]. simpl. split; [lia|].
    etransitivity; [apply Ha3|]. by apply Z.eq_le_incl.
  - unfold msg_claim_authority. destruct (negb _); [done|]. destruct (_ <? x) eqn:E1; [done|].
    destruct (transfer _ _ _ _) as [b|]; done.
  - simpl in Hok. destruct (team_begin_accounts (twith_time st t) p sup) as [H1 H2]. split; [rewrite H2; simpl; lia|].
    rewrite H2. simpl in *. eapply Forall2_Forall_r; [exact H1|]. eapply Forall_impl; [exact HF|].
    intros a Ha a' Hs. eapply same_acc_inv; [done|]. eapply acc_inv_later; [|done]. lia.
  - done.
Qed.
Lemma TI_init b t : 0 <= t < two63 -> TI (tinit b t).
Proof. intros. split; [done|]. constructor. Qed.
Lemma TI_run st ops : TI st -> tops_ok st ops -> Forall small_op ops -> TI (trun st ops).
Proof.
  revert st. induction ops as [|o ops IH]; intros st Hi Hok Hs; [done|]. simpl in *. inversion Hs; subst.
  destruct Hok. apply IH; try done. by apply TI_step.
Qed.

(** ** Money *)
(** The obligations of the module, from the accounts' records. *)
Definition spec_required (st : tstate) : Z :=
  TEAM_ALLOCATION - zsum va_claimed (ts_accounts st)
  + zsum (fun a => va_rewards a - va_rclaimed a) (ts_accounts st) + (ts_arewards st - ts_aclaimed st).
Definition recorded (st : tstate) : Z := zsum va_rewards (ts_accounts st) + ts_arewards st.
Definition in_cap (st : tstate) : Prop := zsum vesting_max (ts_accounts st) <= TEAM_ALLOCATION.
Definition mint_of (o : top) : Z := match o with TBegin _ p _ => p | _ => 0 end.
(** The accounts' shares are rounded to 18 decimals; the sum of the rounding errors of a block
    stays below one token. *)
Definition mild (st : tstate) (o : top) : Prop :=
  match o with TBegin _ p _ => Z.of_nat (length (ts_accounts st)) * p < 2 * ONE | _ => True end.

Record TM (m : Z) (st : tstate) : Prop := mkTM {
  tm_acc : Forall (fun a => 0 <= va_rclaimed a <= va_rewards a) (ts_accounts st);
  tm_auth : 0 <= ts_aclaimed st <= ts_arewards st;
  tm_rec : recorded st <= m;
  tm_bal : spec_required st <= bal (ts_bank st) MTeam KYVE;
  tm_halt : ts_halt st = false
}.

Lemma claimed_cap st : TI st -> in_cap st ->
  0 <= zsum va_claimed (ts_accounts st) <= zsum (fun a => vested a (ts_time st)) (ts_accounts st) /\
  zsum (fun a => vested a (ts_time st)) (ts_accounts st) <= TEAM_ALLOCATION /\
  Forall (fun a => 0 <= va_claimed a <= vested a (ts_time st)) (ts_accounts st).
Proof.
  intros [Ht HF] Hcap.
  assert (HF2 : Forall (fun a => 0 <= va_claimed a <= vested a (ts_time st) /\ vested a (ts_time st) <= vesting_max a) (ts_accounts st)).
  { eapply Forall_impl; [exact HF|]. intros a (Ha & Hl & Hc).
    pose proof (unlocked_mono a (va_last a) (ts_time st) Ha ltac:(lia) (sane_now a _ Ht)).
    pose proof (unlocked_le_vested a _ Ha (sane_now a _ Ht)). pose proof (vested_le_max a _ Ha (sane_now a _ Ht)). lia. }
  unfold in_cap in Hcap. split; [split|split].
  - apply zsum_nonneg. eapply Forall_impl; [exact HF2|]. simpl. lia.
  - apply zsum_le. eapply Forall_impl; [exact HF2|]. simpl. lia.
  - etransitivity; [|exact Hcap]. apply zsum_le. eapply Forall_impl; [exact HF2|]. simpl. lia.
  - eapply Forall_impl; [exact HF2|]. simpl. lia.
Qed.

Lemma required_exact_gen l s :
  Forall (fun a => 0 <= va_rclaimed a <= va_rewards a /\ 0 <= va_claimed a) l ->
  zsum va_claimed l <= s -> s + zsum va_rewards l < two64 ->
  fold_left (fun s a => u64_sub (u64_add s (u64_sub (va_rewards a) (va_rclaimed a))) (va_claimed a)) l s
  = s + zsum (fun a => va_rewards a - va_rclaimed a) l - zsum va_claimed l.
Proof.
  intros HF. revert s. induction HF as [|a l Ha Hl IH]; intros s H1 H2; simpl in *; [lia|].
  fold (zsum va_claimed l) (zsum va_rewards l) (zsum (fun a => va_rewards a - va_rclaimed a) l) in *.
  assert (0 <= zsum va_claimed l) by (apply zsum_nonneg; eapply Forall_impl; [exact Hl|]; simpl; lia).
  assert (0 <= zsum va_rewards l) by (apply zsum_nonneg; eapply Forall_impl; [exact Hl|]; simpl; lia).
  rewrite (u64_sub_le (va_rewards a)) by lia. unfold u64_add. rewrite w64_small by lia.
  rewrite u64_sub_le by lia. rewrite IH by lia. lia.
Qed.
Lemma required_exact m st : TI st -> in_cap st -> TM m st -> m < two63 ->
  required_balance st = spec_required st /\ 0 <= spec_required st < two64 /\ 0 <= recorded st.
Proof.
  intros HI Hcap HM Hm. destruct (claimed_cap st HI Hcap) as (H1 & H2 & H3). destruct HM as [Ma Mb Mc Md Me].
  assert (HFr : Forall (fun a => 0 <= va_rewards a) (ts_accounts st)) by (eapply Forall_impl; [exact Ma|]; simpl; lia).
  pose proof (zsum_nonneg _ _ HFr).
  assert (Hle : zsum (fun a => va_rewards a - va_rclaimed a) (ts_accounts st) <= zsum va_rewards (ts_accounts st)).
  { apply zsum_le. eapply Forall_impl; [exact Ma|]. simpl; lia. }
  assert (0 <= zsum (fun a => va_rewards a - va_rclaimed a) (ts_accounts st)).
  { apply zsum_nonneg. eapply Forall_impl; [exact Ma|]. simpl; lia. }
  unfold recorded in *. unfold required_balance, spec_required.
  rewrite (u64_sub_le (ts_arewards st)) by lia. unfold u64_add at 2. rewrite w64_small by (unfold TEAM_ALLOCATION, two63, two64 in *; lia).
  rewrite required_exact_gen.
  - split; [lia|]. unfold TEAM_ALLOCATION, two63, two64 in *. lia.
  - rewrite Forall_lookup in *. intros i a E. specialize (Ma i a E). specialize (H3 i a E). simpl in *. lia.
  - lia.
  - unfold TEAM_ALLOCATION, two63, two64 in *. lia.
Qed.

(** ** One block *)
Lemma i64_bounds x : 0 <= x < two63 -> i64 x = x. Proof. intros. apply i64_small. lia. Qed.

(** Share of the required balance: at most one, because the supply covers both accounts. *)
Lemma quo_le_one n t : 0 <= n <= t -> 0 < t -> dec_quo (dec_of_int n) (dec_of_int t) <= ONE.
Proof.
  intros Hn Ht. unfold dec_quo, dec_of_int. assert (HO : 2 <= ONE) by (unfold ONE; lia).
  rewrite quo_arg by lia.
  assert (HOO : 0 < ONE * ONE) by (apply Z.mul_pos_pos; lia).
  set (y := n * (ONE * ONE) / t).
  assert (Hy : y <= ONE * ONE).
  { unfold y. apply Z.div_le_upper_bound; [lia|]. apply Z.mul_le_mono_nonneg_r; lia. }
  assert (Hy0 : 0 <= y) by (unfold y; apply Z.div_pos; [apply Z.mul_nonneg_nonneg; lia|lia]).
  destruct (chop_round_nonneg y Hy0) as (C1 & C2 & C3).
  destruct (Z.le_gt_cases (chop_round y) ONE) as [|Hgt]; [done|].
  assert ((ONE + 1) * ONE <= chop_round y * ONE) by (apply Z.mul_le_mono_nonneg_r; lia). lia.
Qed.

Lemma block_provision_ok st p s :
  0 <= required_balance st <= s - p -> 0 <= p < s -> s < two63 ->
  exists r, block_provision st p s = Some (false, r) /\ 0 <= r <= p.
Proof.
  intros Hr Hp Hs. unfold block_provision.
  destruct ((two63 <=? s) || (two63 <=? p)) eqn:E1; [lia|]. destruct (s - p =? 0) eqn:E2; [lia|].
  rewrite i64_small by lia. rewrite dec_mul_int_r.
  set (sh := dec_quo _ _).
  assert (0 <= sh) by (apply dec_quo_int_spec; lia).
  assert (sh <= ONE) by (apply quo_le_one; lia).
  assert (0 <= p * sh) by (apply Z.mul_nonneg_nonneg; lia).
  destruct (trunc_int_spec (p * sh)) as [T0 T1]; [done|].
  assert (trunc_int (p * sh) <= p).
  { replace p with (trunc_int (dec_of_int p)) at 2 by apply trunc_int_of_int.
    apply trunc_int_mono. split; [done|]. unfold dec_of_int. apply Z.mul_le_mono_nonneg_l; lia. }
  unfold trunc64. destruct (_ && _) eqn:E3; [|unfold two63 in *; lia].
  exists (trunc_int (p * sh)). split; [|lia].
  destruct (ONE <? sh) eqn:E4; [lia|done].
Qed.

(** The reward of one account is its share of [r] rounded down, up to the rounding of the share. *)
Lemma account_reward_ok a t r :
  0 <= va_claimed a <= vested a t -> vested a t < two63 -> 0 <= r < two63 ->
  vested a t - va_claimed a <= TEAM_ALLOCATION ->
  exists x, account_reward a t r = Some x /\ 0 <= x <= r /\
    2 * (x * ONE * TEAM_ALLOCATION) <= 2 * (r * (vested a t - va_claimed a) * ONE) + r * TEAM_ALLOCATION.
Proof.
  intros Hc Hv Hr Hal. unfold account_reward. rewrite u64_sub_le by lia.
  rewrite (i64_small (vested a t - _)) by lia. rewrite (i64_small TEAM_ALLOCATION) by (unfold TEAM_ALLOCATION, two63; lia).
  set (n := vested a t - va_claimed a) in *.
  pose proof (dec_quo_int_spec n TEAM_ALLOCATION ltac:(lia) ltac:(unfold TEAM_ALLOCATION; lia)) as Hs. cbv zeta in Hs.
  pose proof (quo_le_one n TEAM_ALLOCATION ltac:(lia) ltac:(unfold TEAM_ALLOCATION; lia)) as Hs1.
  set (sh := dec_quo _ _) in *. rewrite dec_mul_int_l.
  assert (0 <= r * sh) by (apply Z.mul_nonneg_nonneg; lia).
  destruct (trunc_int_spec (r * sh)) as [T0 T1]; [done|].
  assert (Hle : trunc_int (r * sh) <= r).
  { replace r with (trunc_int (dec_of_int r)) at 2 by apply trunc_int_of_int.
    apply trunc_int_mono. split; [done|]. unfold dec_of_int. apply Z.mul_le_mono_nonneg_l; lia. }
  unfold trunc64. destruct (_ && _) eqn:E3; [|unfold two63 in *; lia].
  rewrite w64_small by (unfold two63, two64 in *; lia).
  exists (trunc_int (r * sh)). split; [done|]. split; [done|].
  set (x := trunc_int (r * sh)) in *. clearbody x sh n.
  assert (G1 : x * ONE * TEAM_ALLOCATION <= r * sh * TEAM_ALLOCATION)
    by (apply Z.mul_le_mono_nonneg_r; [unfold TEAM_ALLOCATION; lia|lia]).
  assert (G2 : r * (2 * (sh * TEAM_ALLOCATION)) <= r * (2 * (n * ONE) + TEAM_ALLOCATION))
    by (apply Z.mul_le_mono_nonneg_l; lia).
  replace (r * (2 * (sh * TEAM_ALLOCATION))) with (2 * (r * sh * TEAM_ALLOCATION)) in G2 by ring.
  replace (r * (2 * (n * ONE) + TEAM_ALLOCATION)) with (2 * (r * n * ONE) + r * TEAM_ALLOCATION) in G2 by ring.
  lia.
Qed.

Definition unclaimed (t : Z) (a : vacc) : Z := vested a t - va_claimed a.
Lemma distribute_ok l t r :
  Forall (fun a => 0 <= va_claimed a <= vested a t /\ vested a t < two63 /\ 0 <= va_rewards a) l ->
  0 <= r < two63 -> zsum (unclaimed t) l <= TEAM_ALLOCATION ->
  (forall x, 0 <= x < two64 -> 2 * (x * ONE * TEAM_ALLOCATION) <= 2 * (r * TEAM_ALLOCATION * ONE) + Z.of_nat (length l) * (r * TEAM_ALLOCATION) -> x <= r) ->
  zsum va_rewards l + r < two64 ->
  exists l' s, distribute l t r = Some (l', s) /\ 0 <= s /\ zsum va_rewards l' = zsum va_rewards l + s /\
    2 * (s * ONE * TEAM_ALLOCATION) <= 2 * (r * zsum (unclaimed t) l * ONE) + Z.of_nat (length l) * (r * TEAM_ALLOCATION) /\
    Forall2 (fun a a' => va_rewards a <= va_rewards a') l l' /\ s <= r.
Proof.
  intros HF Hr. induction HF as [|a l (Hc & Hv & Hw) Hl IH]; intros Hs HX Hz.
  - exists [], 0. simpl. repeat split; try done; try lia.
  - cbn [zsum foldr length distribute] in *. fold (zsum (unclaimed t) l) (zsum va_rewards l) in *.
    assert (Hu : 0 <= zsum (unclaimed t) l).
    { apply zsum_nonneg. eapply Forall_impl; [exact Hl|]. unfold unclaimed. simpl. lia. }
    assert (Hz0 : 0 <= zsum va_rewards l) by (apply zsum_nonneg; eapply Forall_impl; [exact Hl|]; simpl; lia).
    assert (HrT : 0 <= r * TEAM_ALLOCATION) by (apply Z.mul_nonneg_nonneg; [lia|unfold TEAM_ALLOCATION; lia]).
    unfold unclaimed at 1 in Hs.
    destruct (account_reward_ok a t r Hc Hv Hr ltac:(lia)) as (x & Ex & Hx & Hxs).
    destruct IH as (l1 & s1 & Ed & Hs1 & Hsum & Hb & HF2 & Hsr); [lia| |lia|].
    { intros y Hy Hy2. apply HX; [done|]. lia. }
    rewrite Ex, Ed.
    assert (Hadd : u64_add x s1 = x + s1) by (unfold u64_add; apply w64_small; unfold two63, two64 in *; lia).
    rewrite Hadd.
    assert (Hbb : 2 * ((x + s1) * ONE * TEAM_ALLOCATION) <=
      2 * (r * (unclaimed t a + zsum (unclaimed t) l) * ONE) + Z.of_nat (S (length l)) * (r * TEAM_ALLOCATION)).
    { replace ((x + s1) * ONE * TEAM_ALLOCATION) with (x * ONE * TEAM_ALLOCATION + s1 * ONE * TEAM_ALLOCATION) by ring.
      replace (r * (unclaimed t a + zsum (unclaimed t) l) * ONE) with
        (r * unclaimed t a * ONE + r * zsum (unclaimed t) l * ONE) by ring.
      unfold unclaimed at 1. lia. }
    assert (Hle : x + s1 <= r).
    { apply HX; [unfold two63, two64 in *; lia|]. etransitivity; [exact Hbb|].
      assert (r * (unclaimed t a + zsum (unclaimed t) l) * ONE <= r * TEAM_ALLOCATION * ONE).
      { apply Z.mul_le_mono_nonneg_r; [unfold ONE; lia|]. apply Z.mul_le_mono_nonneg_l; [lia|]. unfold unclaimed at 1. lia. }
      lia. }
    assert (Hra : u64_add (va_rewards a) x = va_rewards a + x) by (unfold u64_add; apply w64_small; lia).
    rewrite Hra.
    eexists _, _. split; [reflexivity|]. split; [lia|]. cbn [zsum foldr va_rewards]. fold (zsum va_rewards l1).
    split; [lia|]. split; [exact Hbb|]. split; [|done]. constructor; [simpl; lia|done].
Qed.
Lemma mild_bound n r x : 0 <= r -> Z.of_nat n * r < 2 * ONE ->
  2 * (x * ONE * TEAM_ALLOCATION) <= 2 * (r * TEAM_ALLOCATION * ONE) + Z.of_nat n * (r * TEAM_ALLOCATION) -> x <= r.
Proof.
  intros Hr Hn H. set (k := Z.of_nat n * r) in *.
  replace (2 * (x * ONE * TEAM_ALLOCATION)) with ((2 * x * ONE) * TEAM_ALLOCATION) in H by ring.
  replace (2 * (r * TEAM_ALLOCATION * ONE) + Z.of_nat n * (r * TEAM_ALLOCATION)) with ((2 * r * ONE + k) * TEAM_ALLOCATION) in H by (unfold k; ring).
  apply Z.mul_le_mono_pos_r in H; [|unfold TEAM_ALLOCATION; lia].
  unfold ONE in *. lia.
Qed.

Lemma transfer_ok b from to x : 0 <= x < two63 -> x <= bal b from KYVE -> exists b', transfer b from to x = Some b'.
Proof.
  intros Hx Hb. unfold transfer. rewrite i64_small by lia. destruct (x <? 0) eqn:E; [lia|].
  apply send_is_Some; [apply cpos_coin; lia|]. unfold cle, coin, nz. destruct (x =? 0) eqn:E0; [by rewrite map_to_list_empty|].
  rewrite map_to_list_singleton. simpl. unfold bal in Hb. by rewrite (proj2 (Z.leb_le _ _) Hb).
Qed.
Lemma transfer_bal b from to x b' : transfer b from to x = Some b' ->
  forall a, bal b' a KYVE = bal b a KYVE - (if decide (from = a) then x else 0) + (if decide (to = a) then x else 0).
Proof.
  unfold transfer. destruct (i64 x <? 0) eqn:E; [done|]. intros H.
  apply send_Some in H as [_ H]. intros a. rewrite H, amt_coin. rewrite (decide_True (P := KYVE = KYVE)) by done. done.
Qed.

(** A block keeps the books: nothing halts, and the coins moved are the rewards recorded. *)
Lemma block_ok m st t p sup : TI st -> in_cap st -> TM m st -> top_ok st (TBegin t p sup) -> mild st (TBegin t p sup) ->
  m + p < two63 -> 0 <= m ->
  let st' := tstep st (TBegin t p sup) in
  TM (m + p) st' /\
  bal (ts_bank st') MTeam KYVE - bal (ts_bank st) MTeam KYVE = recorded st' - recorded st /\
  bal (ts_bank st) MFeeCollector KYVE - bal (ts_bank st') MFeeCollector KYVE = recorded st' - recorded st /\
  0 <= recorded st' - recorded st <= p.
Proof.
  intros HI Hcap HM Hok Hmild Hmp Hm0. cbv zeta. simpl in Hok, Hmild. cbn [tstep].
  destruct (required_exact m st HI Hcap HM ltac:(lia)) as (Hreq & Hrb & Hr0).
  assert (HI' : TI (twith_time st t)).
  { destruct HI as [Ht HF]. split; [simpl; lia|]. simpl. eapply Forall_impl; [exact HF|]. intros a. apply acc_inv_later. lia. }
  destruct (claimed_cap (twith_time st t) HI' Hcap) as (Hc1 & Hc2 & Hc3). simpl in Hc1, Hc2, Hc3.
  destruct HM as [Ma Mb Mc Md Me].
  unfold team_begin.
  destruct (block_provision_ok (twith_time st t) p sup) as (r & Er & Hr); [|lia|lia|].
  { change (required_balance (twith_time st t)) with (required_balance st). lia. }
  rewrite Er. cbn [ts_accounts ts_time twith_time].
  assert (HV : Forall (fun a => 0 <= va_claimed a <= vested a t /\ vested a t < two63 /\ 0 <= va_rewards a) (ts_accounts st)).
  { rewrite Forall_lookup in *. intros i a E. specialize (Hc3 i a E). specialize (Ma i a E). simpl in *.
    destruct HI as [_ HF]. rewrite Forall_lookup in HF. destruct (HF i a E) as (Ha & _).
    pose proof (vested_bounds a t Ha). destruct Ha as (? & _). lia. }
  assert (Hu : zsum (unclaimed t) (ts_accounts st) <= TEAM_ALLOCATION).
  { etransitivity; [|exact Hc2]. apply zsum_le. eapply Forall_impl; [exact HV|]. unfold unclaimed. simpl. lia. }
  assert (HFr : Forall (fun a => 0 <= va_rewards a) (ts_accounts st)) by (eapply Forall_impl; [exact Ma|]; simpl; lia).
  pose proof (zsum_nonneg _ _ HFr) as Hzr.
  unfold recorded in *.
  destruct (distribute_ok (ts_accounts st) t r HV) as (l' & s & Ed & Hs0 & Hsum & _ & HF2 & Hsr); [lia|done| |unfold two63, two64 in *; lia|].
  { intros x Hx. apply mild_bound; [lia|]. nia. }
  pose proof (distribute_same _ _ _ _ _ Ed) as Hsame.
  rewrite Ed. cbv zeta. rewrite (w64_small r) by (unfold two63, two64 in *; lia).
  rewrite u64_sub_le by lia.
  assert (Hau : u64_add (ts_arewards st) (r - s) = ts_arewards st + (r - s)).
  { unfold u64_add. apply w64_small. unfold two63, two64 in *; lia. }
  cbn [ts_bank twith_halt twith_auth twith_accounts ts_arewards ts_aclaimed twith_time].
  destruct (transfer_ok (ts_bank st) MFeeCollector MTeam r) as [b Eb]; [lia|lia|].
  rewrite Eb. pose proof (transfer_bal _ _ _ _ _ Eb) as Hb.
  assert (Hb1 : bal b MTeam KYVE = bal (ts_bank st) MTeam KYVE + r).
  { rewrite Hb. rewrite decide_False by done. rewrite decide_True by done. lia. }
  assert (Hb2 : bal b MFeeCollector KYVE = bal (ts_bank st) MFeeCollector KYVE - r).
  { rewrite Hb. rewrite decide_True by done. rewrite decide_False by done. lia. }
  assert (Hcl : zsum va_claimed (ts_accounts st) = zsum va_claimed l').
  { apply zsum_Forall2. eapply Forall2_impl; [exact Hsame|]. intros a a' Hs. apply Hs. }
  assert (Hrw : zsum (fun a => va_rewards a - va_rclaimed a) l' = zsum (fun a => va_rewards a - va_rclaimed a) (ts_accounts st) + s).
  { assert (Hg : forall l, zsum (fun a => va_rewards a - va_rclaimed a) l = zsum va_rewards l - zsum va_rclaimed l).
    { induction l as [|a l IH]; cbn [zsum foldr]; [done|]. fold (zsum va_rewards l) (zsum va_rclaimed l) (zsum (fun a => va_rewards a - va_rclaimed a) l). lia. }
    rewrite !Hg. assert (zsum va_rclaimed (ts_accounts st) = zsum va_rclaimed l').
    { apply zsum_Forall2. eapply Forall2_impl; [exact Hsame|]. intros a a' Hs. apply Hs. }
    lia. }
  cbn [ts_bank twith_bank ts_accounts ts_arewards twith_halt twith_auth twith_accounts].
  rewrite Hau. split; [|split; [|split]]; [|lia|lia|lia].
  constructor.
  - simpl. rewrite Forall_lookup in *. intros i a' E.
    destruct (Forall2_lookup_r _ _ _ _ _ Hsame E) as (a & Ea & Hsa).
    destruct (Forall2_lookup_r _ _ _ _ _ HF2 E) as (a2 & Ea2 & Hle). simplify_eq.
    specialize (Ma i a Ea). destruct Hsa as (_ & _ & _ & _ & _ & E6). simpl in *. lia.
  - simpl. rewrite ?Hau; lia.
  - unfold recorded. simpl. rewrite ?Hau; lia.
  - unfold spec_required in *. simpl. rewrite ?Hau, Hrw, Hb1. lia.
  - simpl. rewrite Me. cbn [orb]. apply Z.ltb_ge. lia.
Qed.

Lemma TM_step m st o : TI st -> in_cap st -> TM m st -> top_ok st o -> small_op o -> mild st o -> m + mint_of o < two63 -> 0 <= m ->
  TM (m + mint_of o) (tstep st o).
Proof.
  intros HI Hcap HM Hok Hsm Hmild Hm Hm0.
  destruct o as [s total start|s id x r|s id c|s id x r|s x r|t p sup|b]; simpl mint_of in *;
    try (rewrite Z.add_0_r in *).
  - destruct HM as [Ma Mb Mc Md Me]. simpl. unfold msg_create. destruct (negb _); [done|]. destruct (_ || _); [done|].
    destruct (_ <? _); [done|]. simpl.
    constructor; unfold recorded, spec_required in *; simpl; rewrite ?zsum_app; simpl; try lia; try done.
    apply Forall_app. split; [done|]. constructor; [simpl; lia|done].
  - pose proof HM as [Ma Mb Mc Md Me]. simpl. unfold msg_claim_unlocked. destruct (negb _); [done|].
    destruct (ts_accounts st !! id) as [a|] eqn:Ei; [|done].
    destruct (_ <? x) eqn:E1; [done|]. destruct (transfer _ _ _ _) as [b|] eqn:Eb; [|done].
    destruct HI as [Ht HF]. rewrite Forall_lookup in HF. simpl in Hok.
    destruct (claimable_spec a (ts_time st) x (HF _ _ Ei) Ht ltac:(lia) ltac:(lia)) as [E2 E3].
    pose proof (transfer_bal _ _ _ _ _ Eb MTeam) as Hb. rewrite decide_True in Hb by done. rewrite decide_False in Hb by done.
    constructor; unfold recorded, spec_required in *; simpl; try done.
    + apply Forall_insert; [done|]. rewrite Forall_lookup in Ma. exact (Ma _ _ Ei).
    + rewrite (zsum_insert _ _ _ a) by done. simpl. lia.
    + rewrite !(zsum_insert _ _ _ a) by done. simpl. lia.
  - destruct HM as [Ma Mb Mc Md Me]. simpl. unfold msg_clawback. destruct (negb _); [done|].
    destruct (ts_accounts st !! id) as [a|] eqn:Ei; [|done]. destruct (_ && _); [done|]. destruct (_ && _); [done|].
    constructor; unfold recorded, spec_required in *; simpl; try done.
    + apply Forall_insert; [done|]. rewrite Forall_lookup in Ma. exact (Ma _ _ Ei).
    + rewrite (zsum_insert _ _ _ a) by done. simpl. lia.
    + rewrite !(zsum_insert _ _ _ a) by done. simpl. lia.
  - pose proof HM as [Ma Mb Mc Md Me]. simpl. unfold msg_claim_rewards. destruct (negb _); [done|].
    destruct (ts_accounts st !! id) as [a|] eqn:Ei; [|done].
    destruct (_ <? x) eqn:E1; [done|]. destruct (transfer _ _ _ _) as [b|] eqn:Eb; [|done].
    rewrite Forall_lookup in Ma. pose proof (Ma _ _ Ei) as Ha. simpl in Ha, Hok.
    rewrite u64_sub_le in E1 by lia.
    assert (HFr : Forall (fun a => 0 <= va_rewards a) (ts_accounts st))
      by (rewrite Forall_lookup; intros i a' E'; specialize (Ma i a' E'); simpl in *; lia).
    pose proof (zsum_elem _ _ _ _ HFr Ei) as Hra.
    assert (E2 : u64_add (va_rclaimed a) x = va_rclaimed a + x).
    { unfold u64_add. apply w64_small. unfold recorded, two63, two64 in *. lia. }
    pose proof (transfer_bal _ _ _ _ _ Eb MTeam) as Hb. rewrite decide_True in Hb by done. rewrite decide_False in Hb by done.
    constructor; unfold recorded, spec_required in *; simpl; try done.
    + apply Forall_insert; [by apply Forall_lookup|]. simpl. lia.
    + rewrite (zsum_insert _ _ _ a) by done. simpl. lia.
    + rewrite !(zsum_insert _ _ _ a) by done. simpl. lia.
  - pose proof HM as [Ma Mb Mc Md Me]. simpl. unfold msg_claim_authority. destruct (negb _); [done|].
    destruct (_ <? x) eqn:E1; [done|]. destruct (transfer _ _ _ _) as [b|] eqn:Eb; [|done]. simpl in Hok.
    rewrite u64_sub_le in E1 by lia.
    assert (HFr : Forall (fun a => 0 <= va_rewards a) (ts_accounts st)) by (eapply Forall_impl; [exact Ma|]; simpl; lia).
    pose proof (zsum_nonneg _ _ HFr).
    assert (E2 : u64_add (ts_aclaimed st) x = ts_aclaimed st + x).
    { unfold u64_add. apply w64_small. unfold recorded, two63, two64 in *. lia. }
    pose proof (transfer_bal _ _ _ _ _ Eb MTeam) as Hb. rewrite decide_True in Hb by done. rewrite decide_False in Hb by done.
    constructor; unfold recorded, spec_required in *; simpl; try done; rewrite ?E2; lia.
  - by apply block_ok.
  - destruct HM as [Ma Mb Mc Md Me]. constructor; simpl; try done. unfold spec_required in *. simpl in *. lia.
Qed.

(** Histories in which every state is within the cap and every block's inflation is mild. *)
Fixpoint within (st : tstate) (ops : list top) : Prop :=
  in_cap st /\ match ops with [] => True | o :: t => mild st o /\ within (tstep st o) t end.
Definition minted (ops : list top) : Z := zsum mint_of ops.
Lemma minted_nonneg st ops : tops_ok st ops -> 0 <= minted ops.
Proof.
  revert st. induction ops as [|o ops IH]; intros st H; cbn [minted zsum foldr]; [done|]. fold (zsum mint_of ops).
  destruct H as [H1 H2]. specialize (IH _ H2). unfold minted in IH. destruct o; simpl in *; lia.
Qed.
Lemma TM_run m st ops : TI st -> TM m st -> tops_ok st ops -> Forall small_op ops -> within st ops ->
  0 <= m -> m + minted ops < two63 -> TM (m + minted ops) (trun st ops).
Proof.
  revert m st. induction ops as [|o ops IH]; intros m st HI HM Hok Hs Hw Hm0 Hm.
  - cbn [minted zsum foldr trun]. by rewrite Z.add_0_r.
  - cbn [minted zsum foldr trun] in *. fold (zsum mint_of ops) (minted ops) in *. inversion Hs; subst.
    destruct Hok as [Ho Hok]. destruct Hw as (Hc & Hmi & Hw).
    pose proof (minted_nonneg _ _ Hok). assert (0 <= mint_of o) by (destruct o; simpl in *; lia).
    replace (m + (mint_of o + minted ops)) with ((m + mint_of o) + minted ops) by ring.
    apply IH; try done; try lia; [by apply TI_step|]. apply TM_step; try done. lia.
Qed.
Lemma TM_init b t : TEAM_ALLOCATION <= bal b MTeam KYVE -> TM 0 (tinit b t).
Proof. intros. constructor; unfold recorded, spec_required; simpl; try done; lia. Qed.
