(** * Delegation: a payout is shared in proportion to the delegations. *)
From Verif Require Import Base BaseFacts Delegation F1Spec F1Refine F1Acct DelegationInv DelegationQueue DelegationProps DelegationRewards
  DelegationClaims DelegationClaims2 DelegationExamples.

Lemma quo_lower_aux (O n t v q : Z) : 0 < O -> 0 < t -> 2 <= O -> q * t <= n * (O * O) < q * t + t -> - O <= 2 * (v * O - q) ->
  2 * (n * O) <= 2 * (v * t) + 2 * t.
Proof.
  intros HO Ht HO2 Hq Hv.
  assert (H1 : 2 * (q * t) <= 2 * (v * t) * O + O * t).
  { assert ((2 * q) * t <= (2 * (v * O) + O) * t) by (apply Z.mul_le_mono_nonneg_r; lia).
    replace ((2 * (v * O) + O) * t) with (2 * (v * t) * O + O * t) in H by ring. lia. }
  assert (H2 : 2 * (n * O) * O <= (2 * (v * t) + t) * O + 2 * t).
  { replace (2 * (n * O) * O) with (2 * (n * (O * O))) by ring.
    replace ((2 * (v * t) + t) * O) with (2 * (v * t) * O + O * t) by ring. lia. }
  apply (Z.mul_le_mono_pos_r _ _ O HO).
  replace ((2 * (v * t) + 2 * t) * O) with ((2 * (v * t) + t) * O + t * O) by ring.
  assert (t * 2 <= t * O) by (apply Z.mul_le_mono_nonneg_l; lia). lia.
Qed.
Lemma dec_quo_lower n t : 0 <= n -> 0 < t ->
  let v := dec_quo (dec_of_int n) (dec_of_int t) in 2 * (n * ONE) <= 2 * (v * t) + 2 * t.
Proof.
  intros Hn Ht. cbv zeta. unfold dec_quo, dec_of_int.
  replace (n * ONE * (ONE * ONE)) with (n * (ONE * ONE) * ONE) by ring.
  assert (HO : 0 < ONE) by apply ONE_pos. rewrite Z.quot_mul_cancel_r by lia.
  set (q := (n * (ONE * ONE)) ÷ t).
  assert (Hq : q * t <= n * (ONE * ONE) < q * t + t).
  { unfold q. assert (0 <= n * (ONE * ONE)) by (apply Z.mul_nonneg_nonneg; [lia|apply Z.mul_nonneg_nonneg; lia]).
    rewrite Z.quot_div_nonneg by lia. pose proof (Z.div_mod (n * (ONE * ONE)) t ltac:(lia)). pose proof (Z.mod_pos_bound (n * (ONE * ONE)) t Ht). lia. }
  assert (0 <= q). { unfold q. apply Z.quot_pos; [|lia]. apply Z.mul_nonneg_nonneg; [lia|apply Z.mul_nonneg_nonneg; lia]. }
  destruct (chop_round_nonneg q) as [_ [H1 _]]; [done|].
  eapply quo_lower_aux; [exact HO|exact Ht|unfold ONE; lia|exact Hq|exact H1].
Qed.

(** The arithmetic, with [O] the decimal unit. *)
Lemma share_arith (O A p v v' B b m m' w w' R n t : Z) :
  0 < O -> 0 < t -> 0 <= b -> 0 <= R -> b * O <= B < b * O + O ->
  2 * (v * t) <= 2 * (n * O) + t -> 2 * (n * O) <= 2 * (v * t) + 2 * t ->
  2 * (v' * t) <= 2 * ((n + R) * O) + t -> 2 * ((n + R) * O) <= 2 * (v' * t) + 2 * t ->
  - O <= 2 * (m * O - (p + v) * B) <= O -> - O <= 2 * (m' * O - (p + v') * B) <= O ->
  w * O <= A + m < w * O + O -> w' * O <= A + m' < w' * O + O ->
  R * b * O - t * (2 * b + 3 + O) <= (w' - w) * t * O <= R * (b + 1) * O + t * (2 * b + 3 + O).
Proof.
  intros HO Ht Hb HR HB V1 V2 V3 V4 M1 M2 W1 W2.
  set (D := (v' - v) * B). set (dw := w' - w).
  assert (Hm : -O <= (m' - m) * O - D <= O).
  { unfold D. replace ((m' - m) * O - (v' - v) * B) with ((m' * O - (p + v') * B) - (m * O - (p + v) * B)) by ring. lia. }
  assert (HW : dw * O - O <= m' - m <= dw * O + O) by (unfold dw; lia).
  (* (v' - v) * t is R * O up to 2 t *)
  assert (Hv : R * O - 2 * t <= (v' - v) * t <= R * O + 2 * t).
  { replace ((v' - v) * t) with (v' * t - v * t) by ring. replace ((n + R) * O) with (n * O + R * O) in * by ring. lia. }
  assert (HD : R * b * O * O - 2 * t * (b + 1) * O <= D * t <= R * (b + 1) * O * O + 2 * t * (b + 1) * O).
  { replace (D * t) with ((v' - v) * t * B) by (unfold D; ring).
    assert (HB0 : 0 <= B). { assert (0 <= b * O) by (apply Z.mul_nonneg_nonneg; lia). lia. }
    assert (L1 : (R * O - 2 * t) * B <= (v' - v) * t * B) by (apply Z.mul_le_mono_nonneg_r; lia).
    assert (L2 : (v' - v) * t * B <= (R * O + 2 * t) * B) by (apply Z.mul_le_mono_nonneg_r; lia).
    assert (HRO : 0 <= R * O) by (apply Z.mul_nonneg_nonneg; lia).
    assert (L3 : (R * O) * (b * O) <= (R * O) * B) by (apply Z.mul_le_mono_nonneg_l; lia).
    assert (L4 : (R * O) * B <= (R * O) * (b * O + O)) by (apply Z.mul_le_mono_nonneg_l; lia).
    assert (L5 : (2 * t) * B <= (2 * t) * (b * O + O)) by (apply Z.mul_le_mono_nonneg_l; lia).
    replace ((R * O - 2 * t) * B) with (R * O * B - 2 * t * B) in L1 by ring.
    replace ((R * O + 2 * t) * B) with (R * O * B + 2 * t * B) in L2 by ring.
    replace (R * O * (b * O)) with (R * b * O * O) in L3 by ring.
    replace (R * O * (b * O + O)) with (R * (b + 1) * O * O) in L4 by ring.
    replace (2 * t * (b * O + O)) with (2 * t * (b + 1) * O) in L5 by ring.
    split; lia. }
  (* combine *)
  assert (HmO : (dw * O - O) * O <= (m' - m) * O <= (dw * O + O) * O) by (split; apply Z.mul_le_mono_nonneg_r; lia).
  assert (HDw : (dw * O - O) * O - O <= D <= (dw * O + O) * O + O) by lia.
  assert (HDt1 : ((dw * O - O) * O - O) * t <= D * t) by (apply Z.mul_le_mono_nonneg_r; lia).
  assert (HDt2 : D * t <= ((dw * O + O) * O + O) * t) by (apply Z.mul_le_mono_nonneg_r; lia).
  split; apply (Z.mul_le_mono_pos_r _ _ O HO).
  - replace ((R * b * O - t * (2 * b + 3 + O)) * O) with (R * b * O * O - 2 * t * (b + 1) * O - t * O - t * O * O) by ring.
    replace (((dw * O + O) * O + O) * t) with (dw * t * O * O + t * O * O + t * O) in HDt2 by ring. lia.
  - replace ((R * (b + 1) * O + t * (2 * b + 3 + O)) * O) with (R * (b + 1) * O * O + 2 * t * (b + 1) * O + t * O + t * O * O) by ring.
    replace (((dw * O - O) * O - O) * t) with (dw * t * O * O - t * O * O - t * O) in HDt1 by ring. lia.
Qed.

Lemma claim_share ops st s c payer st' : reached ops st -> cpos c -> payer <> MDelegation -> payout_rewards st s c payer = Some st' ->
  0 < delegation_amount st s ->
  forall d x, is_delegator st s d ->
  let R := amt c x in let b := delegation_of st s d in let T := delegation_amount st s in
  R * b * ONE - T * (2 * b + 3 + ONE) <= (amt (payable st' s d) x - amt (payable st s d) x) * T * ONE
    <= R * (b + 1) * ONE + T * (2 * b + 3 + ONE).
Proof.
  intros HR Hc Hp Hpay HT d x Hd. cbv zeta. destruct (reached_good _ _ HR) as (g & HG & HE & _).
  destruct (Good_step st g (OPayout s c payer) HG HE ltac:(done)) as [HG' _]. simpl in HG'. rewrite Hpay in HG'. simpl in HG'.
  unfold payable. rewrite (read_payable _ _ s d HG), (read_payable _ _ s d HG').
  rewrite (read_of _ _ s d HG), (read_amount _ _ s HG) in *.
  destruct (HG s) as [HRel [HW _]]. set (l := gl g s) in *.
  destruct (lg_dels l !! d) as [y|] eqn:Ey.
  2:{ destruct Hd as [dl Hdl]. apply (Rel_lookup _ _ d HRel) in Ey. congruence. }
  set (l' := gl (if cempty c then g else b_reward g s c) s).
  assert (Hl' : lg_dels l' !! d = Some y /\ lg_total l' = lg_total l /\ amt (lg_rewards l') x = amt (lg_rewards l) x + amt c x).
  { unfold l'. destruct (cempty c) eqn:Ec.
    - assert (amt c x = 0) as ->.
      { apply cempty_spec in Ec as ->. apply amt_empty. }
      rewrite Z.add_0_r. done.
    - unfold b_reward. rewrite gl_insert. rewrite decide_True by done. simpl. rewrite amt_cadd. done. }
  destruct Hl' as (Hl1 & Hl2 & Hl3). clearbody l'.
  rewrite (lg_owed_amt _ _ _ x Ey), (lg_owed_amt _ _ _ x Hl1). rewrite !amt_per_token, Hl2, Hl3.
  replace (lg_total l =? 0) with false by (symmetry; apply Z.eqb_neq; lia).
  destruct (lw_dels _ HW _ _ Ey) as (Hb & Hpe & Hac).
  assert (Hr0 : 0 <= amt (lg_rewards l) x) by (apply cpos_amt, (lw_rew _ HW)).
  assert (HR0 : 0 <= amt c x) by (by apply cpos_amt).
  assert (HA : 0 <= amt (l_acc y) x) by (by apply cpos_amt).
  assert (HP : 0 <= amt (l_pend y) x) by (by apply cpos_amt).
  unfold lg_balance. rewrite Ey.
  destruct (trunc_int_spec (l_bal y) Hb) as (Tb0 & Tb1).
  pose proof (dec_quo_int_spec (amt (lg_rewards l) x) (lg_total l) Hr0 HT) as [Q0 Q1].
  pose proof (dec_quo_lower (amt (lg_rewards l) x) (lg_total l) Hr0 HT) as Q2.
  pose proof (dec_quo_int_spec (amt (lg_rewards l) x + amt c x) (lg_total l) ltac:(lia) HT) as [Q3 Q4].
  pose proof (dec_quo_lower (amt (lg_rewards l) x + amt c x) (lg_total l) ltac:(lia) HT) as Q5.
  cbv zeta in *. set (v := dec_quo (dec_of_int (amt (lg_rewards l) x)) _) in *.
  set (v' := dec_quo (dec_of_int (amt (lg_rewards l) x + amt c x)) _) in *.
  destruct (dec_mul_spec (amt (l_pend y) x + v) (l_bal y) ltac:(lia) Hb) as [M0 M1].
  destruct (dec_mul_spec (amt (l_pend y) x + v') (l_bal y) ltac:(lia) Hb) as [M2 M3].
  destruct (trunc_int_spec (amt (l_acc y) x + dec_mul (amt (l_pend y) x + v) (l_bal y)) ltac:(lia)) as [_ W1].
  destruct (trunc_int_spec (amt (l_acc y) x + dec_mul (amt (l_pend y) x + v') (l_bal y)) ltac:(lia)) as [_ W2].
  eapply (share_arith ONE (amt (l_acc y) x) (amt (l_pend y) x) v v' (l_bal y)); try eassumption.
  apply ONE_pos.
Qed.

(** C53 on [h1]: 530 units paid to staker 10 (265 delegated: 165 by delegator 1, 100 by 2).
    The shares 330 and 200 are paid on top of the 0 and 1 already owed. *)
Definition pay530 : option dstate := payout_rewards s1 10 {[KYVE := 530]} (User 1).
Example h1_share :
  cpos {[KYVE := 530]} /\ delegation_amount s1 10 = 265 /\
  match pay530 with
  | Some st' => map_to_list (payable st' 10 1) = [(KYVE, 330)] /\ map_to_list (payable st' 10 2) = [(KYVE, 201)]
  | None => False
  end.
Proof.
  split; [|by vm_compute]. intros k v Hk. apply lookup_singleton_Some in Hk as [_ <-]. lia.
Qed.
