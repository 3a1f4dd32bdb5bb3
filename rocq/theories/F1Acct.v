(** * Accounting on the plain ledger: principal slack and reward allowance. *)
From Verif Require Import Base BaseFacts Delegation F1Spec F1Refine.

Ltac Zify.zify_post_hook ::= Z.div_mod_to_equations.

(** Sum of the exact balances. *)
Definition bal_sum (l : ledger) : Z := msum (fun _ x => l_bal x) (lg_dels l).
(** Sum of the whole-token balances. *)
Definition tok_sum (l : ledger) : Z := msum (fun _ x => trunc_int (l_bal x)) (lg_dels l).

(** Twice the rewards owed from distributed periods, in units of 10^-36. *)
Definition liab (l : ledger) (x : N) : Z :=
  msum (fun _ y => 2 * (amt (l_acc y) x * ONE + amt (l_pend y) x * l_bal y)) (lg_dels l).

(** Bookkeeping of allowances (ghost data, not in the code):
    - [a_E]: how much (10^-18 tokens) slash roundings let the balances exceed the total,
    - [a_S x]: accumulated reward rounding allowance, in units of 10^-36 / 2,
    - [a_P x]: rewards received minus rewards paid. *)
Record allow := mkA { a_E : Z; a_S : N -> Z; a_P : N -> Z }.
Definition a_zero : allow := mkA 0 (fun _ => 0) (fun _ => 0).

(** Allowance used by distributing the rewards once: nothing if there are none. *)
Definition dist_cost (l : ledger) (E : Z) (x : N) : Z :=
  if amt (lg_rewards l) x =? 0 then 0
  else lg_total l * ONE + 2 * amt (per_token l) x * E.

Definition a_dist (l : ledger) (g : allow) : allow :=
  mkA (a_E g) (fun x => a_S g x + dist_cost l (a_E g) x) (a_P g).
Definition a_join (l : ledger) (g : allow) (a : Z) : allow :=
  if a =? 0 then g else a_dist l g.
Definition a_leave (l : ledger) (g : allow) (d : N) : allow :=
  match lg_dels l !! d with None => g | Some _ => a_dist l g end.
Definition a_withdraw (l : ledger) (g : allow) (d : N) : allow :=
  match lg_dels l !! d with
  | None => g
  | Some _ => mkA (a_E g) (fun x => a_S g x + dist_cost l (a_E g) x + ONE)
                  (fun x => a_P g x - amt (lg_owed l d) x)
  end.
Definition a_slash (l : ledger) (g : allow) : allow :=
  let n := Z.of_nat (size (lg_dels l)) in
  mkA (a_E g + n) (fun x => a_S g x + dist_cost l (a_E g) x + n * ONE) (a_P g).
Definition a_reward (g : allow) (c : coins) : allow :=
  mkA (a_E g) (a_S g) (fun x => a_P g x + amt c x).

Record LInv (l : ledger) (g : allow) : Prop := {
  li_E : 0 <= a_E g;
  li_tot : 0 <= lg_total l;
  li_rew : cpos (lg_rewards l);
  li_dels : forall d x, lg_dels l !! d = Some x -> 0 <= l_bal x /\ cpos (l_pend x) /\ cpos (l_acc x);
  li_bal : bal_sum l <= lg_total l * ONE + a_E g;
  li_liab : forall x, liab l x + 2 * amt (lg_rewards l) x * (ONE * ONE)
                      <= 2 * a_P g x * (ONE * ONE) + a_S g x
}.

Lemma LInv_empty : LInv lg_empty a_zero.
Proof.
  constructor; simpl; try lia; try apply cpos_empty.
  - intros d x. by rewrite lookup_empty.
  - unfold bal_sum. simpl. rewrite msum_empty. lia.
  - intros x. unfold liab. simpl. rewrite msum_empty, amt_empty. lia.
Qed.

Lemma msum_fmap {A B} (g : A -> B) (h : N -> B -> Z) (m : gmap N A) :
  msum h (g <$> m) = msum (fun k a => h k (g a)) m.
Proof.
  induction m as [|k a m Hk IH] using map_ind.
  - by rewrite fmap_empty, !msum_empty.
  - rewrite fmap_insert, !msum_insert_fresh; [by rewrite IH|done|].
    by rewrite lookup_fmap, Hk.
Qed.

Lemma dist_cost_nonneg l g x : LInv l g -> 0 <= dist_cost l (a_E g) x.
Proof.
  intros HI. unfold dist_cost. destruct (_ =? 0); [lia|].
  pose proof (li_tot _ _ HI). pose proof (li_E _ _ HI).
  pose proof (cpos_amt _ x (per_token_pos l (li_tot _ _ HI) (li_rew _ _ HI))).
  unfold ONE. nia.
Qed.

Lemma amt_per_token l x :
  amt (per_token l) x = if lg_total l =? 0 then 0
                        else dec_quo (dec_of_int (amt (lg_rewards l) x)) (dec_of_int (lg_total l)).
Proof.
  unfold per_token. destruct (lg_total l =? 0) eqn:E; [apply amt_empty|].
  apply amt_cmap. unfold dec_quo, dec_of_int. by rewrite !Z.mul_0_l, Z.quot_0_l by (unfold ONE; lia).
Qed.

Lemma amt_times c b x : amt (times c b) x = dec_mul (amt c x) b.
Proof. unfold times. apply amt_cmap. done. Qed.

Lemma liab_dist l x : liab (lg_distribute l) x = liab l x + 2 * amt (per_token l) x * bal_sum l.
Proof.
  unfold liab, bal_sum. simpl. rewrite msum_fmap. simpl.
  rewrite <- msum_scale. rewrite <- msum_add. apply msum_ext.
  intros k a _. rewrite amt_cadd. lia.
Qed.

Lemma bal_sum_dist l : bal_sum (lg_distribute l) = bal_sum l.
Proof. unfold bal_sum. simpl. by rewrite msum_fmap. Qed.

Lemma LInv_dist l g : LInv l g -> LInv (lg_distribute l) (a_dist l g).
Proof.
  intros HI. pose proof (li_tot _ _ HI) as Ht. pose proof (li_rew _ _ HI) as Hr.
  pose proof (per_token_pos l Ht Hr) as Hpv.
  constructor; simpl.
  - apply HI.
  - done.
  - apply cpos_empty.
  - intros d x Hx. rewrite lookup_fmap in Hx. apply fmap_Some in Hx as (y & Hy & ->).
    destruct (li_dels _ _ HI d y Hy) as (? & ? & ?). simpl. split_and!; [done| |done].
    by apply cpos_cadd.
  - rewrite bal_sum_dist. apply HI.
  - intros x. rewrite liab_dist, amt_empty.
    pose proof (li_liab _ _ HI x) as HL. pose proof (li_bal _ _ HI) as HB.
    pose proof (cpos_amt _ x Hpv) as Hv. pose proof (cpos_amt _ x Hr) as Hrx.
    pose proof (li_E _ _ HI) as HE.
    set (r := amt (lg_rewards l) x) in *. set (v := amt (per_token l) x) in *.
    assert (Hcost : 2 * v * bal_sum l <= 2 * r * (ONE * ONE) + dist_cost l (a_E g) x); [|lia].
    unfold dist_cost. fold r v. pose proof (amt_per_token l x) as Hvv. fold v r in Hvv.
    destruct (lg_total l =? 0) eqn:ET.
    { rewrite Hvv. destruct (r =? 0) eqn:Er; [lia|]. apply Z.eqb_eq in ET. rewrite ET. unfold ONE; nia. }
    destruct (r =? 0) eqn:Er.
    { apply Z.eqb_eq in Er. rewrite Er in Hvv. assert (Hv0 : v = 0).
      { rewrite Hvv. unfold dec_quo, dec_of_int. by rewrite !Z.mul_0_l, Z.quot_0_l by (unfold ONE; lia). }
      rewrite Hv0, Er. lia. }
    destruct (dec_quo_int_spec r (lg_total l)) as [_ Hq]; [lia..|]. rewrite <- Hvv in Hq.
    assert (v * bal_sum l <= v * (lg_total l * ONE + a_E g)) by (apply Z.mul_le_mono_nonneg_l; lia).
    assert (2 * (v * lg_total l) * ONE <= (2 * (r * ONE) + lg_total l) * ONE)
      by (apply Z.mul_le_mono_nonneg_r; pose proof ONE_pos; lia).
    nia.
Qed.

Lemma liab_nonneg l g x : LInv l g -> 0 <= liab l x.
Proof.
  intros HI. apply msum_nonneg. intros k y Hy.
  destruct (li_dels _ _ HI k y Hy) as (Hb & Hp & Ha).
  pose proof (cpos_amt _ x Hp). pose proof (cpos_amt _ x Ha). unfold ONE. nia.
Qed.

Lemma LInv_join l g d a :
  LInv l g -> lg_dels l !! d = None -> 0 <= a -> LInv (lg_join l d a) (a_join l g a).
Proof.
  intros HI Hd Ha. unfold lg_join, a_join. destruct (a =? 0) eqn:E; [done|].
  pose proof (LInv_dist _ _ HI) as HD. set (l' := lg_distribute l) in *.
  assert (Hd' : lg_dels l' !! d = None) by (simpl; by rewrite lookup_fmap, Hd).
  constructor; cbn [lg_rewards lg_total lg_dels].
  - apply HD.
  - pose proof (li_tot _ _ HD). lia.
  - apply HD.
  - intros d0 x Hx. apply lookup_insert_Some in Hx as [[<- <-]|[_ Hx]]; [|by apply (li_dels _ _ HD d0)].
    simpl. unfold dec_of_int, ONE. split_and!; [lia|apply cpos_empty..].
  - unfold bal_sum. cbn [lg_dels]. rewrite msum_insert_fresh by done. simpl.
    pose proof (li_bal _ _ HD) as HB. unfold bal_sum in HB. unfold dec_of_int. simpl in *. lia.
  - intros x. unfold liab. cbn [lg_dels]. rewrite msum_insert_fresh by done. simpl l_acc. simpl l_pend.
    rewrite amt_empty. pose proof (li_liab _ _ HD x) as HL. unfold liab in HL. lia.
Qed.

Lemma bal_le_sum l g d x : LInv l g -> lg_dels l !! d = Some x -> l_bal x <= bal_sum l.
Proof.
  intros HI Hx. unfold bal_sum. apply (msum_elem_le (fun _ x => l_bal x) _ d x); [|done].
  intros k a Hk. by apply (li_dels _ _ HI k).
Qed.

(** A single balance never exceeds the total. *)
Lemma balance_le_total l g d x :
  LInv l g -> a_E g < ONE -> lg_dels l !! d = Some x -> trunc_int (l_bal x) <= lg_total l.
Proof.
  intros HI HE Hx. pose proof (bal_le_sum _ _ _ _ HI Hx). pose proof (li_bal _ _ HI).
  destruct (li_dels _ _ HI d x Hx) as (Hb & _ & _).
  pose proof (trunc_int_spec (l_bal x) Hb). unfold ONE in *. lia.
Qed.

(** The whole-token balances together never exceed the total. *)
Lemma tok_sum_le_total l g : LInv l g -> a_E g < ONE -> tok_sum l <= lg_total l.
Proof.
  intros HI HE. pose proof (li_bal _ _ HI) as HB.
  assert (ONE * tok_sum l <= bal_sum l).
  { unfold tok_sum, bal_sum. rewrite <- msum_scale. apply msum_le. intros k a Hk.
    destruct (li_dels _ _ HI k a Hk) as (Hb & _ & _). pose proof (trunc_int_spec _ Hb). lia. }
  unfold ONE in *. lia.
Qed.

Lemma LInv_leave l g d :
  LInv l g -> a_E g < ONE -> LInv (fst (lg_leave l d)) (a_leave l g d) /\
  lg_total (fst (lg_leave l d)) = lg_total l - snd (lg_leave l d) /\ 0 <= snd (lg_leave l d).
Proof.
  intros HI HE. unfold lg_leave, a_leave. destruct (lg_dels l !! d) as [x|] eqn:Hx; simpl; [|split; [done|lia]].
  pose proof (LInv_dist _ _ HI) as HD. pose proof (balance_le_total _ _ _ _ HI HE Hx) as Hle.
  destruct (li_dels _ _ HI d x Hx) as (Hb & _ & _). pose proof (trunc_int_spec (l_bal x) Hb) as [Htb [Htb' _]].
  assert (Hsub : u64_sub (lg_total l) (trunc_int (l_bal x)) = lg_total l - trunc_int (l_bal x)).
  { unfold u64_sub. destruct (_ <=? _) eqn:E; [done|lia]. }
  set (m := lg_dels (lg_distribute l)).
  change ((fun x0 => mkL (l_bal x0) (cadd (l_pend x0) (per_token l)) (l_acc x0)) <$> lg_dels l) with m.
  assert (Hx' : m !! d = Some (mkL (l_bal x) (cadd (l_pend x) (per_token l)) (l_acc x))).
  { unfold m. simpl. by rewrite lookup_fmap, Hx. }
  split; [|split; [done|done]]. rewrite Hsub.
  constructor; cbn [lg_rewards lg_total lg_dels].
  - apply HD.
  - lia.
  - apply HD.
  - intros d0 y Hy. apply lookup_delete_Some in Hy as [_ Hy]. by apply (li_dels _ _ HD d0).
  - unfold bal_sum. cbn [lg_dels]. rewrite (msum_delete _ _ _ _ Hx'). simpl l_bal.
    pose proof (li_bal _ _ HD) as HB. unfold bal_sum in HB. fold m in HB. simpl in HB.
    simpl a_E. lia.
  - intros y. unfold liab. cbn [lg_dels]. rewrite (msum_delete _ _ _ _ Hx').
    pose proof (li_liab _ _ HD y) as HL. unfold liab in HL. fold m in HL. simpl lg_rewards in HL.
    destruct (li_dels _ _ HD d _ Hx') as (Hb' & Hp' & Ha').
    pose proof (cpos_amt _ y Hp'). pose proof (cpos_amt _ y Ha'). unfold ONE in *. nia.
Qed.

Lemma lg_owed_amt l d x y :
  lg_dels l !! d = Some x ->
  amt (lg_owed l d) y
  = trunc_int (amt (l_acc x) y + dec_mul (amt (l_pend x) y + amt (per_token l) y) (l_bal x)).
Proof.
  intros Hx. unfold lg_owed. rewrite Hx. rewrite amt_cmap by done.
  by rewrite amt_cadd, amt_times, amt_cadd.
Qed.

Lemma owed_bound l g d x y :
  LInv l g -> lg_dels l !! d = Some x ->
  0 <= amt (lg_owed l d) y /\
  2 * amt (lg_owed l d) y * (ONE * ONE)
  <= 2 * (amt (l_acc x) y * ONE + (amt (l_pend x) y + amt (per_token l) y) * l_bal x) + ONE.
Proof.
  intros HI Hx. rewrite (lg_owed_amt _ _ _ _ Hx).
  destruct (li_dels _ _ HI d x Hx) as (Hb & Hp & Ha).
  pose proof (cpos_amt _ y Hp). pose proof (cpos_amt _ y Ha).
  pose proof (cpos_amt _ y (per_token_pos l (li_tot _ _ HI) (li_rew _ _ HI))).
  set (q := amt (l_pend x) y + amt (per_token l) y) in *.
  destruct (dec_mul_spec q (l_bal x)) as [Hm [_ Hm']]; [lia..|].
  destruct (trunc_int_spec (amt (l_acc x) y + dec_mul q (l_bal x))) as [Ht [Ht' _]]; [lia|].
  split; [done|]. unfold ONE in *. nia.
Qed.

Lemma LInv_withdraw l g d :
  LInv l g -> LInv (fst (lg_withdraw l d)) (a_withdraw l g d).
Proof.
  intros HI. unfold lg_withdraw, a_withdraw. destruct (lg_dels l !! d) as [x|] eqn:Hx; simpl; [|done].
  pose proof (LInv_dist _ _ HI) as HD.
  destruct (li_dels _ _ HI d x Hx) as (Hb & Hp & Ha). pose proof (trunc_int_spec (l_bal x) Hb) as [Htb [Htb' _]].
  set (m := lg_dels (lg_distribute l)).
  change ((fun x0 => mkL (l_bal x0) (cadd (l_pend x0) (per_token l)) (l_acc x0)) <$> lg_dels l) with m.
  assert (Hx' : m !! d = Some (mkL (l_bal x) (cadd (l_pend x) (per_token l)) (l_acc x))).
  { unfold m. simpl. by rewrite lookup_fmap, Hx. }
  constructor; cbn [lg_rewards lg_total lg_dels].
  - apply HD.
  - apply HD.
  - apply HD.
  - intros d0 y Hy. apply lookup_insert_Some in Hy as [[<- <-]|[_ Hy]]; [|by apply (li_dels _ _ HD d0)].
    simpl. unfold dec_of_int, ONE. split_and!; [lia|apply cpos_empty..].
  - unfold bal_sum. cbn [lg_dels]. rewrite msum_insert, Hx'. simpl l_bal. unfold dec_of_int.
    pose proof (li_bal _ _ HD) as HB. unfold bal_sum in HB. fold m in HB. simpl in HB. simpl a_E. lia.
  - intros y. unfold liab. cbn [lg_dels]. rewrite msum_insert, Hx'. simpl l_acc. simpl l_pend. simpl l_bal.
    pose proof (li_liab _ _ HD y) as HL. unfold liab in HL. fold m in HL. simpl lg_rewards in HL.
    destruct (owed_bound _ _ _ _ y HI Hx) as [_ Ho]. rewrite !amt_empty, amt_cadd in *. simpl a_P in *. simpl a_S in *.
    lia.
Qed.

Lemma LInv_reward l g c : LInv l g -> cpos c -> LInv (lg_reward l c) (a_reward g c).
Proof.
  intros HI Hc. destruct HI. constructor; simpl; try done.
  - by apply cpos_cadd.
  - intros x. specialize (li_liab0 x). change (liab (lg_reward l c) x) with (liab l x).
    rewrite amt_cadd. lia.
Qed.

Lemma floor_mul a b c : 0 < c -> c * (a * b / c) <= a * b < c * (a * b / c) + c.
Proof.
  intros Hc. pose proof (Z.div_mod (a * b) c ltac:(lia)). pose proof (Z.mod_pos_bound (a * b) c Hc). lia.
Qed.

Lemma LInv_slash l g fr :
  LInv l g -> 0 <= fr <= ONE ->
  LInv (fst (lg_slash l fr)) (a_slash l g) /\
  0 <= snd (lg_slash l fr) <= lg_total l /\
  lg_total (fst (lg_slash l fr)) = lg_total l - snd (lg_slash l fr).
Proof.
  intros HI Hfr. pose proof (LInv_dist _ _ HI) as HD.
  set (m := lg_dels (lg_distribute l)).
  unfold lg_slash, a_slash. cbn [fst snd lg_total lg_rewards]. fold m.
  pose proof (li_tot _ _ HI) as Ht. set (T := lg_total l) in *.
  change (lg_total (lg_distribute l)) with T.
  pose proof (floor_mul T fr ONE ONE_pos) as Hfl. set (sl := T * fr / ONE) in *.
  assert (Hsl : 0 <= sl <= T).
  { split; [apply Z.div_pos; [nia|done]|]. unfold ONE in *; nia. }
  assert (Hsub : u64_sub T sl = T - sl).
  { unfold u64_sub. destruct (_ <=? _) eqn:E; [done|lia]. }
  rewrite Hsub. split; [|split; [done|done]].
  assert (Hsize : size m = size (lg_dels l)) by (unfold m; simpl; apply map_size_fmap).
  constructor; cbn [lg_rewards lg_total lg_dels a_E a_S a_P].
  - pose proof (li_E _ _ HI). lia.
  - lia.
  - apply HD.
  - intros d0 y Hy. rewrite lookup_fmap in Hy. apply fmap_Some in Hy as (z & Hz & ->).
    destruct (li_dels _ _ HD d0 z Hz) as (Hb & Hp & Ha). simpl.
    pose proof (floor_mul (l_bal z) fr ONE ONE_pos).
    split_and!; [unfold ONE in *; nia|apply cpos_empty|].
    apply cpos_cadd; [done|]. apply cpos_of_amt; [apply cnz_cmap|]. intros x. rewrite amt_times.
    apply dec_mul_spec; [by apply cpos_amt|done].
  - unfold bal_sum. cbn [lg_dels]. rewrite msum_fmap. cbn [l_bal].
    pose proof (li_bal _ _ HD) as HB. unfold bal_sum in HB. fold m in HB. simpl in HB. fold T in HB.
    assert (ONE * msum (fun _ a => l_bal a - l_bal a * fr / ONE) m
            <= (ONE - fr) * msum (fun _ x => l_bal x) m + ONE * Z.of_nat (size m)) as Hs.
    { rewrite <- !msum_scale, <- msum_const, <- msum_add. apply msum_le. intros k a Hk.
      pose proof (floor_mul (l_bal a) fr ONE ONE_pos). lia. }
    rewrite Hsize in Hs. set (n := Z.of_nat (size (lg_dels l))) in *.
    set (B := msum (fun _ x => l_bal x) m) in *.
    pose proof (li_E _ _ HI) as HE. set (E := a_E g) in *.
    assert ((ONE - fr) * B <= (ONE - fr) * (T * ONE + E)) by (apply Z.mul_le_mono_nonneg_l; lia).
    assert ((ONE - fr) * E <= ONE * E) by (apply Z.mul_le_mono_nonneg_r; lia).
    apply (Z.mul_le_mono_pos_l _ _ ONE ONE_pos). nia.
  - intros x. unfold liab. cbn [lg_dels]. rewrite msum_fmap. cbn [l_acc l_pend l_bal].
    pose proof (li_liab _ _ HD x) as HL. unfold liab in HL. fold m in HL. simpl lg_rewards in *. simpl a_S in *. simpl a_P in *.
    assert (msum (fun _ a => 2 * (amt (cadd (l_acc a) (times (l_pend a) (l_bal a))) x * ONE
                      + amt ∅ x * (l_bal a - l_bal a * fr / ONE))) m
            <= msum (fun _ y => 2 * (amt (l_acc y) x * ONE + amt (l_pend y) x * l_bal y)) m
               + ONE * Z.of_nat (size m)).
    { rewrite <- msum_const, <- msum_add. apply msum_le. intros k a Hk.
      destruct (li_dels _ _ HD k a Hk) as (Hb & Hp & Ha).
      rewrite amt_cadd, amt_times, amt_empty.
      destruct (dec_mul_spec (amt (l_pend a) x) (l_bal a)) as [_ [_ ?]]; [by apply cpos_amt|done|]. lia. }
    rewrite Hsize in *. lia.
Qed.

(** While the allowance is below one token unit, a payment never exceeds what
    is in the pot. *)
Lemma owed_le_pot l g d y :
  LInv l g -> a_S g y + dist_cost l (a_E g) y + ONE < 2 * (ONE * ONE) ->
  0 <= amt (lg_owed l d) y <= Z.max 0 (a_P g y).
Proof.
  intros HI HS. destruct (lg_dels l !! d) as [x|] eqn:Hx.
  - pose proof (LInv_withdraw _ _ d HI) as HW.
    pose proof (liab_nonneg _ _ y HW) as Hnn. pose proof (li_liab _ _ HW y) as HL.
    pose proof (cpos_amt _ y (li_rew _ _ HW)).
    unfold a_withdraw in HL. rewrite Hx in HL. simpl a_P in HL. simpl a_S in HL.
    destruct (owed_bound _ _ _ _ y HI Hx) as [Ho _].
    split; [done|]. unfold ONE in *. lia.
  - unfold lg_owed. rewrite Hx, amt_empty. lia.
Qed.

(** ** Signs, without any condition on the number of slashes *)
Record LWeak (l : ledger) : Prop := {
  lw_tot : 0 <= lg_total l;
  lw_rew : cpos (lg_rewards l);
  lw_dels : forall d x, lg_dels l !! d = Some x -> 0 <= l_bal x /\ cpos (l_pend x) /\ cpos (l_acc x)
}.

Lemma LInv_weak l g : LInv l g -> LWeak l.
Proof. intros []. by constructor. Qed.

Lemma LWeak_empty : LWeak lg_empty.
Proof. constructor; simpl; [lia|apply cpos_empty|]. intros d x. by rewrite lookup_empty. Qed.

Lemma LWeak_dist l : LWeak l -> LWeak (lg_distribute l).
Proof.
  intros [Ht Hr Hd]. pose proof (per_token_pos l Ht Hr) as Hpv. constructor; simpl; [done|apply cpos_empty|].
  intros d x Hx. rewrite lookup_fmap in Hx. apply fmap_Some in Hx as (y & Hy & ->).
  destruct (Hd d y Hy) as (? & ? & ?). simpl. split_and!; [done| |done]. by apply cpos_cadd.
Qed.

Lemma w64_nonneg x : 0 <= w64 x.
Proof. unfold w64, two64. apply Z.mod_pos_bound. lia. Qed.
Lemma u64_sub_nonneg a b : 0 <= u64_sub a b.
Proof. unfold u64_sub. destruct (b <=? a) eqn:E; [lia|apply w64_nonneg]. Qed.

Lemma LWeak_join l d a : LWeak l -> 0 <= a -> LWeak (lg_join l d a).
Proof.
  intros HI Ha. unfold lg_join. destruct (a =? 0); [done|].
  destruct (LWeak_dist _ HI) as [Ht Hr Hd]. constructor; cbn [lg_total lg_rewards lg_dels]; [lia|done|].
  intros d' x Hx. apply lookup_insert_Some in Hx as [[_ <-]|[_ Hx]]; [|by eapply Hd]. simpl.
  split_and!; [unfold dec_of_int, ONE; lia|apply cpos_empty|apply cpos_empty].
Qed.

Lemma LWeak_leave l d : LWeak l -> LWeak (fst (lg_leave l d)) /\ 0 <= snd (lg_leave l d).
Proof.
  intros HI. unfold lg_leave. destruct (lg_dels l !! d) as [x|] eqn:E; simpl; [|split; [done|lia]].
  destruct (LWeak_dist _ HI) as [Ht Hr Hd].
  split; [|destruct (lw_dels _ HI d x E) as (Hb & _); by apply trunc_int_spec].
  constructor; cbn [lg_total lg_rewards lg_dels]; [apply u64_sub_nonneg|done|].
  intros d' y Hy. apply lookup_delete_Some in Hy as [_ Hy]. by eapply Hd.
Qed.

Lemma LWeak_withdraw l d : LWeak l -> LWeak (fst (lg_withdraw l d)).
Proof.
  intros HI. unfold lg_withdraw. destruct (lg_dels l !! d) as [x|] eqn:E; simpl; [|done].
  destruct (LWeak_dist _ HI) as [Ht Hr Hd]. constructor; cbn [lg_total lg_rewards lg_dels]; [done|done|].
  intros d' y Hy. apply lookup_insert_Some in Hy as [[_ <-]|[_ Hy]]; [|by eapply Hd]. simpl.
  destruct (lw_dels _ HI d x E) as (Hb & _). destruct (trunc_int_spec (l_bal x) Hb) as [? _].
  split_and!; [unfold dec_of_int, ONE; lia|apply cpos_empty|apply cpos_empty].
Qed.

Lemma LWeak_slash l fr : LWeak l -> 0 <= fr <= ONE -> LWeak (fst (lg_slash l fr)).
Proof.
  intros HI Hfr. destruct (LWeak_dist _ HI) as [Ht Hr Hd]. unfold lg_slash.
  constructor; cbn [fst lg_total lg_rewards lg_dels]; [apply u64_sub_nonneg|done|].
  intros d y Hy. rewrite lookup_fmap in Hy. apply fmap_Some in Hy as (x & Hx & ->).
  destruct (Hd d x Hx) as (Hb & Hp & Ha). simpl. split_and!.
  - pose proof (floor_mul (l_bal x) fr ONE ONE_pos). unfold ONE in *. nia.
  - apply cpos_empty.
  - apply cpos_cadd; [done|]. apply cpos_of_amt; [apply cnz_cmap|]. intros y. rewrite amt_times.
    apply dec_mul_spec; [by apply cpos_amt|done].
Qed.

Lemma LWeak_reward l c : LWeak l -> cpos c -> LWeak (lg_reward l c).
Proof. intros [Ht Hr Hd] Hc. constructor; simpl; [done|by apply cpos_cadd|done]. Qed.
