(** * Claims about the split of a bundle reward, the inflation charge and the quorum
    (C22, C31, C19): proofs. *)
From Verif Require Import Base BaseFacts Delegation Stakers Funders Team Pool Bundles.

(** ** C22 *)
Lemma amt_share c x d : amt (share_of c x) d = trunc_int (amt c d * x).
Proof.
  unfold share_of. rewrite amt_cmap; [by rewrite dec_mul_int_l|].
  rewrite dec_mul_int_l. done.
Qed.
Lemma trunc_int_div x : 0 <= x -> trunc_int x = x / ONE.
Proof. intros. unfold trunc_int. rewrite Z.quot_div_nonneg; auto. Qed.
Lemma share_bounds a f : 0 <= a -> 0 <= f <= ONE -> 0 <= trunc_int (a * f) <= a.
Proof.
  intros Ha Hf. rewrite trunc_int_div by nia. pose proof ONE_pos.
  split; [apply Z.div_pos; nia|]. apply Z.div_le_upper_bound; nia.
Qed.

(** What one coin should contribute: [amount] of calculatePayouts. *)
Definition wish (cost : Z) (e : wentry) : Z :=
  if w_weight e =? 0 then 0
  else trunc_int (dec_quo (dec_mul cost (dec_of_int (10 ^ w_decimals e))) (w_weight e)).

Lemma wish_upper O x w q y a :
  0 < O -> 0 < w -> 0 <= x -> 0 <= a ->
  y * w <= x * (O * O) -> 2 * (q * O - y) <= O -> a * O <= q ->
  2 * (O * (a * w)) <= 2 * (O * x) + w.
Proof.
  intros HO Hw Hx Ha Hy Hq Hq2.
  assert (2 * (q * O) * w <= 2 * (x * (O * O)) + O * w) by nia.
  assert (2 * (a * O * O) * w <= 2 * (q * O) * w) by nia.
  assert (O * (2 * (O * (a * w))) <= O * (2 * (O * x) + w)) by lia.
  nia.
Qed.
Lemma wish_lower O x w q y a :
  2 <= O -> 0 < w -> 0 <= x ->
  x * (O * O) < y * w + w -> -O <= 2 * (q * O - y) -> q < a * O + O ->
  x < (a + 2) * w.
Proof.
  intros HO Hw Hx Hy Hq Hq2.
  assert (y <= q * O + O / 2 + 1).
  { pose proof (Z.div_mod O 2 ltac:(lia)). pose proof (Z.mod_pos_bound O 2 ltac:(lia)). lia. }
  assert (y + 1 <= (a + 2) * (O * O)).
  { assert (q * O <= (a * O + O - 1) * O) by nia.
    assert (O / 2 <= O) by (apply Z.div_le_upper_bound; lia).
    assert ((a * O + O - 1) * O + O + 2 <= (a + 2) * (O * O)) by nia. lia. }
  assert (x * (O * O) < (a + 2) * w * (O * O)) by nia.
  nia.
Qed.

Lemma dec_quo_bounds x w : 0 <= x -> 0 < w ->
  exists y, 0 <= y /\ y * w <= x * (ONE * ONE) < y * w + w /\
    0 <= dec_quo x w /\ -ONE <= 2 * (dec_quo x w * ONE - y) <= ONE.
Proof.
  intros Hx Hw. pose proof ONE_pos. exists ((x * (ONE * ONE)) / w).
  assert (0 <= x * (ONE * ONE)) by nia.
  pose proof (Z.div_pos (x * (ONE * ONE)) w ltac:(lia) Hw).
  pose proof (Z.div_mod (x * (ONE * ONE)) w ltac:(lia)).
  pose proof (Z.mod_pos_bound (x * (ONE * ONE)) w Hw).
  unfold dec_quo. rewrite Z.quot_div_nonneg by lia.
  pose proof (chop_round_nonneg (x * (ONE * ONE) / w) ltac:(lia)) as [? ?].
  split; [lia|]. split; [lia|]. split; lia.
Qed.

Lemma wish_bounds cost e : 0 <= cost -> wentry_ok e ->
  0 <= wish cost e /\ (w_weight e = 0 -> wish cost e = 0) /\
  (0 < w_weight e ->
     2 * (ONE * (wish cost e * w_weight e)) <= 2 * (ONE * (cost * 10 ^ w_decimals e)) + w_weight e /\
     cost * 10 ^ w_decimals e < (wish cost e + 2) * w_weight e).
Proof.
  intros Hc (Hd & _ & _ & Hw). unfold wish.
  destruct (w_weight e =? 0) eqn:E.
  { apply Z.eqb_eq in E. split; [lia|]. split; [done|]. lia. }
  apply Z.eqb_neq in E. rewrite dec_mul_int_r.
  assert (Hx : 0 <= 10 ^ w_decimals e * cost) by (pose proof (Z.pow_nonneg 10 (w_decimals e)); nia).
  destruct (dec_quo_bounds _ (w_weight e) Hx ltac:(lia)) as (y & Hy0 & Hy & Hq & Hqy).
  pose proof (trunc_int_spec _ Hq) as [Ha0 Ha].
  split; [lia|]. split; [done|]. intros Hw0.
  rewrite (Z.mul_comm cost). split.
  - apply (wish_upper ONE _ _ (dec_quo (10 ^ w_decimals e * cost) (w_weight e)) y); try lia; auto.
  - apply (wish_lower ONE _ _ (dec_quo (10 ^ w_decimals e * cost) (w_weight e)) y); try lia. unfold ONE; lia.
Qed.

Lemma wanted_spec l cost ds w :
  NoDup ds -> wanted l cost ds = Some w ->
  (forall d, amt w d = if bool_decide (d ∈ ds) then match wl_find l d with Some e => wish cost e | None => 0 end else 0)
  /\ (forall d, d ∈ ds -> is_Some (wl_find l d)).
Proof.
  revert w. induction ds as [|x ds IH]; intros w Hnd Hw; simpl in Hw.
  { simplify_eq. split; [|intros d Hd; by apply elem_of_nil in Hd]. intros d. by rewrite amt_empty. }
  apply NoDup_cons in Hnd as [Hx Hnd].
  destruct (wl_find l x) as [e|] eqn:Ef; [|done].
  destruct (w_weight e =? 0) eqn:E0.
  - destruct (IH _ Hnd Hw) as [IH1 IH2]. split.
    + intros d. rewrite IH1. destruct (decide (d = x)) as [->|Hne].
      * rewrite bool_decide_false by done. rewrite bool_decide_true by set_solver.
        rewrite Ef. unfold wish. by rewrite E0.
      * destruct (decide (d ∈ ds)); [rewrite !bool_decide_true by set_solver|rewrite !bool_decide_false by set_solver]; done.
    + intros d [->|Hd]%elem_of_cons; [by rewrite Ef|by apply IH2].
  - destruct (trunc_int _ <? 0) eqn:Eneg; [done|].
    destruct (wanted l cost ds) as [w'|] eqn:Ew; [|done]. simplify_eq.
    destruct (IH _ Hnd eq_refl) as [IH1 IH2]. split.
    + intros d. rewrite amt_cadd, amt_coin, IH1. destruct (decide (x = d)) as [->|Hne].
      * rewrite bool_decide_false by done. rewrite bool_decide_true by set_solver.
        rewrite Ef. unfold wish. rewrite E0. lia.
      * destruct (decide (d ∈ ds)); [rewrite !bool_decide_true by set_solver|rewrite !bool_decide_false by set_solver]; done.
    + intros d [->|Hd]%elem_of_cons; [by rewrite Ef|by apply IH2].
Qed.
Lemma wl_find_in l x e : wl_find l x = Some e -> In e l.
Proof.
  unfold wl_find. assert (H : forall acc, fold_left (fun acc e => if (w_denom e =? x)%N then Some e else acc) l acc = Some e ->
    In e l \/ acc = Some e).
  { induction l as [|h t IH]; intros acc Hf; simpl in *; [auto|].
    destruct (IH _ Hf) as [Hi|Ha]; [auto|]. destruct (w_denom h =? x)%N; [simplify_eq; auto|auto]. }
  intros Hf. destruct (H _ Hf) as [?|?]; done.
Qed.
Lemma wl_find_ok l x e : Forall wentry_ok l -> wl_find l x = Some e -> wentry_ok e.
Proof. intros Hl He. rewrite Forall_forall in Hl. apply Hl, elem_of_list_In. by eapply wl_find_in. Qed.
Lemma wanted_total l cost ds : 0 <= cost -> Forall wentry_ok l ->
  (forall d, d ∈ ds -> is_Some (wl_find l d)) -> is_Some (wanted l cost ds).
Proof.
  intros Hc Hl. induction ds as [|x ds IH]; intros Hd; simpl; [eauto|].
  destruct (Hd x ltac:(set_solver)) as [e He]. rewrite He.
  destruct IH as [w Hw]; [set_solver|].
  destruct (w_weight e =? 0) eqn:E; [eauto|].
  assert (Hok : wentry_ok e).
  { by eapply wl_find_ok. }
  pose proof (proj1 (wish_bounds cost e Hc Hok)) as Hp. unfold wish in Hp. rewrite E in Hp.
  destruct (trunc_int _ <? 0) eqn:En; [lia|]. rewrite Hw. eauto.
Qed.

Lemma denoms_elem c d : d ∈ denoms c <-> is_Some (c !! d).
Proof.
  unfold denoms. rewrite elem_of_list_fmap. split.
  - intros ([k x] & -> & Hin). apply elem_of_map_to_list in Hin. simpl. eauto.
  - intros [x Hx]. exists (d, x). split; [done|]. by apply elem_of_map_to_list.
Qed.
Lemma denoms_NoDup c : NoDup (denoms c).
Proof. apply NoDup_fst_map_to_list. Qed.
Lemma denoms_length c : length (denoms c) = size c.
Proof. unfold denoms. rewrite map_length. done. Qed.

Definition pct (x : Z) : Prop := 0 <= x <= ONE.
(** Valid parameters, in the terms of the chain's users. *)
Definition reward_inputs (bp : bparams) (l : list wentry) (commission data : Z) (total : coins) : Prop :=
  bparams_valid bp = true /\ Forall wentry_ok l /\ pct commission /\ 0 <= data < two63 /\ cpos total.

Lemma bparams_fee bp : bparams_valid bp = true -> pct (b_fee bp).
Proof. unfold bparams_valid, pct_ok, pct. rewrite !andb_true_iff. lia. Qed.
Lemma bparams_cost bp sp : bparams_valid bp = true -> 0 <= storage_cost bp sp.
Proof.
  unfold bparams_valid, storage_cost. rewrite !andb_true_iff. intros [[[_ H] _] _].
  destruct (List.find _ _) as [x|] eqn:E; [|lia]. apply List.find_some in E as [Hin _].
  rewrite forallb_forall in H. specialize (H _ Hin). lia.
Qed.

(** The storage part of coin [d] (weight [w], [dec] decimals): nothing for weight zero; at most
    the value of the data at the storage cost divided by the [n] coins; if it is less than what
    is left of the coin it is that value up to two units. *)
Definition storage_part_ok (l : list wentry) (cost data n left x : Z) (d : N) : Prop :=
  match wl_find l d with
  | None => x = 0
  | Some e =>
      (w_weight e = 0 -> x = 0) /\
      (0 < w_weight e ->
        2 * (ONE * (x * w_weight e * n)) <= 2 * (ONE * (cost * data * 10 ^ w_decimals e)) + w_weight e * n /\
        (x < left -> (cost * data / n) * 10 ^ w_decimals e < (x + 2) * w_weight e))
  end.

Lemma storage_scale O x w n cpc cd p :
  0 < O -> 0 <= x -> 0 < n -> 0 < w -> 0 <= p -> cpc * n <= cd ->
  2 * (O * (x * w)) <= 2 * (O * (cpc * p)) + w ->
  2 * (O * (x * w * n)) <= 2 * (O * (cd * p)) + w * n.
Proof.
  intros HO Hx Hn Hw Hp Hc H.
  assert (2 * (O * (x * w)) * n <= (2 * (O * (cpc * p)) + w) * n) by nia.
  assert (cpc * n * p <= cd * p) by (apply Z.mul_le_mono_nonneg_r; lia).
  assert (O * (cpc * n * p) <= O * (cd * p)) by (apply Z.mul_le_mono_nonneg_l; lia). lia.
Qed.

Lemma claim_split bp l commission delegated sp data total r :
  reward_inputs bp l commission data total ->
  calculate_payouts true commission delegated bp l sp data total = Some r ->
  forall d,
    let t := amt (r_treasury r) d in let s := amt (r_storage r) d in
    let k := amt (r_commission r) d in let g := amt (r_delegation r) d in
    t + s + k + g = amt total d /\ 0 <= t /\ 0 <= s /\ 0 <= k /\ 0 <= g /\
    t = amt total d * b_fee bp / ONE /\
    (if 0 <? delegated then k = (amt total d - t - s) * commission / ONE else g = 0) /\
    (forall rest : gmap N Z,
       (forall x, amt rest x = amt total x - amt total x * b_fee bp / ONE) -> (forall x, rest !! x <> Some 0) ->
       storage_part_ok l (storage_cost bp sp) data (Z.of_nat (size rest)) (amt total d - t) s d).
Proof.
  intros (Hbp & Hl & Hcom & Hdata & Htot) Hr d.
  pose proof (bparams_fee _ Hbp) as Hfee. pose proof (bparams_cost _ sp Hbp) as Hcost. pose proof ONE_pos as HO.
  assert (Ht0 : forall x, 0 <= amt total x) by (intros; by apply cpos_amt).
  unfold calculate_payouts in Hr. cbn [negb] in Hr.
  set (treasury := share_of total (b_fee bp)) in *.
  assert (Htr : forall x, amt treasury x = amt total x * b_fee bp / ONE).
  { intros x. unfold treasury. rewrite amt_share, trunc_int_div; [done|]. specialize (Ht0 x). unfold pct in *. nia. }
  assert (Htb : forall x, 0 <= amt treasury x <= amt total x).
  { intros x. unfold treasury. rewrite amt_share. apply share_bounds; auto. }
  set (rest := csub total treasury) in *.
  assert (Hrest : forall x, amt rest x = amt total x - amt total x * b_fee bp / ONE).
  { intros x. unfold rest. rewrite amt_csub, Htr. done. }
  assert (Hrest0 : forall x, 0 <= amt rest x).
  { intros x. unfold rest. rewrite amt_csub. specialize (Htb x). lia. }
  assert (Huniq : forall rest' : gmap N Z, (forall x, amt rest' x = amt total x - amt total x * b_fee bp / ONE) ->
     (forall x, rest' !! x <> Some 0) -> rest' = rest).
  { intros rest' H1 H2. apply coins_ext; [done|apply cnz_cmerge|]. intros x. by rewrite H1, Hrest. }
  assert (Hzero : forall x, amt total x - amt treasury x = 0 -> forall n, 0 <= n -> storage_part_ok l (storage_cost bp sp) data n (amt total x - amt treasury x) 0 x).
  { intros x Hx n Hn. unfold storage_part_ok. destruct (wl_find l x) as [e|] eqn:E; [|done].
    assert (wentry_ok e) as (He & _ & _ & _) by (by eapply wl_find_ok).
    split; [done|]. intros Hw. split; [|lia].
    pose proof (Z.pow_nonneg 10 (w_decimals e) ltac:(lia)).
    assert (0 <= storage_cost bp sp * data * 10 ^ w_decimals e) by nia. nia. }
  destruct (cempty total) eqn:Et.
  { apply cempty_spec in Et. subst total. simplify_eq. cbn [r_treasury r_storage r_commission r_delegation r_zero].
    rewrite !amt_empty. change (0 - 0 - 0) with 0. rewrite !Z.mul_0_l. change (0 / ONE) with 0.
    do 5 (split; [lia|]). split; [done|]. split; [by destruct (0 <? delegated)|]. intros rest' H1 H2.
    specialize (Hzero d). rewrite Htr, amt_empty in Hzero. rewrite Z.mul_0_l in Hzero. change (0/ONE) with 0 in Hzero.
    apply Hzero; lia. }
  destruct (cle treasury total) eqn:Ec; cbn [negb] in Hr; [|done].
  destruct (cempty rest) eqn:Er.
  { apply cempty_spec in Er. injection Hr as <-. cbn [r_treasury r_storage r_commission r_delegation].
    assert (Hr0 : amt total d - amt treasury d = 0).
    { pose proof (amt_csub total treasury d) as E. fold rest in E. rewrite Er, amt_empty in E. lia. }
    rewrite !amt_empty. split; [lia|]. split; [apply Htb|]. do 3 (split; [lia|]). split; [apply Htr|].
    split.
    { replace (amt total d - amt treasury d - 0) with 0 by lia. by destruct (0 <? delegated). }
    intros rest' H1 H2. apply (Hzero d Hr0). lia. }
  set (n := Z.of_nat (length (denoms rest))) in *.
  assert (Hn : 0 < n).
  { unfold n. destruct (denoms rest) eqn:E; simpl; [|lia]. unfold denoms in E. apply map_eq_nil in E.
    unfold cempty in Er. rewrite E in Er. done. }
  set (cpc := dec_quo_int (dec_mul_int (storage_cost bp sp) (i64 data)) n) in *.
  assert (Hi : i64 data = data) by (unfold i64; destruct (Z.ltb_spec data two63); lia).
  assert (Hcd : 0 <= storage_cost bp sp * data) by nia.
  assert (Hcpc : cpc = storage_cost bp sp * data / n).
  { unfold cpc, dec_quo_int, dec_mul_int. rewrite Hi. apply Z.quot_div_nonneg; lia. }
  assert (Hcpc0 : 0 <= cpc) by (rewrite Hcpc; apply Z.div_pos; lia).
  destruct (wanted l cpc (denoms rest)) as [w|] eqn:Ew; [|done].
  apply wanted_spec in Ew as [Hw Hw2]; [|apply denoms_NoDup].
  set (storage := cmin rest w) in *.
  assert (Hst : forall x, amt storage x = Z.min (amt rest x) (amt w x)).
  { intros x. unfold storage. apply amt_cmin. }
  assert (Hw0 : forall x, 0 <= amt w x).
  { intros x. rewrite Hw. case_bool_decide; [|lia]. destruct (wl_find l x) as [e|] eqn:Ee; [|lia].
    apply wish_bounds; [done|]. by eapply wl_find_ok. }
  assert (Hsto : forall x, 0 <= amt storage x <= amt rest x).
  { intros x. rewrite Hst. specialize (Hw0 x). specialize (Hrest0 x). lia. }
  assert (Hpart : forall rest' : gmap N Z, (forall x, amt rest' x = amt total x - amt total x * b_fee bp / ONE) ->
       (forall x, rest' !! x <> Some 0) ->
       storage_part_ok l (storage_cost bp sp) data (Z.of_nat (size rest')) (amt total d - amt treasury d) (amt storage d) d).
  { intros rest' H1 H2. rewrite (Huniq _ H1 H2). rewrite <- denoms_length. fold n. clear rest' H1 H2.
    assert (Hrd : amt total d - amt treasury d = amt rest d) by (rewrite Hrest, Htr; done).
    rewrite Hrd. unfold storage_part_ok.
    destruct (wl_find l d) as [e|] eqn:Ee.
    - assert (Hok : wentry_ok e) by (by eapply wl_find_ok).
      destruct (wish_bounds cpc e Hcpc0 Hok) as (Hp0 & Hp1 & Hp2).
      assert (Hle : amt storage d <= wish cpc e).
      { rewrite Hst, Hw, Ee. case_bool_decide; lia. }
      split; [intros Hz; specialize (Hp1 Hz); specialize (Hsto d); lia|].
      intros Hwp. destruct (Hp2 Hwp) as [Hu Hlo].
      assert (Hpow : 0 <= 10 ^ w_decimals e) by (apply Z.pow_nonneg; lia).
      split.
      + apply (storage_scale ONE _ _ _ cpc); auto; try apply Hsto.
        * rewrite Hcpc. rewrite Z.mul_comm. apply Z.mul_div_le. lia.
        * assert (amt storage d * w_weight e <= wish cpc e * w_weight e) by nia. nia.
      + intros Hlt. rewrite <- Hcpc.
        assert (Hin : d ∈ denoms rest).
        { apply denoms_elem. unfold amt in Hlt at 2. specialize (Hsto d).
          destruct (rest !! d); [eauto|]. simpl in Hlt. lia. }
        assert (amt storage d = wish cpc e).
        { rewrite Hst, Hw in *. rewrite bool_decide_true in * by done. rewrite Ee in *. lia. }
        congruence.
    - assert (amt w d = 0).
      { rewrite Hw, Ee. by case_bool_decide. }
      rewrite Hst. specialize (Hrest0 d). lia. }
  destruct (cle storage rest) eqn:Es; cbn [negb] in Hr; [|done].
  set (rest2 := csub rest storage) in *.
  assert (Hrest2 : forall x, amt rest2 x = amt total x - amt treasury x - amt storage x).
  { intros x. unfold rest2. rewrite amt_csub. unfold rest. rewrite amt_csub. lia. }
  assert (Hr20 : forall x, 0 <= amt rest2 x).
  { intros x. unfold rest2. rewrite amt_csub. specialize (Hsto x). lia. }
  destruct (cempty rest2) eqn:Er2.
  { apply cempty_spec in Er2. injection Hr as <-. cbn [r_treasury r_storage r_commission r_delegation].
    assert (Hz : amt total d - amt treasury d - amt storage d = 0).
    { rewrite <- Hrest2, Er2. apply amt_empty. }
    rewrite !amt_empty. split; [lia|]. split; [apply Htb|]. split; [apply Hsto|]. do 2 (split; [lia|]).
    split; [apply Htr|]. split; [|done].
    rewrite Hz. by destruct (0 <? delegated). }
  set (com := share_of rest2 commission) in *.
  assert (Hcm : forall x, amt com x = (amt total x - amt treasury x - amt storage x) * commission / ONE).
  { intros x. unfold com. rewrite amt_share, Hrest2, trunc_int_div; [done|]. specialize (Hr20 x). rewrite Hrest2 in Hr20.
    unfold pct in *. nia. }
  assert (Hcb : forall x, 0 <= amt com x <= amt rest2 x).
  { intros x. unfold com. rewrite amt_share. apply share_bounds; auto. }
  destruct (cle com rest2) eqn:Eco; cbn [negb] in Hr; [|done].
  set (rest3 := csub rest2 com) in *.
  assert (Hr3 : forall x, amt rest3 x = amt rest2 x - amt com x).
  { intros x. unfold rest3. apply amt_csub. }
  specialize (Hcb d). specialize (Hr3 d). specialize (Hrest2 d). specialize (Hsto d). specialize (Htb d).
  destruct (cempty rest3) eqn:Er3.
  { apply cempty_spec in Er3. injection Hr as <-. cbn [r_treasury r_storage r_commission r_delegation].
    rewrite Er3, amt_empty in Hr3. rewrite !amt_empty.
    do 5 (split; [lia|]). split; [apply Htr|]. split; [|done].
    destruct (0 <? delegated); [apply Hcm|done]. }
  destruct (0 <? delegated) eqn:Ed; injection Hr as <-; cbn [r_treasury r_storage r_commission r_delegation].
  - do 5 (split; [lia|]). split; [apply Htr|]. split; [apply Hcm|done].
  - rewrite !amt_cadd, !amt_empty. do 5 (split; [lia|]). split; [apply Htr|]. done.
Qed.

Lemma claim_split_total bp l commission delegated sp data total :
  reward_inputs bp l commission data total ->
  (forall d, is_Some (total !! d) -> is_Some (wl_find l d)) ->
  is_Some (calculate_payouts true commission delegated bp l sp data total).
Proof.
  intros (Hbp & Hl & Hcom & Hdata & Htot) Hwl.
  pose proof (bparams_fee _ Hbp) as Hfee. pose proof (bparams_cost _ sp Hbp) as Hcost. pose proof ONE_pos as HO.
  assert (Ht0 : forall x, 0 <= amt total x) by (intros; by apply cpos_amt).
  unfold calculate_payouts. cbn [negb].
  destruct (cempty total); [by eexists|].
  set (treasury := share_of total (b_fee bp)).
  assert (Htb : forall x, 0 <= amt treasury x <= amt total x).
  { intros x. unfold treasury. rewrite amt_share. apply share_bounds; auto. }
  assert (Hc1 : cle treasury total = true) by (apply cle_amt; [done|]; intros x; apply Htb).
  rewrite Hc1. cbn [negb]. set (rest := csub total treasury).
  assert (Hrest0 : forall x, 0 <= amt rest x).
  { intros x. unfold rest. rewrite amt_csub. specialize (Htb x). lia. }
  destruct (cempty rest) eqn:Er; [by eexists|].
  set (cpc := dec_quo_int _ _).
  assert (Hi : i64 data = data) by (unfold i64; destruct (Z.ltb_spec data two63); lia).
  assert (Hcpc0 : 0 <= cpc).
  { unfold cpc, dec_quo_int, dec_mul_int. rewrite Hi. apply Z.quot_pos; [nia|].
    destruct (denoms rest) eqn:E; simpl; [|lia]. unfold denoms in E. apply map_eq_nil in E.
    unfold cempty in Er. rewrite E in Er. done. }
  destruct (wanted_total l cpc (denoms rest) Hcpc0 Hl) as [w Hw].
  { intros d Hd. apply denoms_elem in Hd as [x Hx]. apply Hwl.
    pose proof (cnz_cmerge Z.sub total treasury d) as Hnz. fold csub in Hnz. fold rest in Hnz.
    assert (amt rest d <> 0). { unfold amt. rewrite Hx. simpl. intros ->. done. }
    specialize (Htb d). assert (amt total d <> 0).
    { intros Hz. apply H. unfold rest. rewrite amt_csub. lia. }
    unfold amt in H0. destruct (total !! d); [eauto|done]. }
  rewrite Hw.
  assert (Hw0 : forall x, 0 <= amt w x).
  { intros x. apply wanted_spec in Hw as [Hw _]; [|apply denoms_NoDup]. rewrite Hw.
    case_bool_decide; [|lia]. destruct (wl_find l x) as [e|] eqn:Ee; [|lia].
    apply wish_bounds; [done|]. by eapply wl_find_ok. }
  set (storage := cmin rest w).
  assert (Hsto : forall x, 0 <= amt storage x <= amt rest x).
  { intros x. unfold storage. rewrite amt_cmin. specialize (Hw0 x). specialize (Hrest0 x). lia. }
  assert (Hc2 : cle storage rest = true) by (apply cle_amt; [done|]; intros x; apply Hsto).
  rewrite Hc2. cbn [negb]. set (rest2 := csub rest storage).
  assert (Hr20 : forall x, 0 <= amt rest2 x).
  { intros x. unfold rest2. rewrite amt_csub. specialize (Hsto x). lia. }
  destruct (cempty rest2); [by eexists|].
  set (com := share_of rest2 commission).
  assert (Hcb : forall x, 0 <= amt com x <= amt rest2 x).
  { intros x. unfold com. rewrite amt_share. apply share_bounds; auto. }
  assert (Hc3 : cle com rest2 = true) by (apply cle_amt; [done|]; intros x; apply Hcb).
  rewrite Hc3. cbn [negb]. destruct (cempty (csub rest2 com)); [by eexists|]. destruct (0 <? delegated); by eexists.
Qed.

(** ** C31 *)
Lemma claim_inflation balance rate :
  0 <= balance < two63 -> pct rate ->
  inflation_payout balance rate = Some (balance * rate / ONE) /\ 0 <= balance * rate / ONE <= balance.
Proof.
  intros Hb Hr. unfold inflation_payout. rewrite dec_mul_int_l.
  pose proof (share_bounds balance rate ltac:(lia) Hr) as Hs.
  assert (Ht : trunc_int (balance * rate) = balance * rate / ONE).
  { apply trunc_int_div. unfold pct in *. nia. }
  rewrite Ht in Hs. split; [|done].
  destruct (two63 <=? balance) eqn:E; [lia|].
  unfold trunc64. rewrite Ht.
  assert (Hc : (- two63 <=? balance * rate / ONE) && (balance * rate / ONE <? two63) = true).
  { unfold two63 in *. apply andb_true_iff. lia. }
  rewrite Hc. f_equal. unfold w64. apply Z.mod_small. unfold two63, two64 in *. lia.
Qed.

(** ** C19 *)
Lemma claim_quorum valid invalid total :
  0 <= valid -> 0 <= invalid -> valid + invalid <= total -> total < two63 ->
  (quorum valid invalid total = VValid <-> total < 2 * valid) /\
  (quorum valid invalid total = VInvalid <-> 0 < total /\ total <= 2 * invalid) /\
  (quorum valid invalid total = VNoQuorum <-> total = 0 \/ (2 * valid <= total /\ 2 * invalid < total)).
Proof.
  intros Hv Hi Hs Ht. unfold quorum, w64.
  rewrite !Z.mod_small by (unfold two63, two64 in *; lia).
  destruct (Z.eqb_spec total 0); [repeat split; try done; intros; try lia; auto|].
  destruct (Z.ltb_spec total (valid * 2)); [repeat split; try done; intros; try lia|].
  destruct (Z.leb_spec total (invalid * 2)); repeat split; try done; intros; try lia; auto.
Qed.
Lemma claim_quorum_more valid invalid total x y :
  0 <= valid -> 0 <= invalid -> 0 <= x -> 0 <= y -> valid + x + invalid <= total + y -> y <= x -> total + y < two63 ->
  quorum valid invalid total = VValid -> valid + invalid <= total -> quorum (valid + x) invalid (total + y) = VValid.
Proof.
  intros. pose proof (claim_quorum valid invalid total ltac:(lia) ltac:(lia) ltac:(lia) ltac:(lia)) as (Hq & _).
  pose proof (claim_quorum (valid + x) invalid (total + y) ltac:(lia) ltac:(lia) ltac:(lia) ltac:(lia)) as (Hq' & _).
  apply Hq'. apply Hq in H6. lia.
Qed.

(** ** C31 *)
Lemma claim_charge c p : 0 <= bal (c_bank c) (PoolAcc p) KYVE < two63 -> pct (pp_rate (c_pp c)) ->
  let x := bal (c_bank c) (PoolAcc p) KYVE * pp_rate (c_pp c) / ONE in
  exists c', charge_inflation c p = Some (c', x) /\ c_halt c' = c_halt c /\
    forall a d, bal (c_bank c') a d = bal (c_bank c) a d
      + (if decide (d = KYVE) then (if decide (a = MPool) then x else 0) - (if decide (a = PoolAcc p) then x else 0) else 0).
Proof.
  intros Hb Hr x. destruct (claim_inflation _ _ Hb Hr) as [E Hx]. fold x in E, Hx.
  unfold charge_inflation. rewrite E.
  assert (Hi : i64 x <? 0 = false).
  { unfold i64. destruct (x <? two63) eqn:Ex; [lia|]. unfold two63, two64 in *. lia. }
  rewrite Hi.
  destruct (send _ _ _ _) as [bk|] eqn:Es.
  - exists (cw_bank c bk). split; [done|]. split; [done|]. intros a d. apply send_Some in Es as [_ Hs]. cbn. rewrite Hs, amt_coin.
    destruct (decide (d = KYVE)) as [->|], (decide (KYVE = KYVE)); try done; repeat case_decide; subst; try lia; try congruence.
  - exfalso. apply send_None in Es; [|apply cpos_coin; lia].
    assert (cle (coin KYVE x) (bal_of (c_bank c) (PoolAcc p)) = true); [|congruence].
    apply cle_spec. intros d y Hd.
    pose proof (amt_coin KYVE x d) as Ha. unfold amt at 1 in Ha. rewrite Hd in Ha. simpl in Ha.
    case_decide; [subst; unfold bal in *; lia|]. exfalso. subst y. unfold coin in Hd. destruct (nz x); [by rewrite lookup_singleton_ne in Hd|by rewrite lookup_empty in Hd].
Qed.
