(** * Paying out a finalized bundle never fails halfway. *)
From Verif Require Import Base BaseFacts Delegation Stakers StakersInv StakersClaims StakersRun Funders FundersInv Team RoundRobin Pool Bundles Chain ChainFrame ArchiveInv
  BankMoves ChainLift PoolFrame PayoutClaims.

(** ** Commissions are percentages *)
Record CB (st : sstate) : Prop := mkCB {
  cb_entry : forall i e, ss_centries st !! i = Some e -> 0 <= ce_commission e <= ONE;
  cb_now : forall s x, ss_stakers st !! s = Some x -> 0 <= st_commission x <= ONE
}.
Lemma CB_ext st st' : CB st -> ss_centries st' = ss_centries st -> ss_stakers st' = ss_stakers st -> CB st'.
Proof. intros [H1 H2] E1 E2. split; [rewrite E1|rewrite E2]; done. Qed.
Lemma CB_set st s x : CB st -> 0 <= st_commission x <= ONE -> CB (with_stakers st (<[s := x]> (ss_stakers st))).
Proof.
  intros [H1 H2] Hx. split; [exact H1|]. cbn. intros s' y. destruct (decide (s = s')) as [<-|].
  - rewrite lookup_insert. by intros [= <-].
  - rewrite lookup_insert_ne by done. apply H2.
Qed.
Lemma CB_del st i e : CB st -> CB (remove_centry st i e).
Proof. intros [H1 H2]. split; [|exact H2]. cbn. intros j x Hx. apply lookup_delete_Some in Hx as [_ Hx]. by eapply H1. Qed.
Lemma CB_pc st i st1 : CB st -> process_centry st i = Some st1 -> CB st1.
Proof.
  intros HI. unfold process_centry. destruct (ss_centries st !! i) as [e|] eqn:Ee; [|by intros [= <-]].
  destruct (_ <=? _); [|done]. intros [= <-]. pose proof (CB_del st i e HI) as HD.
  destruct (_ !! ce_staker e); [|exact HD]. apply (CB_set (remove_centry st i e)); [exact HD|]. cbn. by eapply (cb_entry st).
Qed.
Lemma CB_leave st s p : CB st -> CB (leave_pool st s p).
Proof. intros HI. unfold leave_pool. destruct (get_val st p s); [|done]. by apply (CB_ext st). Qed.
Lemma CB_pl st i st1 : CB st -> process_lentry st i = Some st1 -> CB st1.
Proof.
  intros HI. unfold process_lentry. destruct (ss_lentries st !! i) as [e|]; [|by intros [= <-]].
  destruct (_ <=? _); [|done]. intros [= <-]. apply CB_leave. by apply (CB_ext st).
Qed.
Lemma CB_step st o : sop_ok st o -> CB st -> CB (sstep st o).
Proof.
  intros Hok HI. destruct o; cbn [sstep] in *.
  - unfold msg_create_staker. destruct (ss_stakers st !! s); [done|]. destruct delegates; [|done]. apply CB_set; [done|]. cbn in *. tauto.
  - unfold msg_update_commission. destruct (ss_stakers st !! s); [|done]. cbn [default from_option]. unfold order_commission.
    set (st1 := match ss_cindex st !! s with None => st | Some i => _ end).
    assert (H1 : CB st1) by (unfold st1; destruct (ss_cindex st !! s); [|done]; destruct (ss_centries st !! n); [by apply CB_del|done]).
    clearbody st1. destruct H1 as [H1 H2]. split; [|exact H2]. cbn. intros j e. destruct (decide ((ss_chigh st1 + 1)%N = j)) as [<-|].
    + rewrite lookup_insert. intros [= <-]. exact Hok.
    + rewrite lookup_insert_ne by done. apply H1.
  - unfold msg_claim_commission. destruct (ss_stakers st !! s) as [x|] eqn:E; [|done]. destruct (negb _); [done|].
    destruct (send _ _ _ _); [|done]. cbn [default from_option id]. eapply (CB_ext (with_stakers st _)); [|done|done].
    apply CB_set; [done|]. exact (cb_now st HI s x E).
  - destruct (msg_join st pool del s p v amount) as [st'|] eqn:E; [|done]. change (default st (Some st')) with st'.
    destruct (join_inv _ _ _ _ _ _ _ _ E) as (-> & Hs & Hsv & Hn & st1 & b & Ee & H1 & H2 & Eb & ->).
    destruct (ensure_frame _ _ _ _ _ Ee) as [l Hl].
    assert (HI1 : CB st1). { destruct Hl as [->| ->]; [done|]. by apply CB_leave. }
    eapply (CB_ext st1); [done| |]; cbn; unfold add_val; destruct (ss_stakers st1 !! s); try done; by destruct (get_val st1 p s).
  - unfold msg_leave. destruct (get_val st p s); [|done]. destruct (bool_decide _); [done|]. by apply (CB_ext st).
  - by apply CB_leave.
  - unfold increase_commission_rewards. destruct (cempty amount); [done|]. destruct (ss_stakers st !! s) as [x|] eqn:E; [|done].
    destruct (send _ _ _ _); [|done]. cbn [default from_option id]. eapply (CB_ext (with_stakers st _)); [|done|done].
    apply CB_set; [done|]. exact (cb_now st HI s x E).
  - unfold increment_points. destruct (get_val st p s); [|done]. by apply (CB_ext st).
  - unfold reset_points. destruct (get_val st p s); [|done]. by apply (CB_ext st).
  - by apply (CB_ext st).
  - unfold stakers_begin, process_leaves, process_commissions.
    set (st0 := with_stime st t). assert (H0 : CB st0) by (by apply (CB_ext st)).
    pose proof (queue_loop_inv process_centry CB (ss_chigh st0) (S (N.to_nat (ss_chigh st0 - ss_clow st0))) st0 (ss_clow st0) CB_pc H0) as H1.
    destruct (queue_loop process_centry _ _ _ _) as [s1 l1]. simpl in H1.
    set (st1 := with_cq s1 _ _ _ _). assert (H2 : CB st1) by (by apply (CB_ext s1)).
    pose proof (queue_loop_inv process_lentry CB (ss_lhigh st1) (S (N.to_nat (ss_lhigh st1 - ss_llow st1))) st1 (ss_llow st1) CB_pl H2) as H3.
    destruct (queue_loop process_lentry _ _ _ _) as [s2 l2]. simpl in H3. by apply (CB_ext s2).
  - by apply (CB_ext st).
Qed.
Lemma CB_run ops st : sops_ok st ops -> CB st -> CB (srun st ops).
Proof. revert st. induction ops as [|o ops IH]; intros st; simpl; [done|]. intros [H1 H2] HI. apply IH; [done|]. by apply CB_step. Qed.

(** ** The parts of a reward *)
Lemma wanted_pos l cost ds w : wanted l cost ds = Some w -> cpos w.
Proof.
  revert w. induction ds as [|x ds IH]; intros w; cbn [wanted]; [intros [= <-]; apply cpos_empty|].
  destruct (wl_find l x) as [e|]; [|done]. destruct (_ =? 0); [apply IH|].
  destruct (Z.ltb_spec (trunc_int (dec_quo (dec_mul cost (dec_of_int (10 ^ w_decimals e))) (w_weight e))) 0); [done|].
  destruct (wanted l cost ds) as [w'|]; [|done]. intros [= <-]. apply cpos_cadd; [by apply cpos_coin|by apply IH].
Qed.
Lemma cpos_share c x : cpos c -> pct x -> cpos (share_of c x).
Proof.
  intros Hc Hx. apply cpos_of_amt; [apply cnz_cmap|]. intros d. rewrite amt_share.
  destruct (share_bounds (amt c d) x (cpos_amt c d Hc) Hx). done.
Qed.
Lemma cpos_csub a b : cpos a -> cle b a = true -> cpos (csub a b).
Proof.
  intros Ha Hl. apply cpos_of_amt; [apply cnz_cmerge|]. intros d. rewrite amt_csub.
  apply cle_amt with (d := d) in Hl; [lia|]. intros x. by apply cpos_amt.
Qed.
Definition sum_parts (r : reward) (d : N) : Z := amt (r_treasury r) d + amt (r_storage r) d + amt (r_commission r) d + amt (r_delegation r) d.
Lemma parts ex commission delegated bp l sp data total r : cpos total -> pct (b_fee bp) -> pct commission ->
  calculate_payouts ex commission delegated bp l sp data total = Some r ->
  cpos (r_treasury r) /\ cpos (r_storage r) /\ cpos (r_commission r) /\ cpos (r_delegation r) /\
  (forall d, sum_parts r d = if ex then amt total d else 0) /\ (delegated <= 0 -> r_delegation r = ∅).
Proof.
  intros Ht Hf Hc. unfold calculate_payouts, sum_parts. pose proof cpos_empty as H0.
  destruct ex; cbn [negb]; [|intros [= <-]; cbn [r_treasury r_storage r_commission r_delegation r_zero]; split; [done|]; split; [done|]; split; [done|]; split; [done|]; split; [|done]; intros d; rewrite !amt_empty; lia].
  destruct (cempty total) eqn:E0.
  { intros [= <-]. cbn [r_treasury r_storage r_commission r_delegation r_zero]. apply cempty_spec in E0 as ->. split; [done|]. split; [done|]. split; [done|]. split; [done|]. split; [|done]. intros d. rewrite !amt_empty. lia. }
  pose proof (cpos_share total (b_fee bp) Ht Hf) as Hs. set (tr := share_of total (b_fee bp)) in *. clearbody tr.
  destruct (cle tr total) eqn:E1; cbn [negb]; [|done]. pose proof (cpos_csub _ _ Ht E1) as Hr.
  destruct (cempty (csub total tr)) eqn:E2.
  { intros [= <-]. cbn [r_treasury r_storage r_commission r_delegation r_zero]. split; [done|]. split; [done|]. split; [done|]. split; [done|]. split; [|done]. intros d.
    apply cempty_spec in E2. pose proof (amt_csub total tr d) as H. rewrite E2 in H. rewrite !amt_empty in *. lia. }
  destruct (wanted _ _ _) as [w|] eqn:Ew; [|done]. apply wanted_pos in Ew.
  set (rest := csub total tr) in *.
  assert (Hst : cpos (cmin rest w)).
  { apply cpos_of_amt; [apply cnz_cmerge|]. intros d. rewrite amt_cmin. pose proof (cpos_amt _ d Hr). pose proof (cpos_amt _ d Ew). lia. }
  assert (Ea : forall d, amt rest d = amt total d - amt tr d) by (intros d; apply amt_csub).
  set (stg := cmin rest w) in *. clearbody stg rest.
  destruct (cle stg rest) eqn:E3; cbn [negb]; [|done]. pose proof (cpos_csub _ _ Hr E3) as Hr2.
  assert (Ea2 : forall d, amt (csub rest stg) d = amt total d - amt tr d - amt stg d) by (intros d; rewrite amt_csub, Ea; lia).
  set (rest2 := csub rest stg) in *. clearbody rest2.
  destruct (cempty rest2) eqn:E4.
  { intros [= <-]. cbn [r_treasury r_storage r_commission r_delegation r_zero]. split; [done|]. split; [done|]. split; [done|]. split; [done|]. split; [|done]. intros d.
    apply cempty_spec in E4. specialize (Ea2 d). rewrite E4 in Ea2. rewrite !amt_empty in *. lia. }
  pose proof (cpos_share rest2 commission Hr2 Hc) as Hcm. set (com := share_of rest2 commission) in *. clearbody com.
  destruct (cle com rest2) eqn:E5; cbn [negb]; [|done]. pose proof (cpos_csub _ _ Hr2 E5) as Hr3.
  assert (Ea3 : forall d, amt (csub rest2 com) d = amt total d - amt tr d - amt stg d - amt com d) by (intros d; rewrite amt_csub, Ea2; lia).
  set (rest3 := csub rest2 com) in *. clearbody rest3.
  destruct (cempty rest3) eqn:E6.
  { intros [= <-]. cbn [r_treasury r_storage r_commission r_delegation r_zero]. split; [done|]. split; [done|]. split; [done|]. split; [done|]. split; [|done]. intros d.
    apply cempty_spec in E6. specialize (Ea3 d). rewrite E6 in Ea3. rewrite !amt_empty in *. lia. }
  destruct (Z.ltb_spec 0 delegated).
  - intros [= <-]. cbn [r_treasury r_storage r_commission r_delegation r_zero]. split; [done|]. split; [done|]. split; [done|]. split; [done|]. split; [|lia]. intros d. specialize (Ea3 d). lia.
  - intros [= <-]. cbn [r_treasury r_storage r_commission r_delegation r_zero]. split; [done|]. split; [done|]. split; [by apply cpos_cadd|]. split; [done|]. split; [|done].
    intros d. specialize (Ea3 d). rewrite amt_cadd, amt_empty. lia.
Qed.

(** ** Sending the parts *)
Section P.
Context (g : gen) (Hg : genesis g).
Lemma G_CB c : G g c -> CB (c_s c).
Proof.
  intros HG. destruct (g_s _ _ HG) as (ops & Hok & E). assert (H : CB (s_in c)).
  { rewrite E. apply CB_run; [done|]. split; cbn; intros ? ?; by rewrite lookup_empty. }
  by apply (CB_ext (s_in c)).
Qed.
Lemma send_ok b from to c : cpos c -> (forall d, amt c d <= bal b from d) -> exists b', send b from to c = Some b' /\
  forall a d, bal b' a d = bal b a d - (if decide (from = a) then amt c d else 0) + (if decide (to = a) then amt c d else 0).
Proof.
  intros Hc Hle. destruct (send_is_Some b from to c Hc) as [b' E].
  - apply cle_spec. intros d x Hd. specialize (Hle d). unfold amt in Hle at 1. rewrite Hd in Hle. exact Hle.
  - exists b'. split; [done|]. by apply send_Some in E as [_ ?].
Qed.
(** What the tally pays: the staker's commission account, the delegation module, the treasury. *)
Definition paid (c c' : chain) (u : N) (r : reward) : Prop :=
  (forall a d, bal (c_bank c') a d = bal (c_bank c) a d - (if decide (a = MPool) then sum_parts r d else 0)
     + (if decide (a = Treasury) then amt (r_treasury r) d else 0)
     + (if decide (a = MStakers) then amt (r_commission r) d + amt (r_storage r) d else 0)
     + (if decide (a = MDelegation) then amt (r_delegation r) d else 0)).
Lemma pay_out_ok c u r : bank_nn (c_bank c) -> cpos (r_treasury r) -> cpos (r_storage r) -> cpos (r_commission r) -> cpos (r_delegation r) ->
  (forall d, sum_parts r d <= bal (c_bank c) MPool d) ->
  (is_Some (ss_stakers (c_s c) !! u) \/ (r_storage r = ∅ /\ r_commission r = ∅)) -> (0 < power c u \/ r_delegation r = ∅) ->
  exists c', pay_out c u r = inl c' /\ paid c c' u r.
Proof.
  intros Hnn P1 P2 P3 P4 Hle Hu Hd. unfold pay_out.
  assert (Hn : forall d, 0 <= amt (r_treasury r) d /\ 0 <= amt (r_storage r) d /\ 0 <= amt (r_commission r) d /\ 0 <= amt (r_delegation r) d).
  { intros d. pose proof (cpos_amt _ d P1). pose proof (cpos_amt _ d P2). pose proof (cpos_amt _ d P3). pose proof (cpos_amt _ d P4). done. }
  unfold sum_parts in Hle.
  destruct (send_ok (c_bank c) MPool Treasury (r_treasury r) P1) as (b1 & -> & E1).
  { intros d. specialize (Hle d). specialize (Hn d). lia. }
  set (c1 := cw_bank c b1).
  assert (H2 : exists s b2, increase_commission_rewards (s_in c1) u MPool (cadd (r_commission r) (r_storage r)) = Some s /\ ss_bank s = b2 /\
    forall a d, bal b2 a d = bal b1 a d - (if decide (MPool = a) then amt (r_commission r) d + amt (r_storage r) d else 0)
      + (if decide (MStakers = a) then amt (r_commission r) d + amt (r_storage r) d else 0)).
  { unfold increase_commission_rewards. destruct (cempty (cadd (r_commission r) (r_storage r))) eqn:Ee.
    - exists (s_in c1), b1. split; [done|]. split; [done|]. intros a d. apply cempty_spec in Ee.
      pose proof (amt_cadd (r_commission r) (r_storage r) d) as H. rewrite Ee, amt_empty in H. rewrite <- H. repeat case_decide; lia.
    - destruct Hu as [[x Hx]|[E2 E3]].
      2: { exfalso. rewrite E2, E3 in Ee. done. }
      change (ss_stakers (s_in c1) !! u) with (ss_stakers (c_s c) !! u). rewrite Hx. cbn [ss_bank s_in with_sbank c1 cw_bank c_bank].
      destruct (send_ok b1 MPool MStakers (cadd (r_commission r) (r_storage r))) as (b2 & -> & E2).
      + by apply cpos_cadd.
      + intros d. rewrite amt_cadd, E1. specialize (Hle d). specialize (Hn d). rewrite decide_True by done. rewrite decide_False by done. lia.
      + eexists _, b2. split; [done|]. split; [done|]. intros a d. rewrite E2, amt_cadd. done. }
  destruct H2 as (s & b2 & -> & Eb & E2). set (c2 := s_out c1 s).
  assert (Hb2 : c_bank c2 = b2) by (unfold c2; cbn; done).
  unfold payout_rewards. destruct (cempty (r_delegation r)) eqn:Ee.
  - eexists. split; [done|]. intros a d. change (c_bank (d_out c2 (d_in c2))) with (c_bank c2). rewrite Hb2, E2, E1.
    apply cempty_spec in Ee. unfold sum_parts. rewrite Ee, amt_empty. repeat case_decide; subst; try done; lia.
  - destruct Hd as [Hd|Hd]; [|by rewrite Hd in Ee].
    assert (Hf : exists dd, f_data (getf (d_in c2) u) = Some dd).
    { unfold power, delegation_amount, f1_total in Hd. change (getf (d_in c2) u) with (getf (c_d c) u). destruct (f_data _); [eauto|lia]. }
    destruct Hf as [dd ->]. set (st1 := setf _ _ _).
    assert (Hst : ds_bank st1 = b2) by (unfold st1; cbn; exact Hb2).
    destruct (send_ok (ds_bank st1) MPool MDelegation (r_delegation r) P4) as (b3 & -> & E3).
    + intros d. rewrite Hst, E2, E1. specialize (Hle d). specialize (Hn d). rewrite !(decide_True (P := MPool = MPool)) by done.
      rewrite !decide_False by done. lia.
    + eexists. split; [done|]. intros a d. cbn [c_bank d_out cw_bank ds_bank with_bank]. rewrite E3, Hst, E2, E1. unfold sum_parts.
      repeat case_decide; subst; try done; lia.
Qed.

(** ** The tally *)
Lemma tally_safe c p : G g c -> AInv c -> is_Some (get_pool c p) -> forall c1, tally c (get_prop c p) p <> TrError c1.
Proof.
  intros HG HA [pl Hpl] cE. set (b := get_prop c p). unfold tally. pose proof (G_non_voters g c p HG) as HG1. pose proof (b_non_voters c p) as B1.
  assert (Hpr : get_prop (handle_non_voters c p) p = b) by (by apply get_prop_b).
  assert (Hpl1 : get_pool (handle_non_voters c p) p = Some pl) by (rewrite (get_pool_b c) by done; done).
  assert (HA1 : AInv (handle_non_voters c p)) by (by apply (agood_frame c)).
  set (c1 := handle_non_voters c p) in *. clearbody c1.
  destruct (v_status (distribution c1 p)); try done.
  assert (Hst : is_Some (fs_active (f_in c1) !! p)).
  { change (is_Some (fs_active (c_f c1) !! p)). apply (g_link _ _ HG1). apply (ai_pools _ HA1). by rewrite Hpl1. }
  destruct Hst as [l Hl].
  destruct (charge_spec _ _ p MPool (G_FInv g Hg c1 HG1) I) as (_ & _ & _ & _ & HS). cbv zeta in HS.
  destruct (HS l Hl) as (pays & Hp & Hpos & _ & _ & _ & Hbk & _). clear HS.
  pose proof (G_charge_funders g Hg c1 p HG1) as HGf.
  destruct (charge_funders (f_in c1) p MPool) as [f o]. cbn [fst snd] in *. subst o.
  set (cf := f_out c1 f) in *.
  assert (Hbf : forall a x, bal (c_bank cf) a x = bal (c_bank c1) a x + (if decide (a = MPool) then amt pays x else 0) - (if decide (a = MFunders) then amt pays x else 0)) by done.
  assert (Hsf : c_s cf = c_s c1 /\ c_d cf = c_d c1) by done.
  assert (Hprf : get_prop cf p = b) by done. clearbody cf.
  pose proof (g_par _ _ HGf) as (Hbp & _ & Hpp & _).
  destruct (claim_charge cf p) as (c2 & Ec & _ & Hb2).
  { split; [apply (g_nn _ _ HGf)|]. eapply Z.le_lt_trans; [|apply (g_supply _ _ HGf)]. apply supply_ge1. apply (g_nn _ _ HGf). }
  { unfold pparams_valid, pct_ok in Hpp. unfold pct. lia. }
  cbv zeta in Ec, Hb2. set (x := bal (c_bank cf) (PoolAcc p) KYVE * pp_rate (c_pp cf) / ONE) in *.
  assert (Hx : 0 <= x). { apply Z.div_pos; [|unfold ONE; lia]. apply Z.mul_nonneg_nonneg; [apply (g_nn _ _ HGf)|]. unfold pparams_valid, pct_ok in Hpp. lia. }
  clearbody x. rewrite Ec.
  pose proof (G_charge_inflation g cf p c2 x HGf Ec) as HG2. pose proof (b_charge_inflation _ _ _ _ Ec) as B2.
  assert (Hpr2 : get_prop c2 p = b) by (rewrite <- Hprf; by apply get_prop_b).
  destruct (payouts c2 p (cadd pays (coin KYVE x))) as [r|] eqn:Er; [|done].
  unfold payouts in Er. rewrite Hpr2 in Er. pose proof (g_par _ _ HG2) as (Hbp2 & _).
  set (ex := bool_decide _) in Er.
  assert (Hcom : pct (default 0 (commission_of (c_s c2) (bp_uploader b)))).
  { unfold commission_of. destruct (ss_stakers (c_s c2) !! bp_uploader b) as [y|] eqn:Ey; cbn; [|unfold pct, ONE; lia].
    apply (cb_now _ (G_CB _ HG2) _ _ Ey). }
  destruct (parts _ _ _ _ _ _ _ _ _ (cpos_cadd _ _ Hpos (cpos_coin KYVE x Hx)) (bparams_fee _ Hbp2) Hcom Er) as (P1 & P2 & P3 & P4 & P5 & P6).
  destruct (pay_out_ok c2 (bp_uploader b) r) as (c3 & -> & _); try done.
  - apply (g_nn _ _ HG2).
  - intros d. rewrite P5, Hb2, Hbf. pose proof (g_nn _ _ HG1 MPool d). pose proof (cpos_amt pays d Hpos).
    rewrite (decide_True (P := MPool = MPool)) by done. rewrite (decide_False (P := MPool = MFunders)) by done.
    rewrite (decide_False (P := MPool = PoolAcc p)) by done. rewrite amt_cadd, amt_coin. rewrite ?(decide_True (P := MPool = MPool)) by done.
    clearbody ex. destruct ex, (decide (KYVE = d)), (decide (d = KYVE)); subst; try done; try lia; congruence.
  - destruct ex eqn:Eex; [left; unfold ex in Eex; by apply bool_decide_eq_true in Eex|right].
    assert (Hz : forall d, amt (r_storage r) d = 0 /\ amt (r_commission r) d = 0).
    { intros d. specialize (P5 d). unfold sum_parts in P5. pose proof (cpos_amt _ d P1). pose proof (cpos_amt _ d P2). pose proof (cpos_amt _ d P3). pose proof (cpos_amt _ d P4). lia. }
    split; apply coins_ext; try (by apply cpos_cnz); try (apply cpos_cnz, cpos_empty); intros d; rewrite amt_empty; apply Hz.
  - destruct (Z_lt_le_dec 0 (power c2 (bp_uploader b))); [by left|right; by apply P6].
Qed.
End P.
