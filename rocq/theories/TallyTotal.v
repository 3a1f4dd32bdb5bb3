(** * A tally panics only for a huge data size or a whitelist without the base denom. *)
From Verif Require Import Base BaseFacts Delegation Stakers StakersInv StakersClaims StakersRun Funders FundersInv FundersRun Team RoundRobin Pool Bundles Chain ChainFrame ArchiveInv
  BankMoves ChainLift PoolFrame Walk IndexInv PayoutClaims PaySafe ParamsFrame.

Definition in_list (l : list wentry) (x : coins) : Prop := forall d, is_Some (x !! d) -> is_Some (wl_find l d).
Lemma in_list_cadd l x y : in_list l x -> in_list l y -> in_list l (cadd x y).
Proof.
  intros Hx Hy d. unfold cadd, cmerge. rewrite lookup_merge. intros [v Hv].
  destruct (x !! d) as [a|] eqn:E1; [apply Hx; by rewrite E1|]. destruct (y !! d) as [b|] eqn:E2; [apply Hy; by rewrite E2|]. done.
Qed.
Lemma in_list_pay l f : in_list l (snd (charge_one l f)).
Proof.
  intros d. unfold charge_one. cbn [snd]. unfold cfilter. rewrite map_filter_lookup. destruct (cmin _ _ !! d) as [v|]; [|by intros []].
  cbn. unfold listed. case_option_guard as H; [|by intros []]. cbn in H. destruct (wl_find l d); [eauto|done].
Qed.
Lemma charge_listed st p r : match snd (charge_funders st p r) with Some pays => in_list (wl st) pays | None => True end.
Proof.
  unfold charge_funders. destruct (fs_active st !! p) as [l|]; [|done]. destruct (active_fundings st p l) as [|af afs]; [intros d H; rewrite lookup_empty in H; by destruct H|].
  set (wl0 := wl st). clearbody wl0.
  assert (H : forall l0 acc, in_list wl0 (snd acc) -> in_list wl0 (snd (fold_left (charge_step wl0 p) l0 acc))).
  { induction l0 as [|[a f] t IH]; intros [[st' act] pays] He; [done|]. cbn [fold_left]. apply IH. unfold charge_step.
    pose proof (in_list_pay wl0 f) as Hp. destruct (charge_one wl0 f) as [f' pay]. cbn [snd] in *. by apply in_list_cadd. }
  specialize (H (af :: afs) (st, l, ∅)). destruct (fold_left _ _ _) as [[st1 act] pays]. cbn [snd] in H.
  assert (H' : in_list wl0 pays) by (apply H; intros d Hd; rewrite lookup_empty in Hd; by destruct Hd).
  destruct (cempty pays); [done|]. by destruct (send _ _ _ _).
Qed.

Section T.
  Context (g : gen) (Hg : genesis g).
  Local Instance any : joiners := fun _ _ => True.
  Lemma tally_total c p : G g c -> AInv c -> is_Some (get_pool c p) -> is_Some (wl_find (wl (c_f c)) KYVE) -> bp_data (get_prop c p) < two63 ->
    tally c (get_prop c p) p <> TrPanic.
  Proof.
    intros HG HA [pl Hpl] Hk Hdata. set (b := get_prop c p). unfold tally. pose proof (G_non_voters g c p HG) as HG1. pose proof (b_non_voters c p) as B1.
    assert (Hpr : get_prop (handle_non_voters c p) p = b) by (by apply get_prop_b).
    assert (HA1 : AInv (handle_non_voters c p)) by (by apply (agood_frame c)).
    assert (Hw1 : fs_params (c_f (handle_non_voters c p)) = fs_params (c_f c)).
    { assert (H : pk c (handle_non_voters c p)) by (pwalk k_non_voters). unfold pk, cpar in H. by injection H. }
    set (c1 := handle_non_voters c p) in *. clearbody c1.
    destruct (v_status (distribution c1 p)) eqn:Ev; try done.
    assert (Hd0 : 0 <= bp_data b).
    { unfold distribution in Ev. unfold get_prop in Hpr. destruct (c_prop c1 !! p) as [b'|] eqn:Eb; [|done]. change (b' = b) in Hpr. rewrite Hpr in Eb, Ev.
      destruct (ai_prop _ HA1 p b Eb) as [(_ & _ & Hv & _)|Hf]; [|destruct Hf as (_ & _ & ? & _); lia].
      exfalso. rewrite Hv in Ev. cbn [v_status] in Ev. unfold quorum, list_power at 1 in Ev. cbn [fold_left] in Ev.
      destruct (total_power c1 p =? 0); [done|]. change (w64 (0 * 2)) with 0 in Ev.
      assert (0 <= total_power c1 p).
      { unfold total_power. rewrite <- fold_left_rev_right. induction (rev (members c1 p)); cbn; [done|]. unfold u64_add, w64. apply Z.mod_pos_bound. done. }
      destruct (total_power c1 p <? 0) eqn:E0; [lia|]. by destruct (_ <=? _). }
    pose proof (charge_listed (f_in c1) p MPool) as HL. pose proof (fpar_charge (f_in c1) p MPool) as HF.
    pose proof (charge_spec _ _ p MPool (G_FInv g Hg c1 HG1) I) as (_ & _ & _ & _ & HS). cbv zeta in HS.
    pose proof (G_charge_funders g Hg c1 p HG1) as HGf.
    assert (Hpos : forall x, snd (charge_funders (f_in c1) p MPool) = Some x -> cpos x).
    { intros x Hx. destruct (fs_active (f_in c1) !! p) as [l|] eqn:Ea.
      - destruct (HS l eq_refl) as (pays & Hp & Hpos & _). rewrite Hp in Hx. injection Hx as <-. done.
      - unfold charge_funders in Hx. rewrite Ea in Hx. done. }
    destruct (charge_funders (f_in c1) p MPool) as [f [pays|]]; [|done]. cbn [fst snd] in *. specialize (Hpos pays eq_refl).
    set (cf := f_out c1 f) in *.
    assert (Hprf : get_prop cf p = b) by done.
    assert (Hwf : fs_params (c_f cf) = fs_params (c_f c)) by (rewrite <- Hw1; exact HF).
    assert (HLf : in_list (wl (c_f cf)) pays). { unfold wl. rewrite Hwf, <- Hw1. exact HL. }
    clearbody cf. clear HS HF HL.
    pose proof (g_par _ _ HGf) as (_ & _ & Hpp & _).
    destruct (claim_charge cf p) as (c2 & Ec & _ & _).
    { split; [apply (g_nn _ _ HGf)|]. eapply Z.le_lt_trans; [|apply (g_supply _ _ HGf)]. apply supply_ge1. apply (g_nn _ _ HGf). }
    { unfold pparams_valid, pct_ok in Hpp. unfold pct. lia. }
    cbv zeta in Ec. set (x := bal (c_bank cf) (PoolAcc p) KYVE * pp_rate (c_pp cf) / ONE) in *.
    assert (Hx : 0 <= x). { apply Z.div_pos; [|unfold ONE; lia]. apply Z.mul_nonneg_nonneg; [apply (g_nn _ _ HGf)|]. unfold pparams_valid, pct_ok in Hpp. lia. }
    clearbody x. rewrite Ec.
    pose proof (G_charge_inflation g cf p c2 x HGf Ec) as HG2. pose proof (b_charge_inflation _ _ _ _ Ec) as B2.
    assert (Hpr2 : get_prop c2 p = b) by (rewrite <- Hprf; by apply get_prop_b).
    assert (Hw2 : fs_params (c_f c2) = fs_params (c_f c)).
    { rewrite <- Hwf. apply pk_infl in Ec. unfold pk, cpar in Ec. by injection Ec. }
    destruct (payouts c2 p (cadd pays (coin KYVE x))) as [r|] eqn:Er; [by destruct (pay_out _ _ _)|]. exfalso.
    unfold payouts in Er. rewrite Hpr2 in Er. pose proof (g_par _ _ HG2) as (Hbp2 & _).
    destruct (bool_decide _); [|done].
    assert (HI : reward_inputs (c_bp c2) (wl (c_f c2)) (default 0 (commission_of (c_s c2) (bp_uploader b))) (bp_data b) (cadd pays (coin KYVE x))).
    { split; [done|]. split; [|split; [|split; [|by apply cpos_cadd; [|apply cpos_coin]]]].
      - apply (fi_params _ _ (G_FInv g Hg c2 HG2)).
      - unfold commission_of. destruct (ss_stakers (c_s c2) !! bp_uploader b) as [y|] eqn:Ey; cbn; [|unfold pct, ONE; lia].
        apply (cb_now _ (G_CB g _ HG2) _ _ Ey).
      - split; [done|exact Hdata]. }
    destruct (claim_split_total _ _ _ (power c2 (bp_uploader b)) (bp_sp b) _ _ HI) as [r Hr].
    { change (in_list (wl (c_f c2)) (cadd pays (coin KYVE x))). apply in_list_cadd.
      - unfold wl. rewrite Hw2, <- Hwf. exact HLf.
      - intros d Hd. unfold coin in Hd. destruct (decide (d = KYVE)) as [->|Hne].
        + unfold wl. rewrite Hw2. exact Hk.
        + exfalso. destruct (nz x).
          2: by rewrite lookup_empty in Hd; destruct Hd.
          rewrite lookup_singleton_ne in Hd by done. by destruct Hd. }
    rewrite Er in Hr. done.
  Qed.
End T.
