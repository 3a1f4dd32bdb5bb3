(** * C64: what can stop the chain (proofs). *)
From Verif Require Import Base BaseFacts F1Spec F1Refine Delegation DelegationInv DelegationClaims Stakers Funders FundersInv FundersClaims Team RoundRobin Pool Bundles Chain ChainFrame ArchiveInv
  BankMoves ChainLift Walk ParamsFrame PayoutClaims PaySafe TallyTotal PoolFrame PoolClaims StepCases TallyProps.
Local Instance any : joiners := fun _ _ => True.

(** The flags of the block logic: [c_halt]: the chain stops; [c_bad]: the handling of a timeout was
    left in the middle; and the flag of x/team. *)
Definition flags (c : chain) : bool * bool * bool := (c_halt c, c_bad c, ts_halt (c_t c)).

Section halt.
  Context (g : gen) (Hg : genesis g).
  (** Steps that keep the invariant and the flags. *)
  Definition hk (c c' : chain) : Prop := G g c -> G g c' /\ flags c' = flags c.
  Lemma hk_refl c : hk c c. Proof. done. Qed.
  Lemma hk_trans a b c : hk a b -> hk b c -> hk a c.
  Proof. intros H1 H2 H. destruct (H1 H) as [H3 E1]. destruct (H2 H3) as [H4 E2]. split; [done|congruence]. Qed.
  Lemma hk_slash c s t : hk c (d_out c (fst (slash_delegators (d_in c) s t))).
  Proof. intros H. split; [by apply G_slash|done]. Qed.
  Lemma hk_leave c s p : hk c (s_out c (leave_pool (s_in c) s p)).
  Proof. intros H. split; [by apply G_kick|done]. Qed.
  Lemma hk_incr c p s : hk c (s_out c (fst (increment_points (s_in c) p s))).
  Proof. intros H. split; [exact (G_s g c (SPoint s p) H I I I)|done]. Qed.
  Lemma hk_reset c p s : hk c (reset_pts c p s).
  Proof. intros H. split; [by apply G_reset|done]. Qed.
  Lemma hk_fund c p : hk c (f_out c (fst (charge_funders (f_in c) p MPool))).
  Proof. intros H. split; [by apply G_charge_funders|done]. Qed.
  Lemma hk_infl c p c' x : charge_inflation c p = Some (c', x) -> hk c c'.
  Proof.
    intros E H. split; [by apply (G_charge_inflation g c p c' x)|].
    destruct (claim_charge c p) as (c2 & Ec & Eh & _).
    { split; [apply (g_nn _ _ H)|]. eapply Z.le_lt_trans; [|apply (g_supply _ _ H)]. apply supply_ge1. apply (g_nn _ _ H). }
    { pose proof (g_par _ _ H) as (_ & _ & Hpp & _). unfold pparams_valid, pct_ok in Hpp. unfold pct. lia. }
    rewrite E in Ec. injection Ec as <- _. unfold flags. rewrite Eh.
    unfold charge_inflation in E. repeat case_match; simplify_eq; done.
  Qed.
  Lemma hk_pay c u r : match pay_out c u r with inl c' | inr c' => hk c c' end.
  Proof.
    pose proof (fun H => G_pay_out g c u r H) as HG. unfold pay_out in *.
    destruct (send _ _ _ _) as [bk|]; [|done].
    destruct (increase_commission_rewards _ _ _ _) as [s'|] eqn:E; [|by intros H; split; [apply HG|]].
    destruct (payout_rewards _ _ _ _) as [d|] eqn:Ep; by intros H; split; [apply HG|].
  Qed.
  Lemma hk_prop c p b : hk c (set_prop c p b).
  Proof. intros H. split; [by apply G_set_prop|done]. Qed.
  Lemma hk_rr c x : hk c (cw_rr c x).
  Proof. intros H. split; [by apply (G_frame g c)|done]. Qed.
  Lemma hk_final c p v : hk c (finalize c p v).
  Proof. intros H. split; [by apply G_finalize|]. unfold finalize. by destruct (get_pool c p). Qed.
  Ltac hwalk l := apply (l hk hk_refl hk_trans); try exact hk_slash; try exact hk_leave; try exact hk_incr; try exact hk_reset; try exact hk_fund;
    try exact hk_infl; try exact hk_pay; try exact hk_prop; try exact hk_rr; try exact hk_final.
  Lemma hk_submit c m c' : msg_submit c m = Some c' -> hk c c'. Proof. hwalk k_submit. Qed.
  Lemma hk_skip c p s v from c' : msg_skip c p s v from = Some c' -> hk c c'. Proof. hwalk k_skip. Qed.
  Lemma hk_vote c p s v st w c' : msg_vote c p s v st w = Some c' -> hk c c'.
  Proof. apply (k_vote hk hk_trans hk_reset hk_prop). Qed.
  Lemma hk_tally c b p :
    match tally c b p with TrValid c' _ _ _ _ | TrInvalid c' _ | TrNoQuorum c' _ | TrError c' => hk c c' | TrPanic => True end.
  Proof. hwalk k_tally. Qed.
  Lemma hk_choose c p ex : hk c (snd (choose c p ex)). Proof. apply (k_choose hk hk_rr). Qed.
  Lemma hk_choose_from c p l : hk c (snd (choose_from c p l)). Proof. apply (k_choose_from hk hk_rr). Qed.
  Lemma hk_timeout_point c p s : hk c (timeout_point c p s). Proof. hwalk k_timeout_point. Qed.
  Lemma hk_non_voters c p : hk c (handle_non_voters c p). Proof. hwalk k_non_voters. Qed.

  (** ** One pool at the end of a block *)
  Lemma hk_timeout_pool c p i c' : AInv c -> is_Some (get_pool c p) -> timeout_pool c p i = Some c' -> hk c c'.
  Proof.
    intros HA Hp. unfold timeout_pool. destruct (pool_error c p) as [e|].
    { intros [= <-]. destruct (_ && _); [apply hk_prop|]. destruct (negb _); [apply hk_prop|apply hk_refl]. }
    destruct (_ <? _); [intros [= <-]; apply hk_refl|]. destruct (_ && _).
    { pose proof (hk_choose (handle_non_voters c p) p []) as Hc. destruct (choose _ _ _) as [n c1].
      intros [= <-]. eapply hk_trans; [apply (hk_non_voters c p)|]. eapply hk_trans; [exact Hc|]. apply hk_prop. }
    destruct (_ <? _); [intros [= <-]; apply hk_refl|]. destruct (_ =? 0)%N.
    { pose proof (hk_choose c p []) as Hc. destruct (choose _ _ _) as [n c1]. intros [= <-].
      eapply hk_trans; [exact Hc|]. eapply hk_trans; [|apply hk_timeout_point]. apply hk_prop. }
    pose proof (hk_tally c (get_prop c p) p) as Ht. destruct (tally _ _ _) as [c1 w ? ? ?|c1 w|c1 w|c1|] eqn:Et; try done.
    - pose proof (hk_choose_from c1 p (bp_valid (get_prop c p))) as Hc. destruct (choose_from _ _ _) as [n c2].
      intros [= <-]. eapply hk_trans; [exact Ht|]. eapply hk_trans; [exact Hc|]. eapply hk_trans; [|apply hk_timeout_point].
      eapply hk_trans; [apply hk_final|apply hk_prop].
    - pose proof (hk_choose c1 p []) as Hc. destruct (choose _ _ _) as [n c2]. intros [= <-].
      eapply hk_trans; [exact Ht|]. eapply hk_trans; [exact Hc|]. eapply hk_trans; [|apply hk_timeout_point]. apply hk_prop.
    - pose proof (hk_choose c1 p []) as Hc. destruct (choose _ _ _) as [n c2]. intros [= <-].
      eapply hk_trans; [exact Ht|]. eapply hk_trans; [exact Hc|]. eapply hk_trans; [|apply hk_timeout_point]. apply hk_prop.
    - intros _ HG. by destruct (tally_safe g Hg c p HG HA Hp c1).
  Qed.
  Lemma hk_timeouts l : forall c c', AInv c -> (forall p i, (p, i) ∈ l -> is_Some (get_pool c p)) -> timeouts c l = Some c' -> hk c c'.
  Proof.
    induction l as [|[p i] l IH]; intros c c' HA Hl; simpl; [intros [= <-]; apply hk_refl|].
    destruct (timeout_pool c p i) as [c1|] eqn:E; [|done]. intros H.
    assert (Hp : is_Some (get_pool c p)) by (eapply Hl; left).
    pose proof (agood_timeout c p i c1 HA Hp E) as HA1.
    eapply hk_trans; [by eapply hk_timeout_pool|]. apply IH; [apply HA1| |done].
    intros q j Hq. eapply some_get; [exact HA1|]. eapply Hl. by right.
  Qed.
  (** A timeout is handled, unless the stored data is huge or KYVE is not listed. *)
  Definition small (c : chain) : Prop := forall p b, c_prop c !! p = Some b -> bp_storage b <> 0%N -> bp_data b < two63.
  Definition listed_base (c : chain) : Prop := is_Some (wl_find (wl (c_f c)) KYVE).
  Lemma timeout_defined c p i : G g c -> AInv c -> is_Some (get_pool c p) -> listed_base c -> small c -> exists c', timeout_pool c p i = Some c'.
  Proof.
    intros HG HA Hp Hk Hs. destruct (timeout_pool c p i) as [c'|] eqn:E; [eauto|]. exfalso. unfold timeout_pool in E.
    destruct (pool_error c p); [done|]. destruct (_ <? _); [done|]. destruct (_ && _); [by destruct (choose _ _ _)|]. destruct (_ <? _); [done|].
    destruct (N.eqb_spec (bp_storage (get_prop c p)) 0) as [|Hst]; [by destruct (choose _ _ _)|].
    assert (Hd : bp_data (get_prop c p) < two63).
    { specialize (Hs p). unfold get_prop in *. destruct (c_prop c !! p) as [b|]; [by apply Hs|by destruct Hst]. }
    pose proof (tally_total g Hg c p HG HA Hp Hk Hd) as Ht.
    destruct (tally _ _ _); try done; repeat case_match; done.
  Qed.
  Lemma small_agood c c' : small c -> agood c c' -> small c'.
  Proof.
    intros Hs [_ HR] p b Hb Hst. destruct (rl_prop _ _ HR p b Hb Hst) as (b0 & _ & _ & H0 & E & _). unfold content in E.
    injection E as E1 _ E2 _ _ _ _ _ _ _. rewrite <- E2. apply (Hs p b0 H0). congruence.
  Qed.
  Lemma timeout_listed c p i c' : timeout_pool c p i = Some c' -> listed_base c -> listed_base c'.
  Proof.
    intros E. assert (H : pk c c') by (revert E; pwalk k_timeout_pool). unfold listed_base, wl. unfold pk, cpar in H. injection H as _ _ _ H _.
    intros ?. congruence.
  Qed.
  Lemma timeouts_defined l : forall c, G g c -> AInv c -> (forall p i, (p, i) ∈ l -> is_Some (get_pool c p)) -> listed_base c -> small c ->
    exists c', timeouts c l = Some c'.
  Proof.
    induction l as [|[p i] l IH]; intros c HG HA Hl Hk Hs; simpl; [eauto|].
    assert (Hp : is_Some (get_pool c p)) by (eapply Hl; left).
    destruct (timeout_defined c p i HG HA Hp Hk Hs) as [c1 E]. rewrite E.
    pose proof (agood_timeout c p i c1 HA Hp E) as HA1. apply IH.
    - by apply (hk_timeout_pool c p i c1 HA Hp E).
    - apply HA1.
    - intros q j Hq. eapply some_get; [exact HA1|]. eapply Hl. by right.
    - by eapply timeout_listed.
    - by apply (small_agood c c1).
  Qed.
  Lemma intervals_exist c p i : (p, i) ∈ pool_intervals c -> is_Some (get_pool c p).
  Proof.
    unfold pool_intervals. intros (q & _ & H)%elem_of_list_omap. apply fmap_Some in H as (pl & H & [= -> _]). eauto.
  Qed.
  Lemma burn_fees_flags c : G g c -> flags (burn_fees c) = flags c.
  Proof.
    intros HG. unfold burn_fees. destruct (c_height c =? 1); [done|]. destruct (c_burn c =? 0); [done|].
    unfold burn. rewrite cle_bal; [done|]. intros d. rewrite amt_share. unfold bal. apply share_bounds; [apply (g_nn _ _ HG)|].
    pose proof (g_par _ _ HG) as (_ & _ & _ & H & _). unfold pct_ok in H. lia.
  Qed.
  Lemma end_bad c : G g c -> AInv c -> c_bad (end_block c) = c_bad c.
  Proof.
    intros HG HA. unfold end_block. set (c1 := cw_pools _ _).
    assert (HG1 : G g c1) by (by apply G_upgrades). assert (HA1 : AInv c1) by (by apply (agood_keep c c1 HA); try done; apply keep_upgrades).
    assert (H : G g (handle_upload_timeout c1) /\ c_bad (handle_upload_timeout c1) = c_bad c1).
    { split; [by apply G_handle_timeout|]. unfold handle_upload_timeout. destruct (timeouts c1 _) as [c2|] eqn:E; [|done].
      destruct (hk_timeouts _ _ _ HA1 (intervals_exist c1) E HG1) as [_ [= _ H _]]. done. }
    destruct H as [HG2 E]. pose proof (burn_fees_flags _ HG2) as [= _ H _]. rewrite H, E. done.
  Qed.
  Lemma end_halt c : G g c -> AInv c -> listed_base c -> small c -> c_halt (end_block c) = c_halt c.
  Proof.
    intros HG HA Hk Hs. unfold end_block. set (c1 := cw_pools _ _).
    assert (HG1 : G g c1) by (by apply G_upgrades). assert (HA1 : AInv c1) by (by apply (agood_keep c c1 HA); try done; apply keep_upgrades).
    destruct (timeouts_defined (pool_intervals c1) c1 HG1 HA1 (intervals_exist c1) Hk Hs) as [c2 E].
    destruct (hk_timeouts _ _ _ HA1 (intervals_exist c1) E HG1) as [HG2 [= H _ _]].
    unfold handle_upload_timeout. rewrite E. pose proof (burn_fees_flags _ HG2) as [= H2 _ _]. rewrite H2, H. done.
  Qed.

  (** ** Messages *)
  Definition in_block (o : cop) : Prop := match o with CBegin _ _ | CEnd => False | _ => True end.
  Lemma msg_flags c o : G g c -> in_block o -> flags (cstep c o) = flags c.
  Proof.
    intros HG Ho. unfold cstep. destruct (cmsg c o) as [c'|] eqn:E; [|done]. change (default c (Some c')) with c'.
    destruct o; cbn [cmsg] in E; try done;
      try (match type of E with ?f <$> ?x = _ => destruct x as [y|] eqn:Ex; [injection E as <-|done] end);
      try (exact eq_refl); try (by destruct (_ =? _)%N; [injection E as <-|]);
      try (unfold flags; cbn; f_equal; unfold msg_create, msg_claim_unlocked, msg_clawback, msg_claim_rewards, msg_claim_authority in Ex; clear -Ex; repeat case_match; simplify_eq; done).
    - unfold chain_create_staker in E. destruct (msg_delegate _ _ _ _ _) as [d|] eqn:Ed; [|done].
      destruct (msg_create_staker _ _ _ _) as [s'|] eqn:Es; [|done]. by injection E as <-.
    - by apply (hk_submit c m c').
    - by eapply (hk_vote c).
    - by eapply (hk_skip c).
    - unfold msg_claim_role in E. repeat (destruct (negb _); [done|]). by injection E as <-.
    - unfold chain_create_pool in E. destruct (msg_create_pool _ _ _ _ _); [|done]. by injection E as <-.
    - unfold chain_disable_pool in E. destruct (disable_record _ _ _) as [ps|]; [|done]. cbv zeta in E. set (c2 := fold_left _ _ _) in E.
      assert (H2 : flags c2 = flags c).
      { unfold c2. change (flags c) with (flags (cw_pools c ps)). generalize (cw_pools c ps). intros c1. generalize (members c1 p). revert c1. clear. intros c1 l. revert c1.
        induction l as [|s l IH]; intros c1; [done|]. cbn [fold_left]. by rewrite IH. }
      destruct (_ <=? _); [done|]. destruct (0 <? _); [|by injection E as <-]. destruct (i64 _ <? 0); [done|].
      destruct (send _ _ _ _); [|done]. injection E as <-. done.
    - by injection E as <-.
  Qed.
  Lemma end_team c : ts_halt (c_t (end_block c)) = ts_halt (c_t c).
  Proof.
    assert (Hf : forall c p v, ts_halt (c_t (finalize c p v)) = ts_halt (c_t c)) by (intros; unfold finalize; by destruct (get_pool _ _)).
    set (K := fun c c' : chain => ts_halt (c_t c') = ts_halt (c_t c)). unfold end_block. set (c1 := cw_pools _ _).
    assert (H : K c1 (handle_upload_timeout c1)).
    { apply (k_handle_timeout K); unfold K; try done; try congruence.
      - intros c0 p c0' x E. unfold charge_inflation in E. repeat case_match; simplify_eq; done.
      - intros c0 u r. unfold pay_out. repeat case_match; simplify_eq; done. }
    unfold K in H. unfold burn_fees. destruct (c_height _ =? 1); [done|]. destruct (c_burn _ =? 0); [done|]. by destruct (burn _ _ _).
  Qed.
End halt.

Lemma bad_split c pr c' : split_inflation c pr = Some c' -> c_bad c' = c_bad c.
Proof.
  assert (Hg : forall c p x c', give c p x = Some c' -> c_bad c' = c_bad c).
  { intros c0 p x c0'. unfold give. destruct (i64 x <? 0); [done|]. by destruct (send _ _ _ _); intros [= <-]. }
  assert (Hs : forall l c t pr d c' d', split_loop c t pr d l = Some (c', d') -> c_bad c' = c_bad c).
  { induction l as [|p l IH]; intros c0 t pr0 d c0' d'; simpl; [by intros [= <- <-]|].
    destruct (can_run c0 p); [|apply IH]. destruct (pool_share _ _ _) as [x|]; [|done].
    destruct (give c0 p x) as [c1|] eqn:Eg; [|done]. apply Hg in Eg. intros H. apply IH in H. congruence. }
  assert (Hr : forall l c x c', remainder_loop c x l = Some c' -> c_bad c' = c_bad c).
  { induction l as [|p l IH]; intros c0 x c0'; simpl; [by intros [= <-]|].
    destruct (can_run c0 p); [apply IH|].
    destruct (give c0 p x) as [c1|] eqn:Eg; [|done]. apply Hg in Eg. intros H. apply IH in H. congruence. }
  unfold split_inflation. destruct (block_provision _ _ _) as [[h team]|]; [|done].
  destruct (trunc64 _) as [protocol|]; [|done].
  set (c0 := if h then cw_halt c else c). assert (Hc0 : c_bad c0 = c_bad c) by (unfold c0; by destruct h).
  destruct (protocol =? 0); [by intros [= <-]|]. destruct (total_weight c0 =? 0); [by intros [= <-]|].
  destruct (split_loop _ _ _ _ _) as [[c1 d]|] eqn:Es; [|done]. apply Hs in Es.
  destruct (0 <? _).
  - intros H. apply Hr in H. congruence.
  - intros [= <-]. congruence.
Qed.

(** ** Whole histories *)
Section reach.
  Context (g : gen) (ops : list cop) (Hg : genesis g) (Hok : cops_ok (gstart g) ops).
  Let c := crun (gstart g) ops.
  Lemma h_bad : c_bad c = false.
  Proof.
    unfold c. revert Hok. induction ops as [|o l IH] using rev_ind; [done|]. intros H. apply cops_ok_app in H as [H1 [H2 _]].
    rewrite crun_app. cbn [crun]. specialize (IH H1). pose proof (G_run g Hg l H1) as HG. pose proof (reach_A g l H1) as HA.
    set (c0 := crun _ l) in *. clearbody c0.
    assert (Hm : in_block o -> c_bad (cstep c0 o) = false).
    { intros Hi. pose proof (msg_flags g Hg c0 o HG Hi) as [= _ E _]. congruence. }
    destruct o; try by apply Hm.
    - change (c_bad (begin_block c0 t provision) = false). unfold begin_block. cbn [s_out d_out cw_bank cw_s cw_d c_bad].
      set (c1 := t_out _ _). assert (E1 : c_bad c1 = false) by done. clearbody c1.
      destruct (split_inflation c1 provision) as [c2|] eqn:E; [|done]. rewrite <- E1. clear E1 HG HA Hm IH H2. by apply bad_split in E.
    - rewrite <- IH. by apply (end_bad g Hg).
  Qed.
  (** The flags of the single modules. *)
  Lemma h_funders : fs_halt (c_f c) = false.
  Proof. pose proof (G_run g Hg ops Hok) as HG. pose proof (G_FInv g Hg _ HG) as HF. exact (fi_halt _ _ HF). Qed.
  Lemma h_delegation s : f_halt (getf (c_d c) s) = false.
  Proof.
    pose proof (G_run g Hg ops Hok) as HG. destruct (g_d _ _ HG) as (l & Hl & E & _).
    change (getf (c_d c) s) with (getf (d_in c) s). unfold c. rewrite E. pose proof Hg as (_ & _ & _ & Hd & _).
    by apply claim_no_halt.
  Qed.
  Lemma h_always : c_bad c = false /\ fs_halt (c_f c) = false /\ forall s, f_halt (getf (c_d c) s) = false.
  Proof. split; [exact h_bad|]. split; [exact h_funders|exact h_delegation]. Qed.
  Lemma h_messages o : in_block o -> c_halt (cstep c o) = c_halt c /\ ts_halt (c_t (cstep c o)) = ts_halt (c_t c).
  Proof. intros Hi. pose proof (msg_flags g Hg c o (G_run g Hg ops Hok) Hi) as [= E1 _ E2]. done. Qed.
  Lemma h_end : listed_base c -> small c -> c_halt (cstep c CEnd) = c_halt c /\ ts_halt (c_t (cstep c CEnd)) = ts_halt (c_t c).
  Proof.
    intros H1 H2. change (cstep c CEnd) with (end_block c). split; [|apply end_team].
    by apply (end_halt g Hg c (G_run g Hg ops Hok) (reach_A g ops Hok)).
  Qed.
End reach.

(** Histories in which no submission states a size of 2^63 bytes and the base denom stays listed. *)
Definition moderate (o : cop) : Prop :=
  match o with CSubmit m => sb_data m < two63 | CParamsF _ p => is_Some (wl_find (fp_list p) KYVE) | _ => True end.
Lemma moderate_listed c o : moderate o -> listed_base c -> listed_base (cstep c o).
Proof.
  intros Hm Hl. unfold listed_base, wl in *. destruct (updates_params o) eqn:Eu.
  - destruct o; try done; cbn in *; try (unfold cstep; cbn; destruct (_ =? _)%N; [|done]; cbn; done).
  - pose proof (params_frame c o Eu) as H. unfold cpar in H. injection H as _ _ _ H _ _ _. by rewrite H.
Qed.
Lemma moderate_small c o : AInv c -> cop_ok c o -> moderate o -> small c -> small (cstep c o).
Proof.
  intros HA Hok Hm Hs. destruct (chain_step c o HA Hok) as [_ [H|(m & -> & _ & H)]]; [by eapply small_agood|].
  destruct H as (mid & b & pl & plc & Hmid & E & _ & _ & _ & _ & _ & _ & Hf & _). intros p b' Hb Hst. rewrite E in Hb.
  destruct (decide (p = sb_pool m)) as [->|Hne].
  - rewrite lookup_insert in Hb. injection Hb as <-. unfold from_submit, content in Hf. injection Hf as _ _ Hd _ _ _ _ _ _ _. rewrite Hd. exact Hm.
  - rewrite lookup_insert_ne in Hb by done. by apply (small_agood c mid Hs Hmid p b').
Qed.
Lemma h_history g ops o : genesis g -> is_Some (wl_find (fp_list (g0_fp g)) KYVE) -> cops_ok (gstart g) (ops ++ [o]) -> Forall moderate ops ->
  (forall t pr, o <> CBegin t pr) -> let c := crun (gstart g) ops in
  c_halt (cstep c o) = c_halt c /\ ts_halt (c_t (cstep c o)) = ts_halt (c_t c).
Proof.
  intros Hg Hl Hok Hm Ho c. apply cops_ok_app in Hok as [Hok [Ho1 _]].
  assert (H : listed_base c /\ small c).
  { unfold c. clear Ho Ho1 c o. induction ops as [|o l IH] using rev_ind.
    - split; [exact Hl|]. intros p b Hb. cbn in Hb. by rewrite lookup_empty in Hb.
    - apply cops_ok_app in Hok as [H1 [H2 _]]. apply Forall_app in Hm as [Hm1 Hm2]. apply Forall_inv in Hm2.
      destruct (IH H1 Hm1) as [I1 I2]. rewrite crun_app. cbn [crun]. split; [by apply moderate_listed|].
      apply moderate_small; try done. by apply (reach_A g). }
  destruct H as [H1 H2]. destruct o; try (by apply (h_messages g ops Hg Hok)).
  - by destruct (Ho t provision).
  - by apply (h_end g ops Hg Hok).
Qed.
