(** * Claims: how much of the minted coins the team, each of its accounts and its authority get (C82). *)
From Verif Require Import Base BaseFacts Delegation Stakers Funders Team TeamInv TeamRun RoundRobin Pool Bundles Chain ChainFrame ArchiveInv
  BankMoves ChainLift PoolInv PayoutClaims MoneyFlow SplitClaims ChainWide.

Lemma zsum_elem {A} (f : A -> Z) l i a : l !! i = Some a -> Forall (fun a => 0 <= f a) l -> f a <= zsum f l.
Proof.
  intros Hi HF. revert i Hi. induction HF as [|x l Hx HF IH]; intros [|i] Hi; cbn in Hi; try done.
  - injection Hi as ->. cbn [zsum foldr]. fold (zsum f l). pose proof (zsum_nonneg f l HF). lia.
  - apply IH in Hi. cbn [zsum foldr]. fold (zsum f l). lia.
Qed.
(** ** One block of the module *)
Lemma begin_inv st p s : ts_halt (team_begin st p s) = false ->
  exists r l tot b, block_provision st p s = Some (false, r) /\ distribute (ts_accounts st) (ts_time st) r = Some (l, tot) /\
    transfer (ts_bank st) MFeeCollector MTeam (w64 r) = Some b /\ ts_accounts (team_begin st p s) = l /\ ts_bank (team_begin st p s) = b.
Proof.
  unfold team_begin. destruct (block_provision st p s) as [[h r]|]; [|intros H; cbn in H; rewrite ?orb_true_r in H; discriminate H]. destruct (distribute _ _ _) as [[l tot]|] eqn:Ed; [|intros H; cbn in H; rewrite ?orb_true_r in H; discriminate H].
  cbv zeta. cbn [ts_bank twith_halt twith_auth twith_accounts]. destruct (transfer _ _ _ _) as [b|] eqn:Eb; [|intros H; cbn in H; rewrite ?orb_true_r in H; discriminate H].
  cbn. intros H. rewrite ?orb_false_iff in H. destruct H as [_ [-> _]]. exists r, l, tot, b. done.
Qed.
Lemma distribute_each l t r : forall l' s, distribute l t r = Some (l', s) ->
  Forall2 (fun a a' => exists x, account_reward a t r = Some x /\ va_rewards a' = u64_add (va_rewards a) x) l l'.
Proof.
  induction l as [|a l IH]; intros l' s H; cbn [distribute] in H; [injection H as <- _; constructor|].
  destruct (account_reward a t r) as [x|] eqn:Ex; [|done]. destruct (distribute l t r) as [[l1 s1]|]; [|done]. injection H as <- _.
  constructor; [by exists x|]. by eapply IH.
Qed.
Lemma reward_part a t r x : 0 <= va_claimed a <= vested a t -> vested a t - va_claimed a <= TEAM_ALLOCATION -> vested a t < two63 -> 0 <= r < two63 ->
  account_reward a t r = Some x -> fair_part x r (vested a t - va_claimed a) TEAM_ALLOCATION.
Proof.
  intros Hc Ha Hv Hr. unfold account_reward. cbv zeta. rewrite (u64_sub_le (vested a t)) by (unfold two63, two64 in *; lia).
  set (w := vested a t - va_claimed a) in *. rewrite (i64_small w) by lia. rewrite (i64_small TEAM_ALLOCATION) by done.
  rewrite dec_mul_int_l. assert (HA : 0 < TEAM_ALLOCATION) by done. set (A := TEAM_ALLOCATION) in *. clearbody A. pose proof ONE_pos as HO1.
  destruct (dec_quo_bounds (dec_of_int w) (dec_of_int A) ltac:(unfold dec_of_int; nia) ltac:(unfold dec_of_int; nia)) as (y & Hy & Hyw & Hq & Hqy).
  assert (Hq1 : dec_quo (dec_of_int w) (dec_of_int A) <= ONE) by (apply quo_le_one; lia).
  set (q := dec_quo _ _) in *. clearbody q. assert (0 <= r * q) by nia. destruct (trunc_int_spec (r * q)) as [T0 T1]; [done|].
  assert (Hle : trunc_int (r * q) <= r).
  { replace r with (trunc_int (dec_of_int r)) at 2 by apply trunc_int_of_int. apply trunc_int_mono. split; [done|]. unfold dec_of_int. nia. }
  unfold trunc64. destruct (_ && _); [|done]. intros [= <-]. rewrite w64_small by (unfold two63, two64 in *; lia).
  assert (HO : 2 <= ONE) by (unfold ONE; lia). split; [lia|]. apply (share_arith ONE w A r q y); try lia. unfold dec_of_int in Hyw. split; nia.
Qed.
(** What a block gives to the accounts. *)
Definition account_gains (st st' : tstate) : Z := zsum va_rewards (ts_accounts st') - zsum va_rewards (ts_accounts st).
Lemma block_amounts m st t p sup : TI st -> in_cap st -> TM m st -> top_ok st (TBegin t p sup) -> mild st (TBegin t p sup) ->
  m + p < two63 -> 0 <= m -> let st' := tstep st (TBegin t p sup) in
  let r := bal (ts_bank st') MTeam KYVE - bal (ts_bank st) MTeam KYVE in
  ts_halt st' = false /\ fair_part r p (spec_required st) (sup - p) /\
  Forall2 (fun a a' => same_base a a' /\ fair_part (va_rewards a' - va_rewards a) r (vested a t - va_claimed a) TEAM_ALLOCATION) (ts_accounts st) (ts_accounts st') /\
  ts_arewards st' = ts_arewards st + (r - account_gains st st').
Proof.
  intros HI Hcap HM Hok Hmild Hmp Hm0. cbv zeta.
  destruct (block_ok m st t p sup HI Hcap HM Hok Hmild Hmp Hm0) as (HM' & Hb & _ & Hrec). cbv zeta in HM', Hb, Hrec.
  destruct (required_exact m st HI Hcap HM ltac:(lia)) as (Hreq & Hrb & Hr0).
  pose proof (tm_halt _ _ HM') as Hh. cbn [tstep] in *. set (st0 := twith_time st t) in *. split; [done|].
  destruct (begin_inv st0 p sup Hh) as (r & l & tot & b & Ep & Ed & Et & El & Eb).
  assert (HI' : TI st0).
  { cbn in Hok. destruct HI as [Ht HF]. split; [cbn; lia|]. cbn. eapply Forall_impl; [exact HF|]. intros a. apply acc_inv_later. lia. }
  destruct (claimed_cap st0 HI' Hcap) as (Hc1 & Hc2 & Hc3). change (ts_accounts st0) with (ts_accounts st) in *. change (ts_time st0) with t in *.
  assert (HP : fair_part r p (spec_required st) (sup - p)).
  { rewrite <- Hreq. apply (provision_bounds st0); [|cbn in Hok; lia|done]. change (required_balance st0) with (required_balance st). rewrite Hreq.
    destruct HM as [_ _ _ Md _]. cbn in Hok. lia. }
  destruct HP as [Hr HP].
  assert (Hr63 : r < two63) by (cbn in Hok; lia). rewrite (w64_small r) in Et by (unfold two63, two64 in *; lia).
  pose proof (transfer_bal _ _ _ _ _ Et MTeam) as Hbal. rewrite decide_False, decide_True in Hbal by done. change (ts_bank st0) with (ts_bank st) in Hbal.
  rewrite <- Eb in Hbal. replace (bal (ts_bank (team_begin st0 p sup)) MTeam KYVE - bal (ts_bank st) MTeam KYVE) with r in * by lia.
  split; [by split|]. split.
  - rewrite El. pose proof (distribute_same _ _ _ _ _ Ed) as Hsame. pose proof (distribute_each _ _ _ _ _ Ed) as Heach.
    apply Forall2_same_length_lookup_2; [by eapply Forall2_length|]. intros i a a' Hi Hi'.
    pose proof (Forall2_lookup_lr _ _ _ _ _ _ Hsame Hi Hi') as Hsa. destruct (Forall2_lookup_lr _ _ _ _ _ _ Heach Hi Hi') as (x & Ex & Hxr).
    split; [exact Hsa|]. rewrite Hxr. rewrite Forall_lookup in Hc3. pose proof (Hc3 i a Hi) as Hca. cbn in Hca.
    assert (Hva : vested a t <= TEAM_ALLOCATION).
    { etransitivity; [|exact Hc2]. apply (zsum_elem (fun a => vested a t) (ts_accounts st) i a); [done|]. apply Forall_lookup. intros j u Hj. specialize (Hc3 j u Hj). cbn in Hc3. lia. }
    assert (HA : TEAM_ALLOCATION < two63) by done.
    pose proof (reward_part a t r x ltac:(lia) ltac:(lia) ltac:(lia) ltac:(lia) Ex) as Hx.
    destruct HM as [Ma Mb Mc _ _]. unfold recorded in Mc, Hr0.
    assert (Hra : 0 <= va_rewards a <= zsum va_rewards (ts_accounts st)).
    { rewrite Forall_lookup in Ma. pose proof (Ma i a Hi). split; [lia|]. apply (zsum_elem va_rewards (ts_accounts st) i a Hi).
      apply Forall_lookup. intros j u Hj. specialize (Ma j u Hj). lia. }
    destruct Hx as [Hx0 Hx]. unfold u64_add. rewrite w64_small by (unfold two63, two64 in *; lia).
    replace (va_rewards a + x - va_rewards a) with x by lia. by split.
  - unfold recorded, account_gains in *. lia.
Qed.

(** ** One block of the chain *)
Definition team_grant (c c' : chain) (t prov : Z) : Prop :=
  fair_part (team_gain c c') prov (spec_required (c_t c)) (supply (c_bank c)) /\
  (forall i a, ts_accounts (c_t c) !! i = Some a -> exists a', ts_accounts (c_t c') !! i = Some a' /\ same_base a a' /\
     fair_part (va_rewards a' - va_rewards a) (team_gain c c') (vested a t - va_claimed a) TEAM_ALLOCATION) /\
  length (ts_accounts (c_t c')) = length (ts_accounts (c_t c)) /\
  ts_arewards (c_t c') = ts_arewards (c_t c) + (team_gain c c' - account_gains (c_t c) (c_t c')).
Lemma claim_grant g ops t prov : genesis g -> cops_ok (gstart g) (ops ++ [CBegin t prov]) -> Forall small_team ops -> TEAM_ALLOCATION <= bal (g0_bank g) MTeam KYVE ->
  quiet (gstart g) (ops ++ [CBegin t prov]) -> minted_all ops + prov < two63 ->
  let c := crun (gstart g) ops in let c' := cstep c (CBegin t prov) in ts_halt (c_t c') = false /\ team_grant c c' t prov.
Proof.
  intros Hg Hok Hs Hb Hq Hm. cbv zeta. apply cops_ok_app in Hok as [Hok [Ho _]]. apply quiet_app in Hq as [Hq (Q1 & Q2 & _)]. cbn [mint_cop] in Q2.
  assert (Hp : 0 <= prov) by (cbn in Ho; lia). pose proof (mint_nonneg _ _ Hok) as Hm0.
  pose proof (TM_crun g Hg ops Hok Hs Hb Hq ltac:(lia)) as HM. pose proof (TI_crun g Hg ops Hok Hs) as HI. pose proof (G_run g Hg ops Hok) as HG.
  set (c := crun (gstart g) ops) in *. clearbody c. destruct Ho as (Ht & _ & Hs0 & Hsu).
  change (cstep c (CBegin t prov)) with (begin_block c t prov). destruct (begin_rest c t prov) as (_ & Ect & _ & _ & Emt & _).
  set (c' := begin_block c t prov) in *.
  destruct (G_mint g c t (c_height c + 1) prov HG Ht Hp Hsu) as (HG0 & Hsup & Hf). fold (minted_state c t prov) in HG0, Hsup, Hf.
  set (c0 := minted_state c t prov) in *.
  assert (Hmt : bal (c_bank c0) MTeam KYVE = bal (c_bank c) MTeam KYVE). { unfold c0, minted_state. cbn [c_bank cw_time cw_bank]. rewrite mint_bal. rewrite decide_False by done. lia. }
  assert (Hok0 : top_ok (t_in c0) (TBegin t prov (supply (c_bank c0)))).
  { destruct (g_times _ _ HG0) as (T1 & T2 & T3 & T4). pose proof (supply_ge2 (c_bank c0) MTeam MFeeCollector (g_nn _ _ HG0) ltac:(done)).
    pose proof (g_supply _ _ HG0). assert (c_time c0 = t) by done. cbn [top_ok]. change (ts_time (t_in c0)) with (ts_time (c_t c0)). change (ts_bank (t_in c0)) with (c_bank c0).
    unfold two62, two63 in *. lia. }
  assert (HM0 : TM (minted_all ops) (t_in c0)).
  { change (t_in c0) with (twith_bank (t_in c) (c_bank c0)). apply TM_more; [|exact HM]. change (ts_bank (t_in c)) with (c_bank c). lia. }
  destruct (block_amounts (minted_all ops) (t_in c0) t prov (supply (c_bank c0)) HI Q1 HM0 Hok0 Q2 Hm Hm0) as (A1 & A2 & A3 & A4). cbv zeta in A1, A2, A3, A4.
  assert (Est : c_t c' = tstep (t_in c0) (TBegin t prov (supply (c_bank c0)))) by (rewrite Ect; done).
  assert (Egain : bal (ts_bank (tstep (t_in c0) (TBegin t prov (supply (c_bank c0))))) MTeam KYVE - bal (ts_bank (t_in c0)) MTeam KYVE = team_gain c c').
  { unfold team_gain. rewrite Emt. change (ts_bank (t_in c0)) with (c_bank c0). rewrite Hmt. f_equal.
    change (ts_bank (tstep (t_in c0) (TBegin t prov (supply (c_bank c0))))) with (c_bank (team_state c t prov)). unfold split_state. cbv zeta.
    destruct (split_inflation (team_state c t prov) prov) as [x|] eqn:E; [|done]. symmetry.
    apply (flows_same (fun x y => x <> MTeam /\ y <> MTeam)); [by eapply split_flows; [|exact E]|by intros y []|by intros y []]. }
  rewrite <- Est, Egain in *. replace (supply (c_bank c0) - prov) with (supply (c_bank c)) in A2 by lia.
  split; [done|]. split; [exact A2|]. change (ts_accounts (t_in c0)) with (ts_accounts (c_t c)) in A3. split; [|split; [symmetry; by eapply Forall2_length|exact A4]].
  intros i a Hi. destruct (Forall2_lookup_l _ _ _ _ _ A3 Hi) as (a' & Ha' & H1 & H2). by exists a'.
Qed.
(** In whole coins: as long as no more than 10^18 base units are divided, a fair part is less than two coins away from the exact one. *)
Lemma fair_near x sum part whole : 0 <= whole -> sum <= ONE -> fair_part x sum part whole -> 2 * (whole * x) <= 2 * (sum * part) + whole /\ sum * part < whole * (x + 2).
Proof.
  intros Hw Hs (_ & H1 & H2). assert (H : whole * sum <= ONE * whole) by nia. assert (HO : 0 < ONE) by done. clear Hs.
  set (A := whole * x) in *. set (B := sum * part) in *. set (C := whole * sum) in *. assert (E : whole * (x + 1) = A + whole) by (unfold A; ring).
  assert (E2 : whole * (x + 2) = A + 2 * whole) by (unfold A; ring). rewrite E in H2. rewrite E2. clearbody A B C. split; nia.
Qed.
Lemma claim_near g ops t prov : genesis g -> cops_ok (gstart g) (ops ++ [CBegin t prov]) -> Forall small_team ops ->
  TEAM_ALLOCATION <= bal (g0_bank g) MTeam KYVE -> quiet (gstart g) (ops ++ [CBegin t prov]) -> minted_all ops + prov < two63 -> prov <= ONE ->
  let c := crun (gstart g) ops in let x := team_gain c (cstep c (CBegin t prov)) in
  2 * (supply (c_bank c) * x) <= 2 * (prov * spec_required (c_t c)) + supply (c_bank c) /\ prov * spec_required (c_t c) < supply (c_bank c) * (x + 2).
Proof.
  intros Hg Hok Hs Hb Hq Hm Hp. cbv zeta. destruct (claim_grant g ops t prov Hg Hok Hs Hb Hq Hm) as (_ & HF & _).
  apply cops_ok_app in Hok as [_ [Ho _]]. destruct Ho as (_ & _ & Hs0 & _). apply fair_near in HF; [done|lia|done].
Qed.
