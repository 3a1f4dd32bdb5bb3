(** * Team: the claims C41-C44. *)
From Verif Require Import Base BaseFacts Team TeamInv TeamRun.

(** A reachable history: genesis time, inputs the environment can produce, allocations below 2^63. *)
Definition treach (b : bank) (t : Z) (ops : list top) : Prop :=
  0 <= t < two63 /\ tops_ok (tinit b t) ops /\ Forall small_op ops.
Definition tend (b : bank) (t : Z) (ops : list top) : tstate := trun (tinit b t) ops.
Lemma treach_TI b t ops : treach b t ops -> TI (tend b t ops).
Proof. intros (H1 & H2 & H3). apply TI_run; try done. by apply TI_init. Qed.

(** ** C41 *)
Lemma curves a t1 t2 : va_ok a -> 0 <= t1 <= t2 -> sane a t2 ->
  vested a t1 <= vested a t2 /\ unlocked a t1 <= unlocked a t2 /\
  0 <= unlocked a t2 <= vested a t2 /\ vested a t2 <= vesting_max a <= va_total a /\
  (t2 < va_start a + CLIFF -> vested a t2 = 0) /\
  (t2 < Z.max (va_start a) TGE + CLIFF -> unlocked a t2 = 0).
Proof.
  intros Ha Ht Hs. split; [apply vested_mono; [done|lia]|]. split; [by apply unlocked_mono|].
  split; [split; [by apply unlocked_nonneg|by apply unlocked_le_vested]|].
  split; [split; [by apply vested_le_max|by apply max_bounds]|].
  split; [by apply vested_cliff|by apply unlocked_before].
Qed.
(** The amounts in closed form, without decimals, for accounts without a clawback. *)
Lemma curves_exact a t : va_ok a -> va_clawback a = 0 -> 0 <= t ->
  vested a t = (if t <? va_start a + CLIFF then 0
                else if t <? va_start a + VESTING then va_total a * (t - va_start a) / VESTING else va_total a).
Proof.
  intros Ha Hc Ht. rewrite vested_curve by done. unfold curve, dur. rewrite Hc. cbn [Z.ltb Z.compare andb].
  destruct Ha as (HT & Hst & _). unfold CLIFF, VESTING in *.
  repeat match goal with |- context [?x <? ?y] => destruct (x <? y) eqn:?; try lia end.
  all: try (rewrite Z.max_r by lia; done); try done.
Qed.

(** ** C42 *)
Lemma claims_unlocked b t ops i a : treach b t ops -> ts_accounts (tend b t ops) !! i = Some a ->
  0 <= va_claimed a <= unlocked a (ts_time (tend b t ops)) /\
  unlocked a (ts_time (tend b t ops)) <= vested a (ts_time (tend b t ops)) <= va_total a.
Proof.
  intros Hr Hi. destruct (treach_TI _ _ _ Hr) as [Ht HF]. rewrite Forall_lookup in HF.
  destruct (HF _ _ Hi) as (Ha & Hl & Hc).
  pose proof (unlocked_mono a (va_last a) (ts_time (tend b t ops)) Ha ltac:(lia) (sane_now a _ Ht)).
  pose proof (unlocked_le_vested a _ Ha (sane_now a _ Ht)). pose proof (vested_bounds a (ts_time (tend b t ops)) Ha). lia.
Qed.
(** A claim moves exactly the requested amount, and only if it is claimable. *)
Lemma claim_exact b t ops s i x r st' : treach b t ops -> top_ok (tend b t ops) (TClaim s i x r) ->
  let st := tend b t ops in
  msg_claim_unlocked st s i x r = Some st' ->
  exists a a', ts_accounts st !! i = Some a /\ ts_accounts st' !! i = Some a' /\
    va_claimed a' = va_claimed a + x /\ va_claimed a' <= unlocked a (ts_time st) /\
    bal (ts_bank st') MTeam KYVE = bal (ts_bank st) MTeam KYVE - x /\
    bal (ts_bank st') (User r) KYVE = bal (ts_bank st) (User r) KYVE + x /\
    (forall j, j <> i -> ts_accounts st' !! j = ts_accounts st !! j) /\ (s = FOUNDATION \/ s = BCP).
Proof.
  intros Hr Hok. cbv zeta. destruct (treach_TI _ _ _ Hr) as [Ht HF]. set (st := tend b t ops) in *.
  unfold msg_claim_unlocked. destruct (negb (is_authority s)) eqn:Es; [done|].
  destruct (ts_accounts st !! i) as [a|] eqn:Ei; [|done]. destruct (_ <? x) eqn:E1; [done|].
  destruct (transfer _ _ _ _) as [bk|] eqn:Eb; [|done]. intros H. simplify_eq. simpl in Hok.
  rewrite Forall_lookup in HF. destruct (claimable_spec a (ts_time st) x (HF _ _ Ei) Ht ltac:(lia) ltac:(lia)) as [E2 E3].
  eexists a, _. split; [done|]. simpl. rewrite list_lookup_insert by (by eapply lookup_lt_Some).
  split; [reflexivity|]. simpl. split; [done|]. split; [lia|].
  pose proof (transfer_bal _ _ _ _ _ Eb) as Hb.
  split. { rewrite Hb. rewrite decide_True by done. rewrite decide_False by done. lia. }
  split. { rewrite Hb. rewrite decide_False by done. rewrite decide_True by done. lia. }
  split. { intros j Hj. by rewrite list_lookup_insert_ne. }
  apply negb_false_iff in Es. unfold is_authority in Es. apply orb_true_iff in Es as [Es|Es]; apply N.eqb_eq in Es; auto.
Qed.
(** Nobody else changes anything. *)
Lemma only_authorities st o s :
  match o with TCreate x _ _ | TClaim x _ _ _ | TClawback x _ _ | TClaimRewards x _ _ _ | TClaimAuthority x _ _ => x = s | _ => False end ->
  s <> FOUNDATION -> s <> BCP -> tstep st o = st.
Proof.
  intros H H1 H2. apply N.eqb_neq in H1, H2.
  destruct o; subst; try done; simpl; unfold msg_create, msg_claim_unlocked, msg_clawback, msg_claim_rewards, msg_claim_authority, is_authority;
    rewrite ?H1, ?H2; done.
Qed.

(** ** C43 *)
(** Clawback dates only ever move earlier. *)
Definition earlier (st : tstate) (o : top) : Prop :=
  match o with
  | TClawback _ i c => forall a, ts_accounts st !! i = Some a -> 0 < c /\ (va_clawback a = 0 \/ c <= va_clawback a)
  | _ => True
  end.
Fixpoint all_earlier (st : tstate) (ops : list top) : Prop :=
  match ops with [] => True | o :: t => earlier st o /\ all_earlier (tstep st o) t end.

Lemma earlier_max a c : va_ok a -> va_ok (with_clawback a c) -> 0 < c -> va_clawback a = 0 \/ c <= va_clawback a ->
  vesting_max (with_clawback a c) <= vesting_max a.
Proof.
  intros Ha Ha' Hc He. unfold vesting_max. change (va_start (with_clawback a c)) with (va_start a).
  set (t := u64_add _ _). rewrite !vested_curve by done. apply curve_mono; [apply Ha|].
  destruct Ha as (_ & Hs & Hcb). unfold dur. simpl. destruct (0 <? c) eqn:E0; [|lia]. cbn [andb].
  destruct Ha' as (_ & _ & Hcb'). simpl in Hcb'.
  destruct (0 <? va_clawback a) eqn:E1; cbn [andb]; destruct (c <? t) eqn:E2; try lia.
  - destruct (va_clawback a <? t) eqn:E3; lia.
  - destruct (va_clawback a <? t) eqn:E3; lia.
Qed.
Lemma issued_gen l s : Forall va_ok l -> 0 <= s -> s + zsum vesting_max l < two64 ->
  fold_left (fun s a => u64_add s (vesting_max a)) l s = s + zsum vesting_max l.
Proof.
  intros HF. revert s. induction HF as [|a l Ha Hl IH]; intros s H0 H; simpl in *; [lia|].
  fold (zsum vesting_max l) in *. pose proof (max_bounds a Ha).
  assert (0 <= zsum vesting_max l) by (apply zsum_nonneg; eapply Forall_impl; [exact Hl|]; intros x Hx; apply max_bounds, Hx).
  unfold u64_add at 2. rewrite w64_small by lia. rewrite IH by lia. lia.
Qed.
Lemma cap_step st o : TI st -> in_cap st -> top_ok st o -> small_op o -> earlier st o -> in_cap (tstep st o).
Proof.
  intros [Ht HF] Hcap Hok Hsm He. assert (HFok : Forall va_ok (ts_accounts st)) by (eapply Forall_impl; [exact HF|]; intros a Ha; apply Ha).
  assert (Hpos : 0 <= zsum vesting_max (ts_accounts st)).
  { apply zsum_nonneg. eapply Forall_impl; [exact HFok|]. intros x Hx; apply max_bounds, Hx. }
  destruct o as [s total start|s id x r|s id c|s id x r|s x r|t p sup|b]; simpl; unfold in_cap in *.
  - unfold msg_create. destruct (negb _); [done|]. destruct (_ || _) eqn:E0; [done|]. destruct (_ <? _) eqn:E1; [done|].
    simpl. rewrite zsum_app. cbn [zsum foldr]. simpl in Hok, Hsm. apply orb_false_iff in E0 as [Ea Eb].
    assert (Hi : issued (ts_accounts st) = zsum vesting_max (ts_accounts st)).
    { unfold issued. rewrite issued_gen; [lia|done|lia|]. unfold TEAM_ALLOCATION, two64 in *. lia. }
    rewrite Hi in E1. unfold u64_add in E1. rewrite w64_small in E1 by (unfold TEAM_ALLOCATION, two63, two64 in *; lia).
    assert (Hnew : va_ok (mkVA total start 0 0 0 0 0)) by (split; [simpl; lia|]; split; [simpl; lia|by left]).
    pose proof (max_bounds _ Hnew) as Hm. simpl in Hm. lia.
  - unfold msg_claim_unlocked. destruct (negb _); [done|]. destruct (ts_accounts st !! id) as [a|] eqn:Ei; [|done].
    destruct (_ <? x); [done|]. destruct (transfer _ _ _ _); [|done]. simpl. rewrite (zsum_insert _ _ _ a) by done.
    assert (vesting_max (mkVA (va_total a) (va_start a) (va_clawback a) (u64_add (va_claimed a) x) (ts_time st) (va_rewards a) (va_rclaimed a)) = vesting_max a) as -> by done.
    lia.
  - unfold msg_clawback. destruct (negb _); [done|]. destruct (ts_accounts st !! id) as [a|] eqn:Ei; [|done].
    destruct ((0 <? c) && (c <? va_start a)) eqn:E1; [done|]. destruct ((0 <? c) && (c <? va_last a)) eqn:E2; [done|]. simpl. rewrite (zsum_insert _ _ _ a) by done.
    fold (with_clawback a c). simpl in Hok, He. destruct (He _ Ei) as [H1 H2].
    rewrite Forall_lookup in HFok. pose proof (HFok _ _ Ei) as Ha.
    assert (Ha' : va_ok (with_clawback a c)).
    { destruct Ha as (G1 & G2 & G3). split; [done|]. split; [done|]. simpl. destruct (0 <? c) eqn:E; simpl in *; lia. }
    pose proof (earlier_max a c Ha Ha' H1 H2). lia.
  - unfold msg_claim_rewards. destruct (negb _); [done|]. destruct (ts_accounts st !! id) as [a|] eqn:Ei; [|done].
    destruct (_ <? x); [done|]. destruct (transfer _ _ _ _); [|done]. simpl. rewrite (zsum_insert _ _ _ a) by done.
    assert (vesting_max (mkVA (va_total a) (va_start a) (va_clawback a) (va_claimed a) (va_last a) (va_rewards a) (u64_add (va_rclaimed a) x)) = vesting_max a) as -> by done.
    lia.
  - unfold msg_claim_authority. destruct (negb _); [done|]. destruct (_ <? x) eqn:E1; [done|].
    destruct (transfer _ _ _ _) as [b|]; done.
  - destruct (team_begin_accounts (twith_time st t) p sup) as [H1 H2]. simpl in H1.
    rewrite <- (zsum_Forall2 vesting_max (ts_accounts st)); [done|]. eapply Forall2_impl; [exact H1|]. intros a a'. apply same_max.
  - done.
Qed.
Lemma cap_run st ops : TI st -> in_cap st -> tops_ok st ops -> Forall small_op ops -> all_earlier st ops -> in_cap (trun st ops).
Proof.
  revert st. induction ops as [|o ops IH]; intros st HI Hc Hok Hs He; [done|]. simpl in *. inversion Hs; subst.
  destruct Hok, He. apply IH; try done; [by apply TI_step|by apply cap_step].
Qed.
Lemma allocation_cap b t ops : treach b t ops -> all_earlier (tinit b t) ops ->
  zsum vesting_max (ts_accounts (tend b t ops)) <= TEAM_ALLOCATION.
Proof. intros (H1 & H2 & H3) He. apply cap_run; try done. by apply TI_init. Qed.

(** ** C44 *)
(** Histories that stay within the cap, with mild inflation per block and less than 2^63 minted. *)
Definition treach44 (b : bank) (t : Z) (ops : list top) : Prop :=
  treach b t ops /\ TEAM_ALLOCATION <= bal b MTeam KYVE /\ within (tinit b t) ops /\ minted ops < two63.
Lemma treach44_TM b t ops : treach44 b t ops -> TM (minted ops) (tend b t ops).
Proof.
  intros ((H1 & H2 & H3) & Hb & Hw & Hm). rewrite <- (Z.add_0_l (minted ops)). apply TM_run; try done.
  - by apply TI_init.
  - by apply TM_init.
Qed.
Lemma within_end st ops : within st ops -> in_cap (trun st ops).
Proof. revert st. induction ops; intros st; simpl; [by intros [? _]|]. intros (_ & _ & H). by apply IHops. Qed.

Lemma rewards_backed b t ops : treach44 b t ops ->
  let st := tend b t ops in
  ts_halt st = false /\
  (forall i a, ts_accounts st !! i = Some a -> 0 <= va_rclaimed a <= va_rewards a) /\
  0 <= ts_aclaimed st <= ts_arewards st /\
  required_balance st = spec_required st /\
  spec_required st <= bal (ts_bank st) MTeam KYVE.
Proof.
  intros Hr. cbv zeta. pose proof (treach44_TM _ _ _ Hr) as HM. destruct Hr as (Hr & Hb & Hw & Hm).
  pose proof HM as [Ma Mb Mc Md Me]. split; [done|]. split; [|split; [done|split]].
  - intros i a E. rewrite Forall_lookup in Ma. by apply (Ma i a).
  - by apply (required_exact _ _ (treach_TI _ _ _ Hr) (within_end _ _ Hw) HM).
  - done.
Qed.
Lemma block_conserves b t ops t' p sup : treach44 b t ops ->
  let st := tend b t ops in
  top_ok st (TBegin t' p sup) -> mild st (TBegin t' p sup) -> minted ops + p < two63 ->
  let st' := tstep st (TBegin t' p sup) in
  ts_halt st' = false /\
  bal (ts_bank st') MTeam KYVE - bal (ts_bank st) MTeam KYVE = recorded st' - recorded st /\
  bal (ts_bank st) MFeeCollector KYVE - bal (ts_bank st') MFeeCollector KYVE = recorded st' - recorded st /\
  0 <= recorded st' - recorded st <= p.
Proof.
  intros Hr. cbv zeta. intros Hok Hmi Hmp. pose proof (treach44_TM _ _ _ Hr) as HM. destruct Hr as (Hr & Hb & Hw & Hm).
  destruct Hr as (H1 & H2 & H3) eqn:E. 
  destruct (block_ok (minted ops) (tend b t ops) t' p sup) as (G1 & G2 & G3 & G4); try done.
  - by apply treach_TI.
  - by apply within_end.
  - by eapply minted_nonneg.
  - split; [apply G1|done].
Qed.

(** Reward claims: who may make them, and their exact effect. *)
Lemma authority_claim b t ops s x r st' : treach44 b t ops -> 0 <= x ->
  let st := tend b t ops in
  msg_claim_authority st s x r = Some st' ->
  s = FOUNDATION /\ ts_aclaimed st' = ts_aclaimed st + x /\ ts_aclaimed st' <= ts_arewards st /\
  ts_arewards st' = ts_arewards st /\ ts_accounts st' = ts_accounts st /\
  bal (ts_bank st') MTeam KYVE = bal (ts_bank st) MTeam KYVE - x /\
  bal (ts_bank st') (User r) KYVE = bal (ts_bank st) (User r) KYVE + x.
Proof.
  intros Hr Hx. cbv zeta. pose proof (treach44_TM _ _ _ Hr) as HM. destruct Hr as (Hr & Hb & Hw & Hm).
  set (st := tend b t ops) in *. destruct HM as [Ma Mb Mc _ _].
  unfold msg_claim_authority. destruct (negb _) eqn:Es; [done|]. apply negb_false_iff, N.eqb_eq in Es.
  destruct (_ <? x) eqn:E1; [done|]. destruct (transfer _ _ _ _) as [bk|] eqn:Eb; [|done]. intros H. injection H as <-. simpl.
  rewrite u64_sub_le in E1 by lia.
  assert (0 <= zsum va_rewards (ts_accounts st)).
  { apply zsum_nonneg. eapply Forall_impl; [exact Ma|]. simpl. lia. }
  unfold recorded in Mc. unfold u64_add. rewrite w64_small by (unfold two63, two64 in *; lia).
  pose proof (transfer_bal _ _ _ _ _ Eb) as Hbl. split_and!; try done; try lia.
  - rewrite Hbl. rewrite decide_True by done. rewrite decide_False by done. lia.
  - rewrite Hbl. rewrite decide_False by done. rewrite decide_True by done. lia.
Qed.
Lemma account_reward_claim b t ops s i x r st' : treach44 b t ops -> 0 <= x ->
  let st := tend b t ops in
  msg_claim_rewards st s i x r = Some st' ->
  (s = FOUNDATION \/ s = BCP) /\
  exists a a', ts_accounts st !! i = Some a /\ ts_accounts st' !! i = Some a' /\
    va_rclaimed a' = va_rclaimed a + x /\ va_rclaimed a' <= va_rewards a /\ va_rewards a' = va_rewards a /\
    va_claimed a' = va_claimed a /\
    (forall j, j <> i -> ts_accounts st' !! j = ts_accounts st !! j) /\
    bal (ts_bank st') MTeam KYVE = bal (ts_bank st) MTeam KYVE - x /\
    bal (ts_bank st') (User r) KYVE = bal (ts_bank st) (User r) KYVE + x.
Proof.
  intros Hr Hx. cbv zeta. pose proof (treach44_TM _ _ _ Hr) as HM. destruct Hr as (Hr & Hb & Hw & Hm).
  set (st := tend b t ops) in *. destruct HM as [Ma Mb Mc _ _].
  unfold msg_claim_rewards. destruct (negb _) eqn:Es; [done|]. apply negb_false_iff in Es.
  destruct (ts_accounts st !! i) as [a|] eqn:Ei; [|done].
  destruct (_ <? x) eqn:E1; [done|]. destruct (transfer _ _ _ _) as [bk|] eqn:Eb; [|done]. intros H. injection H as <-.
  assert (Hall := Ma). rewrite Forall_lookup in Ma. pose proof (Ma _ _ Ei) as Hai. simpl in Hai.
  rewrite u64_sub_le in E1 by lia.
  assert (va_rewards a <= zsum va_rewards (ts_accounts st)).
  { clear -Ei Hall. revert i Ei. induction (ts_accounts st) as [|y l IH]; intros i Ei; [done|].
    inversion Hall; subst. assert (0 <= zsum va_rewards l) by (apply zsum_nonneg; eapply Forall_impl; [eassumption|simpl; lia]).
    destruct i; simpl in Ei; [injection Ei as ->; cbn [zsum foldr]; fold (zsum va_rewards l); lia|].
    cbn [zsum foldr]; fold (zsum va_rewards l). specialize (IH ltac:(done) _ Ei). lia. }
  split. { unfold is_authority in Es. apply orb_true_iff in Es as [Es|Es]; apply N.eqb_eq in Es; auto. }
  unfold recorded in Mc. eexists a, _. split; [done|]. simpl.
  rewrite list_lookup_insert by (by eapply lookup_lt_Some). split; [reflexivity|]. simpl.
  unfold u64_add. rewrite w64_small by (unfold two63, two64 in *; lia).
  pose proof (transfer_bal _ _ _ _ _ Eb) as Hbl. split_and!; try done; try lia.
  - intros j Hj. by rewrite list_lookup_insert_ne.
  - rewrite Hbl. rewrite decide_True by done. rewrite decide_False by done. lia.
  - rewrite Hbl. rewrite decide_False by done. rewrite decide_True by done. lia.
Qed.
