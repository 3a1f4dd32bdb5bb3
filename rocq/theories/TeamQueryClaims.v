(** * The queries of x/team agree with what the messages accept (C69). *)
From Verif Require Import Base BaseFacts Team TeamInv TeamRun TeamClaims TeamQuery.

(** ** What the plan promises, without decimals and wrap-around *)
(** How long an account has vested at [q]. *)
Definition spec_dur (a : vacc) (q : Z) : Z :=
  Z.max 0 ((if va_clawback a =? 0 then q else Z.min q (va_clawback a)) - va_start a).
(** Nothing before a year, a linear share of three years, everything after three years. *)
Definition spec_vested (a : vacc) (q : Z) : Z :=
  if spec_dur a q <? CLIFF then 0 else Z.min (va_total a) (va_total a * spec_dur a q / VESTING).
(** What the account will ever vest. *)
Definition spec_max (a : vacc) : Z :=
  if va_clawback a =? 0 then va_total a else spec_vested a (va_clawback a).
(** The unlocking begins a year after the start or the launch, whichever is later, and takes two
    years. *)
Definition spec_unlock (a : vacc) : Z := Z.max (va_start a) TGE + CLIFF.
Definition spec_unlocked (a : vacc) (q : Z) : Z :=
  if q <? spec_unlock a then 0
  else if q <? spec_unlock a + UNLOCK then spec_vested a q * (q - spec_unlock a) / UNLOCK
  else spec_max a.

Lemma spec_dur_dur a q : va_ok a -> 0 <= q -> dur a q = spec_dur a q.
Proof.
  intros (_ & Hs & Hc) Hq. unfold dur, spec_dur. destruct (va_clawback a =? 0) eqn:E.
  - destruct (0 <? va_clawback a) eqn:E1; [lia|]. done.
  - destruct (0 <? va_clawback a) eqn:E1; [|lia]. cbn [andb]. destruct (va_clawback a <? q) eqn:E2; lia.
Qed.
Lemma curve_min T d : 0 <= T -> curve T d = if d <? CLIFF then 0 else Z.min T (T * d / VESTING).
Proof.
  intros HT. unfold curve. destruct (d <? CLIFF) eqn:E; [done|]. destruct (d <? VESTING) eqn:E2.
  - rewrite Z.min_r; [done|]. unfold CLIFF, VESTING in *. apply Z.div_le_upper_bound; nia.
  - rewrite Z.min_l; [done|]. unfold CLIFF, VESTING in *. apply Z.div_le_lower_bound; nia.
Qed.
Lemma vested_spec a q : va_ok a -> 0 <= q -> vested a q = spec_vested a q.
Proof.
  intros Ha Hq. rewrite vested_curve by done. rewrite curve_min by apply Ha. rewrite spec_dur_dur by done. done.
Qed.
Lemma max_spec a : va_ok a -> va_start a + VESTING < two64 -> vesting_max a = spec_max a.
Proof.
  intros Ha Hw. rewrite max_nowrap by done. pose proof Ha as (HT & Hs & Hc).
  rewrite vested_spec by (try done; unfold VESTING in *; lia). unfold spec_max.
  assert (HV : forall d, VESTING <= d -> Z.min (va_total a) (va_total a * d / VESTING) = va_total a).
  { intros d Hd. apply Z.min_l. unfold VESTING in *. apply Z.div_le_lower_bound; nia. }
  unfold spec_vested, spec_dur. destruct (va_clawback a =? 0) eqn:E.
  - destruct (_ <? CLIFF) eqn:E2; [unfold CLIFF, VESTING in *; lia|]. apply HV. lia.
  - rewrite Z.min_id. destruct (Z.le_gt_cases (va_clawback a) (va_start a + VESTING)).
    + rewrite Z.min_r by lia. done.
    + rewrite Z.min_l by lia.
      destruct (_ <? CLIFF) eqn:E2; [unfold CLIFF, VESTING in *; lia|].
      destruct (Z.max 0 (va_clawback a - va_start a) <? CLIFF) eqn:E3; [unfold CLIFF, VESTING in *; lia|].
      rewrite !HV by (unfold VESTING in *; lia). done.
Qed.
Lemma unlocked_spec a q : va_ok a -> 0 <= q -> va_start a + VESTING < two64 -> unlocked a q = spec_unlocked a q.
Proof.
  intros Ha Hq Hw. unfold unlocked, spec_unlocked, spec_unlock. pose proof Ha as (HT & Hs & Hc).
  rewrite lockup_nowrap by (try done; unfold CLIFF, VESTING in *; lia).
  destruct (_ <? _) eqn:E1; [done|]. set (u := Z.max (va_start a) TGE + CLIFF) in *.
  rewrite max_spec by done.
  destruct (q - u <? UNLOCK) eqn:E2, (q <? u + UNLOCK) eqn:E3; try lia.
  rewrite <- vested_spec by done. pose proof (vested_bounds a q Ha). apply prorate_floor; unfold UNLOCK, ONE, two63 in *; lia.
Qed.

(** The answer about an account at any time. *)
Lemma status_spec a q : va_ok a -> 0 <= q < two64 -> va_start a + VESTING < two64 ->
  let s := status_of a q in
  vs_vested s = spec_vested a q /\ vs_unlocked s = spec_unlocked a q /\
  vs_claimable s = Z.max 0 (spec_unlocked a q - va_claimed a) /\
  vs_unlocked s + vs_locked s = vs_vested s /\ vs_vested s + vs_unvested s = spec_max a /\
  0 <= vs_unlocked s /\ 0 <= vs_locked s /\ 0 <= vs_unvested s /\ vs_claimed s = va_claimed a /\
  vs_rewards s = va_rewards a /\ vs_rclaimed s = va_rclaimed a.
Proof.
  intros Ha Hq Hw. cbn [status_of vs_vested vs_unlocked vs_claimable vs_locked vs_unvested vs_claimed vs_rewards vs_rclaimed].
  assert (Hs : sane a q) by (split; [lia|by right]).
  pose proof (unlocked_le_vested a q Ha Hs). pose proof (vested_le_max a q Ha Hs). pose proof (unlocked_nonneg a q Ha Hs).
  rewrite (u64_sub_le (vested a q)) by lia. rewrite (u64_sub_le (vesting_max a)) by lia.
  rewrite <- vested_spec, <- unlocked_spec, <- max_spec by (try done; lia).
  unfold claimable. split_and!; try done; try lia.
  destruct (_ <? _) eqn:E; [rewrite u64_sub_le by lia|]; lia.
Qed.
Lemma plan_spec a : va_ok a -> va_start a + VESTING < two63 ->
  let p := plan_of a in
  vp_commencement p = va_start a /\ vp_vest_start p = va_start a + CLIFF /\ vp_vest_end p = va_start a + VESTING /\
  vp_unlock_start p = spec_unlock a /\ vp_unlock_end p = spec_unlock a + UNLOCK /\
  vp_clawback p = va_clawback a /\ vp_max p = spec_max a /\ vp_clawed p = va_total a - spec_max a.
Proof.
  intros Ha Hw. pose proof Ha as (HT & Hs & Hc). pose proof (max_bounds a Ha).
  cbn [plan_of vp_commencement vp_vest_start vp_vest_end vp_unlock_start vp_unlock_end vp_clawback vp_max vp_clawed].
  rewrite <- max_spec by (try done; unfold two63, two64 in *; lia).
  rewrite lockup_nowrap by (try done; unfold CLIFF, VESTING, two63, two64 in *; lia). fold (spec_unlock a).
  assert (0 <= spec_unlock a /\ spec_unlock a + UNLOCK < two63) by (unfold spec_unlock, CLIFF, UNLOCK, VESTING, TGE, two63 in *; lia).
  unfold u64_add. rewrite !w64_small by (unfold CLIFF, VESTING, UNLOCK, two63, two64 in *; lia).
  rewrite !i64_small by (unfold CLIFF, VESTING, UNLOCK in *; lia). rewrite u64_sub_le by lia. done.
Qed.
(** What the dates of the plan mean. *)
Lemma dates_spec a q : va_ok a -> 0 <= q < two64 -> va_start a + VESTING < two63 ->
  (q < vp_vest_start (plan_of a) -> vs_vested (status_of a q) = 0) /\
  (vp_vest_end (plan_of a) <= q -> vs_unvested (status_of a q) = 0) /\
  (q <= vp_unlock_start (plan_of a) -> vs_unlocked (status_of a q) = 0) /\
  (vp_unlock_end (plan_of a) <= q -> vs_unlocked (status_of a q) = vp_max (plan_of a)).
Proof.
  intros Ha Hq Hw. assert (Hw' : va_start a + VESTING < two64) by (unfold two63, two64 in *; lia).
  destruct (plan_spec a Ha Hw) as (_ & E1 & E2 & E3 & E4 & _ & E5 & _). cbv zeta in *.
  destruct (status_spec a q Ha Hq Hw') as (F1 & F2 & F3 & F4 & F5 & F6 & _). cbv zeta in *.
  rewrite E1, E2, E3, E4, E5. pose proof Ha as (HT & Hs & Hc).
  split; [|split; [|split]].
  - intros H. cbn. by apply vested_cliff.
  - intros H. assert (vested a q = vesting_max a) as Ev by (rewrite vested_late, max_nowrap by done; done).
    cbn. rewrite Ev. rewrite u64_sub_le by lia. lia.
  - intros H. rewrite F2. unfold spec_unlocked. destruct (q <? spec_unlock a) eqn:E; [done|]. assert (Eq : q = spec_unlock a) by lia.
    rewrite Eq. destruct (spec_unlock a <? spec_unlock a + UNLOCK) eqn:Eb; [rewrite Z.sub_diag, Z.mul_0_r; by rewrite Zdiv_0_l|unfold UNLOCK in Eb; lia].
  - intros H. rewrite F2. unfold spec_unlocked. destruct (q <? spec_unlock a) eqn:E; [unfold UNLOCK in *; lia|].
    destruct (q <? spec_unlock a + UNLOCK) eqn:Eb; [lia|done].
Qed.

(** ** Reached states *)
Lemma reach_ok b t ops i a : treach b t ops -> ts_accounts (tend b t ops) !! i = Some a ->
  va_ok a /\ 0 <= ts_time (tend b t ops) < two63 /\ 0 <= va_claimed a <= unlocked a (ts_time (tend b t ops)).
Proof.
  intros Hr Hi. pose proof (claims_unlocked _ _ _ _ _ Hr Hi). destruct (treach_TI _ _ _ Hr) as [Ht HF].
  rewrite Forall_lookup in HF. destruct (HF _ _ Hi) as (Ha & _). done || (split; [done|split; [done|lia]]).
Qed.
Lemma shown_status b t ops i q r : treach b t ops -> 0 <= q < two64 ->
  status_by_time (tend b t ops) i q = Some r ->
  exists a, ts_accounts (tend b t ops) !! i = Some a /\ an_date r = ts_time (tend b t ops) /\
    (va_start a + VESTING < two63 ->
      let p := an_plan r in let s := an_status r in
      (* the plan *)
      (vp_commencement p = va_start a /\ vp_vest_start p = va_start a + CLIFF /\ vp_vest_end p = va_start a + VESTING /\
       vp_unlock_start p = spec_unlock a /\ vp_unlock_end p = spec_unlock a + UNLOCK /\
       vp_clawback p = va_clawback a /\ vp_max p = spec_max a /\ vp_max p + vp_clawed p = va_total a) /\
      (* the status *)
      (vs_vested s = spec_vested a q /\ vs_unlocked s = spec_unlocked a q /\
       vs_claimable s = Z.max 0 (vs_unlocked s - va_claimed a) /\ vs_claimed s = va_claimed a /\
       vs_unlocked s + vs_locked s = vs_vested s /\ vs_vested s + vs_unvested s = vp_max p /\
       0 <= vs_unlocked s /\ 0 <= vs_locked s /\ 0 <= vs_unvested s) /\
      (* what the dates mean *)
      ((q < vp_vest_start p -> vs_vested s = 0) /\ (vp_vest_end p <= q -> vs_unvested s = 0) /\
       (q <= vp_unlock_start p -> vs_unlocked s = 0) /\ (vp_unlock_end p <= q -> vs_unlocked s = vp_max p))).
Proof.
  intros Hr Hq H. unfold status_by_time in H. destruct (ts_accounts _ !! i) as [a|] eqn:Ei; [|done].
  injection H as <-. exists a. split; [done|]. split; [done|]. intros Hw. cbn [an_plan an_status].
  destruct (reach_ok _ _ _ _ _ Hr Ei) as (Ha & _).
  destruct (plan_spec a Ha Hw) as (E1 & E2 & E3 & E4 & E5 & E6 & E7 & E8).
  destruct (status_spec a q Ha Hq ltac:(unfold two63, two64 in *; lia)) as (F1 & F2 & F3 & F4 & F5 & F6 & F7 & F8 & F9 & _).
  cbv zeta in *. split; [split_and!; try done; lia|]. split; [split_and!; try done; lia|]. by apply dates_spec.
Qed.
(** At the current time everything unlocked is either claimed or claimable. *)
Lemma shown_now b t ops i r : treach b t ops -> status_now (tend b t ops) i = Some r ->
  exists a, ts_accounts (tend b t ops) !! i = Some a /\
  status_by_time (tend b t ops) i (ts_time (tend b t ops)) = Some r /\
  vs_claimed (an_status r) = va_claimed a /\
  vs_claimed (an_status r) + vs_claimable (an_status r) = vs_unlocked (an_status r).
Proof.
  intros Hr H. unfold status_now, status_by_time in *. destruct (ts_accounts _ !! i) as [a|] eqn:Ei; [|done].
  injection H as <-. exists a. split; [done|]. split; [done|]. cbn. destruct (reach_ok _ _ _ _ _ Hr Ei) as (Ha & Ht & Hc).
  split; [done|]. unfold claimable. destruct (_ <? _) eqn:E; [rewrite u64_sub_le by lia|]; lia.
Qed.

(** ** Claims *)
Lemma authority_iff s : is_authority s = true <-> s = FOUNDATION \/ s = BCP.
Proof. unfold is_authority. rewrite orb_true_iff, !N.eqb_eq. done. Qed.
(** The module can pay everything it shows as claimable, all at once. *)
Lemma payable b t ops : treach44 b t ops -> let st := tend b t ops in
  zsum (fun a => claimable a (ts_time st)) (ts_accounts st)
  + zsum (fun a => u64_sub (va_rewards a) (va_rclaimed a)) (ts_accounts st)
  + u64_sub (ts_arewards st) (ts_aclaimed st) <= bal (ts_bank st) MTeam KYVE.
Proof.
  intros Hr. cbv zeta. pose proof (treach44_TM _ _ _ Hr) as HM. destruct Hr as (Hr & Hb & Hw & Hm).
  pose proof (within_end _ _ Hw) as Hcap. destruct (treach_TI _ _ _ Hr) as [Ht HF]. unfold in_cap in Hcap.
  fold (tend b t ops) in Hcap. set (st := tend b t ops) in *.
  destruct HM as [Ma Mb Mc Md _]. unfold spec_required in Md.
  rewrite (u64_sub_le (ts_arewards st)) by lia.
  assert (Hx : zsum (fun a => u64_sub (va_rewards a) (va_rclaimed a)) (ts_accounts st)
    <= zsum (fun a => va_rewards a - va_rclaimed a) (ts_accounts st)).
  { apply zsum_le. eapply Forall_impl; [exact Ma|]. intros a Ha. simpl in Ha. rewrite u64_sub_le by lia. lia. }
  assert (Hc : zsum (fun a => claimable a (ts_time st) + va_claimed a) (ts_accounts st) <= zsum vesting_max (ts_accounts st)).
  { apply zsum_le. eapply Forall_impl; [exact HF|]. intros a (Ha & Hl & Hcl).
    pose proof (sane_now a _ Ht) as Hs.
    pose proof (unlocked_mono a (va_last a) (ts_time st) Ha ltac:(lia) Hs).
    pose proof (unlocked_le_vested a _ Ha Hs). pose proof (vested_le_max a _ Ha Hs).
    unfold claimable. destruct (_ <? _) eqn:E; [rewrite u64_sub_le by lia|]; lia. }
  assert (Hadd : forall (f g : vacc -> Z) l, zsum (fun a => f a + g a) l = zsum f l + zsum g l).
  { intros f g l. induction l as [|y l IH]; [done|]. cbn [zsum foldr]. fold (zsum (fun a => f a + g a) l) (zsum f l) (zsum g l). lia. }
  rewrite Hadd in Hc. lia.
Qed.
Lemma claimable_nonneg b t ops a : treach b t ops -> a ∈ ts_accounts (tend b t ops) ->
  0 <= claimable a (ts_time (tend b t ops)) < two63.
Proof.
  intros Hr Hi. apply elem_of_list_lookup in Hi as [i Hi]. destruct (reach_ok _ _ _ _ _ Hr Hi) as (Ha & Ht & Hc).
  pose proof (unlocked_le_vested a _ Ha (sane_now a _ Ht)). pose proof (vested_bounds a (ts_time (tend b t ops)) Ha).
  destruct Ha as (HT & _). unfold claimable. destruct (_ <? _) eqn:E; [rewrite u64_sub_le by lia|unfold two63 in *]; lia.
Qed.

(** A claim is accepted exactly up to the shown amount. *)
Lemma claim_shown b t ops i r s x who : treach44 b t ops -> 0 <= x < two64 ->
  status_now (tend b t ops) i = Some r ->
  (exists st', msg_claim_unlocked (tend b t ops) s i x who = Some st') <->
  (s = FOUNDATION \/ s = BCP) /\ x <= vs_claimable (an_status r).
Proof.
  intros Hr Hx H. pose proof (payable _ _ _ Hr) as Hp. cbv zeta in Hp.
  pose proof (treach44_TM _ _ _ Hr) as [Ma Mb _ _ _]. pose proof (proj1 Hr) as Hr0.
  unfold status_now, status_by_time in H. destruct (ts_accounts _ !! i) as [a|] eqn:Ei; [|done]. injection H as <-.
  cbn [an_status status_of vs_claimable]. rewrite <- authority_iff. unfold msg_claim_unlocked. rewrite Ei.
  destruct (is_authority s); cbn [negb]; [|split; [by intros [? ?]|by intros [? _]]].
  destruct (claimable a _ <? x) eqn:E1; [split; [by intros [? ?]|intros [_ ?]; lia]|].
  split; [intros _; split; [done|lia]|]. intros _.
  pose proof (claimable_nonneg b t ops a Hr0 ltac:(by eapply elem_of_list_lookup_2)) as Hc.
  destruct (transfer_ok (ts_bank (tend b t ops)) MTeam (User who) x) as [b' ->]; [lia| |by eauto].
  assert (HF : Forall (fun a => 0 <= claimable a (ts_time (tend b t ops))) (ts_accounts (tend b t ops))).
  { apply Forall_forall. intros y Hy. apply (claimable_nonneg b t ops y Hr0 Hy). }
  pose proof (zsum_elem _ _ _ _ HF Ei) as He. cbn beta in He.
  assert (0 <= zsum (fun a => u64_sub (va_rewards a) (va_rclaimed a)) (ts_accounts (tend b t ops))).
  { apply zsum_nonneg. eapply Forall_impl; [exact Ma|]. intros y Hy. simpl in Hy. rewrite u64_sub_le by lia. lia. }
  rewrite (u64_sub_le (ts_arewards _)) in Hp by lia. lia.
Qed.
Lemma reward_claim_shown b t ops i r s x who : treach44 b t ops -> 0 <= x < two64 ->
  status_now (tend b t ops) i = Some r ->
  vs_rclaimed (an_status r) + vs_ravail (an_status r) = vs_rewards (an_status r) /\
  ((exists st', msg_claim_rewards (tend b t ops) s i x who = Some st') <->
   (s = FOUNDATION \/ s = BCP) /\ x <= vs_ravail (an_status r)).
Proof.
  intros Hr Hx H. pose proof (payable _ _ _ Hr) as Hp. cbv zeta in Hp.
  pose proof (treach44_TM _ _ _ Hr) as [Ma Mb Mc _ _]. pose proof (proj1 Hr) as Hr0.
  assert (Hm : minted ops < two63) by apply Hr.
  unfold status_now, status_by_time in H. destruct (ts_accounts _ !! i) as [a|] eqn:Ei; [|done]. injection H as <-.
  cbn [an_status status_of vs_ravail vs_rclaimed vs_rewards]. rewrite <- authority_iff.
  assert (Hai : 0 <= va_rclaimed a <= va_rewards a) by (rewrite Forall_lookup in Ma; by apply (Ma i)).
  split; [rewrite u64_sub_le by lia; lia|]. unfold msg_claim_rewards. rewrite Ei.
  destruct (is_authority s); cbn [negb]; [|split; [by intros [? ?]|by intros [? _]]].
  destruct (u64_sub _ _ <? x) eqn:E1; [split; [by intros [? ?]|intros [_ ?]; lia]|].
  split; [intros _; split; [done|lia]|]. intros _. rewrite u64_sub_le in E1 by lia.
  assert (Hrw : Forall (fun a => 0 <= va_rewards a) (ts_accounts (tend b t ops))) by (eapply Forall_impl; [exact Ma|]; simpl; lia).
  pose proof (zsum_elem _ _ _ _ Hrw Ei) as Hrl. cbn beta in Hrl. unfold recorded in Mc.
  destruct (transfer_ok (ts_bank (tend b t ops)) MTeam (User who) x) as [b' ->]; [lia| |by eauto].
  assert (HF : Forall (fun a => 0 <= claimable a (ts_time (tend b t ops))) (ts_accounts (tend b t ops))).
  { apply Forall_forall. intros y Hy. apply (claimable_nonneg b t ops y Hr0 Hy). }
  pose proof (zsum_nonneg _ _ HF).
  assert (HG : Forall (fun a => 0 <= u64_sub (va_rewards a) (va_rclaimed a)) (ts_accounts (tend b t ops))).
  { eapply Forall_impl; [exact Ma|]. intros y Hy. simpl in Hy. rewrite u64_sub_le by lia. lia. }
  pose proof (zsum_elem _ _ _ _ HG Ei) as He. cbn beta in He. rewrite (u64_sub_le (va_rewards a)) in He by lia.
  rewrite (u64_sub_le (ts_arewards _)) in Hp by lia. lia.
Qed.

(** ** The forecast *)
(** Messages that change the vesting of account [i]. *)
Definition leaves (i : nat) (o : top) : Prop :=
  match o with TClaim _ j _ _ | TClawback _ j _ => j <> i | _ => True end.
Definition same_vest (a a' : vacc) : Prop :=
  va_total a = va_total a' /\ va_start a = va_start a' /\ va_clawback a = va_clawback a' /\ va_claimed a = va_claimed a'.
Lemma same_vest_vested a a' t : same_vest a a' -> vested a t = vested a' t.
Proof. intros (E1 & E2 & E3 & _). unfold vested. by rewrite E1, E2, E3. Qed.
Lemma same_vest_max a a' : same_vest a a' -> vesting_max a = vesting_max a'.
Proof. intros H. unfold vesting_max. pose proof H as (_ & -> & _). by apply same_vest_vested. Qed.
Lemma same_vest_unlocked a a' t : same_vest a a' -> unlocked a t = unlocked a' t.
Proof.
  intros H. unfold unlocked, lockup_date. rewrite (same_vest_max a a'), (same_vest_vested a a') by done.
  pose proof H as (_ & -> & _). done.
Qed.
Lemma leaves_step st o i a : leaves i o -> ts_accounts st !! i = Some a ->
  exists a', ts_accounts (tstep st o) !! i = Some a' /\ same_vest a a'.
Proof.
  intros Hl Hi. assert (Hr : same_vest a a) by done.
  destruct o as [s total start|s j x r|s j c|s j x r|s x r|t p sup|b]; simpl.
  - unfold msg_create. destruct (negb _); [by eauto|]. destruct (_ || _); [by eauto|]. destruct (_ <? _); [by eauto|].
    simpl. exists a. split; [|done]. by apply lookup_app_l_Some.
  - unfold msg_claim_unlocked. destruct (negb _); [by eauto|]. destruct (ts_accounts st !! j) as [y|]; [|by eauto].
    destruct (_ <? x); [by eauto|]. destruct (transfer _ _ _ _); [|by eauto]. simpl. simpl in Hl.
    rewrite list_lookup_insert_ne by done. eauto.
  - unfold msg_clawback. destruct (negb _); [by eauto|]. destruct (ts_accounts st !! j) as [y|]; [|by eauto].
    destruct (_ && _); [by eauto|]. destruct (_ && _); [by eauto|]. simpl. simpl in Hl.
    rewrite list_lookup_insert_ne by done. eauto.
  - unfold msg_claim_rewards. destruct (negb _); [by eauto|]. destruct (ts_accounts st !! j) as [y|] eqn:Ej; [|by eauto].
    destruct (_ <? x); [by eauto|]. destruct (transfer _ _ _ _); [|by eauto]. simpl.
    destruct (decide (j = i)) as [->|]; [|rewrite list_lookup_insert_ne by done; by eauto].
    rewrite list_lookup_insert by (by eapply lookup_lt_Some). rewrite Hi in Ej. injection Ej as ->. eexists. split; [done|]. done.
  - unfold msg_claim_authority. destruct (negb _); [by eauto|]. destruct (_ <? x); [by eauto|].
    destruct (transfer _ _ _ _); by eauto.
  - destruct (team_begin_accounts (twith_time st t) p sup) as [H1 _]. simpl in H1.
    destruct (Forall2_lookup_l _ _ _ _ _ H1 Hi) as (a' & E & H). exists a'. split; [done|].
    destruct H as (E1 & E2 & E3 & E4 & _). done.
  - eauto.
Qed.
Lemma leaves_run st ops i a : Forall (leaves i) ops -> ts_accounts st !! i = Some a ->
  exists a', ts_accounts (trun st ops) !! i = Some a' /\ same_vest a a'.
Proof.
  intros H. revert st a. induction H as [|o ops Ho _ IH]; intros st a Hi; [by exists a|].
  destruct (leaves_step st o i a Ho Hi) as (a1 & E1 & (S1 & S2 & S3 & S4)). destruct (IH _ _ E1) as (a' & E & (T1 & T2 & T3 & T4)).
  exists a'. split; [done|]. split_and!; congruence.
Qed.
Lemma forecast st ops i r : Forall (leaves i) ops ->
  let st' := trun st ops in
  status_by_time st i (ts_time st') = Some r ->
  exists r', status_now st' i = Some r' /\ an_plan r' = an_plan r /\
    vs_vested (an_status r') = vs_vested (an_status r) /\ vs_unlocked (an_status r') = vs_unlocked (an_status r) /\
    vs_claimable (an_status r') = vs_claimable (an_status r) /\ vs_locked (an_status r') = vs_locked (an_status r) /\
    vs_unvested (an_status r') = vs_unvested (an_status r) /\ vs_claimed (an_status r') = vs_claimed (an_status r).
Proof.
  intros Hl. cbv zeta. unfold status_now, status_by_time. destruct (ts_accounts st !! i) as [a|] eqn:Ei; [|done].
  intros H. injection H as <-. destruct (leaves_run st ops i a Hl Ei) as (a' & -> & Hs).
  eexists. split; [done|]. cbn. unfold plan_of, lockup_date, claimable.
  rewrite (same_vest_max a a'), !(same_vest_vested a a'), !(same_vest_unlocked a a') by done.
  destruct Hs as (-> & -> & -> & ->). done.
Qed.

(** ** Team info *)
Lemma fold_zsum (f : vacc -> Z) l s : Forall (fun a => 0 <= f a) l -> 0 <= s -> s + zsum f l < two64 ->
  fold_left (fun s a => u64_add s (f a)) l s = s + zsum f l.
Proof.
  intros HF. revert s. induction HF as [|a l Ha Hl IH]; intros s H0 H; simpl in *; [lia|]. fold (zsum f l) in *.
  pose proof (zsum_nonneg f l Hl). unfold u64_add at 2. rewrite w64_small by lia. rewrite IH by lia. lia.
Qed.
Lemma info_spec b t ops r : treach44 b t ops -> let st := tend b t ops in team_info st = Some r ->
  ti_foundation r = FOUNDATION /\ ti_bcp r = BCP /\ ti_total r = TEAM_ALLOCATION /\
  ti_issued r = zsum vesting_max (ts_accounts st) /\ ti_issued r + ti_available r = ti_total r /\ 0 <= ti_available r /\
  ti_arewards r = ts_arewards st /\ ti_aclaimed r = ts_aclaimed st /\ ti_aclaimed r + ti_aavail r = ti_arewards r /\ 0 <= ti_aavail r /\
  ti_rewards r = zsum va_rewards (ts_accounts st) /\ ti_rclaimed r = zsum va_rclaimed (ts_accounts st) /\
  ti_rclaimed r + ti_ravail r = ti_rewards r /\
  ti_required r = TEAM_ALLOCATION - zsum va_claimed (ts_accounts st) + ti_ravail r + ti_aavail r /\
  ti_balance r = bal (ts_bank st) MTeam KYVE /\ ti_required r <= ti_balance r.
Proof.
  intros Hr. cbv zeta. pose proof (rewards_backed _ _ _ Hr) as (_ & _ & _ & Hreq & Hbal).
  pose proof (treach44_TM _ _ _ Hr) as [Ma Mb Mc _ _]. destruct Hr as (Hr & Hb & Hw & Hm).
  pose proof (within_end _ _ Hw) as Hcap. destruct (treach_TI _ _ _ Hr) as [Ht HF]. unfold in_cap in Hcap.
  fold (tend b t ops) in Hcap. set (st := tend b t ops) in *. unfold team_info. destruct (two63 <=? _) eqn:E; [done|].
  intros H. injection H as <-.
  cbn [ti_foundation ti_bcp ti_total ti_issued ti_available ti_arewards ti_aclaimed ti_aavail ti_rewards ti_rclaimed ti_ravail ti_required ti_balance].
  assert (HFok : Forall va_ok (ts_accounts st)) by (eapply Forall_impl; [exact HF|]; intros a Ha; apply Ha).
  assert (Hi : issued (ts_accounts st) = zsum vesting_max (ts_accounts st)).
  { unfold issued. rewrite issued_gen; [lia|done|lia|]. unfold TEAM_ALLOCATION, two64 in *. lia. }
  rewrite Hi. rewrite (u64_sub_le TEAM_ALLOCATION) by lia. rewrite (u64_sub_le (ts_arewards st)) by lia.
  unfold recorded in Mc. unfold two63, two64 in *.
  assert (HR : Forall (fun a => 0 <= va_rewards a) (ts_accounts st)) by (eapply Forall_impl; [exact Ma|]; simpl; lia).
  assert (HC : Forall (fun a => 0 <= va_rclaimed a) (ts_accounts st)) by (eapply Forall_impl; [exact Ma|]; simpl; lia).
  assert (HA : Forall (fun a => 0 <= u64_sub (va_rewards a) (va_rclaimed a)) (ts_accounts st)).
  { eapply Forall_impl; [exact Ma|]. intros y Hy. simpl in Hy. rewrite u64_sub_le by lia. lia. }
  assert (HCR : zsum va_rclaimed (ts_accounts st) <= zsum va_rewards (ts_accounts st)).
  { apply zsum_le. eapply Forall_impl; [exact Ma|]. simpl. lia. }
  assert (Heq : zsum (fun a => u64_sub (va_rewards a) (va_rclaimed a)) (ts_accounts st)
    = zsum va_rewards (ts_accounts st) - zsum va_rclaimed (ts_accounts st) /\
    zsum (fun a => va_rewards a - va_rclaimed a) (ts_accounts st) = zsum va_rewards (ts_accounts st) - zsum va_rclaimed (ts_accounts st)).
  { clear -Ma. induction Ma as [|y l Hy _ IH]; [done|]. cbn [zsum foldr].
    fold (zsum (fun a => u64_sub (va_rewards a) (va_rclaimed a)) l) (zsum va_rewards l) (zsum va_rclaimed l) (zsum (fun a => va_rewards a - va_rclaimed a) l).
    rewrite u64_sub_le by lia. lia. }
  pose proof (zsum_nonneg _ _ HC) as HC0.
  rewrite (fold_zsum va_rewards) by (try done; unfold two64; lia). rewrite (fold_zsum va_rclaimed) by (try done; unfold two64; lia).
  rewrite (fold_zsum (fun a => u64_sub (va_rewards a) (va_rclaimed a))) by (try done; unfold two64; lia).
  rewrite Hreq. unfold spec_required in *. split_and!; try done; lia.
Qed.
(** A new account is accepted exactly up to the shown amount. *)
Lemma create_shown b t ops r s total start : treach44 b t ops -> team_info (tend b t ops) = Some r ->
  0 <= total < two63 -> 0 <= start < two64 ->
  (exists st', msg_create (tend b t ops) s total start = Some st') <->
  (s = ti_foundation r \/ s = ti_bcp r) /\ 0 < total /\ 0 < start /\ total <= ti_available r.
Proof.
  intros Hr Hi Ht Hs. destruct (info_spec _ _ _ _ Hr Hi) as (E1 & E2 & E3 & E4 & E5 & E6 & _).
  assert (Hf : issued (ts_accounts (tend b t ops)) = ti_issued r).
  { unfold team_info in Hi. destruct (two63 <=? _); [done|]. by injection Hi as <-. }
  assert (0 <= ti_issued r).
  { rewrite E4. apply zsum_nonneg. destruct (treach_TI _ _ _ (proj1 Hr)) as [_ HF]. eapply Forall_impl; [exact HF|].
    intros a Ha. apply max_bounds, Ha. }
  rewrite E1, E2, <- authority_iff. unfold msg_create. rewrite Hf.
  destruct (is_authority s); cbn [negb]; [|split; [by intros [? ?]|by intros [? _]]].
  destruct (_ || _) eqn:E0; [apply orb_true_iff in E0; split; [by intros [? ?]|lia]|]. apply orb_false_iff in E0.
  unfold u64_add. rewrite w64_small by (unfold TEAM_ALLOCATION, two63, two64 in *; lia).
  destruct (_ <? _) eqn:Eb; [split; [by intros [? ?]|lia]|]. split; [intros _; split; [done|lia]|by eauto].
Qed.
Lemma authority_claim_shown b t ops r s x who : treach44 b t ops -> team_info (tend b t ops) = Some r -> 0 <= x < two64 ->
  (exists st', msg_claim_authority (tend b t ops) s x who = Some st') <->
  s = ti_foundation r /\ x <= ti_aavail r.
Proof.
  intros Hr Hi Hx. pose proof (payable _ _ _ Hr) as Hp. cbv zeta in Hp.
  pose proof (treach44_TM _ _ _ Hr) as [Ma Mb Mc _ _]. pose proof (proj1 Hr) as Hr0.
  assert (Hm : minted ops < two63) by apply Hr.
  unfold team_info in Hi. destruct (two63 <=? _); [done|]. injection Hi as <-. cbn [ti_foundation ti_aavail].
  unfold msg_claim_authority. destruct (s =? FOUNDATION)%N eqn:Es; cbn [negb].
  2:{ apply N.eqb_neq in Es. split; [by intros [? ?]|by intros [? _]]. }
  apply N.eqb_eq in Es. destruct (u64_sub _ _ <? x) eqn:E1; [split; [by intros [? ?]|intros [_ ?]; lia]|].
  split; [intros _; split; [done|lia]|]. intros _. rewrite u64_sub_le in E1 by lia.
  assert (Hrw : Forall (fun a => 0 <= va_rewards a) (ts_accounts (tend b t ops))) by (eapply Forall_impl; [exact Ma|]; simpl; lia).
  pose proof (zsum_nonneg _ _ Hrw) as Hrl. unfold recorded in Mc.
  destruct (transfer_ok (ts_bank (tend b t ops)) MTeam (User who) x) as [b' ->]; [lia| |by eauto].
  assert (HF : Forall (fun a => 0 <= claimable a (ts_time (tend b t ops))) (ts_accounts (tend b t ops))).
  { apply Forall_forall. intros y Hy. apply (claimable_nonneg b t ops y Hr0 Hy). }
  pose proof (zsum_nonneg _ _ HF).
  assert (HG : Forall (fun a => 0 <= u64_sub (va_rewards a) (va_rclaimed a)) (ts_accounts (tend b t ops))).
  { eapply Forall_impl; [exact Ma|]. intros y Hy. simpl in Hy. rewrite u64_sub_le by lia. lia. }
  pose proof (zsum_nonneg _ _ HG).
  rewrite (u64_sub_le (ts_arewards _)) in Hp by lia. lia.
Qed.
(** The list of accounts has every account once, under its id. *)
Lemma list_complete st i a : (i, a) ∈ list_accounts st <-> show_account st i = Some a.
Proof. unfold list_accounts, show_account. rewrite elem_of_lookup_imap. split; [intros (j & y & H & E); by simplify_eq|by eauto]. Qed.
Lemma list_ids st : (list_accounts st).*1 = seq 0 (length (ts_accounts st)).
Proof.
  unfold list_accounts. apply list_eq. intros i. rewrite list_lookup_fmap, list_lookup_imap.
  destruct (ts_accounts st !! i) as [a|] eqn:E; simpl.
  - symmetry. apply lookup_seq. split; [lia|]. by eapply lookup_lt_Some.
  - symmetry. apply lookup_seq_ge. by apply lookup_ge_None.
Qed.
