(** * C80: the stake behind a vote stays there until the bundle is decided, unless it is redelegated. *)
From Verif Require Import Base BaseFacts Delegation F1Spec F1Refine DelegationInv DelegationBank DelegationQueue DelegationProps DelegationRewards
  DelegationClaims DelegationClaims2 DelegationClaims3 Stakers StakersInv Funders FundersInv FundersRun Team RoundRobin Pool Bundles Chain ChainFrame ArchiveInv BankMoves ModTime PayoutClaims ChainLift Walk
  MoneyFlow IndexInv SplitClaims EffectClaims PayFlow ChainWide CoolFrame AccountSlots TallyFacts VoteClaims StepCases PointsInv TallyClaims TallyEffects TallyProps.

(** ** The statement *)
(** A stake of [b] after slashes of the fractions [frs]: at least, and at most. *)
Definition least (b : Z) (frs : list Z) : Z := fold_left (fun b fr => b * (ONE - fr) / ONE) frs b.
Definition most (b : Z) (frs : list Z) : Z := fold_left (fun b fr => (b + 1) * (ONE - fr) / ONE) frs b.
(** [d] neither adds to the stake with [s] nor redelegates it; undelegating is allowed. *)
Definition stays (d s : N) (o : cop) : Prop :=
  match o with
  | CDelegate u t _ => ~ (u = d /\ t = s)
  | CRedelegate u from to _ => ~ (u = d /\ (from = s \/ to = s))
  | CCreateStaker u _ _ => ~ (u = d /\ u = s)
  | _ => True
  end.
(** No block of [more] starts later than the waiting time after [T]. *)
Fixpoint soon (T : Z) (c : chain) (more : list cop) : Prop :=
  match more with
  | [] => True
  | o :: r => match o with CBegin t _ => let w := p_unbonding (ds_params (c_d c)) in t < T + w /\ t + w < two64 | _ => True end /\ soon T (cstep c o) r
  end.
(** Nothing of the stake of [d] with [s] is being undelegated; or only since [T]. *)
Definition asked_since (T : Z) (c : chain) (s d : N) : Prop :=
  Forall (fun e => u_staker e = s -> u_delegator e = d -> T <= u_time e) (pending (c_d c)).
Definition not_asked (c : chain) (s d : N) : Prop := Forall (fun e => ~ (u_staker e = s /\ u_delegator e = d)) (pending (c_d c)).

(** ** One staker *)
Definition W (f : f1) : Prop :=
  Forall (fun p => (fst p <= dd_latest (get_dd f))%N /\ 0 <= snd p <= ONE) (f_slashes f) /\
  forall d dl, f_delegators f !! d = Some dl -> (d_k dl <= dd_latest (get_dd f))%N /\ 0 <= d_init dl.
Lemma Rel_W f l : Rel f l -> W f.
Proof. intros H. split; [apply (r_slk _ _ H)|]. intros d dl Hd. destruct (r_ks _ _ H d dl Hd) as (?&_&?). done. Qed.
Definition fracs (f : f1) : list Z := map snd (f_slashes f).
Fixpoint shrink (b : Z) (sl : list (N * Z)) : Z := match sl with [] => b | (_, fr) :: t => shrink (b - dec_mul_trunc b fr) t end.
Lemma shrink_app b l1 l2 : shrink b (l1 ++ l2) = shrink (shrink b l1) l2.
Proof. revert b. induction l1 as [|[k fr] t IH]; intros b; simpl; [done|apply IH]. Qed.
Lemma shrink_nn b sl : 0 <= b -> Forall (fun p : N * Z => 0 <= snd p <= ONE) sl -> 0 <= shrink b sl.
Proof.
  revert b. induction sl as [|[k fr] t IH]; intros b Hb H; simpl; [done|]. inversion H as [|? ? H1 H2]; subst. cbn in H1.
  apply IH; [|done]. pose proof (slash_le b fr Hb H1). lia.
Qed.
Lemma last_shrink init prev b sl hi : last_balance init (periods prev b sl hi) = shrink b sl.
Proof. revert init prev b. induction sl as [|[k fr] t IH]; intros init prev b; simpl; [done|]. apply (IH b). Qed.
Lemma W_current f d : W f -> f1_current f d = match f_delegators f !! d with None => 0 | Some dl => trunc_int (shrink (dec_of_int (d_init dl)) (mysl f (d_k dl))) end.
Proof.
  intros [HW _]. unfold f1_current. destruct (f_delegators f !! d) as [dl|] eqn:E; [|done]. unfold f1_periods. rewrite E. cbn [default].
  rewrite slashes_between_mysl by (eapply Forall_impl; [exact HW|]; cbn; tauto). by rewrite last_shrink.
Qed.
Lemma slash_bounds r fr : 0 <= r -> 0 <= fr <= ONE ->
  trunc_int r * (ONE - fr) / ONE <= trunc_int (r - dec_mul_trunc r fr) <= (trunc_int r + 1) * (ONE - fr) / ONE.
Proof.
  intros Hr Hf. pose proof (dec_mul_trunc_spec r fr Hr ltac:(lia)) as (H1 & H2 & H3). pose proof (slash_le r fr Hr Hf) as H4.
  unfold trunc_int. assert (HO : 0 < ONE) by done. rewrite !Z.quot_div_nonneg by lia. set (m := dec_mul_trunc r fr) in *. clearbody m.
  pose proof (Z.div_mod r ONE ltac:(lia)) as Hd. pose proof (Z.mod_pos_bound r ONE HO) as Hm. set (B := r / ONE) in *. clearbody B. set (x := r mod ONE) in *. clearbody x.
  split; apply Z.div_le_mono; try lia; nia.
Qed.

Lemma least_mono a b l : Forall (fun fr => 0 <= fr <= ONE) l -> a <= b -> least a l <= least b l.
Proof.
  unfold least. revert a b. induction l as [|fr l IH]; intros a b H Hab; cbn [fold_left]; [done|]. inversion H; subst. apply IH; [done|].
  apply Z.div_le_mono; [done|]. apply Z.mul_le_mono_nonneg_r; lia.
Qed.
Lemma most_mono a b l : Forall (fun fr => 0 <= fr <= ONE) l -> a <= b -> most a l <= most b l.
Proof.
  unfold most. revert a b. induction l as [|fr l IH]; intros a b H Hab; cbn [fold_left]; [done|]. inversion H; subst. apply IH; [done|].
  apply Z.div_le_mono; [done|]. apply Z.mul_le_mono_nonneg_r; lia.
Qed.
Lemma least_app b l1 l2 : least b (l1 ++ l2) = least (least b l1) l2. Proof. apply fold_left_app. Qed.
Lemma most_app b l1 l2 : most b (l1 ++ l2) = most (most b l1) l2. Proof. apply fold_left_app. Qed.
(** What happened to the stakes with one staker: some slashes, which hit everybody. *)
Definition hit (f f' : f1) : Prop := exists frs, fracs f' = fracs f ++ frs /\ Forall (fun fr => 0 <= fr <= ONE) frs /\
  forall d, least (f1_current f d) frs <= f1_current f' d <= most (f1_current f d) frs.
Lemma hit_same f f' : f_slashes f' = f_slashes f -> (forall d, f1_current f' d = f1_current f d) -> hit f f'.
Proof. intros H1 H2. exists []. unfold fracs. rewrite H1, app_nil_r. split; [done|]. split; [constructor|]. intros d. cbn. rewrite H2. lia. Qed.
Lemma hit_trans a b c : hit a b -> hit b c -> hit a c.
Proof.
  intros (l1 & E1 & F1 & H1) (l2 & E2 & F2 & H2). exists (l1 ++ l2). rewrite E2, E1, app_assoc. split; [done|]. split; [by apply Forall_app|].
  intros d. rewrite least_app, most_app. specialize (H1 d). specialize (H2 d).
  pose proof (least_mono _ _ l2 F2 (proj1 H1)). pose proof (most_mono _ _ l2 F2 (proj2 H1)). lia.
Qed.
Lemma hit_slash f fr : W f -> 0 <= fr <= ONE -> W (fst (f1_slash f fr)) /\ hit f (fst (f1_slash f fr)).
Proof.
  intros HW Hfr. pose proof HW as [Hs Hk]. set (f' := fst (f1_slash f fr)).
  assert (Hsl : f_slashes f' = f_slashes f ++ [((dd_latest (get_dd f) + 1)%N, fr)] /\ f_delegators f' = f_delegators f /\ dd_latest (get_dd f') = (dd_latest (get_dd f) + 1)%N).
  { unfold f', f1_slash, f1_start_new_period. cbv zeta.
    assert (Ha : kv_set (dd_latest (get_dd f) + 1)%N fr (f_slashes f) = f_slashes f ++ [((dd_latest (get_dd f) + 1)%N, fr)]).
    { apply kv_set_append. eapply Forall_impl; [exact Hs|]. cbn. intros p [? _]. lia. }
    destruct (dd_undel _); [destruct (f_entries f !! _)|]; cbn [fst f_slashes f_delegators set_data set_slashes set_entries del_entry dd_latest]; (split; [exact Ha|done]). }
  destruct Hsl as (E1 & E2 & E3).
  assert (HW' : W f').
  { split.
    - rewrite E1, E3. apply Forall_app. split; [eapply Forall_impl; [exact Hs|]; cbn; intros p [? ?]; split; [lia|done]|]. constructor; [|constructor]. cbn. split; [lia|done].
    - rewrite E2, E3. intros d dl Hd. destruct (Hk d dl Hd). split; [lia|done]. }
  split; [done|]. exists [fr]. unfold fracs. rewrite E1, map_app. split; [done|]. split; [by constructor|]. intros d. cbn [least most fold_left].
  rewrite (W_current f' d HW'), (W_current f d HW), E2. destruct (f_delegators f !! d) as [dl|] eqn:Ed.
  - destruct (Hk d dl Ed) as [Hk1 Hk2].
    assert (Hm : mysl f' (d_k dl) = mysl f (d_k dl) ++ [((dd_latest (get_dd f) + 1)%N, fr)]).
    { unfold mysl. rewrite E1, List.filter_app. cbn [List.filter fst]. by replace (d_k dl <=? dd_latest (get_dd f) + 1)%N with true by lia. }
    rewrite Hm, shrink_app. cbn [shrink]. apply slash_bounds; [|done]. apply shrink_nn; [unfold dec_of_int, ONE; lia|].
    apply Forall_forall. intros p Hp. apply elem_of_list_In in Hp. unfold mysl in Hp. apply filter_In in Hp as [Hp _]. rewrite Forall_forall in Hs.
    apply elem_of_list_In in Hp. by destruct (Hs p Hp).
  - assert (0 <= (0 + 1) * (ONE - fr) / ONE) by (apply Z.div_pos; [lia|done]). change (0 * (ONE - fr)) with 0. cbn [Z.div Z.div_eucl]. lia.
Qed.

(** ** The messages of x/bundles and the end of a block *)
Definition WA (c : chain) : Prop := (forall s, W (getf (c_d c) s)) /\ dparams_valid (ds_params (c_d c)) = true.
Definition dq (c : chain) := (ds_queue (c_d c), ds_low (c_d c), ds_high (c_d c), ds_params (c_d c)).
Definition hk (c c' : chain) : Prop := WA c -> WA c' /\ dq c' = dq c /\ forall s, hit (getf (c_d c) s) (getf (c_d c') s).
Lemma hk_like c c' : ds_f1 (c_d c') = ds_f1 (c_d c) -> dq c' = dq c -> hk c c'.
Proof.
  intros E Eq [HW HP]. assert (Eg : forall s, getf (c_d c') s = getf (c_d c) s) by (intros; unfold getf; by rewrite E).
  split; [|split; [done|]].
  - split; [intros s; rewrite Eg; apply HW|]. unfold dq in Eq. injection Eq as _ _ _ Ep. by rewrite Ep.
  - intros s. apply hit_same; by rewrite Eg.
Qed.
Lemma hk_same c c' : c_d c' = c_d c -> hk c c'.
Proof. intros E. apply hk_like; unfold dq; by rewrite E. Qed.
Lemma hk_refl c : hk c c. Proof. by apply hk_same. Qed.
Lemma hk_trans a b c : hk a b -> hk b c -> hk a c.
Proof.
  intros H1 H2 HW. destruct (H1 HW) as (W1 & E1 & I1). destruct (H2 W1) as (W2 & E2 & I2). split; [done|]. split; [congruence|].
  intros s. eapply hit_trans; [apply I1|apply I2].
Qed.
Lemma hk_slash c s t : hk c (d_out c (fst (slash_delegators (d_in c) s t))).
Proof.
  intros [HW HP]. unfold slash_delegators. destruct (f_data (getf (d_in c) s)) eqn:Ed; [|exact (hk_refl c (conj HW HP))].
  cbv zeta. change (getf (remove_index (d_in c) s) s) with (getf (c_d c) s). change (ds_params (remove_index (d_in c) s)) with (ds_params (c_d c)).
  destruct (hit_slash (getf (c_d c) s) (slash_fraction (ds_params (c_d c)) t) (HW s) (valid_fraction _ t HP)) as [H1 H2].
  destruct (f1_slash (getf (c_d c) s) (slash_fraction (ds_params (c_d c)) t)) as [f sl]. cbn [fst] in *.
  assert (Hg : forall x st, getf st x = getf (setf (c_d c) s f) x -> getf st x = if decide (x = s) then f else getf (c_d c) x).
  { intros x st ->. rewrite getf_setf. repeat case_decide; congruence. }
  match goal with |- WA ?c2 /\ _ => assert (E : forall x, getf (c_d c2) x = if decide (x = s) then f else getf (c_d c) x) end.
  { intros x. apply Hg. by destruct (send _ _ _ _). }
  split; [|split].
  - split; [|by destruct (send _ _ _ _)]. intros x. rewrite E. case_decide; [done|apply HW].
  - by destruct (send _ _ _ _).
  - intros x. rewrite E. case_decide as Hx; [by rewrite Hx|by apply hit_same].
Qed.
Lemma add_W f r : W f -> W (f1_add_rewards f r) /\ hit f (f1_add_rewards f r).
Proof.
  intros HW. assert (HW' : W (f1_add_rewards f r)).
  { unfold f1_add_rewards. destruct HW as [H1 H2]. unfold W, get_dd in *. destruct (f_data f) eqn:E; rewrite ?E; exact (conj H1 H2). }
  split; [done|]. apply hit_same; [unfold f1_add_rewards; by destruct (f_data f)|]. intros d. rewrite !W_current by done. unfold f1_add_rewards. by destruct (f_data f).
Qed.
Lemma hk_payout c u r payer st : payout_rewards (d_in c) u r payer = Some st -> hk c (d_out c st).
Proof.
  unfold payout_rewards. destruct (cempty _); [intros [= <-]; by apply hk_like|]. destruct (f_data (getf (d_in c) u)) as [dd|] eqn:Ed; [|done].
  destruct (send _ _ _ _); [|done]. intros [= <-] [HW HP].
  match goal with |- WA ?c2 /\ _ => assert (E : forall x, getf (c_d c2) x = if decide (x = u) then f1_add_rewards (getf (c_d c) u) r else getf (c_d c) x) end.
  { intros x. cbn. change (getf (setf (d_in c) u (f1_add_rewards (getf (d_in c) u) r)) x = if decide (x = u) then f1_add_rewards (getf (c_d c) u) r else getf (c_d c) x).
    rewrite getf_setf. repeat case_decide; try congruence; done. }
  split; [|split; [done|]].
  - split; [|done]. intros x. rewrite E. case_decide; [apply add_W, HW|apply HW].
  - intros x. rewrite E. case_decide as Hx; [rewrite Hx; apply add_W, HW|by apply hit_same].
Qed.
Lemma hk_pay c u r : match pay_out c u r with inl c' | inr c' => hk c c' end.
Proof.
  unfold pay_out. destruct (send _ _ _ _) as [bk|]; [|apply hk_refl]. cbv zeta. destruct (increase_commission_rewards _ _ _ _) as [st|]; [|by apply hk_same].
  destruct (payout_rewards _ _ _ _) as [d|] eqn:Ep; [|by apply hk_same]. eapply hk_trans; [|exact (hk_payout _ _ _ _ _ Ep)]. by apply hk_same.
Qed.
Lemma hk_infl c p c' x : charge_inflation c p = Some (c', x) -> hk c c'.
Proof. intros H. apply hk_same. unfold charge_inflation in H. destruct (inflation_payout _ _); [|done]. destruct (_ <? 0); [done|]. by destruct (send _ _ _ _); injection H as <- _. Qed.
Lemma hk_final c p v : hk c (finalize c p v).
Proof. apply hk_same. unfold finalize. by destruct (get_pool c p). Qed.
Ltac hwalk l := apply (l hk hk_refl hk_trans hk_slash); try exact hk_pay; try exact hk_infl; try exact hk_final; intros; by apply hk_same.
Lemma hk_tally_op c o : tally_op o = true -> hk c (cstep c o).
Proof.
  intros Ho. unfold cstep. destruct (cmsg c o) as [c'|] eqn:E; [|apply hk_refl]. change (default c (Some c')) with c'.
  destruct o; cbn [cmsg tally_op] in E, Ho; try done.
  - revert E. hwalk k_submit.
  - revert E. hwalk k_skip.
  - injection E as <-. unfold end_block. set (c1 := cw_pools _ _). apply (hk_trans _ c1); [by apply hk_same|].
    apply (hk_trans _ (handle_upload_timeout c1)); [hwalk k_handle_timeout|]. apply hk_same.
    unfold burn_fees. destruct (c_height _ =? 1); [done|]. destruct (c_burn _ =? 0); [done|]. by destruct (burn _ _ _).
Qed.
Lemma G_WA g c : genesis g -> G g c -> WA c.
Proof.
  intros Hg HG. destruct (G_reached g Hg c HG) as [l Hr]. destruct (reached_good _ _ Hr) as (b & Hb & HE & _). split.
  - intros s. destruct (Hb s) as [H _]. by apply Rel_W in H.
  - by destruct HE as [_ HP].
Qed.

(** ** Every other message *)
Section E.
  Context (g : gen) (Hg : genesis g).
  Lemma G_Q c : G g c -> QRel (d_in c) (pending (d_in c)).
  Proof.
    intros HG. destruct (g_d _ _ HG) as (l & Hl & El & _). unfold d0 in Hl, El. rewrite El.
    exact (proj1 (queue_run (dinit (g0_bank g) (g0_dp g) (g0_time g)) [] l (QRel_init _ _ _) Hl)).
  Qed.
  Definition fine (T : Z) (c c' : chain) (s d : N) : Prop := del c' s d = del c s d /\ (asked_since T c s d -> asked_since T c' s d).
  Lemma step_msg ops o s d T : cops_ok (gstart g) ops -> let c := crun (gstart g) ops in cop_ok c o -> tally_op o = false ->
    (forall t pr, o <> CBegin t pr) -> stays d s o -> T <= ds_time (c_d c) -> fine T c (cstep c o) s d.
  Proof.
    intros Hok. cbv zeta. pose proof (G_run g Hg ops Hok) as HG. destruct (G_reached g Hg _ HG) as (l & Hr).
    set (c := crun (gstart g) ops) in *. clearbody c. intros Ho Htl Hnb Hst HT. pose proof (G_Q c HG) as HQ.
    assert (Hq : forall c', c_d c' = c_d c -> fine T c c' s d). { intros c' E. unfold fine, del, asked_since. by rewrite E. }
    assert (Hf : forall c' p, c_d c' = with_params (c_d c) p -> fine T c c' s d). { intros c' p E. unfold fine, del, asked_since. by rewrite E. }
    assert (Hd : forall o' c', dop_ok (d_in c) o' -> (forall x, o' <> OBeginBlock x) -> c_d c' = dstep (d_in c) o' -> delegation_of (c_d c') s d = del c s d -> fine T c c' s d).
    { intros o' c' A1 A2 A3 A4. split; [exact A4|]. unfold asked_since. rewrite A3. destruct (QRel_step _ _ o' HQ A1) as [B _].
      rewrite (pending_QRel _ _ B). change (pending (c_d c)) with (pending (d_in c)). intros HF.
      destruct o'; cbn [fifo_step]; try exact HF; [|by destruct (A2 dt)]. repeat case_match; try exact HF. cbn [fst].
      apply Forall_app. split; [exact HF|]. constructor; [|constructor]. intros _ _. exact HT. }
    unfold cstep. destruct (cmsg c o) as [c'|] eqn:E; [|by apply Hq]. change (default c (Some c')) with c'.
    destruct o; cbn [cmsg stays cop_ok tally_op] in *; try done;
      try (by apply Hq; match type of E with ?f <$> ?x = _ => destruct x; [injection E as <-|done] end).
    - destruct (msg_delegate _ _ _ _ _) as [st'|] eqn:Em; [|done]. injection E as <-.
      apply (Hd (ODelegate (staker_exists c s0) d0 s0 a)); [exact Ho|done|cbn [dstep]; by rewrite Em|].
      change (delegation_of st' s d = del c s d). rewrite (delegate_all l c _ _ _ _ _ Hr Ho Em s d), decide_False by naive_solver. lia.
    - destruct (msg_undelegate _ _ _ _) as [st'|] eqn:Em; [|done]. injection E as <-.
      apply (Hd (OUndelegate d0 s0 a)); [exact Ho|done|cbn [dstep]; by rewrite Em|].
      change (delegation_of st' s d = del c s d). unfold msg_undelegate in Em. destruct (a >? _); [done|]. by injection Em as <-.
    - destruct (msg_redelegate _ _ _ _ _ _ _) as [st'|] eqn:Em; [|done]. injection E as <-.
      apply (Hd (ORedelegate (staker_exists c to) (is_active (c_s c) to) d0 from to a)); [exact Ho|done|cbn [dstep]; by rewrite Em|].
      change (delegation_of st' s d = del c s d). rewrite (redelegate_all l c _ _ _ _ _ _ _ Hr Ho Em s d), !decide_False by naive_solver. lia.
    - destruct (msg_withdraw _ _ _) as [st'|] eqn:Em; [|done]. injection E as <-.
      apply (Hd (OWithdraw d0 s0)); [exact I|done|cbn [dstep]; by rewrite Em|].
      change (delegation_of st' s d = del c s d). exact (withdraw_all l c _ _ _ Hr Em s d).
    - unfold chain_create_staker in E. destruct (msg_delegate _ _ _ _ _) as [st'|] eqn:Em; [|done].
      destruct (msg_create_staker _ _ _ _) as [s'|]; [|done]. injection E as <-.
      apply (Hd (ODelegate true s0 s0 a)); [exact (proj2 (proj2 Ho))|done|cbn [dstep]; by rewrite Em|].
      change (delegation_of st' s d = del c s d). rewrite (delegate_all l c _ _ _ _ _ Hr (proj2 (proj2 Ho)) Em s d), decide_False by naive_solver. lia.
    - apply Hq. by apply vote_parts in E as [E _].
    - apply Hq. unfold msg_claim_role in E. repeat (destruct (negb _); [done|]). by injection E as <-.
    - apply Hq. unfold chain_create_pool in E. destruct (msg_create_pool _ _ _ _ _); [|done]. by injection E as <-.
    - apply Hq. by apply disable_parts in E as [E _].
    - destruct (_ =? _)%N; [|done]. injection E as <-. by eapply Hf.
    - apply Hq. destruct (_ =? _)%N; [|done]. by injection E as <-.
    - apply Hq. destruct (_ =? _)%N; [|done]. by injection E as <-.
    - apply Hq. destruct (_ =? _)%N; [|done]. by injection E as <-.
    - apply Hq. destruct (_ =? _)%N; [|done]. by injection E as <-.
    - apply Hq. destruct (_ =? _)%N; [|done]. by injection E as <-.
    - match goal with H : forall t pr : Z, _ |- _ => by destruct (H _ _ eq_refl) end.
    - injection E as <-. by apply Hq.
  Qed.

  (** The start of a block: requests that are not due change nothing. *)
  Lemma step_begin ops t pr s d T : cops_ok (gstart g) ops -> let c := crun (gstart g) ops in cop_ok c (CBegin t pr) ->
    let w := p_unbonding (ds_params (c_d c)) in t < T + w -> t + w < two64 -> 0 <= T -> asked_since T c s d ->
    fine T c (cstep c (CBegin t pr)) s d.
  Proof.
    intros Hok. cbv zeta. intros Ho Ht1 Ht2 HT Ha.
    destruct (w_unbonding g Hg ops t pr Hok Ho Ht2) as (done & D1 & D2 & D3).
    split; [|intros _; unfold asked_since in *; rewrite D1 in Ha; by apply Forall_app in Ha as [_ Ha]].
    pose proof (G_run g Hg ops Hok) as HG. set (c := crun (gstart g) ops) in *. clearbody c.
    change (cstep c (CBegin t pr)) with (begin_block c t pr).
    destruct Ho as (Ht & Hpr & Hs0 & Hs). unfold begin_block. cbv zeta.
    destruct (G_mint g c t (c_height c + 1) pr HG Ht Hpr Hs) as (HG0 & Hsup & Hf).
    assert (E0 : c_time (cw_time (cw_bank c (mint (c_bank c) MFeeCollector (coin KYVE pr))) t (c_height c + 1)) = t) by reflexivity.
    assert (D0 : c_d (cw_time (cw_bank c (mint (c_bank c) MFeeCollector (coin KYVE pr))) t (c_height c + 1)) = c_d c) by reflexivity.
    revert HG0 Hsup Hf E0 D0. generalize (cw_time (cw_bank c (mint (c_bank c) MFeeCollector (coin KYVE pr))) t (c_height c + 1)).
    intros c0 HG0 Hsup Hf E0 D0.
    assert (HG1 := G_team_begin g c0 t pr HG0 E0 Hpr Hf ltac:(lia)).
    assert (E1 : c_time (t_out c0 (team_begin (twith_time (t_in c0) t) pr (supply (c_bank c0)))) = t) by exact E0.
    assert (D4 : c_d (t_out c0 (team_begin (twith_time (t_in c0) t) pr (supply (c_bank c0)))) = c_d c) by exact D0.
    revert HG1 E1 D4. generalize (t_out c0 (team_begin (twith_time (t_in c0) t) pr (supply (c_bank c0)))). intros c1 HG1 E1 D4.
    destruct (split_time g c1 pr t E1 HG1) as [HG2 E2]. cbv zeta in *.
    assert (D5 : c_d (match split_inflation c1 pr with Some x => x | None => cw_halt c1 end) = c_d c).
    { destruct (split_inflation c1 pr) eqn:E; [apply d_split in E; congruence|exact D4]. }
    revert HG2 E2 D5. generalize (match split_inflation c1 pr with Some x => x | None => cw_halt c1 end). intros c2 HG2 E2 D5.
    destruct (G_reached g Hg _ HG2) as (l & Hr). pose proof (G_Q c2 HG2) as HQ. destruct (g_times _ _ HG2) as (T1 & _ & _ & T4).
    assert (Hd : dop_ok (d_in c2) (OBeginBlock (t - ds_time (c_d c2)))). { cbn. lia. }
    destruct (QRel_step _ _ _ HQ Hd) as [_ Hp]. cbn [fifo_step] in Hp. change (ds_time (d_in c2)) with (ds_time (c_d c2)) in Hp.
    replace (ds_time (c_d c2) + (t - ds_time (c_d c2))) with t in Hp by lia. change (ds_params (d_in c2)) with (ds_params (c_d c2)) in Hp.
    assert (Hn : ~ completes (d_in c2) (OBeginBlock (t - ds_time (c_d c2))) s d).
    { intros (e & He & Es & Ed). rewrite Hp in He. change (pending (d_in c2)) with (pending (c_d c2)) in He. rewrite D5 in He.
      destruct (split_due t (p_unbonding (ds_params (c_d c))) (pending (c_d c))) as [paid rest] eqn:Esd. cbn [snd] in He.
      pose proof (split_due_app _ _ _ _ _ Esd) as Happ. destruct (split_due_all _ _ _ _ _ Esd) as [Hall _].
      apply elem_of_list_In in He. rewrite Forall_forall in Hall. specialize (Hall e He). cbn beta in Hall.
      assert (Hl : e ∈ pending (c_d c)) by (rewrite Happ; apply elem_of_app; by left).
      unfold asked_since in Ha. rewrite Forall_forall in Ha. pose proof (Ha e Hl Es Ed) as Hu.
      rewrite <- D5 in Hl. apply elem_of_list_lookup in Hl as [i Hi]. pose proof (q_now _ _ HQ _ _ Hi) as Hn. change (ds_time (d_in c2)) with (ds_time (c_d c2)) in Hn.
      destruct (G_WA g c2 Hg HG2) as [_ Hv]. rewrite D5 in Hv. unfold dparams_valid in Hv.
      unfold u64_add, w64 in Hall. rewrite Z.mod_small in Hall by lia. lia. }
    pose proof (claim_isolated l (d_in c2) (OBeginBlock (t - ds_time (c_d c2))) s d Hr Hd ltac:(discriminate) Hn ltac:(discriminate) ltac:(discriminate)) as (HC & _).
    change (delegation_of (d_in c2)) with (delegation_of (c_d c2)) in HC. rewrite D5 in HC. unfold del.
    rewrite <- HC. cbn [dstep]. rewrite <- D5. change (ds_time (d_in c2)) with (ds_time (c_d c2)). rewrite D5.
    replace (ds_time (c_d c) + (t - ds_time (c_d c))) with t by lia. reflexivity.
  Qed.

  (** ** Histories *)
  Definition bounded (c c' : chain) (s d : N) : Prop := exists frs, slashes c' s = slashes c s ++ frs /\ Forall (fun fr => 0 <= fr <= ONE) frs /\
    least (del c s d) frs <= del c' s d <= most (del c s d) frs.
  Lemma bounded_trans a b c s d : bounded a b s d -> bounded b c s d -> bounded a c s d.
  Proof.
    intros (l1 & E1 & F1 & H1) (l2 & E2 & F2 & H2). exists (l1 ++ l2). rewrite E2, E1, app_assoc. split; [done|]. split; [by apply Forall_app|].
    rewrite least_app, most_app. pose proof (least_mono _ _ l2 F2 (proj1 H1)). pose proof (most_mono _ _ l2 F2 (proj2 H1)). lia.
  Qed.
  Lemma bounded_fine T a b s d : slashes b s = slashes a s -> fine T a b s d -> bounded a b s d.
  Proof. intros E [H _]. exists []. rewrite E, app_nil_r. split; [done|]. split; [constructor|]. cbn. rewrite H. lia. Qed.
  Lemma step_all ops o s d T : cops_ok (gstart g) (ops ++ [o]) -> let c := crun (gstart g) ops in stays d s o -> 0 <= T <= c_time c ->
    (forall t pr, o = CBegin t pr -> t < T + p_unbonding (ds_params (c_d c)) /\ t + p_unbonding (ds_params (c_d c)) < two64) ->
    asked_since T c s d -> bounded c (cstep c o) s d /\ asked_since T (cstep c o) s d /\ T <= c_time (cstep c o).
  Proof.
    intros Hops. pose proof Hops as Hops'. apply cops_ok_app in Hops as [Hok [Ho _]]. intros c Hst HT Hb Ha.
    pose proof (DI_reach g Hg ops Hok) as HD. fold c in HD, Ho.
    assert (Htm : c_time c <= c_time (cstep c o)).
    { pose proof (DI_reach g Hg (ops ++ [o]) Hops') as HD'. rewrite crun_app in HD'. cbn [crun] in HD'. fold c in HD'.
      destruct (keeps_times o) eqn:Ek.
      - destruct (ctimes_inv _ _ _ _ (times_frame c o Ek)) as (_ & _ & E3). rewrite E3. lia.
      - destruct o; try done.
        + unfold cstep. destruct (cmsg c _) as [c'|] eqn:E; cbn [default from_option id]; [|lia]. destruct (times_redelegate _ _ _ _ _ _ E) as (? & _ & Hc). destruct (ctimes_inv _ _ _ _ Hc) as (_ & _ & E3). rewrite E3. lia.
        + destruct (ctimes_inv _ _ _ _ (times_begin c t provision)) as (_ & _ & E3). rewrite E3. destruct Ho. lia. }
    destruct (tally_op o) eqn:Et.
    - destruct (hk_tally_op c o Et (G_WA g c Hg (G_run g Hg ops Hok))) as (_ & Hq & Hh). split_and!; [|unfold asked_since, pending in *|lia].
      + destruct (Hh s) as (frs & H1 & H2 & H3). exists frs. split; [exact H1|]. split; [exact H2|exact (H3 d)].
      + unfold dq in Hq. injection Hq as -> -> -> _. exact Ha.
    - assert (Hs : slashes (cstep c o) s = slashes c s) by (by apply claim_no_slash).
      assert (Hf : fine T c (cstep c o) s d).
      { destruct (match o with CBegin _ _ => true | _ => false end) eqn:Eb.
        - destruct o; try done. destruct (Hb _ _ eq_refl) as [B1 B2]. by apply step_begin; [..|lia|].
        - refine (step_msg ops o s d T Hok Ho Et _ Hst _); [intros t pr ->; done|]. change (T <= ds_time (c_d c)). rewrite (di_time _ HD). lia. }
      split_and!; [by eapply bounded_fine|by apply Hf|lia].
  Qed.
  Lemma trapped_from more : forall ops s d T, cops_ok (gstart g) (ops ++ more) -> let c := crun (gstart g) ops in Forall (stays d s) more -> 0 <= T <= c_time c ->
    soon T c more -> asked_since T c s d -> bounded c (crun c more) s d.
  Proof.
    induction more as [|o more IH]; intros ops s d T Hok c Hst HT Hs Ha; cbn [crun].
    { apply (bounded_fine T); [done|]. by split. }
    destruct Hs as [Hb Hs]. apply Forall_cons in Hst as [Hst1 Hst].
    assert (Hok1 : cops_ok (gstart g) (ops ++ [o])). { change (o :: more) with ([o] ++ more) in Hok. rewrite app_assoc in Hok. by apply cops_ok_app in Hok as [H _]. }
    destruct (step_all ops o s d T Hok1 Hst1 HT) as (A1 & A2 & A3); [by intros t pr ->|done|]. fold c in A1, A2, A3.
    eapply bounded_trans; [exact A1|]. assert (E : cstep c o = crun (gstart g) (ops ++ [o])) by (by rewrite crun_app).
    specialize (IH (ops ++ [o]) s d T). rewrite <- app_assoc in IH. specialize (IH Hok). cbv zeta in IH. rewrite <- E in IH. apply IH; [done|lia|done|done].
  Qed.
End E.

(** Whoever has stake with [s] and asked for nothing back keeps it there for the whole waiting time,
    whatever they do except redelegate; all slashes of [s] hit it. *)
Lemma claim_trapped g ops more s d : genesis g -> cops_ok (gstart g) (ops ++ more) -> let c := crun (gstart g) ops in let c' := crun c more in
  not_asked c s d -> Forall (stays d s) more -> soon (c_time c) c more ->
  exists frs, slashes c' s = slashes c s ++ frs /\ Forall (fun fr => 0 <= fr <= ONE) frs /\ least (del c s d) frs <= del c' s d <= most (del c s d) frs.
Proof.
  intros Hg Hok c c' Hn Hst Hs. apply (trapped_from g Hg more ops s d (c_time c)); try done.
  - pose proof Hok as Hok'. apply cops_ok_app in Hok' as [Hok' _]. pose proof (di_pos _ (DI_reach g Hg ops Hok')). fold c in H. fold c. lia.
  - unfold asked_since, not_asked in *. fold c. eapply Forall_impl; [exact Hn|]. cbn. naive_solver.
Qed.
Lemma soon_snoc T l o : (forall t pr, o <> CBegin t pr) -> forall c, soon T c l -> soon T c (l ++ [o]).
Proof.
  intros Ho. induction l as [|y l IH]; intros c Hx; cbn [app soon] in *; [|destruct Hx; split; [done|by apply IH]].
  split; [|done]. destruct o; try done. by destruct (Ho t provision).
Qed.
Lemma crun_snoc c l o : crun c (l ++ [o]) = cstep (crun c l) o. Proof. by rewrite crun_app. Qed.
(** The bundle is decided against the vote of [s] (or the upload of [s]). *)
Lemma claim_punished g ops more o p who s d c2 : genesis g -> cops_ok (gstart g) (ops ++ more ++ [o]) -> let c := crun (gstart g) ops in let c1 := crun c more in
  not_asked c s d -> Forall (stays d s) more -> soon (c_time c) c more -> tallies c1 p who o -> cmsg c1 o = Some c2 ->
  exists r, (pool_power c1 p < two63 -> verdict c1 p (Some who) r) /\
    (loses (get_prop c1 p) r s -> 0 < del c1 s d ->
     exists frs, slashes c1 s = slashes c s ++ frs /\ let all := frs ++ [penalty (ds_params (c_d c1)) (get_prop c1 p) r s] in
       slashes c2 s = slashes c s ++ all /\ least (del c s d) all <= del c2 s d <= most (del c s d) all).
Proof.
  intros Hg Hok c c1 Hn Hst Hs HT E. assert (E1 : c1 = crun (gstart g) (ops ++ more)) by (unfold c1, c; by rewrite crun_app).
  assert (Hok1 : cops_ok (gstart g) (ops ++ more)). { rewrite app_assoc in Hok. by apply cops_ok_app in Hok as [H _]. }
  destruct (claim_slashes g (ops ++ more) o p who c2 Hg Hok1) as (r & Hv & He); [by rewrite <- E1|by rewrite <- E1|]. rewrite <- E1 in Hv, He.
  exists r. split; [done|]. intros Hl Hpos. destruct (He s) as [H1 _]. destruct (H1 Hl) as [_ Hcut].
  destruct (claim_trapped g ops more s d Hg Hok1 Hn Hst Hs) as (frs & F1 & _ & _). fold c c1 in F1.
  assert (Hst2 : Forall (stays d s) (more ++ [o])). { apply Forall_app. split; [done|]. constructor; [|constructor]. by destruct HT. }
  assert (Hs2 : soon (c_time c) c (more ++ [o])).
  { apply soon_snoc; [|done]. by destruct HT. }
  destruct (claim_trapped g ops (more ++ [o]) s d Hg Hok Hn Hst2 Hs2) as (all & A1 & _ & A2). fold c in A1, A2. rewrite crun_snoc in A1, A2. fold c1 in A1, A2.
  assert (Ec : cstep c1 o = c2) by (unfold cstep; by rewrite E). rewrite Ec in A1, A2.
  unfold cut in Hcut. destruct (delegated c1 s) as [t|] eqn:Ed.
  - destruct Hcut as [_ Hcut]. exists frs. split; [done|]. rewrite Hcut, F1, <- app_assoc in A1. apply app_inv_head in A1. subst all. cbv zeta.
    rewrite Hcut, F1, <- app_assoc. done.
  - exfalso. unfold delegated in Ed. destruct (f_data (getf (c_d c1) s)) eqn:Ef; [done|].
    destruct (G_reached g Hg _ (G_run g Hg _ Hok1)) as [l Hr]. destruct (reached_good _ _ Hr) as (b & Hb & _). destruct (Hb s) as [HR _]. rewrite <- E1 in HR.
    change (getf (d_in c1) s) with (getf (c_d c1) s) in HR. destruct (r_none _ _ HR Ef) as [Hz _]. unfold del, delegation_of, f1_current in Hpos. rewrite Hz, lookup_empty in Hpos. lia.
Qed.
