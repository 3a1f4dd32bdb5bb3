(** * Delegation: claims about whole histories from an empty module. *)
From Verif Require Import Base BaseFacts Delegation F1Spec F1Refine F1Acct
  DelegationInv DelegationBank DelegationQueue DelegationProps DelegationRewards.

Ltac Zify.zify_post_hook ::= Z.div_mod_to_equations.

(** Slack from slashing: one 10^-18 token per slash and delegator. *)
Definition slack (ops : list dop) (s : N) : Z := slashes ops s * Z.of_nat (size (joined ops s)).

(** Accumulated rounding, in half units of 10^-18 base units. *)
Definition drift (st : dstate) (ops : list dop) (s x : N) : Z :=
  payouts ops s * (max_total st ops s + 2 * slack ops s * (received_total st ops s x + 1))
  + 2 * Z.of_nat (length ops) + slack ops s.

Lemma ddom_empty s : ddom ∅ s = ∅.
Proof. unfold ddom, gl, page. rewrite lookup_empty. simpl. set_solver. Qed.
Lemma ga_empty s : ga ∅ s = a_zero.
Proof. unfold ga, page. by rewrite lookup_empty. Qed.
Lemma gl_empty s : gl ∅ s = lg_empty.
Proof. unfold gl, page. by rewrite lookup_empty. Qed.

Lemma Env_init bk p t : dparams_valid p = true -> Env (dinit bk p t).
Proof. intros Hp. split; [|done]. intros k e. simpl. by rewrite lookup_empty. Qed.

Section History.
Context (bk : bank) (p : dparams) (t : Z) (ops : list dop).
Context (Hp : dparams_valid p = true) (Hok : ops_ok (dinit bk p t) ops).
Let st0 := dinit bk p t.
Let st := drun st0 ops.
Let b := brun st0 ∅ ops.

Lemma run_good : Good st b /\ Env st.
Proof. apply Good_run; [apply Good_init|by apply Env_init|done]. Qed.

Lemma run_slack s : a_E (ga b s) <= slack ops s.
Proof.
  pose proof (slack_bound st0 ∅ ops s (Good_init bk p t) (Env_init _ _ _ Hp) Hok) as HB.
  rewrite ddom_empty, ga_empty in HB. simpl in HB. unfold slack.
  replace (∅ ∪ joined ops s) with (joined ops s) in HB by set_solver. etransitivity; [exact HB|lia].
Qed.

Lemma run_Phi s x : Phi b s x <= ONE * drift st0 ops s x.
Proof.
  pose proof (allowance_run st0 ∅ [] ops s x (max_total st0 ops s) (received_total st0 ops s x) (slack ops s)
    (Good_init bk p t) (Env_init _ _ _ Hp)) as HA.
  assert (HE : Enn ∅) by (intros s'; by rewrite ga_empty).
  specialize (HA HE (QRel_init bk p t) Hok ltac:(lia)).
  rewrite ddom_empty, ga_empty, gl_empty in HA. simpl a_E in HA.
  replace (∅ ∪ joined ops s) with (joined ops s) in HA by set_solver.
  fold (slack ops s) in HA. rewrite amt_empty in HA.
  specialize (HA ltac:(lia) ltac:(lia)).
  unfold Phi at 2 in HA. unfold dc, pending_count in HA. rewrite gl_empty, ga_empty in HA.
  rewrite dist_cost_empty in HA by reflexivity. simpl length in HA. simpl a_S in HA.
  etransitivity; [exact HA|]. unfold drift. lia.
Qed.

Lemma run_Enn : Enn b.
Proof.
  assert (H : forall l st' b', Enn b' -> Enn (brun st' b' l)).
  { induction l as [|o l IH]; intros st' b' HE; simpl; [done|]. by apply IH, Enn_step. }
  apply H. intros s. by rewrite ga_empty.
Qed.

Lemma run_allowance s x : a_S (ga b s) x <= ONE * drift st0 ops s x.
Proof.
  etransitivity; [|apply run_Phi]. unfold Phi, dc.
  pose proof (dist_cost_nonneg' (gl b s) (a_E (ga b s)) x (proj1 (proj2 (proj1 run_good s))) (run_Enn s)). lia.
Qed.

Lemma run_safe :
  (forall s, slack ops s < ONE) -> (forall s x, drift st0 ops s x < 2 * ONE) -> safe b.
Proof.
  intros H1 H2. split.
  - intros s. pose proof (run_slack s). specialize (H1 s). lia.
  - intros s x. pose proof (run_allowance s x). specialize (H2 s x). unfold ONE in *. lia.
Qed.

(** C01 *)
Lemma claim_principal s :
  slack ops s < ONE ->
  reported_sum st s <= delegation_amount st s /\
  forall d, 0 <= delegation_of st s d <= delegation_amount st s.
Proof.
  intros HE. destruct run_good as [HG _]. apply (principal_le_total st b); [done|].
  pose proof (run_slack s). lia.
Qed.

(** C03 *)
Lemma claim_no_halt s :
  f_halt (getf st s) = false /\
  forall d, snd (f1_outstanding (getf st s) d) = false /\
            (forall x, 0 <= amt (fst (f1_outstanding (getf st s) d)) x) /\
            f_halt (fst (f1_withdraw (getf st s) d)) = false /\
            (forall x, 0 <= amt (snd (f1_withdraw (getf st s) d)) x) /\
            f_halt (fst (f1_remove (getf st s) d)) = false.
Proof.
  destruct run_good as [HG _]. destruct (HG s) as [HR [HW _]]. split; [apply (r_halt _ _ HR)|].
  intros d. rewrite (read_outstanding st b s d HG). cbn [fst snd]. split; [done|].
  assert (HP : forall c bal, cpos c -> 0 <= bal -> forall x, 0 <= amt (times c bal) x).
  { intros c bal0 Hc Hb x. rewrite amt_times. pose proof (cpos_amt _ x Hc).
    by destruct (dec_mul_spec (amt c x) bal0) as [? _]. }
  pose proof (per_token_pos (gl b s) (lw_tot _ HW) (lw_rew _ HW)) as HPT.
  split.
  { intros x. unfold lg_reported. destruct (lg_dels (gl b s) !! d) as [y|] eqn:E; [|by rewrite amt_empty].
    destruct (lw_dels _ HW d y E) as (Hb & Hpd & Ha).
    rewrite amt_cmap by done. rewrite !amt_cadd. apply trunc_int_spec.
    pose proof (cpos_amt _ x Ha). pose proof (HP _ _ Hpd Hb x). pose proof (HP _ _ HPT Hb x). lia. }
  destruct (Rel_withdraw _ _ d HR) as [HR1 _]. split; [apply (r_halt _ _ HR1)|]. split.
  { intros x. pose proof (wd_le st b s d x HG). rewrite (read_payable st b s d HG). lia. }
  destruct (Rel_remove _ _ d HR) as [HR2 _]. apply (r_halt _ _ HR2).
Qed.

(** C05: the bound, and the exact statement while the rounding is below one unit. *)
Lemma claim_rewards s x :
  slack ops s < ONE ->
  2 * ONE * withdrawn_total st0 ops s x
  <= 2 * ONE * received_total st0 ops s x + drift st0 ops s x.
Proof.
  intros HE. destruct run_good as [HG _]. destruct (HG s) as [_ [_ HL]].
  assert (HI : LInv (gl b s) (ga b s)) by (apply HL; pose proof (run_slack s); lia).
  pose proof (liab_nonneg _ _ x HI). pose proof (li_liab _ _ HI x).
  pose proof (cpos_amt _ x (li_rew _ _ HI)). pose proof (run_allowance s x).
  pose proof (P_run st0 ∅ ops s x (Good_init bk p t) (Env_init _ _ _ Hp) Hok) as HP.
  rewrite ga_empty in HP. simpl a_P in HP. fold b in HP. unfold ONE in *. nia.
Qed.

Lemma claim_rewards_exact s x :
  slack ops s < ONE -> drift st0 ops s x < 2 * ONE ->
  withdrawn_total st0 ops s x <= received_total st0 ops s x.
Proof. intros HE HD. pose proof (claim_rewards s x HE). unfold ONE in *. lia. Qed.

End History.

(** ** Exact pots under [safe] *)
Lemma wd_eq st b s d c : Good st b -> safe (b_withdraw b s d) -> Fin st b c -> cnonneg c ->
  wd st s d = lg_owed (gl b s) d.
Proof. intros. unfold wd. by rewrite (proj1 (Fin_withdrawal st b s d c H H0 H1 H2)). Qed.

Lemma P_withdraw_eq b s d s' x :
  a_P (ga (b_withdraw b s d) s') x = a_P (ga b s') x - at_staker s s' (amt (lg_owed (gl b s) d) x).
Proof.
  unfold b_withdraw, at_staker. rewrite ga_insert. destruct (decide (s = s')) as [<-|]; [|lia].
  unfold a_withdraw, lg_owed. destruct (lg_dels (gl b s) !! d); simpl; [lia|]. rewrite amt_empty. lia.
Qed.
Lemma P_delegate_eq b s d a s' x :
  a_P (ga (b_delegate b s d a) s') x = a_P (ga b s') x - at_staker s s' (amt (lg_owed (gl b s) d) x).
Proof.
  unfold b_delegate. destruct (lg_dels (gl b s) !! d) eqn:E.
  - rewrite P_join, P_leave. apply P_withdraw_eq.
  - rewrite P_join. unfold lg_owed. rewrite E, amt_empty. unfold at_staker. destruct (decide _); lia.
Qed.
Lemma P_undelegate_eq b s d a s' x :
  a_P (ga (b_undelegate b s d a) s') x = a_P (ga b s') x - at_staker s s' (amt (lg_owed (gl b s) d) x).
Proof. unfold b_undelegate. destruct (_ >? a); rewrite ?P_join, P_leave; apply P_withdraw_eq. Qed.

Lemma safe_u_w b s d a : BInv b -> safe (b_undelegate b s d a) -> safe (b_withdraw b s d).
Proof.
  intros HB HS.
  assert (HSE : safeE b) by (intros s'; destruct HS as [HS1 _]; specialize (HS1 s'); by rewrite E_undelegate in HS1).
  destruct (BInv_undelegate b s d a HB HSE) as (_ & _ & L).
  eapply safe_le; [|exact L|done]. intros s'. by rewrite E_withdraw, E_undelegate.
Qed.
Lemma safe_d_w b s d a : BInv b -> 0 <= a -> safe (b_delegate b s d a) ->
  safe (b_withdraw b s d) \/ lg_dels (gl b s) !! d = None.
Proof.
  intros HB Ha HS.
  assert (HSE : safeE b) by (intros s'; destruct HS as [HS1 _]; specialize (HS1 s'); by rewrite E_delegate in HS1).
  destruct (BInv_delegate b s d a HB HSE Ha) as (_ & _ & L & _).
  destruct (lg_dels (gl b s) !! d) eqn:E; [left|by right].
  eapply safe_le; [|apply L; done|done]. intros s'. by rewrite E_withdraw, E_delegate.
Qed.
Lemma wd_none st b s d : Good st b -> lg_dels (gl b s) !! d = None -> wd st s d = lg_owed (gl b s) d.
Proof.
  intros HG Hn. unfold lg_owed. rewrite Hn. unfold wd, perform_withdrawal.
  pose proof (read_payable st b s d HG) as Hr. unfold lg_owed in Hr. rewrite Hn in Hr.
  destruct (f1_withdraw (getf st s) d) as [f r]. simpl in Hr. subst r.
  unfold pay_user. by destruct (send _ _ _ _).
Qed.

Lemma P_loop_eq fuel st b low c s x :
  Good st b -> safe (b_loop fuel st b low) -> queue_ok st -> Fin st b c -> cnonneg c -> ds_halt st = false ->
  let '(_, _, out) := process_loop fuel st low in
  a_P (ga (b_loop fuel st b low) s) x = a_P (ga b s) x - wd_list st out s x.
Proof.
  revert st b low. induction fuel as [|fuel IH]; intros st b low HG HS HQ HF Hc Hh; simpl in *; [lia|].
  destruct (ds_queue st !! (low + 1)%N) as [e|] eqn:Ee.
  - destruct (due st e); [|simpl; lia].
    assert (HSE : safeE b).
    { intros s'; destruct HS as [HS1 _]; specialize (HS1 s'); by rewrite E_loop, E_undelegate in HS1. }
    pose proof (Good_BInv _ _ HG HSE) as HB.
    destruct (BInv_undelegate b (u_staker e) (u_delegator e) (u_amount e) HB HSE) as (HB1 & _ & _).
    assert (HSu : safe (b_undelegate b (u_staker e) (u_delegator e) (u_amount e))).
    { eapply safe_le; [|eapply (BInv_loop _ _ _ _ HB1 (safeE_undelegate _ _ _ _ HSE))|exact HS].
      intros s'. by rewrite E_loop. }
    destruct (Good_process_one st b low e HG (HQ _ _ Ee)) as [HG1 _].
    destruct (Fin_process_one st b low e c HG HSu (HQ _ _ Ee) HF Hc Hh) as [HF1 Hh1].
    pose proof (process_one_frame st low e) as HFr. cbv zeta in HFr.
    pose proof (P_undelegate_eq b (u_staker e) (u_delegator e) (u_amount e) s x) as HPu.
    rewrite <- (wd_eq st b _ _ c HG (safe_u_w _ _ _ _ HB HSu) HF Hc) in HPu.
    destruct (process_one st low e) as [st3 paid] eqn:E1. cbn [fst] in HG1, HFr, HF1, Hh1, HS.
    destruct HFr as (Hq & _).
    specialize (IH st3 _ (low + 1)%N HG1 HS).
    destruct (process_loop fuel st3 (low + 1)%N) as [[st4 low'] out]. simpl.
    replace (low + 1 - 1)%N with low by lia. rewrite E1. cbn [fst].
    assert (HQ1 : queue_ok st3).
    { intros k e' Hk. rewrite Hq in Hk. apply lookup_delete_Some in Hk as [_ Hk]. by eapply HQ. }
    specialize (IH HQ1 HF1 Hc Hh1). lia.
  - destruct (low <? ds_high st)%N; [by apply IH|simpl; lia].
Qed.

Lemma P_step_eq st b o c s x :
  Good2 st b c -> cnonneg c -> dop_ok st o -> safe (b_step st b o) ->
  a_P (ga (b_step st b o) s) x = a_P (ga b s) x + received st o s x - withdrawn st o s x.
Proof.
  intros [HG HE HF Hh] Hc Hok HS.
  assert (HSE : safeE b) by (destruct HS as [HS _]; by eapply safeE_step).
  pose proof (Good_BInv _ _ HG HSE) as HB. destruct HE as [HQ HP].
  destruct o; cbn [b_step received withdrawn dop_ok] in *; cbv zeta; try lia.
  - destruct (msg_delegate _ _ _ _ _); [|lia]. rewrite P_delegate_eq.
    destruct (safe_d_w _ _ _ amount HB ltac:(lia) HS) as [HSw|Hn];
      [rewrite (wd_eq st b s0 d c HG HSw HF Hc)|rewrite (wd_none st b s0 d HG Hn)]; lia.
  - destruct (msg_redelegate _ _ _ _ _ _ _) as [st'|] eqn:Em; [|lia].
    assert (HSu : safe (b_undelegate b from d amount)).
    { eapply safe_le; [| |exact HS]; [intros s'; by rewrite E_delegate|].
      apply BInv_delegate; [|by apply safeE_undelegate|lia]. by apply BInv_undelegate. }
    destruct (Good_undelegate st b from d amount HG ltac:(lia)) as [HG2 _].
    destruct (Fin_undelegate st b from d amount c HG HSu ltac:(lia) HF Hc Hh) as [HF2 Hh2].
    pose proof (Good_BInv _ _ HG2 (proj1 HSu)) as HB2.
    rewrite P_delegate_eq, P_undelegate_eq.
    rewrite (wd_eq st b from d c HG (safe_u_w _ _ _ _ HB HSu) HF Hc).
    assert (wd (fst (perform_undelegation st from d amount)) to d
            = lg_owed (gl (b_undelegate b from d amount) to) d) as ->; [|lia].
    destruct (safe_d_w _ _ _ amount HB2 ltac:(lia) HS) as [HSw|Hn].
    + eapply wd_eq; [done|done|exact HF2|]. intros y. unfold caddk. specialize (Hc y).
      pose proof (lg_balance_nonneg _ _ d (HB from)).
      pose proof (kyve_only_nonneg y (Z.min amount (lg_balance (gl b from) d)) ltac:(lia)). lia.
    + by apply wd_none.
  - destruct (msg_withdraw _ _ _); [|lia]. rewrite P_withdraw_eq.
    rewrite (wd_eq st b s0 d c HG HS HF Hc). lia.
  - destruct (payout_rewards _ _ _ _) as [st'|] eqn:Em; [|lia].
    destruct (cempty c0) eqn:Ec.
    + apply cempty_spec in Ec as ->. rewrite amt_empty. unfold at_staker. destruct (decide _); lia.
    + unfold b_reward, at_staker. rewrite ga_insert. destruct (decide _) as [<-|]; simpl; lia.
  - destruct (f_data _); [|lia]. unfold b_slash. rewrite ga_insert. destruct (decide _) as [<-|]; simpl; lia.
  - set (st1 := with_time st (ds_time st + dt)) in *.
    assert (HG1 : Good st1 b) by (by eapply Good_same_f1; [|exact HG]).
    pose proof (P_loop_eq (queue_fuel st1) st1 b (ds_low st1) c s x HG1 HS HQ HF Hc Hh) as HL.
    unfold process_queue. destruct (process_loop _ _ _) as [[st2 low] out]. cbn [snd]. lia.
Qed.

Lemma P_run_eq st b ops c s x :
  Good2 st b c -> cnonneg c -> ops_ok st ops -> safe (brun st b ops) ->
  a_P (ga (brun st b ops) s) x
  = a_P (ga b s) x + received_total st ops s x - withdrawn_total st ops s x.
Proof.
  revert st b c. induction ops as [|o t IH]; intros st b c HG Hc Hok HS; simpl in *; [lia|].
  destruct Hok as [Ho Hok]. destruct (Good_step st b o (g2_good _ _ _ HG) (g2_env _ _ _ HG) Ho) as [HG1 HE1].
  assert (HS1 : safe (b_step st b o)) by (by eapply safe_run).
  rewrite (IH _ _ _ (Good2_step st b o c HG Hc Ho HS1) (cplus_nonneg _ _ _ Hc Ho) Hok HS).
  rewrite (P_step_eq st b o c s x HG Hc Ho HS1). lia.
Qed.

(** Sum over a finite set of stakers. *)
Definition sum_over (X : gset N) (f : N -> Z) : Z := foldr (fun s z => f s + z) 0 (elements X).

Lemma sum_list_le (f g : N -> Z) (l : list N) : (forall s, f s <= g s) ->
  foldr (fun s z => f s + z) 0 l <= foldr (fun s z => g s + z) 0 l.
Proof. intros H. induction l as [|a l IH]; simpl; [lia|]. specialize (H a). lia. Qed.

Lemma sum_elements_le (b : book) (f : ledger * allow -> Z) (l : list N) :
  NoDup l -> (forall s, 0 <= f (page b s)) -> f (lg_empty, a_zero) = 0 ->
  foldr (fun s z => f (page b s) + z) 0 l <= msum (fun _ p => f p) b.
Proof.
  intros Hnd Hf H0. revert b Hf. induction Hnd as [|a l Ha Hnd IH]; intros b Hf; simpl.
  - apply msum_nonneg. intros k q Hk. specialize (Hf k). unfold page in Hf. by rewrite Hk in Hf.
  - assert (Hpd : forall s, page (delete a b) s = if decide (a = s) then (lg_empty, a_zero) else page b s).
    { intros s. unfold page. destruct (decide (a = s)) as [->|]; [by rewrite lookup_delete|by rewrite lookup_delete_ne]. }
    specialize (IH (delete a b)).
    assert (foldr (fun s z => f (page b s) + z) 0 l = foldr (fun s z => f (page (delete a b) s) + z) 0 l) as ->.
    { clear -Ha Hpd. induction l as [|c l IHl]; simpl; [done|].
      rewrite not_elem_of_cons in Ha. destruct Ha as [Hne Ha].
      rewrite IHl by done. rewrite Hpd, decide_False by done. done. }
    assert (Hd : msum (fun _ q => f q) b = f (page b a) + msum (fun _ q => f q) (delete a b)).
    { unfold page. destruct (b !! a) as [q|] eqn:Eb.
      - rewrite <- (insert_delete b a q Eb) at 1. rewrite msum_insert, lookup_delete. simpl. lia.
      - rewrite delete_notin by done. simpl. rewrite H0. lia. }
    rewrite Hd. apply Z.add_le_mono_l. apply IH. intros s. rewrite Hpd. destruct (decide _); [by rewrite H0|done].
Qed.

(** C02 *)
Lemma claim_solvent bk p t ops :
  dparams_valid p = true -> ops_ok (dinit bk p t) ops ->
  (forall x, 0 <= bal bk MDelegation x) ->
  (forall s, slack ops s < ONE) -> (forall s x, drift (dinit bk p t) ops s x < 2 * ONE) ->
  let st := drun (dinit bk p t) ops in
  let unpaid s x := received_total (dinit bk p t) ops s x - withdrawn_total (dinit bk p t) ops s x in
  ds_halt st = false /\
  (forall s x, 0 <= unpaid s x) /\
  (forall X x, sum_over X (fun s => (if (x =? KYVE)%N then delegation_amount st s else 0) + unpaid s x)
               <= bal (ds_bank st) MDelegation x - bal bk MDelegation x - donations (dinit bk p t) ops x).
Proof.
  intros Hp Hok Hbk H1 H2. cbv zeta.
  pose proof (run_safe bk p t ops Hp Hok H1 H2) as HS.
  pose proof (Good2_init bk p t Hp) as HG0.
  pose proof (Good2_run _ _ ops _ HG0 Hbk Hok HS) as HG.
  set (st := drun (dinit bk p t) ops) in *. set (b := brun (dinit bk p t) ∅ ops) in *.
  destruct HG as [HG HE HF Hh].
  assert (HP : forall s x, a_P (ga b s) x
    = received_total (dinit bk p t) ops s x - withdrawn_total (dinit bk p t) ops s x).
  { intros s x. pose proof (P_run_eq _ _ ops _ s x HG0 Hbk Hok HS) as HPr. rewrite ga_empty in HPr.
    simpl a_P in HPr. fold b in HPr. lia. }
  pose proof (Good_BInv _ _ HG (proj1 HS)) as HB.
  split; [done|]. split.
  { intros s x. rewrite <- HP. apply (pot_nonneg (gl b s)); [apply HB|]. apply HS. }
  intros X x. rewrite HF. unfold cplus. replace (_ + held b x - _ - _) with (held b x) by lia. unfold held.
  set (f := fun q : ledger * allow => (if (x =? KYVE)%N then lg_total (fst q) else 0) + a_P (snd q) x).
  assert (msum (fun _ q => f q) b = kyve_only x (bookT b) + bookP b x) as <-.
  { unfold f, kyve_only, bookT, bookP. rewrite msum_add. f_equal.
    destruct (x =? KYVE)%N; [done|]. rewrite msum_const. lia. }
  etransitivity; [|apply (sum_elements_le b f (elements X))].
  - unfold sum_over. apply sum_list_le. intros s. unfold f. rewrite <- HP, (read_amount st b s HG). done.
  - apply NoDup_elements.
  - intros s. unfold f. pose proof (li_tot _ _ (HB s)). pose proof (pot_nonneg _ _ x (HB s) (proj2 HS s x)).
    unfold gl, ga in *. destruct (x =? KYVE)%N; lia.
  - unfold f. simpl. by destruct (x =? KYVE)%N.
Qed.
