(** * Rewards paid against rewards received. *)
From Verif Require Import Base BaseFacts Delegation F1Spec F1Refine F1Acct
  DelegationInv DelegationBank DelegationQueue DelegationProps.

Ltac Zify.zify_post_hook ::= Z.div_mod_to_equations.

(** ** Observed rewards *)

(** Coins a withdrawal by [d] from [s] pays in [st]. *)
Definition wd (st : dstate) (s d : N) : coins :=
  match snd (perform_withdrawal st s d) with Some r => r | None => ∅ end.

Definition at_staker (s s' : N) (v : Z) : Z := if decide (s = s') then v else 0.

Fixpoint wd_list (st : dstate) (out : list (N * uentry * Z)) (s x : N) : Z :=
  match out with
  | [] => 0
  | (k, e, _) :: t =>
      at_staker (u_staker e) s (amt (wd st (u_staker e) (u_delegator e)) x)
      + wd_list (fst (process_one st (k - 1) e)) t s x
  end.

(** Rewards of denom [x] that operation [o] pays to delegators of [s]. *)
Definition withdrawn (st : dstate) (o : dop) (s x : N) : Z :=
  match o with
  | ODelegate ex d s' a =>
      match msg_delegate st ex d s' a with
      | None => 0 | Some _ => at_staker s' s (amt (wd st s' d) x) end
  | ORedelegate ex act d from to a =>
      match msg_redelegate st ex act d from to a with
      | None => 0
      | Some _ => at_staker from s (amt (wd st from d) x)
                  + at_staker to s (amt (wd (fst (perform_undelegation st from d a)) to d) x)
      end
  | OWithdraw d s' =>
      match msg_withdraw st d s' with None => 0 | Some _ => at_staker s' s (amt (wd st s' d) x) end
  | OBeginBlock dt =>
      let st1 := with_time st (ds_time st + dt) in wd_list st1 (snd (process_queue st1)) s x
  | _ => 0
  end.

(** Rewards of denom [x] that [s] receives. *)
Definition received (st : dstate) (o : dop) (s x : N) : Z :=
  match o with
  | OPayout s' c payer =>
      match payout_rewards st s' c payer with None => 0 | Some _ => at_staker s' s (amt c x) end
  | _ => 0
  end.

Fixpoint withdrawn_total (st : dstate) (ops : list dop) (s x : N) : Z :=
  match ops with [] => 0 | o :: t => withdrawn st o s x + withdrawn_total (dstep st o) t s x end.
Fixpoint received_total (st : dstate) (ops : list dop) (s x : N) : Z :=
  match ops with [] => 0 | o :: t => received st o s x + received_total (dstep st o) t s x end.
(** Largest total delegation of [s] during the run. *)
Fixpoint max_total (st : dstate) (ops : list dop) (s : N) : Z :=
  Z.max (delegation_amount st s)
    (match ops with [] => 0 | o :: t => max_total (dstep st o) t s end).
Definition pays (o : dop) (s : N) : Z :=
  match o with OPayout s' _ _ => at_staker s' s 1 | _ => 0 end.
Fixpoint payouts (ops : list dop) (s : N) : Z :=
  match ops with [] => 0 | o :: t => pays o s + payouts t s end.

(** ** The pot of the book *)
Lemma wd_le st b s d x : Good st b -> 0 <= amt (wd st s d) x <= amt (lg_owed (gl b s) d) x.
Proof.
  intros HG. rewrite <- (read_payable st b s d HG). unfold wd, perform_withdrawal.
  assert (Hnn : 0 <= amt (snd (f1_withdraw (getf st s) d)) x).
  { rewrite (read_payable st b s d HG). destruct (HG s) as [_ [HW _]].
    unfold lg_owed. destruct (lg_dels (gl b s) !! d) as [y|] eqn:E; [|by rewrite amt_empty].
    rewrite amt_cmap by done. rewrite amt_cadd, amt_times, amt_cadd.
    destruct (lw_dels _ HW d y E) as (Hb & Hp & Ha).
    apply trunc_int_spec. pose proof (cpos_amt _ x Ha).
    pose proof (cpos_amt _ x Hp). pose proof (cpos_amt _ x (per_token_pos _ (lw_tot _ HW) (lw_rew _ HW))).
    destruct (dec_mul_spec (amt (l_pend y) x + amt (per_token (gl b s)) x) (l_bal y)) as [? _]; lia. }
  destruct (f1_withdraw (getf st s) d) as [f r]. unfold pay_user. cbn [snd] in *.
  destruct (send _ _ _ _); cbn [snd]; [lia|rewrite amt_empty; lia].
Qed.

Lemma P_withdraw st b s d s' x : Good st b ->
  a_P (ga (b_withdraw b s d) s') x <= a_P (ga b s') x - at_staker s s' (amt (wd st s d) x).
Proof.
  intros HG. pose proof (wd_le st b s d x HG). unfold b_withdraw, at_staker. rewrite ga_insert.
  destruct (decide (s = s')) as [<-|]; [|lia]. unfold a_withdraw, lg_owed in *.
  destruct (lg_dels (gl b s) !! d); simpl; [lia|]. rewrite amt_empty in *. lia.
Qed.
Lemma P_leave b s d s' x : a_P (ga (b_leave b s d) s') x = a_P (ga b s') x.
Proof.
  unfold b_leave. rewrite ga_insert. destruct (decide (s = s')) as [<-|]; [|done].
  unfold a_leave. by destruct (lg_dels (gl b s) !! d).
Qed.
Lemma P_join b s d a s' x : a_P (ga (b_join b s d a) s') x = a_P (ga b s') x.
Proof.
  unfold b_join. rewrite ga_insert. destruct (decide (s = s')) as [<-|]; [|done].
  unfold a_join. by destruct (a =? 0).
Qed.
Lemma P_delegate st b s d a s' x : Good st b ->
  a_P (ga (b_delegate b s d a) s') x <= a_P (ga b s') x - at_staker s s' (amt (wd st s d) x).
Proof.
  intros HG. unfold b_delegate. destruct (lg_dels (gl b s) !! d) eqn:E.
  - rewrite P_join, P_leave. by apply P_withdraw.
  - rewrite P_join. pose proof (wd_le st b s d x HG) as Hw. unfold lg_owed in Hw. rewrite E, amt_empty in Hw.
    unfold at_staker. destruct (decide _); lia.
Qed.
Lemma P_undelegate st b s d a s' x : Good st b ->
  a_P (ga (b_undelegate b s d a) s') x <= a_P (ga b s') x - at_staker s s' (amt (wd st s d) x).
Proof.
  intros HG. unfold b_undelegate. destruct (_ >? a); rewrite ?P_join, P_leave; by apply P_withdraw.
Qed.

Lemma P_loop fuel st b low s x : Good st b -> queue_ok st ->
  let '(_, _, out) := process_loop fuel st low in
  a_P (ga (b_loop fuel st b low) s) x <= a_P (ga b s) x - wd_list st out s x.
Proof.
  revert st b low. induction fuel as [|fuel IH]; intros st b low HG HQ; simpl; [lia|].
  destruct (ds_queue st !! (low + 1)%N) as [e|] eqn:Ee.
  - destruct (due st e); [|simpl; lia].
    destruct (Good_process_one st b low e HG (HQ _ _ Ee)) as [HG1 _].
    pose proof (process_one_frame st low e) as HF. cbv zeta in HF.
    pose proof (P_undelegate st b (u_staker e) (u_delegator e) (u_amount e) s x HG) as HP.
    destruct (process_one st low e) as [st3 paid] eqn:E1. cbn [fst] in HG1, HF.
    destruct HF as (Hq & _).
    specialize (IH st3 (b_undelegate b (u_staker e) (u_delegator e) (u_amount e)) (low + 1)%N HG1).
    destruct (process_loop fuel st3 (low + 1)%N) as [[st4 low'] out]. simpl.
    replace (low + 1 - 1)%N with low by lia. rewrite E1. cbn [fst].
    assert (HQ1 : queue_ok st3).
    { intros k e' Hk. rewrite Hq in Hk. apply lookup_delete_Some in Hk as [_ Hk]. by eapply HQ. }
    specialize (IH HQ1). lia.
  - destruct (low <? ds_high st)%N; [by apply IH|simpl; lia].
Qed.

Lemma pw_ext st st' s d :
  ds_f1 st' = ds_f1 st -> ds_bank st' = ds_bank st ->
  ds_f1 (fst (perform_withdrawal st' s d)) = ds_f1 (fst (perform_withdrawal st s d)) /\
  ds_bank (fst (perform_withdrawal st' s d)) = ds_bank (fst (perform_withdrawal st s d)) /\
  snd (perform_withdrawal st' s d) = snd (perform_withdrawal st s d).
Proof.
  intros Hf Hb. unfold perform_withdrawal, getf. rewrite Hf.
  destruct (f1_withdraw _ d) as [f r]. unfold pay_user.
  destruct (bool_decide _); simpl; rewrite Hb; destruct (send _ _ _ _); simpl; rewrite ?Hf; done.
Qed.

Lemma pu_ext st st' s d a :
  ds_f1 st' = ds_f1 st -> ds_bank st' = ds_bank st ->
  ds_f1 (fst (perform_undelegation st' s d a)) = ds_f1 (fst (perform_undelegation st s d a)) /\
  ds_bank (fst (perform_undelegation st' s d a)) = ds_bank (fst (perform_undelegation st s d a)) /\
  snd (perform_undelegation st' s d a) = snd (perform_undelegation st s d a).
Proof.
  intros Hf Hb. unfold perform_undelegation.
  destruct (pw_ext (remove_index st s) (remove_index st' s) s d Hf Hb) as (H1 & H2 & _).
  destruct (perform_withdrawal (remove_index st' s) s d) as [sw' e'].
  destruct (perform_withdrawal (remove_index st s) s d) as [sw e]. cbn [fst] in H1, H2.
  assert (Hg : getf (with_halt sw' (failed e')) s = getf (with_halt sw (failed e)) s)
    by (unfold getf; simpl; by rewrite H1).
  rewrite Hg. destruct (f1_remove _ d) as [f und].
  assert (Hg2 : forall y z, getf (setf (with_halt sw' y) s f) s = getf (setf (with_halt sw z) s f) s).
  { intros y z. rewrite !getf_setf. by rewrite !decide_True. }
  destruct (und >? a); simpl; rewrite ?H1; [|done].
  rewrite (Hg2 (failed e') (failed e)). done.
Qed.

Lemma wd_ext st st' s d : ds_f1 st' = ds_f1 st -> ds_bank st' = ds_bank st -> wd st' s d = wd st s d.
Proof. intros Hf Hb. unfold wd. by destruct (pw_ext st st' s d Hf Hb) as (_ & _ & ->). Qed.

Lemma P_step st b o s x : Good st b -> Env st -> dop_ok st o ->
  a_P (ga (b_step st b o) s) x <= a_P (ga b s) x + received st o s x - withdrawn st o s x.
Proof.
  intros HG [HQ HP] Hok. destruct o; cbn [b_step received withdrawn dop_ok] in *; cbv zeta; try lia.
  - destruct (msg_delegate _ _ _ _ _); [|lia].
    pose proof (P_delegate st b s0 d amount s x HG). lia.
  - destruct (msg_redelegate _ _ _ _ _ _ _) as [st'|] eqn:Em; [|lia].
    destruct (Good_undelegate st b from d amount HG ltac:(lia)) as [HG2 _].
    pose proof (P_undelegate st b from d amount s x HG).
    pose proof (P_delegate _ _ to d amount s x HG2). lia.
  - destruct (msg_withdraw _ _ _); [|lia]. pose proof (P_withdraw st b s0 d s x HG). lia.
  - destruct (payout_rewards _ _ _ _) as [st'|] eqn:Em; [|lia].
    destruct (cempty c) eqn:Ec.
    + assert (c = ∅) as ->; [|rewrite amt_empty; unfold at_staker; destruct (decide _); lia].
      unfold cempty in Ec. destruct (map_to_list c) eqn:El; [|done]. by apply map_to_list_empty_iff.
    + unfold b_reward, at_staker. rewrite ga_insert. destruct (decide _) as [<-|]; simpl; lia.
  - destruct (f_data _); [|lia]. unfold b_slash. rewrite ga_insert. destruct (decide _) as [<-|]; simpl; lia.
  - set (st1 := with_time st (ds_time st + dt)).
    assert (HG1 : Good st1 b) by (by eapply Good_same_f1; [|exact HG]).
    pose proof (P_loop (queue_fuel st1) st1 b (ds_low st1) s x HG1 HQ) as HL.
    unfold process_queue. destruct (process_loop _ _ _) as [[st2 low] out]. cbn [snd]. lia.
Qed.

Lemma P_run st b ops s x : Good st b -> Env st -> ops_ok st ops ->
  a_P (ga (brun st b ops) s) x
  <= a_P (ga b s) x + received_total st ops s x - withdrawn_total st ops s x.
Proof.
  revert st b. induction ops as [|o t IH]; intros st b HG HE Hok; simpl in *; [lia|].
  destruct Hok as [Ho Hok]. destruct (Good_step st b o HG HE Ho) as [HG1 HE1].
  specialize (IH _ _ HG1 HE1 Hok). pose proof (P_step st b o s x HG HE Ho). lia.
Qed.

(** ** Closed form of the rounding allowance *)
Definition dc (b : book) (s x : N) : Z := dist_cost (gl b s) (a_E (ga b s)) x.
Definition Phi (b : book) (s x : N) : Z := a_S (ga b s) x + dc b s x.

Lemma dist_cost_nonneg' l E x : LWeak l -> 0 <= E -> 0 <= dist_cost l E x.
Proof.
  intros HW HE. unfold dist_cost. destruct (_ =? 0); [lia|].
  pose proof (lw_tot _ HW). pose proof (cpos_amt _ x (per_token_pos l (lw_tot _ HW) (lw_rew _ HW))).
  unfold ONE. nia.
Qed.

Lemma dist_cost_empty l E x : lg_rewards l = ∅ -> dist_cost l E x = 0.
Proof. intros Hr. unfold dist_cost. by rewrite Hr, amt_empty. Qed.

Ltac dce :=
  repeat match goal with |- context [dist_cost ?l ?E ?x] =>
    let H := fresh in assert (H : dist_cost l E x = 0) by (apply dist_cost_empty; reflexivity);
    rewrite H; clear H end.

Definition at_one (s s' : N) : Z := at_staker s s' ONE.

Lemma Phi_withdraw b s d s' x : Phi (b_withdraw b s d) s' x <= Phi b s' x + at_one s s'.
Proof.
  unfold Phi, dc, b_withdraw, at_one, at_staker. rewrite gl_insert, ga_insert.
  destruct (decide (s = s')) as [<-|]; [|lia].
  unfold a_withdraw, lg_withdraw. destruct (lg_dels (gl b s) !! d); simpl; [|unfold ONE; lia].
  dce. lia.
Qed.
Lemma Phi_leave b s d s' x : Phi (b_leave b s d) s' x <= Phi b s' x.
Proof.
  unfold Phi, dc, b_leave. rewrite gl_insert, ga_insert. destruct (decide (s = s')) as [<-|]; [|lia].
  unfold a_leave, lg_leave. destruct (lg_dels (gl b s) !! d); simpl; [|lia].
  dce. lia.
Qed.
Lemma Phi_join b s d a s' x : Phi (b_join b s d a) s' x <= Phi b s' x.
Proof.
  unfold Phi, dc, b_join. rewrite gl_insert, ga_insert. destruct (decide (s = s')) as [<-|]; [|lia].
  unfold a_join, lg_join. destruct (a =? 0); simpl; [lia|].
  dce. lia.
Qed.
Lemma Phi_delegate b s d a s' x : Phi (b_delegate b s d a) s' x <= Phi b s' x + at_one s s'.
Proof.
  unfold b_delegate. destruct (lg_dels (gl b s) !! d).
  - etransitivity; [apply Phi_join|]. etransitivity; [apply Phi_leave|]. apply Phi_withdraw.
  - etransitivity; [apply Phi_join|]. unfold at_one, at_staker, ONE. destruct (decide _); lia.
Qed.
Lemma Phi_undelegate b s d a s' x : Phi (b_undelegate b s d a) s' x <= Phi b s' x + at_one s s'.
Proof.
  unfold b_undelegate. destruct (_ >? a).
  - etransitivity; [apply Phi_join|]. etransitivity; [apply Phi_leave|]. apply Phi_withdraw.
  - etransitivity; [apply Phi_leave|]. apply Phi_withdraw.
Qed.
Lemma at_one_le s s' : 0 <= at_one s s' <= ONE.
Proof. unfold at_one, at_staker, ONE. destruct (decide _); lia. Qed.

Lemma Phi_loop fuel st b low s x :
  let '(_, _, out) := process_loop fuel st low in
  Phi (b_loop fuel st b low) s x <= Phi b s x + ONE * Z.of_nat (length out).
Proof.
  revert st b low. induction fuel as [|fuel IH]; intros st b low; simpl; [lia|].
  destruct (ds_queue st !! (low + 1)%N) as [e|] eqn:Ee.
  - destruct (due st e); [|simpl; lia].
    destruct (process_one st low e) as [st3 paid] eqn:E1. cbn [fst].
    specialize (IH st3 (b_undelegate b (u_staker e) (u_delegator e) (u_amount e)) (low + 1)%N).
    destruct (process_loop fuel st3 (low + 1)%N) as [[st4 low'] out]. cbn [length].
    pose proof (Phi_undelegate b (u_staker e) (u_delegator e) (u_amount e) s x).
    pose proof (at_one_le (u_staker e) s). lia.
  - destruct (low <? ds_high st)%N; [by apply IH|simpl; lia].
Qed.

Definition pending_count (l : list uentry) : Z := Z.of_nat (length l).

(** What an operation may add to the allowance, before counting queue entries. *)
Definition step_cost (st : dstate) (b : book) (o : dop) (s x : N) : Z :=
  match o with
  | ODelegate _ _ _ _ | OWithdraw _ _ | OUndelegate _ _ _ => ONE
  | ORedelegate _ _ _ _ _ _ => 2 * ONE
  | OPayout s' c payer =>
      match payout_rewards st s' c payer with
      | None => 0
      | Some _ => at_staker s' s (dist_cost (lg_reward (gl b s) c) (a_E (ga b s)) x)
      end
  | OSlash s' _ => at_staker s' s (Z.of_nat (size (lg_dels (gl b s))) * ONE)
  | _ => 0
  end.

Definition Enn (b : book) : Prop := forall s, 0 <= a_E (ga b s).

Lemma Phi_step st b o l s x :
  Good st b -> Enn b -> QRel st l -> dop_ok st o ->
  Phi (b_step st b o) s x + ONE * pending_count (fst (fifo_step st l o))
  <= Phi b s x + ONE * pending_count l + step_cost st b o s x.
Proof.
  intros HG HEn HQ Hok. unfold pending_count.
  destruct o; cbn [b_step fifo_step step_cost fst]; cbv zeta; try (unfold ONE; lia).
  - destruct (msg_delegate _ _ _ _ _); [|unfold ONE; lia].
    pose proof (Phi_delegate b s0 d amount s x). pose proof (at_one_le s0 s). lia.
  - destruct (amount >? _); cbn [fst]; [unfold ONE; lia|]. rewrite app_length. simpl. lia.
  - destruct (msg_redelegate _ _ _ _ _ _ _); [|unfold ONE; lia].
    pose proof (Phi_delegate (b_undelegate b from d amount) to d amount s x).
    pose proof (Phi_undelegate b from d amount s x).
    pose proof (at_one_le from s). pose proof (at_one_le to s). lia.
  - destruct (msg_withdraw _ _ _); [|unfold ONE; lia].
    pose proof (Phi_withdraw b s0 d s x). pose proof (at_one_le s0 s). lia.
  - simpl in Hok. destruct Hok as [Hc _]. unfold at_staker.
    assert (Hnn : 0 <= dist_cost (lg_reward (gl b s) c) (a_E (ga b s)) x).
    { apply dist_cost_nonneg'; [|apply HEn]. destruct (HG s) as [_ [HW _]]. by apply LWeak_reward. }
    destruct (payout_rewards _ _ _ _); [|lia].
    destruct (cempty c); [destruct (decide _); lia|].
    unfold Phi, dc, b_reward. rewrite gl_insert, ga_insert. destruct (decide _) as [<-|]; simpl; [|lia].
    pose proof (dist_cost_nonneg' (gl b s0) (a_E (ga b s0)) x (proj1 (proj2 (HG s0))) (HEn s0)).
    change (a_E (a_reward (ga b s0) c)) with (a_E (ga b s0)). lia.
  - unfold at_staker. destruct (f_data _); [|destruct (decide _); unfold ONE; lia].
    unfold Phi, dc, b_slash. rewrite gl_insert, ga_insert. destruct (decide _) as [<-|]; [|lia].
    dce. simpl. lia.
  - set (st1 := with_time st (ds_time st + dt)).
    pose proof (Phi_loop (queue_fuel st1) st1 b (ds_low st1) s x) as HL.
    simpl in Hok.
    assert (HQ1 : QRel st1 l) by (eapply QRel_frame; [..|exact HQ]; simpl; try done; lia).
    pose proof (process_queue_spec st1 l HQ1) as HP. unfold process_queue in HP.
    destruct (process_loop (queue_fuel st1) st1 (ds_low st1)) as [[st2 low] out].
    change (ds_time st1) with (ds_time st + dt) in HP. change (ds_params st1) with (ds_params st) in HP.
    destruct (split_due _ _ l) as [a r] eqn:Es. cbn [fst].
    destruct HP as (Ho & _). pose proof (split_due_app _ _ _ _ _ Es) as ->.
    rewrite app_length. unfold out_entries in Ho. rewrite <- Ho, map_length. lia.
Qed.

(** Bound on the undistributed rewards and hence on the cost of a payout. *)
Lemma rewards_dist_le l x : cpos (lg_rewards l) -> amt (lg_rewards (lg_distribute l)) x <= amt (lg_rewards l) x.
Proof. intros Hr. simpl. rewrite amt_empty. by apply cpos_amt. Qed.

Lemma rew_withdraw b s d s' x : cpos (lg_rewards (gl b s')) ->
  0 <= amt (lg_rewards (gl (b_withdraw b s d) s')) x <= amt (lg_rewards (gl b s')) x.
Proof.
  intros Hr. pose proof (cpos_amt _ x Hr). unfold b_withdraw. rewrite gl_insert.
  destruct (decide (s = s')) as [<-|]; [|done].
  unfold lg_withdraw. destruct (lg_dels (gl b s) !! d); [|done]. simpl. rewrite amt_empty. lia.
Qed.

Definition rew_le (b b' : book) (s x : N) : Prop :=
  lg_rewards (gl b' s) = ∅ \/ lg_rewards (gl b' s) = lg_rewards (gl b s).
Lemma rew_trans b1 b2 b3 s x : rew_le b1 b2 s x -> rew_le b2 b3 s x -> rew_le b1 b3 s x.
Proof. intros [H1|H1] [H2|H2]; [by left|left; congruence|by left|right; congruence]. Qed.
Lemma rl_withdraw b s d s' x : rew_le b (b_withdraw b s d) s' x.
Proof.
  unfold rew_le, b_withdraw. rewrite gl_insert. destruct (decide (s = s')) as [<-|]; [|by right].
  unfold lg_withdraw. destruct (lg_dels (gl b s) !! d); [by left|by right].
Qed.
Lemma rl_leave b s d s' x : rew_le b (b_leave b s d) s' x.
Proof.
  unfold rew_le, b_leave. rewrite gl_insert. destruct (decide (s = s')) as [<-|]; [|by right].
  unfold lg_leave. destruct (lg_dels (gl b s) !! d); [by left|by right].
Qed.
Lemma rl_join b s d a s' x : rew_le b (b_join b s d a) s' x.
Proof.
  unfold rew_le, b_join. rewrite gl_insert. destruct (decide (s = s')) as [<-|]; [|by right].
  unfold lg_join. destruct (a =? 0); [by right|by left].
Qed.
Lemma rl_delegate b s d a s' x : rew_le b (b_delegate b s d a) s' x.
Proof.
  unfold b_delegate. destruct (lg_dels (gl b s) !! d); [|apply rl_join].
  eapply rew_trans; [apply (rl_withdraw b s d)|]. eapply rew_trans; [apply (rl_leave _ s d)|]. apply rl_join.
Qed.
Lemma rl_undelegate b s d a s' x : rew_le b (b_undelegate b s d a) s' x.
Proof.
  unfold b_undelegate. eapply rew_trans; [apply (rl_withdraw b s d)|].
  destruct (_ >? a); [|apply rl_leave]. eapply rew_trans; [apply (rl_leave _ s d)|]. apply rl_join.
Qed.
Lemma rl_loop fuel st b low s x : rew_le b (b_loop fuel st b low) s x.
Proof.
  revert st b low. induction fuel as [|fuel IH]; intros st b low; simpl; [by right|].
  destruct (ds_queue st !! _) as [e|].
  - destruct (due st e); [|by right]. eapply rew_trans; [apply rl_undelegate|apply IH].
  - destruct (_ <? _)%N; [apply IH|by right].
Qed.

Lemma rew_step st b o s x : Good st b -> dop_ok st o ->
  amt (lg_rewards (gl (b_step st b o) s)) x <= amt (lg_rewards (gl b s)) x + received st o s x.
Proof.
  intros HG Hok. pose proof (cpos_amt _ x (lw_rew _ (proj1 (proj2 (HG s))))) as Hnn.
  assert (Hle : forall b', rew_le b b' s x -> amt (lg_rewards (gl b' s)) x <= amt (lg_rewards (gl b s)) x).
  { intros b' [H|H]; rewrite H; rewrite ?amt_empty; lia. }
  destruct o; cbn [b_step received]; cbv zeta; rewrite ?Z.add_0_r; try lia.
  - destruct (msg_delegate _ _ _ _ _); [|lia]. apply Hle, rl_delegate.
  - destruct (msg_redelegate _ _ _ _ _ _ _); [|lia].
    apply Hle. eapply rew_trans; [apply rl_undelegate|apply rl_delegate].
  - destruct (msg_withdraw _ _ _); [|lia]. apply Hle, rl_withdraw.
  - simpl in Hok. destruct Hok as [Hc _]. pose proof (cpos_amt _ x Hc).
    destruct (payout_rewards _ _ _ _); [|lia]. unfold at_staker.
    destruct (cempty c); [destruct (decide _); lia|].
    unfold b_reward. rewrite gl_insert. destruct (decide _) as [<-|]; [|lia]. simpl. rewrite amt_cadd. lia.
  - destruct (f_data _); [|lia]. apply Hle. unfold rew_le, b_slash. rewrite gl_insert.
    destruct (decide _); [by left|by right].
  - apply Hle, rl_loop.
Qed.

(** Reward per token of at most [r] coins. *)
Lemma per_token_le l x : LWeak l -> amt (per_token l) x <= amt (lg_rewards l) x * ONE + 1.
Proof.
  intros HW. pose proof (lw_tot _ HW) as Ht. pose proof (cpos_amt _ x (lw_rew _ HW)) as Hr.
  rewrite amt_per_token. destruct (lg_total l =? 0) eqn:E; [unfold ONE; lia|].
  destruct (dec_quo_int_spec (amt (lg_rewards l) x) (lg_total l)) as [H1 H2]; [done|lia|].
  unfold ONE in *. nia.
Qed.

Lemma payout_cost l E x T R Eb :
  LWeak l -> 0 <= E <= Eb -> lg_total l <= T -> amt (lg_rewards l) x <= R ->
  dist_cost l E x <= ONE * (T + 2 * Eb * (R + 1)).
Proof.
  intros HW HE HT HR. unfold dist_cost. pose proof (lw_tot _ HW).
  pose proof (cpos_amt _ x (lw_rew _ HW)). pose proof (per_token_le l x HW) as Hv.
  pose proof (cpos_amt _ x (per_token_pos l (lw_tot _ HW) (lw_rew _ HW))) as Hv0.
  set (v := amt (per_token l) x) in *. set (r := amt (lg_rewards l) x) in *.
  destruct (r =? 0); [unfold ONE; nia|].
  assert (v <= (R + 1) * ONE) by (unfold ONE in *; nia).
  assert (2 * v * E <= 2 * ((R + 1) * ONE) * Eb) by nia.
  unfold ONE in *. nia.
Qed.

Lemma slashed_nonneg o s : 0 <= slashed_by o s.
Proof. destruct o; simpl; try lia. by case_match. Qed.
Lemma slashes_nonneg ops s : 0 <= slashes ops s.
Proof. induction ops as [|o t IH]; simpl; [lia|]. pose proof (slashed_nonneg o s). lia. Qed.
Lemma pays_nonneg o s : 0 <= pays o s.
Proof. destruct o; simpl; try lia. unfold at_staker. by case_match. Qed.
Lemma payouts_nonneg ops s : 0 <= payouts ops s.
Proof. induction ops as [|o t IH]; simpl; [lia|]. pose proof (pays_nonneg o s). lia. Qed.
Lemma received_nonneg st o s x : dop_ok st o -> 0 <= received st o s x.
Proof.
  intros Hok. destruct o; simpl; try lia. destruct Hok as [Hc _]. pose proof (cpos_amt _ x Hc).
  destruct (payout_rewards _ _ _ _); [|lia]. unfold at_staker. destruct (decide _); lia.
Qed.
Lemma received_total_nonneg st ops s x : ops_ok st ops -> 0 <= received_total st ops s x.
Proof.
  revert st. induction ops as [|o t IH]; intros st Hok; simpl in *; [lia|]. destruct Hok as [Ho Hok].
  pose proof (received_nonneg st o s x Ho). specialize (IH _ Hok). lia.
Qed.

Lemma Enn_step st b o : Enn b -> Enn (b_step st b o).
Proof. intros H s. specialize (H s). pose proof (E_step st b o s). lia. Qed.

(** The allowance in closed form, from any point of a run. *)
Lemma allowance_run st b l ops s x T R Eb :
  Good st b -> Env st -> Enn b -> QRel st l -> ops_ok st ops ->
  max_total st ops s <= T ->
  amt (lg_rewards (gl b s)) x + received_total st ops s x <= R ->
  a_E (ga b s) + slashes ops s * Z.of_nat (size (ddom b s ∪ joined ops s)) <= Eb ->
  Phi (brun st b ops) s x
  <= Phi b s x + ONE * pending_count l
     + ONE * (payouts ops s * (T + 2 * Eb * (R + 1)) + 2 * Z.of_nat (length ops)
              + slashes ops s * Z.of_nat (size (ddom b s ∪ joined ops s))).
Proof.
  revert st b l. induction ops as [|o t IH]; intros st b l HG HE HEn HQ Hok HT HR HB; simpl in *.
  { unfold pending_count, ONE. lia. }
  destruct Hok as [Ho Hok]. destruct (Good_step st b o HG HE Ho) as [HG1 HE1].
  destruct (QRel_step st l o HQ Ho) as [HQ1 _].
  pose proof (Phi_step st b o l s x HG HEn HQ Ho) as HPhi.
  pose proof (ddom_step st b o s (proj1 HE) Ho) as HD.
  set (U := ddom b s ∪ (joins o s ∪ joined t s)) in *.
  assert (HU0 : (size (ddom b s) <= size U)%nat) by (apply subseteq_size; set_solver).
  assert (HU1 : (size (ddom (b_step st b o) s ∪ joined t s) <= size U)%nat) by (apply subseteq_size; set_solver).
  pose proof (E_step_bound st b o s) as HEs. pose proof (rew_step st b o s x HG Ho) as HRs.
  pose proof (slashed_nonneg o s). pose proof (slashes_nonneg t s). pose proof (pays_nonneg o s).
  pose proof (payouts_nonneg t s). pose proof (received_nonneg st o s x Ho).
  pose proof (received_total_nonneg _ _ s x Hok).
  specialize (IH (dstep st o) (b_step st b o) (fst (fifo_step st l o)) HG1 HE1 (Enn_step _ _ _ HEn) HQ1 Hok).
  pose proof (HEn s) as HE0.
  assert (HTs : lg_total (gl b s) <= T) by (rewrite <- (read_amount st b s HG); lia).
  specialize (IH ltac:(lia) ltac:(lia) ltac:(nia)).
  assert (Hcost : step_cost st b o s x
            <= ONE * (pays o s * (T + 2 * Eb * (R + 1)) + 2 + slashed_by o s * Z.of_nat (size U))).
  { pose proof (lw_tot _ (proj1 (proj2 (HG s)))). pose proof (cpos_amt _ x (lw_rew _ (proj1 (proj2 (HG s))))).
    assert (HEb : a_E (ga b s) <= Eb) by nia. assert (HR0 : 0 <= R) by lia.
    assert (HT2 : 0 <= T + 2 * Eb * (R + 1)) by nia.
    destruct o; cbn [step_cost pays slashed_by]; try (unfold ONE; lia).
    - assert (HRc : amt (lg_rewards (gl b s)) x + received st (OPayout s0 c payer) s x <= R) by lia.
      simpl in Ho, HRc. destruct Ho as [Hc _]. unfold at_staker in *.
      assert (0 <= ONE * ((if decide (s0 = s) then 1 else 0) * (T + 2 * Eb * (R + 1)) + 2 + 0 * Z.of_nat (size U))).
      { destruct (decide (s0 = s)); unfold ONE; nia. }
      clear HR HR0 HPhi HRs. destruct (payout_rewards st s0 c payer) eqn:Ep; [|done].
      destruct (decide (s0 = s)) as [->|]; [|unfold ONE; lia].
      pose proof (payout_cost (lg_reward (gl b s) c) (a_E (ga b s)) x T R Eb) as HC.
      assert (dist_cost (lg_reward (gl b s) c) (a_E (ga b s)) x <= ONE * (T + 2 * Eb * (R + 1))).
      { apply HC; [apply LWeak_reward; [apply HG|done]|lia|done|]. simpl. rewrite amt_cadd. lia. }
      unfold ONE in *. lia.
    - unfold at_staker. destruct (decide (s0 = s)) as [->|]; [|unfold ONE; lia].
      unfold ddom in HU0. rewrite size_dom in HU0. unfold ONE. nia. }
  unfold ONE in *. nia.
Qed.
