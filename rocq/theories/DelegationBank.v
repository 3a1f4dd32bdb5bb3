(** * The delegation module account covers principal and rewards. *)
From Verif Require Import Base BaseFacts Delegation F1Spec F1Refine F1Acct DelegationInv.

Ltac Zify.zify_post_hook ::= Z.div_mod_to_equations.

(** Sum of all totals and of all unpaid rewards in the book. *)
Definition bookT (b : book) : Z := msum (fun _ p => lg_total (fst p)) b.
Definition bookP (b : book) (x : N) : Z := msum (fun _ p => a_P (snd p) x) b.
Definition kyve_only (x : N) (v : Z) : Z := if (x =? KYVE)%N then v else 0.
Definition held (b : book) (x : N) : Z := kyve_only x (bookT b) + bookP b x.

Definition BInv (b : book) : Prop := forall s, LInv (gl b s) (ga b s).
Definition safe (b : book) : Prop :=
  safeE b /\ forall s x, a_S (ga b s) x < 2 * (ONE * ONE).

Lemma Good_BInv st b : Good st b -> safeE b -> BInv b.
Proof. intros HG HS s. destruct (HG s) as [_ [_ HL]]. apply HL, HS. Qed.

Lemma held_insert b s l g x :
  held (<[s := (l, g)]> b) x
  = held b x + kyve_only x (lg_total l - lg_total (gl b s)) + (a_P g x - a_P (ga b s) x).
Proof.
  unfold held, bookT, bookP, gl, ga, page, kyve_only. rewrite !msum_insert.
  destruct (b !! s) as [[l0 g0]|]; simpl; destruct (x =? KYVE)%N; lia.
Qed.

(** ** The allowances only grow *)
Lemma BInv_insert b s l g : BInv b -> LInv l g -> BInv (<[s := (l, g)]> b).
Proof. intros HB HL s'. rewrite gl_insert, ga_insert. destruct (decide _); [done|apply HB]. Qed.
Lemma BInv_withdraw b s d : BInv b -> BInv (b_withdraw b s d).
Proof. intros HB. apply BInv_insert; [done|]. by apply LInv_withdraw. Qed.
Lemma BInv_leave b s d : BInv b -> safeE b -> BInv (b_leave b s d).
Proof. intros HB HS. apply BInv_insert; [done|]. by apply LInv_leave. Qed.
Lemma BInv_join b s d a : BInv b -> lg_dels (gl b s) !! d = None -> 0 <= a -> BInv (b_join b s d a).
Proof. intros HB Hd Ha. apply BInv_insert; [done|]. by apply LInv_join. Qed.

Definition leS (b b' : book) : Prop := forall s x, a_S (ga b s) x <= a_S (ga b' s) x.
Lemma leS_refl b : leS b b. Proof. intros s x. lia. Qed.
Lemma leS_trans b1 b2 b3 : leS b1 b2 -> leS b2 b3 -> leS b1 b3.
Proof. intros H1 H2 s x. specialize (H1 s x). specialize (H2 s x). lia. Qed.
Lemma leS_insert b s l g : (forall x, a_S (ga b s) x <= a_S g x) -> leS b (<[s := (l, g)]> b).
Proof.
  intros H s' x. rewrite ga_insert. destruct (decide _) as [<-|]; [apply H|lia].
Qed.
Lemma leS_withdraw b s d : BInv b -> leS b (b_withdraw b s d).
Proof.
  intros HB. apply leS_insert. intros x. unfold a_withdraw. destruct (lg_dels _ !! d); simpl; [|lia].
  pose proof (dist_cost_nonneg _ _ x (HB s)). unfold ONE. lia.
Qed.
Lemma leS_leave b s d : BInv b -> leS b (b_leave b s d).
Proof.
  intros HB. apply leS_insert. intros x. unfold a_leave. destruct (lg_dels _ !! d); simpl; [|lia].
  pose proof (dist_cost_nonneg _ _ x (HB s)). lia.
Qed.
Lemma leS_join b s d a : BInv b -> leS b (b_join b s d a).
Proof.
  intros HB. apply leS_insert. intros x. unfold a_join. destruct (a =? 0); simpl; [lia|].
  pose proof (dist_cost_nonneg _ _ x (HB s)). lia.
Qed.

Lemma gl_leave_absent b s d : lg_dels (gl (b_leave b s d) s) !! d = None.
Proof. unfold b_leave. rewrite gl_insert, decide_True by done. apply leave_absent. Qed.

Lemma leave_nonneg b s d : BInv b -> safeE b -> 0 <= snd (lg_leave (gl b s) d).
Proof. intros HB HS. by destruct (LInv_leave _ _ d (HB s) (HS s)) as (_ & _ & ?). Qed.

Lemma safeE_withdraw b s d : safeE b -> safeE (b_withdraw b s d).
Proof. intros H s'. rewrite E_withdraw. apply H. Qed.
Lemma safeE_leave b s d : safeE b -> safeE (b_leave b s d).
Proof. intros H s'. rewrite E_leave. apply H. Qed.

Lemma BInv_delegate b s d a : BInv b -> safeE b -> 0 <= a ->
  BInv (b_delegate b s d a) /\ leS b (b_withdraw b s d) /\
  (lg_dels (gl b s) !! d <> None -> leS (b_withdraw b s d) (b_delegate b s d a)) /\
  leS b (b_delegate b s d a).
Proof.
  intros HB HS Ha. pose proof (BInv_withdraw b s d HB) as HB1. pose proof (safeE_withdraw b s d HS) as HS1.
  pose proof (BInv_leave _ s d HB1 HS1) as HB2. pose proof (leave_nonneg _ s d HB1 HS1) as Hn.
  pose proof (leS_withdraw b s d HB) as L1. pose proof (leS_leave _ s d HB1) as L2.
  unfold b_delegate. destruct (lg_dels (gl b s) !! d) eqn:E.
  - pose proof (leS_join _ s d (snd (lg_leave (gl (b_withdraw b s d) s) d) + a) HB2) as L3.
    split_and!; [|done| |].
    + apply BInv_join; [done|apply gl_leave_absent|lia].
    + intros _. by eapply leS_trans.
    + eapply leS_trans; [done|]. by eapply leS_trans.
  - split_and!; [by apply BInv_join|done|done|by apply leS_join].
Qed.

Lemma BInv_undelegate b s d a : BInv b -> safeE b ->
  BInv (b_undelegate b s d a) /\ leS b (b_withdraw b s d) /\
  leS (b_withdraw b s d) (b_undelegate b s d a).
Proof.
  intros HB HS. pose proof (BInv_withdraw b s d HB) as HB1. pose proof (safeE_withdraw b s d HS) as HS1.
  pose proof (BInv_leave _ s d HB1 HS1) as HB2. pose proof (leave_nonneg _ s d HB1 HS1) as Hn.
  pose proof (leS_withdraw b s d HB) as L1. pose proof (leS_leave _ s d HB1) as L2.
  unfold b_undelegate. destruct (_ >? a) eqn:E.
  - pose proof (leS_join _ s d (snd (lg_leave (gl (b_withdraw b s d) s) d) - a) HB2) as L3.
    split_and!; [|done|by eapply leS_trans].
    apply BInv_join; [done|apply gl_leave_absent|lia].
  - done.
Qed.

Lemma safeE_undelegate b s d a : safeE b -> safeE (b_undelegate b s d a).
Proof. intros H s'. rewrite E_undelegate. apply H. Qed.

Lemma BInv_loop fuel st b low : BInv b -> safeE b ->
  BInv (b_loop fuel st b low) /\ leS b (b_loop fuel st b low).
Proof.
  revert st b low. induction fuel as [|fuel IH]; intros st b low HB HS; simpl; [split; [done|apply leS_refl]|].
  destruct (ds_queue st !! _) as [e|].
  - destruct (due st e); [|split; [done|apply leS_refl]].
    destruct (BInv_undelegate b (u_staker e) (u_delegator e) (u_amount e) HB HS) as (HB1 & L1 & L2).
    destruct (IH (fst (process_one st low e)) _ (low + 1)%N HB1 (safeE_undelegate _ _ _ _ HS)) as [HB2 L3].
    split; [done|]. eapply leS_trans; [exact L1|]. by eapply leS_trans.
  - destruct (_ <? _)%N; [by apply IH|split; [done|apply leS_refl]].
Qed.

(** ** Funds *)
Definition Fin (st : dstate) (b : book) (c : N -> Z) : Prop :=
  forall x, bal (ds_bank st) MDelegation x = c x + held b x.

Lemma pot_nonneg l g x : LInv l g -> a_S g x < 2 * (ONE * ONE) -> 0 <= a_P g x.
Proof.
  intros HI HS. pose proof (liab_nonneg _ _ x HI). pose proof (li_liab _ _ HI x).
  pose proof (cpos_amt _ x (li_rew _ _ HI)). unfold ONE in *. nia.
Qed.

Lemma safe_le b b' : (forall s, a_E (ga b s) = a_E (ga b' s)) -> leS b b' -> safe b' -> safe b.
Proof.
  intros HE HL [H1 H2]. split; [intros s; rewrite HE; apply H1|].
  intros s x. specialize (HL s x). specialize (H2 s x). lia.
Qed.

Lemma book_in b s p : b !! s = Some p -> gl b s = fst p /\ ga b s = snd p.
Proof. intros H. unfold gl, ga, page. by rewrite H. Qed.

Lemma bookT_nonneg b : BInv b -> 0 <= bookT b.
Proof.
  intros HB. apply msum_nonneg. intros s p Hp. destruct (book_in _ _ _ Hp) as [<- _].
  apply (li_tot _ _ (HB s)).
Qed.

Lemma bookT_ge b s : BInv b -> lg_total (gl b s) <= bookT b.
Proof.
  intros HB. pose proof (bookT_nonneg b HB). unfold gl, page. destruct (b !! s) as [p|] eqn:E; simpl; [|done].
  apply (msum_elem_le (fun _ p => lg_total (fst p)) b s p); [|done].
  intros s' p' Hp. destruct (book_in _ _ _ Hp) as [<- _]. apply (li_tot _ _ (HB s')).
Qed.

Lemma bookP_ge b s x : BInv b -> safe b -> 0 <= a_P (ga b s) x <= bookP b x.
Proof.
  intros HB [_ HS]. split; [by apply pot_nonneg with (gl b s); [apply HB|apply HS]|].
  assert (Hnn : forall k a, b !! k = Some a -> 0 <= a_P (snd a) x).
  { intros s' p' Hp. destruct (book_in _ _ _ Hp) as [_ <-].
    apply pot_nonneg with (gl b s'); [apply HB|apply HS]. }
  unfold ga, page. destruct (b !! s) as [p|] eqn:E; simpl; [|by apply msum_nonneg].
  apply (msum_elem_le (fun _ p => a_P (snd p) x) b s p); done.
Qed.

Lemma held_nonneg b x : BInv b -> safe b -> 0 <= held b x.
Proof.
  intros HB HS. unfold held, kyve_only. pose proof (bookT_nonneg b HB). pose proof (bookP_ge b 0%N x HB HS).
  destruct (x =? KYVE)%N; lia.
Qed.

Definition cnonneg (c : N -> Z) : Prop := forall x, 0 <= c x.

(** A withdrawal is always paid, and pays what the ledger owes. *)
Lemma Fin_withdrawal st b s d c :
  Good st b -> safe (b_withdraw b s d) -> Fin st b c -> cnonneg c ->
  snd (perform_withdrawal st s d) = Some (lg_owed (gl b s) d) /\
  Fin (fst (perform_withdrawal st s d)) (b_withdraw b s d) c.
Proof.
  intros HG HS HF Hc.
  assert (HSE : safeE b) by (intros s'; destruct HS as [HS _]; specialize (HS s'); by rewrite E_withdraw in HS).
  pose proof (Good_BInv _ _ HG HSE) as HB.
  assert (HS0 : safe b).
  { eapply safe_le; [|apply (leS_withdraw b s d HB)|done]. intros s'. by rewrite E_withdraw. }
  unfold perform_withdrawal. destruct (HG s) as [HR _]. pose proof (HB s) as HL.
  destruct (Rel_withdraw _ _ d HR) as [_ Hpay].
  destruct (f1_withdraw (getf st s) d) as [f r]. simpl in Hpay.
  assert (Hr : r = lg_owed (gl b s) d).
  { rewrite Hpay. unfold lg_withdraw, lg_owed. by destruct (lg_dels (gl b s) !! d). }
  assert (Hle : forall y, 0 <= amt r y <= a_P (ga b s) y).
  { intros y. rewrite Hr. destruct (lg_dels (gl b s) !! d) eqn:E.
    - pose proof (owed_le_pot (gl b s) (ga b s) d y HL) as Ho.
      destruct HS as [_ HS]. specialize (HS s y). unfold b_withdraw in HS.
      rewrite ga_insert, decide_True in HS by done. unfold a_withdraw in HS. rewrite E in HS. simpl in HS.
      pose proof (bookP_ge b s y HB HS0). specialize (Ho HS). lia.
    - unfold lg_owed. rewrite E, amt_empty. pose proof (bookP_ge b s y HB HS0). lia. }
  set (st1 := if bool_decide _ then _ else _).
  assert (Hbk : ds_bank st1 = ds_bank st) by (unfold st1; by destruct (bool_decide _)).
  unfold pay_user. rewrite Hbk.
  destruct (send (ds_bank st) MDelegation (User d) r) as [bk|] eqn:Es.
  - simpl. split; [by f_equal|]. apply send_Some in Es as [_ Hb].
    intros x. simpl. rewrite Hb. rewrite decide_True by done. rewrite decide_False by done.
    unfold b_withdraw. rewrite held_insert, HF.
    assert (a_P (a_withdraw (gl b s) (ga b s) d) x = a_P (ga b s) x - amt r x) as ->.
    { rewrite Hr. unfold a_withdraw, lg_owed. destruct (lg_dels (gl b s) !! d) eqn:E; simpl; [done|].
      rewrite amt_empty. lia. }
    assert (lg_total (fst (lg_withdraw (gl b s) d)) = lg_total (gl b s)) as ->.
    { unfold lg_withdraw. by destruct (lg_dels (gl b s) !! d). }
    unfold kyve_only. destruct (x =? KYVE)%N; lia.
  - exfalso. apply send_None in Es.
    2:{ apply cpos_of_amt; [|apply Hle]. rewrite Hr. unfold lg_owed. destruct (lg_dels (gl b s) !! d); [apply cnz_cmap|apply cnz_empty]. }
    apply not_true_iff_false in Es. apply Es.
    apply cle_spec. intros x v Hv. change (amt (bal_of (ds_bank st) MDelegation) x) with (bal (ds_bank st) MDelegation x).
    rewrite HF. specialize (Hle x). unfold amt in Hle. rewrite Hv in Hle. simpl in Hle.
    pose proof (bookP_ge b s x HB HS0). pose proof (bookT_nonneg b HB). specialize (Hc x).
    unfold held, kyve_only. destruct (x =? KYVE)%N; lia.
Qed.

Lemma kyve_only_add x a b : kyve_only x (a + b) = kyve_only x a + kyve_only x b.
Proof. unfold kyve_only. destruct (x =? KYVE)%N; lia. Qed.
Lemma kyve_only_nonneg x a : 0 <= a -> 0 <= kyve_only x a.
Proof. unfold kyve_only. destruct (x =? KYVE)%N; lia. Qed.
Lemma amt_coin_kyve v x : amt (coin KYVE v) x = kyve_only x v.
Proof. rewrite amt_coin. unfold kyve_only. destruct (decide _) as [->|H]; [by rewrite N.eqb_refl|].
  destruct (N.eqb_spec x KYVE); [congruence|done]. Qed.

Lemma held_leave b s d x : BInv b -> safeE b ->
  held (b_leave b s d) x = held b x - kyve_only x (snd (lg_leave (gl b s) d)).
Proof.
  intros HB HS. unfold b_leave. rewrite held_insert.
  destruct (LInv_leave _ _ d (HB s) (HS s)) as (_ & -> & _).
  assert (a_P (a_leave (gl b s) (ga b s) d) x = a_P (ga b s) x) as ->
    by (unfold a_leave; by destruct (lg_dels _ !! d)).
  unfold kyve_only. destruct (x =? KYVE)%N; lia.
Qed.

Lemma held_join b s d a x : held (b_join b s d a) x = held b x + kyve_only x a.
Proof.
  unfold b_join. rewrite held_insert.
  assert (a_P (a_join (gl b s) (ga b s) a) x = a_P (ga b s) x) as ->
    by (unfold a_join; by destruct (a =? 0)).
  assert (lg_total (lg_join (gl b s) d a) = lg_total (gl b s) + a) as ->.
  { unfold lg_join. destruct (a =? 0) eqn:E; simpl; lia. }
  unfold kyve_only. destruct (x =? KYVE)%N; lia.
Qed.

Lemma bank_of_delegation st s d a :
  ds_bank (perform_delegation st s d a) =
  if bool_decide (is_Some (f_delegators (getf st s) !! d))
  then ds_bank (fst (perform_withdrawal (remove_index st s) s d)) else ds_bank st.
Proof.
  unfold perform_delegation. change (getf (remove_index st s) s) with (getf st s).
  destruct (bool_decide _); [|done].
  destruct (perform_withdrawal _ s d) as [sw err]. by destruct (f1_remove _ d).
Qed.

Lemma halt_of_delegation st s d a :
  ds_halt (perform_delegation st s d a) =
  if bool_decide (is_Some (f_delegators (getf st s) !! d))
  then ds_halt st || failed (snd (perform_withdrawal (remove_index st s) s d)) else ds_halt st.
Proof.
  unfold perform_delegation. change (getf (remove_index st s) s) with (getf st s).
  destruct (bool_decide _); [|done].
  pose proof (withdrawal_frame (remove_index st s) s d) as HW. simpl in HW.
  destruct (perform_withdrawal _ s d) as [sw err]. simpl in HW. destruct (f1_remove _ d). simpl.
  destruct HW as (_ & _ & _ & _ & _ & _ & _ & ->). done.
Qed.

Lemma bank_of_undelegation st s d a :
  ds_bank (fst (perform_undelegation st s d a))
  = ds_bank (fst (perform_withdrawal (remove_index st s) s d)).
Proof.
  unfold perform_undelegation.
  destruct (perform_withdrawal _ s d) as [sw err]. destruct (f1_remove _ d) as [f und]. by destruct (und >? a).
Qed.
Lemma halt_of_undelegation st s d a :
  ds_halt (fst (perform_undelegation st s d a))
  = ds_halt st || failed (snd (perform_withdrawal (remove_index st s) s d)).
Proof.
  unfold perform_undelegation.
  pose proof (withdrawal_frame (remove_index st s) s d) as HW. simpl in HW.
  destruct (perform_withdrawal _ s d) as [sw err]. simpl in HW.
  destruct HW as (_ & _ & _ & _ & _ & _ & _ & HW).
  destruct (f1_remove _ d) as [f und]. destruct (und >? a); simpl; by rewrite HW.
Qed.

Definition csubk (c : N -> Z) (v : Z) : N -> Z := fun x => c x - kyve_only x v.
Definition caddk (c : N -> Z) (v : Z) : N -> Z := fun x => c x + kyve_only x v.

Lemma Fin_delegate st b s d a c :
  Good st b -> safe (b_delegate b s d a) -> 0 <= a -> Fin st b c -> cnonneg c -> ds_halt st = false ->
  Fin (perform_delegation st s d a) (b_delegate b s d a) (csubk c a) /\
  ds_halt (perform_delegation st s d a) = false.
Proof.
  intros HG HS Ha HF Hc Hh.
  assert (HSE : safeE b) by (intros s'; destruct HS as [HS _]; specialize (HS s'); by rewrite E_delegate in HS).
  pose proof (Good_BInv _ _ HG HSE) as HB.
  destruct (BInv_delegate b s d a HB HSE Ha) as (HB' & _ & L & _).
  destruct (HG s) as [HR _]. pose proof (Rel_exists _ _ d HR) as Hex.
  assert (HG0 : Good (remove_index st s) b) by (by eapply Good_same_f1; [|exact HG]).
  unfold Fin. rewrite bank_of_delegation, halt_of_delegation, Hex.
  destruct (lg_dels (gl b s) !! d) eqn:E.
  - assert (HSw : safe (b_withdraw b s d)).
    { eapply safe_le; [|apply L; done|done]. intros s'. by rewrite E_withdraw, E_delegate. }
    destruct (Fin_withdrawal _ _ s d c HG0 HSw HF Hc) as [Hp HF1].
    rewrite Hp, Hh. split; [|done]. intros x. rewrite HF1.
    unfold b_delegate. rewrite E. rewrite held_join, held_leave by auto using BInv_withdraw, safeE_withdraw.
    unfold csubk. rewrite kyve_only_add. lia.
  - split; [|done]. intros x. rewrite HF. unfold b_delegate. rewrite E, held_join. unfold csubk. lia.
Qed.

Lemma leave_withdraw_balance b s d :
  snd (lg_leave (gl (b_withdraw b s d) s) d) = lg_balance (gl b s) d.
Proof.
  unfold b_withdraw. rewrite gl_insert, decide_True by done.
  unfold lg_withdraw, lg_leave, lg_balance. destruct (lg_dels (gl b s) !! d) as [x|] eqn:Ex; simpl; [|by rewrite Ex].
  rewrite lookup_insert. simpl. by rewrite trunc_int_of_int.
Qed.

Lemma Fin_undelegate st b s d a c :
  Good st b -> safe (b_undelegate b s d a) -> 0 <= a -> Fin st b c -> cnonneg c -> ds_halt st = false ->
  Fin (fst (perform_undelegation st s d a)) (b_undelegate b s d a)
      (caddk c (Z.min a (lg_balance (gl b s) d))) /\
  ds_halt (fst (perform_undelegation st s d a)) = false.
Proof.
  intros HG HS Ha HF Hc Hh.
  assert (HSE : safeE b) by (intros s'; destruct HS as [HS _]; specialize (HS s'); by rewrite E_undelegate in HS).
  pose proof (Good_BInv _ _ HG HSE) as HB.
  destruct (BInv_undelegate b s d a HB HSE) as (HB' & _ & L).
  assert (HG0 : Good (remove_index st s) b) by (by eapply Good_same_f1; [|exact HG]).
  assert (HSw : safe (b_withdraw b s d)).
  { eapply safe_le; [|exact L|done]. intros s'. by rewrite E_withdraw, E_undelegate. }
  destruct (Fin_withdrawal _ _ s d c HG0 HSw HF Hc) as [Hp HF1].
  unfold Fin. rewrite bank_of_undelegation, halt_of_undelegation, Hp, Hh. split; [|done].
  intros x. rewrite HF1. unfold b_undelegate. rewrite leave_withdraw_balance.
  unfold caddk. destruct (_ >? a) eqn:E.
  - rewrite held_join, held_leave by auto using BInv_withdraw, safeE_withdraw.
    rewrite leave_withdraw_balance. rewrite Z.min_l by lia. unfold kyve_only. destruct (x =? KYVE)%N; lia.
  - rewrite held_leave by auto using BInv_withdraw, safeE_withdraw.
    rewrite leave_withdraw_balance. rewrite Z.min_r by lia. lia.
Qed.

Lemma lg_balance_nonneg l g d : LInv l g -> 0 <= lg_balance l d.
Proof.
  intros HI. unfold lg_balance. destruct (lg_dels l !! d) as [x|] eqn:E; [|done].
  destruct (li_dels _ _ HI d x E) as (Hb & _). by apply trunc_int_spec.
Qed.

Lemma Fin_process_one st b low e c :
  Good st b -> safe (b_undelegate b (u_staker e) (u_delegator e) (u_amount e)) -> 0 <= u_amount e ->
  Fin st b c -> cnonneg c -> ds_halt st = false ->
  Fin (fst (process_one st low e)) (b_undelegate b (u_staker e) (u_delegator e) (u_amount e)) c /\
  ds_halt (fst (process_one st low e)) = false.
Proof.
  intros HG HS Ha HF Hc Hh. unfold process_one.
  assert (HSE : safeE b) by (intros s'; destruct HS as [HS1 _]; specialize (HS1 s'); by rewrite E_undelegate in HS1).
  pose proof (Good_BInv _ _ HG HSE) as HB.
  destruct (Good_undelegate st b (u_staker e) (u_delegator e) (u_amount e) HG Ha) as [HG1 Hp].
  destruct (Fin_undelegate st b (u_staker e) (u_delegator e) (u_amount e) c HG HS Ha HF Hc Hh) as [HF1 Hh1].
  destruct (perform_undelegation _ _ _ _) as [st1 paid]. simpl in HG1, Hp, HF1, Hh1. simpl.
  rewrite <- Hp in HF1.
  assert (Hpos : 0 <= paid) by (rewrite Hp; pose proof (lg_balance_nonneg _ _ (u_delegator e) (HB (u_staker e))); lia).
  unfold pay_user. destruct (send (ds_bank st1) MDelegation (User (u_delegator e)) (coin KYVE paid)) as [bk|] eqn:Es; simpl.
  - split; [|done]. apply send_Some in Es as [_ Hb]. intros x. simpl. rewrite Hb.
    rewrite decide_True by done. rewrite decide_False by done. rewrite HF1, amt_coin_kyve. unfold caddk. lia.
  - exfalso. apply send_None in Es; [|by apply cpos_coin]. apply not_true_iff_false in Es. apply Es.
    apply cle_spec. intros x v Hv. change (amt (bal_of (ds_bank st1) MDelegation) x) with (bal (ds_bank st1) MDelegation x).
    rewrite HF1. assert (v = kyve_only x paid) as ->.
    { rewrite <- amt_coin_kyve. unfold amt. by rewrite Hv. }
    pose proof (held_nonneg _ x (Good_BInv _ _ HG1 (proj1 HS)) HS). specialize (Hc x). unfold caddk. lia.
Qed.

Lemma Fin_loop fuel st b low c :
  Good st b -> safe (b_loop fuel st b low) -> queue_ok st -> Fin st b c -> cnonneg c -> ds_halt st = false ->
  Fin (fst (fst (process_loop fuel st low))) (b_loop fuel st b low) c /\
  ds_halt (fst (fst (process_loop fuel st low))) = false.
Proof.
  revert st b low. induction fuel as [|fuel IH]; intros st b low HG HS HQ HF Hc Hh; simpl in *; [done|].
  destruct (ds_queue st !! (low + 1)%N) as [e|] eqn:Ee.
  - destruct (due st e); [|done].
    assert (HSE : safeE b).
    { intros s'; destruct HS as [HS1 _]; specialize (HS1 s'); by rewrite E_loop, E_undelegate in HS1. }
    pose proof (Good_BInv _ _ HG HSE) as HB.
    destruct (BInv_undelegate b (u_staker e) (u_delegator e) (u_amount e) HB HSE) as (HB1 & _ & _).
    assert (HSu : safe (b_undelegate b (u_staker e) (u_delegator e) (u_amount e))).
    { eapply safe_le; [|eapply (BInv_loop _ _ _ _ HB1 (safeE_undelegate _ _ _ _ HSE))|exact HS].
      intros s'. by rewrite E_loop. }
    destruct (Good_process_one st b low e HG (HQ _ _ Ee)) as [HG1 _].
    destruct (Fin_process_one st b low e c HG HSu (HQ _ _ Ee) HF Hc Hh) as [HF1 Hh1].
    pose proof (process_one_frame st low e) as HFr. cbv zeta in HFr.
    destruct (process_one st low e) as [st3 paid]. simpl in HG1, HFr, HF1, Hh1, HS. simpl.
    destruct HFr as (Hq & _).
    specialize (IH st3 _ (low + 1)%N HG1 HS).
    destruct (process_loop fuel st3 (low + 1)%N) as [[st4 low'] out]. simpl in *.
    apply IH; [|done|done|done].
    intros k e' Hk. rewrite Hq in Hk. apply lookup_delete_Some in Hk as [_ Hk]. by eapply HQ.
  - destruct (low <? ds_high st)%N; [by apply IH|done].
Qed.

Record Good2 (st : dstate) (b : book) (c : N -> Z) : Prop := {
  g2_good : Good st b; g2_env : Env st; g2_fin : Fin st b c; g2_halt : ds_halt st = false
}.

Lemma leS_step st b o : BInv b -> safeE b -> dop_ok st o -> leS b (b_step st b o).
Proof.
  intros HB HS Hok. destruct o; cbn [b_step]; cbv zeta; try apply leS_refl.
  - destruct (msg_delegate _ _ _ _ _); [|apply leS_refl].
    apply BInv_delegate; [done|done|simpl in Hok; lia].
  - destruct (msg_redelegate _ _ _ _ _ _ _); [|apply leS_refl].
    destruct (BInv_undelegate b from d amount HB HS) as (HB1 & L1 & L2).
    eapply leS_trans; [exact L1|]. eapply leS_trans; [exact L2|].
    apply BInv_delegate; [done|by apply safeE_undelegate|simpl in Hok; lia].
  - destruct (msg_withdraw _ _ _); [|apply leS_refl]. by apply leS_withdraw.
  - destruct (payout_rewards _ _ _ _); [|apply leS_refl]. destruct (cempty c); [apply leS_refl|].
    apply leS_insert. intros x. simpl. lia.
  - destruct (f_data _); [|apply leS_refl]. apply leS_insert. intros x. simpl.
    pose proof (dist_cost_nonneg _ _ x (HB s)). unfold ONE. lia.
  - by apply BInv_loop.
Qed.

(** Coins put into the module account from outside (a join message may name any recipient). *)
Definition donated (st : dstate) (o : dop) (x : N) : Z :=
  match o with OBank b => bal b MDelegation x - bal (ds_bank st) MDelegation x | _ => 0 end.
Fixpoint donations (st : dstate) (ops : list dop) (x : N) : Z :=
  match ops with [] => 0 | o :: t => donated st o x + donations (dstep st o) t x end.
Definition cplus (c c' : N -> Z) (x : N) : Z := c x + c' x.
Lemma donated_nonneg st o x : dop_ok st o -> 0 <= donated st o x.
Proof. intros H. destruct o; simpl in *; try done. specialize (H x). lia. Qed.
Lemma donations_nonneg st ops x : ops_ok st ops -> 0 <= donations st ops x.
Proof.
  revert st. induction ops as [|o t IH]; intros st H; simpl in *; [lia|]. destruct H as [Ho H].
  pose proof (donated_nonneg st o x Ho). specialize (IH _ H). lia.
Qed.
Lemma cplus_nonneg c st o : cnonneg c -> dop_ok st o -> cnonneg (cplus c (donated st o)).
Proof. intros Hc Ho x. pose proof (donated_nonneg st o x Ho). specialize (Hc x). unfold cplus. lia. Qed.
Lemma Good2_ext st b c c' : (forall x, c x = c' x) -> Good2 st b c -> Good2 st b c'.
Proof. intros H [HG HE HF Hh]. split; [done|done| |done]. intros x. rewrite <- H. apply HF. Qed.

Lemma Good2_step st b o c :
  Good2 st b c -> cnonneg c -> dop_ok st o -> safe (b_step st b o) ->
  Good2 (dstep st o) (b_step st b o) (cplus c (donated st o)).
Proof.
  intros [HG HE HF Hh] Hc Hok HS.
  assert (HSE : safeE b) by (destruct HS as [HS _]; by eapply safeE_step).
  pose proof (Good_BInv _ _ HG HSE) as HB.
  destruct (Good_step st b o HG HE Hok) as [HG' HE'].
  cut (Fin (dstep st o) (b_step st b o) (cplus c (donated st o)) /\ ds_halt (dstep st o) = false); [intros []; by constructor|].
  assert (Hz : (forall x, donated st o x = 0) -> Fin (dstep st o) (b_step st b o) c /\ ds_halt (dstep st o) = false ->
    Fin (dstep st o) (b_step st b o) (cplus c (donated st o)) /\ ds_halt (dstep st o) = false).
  { intros Hd [HF1 Hh1]. split; [|done]. intros x. unfold cplus. rewrite Hd. rewrite HF1. lia. }
  destruct (match o with OBank _ => true | _ => false end) eqn:Eo.
  { clear Hz. destruct o; try done. split; [|done]. intros x. cbn [dstep b_step ds_bank with_bank]. unfold cplus, donated. rewrite HF. lia. }
  apply Hz; [by destruct o|]. clear Hz.
  clear HG' HE'. destruct HE as [HQ HP].
  destruct o; cbn [b_step dstep dop_ok] in *; cbv zeta in *.
  - destruct (msg_delegate st staker_exists d s amount) as [st'|] eqn:Em; [|done]. simpl.
    unfold msg_delegate in Em. destruct (negb staker_exists); [done|].
    destruct (Fin_delegate st b s d amount c HG HS ltac:(lia) HF Hc Hh) as [HF1 Hh1].
    destruct (send _ _ _ _) as [bk|] eqn:Es; [|done]. injection Em as <-.
    split; [|done]. apply send_Some in Es as [_ Hb]. intros x. simpl. rewrite Hb.
    rewrite decide_False by done. rewrite decide_True by done.
    rewrite HF1, amt_coin_kyve. unfold csubk. lia.
  - unfold msg_undelegate. by destruct (amount >? _).
  - destruct (msg_redelegate st target_exists target_active d from to amount) as [st'|] eqn:Em; [|done]. simpl.
    unfold msg_redelegate in Em.
    destruct (negb (bool_decide _)); [done|]. destruct (negb target_exists); [done|].
    destruct (negb target_active); [done|]. destruct (amount >? _); [done|].
    destruct (consume_spell _ _ _) as [l|]; [|done].
    set (st1 := with_cool _ _) in *.
    assert (HG1 : Good st1 b) by (by eapply Good_same_f1; [|exact HG]).
    assert (HSu : safe (b_undelegate b from d amount)).
    { eapply safe_le; [| |exact HS]; [intros s'; by rewrite E_delegate|].
      apply BInv_delegate; [|by apply safeE_undelegate|lia]. by apply BInv_undelegate. }
    destruct (Good_undelegate st1 b from d amount HG1 ltac:(lia)) as [HG2 Hact].
    destruct (Fin_undelegate st1 b from d amount c HG1 HSu ltac:(lia) HF Hc Hh) as [HF2 Hh2].
    destruct (perform_undelegation st1 from d amount) as [st2 actual]. cbn [fst snd] in *.
    destruct (negb (actual =? amount)) eqn:En; [done|]. injection Em as <-.
    assert (Hmin : Z.min amount (lg_balance (gl b from) d) = amount) by lia. rewrite Hmin in HF2.
    destruct (Fin_delegate st2 (b_undelegate b from d amount) to d amount (caddk c amount)
                HG2 HS ltac:(lia) HF2) as [HF3 Hh3]; [|done|].
    { intros x. unfold caddk. specialize (Hc x). pose proof (kyve_only_nonneg x amount ltac:(lia)). lia. }
    split; [|done]. intros x. rewrite HF3. unfold csubk, caddk. lia.
  - destruct (msg_withdraw st d s) as [st'|] eqn:Em; [|done]. simpl. unfold msg_withdraw in Em.
    destruct (negb (bool_decide _)); [done|].
    destruct (Fin_withdrawal st b s d c HG HS HF Hc) as [_ HF1].
    pose proof (withdrawal_frame st s d) as HW. cbv zeta in HW.
    destruct (perform_withdrawal st s d) as [st1 [r|]]; [|done]. injection Em as <-. cbn [fst snd] in *.
    split; [done|]. destruct HW as (_ & _ & _ & _ & _ & _ & _ & ->). done.
  - destruct Hok as [Hcp Hpay].
    destruct (payout_rewards st s c0 payer) as [st'|] eqn:Em; [|done]. simpl. unfold payout_rewards in Em.
    destruct (cempty c0); [by injection Em as <-|]. destruct (f_data (getf st s)); [|done].
    destruct (send _ _ _ _) as [bk|] eqn:Es; [|done]. injection Em as <-.
    split; [|done]. apply send_Some in Es as [_ Hb]. intros x. simpl. rewrite Hb.
    rewrite decide_False by done. rewrite decide_True by done. simpl.
    unfold b_reward. rewrite held_insert. simpl. rewrite HF. unfold kyve_only. destruct (x =? KYVE)%N; lia.
  - unfold slash_delegators. destruct (f_data (getf st s)) eqn:Ed; [|done].
    pose proof (valid_fraction _ t HP) as Hfr. destruct (HG s) as [HR _]. pose proof (HB s) as HL.
    destruct (Rel_slash _ _ _ HR Hfr) as [HR1 Hsl]. destruct (LInv_slash _ _ _ HL Hfr) as (HL1 & Hsl2 & Htot).
    change (getf (remove_index st s) s) with (getf st s).
    change (ds_params (remove_index st s)) with (ds_params st).
    destruct (f1_slash (getf st s) (slash_fraction (ds_params st) t)) as [f sl] eqn:Es. cbn [fst snd] in HR1, Hsl.
    rewrite <- Hsl in Hsl2, Htot.
    pose proof (bookT_ge b s HB) as HT.
    destruct HS as [HSE' HSS].
    assert (HS0 : safe b).
    { split; [done|]. intros s' x. specialize (HSS s' x). 
      assert (leS b (b_slash b s (slash_fraction (ds_params st) t))) as HL0.
      { apply leS_insert. intros y. simpl. pose proof (dist_cost_nonneg _ _ y (HB s)). unfold ONE. lia. }
      specialize (HL0 s' x). lia. }
    simpl. destruct (send (ds_bank st) MDelegation Treasury (coin KYVE sl)) as [bk|] eqn:Esend; simpl.
    + split; [|done]. apply send_Some in Esend as [_ Hb]. intros x. simpl. rewrite Hb.
      rewrite decide_True by done. rewrite decide_False by done. rewrite amt_coin_kyve, HF.
      unfold b_slash. rewrite held_insert, Htot. simpl. unfold kyve_only. destruct (x =? KYVE)%N; lia.
    + exfalso. apply send_None in Esend; [|apply cpos_coin; lia]. apply not_true_iff_false in Esend. apply Esend.
      apply cle_spec. intros x v Hv. change (amt (bal_of (ds_bank st) MDelegation) x) with (bal (ds_bank st) MDelegation x).
      rewrite HF. assert (v = kyve_only x sl) as ->.
      { rewrite <- amt_coin_kyve. unfold amt. by rewrite Hv. }
      pose proof (bookP_ge b s x HB HS0). specialize (Hc x).
      unfold held, kyve_only. destruct (x =? KYVE)%N; lia.
  - unfold process_queue. set (st1 := with_time st (ds_time st + dt)) in *.
    assert (HG1 : Good st1 b) by (by eapply Good_same_f1; [|exact HG]).
    destruct (Fin_loop (queue_fuel st1) st1 b (ds_low st1) c HG1 HS HQ HF Hc Hh) as [HF1 Hh1].
    by destruct (process_loop _ _ _) as [[st2 low] out].
  - done.
  - done.
Qed.

Lemma safe_step st b o : BInv b -> dop_ok st o -> safe (b_step st b o) -> safe b.
Proof.
  intros HB Hok HS. assert (HSE : safeE b) by (destruct HS as [HS _]; by eapply safeE_step).
  split; [done|]. intros s x. pose proof (leS_step st b o HB HSE Hok s x). destruct HS as [_ HS].
  specialize (HS s x). lia.
Qed.

Lemma safe_run st b ops : Good st b -> Env st -> ops_ok st ops -> safe (brun st b ops) -> safe b.
Proof.
  revert st b. induction ops as [|o t IH]; intros st b HG HE Hok HS; simpl in *; [done|].
  destruct Hok as [Ho Hok].
  assert (HSE : safeE b) by (destruct HS as [HS _]; apply safeE_run, safeE_step in HS; done).
  destruct (Good_step st b o HG HE Ho) as [HG1 HE1].
  eapply safe_step; [by eapply Good_BInv|done|]. by eapply IH.
Qed.

Lemma Good2_run st b ops c :
  Good2 st b c -> cnonneg c -> ops_ok st ops -> safe (brun st b ops) ->
  Good2 (drun st ops) (brun st b ops) (cplus c (donations st ops)).
Proof.
  revert st b c. induction ops as [|o t IH]; intros st b c HG Hc Hok HS; simpl in *.
  { eapply Good2_ext; [|exact HG]. intros x. unfold cplus. simpl. lia. }
  destruct Hok as [Ho Hok]. destruct HG as [HG HE HF Hh].
  assert (HSE : safeE b) by (destruct HS as [HS _]; apply safeE_run, safeE_step in HS; done).
  destruct (Good_step st b o HG HE Ho) as [HG1 HE1].
  eapply Good2_ext; [|apply (IH _ _ (cplus c (donated st o)))]; [|apply Good2_step; [by constructor|done|done|by eapply safe_run]
    |by apply cplus_nonneg|done|done].
  intros x. unfold cplus. lia.
Qed.

Lemma Good2_init bk p t :
  dparams_valid p = true -> Good2 (dinit bk p t) ∅ (fun x => bal bk MDelegation x).
Proof.
  intros Hp. constructor; [apply Good_init| |intros x|done].
  - split; [|done]. intros k e. simpl. by rewrite lookup_empty.
  - simpl. unfold held, bookT, bookP, kyve_only. rewrite !msum_empty. destruct (x =? KYVE)%N; lia.
Qed.
