(** * The delegation module with a reserve: rounding can only ever cost a bounded amount (proofs).

    C02 says that the module account covers principal and rewards while the rounding is below one base
    unit. Here: however long the history is, the books balance to the unit, and as long as the account
    held a reserve of the rounding at the beginning, nobody is left unpaid and the chain does not halt. *)
From Verif Require Import Base BaseFacts Delegation F1Spec F1Refine F1Acct DelegationInv DelegationBank DelegationQueue
  DelegationProps DelegationRewards DelegationClaims DelegationClaims2.

Ltac Zify.zify_post_hook ::= Z.div_mod_to_equations.

Definition twoONE2 : Z := 2 * (ONE * ONE).
(** Base units of [x] by which a ledger may have been overpaid. *)
Definition short_of (p : ledger * allow) (x : N) : Z := a_S (snd p) x / twoONE2.
Definition short (b : book) (x : N) : Z := msum (fun _ p => short_of p x) b.
Definition covered (b : book) (c : N -> Z) : Prop := safeE b /\ forall x, short b x <= c x.

(** ** Sums over books *)
Lemma sum_elements_eq (b : book) (f : ledger * allow -> Z) (l : list N) :
  NoDup l -> (forall s, s ∉ l -> f (page b s) = 0) -> f (lg_empty, a_zero) = 0 ->
  foldr (fun s z => f (page b s) + z) 0 l = msum (fun _ p => f p) b.
Proof.
  intros Hnd Hf H0. revert b Hf. induction Hnd as [|a l Ha Hnd IH]; intros b Hf; simpl.
  - assert (H1 : 0 <= msum (fun _ p => f p) b).
    { apply msum_nonneg. intros k q Hk. specialize (Hf k ltac:(set_solver)). unfold page in Hf. rewrite Hk in Hf. simpl in Hf. lia. }
    assert (H2 : 0 <= msum (fun _ p => - f p) b).
    { apply msum_nonneg. intros k q Hk. specialize (Hf k ltac:(set_solver)). unfold page in Hf. rewrite Hk in Hf. simpl in Hf. lia. }
    rewrite (msum_ext _ (fun k p => (-1) * f p)) in H2 by (intros; lia). rewrite msum_scale in H2. lia.
  - assert (Hpd : forall s, page (delete a b) s = if decide (a = s) then (lg_empty, a_zero) else page b s).
    { intros s. unfold page. destruct (decide (a = s)) as [->|]; [by rewrite lookup_delete|by rewrite lookup_delete_ne]. }
    specialize (IH (delete a b)).
    assert (foldr (fun s z => f (page b s) + z) 0 l = foldr (fun s z => f (page (delete a b) s) + z) 0 l) as ->.
    { clear -Ha Hpd. induction l as [|c l IHl]; simpl; [done|].
      rewrite not_elem_of_cons in Ha. destruct Ha as [Hne Ha].
      rewrite IHl by done. rewrite Hpd, decide_False by done. done. }
    assert (Hd : msum (fun _ q => f q) b = f (page b a) + msum (fun _ q => f q) (delete a b)).
    { unfold page. destruct (b !! a) as [q|] eqn:Eb.
      - rewrite <- (insert_delete b a q Eb) at 1. rewrite msum_insert, lookup_delete. simpl. lia.
      - rewrite delete_notin by done. simpl. rewrite H0. lia. }
    rewrite Hd, IH; [done|]. intros s Hs. rewrite Hpd. destruct (decide _) as [|Hne]; [done|]. apply Hf. set_solver.
Qed.
Lemma sum_cover (b : book) (f : ledger * allow -> Z) (u : N -> Z) (l : list N) :
  NoDup l -> f (lg_empty, a_zero) = 0 -> (forall s, s ∈ l -> f (page b s) <= u s) -> (forall s, s ∉ l -> f (page b s) <= 0) ->
  msum (fun _ p => f p) b <= foldr (fun s z => u s + z) 0 l.
Proof.
  intros Hnd H0 Hu Hf. revert b Hu Hf. induction Hnd as [|a l Ha Hnd IH]; intros b Hu Hf; simpl.
  - assert (H2 : 0 <= msum (fun _ p => - f p) b).
    { apply msum_nonneg. intros k q Hk. specialize (Hf k ltac:(set_solver)). unfold page in Hf. rewrite Hk in Hf. simpl in Hf. lia. }
    rewrite (msum_ext _ (fun k p => (-1) * f p)) in H2 by (intros; lia). rewrite msum_scale in H2. lia.
  - assert (Hpd : forall s, page (delete a b) s = if decide (a = s) then (lg_empty, a_zero) else page b s).
    { intros s. unfold page. destruct (decide (a = s)) as [->|]; [by rewrite lookup_delete|by rewrite lookup_delete_ne]. }
    assert (Hd : msum (fun _ q => f q) b = f (page b a) + msum (fun _ q => f q) (delete a b)).
    { unfold page. destruct (b !! a) as [q|] eqn:Eb.
      - rewrite <- (insert_delete b a q Eb) at 1. rewrite msum_insert, lookup_delete. simpl. lia.
      - rewrite delete_notin by done. simpl. rewrite H0. lia. }
    specialize (IH (delete a b)). rewrite Hd. pose proof (Hu a ltac:(set_solver)). apply Z.add_le_mono; [done|]. apply IH.
    + intros s Hs. rewrite Hpd. destruct (decide (a = s)) as [->|]; [done|]. apply Hu. set_solver.
    + intros s Hs. rewrite Hpd. destruct (decide (a = s)) as [->|]; [lia|]. apply Hf. set_solver.
Qed.
Lemma page_notin (b : book) s : s ∉ dom b -> page b s = (lg_empty, a_zero).
Proof. intros H. apply not_elem_of_dom in H. unfold page. by rewrite H. Qed.
Lemma msum_pages (b b' : book) (f : ledger * allow -> Z) : f (lg_empty, a_zero) = 0 ->
  (forall s, f (page b s) <= f (page b' s)) -> msum (fun _ p => f p) b <= msum (fun _ p => f p) b'.
Proof.
  intros H0 H. set (l := elements (dom b ∪ dom b')).
  rewrite <- (sum_elements_eq b f l), <- (sum_elements_eq b' f l); try done; try apply NoDup_elements.
  - clear -H. induction l as [|a l IH]; simpl; [lia|]. specialize (H a). lia.
  - intros s Hs. unfold l in Hs. rewrite elem_of_elements in Hs. rewrite page_notin; [done|set_solver].
  - intros s Hs. unfold l in Hs. rewrite elem_of_elements in Hs. rewrite page_notin; [done|set_solver].
Qed.
Lemma short_zero x : short_of (lg_empty, a_zero) x = 0. Proof. done. Qed.
Lemma short_le b b' x : leS b b' -> short b x <= short b' x.
Proof.
  intros H. apply (msum_pages b b' (fun p => short_of p x)); [apply short_zero|]. intros s. unfold short_of.
  specialize (H s x). unfold ga in H. apply Z.div_le_mono; [done|exact H].
Qed.
Lemma covered_le b b' c : (forall s, a_E (ga b s) = a_E (ga b' s)) -> leS b b' -> covered b' c -> covered b c.
Proof.
  intros HE HL [H1 H2]. split; [intros s; rewrite HE; apply H1|]. intros x. pose proof (short_le b b' x HL). specialize (H2 x). lia.
Qed.
Lemma covered_more b c c' : (forall x, c x <= c' x) -> covered b c -> covered b c'.
Proof. intros H [H1 H2]. split; [done|]. intros x. specialize (H x). specialize (H2 x). lia. Qed.

(** ** The pots *)
Lemma pot_ge l g x : LInv l g -> - (a_S g x / twoONE2) <= a_P g x.
Proof.
  intros HI. pose proof (liab_nonneg _ _ x HI). pose proof (li_liab _ _ HI x). pose proof (cpos_amt _ x (li_rew _ _ HI)).
  assert (- a_P g x <= a_S g x / twoONE2); [|lia]. apply Z.div_le_lower_bound; [done|]. unfold twoONE2.
  assert (0 <= 2 * amt (lg_rewards l) x * (ONE * ONE)) by (apply Z.mul_nonneg_nonneg; [lia|done]). lia.
Qed.
Lemma pots_ge b x : BInv b -> - short b x <= bookP b x.
Proof.
  intros HB. unfold short, bookP. rewrite <- (Z.mul_1_l (msum (fun _ p => short_of p x) b)), <- Z.mul_opp_l, <- msum_scale.
  apply msum_le. intros s p Hp. pose proof (pot_ge _ _ x (HB s)) as H. destruct (book_in _ _ _ Hp) as [_ E]. rewrite E in H. unfold short_of. lia.
Qed.
Lemma held_ge b x : BInv b -> - short b x <= held b x.
Proof. intros HB. unfold held, kyve_only. pose proof (bookT_nonneg b HB). pose proof (pots_ge b x HB). destruct (x =? KYVE)%N; lia. Qed.

(** ** Every payment succeeds *)
Lemma Cin_withdrawal st b s d c :
  Good st b -> covered (b_withdraw b s d) c -> Fin st b c ->
  snd (perform_withdrawal st s d) = Some (lg_owed (gl b s) d) /\
  Fin (fst (perform_withdrawal st s d)) (b_withdraw b s d) c.
Proof.
  intros HG HS HF.
  assert (HSE : safeE b) by (intros s'; destruct HS as [HS _]; specialize (HS s'); by rewrite E_withdraw in HS).
  pose proof (Good_BInv _ _ HG HSE) as HB. pose proof (BInv_withdraw b s d HB) as HB'.
  unfold perform_withdrawal. destruct (HG s) as [HR _]. pose proof (HB s) as HL.
  destruct (Rel_withdraw _ _ d HR) as [_ Hpay].
  destruct (f1_withdraw (getf st s) d) as [f r]. simpl in Hpay.
  assert (Hr : r = lg_owed (gl b s) d).
  { rewrite Hpay. unfold lg_withdraw, lg_owed. by destruct (lg_dels (gl b s) !! d). }
  assert (Hnn : forall y, 0 <= amt r y).
  { intros y. rewrite Hr. destruct (lg_dels (gl b s) !! d) eqn:E; [by apply (owed_bound _ _ _ _ y HL E)|].
    unfold lg_owed. by rewrite E, amt_empty. }
  assert (Hh : forall x, held (b_withdraw b s d) x = held b x - amt r x).
  { intros x. unfold b_withdraw. rewrite held_insert.
    assert (a_P (a_withdraw (gl b s) (ga b s) d) x = a_P (ga b s) x - amt r x) as ->.
    { rewrite Hr. unfold a_withdraw, lg_owed. destruct (lg_dels (gl b s) !! d) eqn:E; simpl; [done|].
      rewrite amt_empty. lia. }
    assert (lg_total (fst (lg_withdraw (gl b s) d)) = lg_total (gl b s)) as ->.
    { unfold lg_withdraw. by destruct (lg_dels (gl b s) !! d). }
    unfold kyve_only. destruct (x =? KYVE)%N; lia. }
  set (st1 := if bool_decide _ then _ else _).
  assert (Hbk : ds_bank st1 = ds_bank st) by (unfold st1; by destruct (bool_decide _)).
  unfold pay_user. rewrite Hbk.
  destruct (send (ds_bank st) MDelegation (User d) r) as [bk|] eqn:Es.
  - simpl. split; [by f_equal|]. apply send_Some in Es as [_ Hb].
    intros x. simpl. rewrite Hb. rewrite decide_True by done. rewrite decide_False by done. rewrite Hh, HF. lia.
  - exfalso. apply send_None in Es.
    2:{ apply cpos_of_amt; [|apply Hnn]. rewrite Hr. unfold lg_owed. destruct (lg_dels (gl b s) !! d); [apply cnz_cmap|apply cnz_empty]. }
    apply not_true_iff_false in Es. apply Es.
    apply cle_spec. intros x v Hv. change (amt (bal_of (ds_bank st) MDelegation) x) with (bal (ds_bank st) MDelegation x).
    rewrite HF. assert (v = amt r x) as -> by (unfold amt; by rewrite Hv).
    pose proof (held_ge _ x HB'). specialize (Hh x). destruct HS as [_ HS]. specialize (HS x). lia.
Qed.

Lemma Cin_delegate st b s d a c :
  Good st b -> covered (b_delegate b s d a) c -> 0 <= a -> Fin st b c -> ds_halt st = false ->
  Fin (perform_delegation st s d a) (b_delegate b s d a) (csubk c a) /\
  ds_halt (perform_delegation st s d a) = false.
Proof.
  intros HG HS Ha HF Hh.
  assert (HSE : safeE b) by (intros s'; destruct HS as [HS _]; specialize (HS s'); by rewrite E_delegate in HS).
  pose proof (Good_BInv _ _ HG HSE) as HB.
  destruct (BInv_delegate b s d a HB HSE Ha) as (HB' & _ & L & _).
  destruct (HG s) as [HR _]. pose proof (Rel_exists _ _ d HR) as Hex.
  assert (HG0 : Good (remove_index st s) b) by (by eapply Good_same_f1; [|exact HG]).
  unfold Fin. rewrite bank_of_delegation, halt_of_delegation, Hex.
  destruct (lg_dels (gl b s) !! d) eqn:E.
  - assert (HSw : covered (b_withdraw b s d) c).
    { eapply covered_le; [|apply L; done|done]. intros s'. by rewrite E_withdraw, E_delegate. }
    destruct (Cin_withdrawal _ _ s d c HG0 HSw HF) as [Hp HF1].
    rewrite Hp, Hh. split; [|done]. intros x. rewrite HF1.
    unfold b_delegate. rewrite E. rewrite held_join, held_leave by auto using BInv_withdraw, safeE_withdraw.
    unfold csubk. rewrite kyve_only_add. lia.
  - split; [|done]. intros x. rewrite HF. unfold b_delegate. rewrite E, held_join. unfold csubk. lia.
Qed.

Lemma Cin_undelegate st b s d a c :
  Good st b -> covered (b_undelegate b s d a) c -> 0 <= a -> Fin st b c -> ds_halt st = false ->
  Fin (fst (perform_undelegation st s d a)) (b_undelegate b s d a)
      (caddk c (Z.min a (lg_balance (gl b s) d))) /\
  ds_halt (fst (perform_undelegation st s d a)) = false.
Proof.
  intros HG HS Ha HF Hh.
  assert (HSE : safeE b) by (intros s'; destruct HS as [HS _]; specialize (HS s'); by rewrite E_undelegate in HS).
  pose proof (Good_BInv _ _ HG HSE) as HB.
  destruct (BInv_undelegate b s d a HB HSE) as (HB' & _ & L).
  assert (HG0 : Good (remove_index st s) b) by (by eapply Good_same_f1; [|exact HG]).
  assert (HSw : covered (b_withdraw b s d) c).
  { eapply covered_le; [|exact L|done]. intros s'. by rewrite E_withdraw, E_undelegate. }
  destruct (Cin_withdrawal _ _ s d c HG0 HSw HF) as [Hp HF1].
  unfold Fin. rewrite bank_of_undelegation, halt_of_undelegation, Hp, Hh. split; [|done].
  intros x. rewrite HF1. unfold b_undelegate. rewrite leave_withdraw_balance.
  unfold caddk. destruct (_ >? a) eqn:E.
  - rewrite held_join, held_leave by auto using BInv_withdraw, safeE_withdraw.
    rewrite leave_withdraw_balance. rewrite Z.min_l by lia. unfold kyve_only. destruct (x =? KYVE)%N; lia.
  - rewrite held_leave by auto using BInv_withdraw, safeE_withdraw.
    rewrite leave_withdraw_balance. rewrite Z.min_r by lia. lia.
Qed.

Lemma Cin_process_one st b low e c :
  Good st b -> covered (b_undelegate b (u_staker e) (u_delegator e) (u_amount e)) c -> 0 <= u_amount e ->
  Fin st b c -> ds_halt st = false ->
  Fin (fst (process_one st low e)) (b_undelegate b (u_staker e) (u_delegator e) (u_amount e)) c /\
  ds_halt (fst (process_one st low e)) = false.
Proof.
  intros HG HS Ha HF Hh. unfold process_one.
  assert (HSE : safeE b) by (intros s'; destruct HS as [HS1 _]; specialize (HS1 s'); by rewrite E_undelegate in HS1).
  pose proof (Good_BInv _ _ HG HSE) as HB.
  destruct (Good_undelegate st b (u_staker e) (u_delegator e) (u_amount e) HG Ha) as [HG1 Hp].
  destruct (Cin_undelegate st b (u_staker e) (u_delegator e) (u_amount e) c HG HS Ha HF Hh) as [HF1 Hh1].
  destruct (perform_undelegation _ _ _ _) as [st1 paid]. simpl in HG1, Hp, HF1, Hh1. simpl.
  rewrite <- Hp in HF1.
  assert (Hpos : 0 <= paid) by (rewrite Hp; pose proof (lg_balance_nonneg _ _ (u_delegator e) (HB (u_staker e))); lia).
  unfold pay_user. destruct (send (ds_bank st1) MDelegation (User (u_delegator e)) (coin KYVE paid)) as [bk|] eqn:Es; simpl.
  - split; [|done]. apply send_Some in Es as [_ Hb]. intros x. simpl. rewrite Hb.
    rewrite decide_True by done. rewrite decide_False by done. rewrite HF1, amt_coin_kyve. unfold caddk. lia.
  - exfalso. apply send_None in Es; [|by apply cpos_coin]. apply not_true_iff_false in Es. apply Es.
    apply cle_spec. intros x v Hv. change (amt (bal_of (ds_bank st1) MDelegation) x) with (bal (ds_bank st1) MDelegation x).
    rewrite HF1. assert (v = kyve_only x paid) as ->.
    { rewrite <- amt_coin_kyve. unfold amt. by rewrite Hv. }
    pose proof (held_ge _ x (Good_BInv _ _ HG1 (proj1 HS))). pose proof (proj2 HS x). unfold caddk. lia.
Qed.

Lemma Cin_loop fuel st b low c :
  Good st b -> covered (b_loop fuel st b low) c -> queue_ok st -> Fin st b c -> ds_halt st = false ->
  Fin (fst (fst (process_loop fuel st low))) (b_loop fuel st b low) c /\
  ds_halt (fst (fst (process_loop fuel st low))) = false.
Proof.
  revert st b low. induction fuel as [|fuel IH]; intros st b low HG HS HQ HF Hh; simpl in *; [done|].
  destruct (ds_queue st !! (low + 1)%N) as [e|] eqn:Ee.
  - destruct (due st e); [|done].
    assert (HSE : safeE b).
    { intros s'; destruct HS as [HS1 _]; specialize (HS1 s'); by rewrite E_loop, E_undelegate in HS1. }
    pose proof (Good_BInv _ _ HG HSE) as HB.
    destruct (BInv_undelegate b (u_staker e) (u_delegator e) (u_amount e) HB HSE) as (HB1 & _ & _).
    assert (HSu : covered (b_undelegate b (u_staker e) (u_delegator e) (u_amount e)) c).
    { eapply covered_le; [|eapply (BInv_loop _ _ _ _ HB1 (safeE_undelegate _ _ _ _ HSE))|exact HS].
      intros s'. by rewrite E_loop. }
    destruct (Good_process_one st b low e HG (HQ _ _ Ee)) as [HG1 _].
    destruct (Cin_process_one st b low e c HG HSu (HQ _ _ Ee) HF Hh) as [HF1 Hh1].
    pose proof (process_one_frame st low e) as HFr. cbv zeta in HFr.
    destruct (process_one st low e) as [st3 paid]. simpl in HG1, HFr, HF1, Hh1, HS. simpl.
    destruct HFr as (Hq & _).
    specialize (IH st3 _ (low + 1)%N HG1 HS).
    destruct (process_loop fuel st3 (low + 1)%N) as [[st4 low'] out]. simpl in *.
    apply IH; [|done|done].
    intros k e' Hk. rewrite Hq in Hk. apply lookup_delete_Some in Hk as [_ Hk]. by eapply HQ.
  - destruct (low <? ds_high st)%N; [by apply IH|done].
Qed.

Lemma Cood_step st b o c :
  Good2 st b c -> dop_ok st o -> covered (b_step st b o) c ->
  Good2 (dstep st o) (b_step st b o) (cplus c (donated st o)).
Proof.
  intros [HG HE HF Hh] Hok HS.
  assert (HSE : safeE b) by (destruct HS as [HS _]; by eapply safeE_step).
  pose proof (Good_BInv _ _ HG HSE) as HB.
  destruct (Good_step st b o HG HE Hok) as [HG' HE'].
  cut (Fin (dstep st o) (b_step st b o) (cplus c (donated st o)) /\ ds_halt (dstep st o) = false); [intros []; by constructor|].
  assert (Hz : (forall x, donated st o x = 0) -> Fin (dstep st o) (b_step st b o) c /\ ds_halt (dstep st o) = false ->
    Fin (dstep st o) (b_step st b o) (cplus c (donated st o)) /\ ds_halt (dstep st o) = false).
  { intros Hd [HF1 Hh1]. split; [|done]. intros x. unfold cplus. rewrite Hd. rewrite HF1. lia. }
  destruct (match o with OBank _ => true | _ => false end) eqn:Eo.
  { clear Hz. destruct o; try done. split; [|done]. intros x. cbn [dstep b_step ds_bank with_bank]. unfold cplus, donated. rewrite HF. lia. }
  apply Hz; [by destruct o|]. clear Hz.
  clear HG' HE'. destruct HE as [HQ HP].
  destruct o; cbn [b_step dstep dop_ok] in *; cbv zeta in *.
  - destruct (msg_delegate st staker_exists d s amount) as [st'|] eqn:Em; [|done]. simpl.
    unfold msg_delegate in Em. destruct (negb staker_exists); [done|].
    destruct (Cin_delegate st b s d amount c HG HS ltac:(lia) HF Hh) as [HF1 Hh1].
    destruct (send _ _ _ _) as [bk|] eqn:Es; [|done]. injection Em as <-.
    split; [|done]. apply send_Some in Es as [_ Hb]. intros x. simpl. rewrite Hb.
    rewrite decide_False by done. rewrite decide_True by done.
    rewrite HF1, amt_coin_kyve. unfold csubk. lia.
  - unfold msg_undelegate. by destruct (amount >? _).
  - destruct (msg_redelegate st target_exists target_active d from to amount) as [st'|] eqn:Em; [|done]. simpl.
    unfold msg_redelegate in Em.
    destruct (negb (bool_decide _)); [done|]. destruct (negb target_exists); [done|].
    destruct (negb target_active); [done|]. destruct (amount >? _); [done|].
    destruct (consume_spell _ _ _) as [l|]; [|done].
    set (st1 := with_cool _ _) in *.
    assert (HG1 : Good st1 b) by (by eapply Good_same_f1; [|exact HG]).
    assert (HSu : covered (b_undelegate b from d amount) c).
    { eapply covered_le; [| |exact HS]; [intros s'; by rewrite E_delegate|].
      apply BInv_delegate; [|by apply safeE_undelegate|lia]. by apply BInv_undelegate. }
    destruct (Good_undelegate st1 b from d amount HG1 ltac:(lia)) as [HG2 Hact].
    destruct (Cin_undelegate st1 b from d amount c HG1 HSu ltac:(lia) HF Hh) as [HF2 Hh2].
    destruct (perform_undelegation st1 from d amount) as [st2 actual]. cbn [fst snd] in *.
    destruct (negb (actual =? amount)) eqn:En; [done|]. injection Em as <-.
    assert (Hmin : Z.min amount (lg_balance (gl b from) d) = amount) by lia. rewrite Hmin in HF2.
    destruct (Cin_delegate st2 (b_undelegate b from d amount) to d amount (caddk c amount)
                HG2) as [HF3 Hh3]; [|lia|exact HF2|done|].
    { eapply covered_more; [|exact HS]. intros x. unfold caddk. pose proof (kyve_only_nonneg x amount ltac:(lia)). lia. }
    split; [|done]. intros x. rewrite HF3. unfold csubk, caddk. lia.
  - destruct (msg_withdraw st d s) as [st'|] eqn:Em; [|done]. simpl. unfold msg_withdraw in Em.
    destruct (negb (bool_decide _)); [done|].
    destruct (Cin_withdrawal st b s d c HG HS HF) as [_ HF1].
    pose proof (withdrawal_frame st s d) as HW. cbv zeta in HW.
    destruct (perform_withdrawal st s d) as [st1 [r|]]; [|done]. injection Em as <-. cbn [fst snd] in *.
    split; [done|]. destruct HW as (_ & _ & _ & _ & _ & _ & _ & ->). done.
  - destruct Hok as [Hcp Hpay].
    destruct (payout_rewards st s c0 payer) as [st'|] eqn:Em; [|done]. simpl. unfold payout_rewards in Em.
    destruct (cempty c0); [by injection Em as <-|]. destruct (f_data (getf st s)); [|done].
    destruct (send _ _ _ _) as [bk|] eqn:Es; [|done]. injection Em as <-.
    split; [|done]. apply send_Some in Es as [_ Hb]. intros x. simpl. rewrite Hb.
    rewrite decide_False by done. rewrite decide_True by done. simpl.
    unfold b_reward. rewrite held_insert. simpl. rewrite HF. unfold kyve_only. destruct (x =? KYVE)%N; lia.
  - unfold slash_delegators. destruct (f_data (getf st s)) eqn:Ed; [|done].
    pose proof (valid_fraction _ t HP) as Hfr. destruct (HG s) as [HR _]. pose proof (HB s) as HL.
    destruct (Rel_slash _ _ _ HR Hfr) as [HR1 Hsl]. destruct (LInv_slash _ _ _ HL Hfr) as (HL1 & Hsl2 & Htot).
    change (getf (remove_index st s) s) with (getf st s).
    change (ds_params (remove_index st s)) with (ds_params st).
    destruct (f1_slash (getf st s) (slash_fraction (ds_params st) t)) as [f sl] eqn:Es. cbn [fst snd] in HR1, Hsl.
    rewrite <- Hsl in Hsl2, Htot.
    pose proof (bookT_ge b s HB) as HT.
    assert (HS0 : covered b c).
    { split; [done|]. intros x. pose proof (proj2 HS x).
      assert (HLe : leS b (b_slash b s (slash_fraction (ds_params st) t))); [|pose proof (short_le _ _ x HLe); lia].
      apply leS_insert. intros y. simpl. pose proof (dist_cost_nonneg _ _ y (HB s)). unfold ONE. lia. }
    simpl. destruct (send (ds_bank st) MDelegation Treasury (coin KYVE sl)) as [bk|] eqn:Esend; simpl.
    + split; [|done]. apply send_Some in Esend as [_ Hb]. intros x. simpl. rewrite Hb.
      rewrite decide_True by done. rewrite decide_False by done. rewrite amt_coin_kyve, HF.
      unfold b_slash. rewrite held_insert, Htot. simpl. unfold kyve_only. destruct (x =? KYVE)%N; lia.
    + exfalso. apply send_None in Esend; [|apply cpos_coin; lia]. apply not_true_iff_false in Esend. apply Esend.
      apply cle_spec. intros x v Hv. change (amt (bal_of (ds_bank st) MDelegation) x) with (bal (ds_bank st) MDelegation x).
      rewrite HF. assert (v = kyve_only x sl) as ->.
      { rewrite <- amt_coin_kyve. unfold amt. by rewrite Hv. }
      pose proof (pots_ge b x HB). pose proof (proj2 HS0 x).
      unfold held, kyve_only. destruct (x =? KYVE)%N; lia.
  - unfold process_queue. set (st1 := with_time st (ds_time st + dt)) in *.
    assert (HG1 : Good st1 b) by (by eapply Good_same_f1; [|exact HG]).
    destruct (Cin_loop (queue_fuel st1) st1 b (ds_low st1) c HG1 HS HQ HF Hh) as [HF1 Hh1].
    by destruct (process_loop _ _ _) as [[st2 low] out].
  - done.
  - done.
Qed.

Lemma covered_step st b o c : BInv b -> dop_ok st o -> covered (b_step st b o) c -> covered b c.
Proof.
  intros HB Hok HS. assert (HSE : safeE b) by (destruct HS as [HS _]; by eapply safeE_step).
  split; [done|]. intros x. pose proof (short_le _ _ x (leS_step st b o HB HSE Hok)). pose proof (proj2 HS x). lia.
Qed.
Lemma covered_run st b ops c : Good st b -> Env st -> ops_ok st ops -> covered (brun st b ops) c -> covered b c.
Proof.
  revert st b. induction ops as [|o t IH]; intros st b HG HE Hok HS; simpl in *; [done|].
  destruct Hok as [Ho Hok].
  assert (HSE : safeE b) by (destruct HS as [HS _]; apply safeE_run, safeE_step in HS; done).
  destruct (Good_step st b o HG HE Ho) as [HG1 HE1].
  eapply covered_step; [by eapply Good_BInv|done|]. by eapply IH.
Qed.
Lemma covered_donated st o b c : dop_ok st o -> covered b c -> covered b (cplus c (donated st o)).
Proof. intros Ho [H1 H2]. split; [done|]. intros x. specialize (H2 x). pose proof (donated_nonneg st o x Ho). unfold cplus. lia. Qed.
Lemma Cood_run st b ops c :
  Good2 st b c -> ops_ok st ops -> covered (brun st b ops) c -> Good2 (drun st ops) (brun st b ops) (cplus c (donations st ops)).
Proof.
  revert st b c. induction ops as [|o t IH]; intros st b c HG Hok HS; simpl in *.
  { eapply Good2_ext; [|exact HG]. intros x. unfold cplus. simpl. lia. }
  destruct Hok as [Ho Hok]. destruct HG as [HG HE HF Hh].
  assert (HSE : safeE b) by (destruct HS as [HS _]; apply safeE_run, safeE_step in HS; done).
  destruct (Good_step st b o HG HE Ho) as [HG1 HE1].
  eapply Good2_ext; [|apply (IH _ _ (cplus c (donated st o)))];
    [|apply Cood_step; [by constructor|done|by eapply covered_run]|done|by apply covered_donated].
  intros x. unfold cplus. lia.
Qed.

(** ** What is paid *)
Lemma Cwd_eq st b s d c : Good st b -> covered (b_withdraw b s d) c -> Fin st b c ->
  wd st s d = lg_owed (gl b s) d.
Proof. intros. unfold wd. by rewrite (proj1 (Cin_withdrawal st b s d c H H0 H1)). Qed.
Lemma covered_u_w b s d a c : BInv b -> covered (b_undelegate b s d a) c -> covered (b_withdraw b s d) c.
Proof.
  intros HB HS.
  assert (HSE : safeE b) by (intros s'; destruct HS as [HS1 _]; specialize (HS1 s'); by rewrite E_undelegate in HS1).
  destruct (BInv_undelegate b s d a HB HSE) as (_ & _ & L).
  eapply covered_le; [|exact L|done]. intros s'. by rewrite E_withdraw, E_undelegate.
Qed.
Lemma covered_d_w b s d a c : BInv b -> 0 <= a -> covered (b_delegate b s d a) c ->
  covered (b_withdraw b s d) c \/ lg_dels (gl b s) !! d = None.
Proof.
  intros HB Ha HS.
  assert (HSE : safeE b) by (intros s'; destruct HS as [HS1 _]; specialize (HS1 s'); by rewrite E_delegate in HS1).
  destruct (BInv_delegate b s d a HB HSE Ha) as (_ & _ & L & _).
  destruct (lg_dels (gl b s) !! d) eqn:E; [left|by right].
  eapply covered_le; [|apply L; done|done]. intros s'. by rewrite E_withdraw, E_delegate.
Qed.
Lemma CP_loop_eq fuel st b low c s x :
  Good st b -> covered (b_loop fuel st b low) c -> queue_ok st -> Fin st b c -> ds_halt st = false ->
  let '(_, _, out) := process_loop fuel st low in
  a_P (ga (b_loop fuel st b low) s) x = a_P (ga b s) x - wd_list st out s x.
Proof.
  revert st b low. induction fuel as [|fuel IH]; intros st b low HG HS HQ HF Hh; simpl in *; [lia|].
  destruct (ds_queue st !! (low + 1)%N) as [e|] eqn:Ee.
  - destruct (due st e); [|simpl; lia].
    assert (HSE : safeE b).
    { intros s'; destruct HS as [HS1 _]; specialize (HS1 s'); by rewrite E_loop, E_undelegate in HS1. }
    pose proof (Good_BInv _ _ HG HSE) as HB.
    destruct (BInv_undelegate b (u_staker e) (u_delegator e) (u_amount e) HB HSE) as (HB1 & _ & _).
    assert (HSu : covered (b_undelegate b (u_staker e) (u_delegator e) (u_amount e)) c).
    { eapply covered_le; [|eapply (BInv_loop _ _ _ _ HB1 (safeE_undelegate _ _ _ _ HSE))|exact HS].
      intros s'. by rewrite E_loop. }
    destruct (Good_process_one st b low e HG (HQ _ _ Ee)) as [HG1 _].
    destruct (Cin_process_one st b low e c HG HSu (HQ _ _ Ee) HF Hh) as [HF1 Hh1].
    pose proof (process_one_frame st low e) as HFr. cbv zeta in HFr.
    pose proof (P_undelegate_eq b (u_staker e) (u_delegator e) (u_amount e) s x) as HPu.
    rewrite <- (Cwd_eq st b _ _ c HG (covered_u_w _ _ _ _ _ HB HSu) HF) in HPu.
    destruct (process_one st low e) as [st3 paid] eqn:E1. cbn [fst] in HG1, HFr, HF1, Hh1, HS.
    destruct HFr as (Hq & _).
    specialize (IH st3 _ (low + 1)%N HG1 HS).
    destruct (process_loop fuel st3 (low + 1)%N) as [[st4 low'] out]. simpl.
    replace (low + 1 - 1)%N with low by lia. rewrite E1. cbn [fst].
    assert (HQ1 : queue_ok st3).
    { intros k e' Hk. rewrite Hq in Hk. apply lookup_delete_Some in Hk as [_ Hk]. by eapply HQ. }
    specialize (IH HQ1 HF1 Hh1). lia.
  - destruct (low <? ds_high st)%N; [by apply IH|simpl; lia].
Qed.

Lemma CP_step_eq st b o c s x :
  Good2 st b c -> dop_ok st o -> covered (b_step st b o) c ->
  a_P (ga (b_step st b o) s) x = a_P (ga b s) x + received st o s x - withdrawn st o s x.
Proof.
  intros [HG HE HF Hh] Hok HS.
  assert (HSE : safeE b) by (destruct HS as [HS _]; by eapply safeE_step).
  pose proof (Good_BInv _ _ HG HSE) as HB. destruct HE as [HQ HP].
  destruct o; cbn [b_step received withdrawn dop_ok] in *; cbv zeta; try lia.
  - destruct (msg_delegate _ _ _ _ _); [|lia]. rewrite P_delegate_eq.
    destruct (covered_d_w _ _ _ amount _ HB ltac:(lia) HS) as [HSw|Hn];
      [rewrite (Cwd_eq st b s0 d c HG HSw HF)|rewrite (wd_none st b s0 d HG Hn)]; lia.
  - destruct (msg_redelegate _ _ _ _ _ _ _) as [st'|] eqn:Em; [|lia].
    assert (HSu : covered (b_undelegate b from d amount) c).
    { eapply covered_le; [| |exact HS]; [intros s'; by rewrite E_delegate|].
      apply BInv_delegate; [|by apply safeE_undelegate|lia]. by apply BInv_undelegate. }
    destruct (Good_undelegate st b from d amount HG ltac:(lia)) as [HG2 _].
    destruct (Cin_undelegate st b from d amount c HG HSu ltac:(lia) HF Hh) as [HF2 Hh2].
    pose proof (Good_BInv _ _ HG2 (proj1 HSu)) as HB2.
    rewrite P_delegate_eq, P_undelegate_eq.
    rewrite (Cwd_eq st b from d c HG (covered_u_w _ _ _ _ _ HB HSu) HF).
    assert (wd (fst (perform_undelegation st from d amount)) to d
            = lg_owed (gl (b_undelegate b from d amount) to) d) as ->; [|lia].
    destruct (covered_d_w _ _ _ amount _ HB2 ltac:(lia) HS) as [HSw|Hn].
    + eapply Cwd_eq; [done| |exact HF2]. eapply covered_more; [|exact HSw]. intros y. unfold caddk.
      pose proof (lg_balance_nonneg _ _ d (HB from)).
      pose proof (kyve_only_nonneg y (Z.min amount (lg_balance (gl b from) d)) ltac:(lia)). lia.
    + by apply wd_none.
  - destruct (msg_withdraw _ _ _); [|lia]. rewrite P_withdraw_eq.
    rewrite (Cwd_eq st b s0 d c HG HS HF). lia.
  - destruct (payout_rewards _ _ _ _) as [st'|] eqn:Em; [|lia].
    destruct (cempty c0) eqn:Ec.
    + apply cempty_spec in Ec as ->. rewrite amt_empty. unfold at_staker. destruct (decide _); lia.
    + unfold b_reward, at_staker. rewrite ga_insert. destruct (decide _) as [<-|]; simpl; lia.
  - destruct (f_data _); [|lia]. unfold b_slash. rewrite ga_insert. destruct (decide _) as [<-|]; simpl; lia.
  - set (st1 := with_time st (ds_time st + dt)) in *.
    assert (HG1 : Good st1 b) by (by eapply Good_same_f1; [|exact HG]).
    pose proof (CP_loop_eq (queue_fuel st1) st1 b (ds_low st1) c s x HG1 HS HQ HF Hh) as HL.
    unfold process_queue. destruct (process_loop _ _ _) as [[st2 low] out]. cbn [snd]. lia.
Qed.

Lemma CP_run_eq st b ops c s x :
  Good2 st b c -> ops_ok st ops -> covered (brun st b ops) c ->
  a_P (ga (brun st b ops) s) x
  = a_P (ga b s) x + received_total st ops s x - withdrawn_total st ops s x.
Proof.
  revert st b c. induction ops as [|o t IH]; intros st b c HG Hok HS; simpl in *; [lia|].
  destruct Hok as [Ho Hok]. destruct (Good_step st b o (g2_good _ _ _ HG) (g2_env _ _ _ HG) Ho) as [HG1 HE1].
  assert (HS1 : covered (b_step st b o) c) by (by eapply covered_run).
  rewrite (IH _ _ _ (Cood_step st b o c HG Ho HS1) Hok (covered_donated _ _ _ _ Ho HS)).
  rewrite (CP_step_eq st b o c s x HG Ho HS1). lia.
Qed.


(** ** The rounding, per coin *)
(** Payouts to [s] in which the coin [x] occurs. *)
Definition pays_in (o : dop) (s x : N) : Z :=
  match o with OPayout s' c _ => if amt c x =? 0 then 0 else at_staker s' s 1 | _ => 0 end.
Fixpoint payouts_in (ops : list dop) (s x : N) : Z :=
  match ops with [] => 0 | o :: t => pays_in o s x + payouts_in t s x end.
Lemma pays_in_nonneg o s x : 0 <= pays_in o s x.
Proof. destruct o; simpl; try lia. destruct (_ =? _); [lia|]. unfold at_staker. by case_match. Qed.
Lemma payouts_in_nonneg ops s x : 0 <= payouts_in ops s x.
Proof. induction ops as [|o t IH]; simpl; [lia|]. pose proof (pays_in_nonneg o s x). lia. Qed.
Definition cost_in (st : dstate) (b : book) (o : dop) (s x : N) : Z :=
  match o with OPayout _ c _ => if amt c x =? 0 then 0 else step_cost st b o s x | _ => step_cost st b o s x end.
Lemma dist_cost_same l c E x : amt c x = 0 -> dist_cost (lg_reward l c) E x = dist_cost l E x.
Proof.
  intros H. unfold dist_cost. simpl lg_rewards. rewrite amt_cadd, H, Z.add_0_r. destruct (_ =? 0); [done|].
  rewrite !amt_per_token. simpl lg_rewards. simpl lg_total. rewrite amt_cadd, H, Z.add_0_r. done.
Qed.
Lemma Phi_step_in st b o l s x :
  Good st b -> Enn b -> QRel st l -> dop_ok st o ->
  Phi (b_step st b o) s x + ONE * pending_count (fst (fifo_step st l o))
  <= Phi b s x + ONE * pending_count l + cost_in st b o s x.
Proof.
  intros HG HEn HQ Hok. destruct o; try by apply (Phi_step st b _ l s x). cbn [cost_in]. destruct (amt c x =? 0) eqn:E; [|by apply (Phi_step st b _ l s x)].
  cbn [b_step fifo_step fst]. cbv zeta. destruct (payout_rewards _ _ _ _); [|lia]. destruct (cempty c); [lia|].
  unfold Phi, dc, b_reward. rewrite gl_insert, ga_insert. destruct (decide _) as [<-|]; simpl; [|lia].
  rewrite dist_cost_same by lia. lia.
Qed.
(** The allowance in closed form, from any point of a run. *)
Lemma allowance_run_in st b l ops s x T R Eb :
  Good st b -> Env st -> Enn b -> QRel st l -> ops_ok st ops ->
  max_total st ops s <= T ->
  amt (lg_rewards (gl b s)) x + received_total st ops s x <= R ->
  a_E (ga b s) + slashes ops s * Z.of_nat (size (ddom b s ∪ joined ops s)) <= Eb ->
  Phi (brun st b ops) s x
  <= Phi b s x + ONE * pending_count l
     + ONE * (payouts_in ops s x * (T + 2 * Eb * (R + 1)) + 2 * Z.of_nat (length ops)
              + slashes ops s * Z.of_nat (size (ddom b s ∪ joined ops s))).
Proof.
  revert st b l. induction ops as [|o t IH]; intros st b l HG HE HEn HQ Hok HT HR HB; simpl in *.
  { unfold pending_count, ONE. lia. }
  destruct Hok as [Ho Hok]. destruct (Good_step st b o HG HE Ho) as [HG1 HE1].
  destruct (QRel_step st l o HQ Ho) as [HQ1 _].
  pose proof (Phi_step_in st b o l s x HG HEn HQ Ho) as HPhi.
  pose proof (ddom_step st b o s (proj1 HE) Ho) as HD.
  set (U := ddom b s ∪ (joins o s ∪ joined t s)) in *.
  assert (HU0 : (size (ddom b s) <= size U)%nat) by (apply subseteq_size; set_solver).
  assert (HU1 : (size (ddom (b_step st b o) s ∪ joined t s) <= size U)%nat) by (apply subseteq_size; set_solver).
  pose proof (E_step_bound st b o s) as HEs. pose proof (rew_step st b o s x HG Ho) as HRs.
  pose proof (slashed_nonneg o s). pose proof (slashes_nonneg t s). pose proof (pays_in_nonneg o s x).
  pose proof (payouts_in_nonneg t s x). pose proof (received_nonneg st o s x Ho).
  pose proof (received_total_nonneg _ _ s x Hok).
  specialize (IH (dstep st o) (b_step st b o) (fst (fifo_step st l o)) HG1 HE1 (Enn_step _ _ _ HEn) HQ1 Hok).
  pose proof (HEn s) as HE0.
  assert (HTs : lg_total (gl b s) <= T) by (rewrite <- (read_amount st b s HG); lia).
  specialize (IH ltac:(lia) ltac:(lia) ltac:(nia)).
  assert (Hcost : cost_in st b o s x
            <= ONE * (pays_in o s x * (T + 2 * Eb * (R + 1)) + 2 + slashed_by o s * Z.of_nat (size U))).
  { pose proof (lw_tot _ (proj1 (proj2 (HG s)))). pose proof (cpos_amt _ x (lw_rew _ (proj1 (proj2 (HG s))))).
    assert (HEb : a_E (ga b s) <= Eb) by nia. assert (HR0 : 0 <= R) by lia.
    assert (HT2 : 0 <= T + 2 * Eb * (R + 1)) by nia.
    destruct o; cbn [cost_in step_cost pays_in slashed_by]; try (unfold ONE; lia).
    - assert (HRc : amt (lg_rewards (gl b s)) x + received st (OPayout s0 c payer) s x <= R) by lia.
      simpl in Ho, HRc. destruct Ho as [Hc _]. destruct (amt c x =? 0) eqn:Ex; [unfold ONE; lia|]. unfold at_staker in *.
      assert (0 <= ONE * ((if decide (s0 = s) then 1 else 0) * (T + 2 * Eb * (R + 1)) + 2 + 0 * Z.of_nat (size U))).
      { destruct (decide (s0 = s)); unfold ONE; nia. }
      clear HR HR0 HPhi HRs. destruct (payout_rewards st s0 c payer) eqn:Ep; [|done].
      destruct (decide (s0 = s)) as [->|]; [|unfold ONE; lia].
      pose proof (payout_cost (lg_reward (gl b s) c) (a_E (ga b s)) x T R Eb) as HC.
      assert (dist_cost (lg_reward (gl b s) c) (a_E (ga b s)) x <= ONE * (T + 2 * Eb * (R + 1))).
      { apply HC; [apply LWeak_reward; [apply HG|done]|lia|done|]. simpl. rewrite amt_cadd. lia. }
      unfold ONE in *. lia.
    - unfold at_staker. destruct (decide (s0 = s)) as [->|]; [|unfold ONE; lia].
      unfold ddom in HU0. rewrite size_dom in HU0. unfold ONE. nia. }
  unfold ONE in *. nia.
Qed.

(** The accumulated rounding of the coin [x] at staker [s], in half units of 10^-18 base units. *)
Definition rounding (st : dstate) (ops : list dop) (s x : N) : Z :=
  payouts_in ops s x * (max_total st ops s + 2 * slack ops s * (received_total st ops s x + 1))
  + 2 * Z.of_nat (length ops) + slack ops s.

Section History.
Context (bk : bank) (p : dparams) (t : Z) (ops : list dop).
Context (Hp : dparams_valid p = true) (Hok : ops_ok (dinit bk p t) ops).
Let st0 := dinit bk p t.
Let st := drun st0 ops.
Let b := brun st0 ∅ ops.

Lemma run_Phi_in s x : Phi b s x <= ONE * rounding st0 ops s x.
Proof.
  pose proof (allowance_run_in st0 ∅ [] ops s x (max_total st0 ops s) (received_total st0 ops s x) (slack ops s)
    (Good_init bk p t) (Env_init _ _ _ Hp)) as HA.
  assert (HE : Enn ∅) by (intros s'; by rewrite ga_empty).
  specialize (HA HE (QRel_init bk p t) Hok ltac:(lia)).
  rewrite ddom_empty, ga_empty, gl_empty in HA. simpl a_E in HA.
  replace (∅ ∪ joined ops s) with (joined ops s) in HA by set_solver.
  fold (slack ops s) in HA. rewrite amt_empty in HA.
  specialize (HA ltac:(lia) ltac:(lia)).
  unfold Phi at 2 in HA. unfold dc, pending_count in HA. rewrite gl_empty, ga_empty in HA.
  rewrite dist_cost_empty in HA by reflexivity. simpl length in HA. simpl a_S in HA.
  etransitivity; [exact HA|]. unfold rounding. lia.
Qed.
Lemma dc_nonneg s x : 0 <= dc b s x.
Proof. apply dist_cost_nonneg'; [apply (proj1 (run_good bk p t ops Hp Hok) s)|apply run_Enn]. Qed.

(** Base units: the whole units of the rounding. *)
Definition units (v : Z) : Z := v / (2 * ONE).
Lemma short_units v r : v <= ONE * r -> v / twoONE2 <= units r.
Proof.
  intros H. unfold units. etransitivity; [apply Z.div_le_mono; [done|exact H]|]. unfold twoONE2.
  replace (2 * (ONE * ONE)) with (ONE * (2 * ONE)) by lia. by rewrite Z.div_mul_cancel_l.
Qed.
Lemma short_run b' X x k : NoDup X -> (forall s, a_S (ga b' s) x <= ONE * (rounding st0 ops s x + k)) ->
  (forall s, s ∉ X -> rounding st0 ops s x + k < 2 * ONE) ->
  short b' x <= foldr (fun s z => units (rounding st0 ops s x + k) + z) 0 X.
Proof.
  intros Hnd H HX. apply (sum_cover b' (fun q => short_of q x)); [done|done| |].
  - intros s _. apply short_units, H.
  - intros s Hs. specialize (HX s Hs). pose proof (short_units _ _ (H s)) as Hu. unfold units in Hu. unfold short_of.
    assert ((rounding st0 ops s x + k) / (2 * ONE) < 1) by (apply Z.div_lt_upper_bound; [done|lia]). unfold ga in Hu. lia.
Qed.

(** A reserve that covers the rounding of the stakers in [X]; that of all others is below one unit. *)
Definition reserve (k : Z) : Prop := exists X : list N, NoDup X /\
  (forall s x, s ∉ X -> rounding st0 ops s x + k < 2 * ONE) /\
  forall x, foldr (fun s z => units (rounding st0 ops s x + k) + z) 0 X <= bal bk MDelegation x.

Lemma run_covered : (forall s, slack ops s < ONE) -> reserve 0 -> covered b (fun x => bal bk MDelegation x).
Proof.
  intros H1 (X & Hnd & H2 & H3). split.
  - intros s. pose proof (run_slack bk p t ops Hp Hok s). specialize (H1 s). unfold b, st0. lia.
  - intros x. etransitivity; [|apply (H3 x)]. apply short_run; [done| |intros s; apply H2].
    intros s. pose proof (run_Phi_in s x) as HP. unfold Phi in HP. pose proof (dc_nonneg s x). lia.
Qed.
Lemma claim_reserve : (forall s, slack ops s < ONE) -> reserve 0 ->
  let unpaid s x := received_total st0 ops s x - withdrawn_total st0 ops s x in
  ds_halt st = false /\
  (forall s x, - units (rounding st0 ops s x) <= unpaid s x) /\
  (forall X x, (forall s, s ∉ X -> delegation_amount st s = 0 /\ unpaid s x = 0) ->
     bal (ds_bank st) MDelegation x = bal bk MDelegation x + donations st0 ops x + sum_over X (fun s => (if (x =? KYVE)%N then delegation_amount st s else 0) + unpaid s x)).
Proof.
  intros H1 H2. cbv zeta. pose proof (run_covered H1 H2) as HS. pose proof (Good2_init bk p t Hp) as HG0.
  pose proof (Cood_run _ _ ops _ HG0 Hok HS) as [HG HE HF Hh]. fold st0 st in HG, HE, HF, Hh. fold b in HG, HF.
  assert (HP : forall s x, a_P (ga b s) x = received_total st0 ops s x - withdrawn_total st0 ops s x).
  { intros s x. pose proof (CP_run_eq _ _ ops _ s x HG0 Hok HS) as HPr. rewrite ga_empty in HPr. simpl a_P in HPr. fold st0 b in HPr. lia. }
  pose proof (Good_BInv _ _ HG (proj1 HS)) as HB.
  split; [done|]. split.
  - intros s x. rewrite <- HP. pose proof (pot_ge _ _ x (HB s)). pose proof (run_Phi_in s x) as HPh. unfold Phi in HPh. pose proof (dc_nonneg s x).
    pose proof (short_units (a_S (ga b s) x) (rounding st0 ops s x) ltac:(lia)). lia.
  - intros X x HX. rewrite HF. unfold cplus. f_equal. unfold held.
    set (f := fun q : ledger * allow => (if (x =? KYVE)%N then lg_total (fst q) else 0) + a_P (snd q) x).
    assert (msum (fun _ q => f q) b = kyve_only x (bookT b) + bookP b x) as <-.
    { unfold f, kyve_only, bookT, bookP. rewrite msum_add. f_equal. destruct (x =? KYVE)%N; [done|]. rewrite msum_const. lia. }
    assert (Hf : forall s, f (page b s) = (if (x =? KYVE)%N then delegation_amount st s else 0) + (received_total st0 ops s x - withdrawn_total st0 ops s x)).
    { intros s. unfold f. rewrite <- HP, (read_amount st b s HG). done. }
    rewrite <- (sum_elements_eq b f (elements X)).
    + unfold sum_over. clear -Hf. induction (elements X) as [|a l IH]; simpl; [done|]. by rewrite Hf, IH.
    + apply NoDup_elements.
    + intros s Hs. rewrite Hf. rewrite elem_of_elements in Hs. destruct (HX s Hs) as [-> ->]. by destruct (x =? KYVE)%N.
    + unfold f. simpl. by destruct (x =? KYVE)%N.
Qed.
Lemma claim_reserve_withdraw s d : (forall s, slack ops s < ONE) -> reserve 1 -> is_delegator st s d -> exists st', msg_withdraw st d s = Some st'.
Proof.
  intros H1 HR Hd. assert (H0 : reserve 0).
  { destruct HR as (X & Hnd & H2 & H3). exists X. split; [done|]. split.
    - intros s' x Hs. specialize (H2 s' x Hs). lia.
    - intros x. etransitivity; [|apply (H3 x)]. clear. induction X as [|a l IH]; simpl; [lia|].
      assert (units (rounding st0 ops a x + 0) <= units (rounding st0 ops a x + 1)) by (apply Z.div_le_mono; [done|lia]). lia. }
  pose proof (run_covered H1 H0) as HS. pose proof (Good2_init bk p t Hp) as HG0.
  pose proof (Cood_run _ _ ops _ HG0 Hok HS) as [HG HE HF Hh]. fold st0 st in HG, HE, HF, Hh. fold b in HG, HF.
  assert (HSw : covered (b_withdraw b s d) (fun x => bal bk MDelegation x)).
  { split; [intros s'; rewrite E_withdraw; apply (proj1 HS)|]. intros x. destruct HR as (X & Hnd & H2 & H3).
    etransitivity; [|apply (H3 x)]. apply short_run; [done| |intros s'; apply H2]. intros s'.
    pose proof (run_Phi_in s' x) as HPh. unfold Phi in HPh. pose proof (dc_nonneg s' x).
    unfold b_withdraw. rewrite ga_insert. destruct (decide (s = s')) as [<-|]; [|unfold ONE in *; lia].
    unfold a_withdraw. unfold dc in *. destruct (lg_dels (gl b s) !! d); simpl; unfold ONE in *; lia. }
  destruct (Cin_withdrawal _ _ s d (cplus (bal bk MDelegation) (donations st0 ops)) HG) as [Hpd _]; [|exact HF|].
  { destruct HSw as [H4 H5]. split; [done|]. intros x. specialize (H5 x). pose proof (donations_nonneg st0 ops x Hok). unfold cplus. lia. }
  unfold msg_withdraw. rewrite bool_decide_eq_true_2 by done. simpl.
  destruct (perform_withdrawal _ s d) as [st2 r]. cbn [snd] in Hpd. subst r. eauto.
Qed.
End History.
