(** * Every change a module makes to the bank is a sequence of transfers between certain accounts. *)
From Verif Require Import Base BaseFacts Delegation Stakers Funders Team Bundles.

Inductive moves (A : acct -> Prop) : bank -> bank -> Prop :=
  | mv_refl b : moves A b b
  | mv_send b from to c b1 b2 : A from -> A to -> send b from to c = Some b1 -> moves A b1 b2 -> moves A b b2.
Lemma moves_trans A b1 b2 b3 : moves A b1 b2 -> moves A b2 b3 -> moves A b1 b3.
Proof. induction 1 as [|b from to c b1 b2 Hf Ht Hs _ IH]; intros H3; [done|]. exact (mv_send A _ _ _ _ _ _ Hf Ht Hs (IH H3)). Qed.
Lemma moves_one (A : acct -> Prop) b from to c b1 : A from -> A to -> send b from to c = Some b1 -> moves A b b1.
Proof. intros Hf Ht Hs. exact (mv_send A _ _ _ _ _ _ Hf Ht Hs (mv_refl _ _)). Qed.

Lemma send_bal_of b from to c b' a : send b from to c = Some b' -> a <> from -> a <> to -> bal_of b' a = bal_of b a.
Proof.
  unfold send. destruct (_ && _); [|done]. intros [= <-] H1 H2. unfold bal_of. by rewrite !lookup_insert_ne by congruence.
Qed.
Lemma moves_bal_of A b b' a : moves A b b' -> ~ A a -> bal_of b' a = bal_of b a.
Proof.
  induction 1 as [|b from to c b1 b2 Hf Ht Hs _ IH]; intros Ha; [done|].
  rewrite IH by done. eapply send_bal_of; [exact Hs| |]; intros ->; done.
Qed.

(** No balance becomes negative. *)
Definition bank_nn (b : bank) : Prop := forall a d, 0 <= bal b a d.
Lemma send_nn b from to c b' : send b from to c = Some b' -> bank_nn b -> bank_nn b'.
Proof.
  intros Hs Hnn a d. pose proof (send_pos _ _ _ _ _ Hs) as Hc. apply send_Some in Hs as [Hle Hb]. rewrite Hb.
  pose proof (cpos_amt c d Hc). pose proof (Hnn a d).
  assert (amt c d <= bal b from d).
  { apply cle_amt; [|done]. intros x. apply (Hnn from x). }
  destruct (decide (from = a)) as [->|], (decide (to = a)); lia.
Qed.
Lemma moves_nn A b b' : moves A b b' -> bank_nn b -> bank_nn b'.
Proof. induction 1; intros; [done|]. eauto using send_nn. Qed.

(** The supply does not change. *)
Lemma supply_insert b a c : supply (<[a := c]> b) = supply b + amt c KYVE - bal b a KYVE.
Proof.
  unfold supply. rewrite msum_insert. unfold bal, bal_of. destruct (b !! a); simpl; [lia|]. rewrite amt_empty. lia.
Qed.
Lemma bal_of_insert b a c x : bal_of (<[a := c]> b) x = if decide (a = x) then c else bal_of b x.
Proof. unfold bal_of. case_decide; subst; [by rewrite lookup_insert|by rewrite lookup_insert_ne]. Qed.
Lemma send_supply b from to c b' : send b from to c = Some b' -> supply b' = supply b.
Proof.
  unfold send. destruct (_ && _); [|done]. intros [= <-]. rewrite !supply_insert, amt_cadd, amt_csub.
  unfold bal. rewrite !bal_of_insert. lia.
Qed.
Lemma moves_supply A b b' : moves A b b' -> supply b' = supply b.
Proof. induction 1 as [|b from to c b1 b2 ? ? Hs _ IH]; [done|]. rewrite IH. by eapply send_supply. Qed.
Lemma supply_ge2 b a a' : bank_nn b -> a <> a' -> bal b a KYVE + bal b a' KYVE <= supply b.
Proof.
  intros Hnn Hne.
  assert (H0 : forall b1 : bank, bank_nn b1 -> forall k m, b1 !! k = Some m -> 0 <= amt m KYVE).
  { intros b1 H1 k m Hk. specialize (H1 k KYVE). unfold bal, bal_of in H1. by rewrite Hk in H1. }
  assert (E : supply b = supply (<[a := ∅]> (<[a' := ∅]> b)) + bal b a KYVE + bal b a' KYVE).
  { rewrite !supply_insert, amt_empty. unfold bal. rewrite bal_of_insert. destruct (decide (a' = a)); [congruence|]. lia. }
  assert (0 <= supply (<[a := ∅]> (<[a' := ∅]> b))); [|lia].
  apply msum_nonneg. intros k m Hk. eapply (H0 (<[a := ∅]> (<[a' := ∅]> b))); [|exact Hk].
  intros x d. unfold bal. rewrite !bal_of_insert. repeat case_decide; rewrite ?amt_empty; try lia. apply Hnn.
Qed.
Lemma supply_ge1 b a : bank_nn b -> bal b a KYVE <= supply b.
Proof.
  intros H. destruct (decide (a = MTeam)) as [->|].
  - pose proof (supply_ge2 b MTeam MPool H ltac:(done)). specialize (H MPool KYVE). lia.
  - pose proof (supply_ge2 b a MTeam H ltac:(done)). specialize (H MTeam KYVE). lia.
Qed.

(** ** x/delegation *)
Definition Ad (payer : option acct) (a : acct) : Prop :=
  match a with MDelegation | Treasury | User _ => True | _ => payer = Some a end.
Section delegation.
  Context (py : option acct).
  Local Notation mv st st' := (moves (Ad py) (ds_bank st) (ds_bank st')).
  Lemma dm_pay_user st d c st' : pay_user st d c = Some st' -> mv st st'.
  Proof. unfold pay_user. destruct (send _ _ _ _) eqn:E; [|done]. intros [= <-]. by eapply moves_one; [..|exact E]. Qed.
  Lemma dm_withdrawal st s d st' r : perform_withdrawal st s d = (st', r) -> mv st st'.
  Proof.
    unfold perform_withdrawal. destruct (f1_withdraw _ _) as [f c]. set (st1 := if bool_decide _ then _ else _).
    assert (E1 : ds_bank st1 = ds_bank st) by (unfold st1; by case_bool_decide).
    destruct (pay_user st1 d c) eqn:E; intros [= <- <-]; [|rewrite E1; constructor].
    rewrite <- E1. by eapply dm_pay_user.
  Qed.
  Lemma dm_delegation st s d a : mv st (perform_delegation st s d a).
  Proof.
    unfold perform_delegation. case_bool_decide; [|constructor].
    destruct (perform_withdrawal _ _ _) as [sw err] eqn:E. destruct (f1_remove _ _) as [f u]. cbn.
    by apply dm_withdrawal in E.
  Qed.
  Lemma dm_undelegation st s d a st' x : perform_undelegation st s d a = (st', x) -> mv st st'.
  Proof.
    unfold perform_undelegation. destruct (perform_withdrawal _ _ _) as [sw err] eqn:E. destruct (f1_remove _ _) as [f u].
    intros [= <- <-]. apply dm_withdrawal in E. cbn. by destruct (u >? a).
  Qed.
  Lemma dm_process_one st low e st' x : process_one st low e = (st', x) -> mv st st'.
  Proof.
    unfold process_one. destruct (perform_undelegation _ _ _ _) as [st1 pd] eqn:E. intros [= <- <-]. apply dm_undelegation in E. cbn.
    destruct (pay_user _ _ _) eqn:E2; [|done]. apply dm_pay_user in E2. by eapply moves_trans.
  Qed.
  Lemma dm_process_loop n st low : mv st (fst (fst (process_loop n st low))).
  Proof.
    revert st low. induction n as [|n IH]; intros st low; [constructor|]. cbn [process_loop].
    destruct (ds_queue st !! _) as [e|].
    - destruct (due st e); [|constructor]. destruct (process_one st low e) as [st3 pd] eqn:E.
      specialize (IH st3 (low + 1)%N). destruct (process_loop n st3 _) as [[st4 l] o]. cbn in *.
      eapply moves_trans; [|exact IH]. by eapply dm_process_one.
    - destruct (low <? ds_high st)%N; [apply IH|constructor].
  Qed.
  Lemma dm_process_queue st : mv st (fst (process_queue st)).
  Proof.
    unfold process_queue. pose proof (dm_process_loop (queue_fuel st) st (ds_low st)) as H.
    destruct (process_loop _ _ _) as [[st1 l] o]. done.
  Qed.
  Lemma dm_slash st s t : mv st (fst (slash_delegators st s t)).
  Proof.
    unfold slash_delegators. destruct (f_data _); [|constructor]. destruct (f1_slash _ _) as [f x]. cbn.
    destruct (send _ _ _ _) eqn:E; cbn; [|constructor]. by eapply moves_one; [..|exact E].
  Qed.
End delegation.
(** The operation does not only stand for other modules; its payer, if it has one, is [py]. *)
Definition dop_own (py : option acct) (o : dop) : Prop :=
  match o with OBank _ => False | OPayout _ _ p => py = Some p | _ => True end.
Lemma dstep_moves py st o : dop_own py o -> moves (Ad py) (ds_bank st) (ds_bank (dstep st o)).
Proof.
  destruct o; cbn [dstep dop_own]; intros Hp; try done.
  - unfold msg_delegate. destruct staker_exists; [|constructor]. cbn [negb].
    destruct (send _ _ _ _) eqn:E; cbn; [|constructor]. eapply moves_trans; [apply dm_delegation|]. by eapply moves_one; [..|exact E].
  - unfold msg_undelegate. destruct (_ >? _); constructor.
  - unfold msg_redelegate. repeat (case_bool_decide; [|constructor]). destruct target_exists, target_active; try constructor. cbn [negb].
    destruct (_ >? _); [constructor|]. destruct (consume_spell _ _ _); [|constructor].
    destruct (perform_undelegation _ _ _ _) as [st2 x] eqn:E. destruct (negb _); [constructor|]. cbn.
    eapply moves_trans; [|apply dm_delegation]. by eapply dm_undelegation in E.
  - unfold msg_withdraw. case_bool_decide; [|constructor]. cbn [negb]. destruct (perform_withdrawal _ _ _) as [st1 [r|]] eqn:E; [|constructor].
    by eapply dm_withdrawal.
  - unfold payout_rewards. destruct (cempty c); [constructor|]. destruct (f_data _); [|constructor].
    destruct (send _ _ _ _) eqn:E; cbn; [|constructor]. eapply moves_one; [..|exact E]; [|done]. unfold Ad. destruct payer; try done; by subst.
  - apply dm_slash.
  - apply (dm_process_queue py (with_time st (ds_time st + dt))).
  - constructor.
Qed.

(** ** x/stakers *)
Definition As (payer : option acct) (a : acct) : Prop :=
  match a with MStakers | User _ => True | _ => payer = Some a end.
Lemma sb_leave_pool st s p : ss_bank (leave_pool st s p) = ss_bank st.
Proof. unfold leave_pool. by destruct (get_val _ _ _). Qed.
Lemma sb_queue_loop f h n st low : (forall st i st', f st i = Some st' -> ss_bank st' = ss_bank st) ->
  ss_bank (fst (queue_loop f h n st low)) = ss_bank st.
Proof.
  intros Hf. revert st low. induction n as [|n IH]; intros st low; [done|]. cbn [queue_loop].
  destruct (f st _) as [st1|] eqn:E; [|done]. apply Hf in E. destruct (low <? h)%N; cbn; [by rewrite IH|done].
Qed.
Lemma sb_begin st : ss_bank (stakers_begin st) = ss_bank st.
Proof.
  unfold stakers_begin, process_leaves.
  assert (H1 : ss_bank (process_commissions st) = ss_bank st).
  { unfold process_commissions. destruct (queue_loop _ _ _ _ _) as [st1 low] eqn:E. cbn.
    change st1 with (fst (st1, low)). rewrite <- E. apply sb_queue_loop. intros s i s'. unfold process_centry.
    destruct (ss_centries s !! i); [|by intros [= <-]]. destruct (_ <=? _); [|done]. intros [= <-]. by destruct (ss_stakers _ !! _). }
  rewrite <- H1. set (st0 := process_commissions st). destruct (queue_loop _ _ _ _ _) as [st1 low] eqn:E. cbn.
  change st1 with (fst (st1, low)). rewrite <- E. apply sb_queue_loop. intros s i s'. unfold process_lentry.
  destruct (ss_lentries s !! i); [|by intros [= <-]]. destruct (_ <=? _); [|done]. intros [= <-]. by rewrite sb_leave_pool.
Qed.
Definition sop_own (py : option acct) (o : sop) : Prop :=
  match o with SBank _ => False | SPay _ p _ => py = Some p | _ => True end.
Lemma sstep_moves py st o : sop_own py o -> moves (As py) (ss_bank st) (ss_bank (sstep st o)).
Proof.
  destruct o; cbn [sstep sop_own]; intros Hp; try done; try constructor.
  - unfold msg_create_staker. destruct (ss_stakers st !! s); [constructor|]. destruct delegates; constructor.
  - unfold msg_update_commission. destruct (ss_stakers st !! s); [|constructor]. cbn. unfold order_commission.
    destruct (ss_cindex st !! s) as [i|]; [destruct (ss_centries st !! i)|]; constructor.
  - unfold msg_claim_commission. destruct (ss_stakers st !! s); [|constructor]. destruct (negb _); [constructor|].
    destruct (send _ _ _ _) eqn:E; [|constructor]. by eapply moves_one; [..|exact E].
  - unfold msg_join. destruct pool as [[]|]; try constructor. destruct (ss_stakers st !! s); [|constructor]. destruct (s =? v)%N; [constructor|].
    destruct (get_val st p s); [constructor|]. destruct (ensure_slot st del p s) as [st1|] eqn:E1; [|constructor].
    assert (Eb : ss_bank st1 = ss_bank st).
    { unfold ensure_slot in E1. destruct (_ <=? _); [|congruence]. destruct (_ <? _); [|done]. injection E1 as <-. apply sb_leave_pool. }
    destruct (existsb _ _); [constructor|]. destruct (existsb _ _); [constructor|].
    unfold pay_kyve. destruct (_ <? 0); [constructor|]. destruct (send _ _ _ _) eqn:E; [|constructor]. cbn.
    assert (Eb2 : ss_bank (add_val st1 p s v) = ss_bank st1) by (unfold add_val; destruct (ss_stakers _ !! _); [by destruct (get_val _ _ _)|done]).
    rewrite <- Eb, <- Eb2. by eapply moves_one; [..|exact E].
  - unfold msg_leave. destruct (get_val st p s); [|constructor]. case_bool_decide; constructor.
  - rewrite sb_leave_pool. constructor.
  - unfold increase_commission_rewards. destruct (cempty amount); [constructor|]. destruct (ss_stakers st !! s); [|constructor].
    destruct (send _ _ _ _) eqn:E; [|constructor]. cbn. eapply moves_one; [..|exact E]; [|done]. unfold As. destruct payer; try done; by subst.
  - unfold increment_points. destruct (get_val st p s); constructor.
  - unfold reset_points. destruct (get_val st p s); constructor.
  - rewrite sb_begin. constructor.
Qed.

(** ** x/funders *)
Definition Af (payee : option acct) (a : acct) : Prop :=
  match a with MFunders | User _ => True | _ => payee = Some a end.
Lemma fb_charge_step l p afs acc : fs_bank (fst (fst (fold_left (charge_step l p) afs acc))) = fs_bank (fst (fst acc)).
Proof.
  revert acc. induction afs as [|[a f] afs IH]; intros acc; [done|]. cbn [fold_left]. rewrite IH.
  destruct acc as [[st act] pays]. unfold charge_step. by destruct (charge_one l f).
Qed.
Lemma fm_slot (py : option acct) st p a f act st' act' : ensure_free_slot st p a f act = Some (st', act') -> moves (Af py) (fs_bank st) (fs_bank st').
Proof.
  unfold ensure_free_slot. destruct (_ <? _)%nat; [intros [= <- <-]; constructor|].
  destruct (lowest_funding _ _) as [[[b fb] lo]|]; [|done]. destruct (b =? a)%N; [intros [= <- <-]; constructor|].
  destruct (score _ _); [|done]. destruct (_ <? _); [done|]. destruct (send _ _ _ _) eqn:E; [|done]. intros [= <- <-]. cbn.
  by eapply moves_one; [..|exact E].
Qed.
Definition fop_own (py : option acct) (o : fop) : Prop :=
  match o with FBank _ => False | FCharge _ r => py = Some r | _ => True end.
Lemma fstep_moves py st o : fop_own py o -> moves (Af py) (fs_bank st) (fs_bank (fstep st o)).
Proof.
  destruct o; cbn [fstep fop_own]; intros Hp; try done; try constructor.
  - unfold msg_create_funder. case_bool_decide; constructor.
  - unfold msg_fund. case_bool_decide; [|constructor]. destruct pool_exists; [|constructor]. cbn [negb].
    destruct (fs_active st !! p); [|constructor]. destruct (ensure_params _ _) as [f1|]; [|constructor].
    destruct (ensure_free_slot _ _ _ _ _) as [[st1 act1]|] eqn:E1; [|constructor]. apply (fm_slot py) in E1.
    destruct (send _ _ _ _) eqn:E; [|constructor]. cbn. eapply moves_trans; [exact E1|]. by eapply moves_one; [..|exact E].
  - unfold msg_defund. destruct (fs_fundings st !! (a, p)); [|constructor].
    destruct (match fs_active st !! p with Some l => _ | None => _ end) as [[sp act] miss]. destruct (cempty _); [constructor|].
    destruct (ensure_params _ _); [|constructor]. destruct (send _ _ _ _) eqn:E; [|constructor]. cbn. by eapply moves_one; [..|exact E].
  - unfold charge_funders. destruct (fs_active st !! p) as [l|]; [|constructor]. destruct (active_fundings st p l) as [|af afs] eqn:Ea; [constructor|].
    pose proof (fb_charge_step (wl st) p (af :: afs) (st, l, ∅)) as Hb. destruct (fold_left _ _ _) as [[st1 act] pays]. cbn in Hb.
    destruct (cempty pays); [cbn; rewrite Hb; constructor|]. destruct (send _ _ _ _) eqn:E; cbn in *; rewrite <- Hb; [|constructor].
    eapply moves_one; [..|exact E]; [done|]. unfold Af. destruct recipient; try done; by subst.
Qed.

(** ** x/team *)
Definition At (a : acct) : Prop := match a with MTeam | MFeeCollector | User _ => True | _ => False end.
Definition top_own (o : top) : Prop := match o with TBank _ => False | _ => True end.
Lemma transfer_moves (A : acct -> Prop) b f t x b' : A f -> A t -> transfer b f t x = Some b' -> moves A b b'.
Proof. unfold transfer. destruct (_ <? 0); [done|]. apply moves_one. Qed.
Lemma tstep_moves st o : top_own o -> moves At (ts_bank st) (ts_bank (tstep st o)).
Proof.
  destruct o; cbn [tstep top_own]; intros Hp; try done; try constructor.
  - unfold msg_create. repeat (match goal with |- context [if ?x then _ else _] => destruct x end; try constructor).
  - unfold msg_claim_unlocked. destruct (negb _); [constructor|]. destruct (ts_accounts st !! id); [|constructor]. destruct (_ <? _); [constructor|].
    destruct (transfer _ _ _ _) eqn:E; [|constructor]. by eapply transfer_moves; [..|exact E].
  - unfold msg_clawback. destruct (negb _); [constructor|]. destruct (ts_accounts st !! id); [|constructor].
    repeat (match goal with |- context [if ?x then _ else _] => destruct x end; try constructor).
  - unfold msg_claim_rewards. destruct (negb _); [constructor|]. destruct (ts_accounts st !! id); [|constructor]. destruct (_ <? _); [constructor|].
    destruct (transfer _ _ _ _) eqn:E; [|constructor]. by eapply transfer_moves; [..|exact E].
  - unfold msg_claim_authority. destruct (negb _); [constructor|]. destruct (_ <? _); [constructor|].
    destruct (transfer _ _ _ _) eqn:E; [|constructor]. by eapply transfer_moves; [..|exact E].
  - unfold team_begin. destruct (block_provision _ _ _) as [[h r]|]; [|constructor]. destruct (distribute _ _ _) as [[l tot]|]; [|constructor].
    destruct (transfer _ _ _ _) eqn:E; [|constructor]. cbn in *. by eapply transfer_moves; [..|exact E].
Qed.
