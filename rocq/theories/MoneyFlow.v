(** * Along which edges money moves (C54, C46): proofs. *)
From Verif Require Import Base BaseFacts Delegation Stakers Funders Team RoundRobin Pool Bundles Chain ChainFrame BankMoves PayoutClaims ChainLift.

(** ** Sequences of transfers along allowed edges *)
Inductive flows (R : acct -> acct -> Prop) : bank -> bank -> Prop :=
  | fl_refl b : flows R b b
  | fl_send b from to c b1 b2 : R from to -> send b from to c = Some b1 -> flows R b1 b2 -> flows R b b2.
Lemma flows_trans R b1 b2 b3 : flows R b1 b2 -> flows R b2 b3 -> flows R b1 b3.
Proof. induction 1 as [|b from to c b1 b2 Hr Hs _ IH]; intros H3; [done|]. exact (fl_send R _ _ _ _ _ _ Hr Hs (IH H3)). Qed.
Lemma flows_one (R : acct -> acct -> Prop) b from to c b1 : R from to -> send b from to c = Some b1 -> flows R b b1.
Proof. intros Hr Hs. exact (fl_send R _ _ _ _ _ _ Hr Hs (fl_refl _ _)). Qed.
Lemma flows_mono (R R' : acct -> acct -> Prop) b b' : (forall x y, R x y -> R' x y) -> flows R b b' -> flows R' b b'.
Proof. intros HR. induction 1 as [|b from to c b1 b2 Hr Hs _ IH]; [constructor|]. exact (fl_send R' _ _ _ _ _ _ (HR _ _ Hr) Hs IH). Qed.

(** Total supply of a denom. *)
Definition total (b : bank) (d : N) : Z := msum (fun _ m => amt m d) b.
Lemma total_insert b a c d : total (<[a := c]> b) d = total b d + amt c d - bal b a d.
Proof. unfold total. rewrite msum_insert. unfold bal, bal_of. destruct (b !! a); simpl; [lia|]. rewrite amt_empty. lia. Qed.
Lemma send_total b from to c b' d : send b from to c = Some b' -> total b' d = total b d.
Proof.
  unfold send. destruct (_ && _); [|done]. intros [= <-]. rewrite !total_insert, amt_cadd, amt_csub.
  unfold bal. rewrite !bal_of_insert. lia.
Qed.
Lemma flows_total R b b' d : flows R b b' -> total b' d = total b d.
Proof. induction 1 as [|b from to c b1 b2 Hr Hs _ IH]; [done|]. rewrite IH. by eapply send_total. Qed.
(** An account nobody takes from loses nothing, one nobody pays to gains nothing. *)
Lemma send_le b from to c b' a d : send b from to c = Some b' -> (a <> from -> bal b a d <= bal b' a d) /\ (a <> to -> bal b' a d <= bal b a d).
Proof.
  intros Hs. pose proof (send_pos _ _ _ _ _ Hs) as Hc. apply send_Some in Hs as [_ Hb]. rewrite Hb. pose proof (cpos_amt c d Hc).
  destruct (decide (from = a)) as [->|], (decide (to = a)); split; intros; try congruence; lia.
Qed.
Lemma flows_ge (R : acct -> acct -> Prop) b b' a d : flows R b b' -> (forall y, ~ R a y) -> bal b a d <= bal b' a d.
Proof.
  induction 1 as [|b from to c b1 b2 Hr Hs _ IH]; intros Ha; [lia|]. etransitivity; [|by apply IH].
  apply (proj1 (send_le _ _ _ _ _ a d Hs)). intros ->. by eapply Ha.
Qed.
Lemma flows_le (R : acct -> acct -> Prop) b b' a d : flows R b b' -> (forall y, ~ R y a) -> bal b' a d <= bal b a d.
Proof.
  induction 1 as [|b from to c b1 b2 Hr Hs _ IH]; intros Ha; [lia|]. etransitivity; [by apply IH|].
  apply (proj2 (send_le _ _ _ _ _ a d Hs)). intros ->. by eapply Ha.
Qed.
Lemma flows_same (R : acct -> acct -> Prop) b b' a d : flows R b b' -> (forall y, ~ R a y) -> (forall y, ~ R y a) -> bal b' a d = bal b a d.
Proof. intros H H1 H2. pose proof (flows_ge R b b' a d H H1). pose proof (flows_le R b b' a d H H2). lia. Qed.

(** ** Statement: the edges of every message and block *)
(** Tallying a bundle: funders and inflation pay the pool's module, which pays the treasury, the
    uploader's commission and its delegators; slashed stake goes to the treasury. *)
Inductive tally_edge (pool_of : N -> Prop) : acct -> acct -> Prop :=
  | te_fund : tally_edge pool_of MFunders MPool
  | te_infl p : pool_of p -> tally_edge pool_of (PoolAcc p) MPool
  | te_treasury : tally_edge pool_of MPool Treasury
  | te_commission : tally_edge pool_of MPool MStakers
  | te_delegators : tally_edge pool_of MPool MDelegation
  | te_slash : tally_edge pool_of MDelegation Treasury.
Inductive allowed : cop -> acct -> acct -> Prop :=
  | al_delegate d s a : allowed (CDelegate d s a) (User d) MDelegation
  | al_delegate_r d s a : allowed (CDelegate d s a) MDelegation (User d)
  | al_redelegate d f t a : allowed (CRedelegate d f t a) MDelegation (User d)
  | al_withdraw d s : allowed (CWithdraw d s) MDelegation (User d)
  | al_create s k a : allowed (CCreateStaker s k a) (User s) MDelegation
  | al_create_r s k a : allowed (CCreateStaker s k a) MDelegation (User s)
  | al_claim s x : allowed (CClaimCommission s x) MStakers (User s)
  | al_join s p v a : allowed (CJoin s p v a) (User s) (User v)
  | al_fund a p x y : allowed (CFund a p x y) (User a) MFunders
  | al_fund_out a p x y u : allowed (CFund a p x y) MFunders (User u)
  | al_defund a p x : allowed (CDefund a p x) MFunders (User a)
  | al_team_1 s id x r : allowed (CTeam (TClaim s id x r)) MTeam (User r)
  | al_team_2 s id x r : allowed (CTeam (TClaimRewards s id x r)) MTeam (User r)
  | al_team_3 s x r : allowed (CTeam (TClaimAuthority s x r)) MTeam (User r)
  | al_submit m x y : tally_edge (eq (sb_pool m)) x y -> allowed (CSubmit m) x y
  | al_skip p s v f x y : tally_edge (eq p) x y -> allowed (CSkip p s v f) x y
  | al_disable s p : allowed (CDisablePool s p) (PoolAcc p) Treasury
  | al_begin_team t pr : allowed (CBegin t pr) MFeeCollector MTeam
  | al_begin_pool t pr p : allowed (CBegin t pr) MFeeCollector (PoolAcc p)
  | al_begin_unbond t pr u : allowed (CBegin t pr) MDelegation (User u)
  | al_end x y : tally_edge (fun _ => True) x y -> allowed CEnd x y.

(** ** x/delegation *)
Section delegation.
  Context (R : acct -> acct -> Prop).
  Local Notation fl st st' := (flows R (ds_bank st) (ds_bank st')).
  Lemma df_pay_user st d c st' : R MDelegation (User d) -> pay_user st d c = Some st' -> fl st st'.
  Proof. unfold pay_user. intros HR. destruct (send _ _ _ _) eqn:E; [|done]. intros [= <-]. by eapply flows_one; [|exact E]. Qed.
  Lemma df_withdrawal st s d st' r : R MDelegation (User d) -> perform_withdrawal st s d = (st', r) -> fl st st'.
  Proof.
    intros HR. unfold perform_withdrawal. destruct (f1_withdraw _ _) as [f c]. set (st1 := if bool_decide _ then _ else _).
    assert (E1 : ds_bank st1 = ds_bank st) by (unfold st1; by case_bool_decide).
    destruct (pay_user st1 d c) eqn:E; intros [= <- <-]; [|rewrite E1; constructor].
    rewrite <- E1. by eapply df_pay_user.
  Qed.
  Lemma df_delegation st s d a : R MDelegation (User d) -> fl st (perform_delegation st s d a).
  Proof.
    intros HR. unfold perform_delegation. case_bool_decide; [|constructor].
    destruct (perform_withdrawal _ _ _) as [sw err] eqn:E. destruct (f1_remove _ _) as [f u]. cbn.
    by apply df_withdrawal in E.
  Qed.
  Lemma df_undelegation st s d a st' x : R MDelegation (User d) -> perform_undelegation st s d a = (st', x) -> fl st st'.
  Proof.
    intros HR. unfold perform_undelegation. destruct (perform_withdrawal _ _ _) as [sw err] eqn:E. destruct (f1_remove _ _) as [f u].
    intros [= <- <-]. apply df_withdrawal in E; [|done]. cbn. by destruct (u >? a).
  Qed.
  Lemma df_process_one st low e st' x : (forall u, R MDelegation (User u)) -> process_one st low e = (st', x) -> fl st st'.
  Proof.
    intros HR. unfold process_one. destruct (perform_undelegation _ _ _ _) as [st1 pd] eqn:E. intros [= <- <-]. apply df_undelegation in E; [|done]. cbn.
    destruct (pay_user _ _ _) eqn:E2; [|done]. apply df_pay_user in E2; [|done]. by eapply flows_trans.
  Qed.
  Lemma df_process_loop n st low : (forall u, R MDelegation (User u)) -> fl st (fst (fst (process_loop n st low))).
  Proof.
    intros HR. revert st low. induction n as [|n IH]; intros st low; [constructor|]. cbn [process_loop].
    destruct (ds_queue st !! _) as [e|].
    - destruct (due st e); [|constructor]. destruct (process_one st low e) as [st3 pd] eqn:E.
      specialize (IH st3 (low + 1)%N). destruct (process_loop n st3 _) as [[st4 l] o]. cbn in *.
      eapply flows_trans; [|exact IH]. by eapply df_process_one.
    - destruct (low <? ds_high st)%N; [apply IH|constructor].
  Qed.
  Lemma df_process_queue st : (forall u, R MDelegation (User u)) -> fl st (fst (process_queue st)).
  Proof.
    intros HR. unfold process_queue. pose proof (df_process_loop (queue_fuel st) st (ds_low st) HR) as H.
    destruct (process_loop _ _ _) as [[st1 l] o]. done.
  Qed.
  Lemma df_slash st s t : R MDelegation Treasury -> fl st (fst (slash_delegators st s t)).
  Proof.
    intros HR. unfold slash_delegators. destruct (f_data _); [|constructor]. destruct (f1_slash _ _) as [f x]. cbn.
    destruct (send _ _ _ _) eqn:E; cbn; [|constructor]. by eapply flows_one; [|exact E].
  Qed.
  Lemma df_delegate st ex d s a st' : R (User d) MDelegation -> R MDelegation (User d) -> msg_delegate st ex d s a = Some st' -> fl st st'.
  Proof.
    intros H1 H2. unfold msg_delegate. destruct ex; [|done]. cbn [negb]. destruct (send _ _ _ _) eqn:E; [|done]. intros [= <-]. cbn.
    eapply flows_trans; [by apply df_delegation|]. by eapply flows_one; [|exact E].
  Qed.
  Lemma df_redelegate st te ta d from to a st' : R MDelegation (User d) -> msg_redelegate st te ta d from to a = Some st' -> fl st st'.
  Proof.
    intros HR. unfold msg_redelegate. repeat (case_bool_decide; [|done]). destruct te, ta; try done. cbn [negb].
    destruct (_ >? _); [done|]. destruct (consume_spell _ _ _); [|done].
    destruct (perform_undelegation _ _ _ _) as [st2 x] eqn:E. destruct (negb _); [done|]. intros [= <-].
    eapply flows_trans; [|by apply df_delegation]. by eapply df_undelegation in E.
  Qed.
  Lemma df_withdraw st d s st' : R MDelegation (User d) -> msg_withdraw st d s = Some st' -> fl st st'.
  Proof.
    intros HR. unfold msg_withdraw. case_bool_decide; [|done]. cbn [negb]. destruct (perform_withdrawal _ _ _) as [st1 [r|]] eqn:E; [|done].
    intros [= <-]. by eapply df_withdrawal.
  Qed.
  Lemma df_payout st s c py st' : R py MDelegation -> payout_rewards st s c py = Some st' -> fl st st'.
  Proof.
    intros HR. unfold payout_rewards. destruct (cempty c); [intros [= <-]; constructor|]. destruct (f_data _); [|done].
    destruct (send _ _ _ _) eqn:E; [|done]. intros [= <-]. cbn. by eapply flows_one; [|exact E].
  Qed.
End delegation.

(** ** x/stakers, x/funders, x/team *)
Section modules.
  Context (R : acct -> acct -> Prop).
  Lemma sf_claim st s x st' : R MStakers (User s) -> msg_claim_commission st s x = Some st' -> flows R (ss_bank st) (ss_bank st').
  Proof.
    intros HR. unfold msg_claim_commission. destruct (ss_stakers st !! s); [|done]. destruct (negb _); [done|].
    destruct (send _ _ _ _) eqn:E; [|done]. intros [= <-]. by eapply flows_one; [|exact E].
  Qed.
  Lemma sf_join st pool del s p v a st' : R (User s) (User v) -> msg_join st pool del s p v a = Some st' -> flows R (ss_bank st) (ss_bank st').
  Proof.
    intros HR. unfold msg_join. destruct pool as [[]|]; try done. destruct (ss_stakers st !! s); [|done]. destruct (s =? v)%N; [done|].
    destruct (get_val st p s); [done|]. destruct (ensure_slot st del p s) as [st1|] eqn:E1; [|done].
    assert (Eb : ss_bank st1 = ss_bank st).
    { unfold ensure_slot in E1. destruct (_ <=? _); [|congruence]. destruct (_ <? _); [|done]. injection E1 as <-. apply sb_leave_pool. }
    destruct (existsb _ _); [done|]. destruct (existsb _ _); [done|].
    unfold pay_kyve. destruct (_ <? 0); [done|]. destruct (send _ _ _ _) eqn:E; [|done]. intros [= <-]. cbn.
    assert (Eb2 : ss_bank (add_val st1 p s v) = ss_bank st1) by (unfold add_val; destruct (ss_stakers _ !! _); [by destruct (get_val _ _ _)|done]).
    rewrite <- Eb, <- Eb2. by eapply flows_one; [|exact E].
  Qed.
  Lemma sf_pay st s py x st' : R py MStakers -> increase_commission_rewards st s py x = Some st' -> flows R (ss_bank st) (ss_bank st').
  Proof.
    intros HR. unfold increase_commission_rewards. destruct (cempty x); [intros [= <-]; constructor|]. destruct (ss_stakers st !! s); [|done].
    destruct (send _ _ _ _) eqn:E; [|done]. intros [= <-]. cbn. by eapply flows_one; [|exact E].
  Qed.
  Lemma ff_slot st p a f act st' act' : (forall u, R MFunders (User u)) -> ensure_free_slot st p a f act = Some (st', act') -> flows R (fs_bank st) (fs_bank st').
  Proof.
    intros HR. unfold ensure_free_slot. destruct (_ <? _)%nat; [intros [= <- <-]; constructor|].
    destruct (lowest_funding _ _) as [[[b fb] lo]|]; [|done]. destruct (b =? a)%N; [intros [= <- <-]; constructor|].
    destruct (score _ _); [|done]. destruct (_ <? _); [done|]. destruct (send _ _ _ _) eqn:E; [|done]. intros [= <- <-]. cbn.
    by eapply flows_one; [|exact E].
  Qed.
  Lemma ff_fund st ex a p x y st' : (forall u, R MFunders (User u)) -> R (User a) MFunders -> msg_fund st ex a p x y = Some st' -> flows R (fs_bank st) (fs_bank st').
  Proof.
    intros H1 H2. unfold msg_fund. case_bool_decide; [|done]. destruct ex; [|done]. cbn [negb].
    destruct (fs_active st !! p); [|done]. destruct (ensure_params _ _) as [f1|]; [|done].
    destruct (ensure_free_slot _ _ _ _ _) as [[st1 act1]|] eqn:E1; [|done]. apply ff_slot in E1; [|done].
    destruct (send _ _ _ _) eqn:E; [|done]. intros [= <-]. cbn. eapply flows_trans; [exact E1|]. by eapply flows_one; [|exact E].
  Qed.
  Lemma ff_defund st a p x st' : R MFunders (User a) -> msg_defund st a p x = Some st' -> flows R (fs_bank st) (fs_bank st').
  Proof.
    intros HR. unfold msg_defund. destruct (fs_fundings st !! (a, p)); [|done].
    destruct (match fs_active st !! p with Some l => _ | None => _ end) as [[sp act] miss]. destruct (cempty _); [done|].
    destruct (ensure_params _ _); [|done]. destruct (send _ _ _ _) eqn:E; [|done]. intros [= <-]. cbn. by eapply flows_one; [|exact E].
  Qed.
  Lemma ff_charge st p r : R MFunders r -> flows R (fs_bank st) (fs_bank (fst (charge_funders st p r))).
  Proof.
    intros HR. unfold charge_funders. destruct (fs_active st !! p) as [l|]; [|constructor]. destruct (active_fundings st p l) as [|af afs] eqn:Ea; [constructor|].
    pose proof (fb_charge_step (wl st) p (af :: afs) (st, l, ∅)) as Hb. destruct (fold_left _ _ _) as [[st1 act] pays]. cbn in Hb.
    destruct (cempty pays); [cbn; rewrite Hb; constructor|]. destruct (send _ _ _ _) eqn:E; cbn in *; rewrite <- Hb; [|constructor].
    by eapply flows_one; [|exact E].
  Qed.
  Lemma transfer_flows b f t x b' : R f t -> transfer b f t x = Some b' -> flows R b b'.
  Proof. unfold transfer. destruct (_ <? 0); [done|]. apply flows_one. Qed.
  Lemma tf_claim st s id x r st' : R MTeam (User r) -> msg_claim_unlocked st s id x r = Some st' -> flows R (ts_bank st) (ts_bank st').
  Proof.
    intros HR. unfold msg_claim_unlocked. destruct (negb _); [done|]. destruct (ts_accounts st !! id); [|done]. destruct (_ <? _); [done|].
    destruct (transfer _ _ _ _) eqn:E; [|done]. intros [= <-]. by eapply transfer_flows; [|exact E].
  Qed.
  Lemma tf_rewards st s id x r st' : R MTeam (User r) -> msg_claim_rewards st s id x r = Some st' -> flows R (ts_bank st) (ts_bank st').
  Proof.
    intros HR. unfold msg_claim_rewards. destruct (negb _); [done|]. destruct (ts_accounts st !! id); [|done]. destruct (_ <? _); [done|].
    destruct (transfer _ _ _ _) eqn:E; [|done]. intros [= <-]. by eapply transfer_flows; [|exact E].
  Qed.
  Lemma tf_authority st s x r st' : R MTeam (User r) -> msg_claim_authority st s x r = Some st' -> flows R (ts_bank st) (ts_bank st').
  Proof.
    intros HR. unfold msg_claim_authority. destruct (negb _); [done|]. destruct (_ <? _); [done|].
    destruct (transfer _ _ _ _) eqn:E; [|done]. intros [= <-]. by eapply transfer_flows; [|exact E].
  Qed.
  Lemma tf_begin st p s : R MFeeCollector MTeam -> flows R (ts_bank st) (ts_bank (team_begin st p s)).
  Proof.
    intros HR. unfold team_begin. destruct (block_provision _ _ _) as [[h r]|]; [|constructor]. destruct (distribute _ _ _) as [[l tot]|]; [|constructor].
    destruct (transfer _ _ _ _) eqn:E; [|constructor]. cbn in *. by eapply transfer_flows; [|exact E].
  Qed.
End modules.

(** ** x/bundles *)
Section bundles.
  Context (Q : N -> Prop).
  Local Notation R := (tally_edge Q).
  Definition tf (c c' : chain) : Prop := flows R (c_bank c) (c_bank c').
  Lemma tf_refl c : tf c c. Proof. constructor. Qed.
  Lemma tf_trans c1 c2 c3 : tf c1 c2 -> tf c2 c3 -> tf c1 c3. Proof. apply flows_trans. Qed.
  Lemma tf_slash_remove c p s t : tf c (slash_remove c p s t).
  Proof.
    unfold slash_remove, tf. cbv zeta. cbn [c_bank s_out cw_bank]. rewrite sb_leave_pool. cbn.
    apply (df_slash R (d_in c)). constructor.
  Qed.
  Lemma tf_reset c p s : tf c (reset_pts c p s).
  Proof. unfold tf, reset_pts. cbn. unfold reset_points. destruct (get_val _ _ _); constructor. Qed.
  Lemma tf_add_point c p s : tf c (add_point c p s).
  Proof.
    unfold add_point. destruct (increment_points (s_in c) p s) as [s' n] eqn:E.
    assert (Hs : tf c (s_out c s')).
    { unfold increment_points in E. destruct (get_val _ _ _); injection E as <- _; constructor. }
    destruct (_ <=? _); [|done]. eapply tf_trans; [exact Hs|]. apply tf_slash_remove.
  Qed.
  Lemma tf_fold {A} (f : chain -> A -> chain) l c : (forall c x, tf c (f c x)) -> tf c (fold_left f l c).
  Proof. intros Hf. revert c. induction l as [|x l IH]; intros c; simpl; [apply tf_refl|]. eapply tf_trans; [apply Hf|apply IH]. Qed.
  Lemma tf_non_voters c p : tf c (handle_non_voters c p).
  Proof. unfold handle_non_voters. apply tf_fold. intros c' s. destruct (voted _ _); [apply tf_refl|apply tf_add_point]. Qed.
  Lemma tf_charge_inflation c p c' x : Q p -> charge_inflation c p = Some (c', x) -> tf c c'.
  Proof.
    intros HQ. unfold charge_inflation. destruct (inflation_payout _ _); [|done]. destruct (i64 _ <? 0); [done|].
    destruct (send _ _ _ _) eqn:E; intros [= <- <-]; [|constructor]. eapply flows_one; [|exact E]. by constructor.
  Qed.
  Lemma tf_pay_out c u r : match pay_out c u r with inl c' | inr c' => tf c c' end.
  Proof.
    unfold pay_out. destruct (send _ _ _ _) as [bk|] eqn:E; [|constructor].
    assert (H1 : tf c (cw_bank c bk)) by (eapply flows_one; [|exact E]; constructor). set (c1 := cw_bank c bk) in *.
    destruct (increase_commission_rewards _ _ _ _) as [s|] eqn:Ei; [|done].
    assert (H2 : tf c (s_out c1 s)). { eapply tf_trans; [exact H1|]. apply (sf_pay R) in Ei; [exact Ei|constructor]. }
    set (c2 := s_out c1 s) in *. destruct (payout_rewards _ _ _ _) as [d|] eqn:Ep; [|done].
    eapply tf_trans; [exact H2|]. apply (df_payout R) in Ep; [exact Ep|constructor].
  Qed.
  Lemma tf_tally c b p : Q p ->
    match tally c b p with TrValid c' _ _ _ _ | TrInvalid c' _ | TrNoQuorum c' _ | TrError c' => tf c c' | TrPanic => True end.
  Proof.
    intros HQ. unfold tally. pose proof (tf_non_voters c p) as Hn. set (c1 := handle_non_voters c p) in *.
    destruct (v_status _); try done.
    - pose proof (ff_charge R (f_in c1) p MPool (te_fund Q)) as Hf.
      destruct (charge_funders _ _ _) as [f [fp|]]; [|eapply tf_trans; [exact Hn|exact Hf]]. cbn [fst] in Hf.
      destruct (charge_inflation _ _) as [[c2 x]|] eqn:Ei; [|done]. apply tf_charge_inflation in Ei; [|done].
      assert (H2 : tf c c2) by (eapply tf_trans; [exact Hn|]; eapply (tf_trans c1 (f_out c1 f)); [exact Hf|exact Ei]).
      destruct (payouts _ _ _) as [r|]; [|done]. pose proof (tf_pay_out c2 (bp_uploader b) r) as Hp.
      destruct (pay_out _ _ _) as [c3|c3]; [|by eapply tf_trans]. eapply tf_trans; [by eapply tf_trans|]. apply tf_fold. intros. apply tf_slash_remove.
    - eapply tf_trans; [exact Hn|]. apply tf_fold. intros. apply tf_slash_remove.
  Qed.
  Lemma tf_set_prop c p b : tf c (set_prop c p b). Proof. constructor. Qed.
  Lemma tf_choose c p ex : tf c (snd (choose c p ex)).
  Proof. unfold choose. destruct (choose_next _ _ _). constructor. Qed.
  Lemma tf_choose_from c p l : tf c (snd (choose_from c p l)).
  Proof. unfold choose_from. destruct (choose_next_from _ _ _). constructor. Qed.
  Lemma tf_finalize c p v : tf c (finalize c p v).
  Proof. unfold finalize. destruct (get_pool c p); constructor. Qed.
  Lemma tf_register c m n : tf c (register c m n).
  Proof. unfold register. destruct (get_pool c (sb_pool m)); constructor. Qed.
  Lemma tf_submit c m c' : Q (sb_pool m) -> msg_submit c m = Some c' -> tf c c'.
  Proof.
    intros HQ. unfold msg_submit. destruct (negb _); [done|]. destruct (negb _); [done|].
    pose proof (tf_reset c (sb_pool m) (sb_staker m)) as Hr. set (c1 := reset_pts _ _ _) in *.
    destruct (_ =? 0)%N.
    - pose proof (tf_choose c1 (sb_pool m) []) as Hc. destruct (choose _ _ _) as [n c2]. intros [= <-].
      eapply tf_trans; [exact Hr|]. eapply tf_trans; [exact Hc|]. apply tf_register.
    - pose proof (tf_tally c1 (get_prop c (sb_pool m)) (sb_pool m) HQ) as Ht. destruct (tally _ _ _) as [c2 v ? ? ?|c2 v| | |]; try done.
      + pose proof (tf_choose_from c2 (sb_pool m) (bp_valid (get_prop c (sb_pool m)))) as Hc.
        destruct (choose_from _ _ _) as [n c3]. intros [= <-]. eapply tf_trans; [exact Hr|]. eapply tf_trans; [exact Ht|].
        eapply tf_trans; [exact Hc|]. eapply tf_trans; [apply tf_finalize|apply tf_register].
      + intros [= <-]. eapply tf_trans; [exact Hr|]. eapply tf_trans; [exact Ht|]. apply tf_set_prop.
  Qed.
  Lemma tf_vote c p s v st w c' : msg_vote c p s v st w = Some c' -> c_bank c' = c_bank c.
  Proof.
    unfold msg_vote. destruct (negb _); [done|]. cbv zeta.
    destruct (match w with Valid => _ | _ => _ end); [|done]. intros [= <-]. unfold reset_pts. cbn. unfold reset_points. by destruct (get_val _ _ _).
  Qed.
  Lemma tf_skip c p s v from c' : Q p -> msg_skip c p s v from = Some c' -> tf c c'.
  Proof.
    intros HQ. unfold msg_skip. destruct (negb _); [done|]. cbv zeta. pose proof (tf_reset c p s) as Hr.
    pose proof (tf_tally (reset_pts c p s) (get_prop c p) p HQ) as Ht.
    destruct (tally _ _ _) as [c1 w ? ? ?|c1 w|c1 w| |]; try done;
      pose proof (tf_choose c1 p [s]) as Hc; destruct (choose _ _ _) as [n c2]; cbn [snd] in Hc; intros [= <-];
      eapply tf_trans; [exact Hr| |exact Hr| |exact Hr|]; (eapply tf_trans; [exact Ht|]); (eapply tf_trans; [exact Hc|]).
    - eapply tf_trans; [apply tf_finalize|apply tf_set_prop].
    - apply tf_set_prop.
    - apply tf_set_prop.
  Qed.
  Lemma tf_timeout_point c p s : tf c (timeout_point c p s).
  Proof. unfold timeout_point. destruct (in_pool c p s); [apply tf_add_point|apply tf_refl]. Qed.
  Lemma tf_timeout_pool c p i c' : Q p -> timeout_pool c p i = Some c' -> tf c c'.
  Proof.
    intros HQ. unfold timeout_pool. destruct (pool_error c p) as [e|].
    { intros [= <-]. destruct (_ && _); [apply tf_set_prop|]. destruct (negb _); [apply tf_set_prop|apply tf_refl]. }
    destruct (_ <? _); [intros [= <-]; apply tf_refl|]. destruct (_ && _).
    { pose proof (tf_choose (handle_non_voters c p) p []) as Hc. destruct (choose _ _ _) as [n c1].
      intros [= <-]. eapply tf_trans; [apply tf_non_voters|]. eapply tf_trans; [exact Hc|]. apply tf_set_prop. }
    destruct (_ <? _); [intros [= <-]; apply tf_refl|]. destruct (_ =? 0)%N.
    { pose proof (tf_choose c p []) as Hc. destruct (choose _ _ _) as [n c1]. intros [= <-].
      eapply tf_trans; [exact Hc|]. eapply tf_trans; [|apply tf_timeout_point]. apply tf_set_prop. }
    pose proof (tf_tally c (get_prop c p) p HQ) as Ht. destruct (tally _ _ _) as [c1 w ? ? ?|c1 w|c1 w|c1|]; try done.
    - pose proof (tf_choose_from c1 p (bp_valid (get_prop c p))) as Hc. destruct (choose_from _ _ _) as [n c2].
      intros [= <-]. eapply tf_trans; [exact Ht|]. eapply tf_trans; [exact Hc|]. eapply tf_trans; [|apply tf_timeout_point].
      eapply tf_trans; [apply tf_finalize|apply tf_set_prop].
    - pose proof (tf_choose c1 p []) as Hc. destruct (choose _ _ _) as [n c2]. intros [= <-].
      eapply tf_trans; [exact Ht|]. eapply tf_trans; [exact Hc|]. eapply tf_trans; [|apply tf_timeout_point]. apply tf_set_prop.
    - pose proof (tf_choose c1 p []) as Hc. destruct (choose _ _ _) as [n c2]. intros [= <-].
      eapply tf_trans; [exact Ht|]. eapply tf_trans; [exact Hc|]. eapply tf_trans; [|apply tf_timeout_point]. apply tf_set_prop.
    - intros [= <-]. exact Ht.
  Qed.
  Lemma tf_timeouts l c c' : (forall p, Q p) -> timeouts c l = Some c' -> tf c c'.
  Proof.
    intros HQ. revert c. induction l as [|[p i] l IH]; intros c; simpl; [intros [= <-]; apply tf_refl|].
    destruct (timeout_pool c p i) as [c1|] eqn:E; [|done]. intros H. eapply tf_trans; [by eapply tf_timeout_pool|by apply IH].
  Qed.
  Lemma tf_handle_timeout c : (forall p, Q p) -> tf c (handle_upload_timeout c).
  Proof. intros HQ. unfold handle_upload_timeout. destruct (timeouts _ _) eqn:E; [by eapply tf_timeouts|constructor]. Qed.
End bundles.

(** ** The chain *)
Lemma give_flows (R : acct -> acct -> Prop) c p x c' : R MFeeCollector (PoolAcc p) -> give c p x = Some c' -> flows R (c_bank c) (c_bank c').
Proof.
  intros HR. unfold give. destruct (i64 x <? 0); [done|]. destruct (send _ _ _ _) eqn:E; intros [= <-]; [|constructor].
  by eapply flows_one; [|exact E].
Qed.
Lemma split_loop_flows (R : acct -> acct -> Prop) l c total protocol ds c' ds' : (forall p, R MFeeCollector (PoolAcc p)) ->
  split_loop c total protocol ds l = Some (c', ds') -> flows R (c_bank c) (c_bank c').
Proof.
  intros HR. revert c ds. induction l as [|p l IH]; intros c ds; simpl; [intros [= <- <-]; constructor|].
  destruct (can_run c p); [|apply IH]. destruct (pool_share _ _ _); [|done]. destruct (give _ _ _) eqn:E; [|done].
  intros H. eapply flows_trans; [by eapply give_flows|by eapply IH].
Qed.
Lemma remainder_loop_flows (R : acct -> acct -> Prop) l c x c' : (forall p, R MFeeCollector (PoolAcc p)) ->
  remainder_loop c x l = Some c' -> flows R (c_bank c) (c_bank c').
Proof.
  intros HR. revert c. induction l as [|p l IH]; intros c; simpl; [intros [= <-]; constructor|].
  destruct (can_run c p); [apply IH|]. destruct (give _ _ _) eqn:E; [|done].
  intros H. eapply flows_trans; [by eapply give_flows|by eapply IH].
Qed.
Lemma split_flows (R : acct -> acct -> Prop) c pr c' : (forall p, R MFeeCollector (PoolAcc p)) ->
  split_inflation c pr = Some c' -> flows R (c_bank c) (c_bank c').
Proof.
  intros HR. unfold split_inflation. destruct (block_provision _ _ _) as [[h team]|]; [|done].
  destruct (trunc64 _) as [protocol|]; [|done]. set (c0 := if h then cw_halt c else c).
  assert (E0 : c_bank c0 = c_bank c) by (unfold c0; by destruct h).
  destruct (protocol =? 0); [intros [= <-]; rewrite E0; constructor|].
  destruct (total_weight c0 =? 0); [intros [= <-]; rewrite E0; constructor|].
  destruct (split_loop _ _ _ _ _) as [[c1 ds]|] eqn:E1; [|done]. apply (split_loop_flows R) in E1; [|done]. rewrite E0 in E1.
  destruct (0 <? _); [|by intros [= <-]]. intros H. apply (remainder_loop_flows R) in H; [|done]. by eapply flows_trans.
Qed.
Lemma begin_flows c t pr : flows (allowed (CBegin t pr)) (mint (c_bank c) MFeeCollector (coin KYVE pr)) (c_bank (begin_block c t pr)).
Proof.
  unfold begin_block. cbv zeta.
  set (c0 := cw_time (cw_bank c (mint (c_bank c) MFeeCollector (coin KYVE pr))) t (c_height c + 1)).
  assert (H0 : c_bank c0 = mint (c_bank c) MFeeCollector (coin KYVE pr)) by done. clearbody c0. rewrite <- H0.
  pose proof (tf_begin (allowed (CBegin t pr)) (twith_time (t_in c0) t) pr (supply (c_bank c0)) (al_begin_team t pr)) as H1.
  change (flows (allowed (CBegin t pr)) (c_bank c0) (c_bank (t_out c0 (team_begin (twith_time (t_in c0) t) pr (supply (c_bank c0)))))) in H1.
  revert H1. generalize (t_out c0 (team_begin (twith_time (t_in c0) t) pr (supply (c_bank c0)))). intros c1 H1.
  assert (H2 : flows (allowed (CBegin t pr)) (c_bank c1) (c_bank (match split_inflation c1 pr with Some x => x | None => cw_halt c1 end))).
  { destruct (split_inflation c1 pr) eqn:E; [|constructor]. eapply split_flows; [|exact E]. constructor. }
  revert H2. generalize (match split_inflation c1 pr with Some x => x | None => cw_halt c1 end). intros c2 H2.
  pose proof (df_process_queue (allowed (CBegin t pr)) (with_time (d_in c2) t) (al_begin_unbond t pr)) as H3.
  change (flows (allowed (CBegin t pr)) (c_bank c2) (c_bank (d_out c2 (fst (process_queue (with_time (d_in c2) t)))))) in H3.
  revert H3. generalize (d_out c2 (fst (process_queue (with_time (d_in c2) t)))). intros c3 H3.
  assert (H4 : c_bank (s_out c3 (stakers_begin (with_stime (s_in c3) t))) = c_bank c3).
  { cbn. by rewrite sb_begin. }
  rewrite H4. eapply flows_trans; [exact H1|]. by eapply flows_trans.
Qed.

(** The parts that x/bundles leaves alone at the end of a block. *)
Definition hk (c c' : chain) : Prop := c_burn c' = c_burn c /\ c_height c' = c_height c.
Lemma hk_refl c : hk c c. Proof. done. Qed.
Lemma hk_trans c1 c2 c3 : hk c1 c2 -> hk c2 c3 -> hk c1 c3. Proof. intros [? ?] [? ?]. split; congruence. Qed.
Lemma hk_b c c' : bpart c' = bpart c -> hk c c'.
Proof. intros H. apply bpart_eq in H. unfold hk. tauto. Qed.
Lemma hk_finalize c p v : hk c (finalize c p v).
Proof. unfold finalize. by destruct (get_pool c p). Qed.
Lemma hk_set_prop c p b : hk c (set_prop c p b). Proof. done. Qed.
Lemma hk_timeout_pool c p i c' : timeout_pool c p i = Some c' -> hk c c'.
Proof.
  unfold timeout_pool. destruct (pool_error c p) as [e|].
  { intros [= <-]. destruct (_ && _); [apply hk_set_prop|]. destruct (negb _); [apply hk_set_prop|apply hk_refl]. }
  destruct (_ <? _); [intros [= <-]; apply hk_refl|]. destruct (_ && _).
  { pose proof (b_choose (handle_non_voters c p) p []) as Hc. destruct (choose _ _ _) as [n c1].
    intros [= <-]. eapply hk_trans; [apply hk_b, b_non_voters|]. eapply hk_trans; [apply hk_b, Hc|]. apply hk_set_prop. }
  destruct (_ <? _); [intros [= <-]; apply hk_refl|]. destruct (_ =? 0)%N.
  { pose proof (b_choose c p []) as Hc. destruct (choose _ _ _) as [n c1]. intros [= <-].
    eapply hk_trans; [apply hk_b, Hc|]. eapply hk_trans; [|apply hk_b, b_timeout_point]. apply hk_set_prop. }
  pose proof (b_tally c (get_prop c p) p) as Ht. destruct (tally _ _ _) as [c1 w ? ? ?|c1 w|c1 w|c1|]; try done.
  - pose proof (b_choose_from c1 p (bp_valid (get_prop c p))) as Hc. destruct (choose_from _ _ _) as [n c2].
    intros [= <-]. eapply hk_trans; [apply hk_b, Ht|]. eapply hk_trans; [apply hk_b, Hc|]. eapply hk_trans; [|apply hk_b, b_timeout_point].
    eapply hk_trans; [apply hk_finalize|apply hk_set_prop].
  - pose proof (b_choose c1 p []) as Hc. destruct (choose _ _ _) as [n c2]. intros [= <-].
    eapply hk_trans; [apply hk_b, Ht|]. eapply hk_trans; [apply hk_b, Hc|]. eapply hk_trans; [|apply hk_b, b_timeout_point]. apply hk_set_prop.
  - pose proof (b_choose c1 p []) as Hc. destruct (choose _ _ _) as [n c2]. intros [= <-].
    eapply hk_trans; [apply hk_b, Ht|]. eapply hk_trans; [apply hk_b, Hc|]. eapply hk_trans; [|apply hk_b, b_timeout_point]. apply hk_set_prop.
  - intros [= <-]. by apply hk_b.
Qed.
Lemma hk_handle_timeout c : hk c (handle_upload_timeout c).
Proof.
  unfold handle_upload_timeout. destruct (timeouts _ _) eqn:E; [|done]. revert E. generalize (pool_intervals c) as l. intros l. revert c.
  induction l as [|[p i] l IH]; intros c; simpl; [intros [= <-]; apply hk_refl|].
  destruct (timeout_pool c p i) as [c1|] eqn:E; [|done]. intros H. eapply hk_trans; [by eapply hk_timeout_pool|by apply IH].
Qed.

(** ** Statement *)
(** What the signer [u] of a message agreed to spend, per denom. *)
Definition agreed (o : cop) (u : N) (d : N) : Z :=
  match o with
  | CDelegate a _ x | CCreateStaker a _ x | CJoin a _ _ x => if (a =? u)%N then if (d =? KYVE)%N then x else 0 else 0
  | CFund a _ x _ => if (a =? u)%N then amt x d else 0
  | _ => 0
  end.
(** What x/mint adds. *)
Definition minted (o : cop) (d : N) : Z := match o with CBegin _ pr => if (d =? KYVE)%N then pr else 0 | _ => 0 end.
(** What x/global burns at the end of a block. *)
Definition burned (c : chain) (o : cop) (d : N) : Z :=
  match o with
  | CEnd => if c_height c =? 1 then 0 else bal (c_bank c) MFeeCollector d * c_burn c / ONE
  | _ => 0
  end.
Definition by_chain (o : cop) : Prop := match o with CBank _ => False | _ => True end.

(** ** Proofs *)
Lemma disable_flows c s p c' : chain_disable_pool c s p = Some c' -> flows (allowed (CDisablePool s p)) (c_bank c) (c_bank c').
Proof.
  unfold chain_disable_pool. destruct (disable_record _ _ _) as [ps|]; [|done]. cbv zeta.
  set (c2 := fold_left _ _ _).
  assert (E2 : c_bank c2 = c_bank c).
  { unfold c2. generalize (members (cw_pools c ps) p) as l. intros l. change (c_bank c) with (c_bank (cw_pools c ps)).
    generalize (cw_pools c ps) as x. induction l as [|y l IH]; intros x; simpl; [done|]. rewrite IH. cbn. by rewrite sb_leave_pool. }
  rewrite <- E2. destruct (_ <=? _); [done|]. destruct (0 <? _); [|intros [= <-]; constructor]. destruct (i64 _ <? 0); [done|].
  destruct (send _ _ _ _) eqn:E; [|done]. intros [= <-]. eapply flows_one; [|exact E]. constructor.
Qed.
Lemma msg_flows c o c' : match o with CBegin _ _ | CEnd | CBank _ => False | _ => True end -> cmsg c o = Some c' ->
  flows (allowed o) (c_bank c) (c_bank c').
Proof.
  intros Ho. destruct o; try done; cbn [cmsg].
  - intros (x & E & ->)%fmap_Some. eapply (df_delegate (allowed _)) in E; [exact E|constructor..].
  - intros (x & E & ->)%fmap_Some. unfold msg_undelegate in E. destruct (_ >? _); [done|]. injection E as <-. constructor.
  - intros (x & E & ->)%fmap_Some. eapply (df_redelegate (allowed _)) in E; [exact E|constructor..].
  - intros (x & E & ->)%fmap_Some. eapply (df_withdraw (allowed _)) in E; [exact E|constructor..].
  - unfold chain_create_staker. destruct (msg_delegate _ _ _ _ _) as [x|] eqn:E; [|done]. destruct (msg_create_staker _ _ _ _); [|done].
    intros [= <-]. eapply (df_delegate (allowed (CCreateStaker s commission a))) in E; [exact E|constructor..].
  - intros (x & E & ->)%fmap_Some. unfold msg_update_commission in E. destruct (ss_stakers _ !! _); [|done]. injection E as <-. unfold order_commission. destruct (_ !! _) as [i|]; [destruct (_ !! i)|]; constructor.
  - intros (x & E & ->)%fmap_Some. eapply (sf_claim (allowed _)) in E; [exact E|constructor..].
  - intros (x & E & ->)%fmap_Some. eapply (sf_join (allowed _)) in E; [exact E|constructor..].
  - intros (x & E & ->)%fmap_Some. unfold msg_leave in E. destruct (get_val _ _ _); [|done]. cbv zeta in E. case_bool_decide; [done|]. injection E as <-. constructor.
  - intros (x & E & ->)%fmap_Some. unfold msg_create_funder in E. case_bool_decide; [done|]. injection E as <-. constructor.
  - intros (x & E & ->)%fmap_Some. eapply (ff_fund (allowed _)) in E; [exact E|constructor..].
  - intros (x & E & ->)%fmap_Some. eapply (ff_defund (allowed _)) in E; [exact E|constructor..].
  - intros (x & E & ->)%fmap_Some. destruct o; try done.
    + unfold msg_create in E. destruct (negb _); [done|]. destruct (_ || _); [done|]. destruct (_ <? _); [done|]. injection E as <-. constructor.
    + eapply (tf_claim (allowed _)) in E; [exact E|constructor..].
    + unfold msg_clawback in E. destruct (negb _); [done|]. destruct (ts_accounts _ !! _); [|done]. do 2 (destruct (_ && _); [done|]). injection E as <-. constructor.
    + eapply (tf_rewards (allowed _)) in E; [exact E|constructor..].
    + eapply (tf_authority (allowed _)) in E; [exact E|constructor..].
  - intros E. eapply flows_mono; [intros x y; apply al_submit|]. by eapply tf_submit.
  - intros E. apply tf_vote in E. rewrite E. constructor.
  - intros E. eapply flows_mono; [intros x y; apply al_skip|]. by eapply tf_skip.
  - unfold msg_claim_role. repeat (destruct (negb _); [done|]). intros [= <-]. constructor.
  - unfold chain_create_pool. destruct (msg_create_pool _ _ _ _ _); [|done]. intros [= <-]. constructor.
  - intros (x & E & ->)%fmap_Some. constructor.
  - intros (x & E & ->)%fmap_Some. constructor.
  - apply disable_flows.
  - intros (x & E & ->)%fmap_Some. constructor.
  - intros (x & E & ->)%fmap_Some. constructor.
  - destruct (_ =? _)%N; [|done]. intros [= <-]. constructor.
  - destruct (_ =? _)%N; [|done]. intros [= <-]. constructor.
  - destruct (_ =? _)%N; [|done]. intros [= <-]. constructor.
  - destruct (_ =? _)%N; [|done]. intros [= <-]. constructor.
  - destruct (_ =? _)%N; [|done]. intros [= <-]. constructor.
  - destruct (_ =? _)%N; [|done]. intros [= <-]. constructor.
Qed.

(** *** The end of a block *)
Definition burns (c : chain) (b b' : bank) : Prop :=
  b' = if (c_height c =? 1) || (c_burn c =? 0) then b
       else default b (burn b MFeeCollector (share_of (bal_of b MFeeCollector) (c_burn c))).
Lemma end_flows c : exists b, flows (allowed CEnd) (c_bank c) b /\ burns c b (c_bank (end_block c)).
Proof.
  unfold end_block. set (c1 := cw_pools c _). set (c2 := handle_upload_timeout c1). exists (c_bank c2). split.
  - eapply flows_mono; [intros x y; apply al_end|]. by apply (tf_handle_timeout (fun _ => True) c1).
  - destruct (hk_handle_timeout c1) as [Hb Hh]. fold c2 in Hb, Hh. cbn [c1 cw_pools c_burn c_height] in Hb, Hh.
    unfold burn_fees, burns. rewrite Hb, Hh. destruct (c_height c =? 1); [done|]. destruct (c_burn c =? 0); [done|].
    by destruct (burn _ _ _).
Qed.
Lemma burns_bal c b b' a d : burns c b b' -> a <> MFeeCollector -> bal b' a d = bal b a d.
Proof.
  unfold burns. intros -> Ha. destruct (_ || _); [done|]. unfold burn. destruct (cle _ _); [|done]. unfold bal. simpl default. rewrite bal_of_insert.
  by destruct (decide _).
Qed.
(** *** Who loses and who gains *)
Lemma mint_bal b to x a d : bal (mint b to x) a d = bal b a d + (if decide (to = a) then amt x d else 0).
Proof. unfold mint, bal. rewrite bal_of_insert. destruct (decide _) as [<-|]; [by rewrite amt_cadd|lia]. Qed.
Lemma flows_lose (R : acct -> acct -> Prop) b b' a d : flows R b b' -> bal b' a d < bal b a d -> exists y, R a y.
Proof.
  induction 1 as [|b from to c b1 b2 Hr Hs _ IH]; [lia|]. intros H. destruct (decide (from = a)) as [<-|Hn]; [by eexists|].
  apply IH. pose proof (proj1 (send_le _ _ _ _ _ a d Hs) (not_eq_sym Hn)). lia.
Qed.
Lemma flows_gain (R : acct -> acct -> Prop) b b' a d : flows R b b' -> bal b a d < bal b' a d -> exists y, R y a.
Proof.
  induction 1 as [|b from to c b1 b2 Hr Hs _ IH]; [lia|]. intros H. destruct (decide (to = a)) as [<-|Hn]; [by eexists|].
  apply IH. pose proof (proj2 (send_le _ _ _ _ _ a d Hs) (not_eq_sym Hn)). lia.
Qed.
Lemma cstep_cases c o : cstep c o = c \/ cmsg c o = Some (cstep c o).
Proof. unfold cstep. destruct (cmsg c o); [by right|by left]. Qed.
Lemma flows_nn R b b' : flows R b b' -> bank_nn b -> bank_nn b'.
Proof. induction 1 as [|b from to c b1 b2 Hr Hs _ IH]; [done|]. intros H. apply IH. by eapply send_nn. Qed.
(** Any account that loses money has an allowed payee, or is the fee collector at the end of a block. *)
Lemma step_lose c o a d : by_chain o -> 0 <= minted o KYVE -> bal (c_bank (cstep c o)) a d < bal (c_bank c) a d ->
  (exists y, allowed o a y) \/ (o = CEnd /\ a = MFeeCollector).
Proof.
  intros Ho Hm H. destruct (cstep_cases c o) as [E|E]; [rewrite E in H; lia|].
  assert (Hdef : match o with CBegin _ _ | CEnd | CBank _ => False | _ => True end -> exists y, allowed o a y).
  { intros Hi. by eapply flows_lose; [eapply msg_flows; [exact Hi|exact E]|]. }
  destruct o; try (left; by apply Hdef); clear Hdef E.
  - left. change (c_bank (cstep c (CBegin t provision))) with (c_bank (begin_block c t provision)) in H.
    apply (flows_lose _ _ _ a d (begin_flows c t provision)). rewrite mint_bal. cbn in Hm. destruct (decide _); [|lia].
    rewrite amt_coin. destruct (decide _); lia.
  - destruct (decide (a = MFeeCollector)) as [->|Ha]; [by right|]. left. destruct (end_flows c) as (b & Hf & Hb). apply (flows_lose _ _ _ a d Hf).
    rewrite <- (burns_bal _ _ _ a d Hb Ha). exact H.
Qed.
Lemma burn_ratio g c : G g c -> 0 <= c_burn c <= ONE.
Proof. intros HG. destruct (g_par _ _ HG) as (_ & _ & _ & H & _). unfold pct_ok in H. lia. Qed.
Lemma fee_edge a b : ~ allowed CEnd MFeeCollector a /\ ~ allowed CEnd b MFeeCollector.
Proof. split; intros H; inversion H as [| | | | | | | | | | | | | | | | | | | |x y Ht]; subst; inversion Ht. Qed.
(** The burning at the end of a block takes exactly the configured part. *)
Lemma end_burn g c : G g c -> exists b, flows (allowed CEnd) (c_bank c) b /\ bank_nn b /\
  (forall d, bal b MFeeCollector d = bal (c_bank c) MFeeCollector d) /\
  forall a d, bal (c_bank (end_block c)) a d = bal b a d - (if decide (a = MFeeCollector) then burned c CEnd d else 0) /\
              total (c_bank (end_block c)) d = total b d - burned c CEnd d /\ 0 <= burned c CEnd d <= bal b MFeeCollector d.
Proof.
  intros HG. destruct (end_flows c) as (b & Hf & Hb). exists b. split; [done|]. split; [eapply flows_nn; [done|apply HG]|].
  assert (Hn : bank_nn b) by (eapply flows_nn; [done|apply HG]).
  assert (He : forall d, bal b MFeeCollector d = bal (c_bank c) MFeeCollector d).
  { intros d. eapply flows_same; [exact Hf| |]; intros y; apply fee_edge; exact MFeeCollector. }
  split; [done|]. intros a d. pose proof (burn_ratio g c HG) as Hr.
  assert (Hq' : forall d, amt (share_of (bal_of b MFeeCollector) (c_burn c)) d = bal (c_bank c) MFeeCollector d * c_burn c / ONE).
  { intros d'. rewrite amt_share. fold (bal b MFeeCollector d'). rewrite He. apply trunc_int_div. pose proof (g_nn _ _ HG MFeeCollector d'). nia. }
  assert (Hs : forall d, 0 <= bal (c_bank c) MFeeCollector d * c_burn c / ONE <= bal (c_bank c) MFeeCollector d).
  { intros d'. pose proof (g_nn _ _ HG MFeeCollector d') as Hp. unfold bank_nn in Hp.
    rewrite <- trunc_int_div by nia. by apply share_bounds. }
  assert (Hcle : cle (share_of (bal_of b MFeeCollector) (c_burn c)) (bal_of b MFeeCollector) = true).
  { apply cle_amt; [apply Hn|]. intros d'. rewrite Hq'. fold (bal b MFeeCollector d'). rewrite He. apply Hs. }
  cbn [burned]. rewrite Hb. unfold burns in Hb. destruct (Z.eqb_spec (c_height c) 1) as [E1|E1].
  { cbn [orb]. rewrite He. pose proof (g_nn _ _ HG MFeeCollector d). destruct (decide _); split_and!; lia. }
  cbn [orb]. destruct (Z.eqb_spec (c_burn c) 0) as [E2|E2].
  { rewrite E2, Z.mul_0_r, He, Z.div_0_l by done. pose proof (g_nn _ _ HG MFeeCollector d). destruct (decide _); split_and!; lia. }
  unfold burn. rewrite Hcle. simpl default. split_and!.
  - unfold bal at 1. rewrite bal_of_insert. destruct (decide _) as [<-|H1], (decide _) as [H2|]; try congruence.
    + by rewrite amt_csub, Hq'.
    + unfold bal. lia.
  - rewrite total_insert, amt_csub, Hq'. fold (bal b MFeeCollector d). lia.
  - apply Hs.
  - rewrite He. apply Hs.
Qed.

(** *** Supply *)
Lemma mint_total b to x d : total (mint b to x) d = total b d + amt x d.
Proof. unfold mint. rewrite total_insert, amt_cadd. unfold bal. lia. Qed.
Lemma step_supply g c o d : G g c -> by_chain o -> total (c_bank (cstep c o)) d = total (c_bank c) d + minted o d - burned c o d.
Proof.
  intros HG Ho. assert (Hz : cmsg c o = None -> minted o d = 0 /\ burned c o d = 0) by (by destruct o).
  unfold cstep. destruct (cmsg c o) as [c'|] eqn:E; [|destruct (Hz eq_refl); cbn; lia]. change (default c (Some c')) with c'. clear Hz.
  assert (Hdef : match o with CBegin _ _ | CEnd | CBank _ => False | _ => True end -> total (c_bank c') d = total (c_bank c) d).
  { intros Hi. eapply flows_total. by eapply msg_flows. }
  destruct o; try (rewrite Hdef by done; cbn [minted burned]; lia); try done; clear Hdef; injection E as <-.
  - rewrite (flows_total _ _ _ d (begin_flows c t provision)), mint_total, amt_coin. cbn [minted burned].
    destruct (decide (KYVE = d)) as [<-|]; [rewrite N.eqb_refl; lia|]. destruct (N.eqb_spec d KYVE); [congruence|lia].
  - destruct (end_burn g c HG) as (b & Hf & _ & _ & H). destruct (H MFeeCollector d) as (_ & -> & _). rewrite (flows_total _ _ _ d Hf). cbn [minted]. lia.
Qed.
Lemma step_gain g c o a d : G g c -> by_chain o -> bal (c_bank c) a d < bal (c_bank (cstep c o)) a d ->
  (exists y, allowed o y a) \/ (a = MFeeCollector /\ 0 < minted o d).
Proof.
  intros HG Ho H. destruct (cstep_cases c o) as [E|E]; [rewrite E in H; lia|].
  assert (Hdef : match o with CBegin _ _ | CEnd | CBank _ => False | _ => True end -> exists y, allowed o y a).
  { intros Hi. by eapply flows_gain; [eapply msg_flows; [exact Hi|exact E]|]. }
  destruct o; try (left; by apply Hdef); clear Hdef E.
  - change (c_bank (cstep c (CBegin t provision))) with (c_bank (begin_block c t provision)) in H.
    pose proof (flows_gain _ _ _ a d (begin_flows c t provision)) as Hg. rewrite mint_bal in Hg.
    destruct (decide (MFeeCollector = a)) as [<-|]; [|left; apply Hg; lia]. rewrite amt_coin in Hg. cbn [minted].
    destruct (decide (KYVE = d)) as [<-|]; [|left; apply Hg; lia]. rewrite N.eqb_refl.
    destruct (Z.le_gt_cases provision 0); [left; apply Hg; lia|right; done].
  - left. destruct (end_burn g c HG) as (b & Hf & _ & _ & Hb). apply (flows_gain _ _ _ a d Hf). destruct (Hb a d) as (E & _ & Hp).
    change (c_bank (cstep c CEnd)) with (c_bank (end_block c)) in H. rewrite E in H. destruct (decide _); lia.
Qed.
(** *** What the signer spends *)
Lemma send_from b from to x b' a d : send b from to x = Some b' -> bal b a d - (if decide (from = a) then amt x d else 0) <= bal b' a d.
Proof.
  intros Hs. pose proof (send_pos _ _ _ _ _ Hs) as Hc. apply send_Some in Hs as [_ Hb]. rewrite Hb. pose proof (cpos_amt x d Hc).
  destruct (decide (to = a)); lia.
Qed.
Lemma user_lose o a : (exists y, allowed o (User a) y) ->
  match o with CDelegate u _ _ | CCreateStaker u _ _ | CJoin u _ _ _ | CFund u _ _ _ => u = a | _ => False end.
Proof. intros [y H]. inversion H; subst; try done; match goal with Ht : tally_edge _ _ _ |- _ => inversion Ht end. Qed.
Lemma delegate_spends st ex u s x st' a d : msg_delegate st ex u s x = Some st' ->
  bal (ds_bank st) (User a) d - (if (u =? a)%N then if (d =? KYVE)%N then x else 0 else 0) <= bal (ds_bank st') (User a) d.
Proof.
  unfold msg_delegate. destruct ex; [|done]. cbn [negb]. cbv zeta. destruct (send _ _ _ _) as [b|] eqn:E; [|done]. intros [= <-]. cbn [with_bank ds_bank].
  pose proof (df_delegation (fun x y => x = MDelegation /\ y = User u) st s u x (conj eq_refl eq_refl)) as H.
  pose proof (flows_ge _ _ _ (User a) d H) as Hg. apply (send_from _ _ _ _ _ (User a) d) in E. rewrite amt_coin in E.
  assert (Hd : bal (ds_bank st) (User a) d <= bal (ds_bank (perform_delegation st s u x)) (User a) d) by (apply Hg; by intros y [? ?]).
  destruct (decide (User u = User a)) as [Eq|Ne].
  - injection Eq as ->. rewrite N.eqb_refl. destruct (decide (KYVE = d)) as [<-|]; [rewrite N.eqb_refl; lia|].
    destruct (N.eqb_spec d KYVE); [congruence|lia].
  - destruct (N.eqb_spec u a); [congruence|lia].
Qed.
Lemma agreed_nn c o a d : cop_ok c o -> 0 <= agreed o a d.
Proof.
  destruct o; cbn [cop_ok agreed]; try done; intros H.
  - destruct (_ =? _)%N; [|done]. destruct (_ =? _)%N; lia.
  - destruct (_ =? _)%N; [|done]. destruct (_ =? _)%N; lia.
  - destruct (_ =? _)%N; [|done]. destruct (_ =? _)%N; [|lia]. destruct H as (_ & _ & H & _). unfold u64 in H. lia.
  - destruct (_ =? _)%N; [|done]. apply cpos_amt, H.
Qed.
Lemma minted_nn c o : cop_ok c o -> 0 <= minted o KYVE.
Proof. destruct o; cbn [cop_ok minted]; try done. rewrite N.eqb_refl. lia. Qed.
Lemma join_spends st pool del u p v x st' a d : msg_join st pool del u p v x = Some st' ->
  bal (ss_bank st) (User a) d - (if (u =? a)%N then if (d =? KYVE)%N then x else 0 else 0) <= bal (ss_bank st') (User a) d.
Proof.
  unfold msg_join. destruct pool as [[]|]; try done. destruct (ss_stakers st !! u); [|done]. destruct (u =? v)%N; [done|].
  destruct (get_val st p u); [done|]. destruct (ensure_slot st del p u) as [st1|] eqn:E1; [|done].
  assert (Eb : ss_bank st1 = ss_bank st).
  { unfold ensure_slot in E1. destruct (_ <=? _); [|congruence]. destruct (_ <? _); [|done]. injection E1 as <-. apply sb_leave_pool. }
  destruct (existsb _ _); [done|]. destruct (existsb _ _); [done|].
  unfold pay_kyve. destruct (Z.ltb_spec (i64 x) 0); [done|]. destruct (send _ _ _ _) as [b|] eqn:E; [|done]. intros [= <-].
  assert (Eb2 : ss_bank (add_val st1 p u v) = ss_bank st1) by (unfold add_val; destruct (ss_stakers _ !! _); [by destruct (get_val _ _ _)|done]).
  rewrite Eb2, Eb in E. apply (send_from _ _ _ _ _ (User a) d) in E. rewrite amt_coin in E.
  cbn.
  destruct (decide (User u = User a)) as [Eq|Ne].
  - injection Eq as ->. rewrite N.eqb_refl. destruct (decide (KYVE = d)) as [<-|]; [rewrite N.eqb_refl; lia|].
    destruct (N.eqb_spec d KYVE); [congruence|lia].
  - destruct (N.eqb_spec u a); [congruence|lia].
Qed.
Lemma fund_spends st ex u p x y st' a d : msg_fund st ex u p x y = Some st' ->
  bal (fs_bank st) (User a) d - (if (u =? a)%N then amt x d else 0) <= bal (fs_bank st') (User a) d.
Proof.
  unfold msg_fund. case_bool_decide; [|done]. destruct ex; [|done]. cbn [negb].
  destruct (fs_active st !! p); [|done]. destruct (ensure_params _ _) as [f1|]; [|done].
  destruct (ensure_free_slot _ _ _ _ _) as [[st1 act1]|] eqn:E1; [|done].
  apply (ff_slot (fun x y => x = MFunders /\ exists u, y = User u)) in E1; [|by eauto].
  destruct (send _ _ _ _) eqn:E; [|done]. intros [= <-]. cbn.
  apply (send_from _ _ _ _ _ (User a) d) in E. pose proof (flows_ge _ _ _ (User a) d E1) as Hg.
  assert (Hd : bal (fs_bank st) (User a) d <= bal (fs_bank st1) (User a) d) by (apply Hg; by intros ? [? ?]).
  destruct (decide (User u = User a)) as [Eq|Ne].
  - injection Eq as ->. rewrite N.eqb_refl. lia.
  - destruct (N.eqb_spec u a); [congruence|lia].
Qed.
Lemma step_signer c o a d : cop_ok c o -> by_chain o -> bal (c_bank c) (User a) d - agreed o a d <= bal (c_bank (cstep c o)) (User a) d.
Proof.
  intros Hok Ho. pose proof (agreed_nn c o a d Hok) as Ha.
  assert (Hdef : match o with CDelegate _ _ _ | CCreateStaker _ _ _ | CJoin _ _ _ _ | CFund _ _ _ _ => False | _ => True end ->
    bal (c_bank c) (User a) d - agreed o a d <= bal (c_bank (cstep c o)) (User a) d).
  { intros Hn. destruct (Z.le_gt_cases (bal (c_bank c) (User a) d) (bal (c_bank (cstep c o)) (User a) d)) as [|Hl]; [lia|].
    exfalso. destruct (step_lose c o (User a) d Ho (minted_nn _ _ Hok) Hl) as [H|[_ H]]; [|done]. apply user_lose in H. by destruct o. }
  destruct o; try (by apply Hdef); clear Hdef; unfold cstep;
    (match goal with |- context [cmsg c ?o] => destruct (cmsg c o) as [c'|] eqn:E end; [|simpl default; lia]);
    change (default c (Some c')) with c'; cbn [cmsg] in E; cbn [agreed].
  - apply fmap_Some in E as (x & E & ->). apply (delegate_spends _ _ _ _ _ _ a d) in E. exact E.
  - unfold chain_create_staker in E. destruct (msg_delegate _ _ _ _ _) as [x|] eqn:E1; [|done]. destruct (msg_create_staker _ _ _ _); [|done].
    injection E as <-. apply (delegate_spends _ _ _ _ _ _ a d) in E1. exact E1.
  - apply fmap_Some in E as (x & E & ->). apply (join_spends _ _ _ _ _ _ _ _ a d) in E. exact E.
  - apply fmap_Some in E as (x & E & ->). apply (fund_spends _ _ _ _ _ _ _ a d) in E. exact E.
Qed.

(** ** Over all histories *)
Lemma m_burn g ops d : genesis g -> cops_ok (gstart g) ops -> let c := crun (gstart g) ops in let c' := cstep c CEnd in
  let x := if c_height c =? 1 then 0 else bal (c_bank c) MFeeCollector d * c_burn c / ONE in
  0 <= x <= bal (c_bank c) MFeeCollector d /\
  bal (c_bank c') MFeeCollector d = bal (c_bank c) MFeeCollector d - x /\ total (c_bank c') d = total (c_bank c) d - x.
Proof.
  intros Hg Hok c c' x. pose proof (G_run g Hg ops Hok) as HG. fold c in HG. destruct (end_burn g c HG) as (b & Hf & _ & He & H).
  destruct (H MFeeCollector d) as (E1 & E2 & E3). fold x in E1, E2, E3. rewrite He in E1, E3. rewrite (flows_total _ _ _ d Hf) in E2.
  split; [exact E3|]. split; [|exact E2]. change (c_bank c') with (c_bank (end_block c)). rewrite E1. by destruct (decide _).
Qed.
Lemma m_supply g ops o d : genesis g -> cops_ok (gstart g) ops -> by_chain o -> let c := crun (gstart g) ops in
  total (c_bank (cstep c o)) d = total (c_bank c) d + minted o d - burned c o d.
Proof. intros Hg Hok Ho c. eapply step_supply; [by apply G_run|done]. Qed.
Lemma m_losers g ops o a d : genesis g -> cops_ok (gstart g) ops -> let c := crun (gstart g) ops in cop_ok c o -> by_chain o ->
  bal (c_bank (cstep c o)) a d < bal (c_bank c) a d -> (exists y, allowed o a y) \/ (o = CEnd /\ a = MFeeCollector).
Proof. intros Hg Hok c Hc Ho H. eapply step_lose; [done|by eapply minted_nn|exact H]. Qed.
Lemma m_gainers g ops o a d : genesis g -> cops_ok (gstart g) ops -> let c := crun (gstart g) ops in by_chain o ->
  bal (c_bank c) a d < bal (c_bank (cstep c o)) a d -> (exists y, allowed o y a) \/ (a = MFeeCollector /\ 0 < minted o d).
Proof. intros Hg Hok c Ho H. eapply step_gain; [by apply G_run|done|exact H]. Qed.
Lemma m_signer g ops o u d : genesis g -> cops_ok (gstart g) ops -> let c := crun (gstart g) ops in cop_ok c o -> by_chain o ->
  bal (c_bank c) (User u) d - agreed o u d <= bal (c_bank (cstep c o)) (User u) d.
Proof. intros. by apply step_signer. Qed.
