(** * Following the coins: every payment of the protocol is in the events. *)
From Verif Require Import Base BaseFacts Delegation Stakers StakersInv Funders FundersInv Team RoundRobin Pool PoolFrame Bundles Chain ChainFrame ChainLift Walk ArchiveInv PaySafe PayFlow MoneyFlow PayoutClaims
  DelegationInv DelegationBank BankMoves IndexInv ModTime ParamsFrame CoolFrame Events EventWalk EventFollow EventStakers EventTally EventFunds.

(** ** What an event tells about the balance of the account [a] in denom [d] *)
(** [z] of [d] go from one account to another. *)
Definition at_acct (x a : acct) (z : Z) : Z := if decide (x = a) then z else 0.
Definition move (from to a : acct) (z : Z) : Z := at_acct to a z - at_acct from a z.
Definition in_kyve (d : N) (z : Z) : Z := if (d =? KYVE)%N then z else 0.
Definition told (a : acct) (d : N) (e : event) : Z :=
  match e with
  | EvDelegate x _ z => move (User x) MDelegation a (in_kyve d z)
  | EvUndelegate x _ z => move MDelegation (User x) a (in_kyve d z)
  | EvWithdraw x _ r => move MDelegation (User x) a (amt r d)
  | EvSlash _ _ z _ => move MDelegation Treasury a (in_kyve d z)
  | EvClaimCommission s r => move MStakers (User s) a (amt r d)
  | EvJoin _ s v z => move (User s) (User v) a (in_kyve d z)
  | EvFund _ x r _ => move (User x) MFunders a (amt r d)
  | EvDefund _ x r => move MFunders (User x) a (amt r d)
  | EvFinalized e =>
      move MFunders MPool a (amt (ef_funders e) d) + move (PoolAcc (ef_pool e)) MPool a (in_kyve d (ef_inflation e)) +
      move MPool Treasury a (amt (r_treasury (ef_reward e)) d) + move MPool MStakers a (amt (ef_rewards e) d) +
      move MPool MDelegation a (amt (r_delegation (ef_reward e)) d)
  | EvTeamClaim _ _ z r | EvTeamRewards _ _ z r | EvTeamAuthority _ z r => move MTeam (User r) a (in_kyve d z)
  | _ => 0
  end.
Definition tells (a : acct) (d : N) (l : list event) : Z := fold_right (fun e z => told a d e + z) 0 l.
(** What modules outside the model have changed. *)
Fixpoint outside (a : acct) (d : N) (c : chain) (ops : list cop) : Z :=
  match ops with
  | [] => 0
  | o :: t => match o with CBank b => bal b a d - bal (c_bank c) a d | _ => 0 end + outside a d (cstep c o) t
  end.

Section account.
  Context (a : acct) (d : N).
  Local Notation B b := (bal b a d).
  Local Notation T l := (tells a d l).
  Lemma tells_app l k : T (l ++ k) = T l + T k.
  Proof. induction l as [|e l IH]; cbn [tells fold_right app]; [done|]. fold (tells a d (l ++ k)). rewrite IH. unfold tells. lia. Qed.
  Lemma tells_none l : Forall (fun e => told a d e = 0) l -> T l = 0.
  Proof. induction 1 as [|e l He _ IH]; cbn [tells fold_right]; [done|]. fold (tells a d l). lia. Qed.
  Lemma tells_one e : T [e] = told a d e.
  Proof. unfold tells. cbn [fold_right]. lia. Qed.
  Lemma coin_amt z : amt (coin KYVE z) d = in_kyve d z.
  Proof. rewrite amt_coin. unfold in_kyve. destruct (decide _) as [E|E]; destruct (N.eqb_spec d KYVE); congruence. Qed.
  Lemma sent b from to r b' : send b from to r = Some b' -> B b' = B b + move from to a (amt r d).
  Proof. intros E. apply send_Some in E as [_ E]. rewrite E. unfold move, at_acct. lia. Qed.

  (** ** x/delegation *)
  Lemma m_withdrawal st s x : B (ds_bank (fst (perform_withdrawal st s x))) = B (ds_bank st) + T (ev_withdrawal st s x).
  Proof.
    unfold ev_withdrawal, perform_withdrawal. destruct (f1_withdraw _ _) as [f r]. set (st1 := if bool_decide _ then _ else _).
    assert (E1 : ds_bank st1 = ds_bank st) by (unfold st1; by case_bool_decide).
    unfold pay_user. rewrite E1. destruct (send _ _ _ _) as [b|] eqn:E; cbn [fst].
    - apply sent in E. rewrite tells_one. exact E.
    - rewrite E1. cbn. lia.
  Qed.
  Lemma m_delegation st s x z : B (ds_bank (perform_delegation st s x z)) = B (ds_bank st) + T (ev_delegation st s x).
  Proof.
    unfold perform_delegation, ev_delegation. case_bool_decide; [|cbn; lia].
    pose proof (m_withdrawal (remove_index st s) s x) as H1. destruct (perform_withdrawal _ _ _) as [sw err]. destruct (f1_remove _ _) as [f y]. exact H1.
  Qed.
  Lemma m_undelegation st s x z : B (ds_bank (fst (perform_undelegation st s x z))) = B (ds_bank st) + T (ev_undelegation st s x).
  Proof.
    unfold perform_undelegation, ev_undelegation. pose proof (m_withdrawal (remove_index st s) s x) as H1. destruct (perform_withdrawal _ _ _) as [sw err].
    destruct (f1_remove _ _) as [f y]. by destruct (y >? z).
  Qed.
  Lemma m_delegate st ex x s z st' : msg_delegate st ex x s z = Some st' -> B (ds_bank st') = B (ds_bank st) + T (ev_msg_delegate st x s z).
  Proof.
    unfold msg_delegate, ev_msg_delegate. destruct (negb ex); [done|]. cbv zeta. destruct (send _ _ _ _) as [b|] eqn:E; [|done]. intros [= <-]. cbn [ds_bank with_bank].
    apply sent in E. rewrite coin_amt, m_delegation in E. rewrite E, tells_app, tells_one. cbn [told]. lia.
  Qed.
  Lemma m_redelegate st ex ac x s t z st' : msg_redelegate st ex ac x s t z = Some st' -> B (ds_bank st') = B (ds_bank st) + T (ev_msg_redelegate st x s t z).
  Proof.
    unfold msg_redelegate, ev_msg_redelegate. destruct (negb _); [done|]. destruct (negb ex); [done|]. destruct (negb ac); [done|]. destruct (_ >? _); [done|].
    destruct (consume_spell _ _ _) as [l|]; [|done]. cbv zeta. set (st1 := with_cool _ _). pose proof (m_undelegation st1 s x z) as H1.
    destruct (perform_undelegation st1 s x z) as [st2 y]. destruct (negb _); [done|]. intros [= <-]. cbn [fst] in *. rewrite m_delegation, H1, !tells_app. cbn. lia.
  Qed.
  Lemma m_withdraw st x s st' : msg_withdraw st x s = Some st' -> B (ds_bank st') = B (ds_bank st) + T (ev_withdrawal st s x).
  Proof.
    unfold msg_withdraw. destruct (negb _); [done|]. pose proof (m_withdrawal st s x) as H. destruct (perform_withdrawal st s x) as [st1 [r|]]; [|done]. by intros [= <-].
  Qed.
  Lemma m_slash st p s t : ds_halt (fst (slash_delegators st s t)) = false -> B (ds_bank (fst (slash_delegators st s t))) = B (ds_bank st) + T (ev_slash st p s t).
  Proof.
    unfold ev_slash, slash_delegators. destruct (f_data (getf st s)); [|cbn; lia]. destruct (f1_slash _ _) as [f z]. cbn [fst snd]. destruct (send _ _ _ _) as [b|] eqn:E; cbn; [|by rewrite orb_true_r].
    intros _. apply sent in E. rewrite coin_amt in E. rewrite E. cbn. lia.
  Qed.
  (** The flag of missing funds stays. *)
  Lemma h_undelegation st s x z : ds_halt st = true -> ds_halt (fst (perform_undelegation st s x z)) = true.
  Proof. intros H. rewrite (halt_of_undelegation st s x z), H. done. Qed.
  Lemma h_one st low e : ds_halt st = true -> ds_halt (fst (process_one st low e)) = true.
  Proof.
    intros H. unfold process_one. pose proof (h_undelegation st (u_staker e) (u_delegator e) (u_amount e) H) as H1. destruct (perform_undelegation _ _ _ _) as [st1 z]. cbn [fst] in *.
    unfold pay_user. destruct (send _ _ _ _); cbn; [done|]. by rewrite H1.
  Qed.
  Lemma h_loop n st low : ds_halt st = true -> ds_halt (fst (fst (process_loop n st low))) = true.
  Proof.
    revert st low. induction n as [|n IH]; intros st low H; cbn [process_loop]; [done|]. destruct (ds_queue st !! _) as [e|]; [|destruct (_ <? _)%N; auto].
    destruct (due st e); [|done]. pose proof (h_one st low e H) as H1. destruct (process_one st low e) as [st3 z]. specialize (IH st3 (low + 1)%N H1).
    destruct (process_loop n st3 _) as [[? ?] ?]. exact IH.
  Qed.
  Lemma m_one st low e : ds_halt (fst (process_one st low e)) = false ->
    B (ds_bank (fst (process_one st low e))) = B (ds_bank st) + T (ev_undelegation st (u_staker e) (u_delegator e) ++ [EvUndelegate (u_delegator e) (u_staker e) (snd (process_one st low e))]).
  Proof.
    unfold process_one. pose proof (m_undelegation st (u_staker e) (u_delegator e) (u_amount e)) as H1. destruct (perform_undelegation _ _ _ _) as [st1 z]. cbn [fst snd] in *.
    unfold pay_user. destruct (send _ _ _ _) as [b|] eqn:E; cbn; [|by rewrite orb_true_r]. intros _. apply sent in E. rewrite coin_amt in E. rewrite E, H1, tells_app, tells_one. cbn [told]. lia.
  Qed.
  Lemma m_loop n st low : ds_halt (fst (fst (process_loop n st low))) = false ->
    B (ds_bank (fst (fst (process_loop n st low)))) = B (ds_bank st) + T (ev_process_loop n st low).
  Proof.
    revert st low. induction n as [|n IH]; intros st low; cbn [process_loop ev_process_loop]; [cbn; lia|].
    destruct (ds_queue st !! _) as [e|]; [|destruct (_ <? _)%N; [apply IH|cbn; lia]]. destruct (due st e); [|cbn; lia].
    pose proof (m_one st low e) as H1. destruct (process_one st low e) as [st3 z]. cbn [fst snd] in H1. specialize (IH st3 (low + 1)%N). pose proof (h_loop n st3 (low + 1)%N) as Hh.
    destruct (process_loop n st3 _) as [[st4 ?] ?]. cbn [fst] in *. intros H. specialize (IH H). assert (H3 : ds_halt st3 = false) by (destruct (ds_halt st3); [by rewrite Hh in H|done]).
    rewrite IH, (H1 H3), !tells_app. unfold tells. cbn [fold_right]. lia.
  Qed.
  Lemma m_queue st : ds_halt (fst (process_queue st)) = false -> B (ds_bank (fst (process_queue st))) = B (ds_bank st) + T (ev_queue st).
  Proof. unfold process_queue, ev_queue. pose proof (m_loop (queue_fuel st) st (ds_low st)) as H. destruct (process_loop _ _ _) as [[st1 low] out]. exact H. Qed.

  (** ** The other modules *)
  Lemma m_claim st s x st' : msg_claim_commission st s x = Some st' -> B (ss_bank st') = B (ss_bank st) + move MStakers (User s) a (amt x d).
  Proof.
    unfold msg_claim_commission. destruct (ss_stakers st !! s); [|done]. destruct (negb _); [done|]. destruct (send _ _ _ _) eqn:E; [|done]. intros [= <-]. by apply sent in E.
  Qed.
  Lemma m_join st pl dl s p v z st' : msg_join st pl dl s p v z = Some st' -> B (ss_bank st') = B (ss_bank st) + move (User s) (User v) a (in_kyve d z).
  Proof.
    unfold msg_join. destruct pl as [[]|]; try done. destruct (ss_stakers st !! s); [|done]. destruct (s =? v)%N; [done|].
    destruct (get_val st p s); [done|]. destruct (ensure_slot st dl p s) as [st1|] eqn:E1; [|done].
    assert (Eb : ss_bank st1 = ss_bank st).
    { unfold ensure_slot in E1. destruct (_ <=? _); [|congruence]. destruct (_ <? _); [|done]. injection E1 as <-. apply sb_leave_pool. }
    destruct (existsb _ _); [done|]. destruct (existsb _ _); [done|].
    unfold pay_kyve. destruct (i64 z <? 0); [done|]. destruct (send _ _ _ _) as [b|] eqn:E; [|done]. intros [= <-].
    assert (Eb2 : ss_bank (add_val st1 p s v) = ss_bank st1) by (unfold add_val; destruct (ss_stakers _ !! _); [by destruct (get_val _ _ _)|done]).
    rewrite Eb2, Eb in E. apply sent in E. rewrite coin_amt in E. exact E.
  Qed.
  Lemma m_transfer b x z b' : transfer b MTeam (User x) z = Some b' -> B b' = B b + move MTeam (User x) a (in_kyve d z).
  Proof. unfold transfer. destruct (_ <? _); [done|]. intros E. apply sent in E. by rewrite coin_amt in E. Qed.
  Lemma m_slot st p x f act st1 act1 : ensure_free_slot st p x f act = Some (st1, act1) ->
    ev_free_slot st p x act = [] /\ B (fs_bank st1) = B (fs_bank st) \/
    exists b r, ev_free_slot st p x act = [EvDefund p b ∅] /\ cpos r /\ B (fs_bank st1) = B (fs_bank st) + move MFunders (User b) a (amt r d).
  Proof.
    unfold ensure_free_slot, ev_free_slot. cbv zeta. destruct (_ <? _)%nat; [intros [= <- <-]; by left|].
    destruct (lowest_funding _ _) as [[[b fb] s0]|]; [|done]. destruct (b =? x)%N; [intros [= <- <-]; by left|]. destruct (score _ _); [|done]. destruct (_ <? _); [done|].
    destruct (send _ _ _ _) as [bk|] eqn:E; [|done]. intros [= <- <-]. right. exists b, (fd_amounts fb). split; [done|]. split; [by eapply send_pos|]. by apply sent in E.
  Qed.
  (** What a valid bundle pays. *)
  Lemma m_pay_out c u r c' : pay_out c u r = inl c' -> B (c_bank c') = B (c_bank c) +
    move MPool Treasury a (amt (r_treasury r) d) + move MPool MStakers a (amt (cadd (r_commission r) (r_storage r)) d) + move MPool MDelegation a (amt (r_delegation r) d).
  Proof.
    unfold pay_out. destruct (send _ _ _ _) as [bk|] eqn:E1; [|done]. apply sent in E1. destruct (increase_commission_rewards _ _ _ _) as [s'|] eqn:E2; [|done].
    assert (H2 : B (ss_bank s') = B bk + move MPool MStakers a (amt (cadd (r_commission r) (r_storage r)) d)).
    { unfold increase_commission_rewards in E2. destruct (cempty _) eqn:Ec; [injection E2 as <-; apply cempty_spec in Ec; rewrite Ec, amt_empty; unfold move, at_acct; cbn; repeat case_decide; lia|].
      destruct (ss_stakers _ !! _); [|done]. destruct (send _ _ _ _) eqn:Es; [|done]. injection E2 as <-. by apply sent in Es. }
    destruct (payout_rewards _ _ _ _) as [d'|] eqn:E3; [|done]. intros [= <-].
    assert (H3 : B (ds_bank d') = B (ss_bank s') + move MPool MDelegation a (amt (r_delegation r) d)).
    { unfold payout_rewards in E3. destruct (cempty _) eqn:Ec; [injection E3 as <-; apply cempty_spec in Ec; rewrite Ec, amt_empty; unfold move, at_acct; cbn; repeat case_decide; lia|].
      destruct (f_data _); [|done]. destruct (send _ _ _ _) eqn:Es; [|done]. injection E3 as <-. by apply sent in Es. }
    change (B (ds_bank d') = B (c_bank c) + move MPool Treasury a (amt (r_treasury r) d) + move MPool MStakers a (amt (cadd (r_commission r) (r_storage r)) d) + move MPool MDelegation a (amt (r_delegation r) d)).
    rewrite H3, H2, E1. lia.
  Qed.
End account.

(** ** The flag of missing funds of x/delegation stays over the whole chain *)
Lemma h_delegation st s x a : ds_halt st = true -> ds_halt (perform_delegation st s x a) = true.
Proof. intros H. rewrite halt_of_delegation, H. by case_bool_decide. Qed.
Lemma h_queue st : ds_halt st = true -> ds_halt (fst (process_queue st)) = true.
Proof. intros H. unfold process_queue. pose proof (h_loop (queue_fuel st) st (ds_low st) H) as H1. destruct (process_loop _ _ _) as [[st1 low] out]. exact H1. Qed.
Lemma h_step st o : ds_halt st = true -> ds_halt (dstep st o) = true.
Proof.
  intros H. destruct o; cbn [dstep]; try done.
  - unfold msg_delegate. destruct (negb _); [done|]. cbv zeta. destruct (send _ _ _ _); [|done]. by apply h_delegation.
  - unfold msg_undelegate. by destruct (_ >? _).
  - unfold msg_redelegate. destruct (negb _); [done|]. destruct (negb _); [done|]. destruct (negb _); [done|]. destruct (_ >? _); [done|]. destruct (consume_spell _ _ _); [|done]. cbv zeta.
    set (st1 := with_cool _ _). pose proof (h_undelegation st1 from d amount H) as H1. destruct (perform_undelegation st1 from d amount) as [st2 z]. destruct (negb _); [done|]. by apply h_delegation.
  - unfold msg_withdraw. destruct (negb _); [done|]. unfold perform_withdrawal. destruct (f1_withdraw _ _). unfold pay_user. destruct (send _ _ _ _); [|done]. cbn. by case_bool_decide.
  - unfold payout_rewards. destruct (cempty c); [done|]. destruct (f_data _); [|done]. by destruct (send _ _ _ _).
  - unfold slash_delegators. destruct (f_data (getf st s)); [|done]. destruct (f1_slash _ _) as [f sl]. simpl. destruct (send _ _ _ _); [done|]. cbn. by rewrite H.
  - by apply (h_queue (with_time st (ds_time st + dt))).
Qed.
Definition hd (c : chain) : bool := ds_halt (c_d c).
Definition hs (c c' : chain) : Prop := hd c = true -> hd c' = true.
Lemma hs_refl c : hs c c. Proof. by intros H. Qed.
Lemma hs_trans a b c : hs a b -> hs b c -> hs a c. Proof. unfold hs. tauto. Qed.
Lemma hs_same c c' : hd c' = hd c -> hs c c'. Proof. unfold hs. congruence. Qed.
Lemma hs_d c o : hs c (d_out c (dstep (d_in c) o)). Proof. intros H. by apply (h_step (d_in c) o). Qed.
Lemma hs_pay c u r : match pay_out c u r with inl c' | inr c' => hs c c' end.
Proof.
  unfold pay_out. destruct (send _ _ _ _) as [bk|]; [|by apply hs_same].
  destruct (increase_commission_rewards _ _ _ _) as [s'|] eqn:E; [|by apply hs_same].
  assert (H : hs c (s_out (cw_bank c bk) s')) by by apply hs_same.
  destruct (payout_rewards _ _ _ _) as [d|] eqn:Ep; [|exact H].
  eapply hs_trans; [exact H|]. apply hs_same. unfold payout_rewards in Ep. repeat case_match; simplify_eq; done.
Qed.
Lemma hs_infl c p c' x : charge_inflation c p = Some (c', x) -> hs c c'.
Proof. intros H. apply hs_same. revert H. unfold charge_inflation. repeat case_match; intros; simplify_eq; done. Qed.
Lemma hs_final c p v : hs c (finalize c p v).
Proof. apply hs_same. unfold finalize. by destruct (get_pool c p). Qed.
Lemma hs_slash c s t : hs c (d_out c (fst (slash_delegators (d_in c) s t))).
Proof. exact (hs_d c (OSlash s t)). Qed.
Ltac hwalk l := apply (l hs hs_refl hs_trans); try exact hs_pay; try exact hs_infl; try exact hs_final; try exact hs_slash; try (intros; by apply hs_same).
Lemma hs_split c pr c' : split_inflation c pr = Some c' -> hd c' = hd c.
Proof.
  assert (Hg : forall c p x c', give c p x = Some c' -> hd c' = hd c).
  { intros c0 p x c0'. unfold give. destruct (i64 x <? 0); [done|]. by destruct (send _ _ _ _); intros [= <-]. }
  assert (Hs : forall l c t pr d c' d', split_loop c t pr d l = Some (c', d') -> hd c' = hd c).
  { induction l as [|p l IH]; intros c0 t pr0 d c0' d'; simpl; [by intros [= <- <-]|].
    destruct (can_run c0 p); [|apply IH]. destruct (pool_share _ _ _) as [x|]; [|done].
    destruct (give c0 p x) as [c1|] eqn:Eg; [|done]. apply Hg in Eg. intros H. apply IH in H. congruence. }
  assert (Hr : forall l c x c', remainder_loop c x l = Some c' -> hd c' = hd c).
  { induction l as [|p l IH]; intros c0 x c0'; simpl; [by intros [= <-]|].
    destruct (can_run c0 p); [apply IH|].
    destruct (give c0 p x) as [c1|] eqn:Eg; [|done]. apply Hg in Eg. intros H. apply IH in H. congruence. }
  unfold split_inflation. destruct (block_provision _ _ _) as [[h team]|]; [|done].
  destruct (trunc64 _) as [protocol|]; [|done].
  set (c0 := if h then cw_halt c else c). assert (Hc0 : hd c0 = hd c) by (unfold c0; by destruct h).
  destruct (protocol =? 0); [by intros [= <-]|]. destruct (total_weight c0 =? 0); [by intros [= <-]|].
  destruct (split_loop _ _ _ _ _) as [[c1 d]|] eqn:Es; [|done]. apply Hs in Es.
  destruct (0 <? _); [intros H; apply Hr in H; congruence|intros [= <-]; congruence].
Qed.
(** The state in which the queue of undelegations is looked at. *)
Definition split_state (c : chain) (t pr : Z) : chain :=
  let c0 := cw_time (cw_bank c (mint (c_bank c) MFeeCollector (coin KYVE pr))) t (c_height c + 1) in
  let c1 := t_out c0 (team_begin (twith_time (t_in c0) t) pr (supply (c_bank c0))) in
  match split_inflation c1 pr with Some x => x | None => cw_halt c1 end.
Definition queue_state (k : chain) (t : Z) : chain := d_out k (fst (process_queue (with_time (d_in k) t))).
Lemma begin_eq c t pr : begin_block c t pr = s_out (queue_state (split_state c t pr) t) (stakers_begin (with_stime (s_in (queue_state (split_state c t pr) t)) t)).
Proof. unfold begin_block, split_state, queue_state. cbv zeta. reflexivity. Qed.
Lemma ev_begin_eq c t pr : ev_begin c t pr = ev_queue (with_time (d_in (split_state c t pr)) t) ++ ev_stakers_begin (with_stime (s_in (queue_state (split_state c t pr) t)) t).
Proof. unfold ev_begin, split_state, queue_state. cbv zeta. reflexivity. Qed.
Lemma split_hd c t pr : hd (split_state c t pr) = hd c.
Proof.
  unfold split_state. cbv zeta. set (c1 := t_out _ _). assert (E : hd c1 = hd c) by done. clearbody c1. destruct (split_inflation c1 pr) as [x|] eqn:Es; [|exact E]. apply hs_split in Es. congruence.
Qed.
Definition paid_from_fees (a : acct) : bool := match a with MFeeCollector | MTeam | PoolAcc _ => true | _ => false end.
Lemma split_rest c t pr a d : paid_from_fees a = false -> bal (c_bank (split_state c t pr)) a d = bal (c_bank c) a d.
Proof.
  intros Ha. unfold split_state. cbv zeta. set (c0 := cw_time _ _ _). assert (E0 : bal (c_bank c0) a d = bal (c_bank c) a d).
  { cbn [c0 cw_time cw_bank c_bank]. rewrite mint_bal. destruct (decide _) as [<-|]; [done|lia]. }
  clearbody c0. set (c1 := t_out _ _).
  assert (H2 : flows (fun x y => x = MFeeCollector /\ paid_from_fees y = true) (c_bank c0) (c_bank (match split_inflation c1 pr with Some x => x | None => cw_halt c1 end))).
  { eapply (flows_trans _ _ (c_bank c1)).
    - exact (tf_begin (fun x y => x = MFeeCollector /\ paid_from_fees y = true) (twith_time (t_in c0) t) pr (supply (c_bank c0)) (conj eq_refl eq_refl)).
    - destruct (split_inflation c1 pr) eqn:E; [|constructor]. eapply split_flows; [|exact E]. done. }
  rewrite <- E0. eapply flows_same; [exact H2|intros y [-> _]; done|]. intros y [_ Hy]. congruence.
Qed.
Lemma halt_stays c o : hs c (cstep c o).
Proof.
  unfold cstep. destruct (cmsg c o) as [c'|] eqn:E; [|apply hs_refl]. change (default c (Some c')) with c'.
  destruct o; cbn [cmsg] in E;
    try (match type of E with ?f <$> ?x = _ => destruct x as [y|] eqn:Ex; [injection E as <-|done] end);
    try (apply hs_same; exact eq_refl); try (by apply hs_same; destruct (_ =? _)%N; [injection E as <-|]).
  - replace y with (dstep (d_in c) (ODelegate (staker_exists c s) d s a)) by (cbn [dstep]; by rewrite Ex). apply hs_d.
  - replace y with (dstep (d_in c) (OUndelegate d s a)) by (cbn [dstep]; by rewrite Ex). apply hs_d.
  - replace y with (dstep (d_in c) (ORedelegate (staker_exists c to) (is_active (c_s c) to) d from to a)) by (cbn [dstep]; by rewrite Ex). apply hs_d.
  - replace y with (dstep (d_in c) (OWithdraw d s)) by (cbn [dstep]; by rewrite Ex). apply hs_d.
  - unfold chain_create_staker in E. destruct (msg_delegate _ _ _ _ _) as [d|] eqn:Ed; [|done].
    destruct (msg_create_staker _ _ _ _) as [s'|] eqn:Es; [|done]. injection E as <-. intros H.
    change (ds_halt d = true). pose proof (h_step (d_in c) (ODelegate true s s a) H) as H1. cbn [dstep] in H1. by rewrite Ed in H1.
  - revert E. hwalk k_submit.
  - revert E. apply (k_vote hs hs_trans); intros; by apply hs_same.
  - revert E. hwalk k_skip.
  - unfold msg_claim_role in E. repeat (destruct (negb _); [done|]). injection E as <-. by apply hs_same.
  - unfold chain_create_pool in E. destruct (msg_create_pool _ _ _ _ _); [|done]. injection E as <-. by apply hs_same.
  - unfold chain_disable_pool in E. destruct (disable_record _ _ _) as [ps|]; [|done]. cbv zeta in E. set (c2 := fold_left _ _ _) in E.
    assert (H2 : hs c c2).
    { unfold c2. apply (hs_trans _ (cw_pools c ps)); [by apply hs_same|]. apply (k_fold hs hs_refl hs_trans). intros; by apply hs_same. }
    destruct (_ <=? _); [done|]. destruct (0 <? _); [|by injection E as <-]. destruct (i64 _ <? 0); [done|].
    destruct (send _ _ _ _); [|done]. injection E as <-. eapply hs_trans; [exact H2|by apply hs_same].
  - injection E as <-. intros H. rewrite begin_eq. rewrite <- (split_hd c t provision) in H. revert H. generalize (split_state c t provision). intros k H.
    exact (h_queue (with_time (d_in k) t) H).
  - injection E as <-. unfold end_block. set (c1 := cw_pools _ _). apply (hs_trans _ c1); [by apply hs_same|].
    apply (hs_trans _ (handle_upload_timeout c1)); [hwalk k_handle_timeout|].
    apply hs_same. unfold burn_fees. destruct (c_height _ =? 1); [done|]. destruct (c_burn _ =? 0); [done|]. by destruct (burn _ _ _).
  - injection E as <-. by apply hs_same.
Qed.


(** ** Every step *)
(** The accounts whose payments the step does not tell: the fees and what the block mints (CBegin,
    CEnd), what is left of the inflation of a pool that is disabled, and modules outside the model. *)
Definition untold (o : cop) (a : acct) : bool :=
  match o with
  | CBegin _ _ => paid_from_fees a
  | CEnd => bool_decide (a = MFeeCollector)
  | CDisablePool _ p => bool_decide (a = PoolAcc p) || bool_decide (a = Treasury)
  | CBank _ => true
  | _ => false
  end.
Section step.
  Context (a : acct) (d : N).
  Local Notation B b := (bal b a d).
  Local Notation T l := (tells a d l).
  Local Notation P := (fun e => told a d e = 0).
  Definition E (c : chain) (e : list event) (c' : chain) : Prop := hs c c' /\ (hd c' = false -> B (c_bank c') = B (c_bank c) + T e).
  Lemma E_refl c : E c [] c.
  Proof. split; [apply hs_refl|]. cbn. lia. Qed.
  Lemma E_trans x e y f z : E x e y -> E y f z -> E x (e ++ f) z.
  Proof.
    intros [H1 H2] [H3 H4]. split; [by eapply hs_trans|]. intros H. rewrite (H4 H), tells_app. assert (Hy : hd y = false) by (destruct (hd y) eqn:Ey; [by rewrite H3 in H|done]). rewrite (H2 Hy). lia.
  Qed.
  Lemma E_quiet c e c' : c_bank c' = c_bank c -> hd c' = hd c -> Forall P e -> E c e c'.
  Proof. intros H1 H2 H3. split; [by apply hs_same|]. intros _. rewrite H1, tells_none by done. lia. Qed.
  Lemma E_slash c p s t : E c (ev_slash (d_in c) p s t) (d_out c (fst (slash_delegators (d_in c) s t))).
  Proof. split; [apply hs_slash|]. intros H. exact (m_slash a d (d_in c) p s t H). Qed.
  Lemma E_leave c p s : E c [EvLeave p s] (s_out c (leave_pool (s_in c) s p)).
  Proof. apply E_quiet; [apply sb_leave_pool|done|by repeat constructor]. Qed.
  Lemma E_incr c p s : E c [EvPoint p s (snd (increment_points (s_in c) p s))] (s_out c (fst (increment_points (s_in c) p s))).
  Proof. apply E_quiet; [|done|by repeat constructor]. cbn. unfold increment_points. by destruct (get_val _ _ _). Qed.
  Lemma E_reset c p s : E c (ev_reset c p s) (reset_pts c p s).
  Proof. apply E_quiet; [|done|]; [cbn; unfold reset_points; by destruct (get_val _ _ _)|]. unfold ev_reset. destruct (0 <? _); by repeat constructor. Qed.
  Lemma zero_move x y : move x y a 0 = 0.
  Proof. unfold move, at_acct. repeat case_decide; done. Qed.
  Lemma P_drop c p v s : Forall P (ev_drop c p v s).
  Proof.
    constructor; [|constructor]. cbn [told ef_funders ef_inflation ef_reward ef_rewards ef_pool r_zero r_treasury r_delegation]. rewrite !amt_empty.
    replace (in_kyve d 0) with 0 by (unfold in_kyve; by destruct (_ =? _)%N). rewrite !zero_move. done.
  Qed.
  Lemma P_register c m : Forall P (ev_register c m).
  Proof. unfold ev_register. by destruct (get_pool _ _); repeat constructor. Qed.
  Lemma bank_finalize c p v : c_bank (finalize c p v) = c_bank c.
  Proof. unfold finalize. by destruct (get_pool c p). Qed.

  Section reach.
    Context (g : gen) (Hg : genesis g).
    Lemma E_valid c p c' v fp x r : R g c -> is_Some (get_pool c p) -> tally c (get_prop c p) p = TrValid c' v fp x r ->
      forall k n, E c (ev_tally c (get_prop c p) p ++ [EvFinalized (mkEF p k (v_valid v) (v_invalid v) (v_abstain v) (v_total v) (Judged (v_status v)) fp x r
        (cadd (r_commission r) (r_storage r)) (c_time c') (bp_uploader (get_prop c p)) n)]) c'.
    Proof.
      intros (HG & HA & HU) [pl Hpl] Ht k n. set (b := get_prop c p) in *. unfold tally in Ht. unfold ev_tally. cbv zeta.
      pose proof (e_non_voters E E_refl E_trans E_slash E_leave E_incr c p) as Hn. pose proof (G_non_voters g c p HG) as HG1. pose proof (b_non_voters c p) as B1.
      assert (Hpl1 : get_pool (handle_non_voters c p) p = Some pl) by (rewrite (get_pool_b c) by done; done).
      assert (HA1 : AInv (handle_non_voters c p)) by (by apply (agood_frame c)).
      rewrite <- app_assoc. eapply E_trans; [exact Hn|]. clear Hn. set (c1 := handle_non_voters c p) in *. clearbody c1.
      destruct (v_status (distribution c1 p)); try done.
      assert (Hst : is_Some (fs_active (f_in c1) !! p)).
      { change (is_Some (fs_active (c_f c1) !! p)). apply (g_link _ _ HG1). apply (ai_pools _ HA1). by rewrite Hpl1. }
      destruct Hst as [l Hl]. destruct (charge_spec _ _ p MPool (G_FInv g Hg c1 HG1) I) as (_ & _ & _ & _ & HS). cbv zeta in HS.
      destruct (HS l Hl) as (pays & Hp & _ & _ & _ & _ & Hbk & _). clear HS.
      pose proof (G_charge_funders g Hg c1 p HG1) as HGf.
      assert (Hch : T (ev_charge (f_in c1) p) = 0) by (apply tells_none; by apply sh_charge).
      destruct (charge_funders (f_in c1) p MPool) as [f o]. cbn [fst snd] in *. subst o. change (default ∅ (Some pays)) with pays.
      set (cf := f_out c1 f) in *.
      assert (Hbf : B (c_bank cf) = B (c_bank c1) + move MFunders MPool a (amt pays d)).
      { change (c_bank cf) with (fs_bank f). rewrite Hbk. unfold move, at_acct. change (fs_bank (f_in c1)) with (c_bank c1). repeat case_decide; congruence || lia. }
      assert (Hhf : hd cf = hd c1) by done. clearbody cf. clear Hbk Hl.
      pose proof (g_par _ _ HGf) as (_ & _ & Hpp & _).
      assert (Hbb : 0 <= bal (c_bank cf) (PoolAcc p) KYVE < two63).
      { split; [apply (g_nn _ _ HGf)|]. eapply Z.le_lt_trans; [|apply (g_supply _ _ HGf)]. apply supply_ge1. apply (g_nn _ _ HGf). }
      assert (Hra : pct (pp_rate (c_pp cf))). { unfold pparams_valid, pct_ok in Hpp. unfold pct. lia. }
      destruct (claim_charge cf p Hbb Hra) as (c2 & Ec & _ & Hb2). cbv zeta in Ec, Hb2. set (y := bal (c_bank cf) (PoolAcc p) KYVE * pp_rate (c_pp cf) / ONE) in *. clearbody y.
      rewrite Ec in *. pose proof (hs_infl _ _ _ _ Ec) as Hh2.
      assert (Hb2' : B (c_bank c2) = B (c_bank cf) + move (PoolAcc p) MPool a (in_kyve d y)).
      { rewrite Hb2. unfold move, at_acct, in_kyve. destruct (N.eqb_spec d KYVE); destruct (decide (d = KYVE)); try congruence; repeat case_decide; congruence || lia. }
      clear Hb2. destruct (payouts c2 p _) as [r'|]; [|done]. pose proof (hs_pay c2 (bp_uploader b) r') as Hh3. pose proof (fun c3 => m_pay_out a d c2 (bp_uploader b) r' c3) as Hpay.
      destruct (pay_out c2 (bp_uploader b) r') as [c3|c3]; [|done]. specialize (Hpay c3 eq_refl). injection Ht as <- <- <- <- <-.
      pose proof (e_removes E E_refl E_trans E_slash E_leave c3 p (fun _ => SlashVote) (bp_invalid b)) as [He1 He2].
      set (c4 := fold_left _ _ c3) in *. set (le := ev_fold _ _ _ c3) in *. clearbody c4 le.
      assert (Hh13 : hs c1 c3). { intros H. apply Hh3, Hh2. congruence. }
      split; [eapply hs_trans; [exact Hh13|done]|]. intros H. rewrite (He2 H), Hpay, Hb2', Hbf, !tells_app, Hch, tells_one.
      cbn [told ef_funders ef_inflation ef_reward ef_rewards ef_pool]. lia.
    Qed.
    Lemma E_finalized c p c' v fp x r y n t : R g c -> is_Some (get_pool c p) -> tally c (get_prop c p) p = TrValid c' v fp x r ->
      E c (ev_tally c (get_prop c p) p ++ ev_finalize (cw_rr c' y) p v fp x r n) (set_prop (finalize (cw_rr c' y) p v) p (bp_none n t)).
    Proof.
      intros HR Hpl Ht. pose proof (b_tally c (get_prop c p) p) as Hb. rewrite Ht in Hb.
      pose proof (E_valid c p c' v fp x r HR Hpl Ht (total_of c' p) n) as He. unfold ev_finalize. change (get_prop (cw_rr c' y) p) with (get_prop c' p).
      rewrite (get_prop_b c c' p Hb). change (total_of (cw_rr c' y) p) with (total_of c' p). change (c_time (cw_rr c' y)) with (c_time c').
      destruct He as [H1 H2]. split.
      - eapply hs_trans; [exact H1|]. eapply hs_trans; [|apply hs_same; reflexivity]. eapply hs_trans; [|apply hs_final]. by apply hs_same.
      - change (hd (set_prop ?k p (bp_none n t))) with (hd k). change (c_bank (set_prop ?k p (bp_none n t))) with (c_bank k). rewrite bank_finalize. intros H. apply H2.
        destruct (hd c') eqn:Eh; [|done]. apply (hs_final (cw_rr c' y) p v) in Eh. congruence.
    Qed.
    Local Ltac parts := intros; first [apply E_reset|by apply e_non_voters; [apply E_refl|apply E_trans|apply E_slash|apply E_leave|apply E_incr]
      |by apply e_timeout_point; [apply E_refl|apply E_trans|apply E_slash|apply E_leave|apply E_incr]
      |by eapply e_invalid; [apply E_refl|apply E_trans|apply E_slash|apply E_leave|apply E_incr|]
      |by eapply e_noq; [apply E_refl|apply E_trans|apply E_slash|apply E_leave|apply E_incr|]
      |by apply E_finalized|idtac].
    Lemma E_register c m n : E c (ev_register c m) (register c m n).
    Proof. apply E_quiet; [| |apply P_register]; unfold register; by destruct (get_pool c (sb_pool m)). Qed.
    Lemma E_drop c p v s n : E c (ev_drop c p v s) (drop c p n).
    Proof. by apply E_quiet; [| |apply P_drop]. Qed.
    Lemma E_same c e c' : c_bank c' = c_bank c -> hd c' = hd c -> Forall P e -> E c e c'. Proof. apply E_quiet. Qed.
    Lemma E_submit c m c' : R g c -> msg_submit c m = Some c' -> E c (ev_submit c m) c'.
    Proof.
      intros HR Hm. apply (e_submit g E E_trans); try done; parts; try apply E_drop; try apply E_register; by apply E_quiet; repeat constructor.
    Qed.
    Lemma E_skip c p s v from c' : R g c -> msg_skip c p s v from = Some c' -> E c (ev_skip c p s) c'.
    Proof.
      intros HR Hm. apply (e_skip g E E_trans) with (v := v) (from := from); try done; parts; try apply E_drop; by apply E_quiet; repeat constructor.
    Qed.
    Lemma E_end c : R g c -> a <> MFeeCollector -> E c (emitted c CEnd) (end_block c).
    Proof.
      intros HR Ha. pose proof (R_upgrades g c HR) as HR1. unfold end_block. cbn [emitted]. set (c1 := cw_pools c _) in *.
      assert (H1 : E c [] c1) by (by apply E_quiet; [..|constructor]). clearbody c1.
      assert (H2 : E c1 (ev_handle_timeout c1) (handle_upload_timeout c1)).
      { unfold handle_upload_timeout, ev_handle_timeout. destruct (timeouts c1 (pool_intervals c1)) as [c2|] eqn:E2; [|by apply E_quiet; [..|constructor]].
        apply (e_timeouts g Hg E E_refl E_trans); try done; parts; try apply E_drop; try (by apply E_quiet; repeat constructor).
        match goal with H : _ ∈ pool_intervals _ |- _ => apply pool_intervals_in in H; destruct H as (pl & -> & _); by eexists end. }
      eapply (e_pre E E_trans); [exact H1|]. eapply (e_nil E E_trans); [exact H2|].
      unfold burn_fees. destruct (_ =? 1); [apply E_refl|]. destruct (_ =? 0); [apply E_refl|].
      destruct (burn _ _ _) as [b|] eqn:Eb; [|by apply E_quiet; [..|constructor]]. split; [by apply hs_same|]. intros _. cbn [cw_bank c_bank tells fold_right].
      rewrite Z.add_0_r. unfold burn in Eb. destruct (cle _ _); [|done]. injection Eb as <-. unfold bal. rewrite bal_of_insert. by destruct (decide _).
    Qed.
  End reach.
End step.

Section step2.
  Context (a : acct) (d : N).
  Local Notation B b := (bal b a d).
  Local Notation T l := (tells a d l).
  Local Notation P := (fun e => told a d e = 0).
  (** The full amount is told unless a displaced funder is shown with nothing: then a user has got
      more, and the module of the funders has less, than the events tell. *)
  Definition right (b b' : bank) (l : list event) : Prop :=
    (a <> MFunders -> B b + T l <= B b') /\ (match a with User _ => False | _ => True end -> B b' <= B b + T l) /\
    (existsb nothing_named l = false -> B b' = B b + T l).
  Lemma right_eq b b' l : B b' = B b + T l -> right b b' l.
  Proof. intros H. repeat split; intros; lia. Qed.
  Lemma right_quiet b b' l : B b' = B b -> Forall P l -> right b b' l.
  Proof. intros H Hl. apply right_eq. rewrite (tells_none a d l Hl). lia. Qed.
  Lemma m_fund st ex u p x y st' : msg_fund st ex u p x y = Some st' -> right (fs_bank st) (fs_bank st') (ev_fund st u p x y).
  Proof.
    unfold msg_fund, ev_fund. case_bool_decide; [|done]. destruct ex; [|done]. cbn [negb]. destruct (fs_active st !! p) as [act|]; [|done]. destruct (ensure_params _ _) as [f1|]; [|done].
    destruct (ensure_free_slot _ _ _ _ _) as [[st1 act1]|] eqn:E1; [|done]. destruct (send _ _ _ _) eqn:E; [|done]. intros [= <-]. change (default [] (Some act)) with act.
    apply (m_slot a d) in E1. apply (sent a d) in E. cbn in E. unfold right. cbn [fs_bank set_fstate set_funding fwith_bank]. rewrite E, tells_app, tells_one. cbn [told].
    destruct E1 as [[-> ->]|(b1 & r & -> & Hr & ->)].
    - cbn. repeat split; intros; lia.
    - cbn [existsb app nothing_named]. change (cempty ∅) with true. cbn [orb]. rewrite tells_one. cbn [told]. rewrite amt_empty.
      pose proof (cpos_amt r d Hr) as Hz. unfold move, at_acct. repeat split; [intros Ha|intros Ha|done]; repeat case_decide; subst; try done; lia.
  Qed.
  Definition spends (o : cop) : bool :=
    match o with CDelegate _ _ _ | CRedelegate _ _ _ _ | CWithdraw _ _ | CCreateStaker _ _ _ | CClaimCommission _ _ | CJoin _ _ _ _ | CFund _ _ _ _ | CDefund _ _ _
      | CTeam _ | CSubmit _ | CSkip _ _ _ _ | CBegin _ _ | CEnd | CBank _ => true | _ => false end.
  Lemma no_edge o x y : spends o = false -> untold o a = false -> allowed o x y -> x <> a /\ y <> a.
  Proof.
    intros H1 H2 H. inversion H; subst; try done. cbn [untold] in H2. apply orb_false_iff in H2 as [H2 H3]. apply bool_decide_eq_false in H2, H3. by split.
  Qed.
  Lemma money_step g c o c' : genesis g -> R g c -> cmsg c o = Some c' -> hd c' = false -> untold o a = false -> right (c_bank c) (c_bank c') (emitted c o).
  Proof.
    intros Hg HR E Hh Ho.
    assert (Hm : spends o = false -> B (c_bank c') = B (c_bank c)).
    { intros H1. assert (H2 : match o with CBegin _ _ | CEnd | CBank _ => False | _ => True end) by (by destruct o). pose proof (msg_flows c o c' H2 E) as Hf.
      eapply flows_same; [exact Hf|intros y Hy..]; by apply no_edge in Hy as []. }
    destruct o; try done; cbn [emitted]; try (apply right_quiet; [by apply Hm|first [shape|(apply Forall_app; split; [unfold ev_reset; destruct (0 <? _); by repeat constructor|by repeat constructor])]]); clear Hm; cbn [cmsg] in E.
    - apply fmap_Some in E as (x & E & ->). apply right_eq. exact (m_delegate a d _ _ _ _ _ _ E).
    - apply fmap_Some in E as (x & E & ->). apply right_eq. exact (m_redelegate a d _ _ _ _ _ _ _ _ E).
    - apply fmap_Some in E as (x & E & ->). apply right_eq. exact (m_withdraw a d _ _ _ _ E).
    - unfold chain_create_staker in E. destruct (msg_delegate _ _ _ _ _) as [x|] eqn:E1; [|done]. destruct (msg_create_staker _ _ _ _) eqn:E2; [|done]. injection E as <-.
      apply right_eq. apply (m_delegate a d) in E1. rewrite tells_app, tells_one. cbn [told]. rewrite Z.add_0_r. exact E1.
    - apply fmap_Some in E as (x & E & ->). apply right_eq. rewrite tells_one. exact (m_claim a d _ _ _ _ E).
    - apply fmap_Some in E as (x & E & ->). apply right_eq. rewrite tells_app, (tells_none a d (ev_slot _ _ _)), tells_one by shape.
      rewrite Z.add_0_l. exact (m_join a d _ _ _ _ _ _ _ _ E).
    - apply fmap_Some in E as (z & E & ->). exact (m_fund _ _ _ _ _ _ _ E).
    - apply fmap_Some in E as (z & E & ->). apply right_eq. unfold ev_defund, msg_defund in *. destruct (fs_fundings _ !! _) as [f|]; [|done].
      destruct (match fs_active (f_in c) !! p with Some l => _ | None => _ end) as [[sp act] ms]. destruct (cempty _); [done|]. destruct (ensure_params _ _) as [f1|]; [|done].
      destruct (send _ _ _ _) eqn:Es; [|done]. injection E as <-. rewrite tells_one. by apply (sent a d) in Es.
    - apply fmap_Some in E as (z & E & ->). apply right_eq. destruct o; try done; cbn [ev_team].
      + unfold msg_create in E. destruct (negb _); [done|]. destruct (_ || _); [done|]. destruct (_ <? _); [done|]. injection E as <-. cbn. lia.
      + unfold msg_claim_unlocked in E. destruct (negb _); [done|]. destruct (ts_accounts _ !! _); [|done]. destruct (_ <? _); [done|]. destruct (transfer _ _ _ _) eqn:Et; [|done]. injection E as <-.
        apply (m_transfer a d) in Et. rewrite tells_one. exact Et.
      + unfold msg_clawback in E. destruct (negb _); [done|]. destruct (ts_accounts _ !! _); [|done]. do 2 (destruct (_ && _); [done|]). injection E as <-. cbn. lia.
      + unfold msg_claim_rewards in E. destruct (negb _); [done|]. destruct (ts_accounts _ !! _); [|done]. destruct (_ <? _); [done|]. destruct (transfer _ _ _ _) eqn:Et; [|done]. injection E as <-.
        apply (m_transfer a d) in Et. rewrite tells_one. exact Et.
      + unfold msg_claim_authority in E. destruct (negb _); [done|]. destruct (_ <? _); [done|]. destruct (transfer _ _ _ _) eqn:Et; [|done]. injection E as <-.
        apply (m_transfer a d) in Et. rewrite tells_one. exact Et.
    - apply right_eq. by apply (E_submit a d g Hg c _ c' HR E).
    - apply right_eq. by apply (E_skip a d g Hg c _ _ _ _ c' HR E).
    - injection E as <-. apply right_eq. cbn [untold] in Ho. rewrite begin_eq in *. rewrite ev_begin_eq, tells_app, (tells_none a d (ev_stakers_begin _)) by shape.
      rewrite <- (split_rest c t provision a d Ho), Z.add_0_r. revert Hh. generalize (split_state c t provision). intros k Hh.
      assert (Hh' : ds_halt (fst (process_queue (with_time (d_in k) t))) = false) by exact Hh. clear Hh. cbn [s_out c_bank cw_bank cw_s]. rewrite sb_begin.
      apply (m_queue a d) in Hh'. exact Hh'.
    - injection E as <-. apply right_eq. cbn [untold] in Ho. apply bool_decide_eq_false in Ho. by apply (E_end a d g Hg c HR Ho).
  Qed.
End step2.

(** ** Over all histories *)
(** The accounts that every step tells. *)
Definition told_always (a : acct) : bool := match a with User _ | MDelegation | MStakers | MFunders | MPool | MBundles | MGov => true | _ => false end.
Lemma follow_balances g : genesis g -> forall ops, cops_ok (gstart g) ops ->
  let l := elog (gstart g) ops in let c := crun (gstart g) ops in ds_halt (c_d c) = false ->
  forall a d, told_always a = true -> let known := bal (c_bank (gstart g)) a d + outside a d (gstart g) ops + tells a d l in
  (a <> MFunders -> known <= bal (c_bank c) a d) /\ (match a with User _ => False | _ => True end -> bal (c_bank c) a d <= known) /\
  (existsb nothing_named l = false -> known = bal (c_bank c) a d).
Proof.
  intros Hg ops Hops. cbv zeta. intros Hh a d Ha.
  assert (K : forall pre ops, cops_ok (gstart g) (pre ++ ops) -> let c := crun (gstart g) pre in hd (crun c ops) = false ->
    let known := bal (c_bank c) a d + outside a d c ops + tells a d (elog c ops) in
    (a <> MFunders -> known <= bal (c_bank (crun c ops)) a d) /\ (match a with User _ => False | _ => True end -> bal (c_bank (crun c ops)) a d <= known) /\
    (existsb nothing_named (elog c ops) = false -> known = bal (c_bank (crun c ops)) a d)).
  2:{ exact (K [] ops Hops Hh). }
  clear ops Hops Hh. intros pre ops. revert pre. induction ops as [|o ops IH]; intros pre Hops; cbv zeta; [cbn; lia|]. intros Hh.
  assert (Hops' : cops_ok (gstart g) ((pre ++ [o]) ++ ops)) by (by rewrite <- app_assoc). specialize (IH (pre ++ [o]) Hops'). cbv zeta in IH. rewrite crun_app in IH. cbn [crun] in IH.
  apply cops_ok_app in Hops as [Hpre _]. pose proof (R_run g Hg pre Hpre) as HR. set (c := crun (gstart g) pre) in *. clearbody c. cbn [elog crun outside] in *. specialize (IH Hh).
  assert (H1 : hd (cstep c o) = false).
  { clear IH Hops'. revert Hh. generalize (cstep c o). intros k. revert k. induction ops as [|x ops IH]; intros k H; [exact H|]. apply IH in H.
    destruct (hd k) eqn:Ek; [|done]. apply (halt_stays k x) in Ek. congruence. }
  rewrite tells_app, existsb_app.
  destruct (match o with CBank _ => true | _ => false end) eqn:Eo.
  - destruct o as [| | | | | | | | | | | | | | | | | | | | | | | | | | | | | | |b]; try done. change (cstep c (CBank b)) with (cw_bank c b) in *. cbn [cw_bank c_bank] in *. change (events c (CBank b)) with (@nil event) in *.
    change (tells a d []) with 0. cbn [existsb orb]. destruct IH as (I1 & I2 & I3). split; [|split]; intros Hb; [specialize (I1 Hb)|specialize (I2 Hb)|specialize (I3 Hb)]; lia.
  - assert (Hz : match o with CBank b => bal b a d - bal (c_bank c) a d | _ => 0 end = 0) by (by destruct o). rewrite Hz.
    assert (Hs : right a d (c_bank c) (c_bank (cstep c o)) (events c o)).
    { unfold cstep, events in *. destruct (cmsg c o) as [c'|] eqn:Ec; [|apply right_eq; cbn; lia]. eapply money_step; [exact Hg|exact HR|done|exact H1|].
      destruct o; try done; cbn [untold]; [|destruct a; done|by case_bool_decide; subst]. rewrite orb_false_iff, !bool_decide_eq_false. by destruct a. }
    destruct Hs as (S1 & S2 & S3). destruct IH as (I1 & I2 & I3). split; [|split].
    + intros Hb. specialize (I1 Hb). specialize (S1 Hb). lia.
    + intros Hb. specialize (I2 Hb). specialize (S2 Hb). lia.
    + intros [Hx Hb]%orb_false_iff. specialize (S3 Hx). specialize (I3 Hb). lia.
Qed.
Lemma follow_user g : genesis g -> forall ops, cops_ok (gstart g) ops ->
  let l := elog (gstart g) ops in let c := crun (gstart g) ops in ds_halt (c_d c) = false ->
  forall u d, let known := bal (c_bank (gstart g)) (User u) d + outside (User u) d (gstart g) ops + tells (User u) d l in
  known <= bal (c_bank c) (User u) d /\ (existsb nothing_named l = false -> known = bal (c_bank c) (User u) d).
Proof. intros Hg ops Hops l c Hh u d. destruct (follow_balances g Hg ops Hops Hh (User u) d eq_refl) as (H1 & _ & H3). split; [by apply H1|exact H3]. Qed.
(** One step, also for the accounts that are not told always. *)
Lemma follow_step g : genesis g -> forall ops, cops_ok (gstart g) ops -> forall o, let c := crun (gstart g) ops in
  ds_halt (c_d (cstep c o)) = false -> forall a d, untold o a = false -> existsb nothing_named (events c o) = false ->
  bal (c_bank (cstep c o)) a d = bal (c_bank c) a d + tells a d (events c o).
Proof.
  intros Hg ops Hops o. cbv zeta. pose proof (R_run g Hg ops Hops) as HR. set (c := crun (gstart g) ops) in *. clearbody c. unfold cstep, events.
  destruct (cmsg c o) as [c'|] eqn:Ec; [|cbn; lia]. intros Hh a d Ho Hn. exact (proj2 (proj2 (money_step a d g c o c' Hg HR Ec Hh Ho)) Hn).
Qed.
