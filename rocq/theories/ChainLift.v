(** * The histories of the modules inside the chain are histories of the modules' own machines.

    In every reachable state of the chain the state of x/delegation (and likewise of x/stakers,
    x/funders, x/team) is the end of a run of the machine of Delegation.v, whose inputs satisfy
    [dop_ok]. So everything proved about those machines holds inside the chain. *)
From Verif Require Import Base BaseFacts Delegation F1Spec F1Refine F1Acct DelegationInv DelegationBank DelegationQueue DelegationProps
  DelegationClaims DelegationClaims2
  Stakers Funders FundersInv FundersRun Team RoundRobin Pool Bundles Chain ChainFrame ArchiveInv BankMoves ModTime PayoutClaims.

(** Genesis states. *)
Record gen := mkGen { g0_bank : bank; g0_time : Z; g0_dp : dparams; g0_ct : Z; g0_lt : Z; g0_fp : fparams; g0_pp : pparams; g0_bp : bparams; g0_br : Z }.
Definition gstart (g : gen) : chain := cinit (g0_bank g) (g0_time g) (g0_dp g) (g0_ct g) (g0_lt g) (g0_fp g) (g0_pp g) (g0_bp g) (g0_br g).
(** No negative balances, a supply below 2^63, a block time below 2^62 and valid parameters. *)
Definition params_ok (c : chain) : Prop :=
  bparams_valid (c_bp c) = true /\ b_timeout (c_bp c) < two62 /\ pparams_valid (c_pp c) = true /\ pct_ok (c_burn c) = true /\
  b_maxpoints (c_bp c) < two64.
Definition genesis (g : gen) : Prop :=
  bank_nn (g0_bank g) /\ supply (g0_bank g) < two63 /\ 0 <= g0_time g < two62 /\ dparams_valid (g0_dp g) = true /\
  u64 (g0_ct g) /\ u64 (g0_lt g) /\ fparams_ok (g0_fp g) /\ params_ok (gstart g).

(** Who has delegated to whom. The invariant may keep track of it; by default it does not. *)
Class joiners := may_join : N -> N -> Prop.
Definition cjoins (o : cop) (s : N) : gset N :=
  match o with
  | CDelegate d s' _ => if decide (s' = s) then {[d]} else ∅
  | CRedelegate d _ s' _ => if decide (s' = s) then {[d]} else ∅
  | CCreateStaker s' _ _ => if decide (s' = s) then {[s']} else ∅
  | _ => ∅
  end.
Fixpoint cjoined (ops : list cop) (s : N) : gset N :=
  match ops with [] => ∅ | o :: t => cjoins o s ∪ cjoined t s end.

(** What the funders account holds beyond the fundings. The invariant may keep track of it; by default it does not. *)
Definition fsurplus (st : fstate) (x : N) : Z := bal (fs_bank st) MFunders x - sum_rem st x.
Class surplus := sur_is : option (N -> Z).
Definition kept {K : surplus} (b b' : bank) : Prop :=
  match sur_is with None => True | Some _ => forall x, bal b' MFunders x = bal b MFunders x end.

Section lift.
  Context {J : joiners} {K : surplus}.
  Definition may_all (ops : list dop) : Prop := forall s d, d ∈ joined ops s -> may_join d s.
  Lemma may_none o : (forall s, joins o s = ∅) -> may_all [o].
  Proof. intros H s d. cbn [joined]. rewrite H. set_solver. Qed.
  Lemma may_app a b : may_all a -> may_all b -> may_all (a ++ b).
  Proof.
    intros Ha Hb s d. induction a as [|o a IH]; cbn [joined app]; [apply Hb|].
    rewrite elem_of_union. intros [H|H].
    - apply Ha. cbn [joined]. set_solver.
    - apply IH; [|done]. intros s' d' H'. apply Ha. cbn [joined]. set_solver.
  Qed.
  Context (g : gen).
  Definition d0 := dinit (g0_bank g) (g0_dp g) (g0_time g).
  Definition s0 := sinit (g0_bank g) (g0_time g) (g0_ct g) (g0_lt g).
  Definition f0 := finit (g0_bank g) (g0_fp g).
  Definition t0 := tinit (g0_bank g) (g0_time g).
  Record G (c : chain) : Prop := mkG {
    g_nn : bank_nn (c_bank c);
    g_supply : supply (c_bank c) < two63;
    g_d : exists ops, ops_ok d0 ops /\ d_in c = drun d0 ops /\ may_all ops;
    g_s : exists ops, sops_ok s0 ops /\ s_in c = srun s0 ops;
    g_f : exists ops, fops_ok f0 ops /\ f_in c = frun f0 ops;
    g_t : exists ops, tops_ok t0 ops /\ t_in c = trun t0 ops;
    g_link : forall p, states (c_f c) p <-> (p < ps_count (c_pools c))%N;
    g_times : ds_time (c_d c) <= c_time c /\ ss_time (c_s c) <= c_time c /\ ts_time (c_t c) <= c_time c /\ c_time c < two62;
    g_par : params_ok c;
    g_sur : match sur_is with None => True | Some k => FInv k (f_in c) end
  }.
  Context (Hg : genesis g).

  Lemma G_init : match sur_is with None => True | Some k => FInv k f0 end -> G (gstart g).
  Proof.
    intros H0. destruct Hg as (H1 & H2 & H3 & H4 & H5 & H6 & H7 & H8).
    split; try done; try (by exists []).
    - intros p. unfold states. cbn. rewrite lookup_empty. split; [by intros [? ?]|lia].
    - cbn. lia.
  Qed.

  (** Runs extended at the end. *)
  Lemma srun_app st a b : srun st (a ++ b) = srun (srun st a) b.
  Proof. revert st. induction a; intros st; simpl; [done|]. apply IHa. Qed.
  Lemma sops_ok_app st a b : sops_ok st (a ++ b) <-> sops_ok st a /\ sops_ok (srun st a) b.
  Proof. revert st. induction a as [|o a IH]; intros st; simpl; [tauto|]. rewrite IH. tauto. Qed.
  Lemma frun_app st a b : frun st (a ++ b) = frun (frun st a) b.
  Proof. revert st. induction a; intros st; simpl; [done|]. apply IHa. Qed.
  Lemma fops_ok_app st a b : fops_ok st (a ++ b) <-> fops_ok st a /\ fops_ok (frun st a) b.
  Proof. revert st. induction a as [|o a IH]; intros st; simpl; [tauto|]. rewrite IH. tauto. Qed.
  Lemma trun_app st a b : trun st (a ++ b) = trun (trun st a) b.
  Proof. revert st. induction a; intros st; simpl; [done|]. apply IHa. Qed.
  Lemma tops_ok_app st a b : tops_ok st (a ++ b) <-> tops_ok st a /\ tops_ok (trun st a) b.
  Proof. revert st. induction a as [|o a IH]; intros st; simpl; [tauto|]. rewrite IH. tauto. Qed.

  Lemma G_FInv c : G c -> FInv (fsurplus (f_in c)) (f_in c).
  Proof.
    intros HG. destruct (g_f _ HG) as (ops & Hok & ->). destruct Hg as (H1 & H2 & H3 & H4 & H5 & H6 & H7 & H8).
    assert (HI : FInv (bal (g0_bank g) MFunders) f0) by (apply FInv_init; [done|]; intros x; apply H1).
    pose proof (FInv_run _ _ ops HI Hok) as HI'. eapply FInv_ext; [|exact HI']. intros x. unfold fsurplus. rewrite (fi_bank _ _ HI' x). lia.
  Qed.

  Lemma G_ext c c' dl sl fl tl : G c ->
    bank_nn (c_bank c') -> supply (c_bank c') < two63 ->
    ops_ok (d_in c) dl -> d_in c' = drun (d_in c) dl -> may_all dl ->
    sops_ok (s_in c) sl -> s_in c' = srun (s_in c) sl ->
    fops_ok (f_in c) fl -> f_in c' = frun (f_in c) fl ->
    tops_ok (t_in c) tl -> t_in c' = trun (t_in c) tl ->
    (forall p, states (c_f c') p <-> (p < ps_count (c_pools c'))%N) ->
    ds_time (c_d c') <= c_time c' /\ ss_time (c_s c') <= c_time c' /\ ts_time (c_t c') <= c_time c' /\ c_time c' < two62 ->
    params_ok c' -> match sur_is with None => True | Some _ => forall x, fdonations (f_in c) fl x = 0 end -> G c'.
  Proof.
    intros HG Hn Hs Hd1 Hd2 Hd3 Hs1 Hs2 Hf1 Hf2 Ht1 Ht2 Hl Htm Hp Hz. split; try done.
    - destruct (g_d _ HG) as (ops & Hok & E & HJ). exists (ops ++ dl). rewrite ops_ok_app, drun_app, <- E. split; [done|]. split; [done|by apply may_app].
    - destruct (g_s _ HG) as (ops & Hok & E). exists (ops ++ sl). rewrite sops_ok_app, srun_app, <- E. done.
    - destruct (g_f _ HG) as (ops & Hok & E). exists (ops ++ fl). rewrite fops_ok_app, frun_app, <- E. done.
    - destruct (g_t _ HG) as (ops & Hok & E). exists (ops ++ tl). rewrite tops_ok_app, trun_app, <- E. done.
    - pose proof (g_sur _ HG) as Hk. destruct sur_is as [k|]; [|done]. rewrite Hf2.
      eapply FInv_ext; [|exact (FInv_run _ _ fl Hk Hf1)]. intros x. cbn. rewrite (Hz x). lia.
  Qed.
  Lemma sur_one c o : (forall x, fdonated (f_in c) o x = 0) -> 
    match sur_is with None => True | Some _ => forall x, fdonations (f_in c) [o] x = 0 end.
  Proof. intros H. destruct sur_is; [|done]. intros x. cbn [fdonations]. rewrite H. done. Qed.

  (** Nothing the invariant speaks about changes. *)
  Lemma G_frame c c' : G c -> mpart c' = mpart c -> ps_count (c_pools c') = ps_count (c_pools c) ->
    c_time c' = c_time c -> c_bp c' = c_bp c -> c_pp c' = c_pp c -> c_burn c' = c_burn c -> G c'.
  Proof.
    intros HG Hm Hc Ht Hb Hp Hr. apply mpart_eq in Hm as (E1 & E2 & E3 & E4 & E5). destruct HG.
    split; unfold d_in, s_in, f_in, t_in, params_ok in *; rewrite ?E1, ?E2, ?E3, ?E4, ?E5, ?Hc, ?Ht, ?Hb, ?Hp, ?Hr; done.
  Qed.
  Lemma G_bpart c c' : G c -> mpart c' = mpart c -> bpart c' = bpart c -> G c'.
  Proof. intros HG Hm Hb. apply bpart_eq in Hb. apply (G_frame c); [done..| | | | |]; try tauto. f_equal. tauto. Qed.

  (** ** The steps of one module *)
  Lemma bal_eq b b' a : bal_of b' a = bal_of b a -> forall d, bal b' a d = bal b a d.
  Proof. intros H d. unfold bal. by rewrite H. Qed.

  Lemma bal_le b b' a : bal_of b' a = bal_of b a -> forall d, bal b a d <= bal b' a d.
  Proof. intros H d. rewrite (bal_eq _ _ _ H). lia. Qed.

  Lemma kept_eq b b' : bal_of b' MFunders = bal_of b MFunders -> kept b b'.
  Proof. intros H. unfold kept. destruct sur_is; [|done]. intros x. by apply bal_eq. Qed.

  Lemma G_bank c b : G c -> bank_nn b -> supply b < two63 ->
    (forall d, bal (c_bank c) MDelegation d <= bal b MDelegation d) -> (forall d, bal (c_bank c) MStakers d <= bal b MStakers d) ->
    (forall d, bal (c_bank c) MFunders d <= bal b MFunders d) -> (forall d, bal (c_bank c) MTeam d <= bal b MTeam d) ->
    kept (c_bank c) b -> G (cw_bank c b).
  Proof.
    intros HG Hn Hs H1 H2 H3 H4 H5. destruct (g_times _ HG) as (T1 & T2 & T3 & T4).
    apply (G_ext c (cw_bank c b) [OBank b] [SBank b] [FBank b] [TBank b]); try done; try (by apply may_none).
    - split; [|done]. cbn. apply H4.
    - apply (g_link _ HG).
    - apply (g_par _ HG).
    - unfold kept in H5. destruct sur_is; [|done]. intros x. specialize (H5 x). cbn [fdonations fdonated f_in fwith_bank fs_bank]. lia.
  Qed.
  Lemma G_moves c b (A : acct -> Prop) : G c -> moves A (c_bank c) b ->
    ~ A MDelegation -> ~ A MStakers -> ~ A MFunders -> ~ A MTeam -> G (cw_bank c b).
  Proof.
    intros HG Hm H1 H2 H3 H4. apply G_bank; try done.
    - eapply moves_nn; [exact Hm|]. apply HG.
    - rewrite (moves_supply _ _ _ Hm). apply HG.
    - apply bal_le. by eapply moves_bal_of.
    - apply bal_le. by eapply moves_bal_of.
    - apply bal_le. by eapply moves_bal_of.
    - apply bal_le. by eapply moves_bal_of.
    - apply kept_eq. by eapply moves_bal_of.
  Qed.

  Lemma GJ_d c o : G c -> may_all [o] -> dop_ok (d_in c) o -> dop_own (Some MPool) o ->
    match o with OBeginBlock dt => ds_time (c_d c) + dt <= c_time c | _ => True end ->
    G (d_out c (dstep (d_in c) o)).
  Proof.
    intros HG HJ Hok Hown Ht. pose proof (dstep_moves (Some MPool) (d_in c) o Hown) as Hm. cbn in Hm.
    pose proof (dstep_time (d_in c) o) as Htm. cbn in Htm. set (st := dstep (d_in c) o) in *.
    destruct (g_times _ HG) as (T1 & T2 & T3 & T4).
    apply (G_ext c _ [o] [SBank (ds_bank st)] [FBank (ds_bank st)] [TBank (ds_bank st)]); try done.
    - eapply moves_nn; [exact Hm|]. apply HG.
    - cbn. rewrite (moves_supply _ _ _ Hm). apply HG.
    - cbn. fold st. unfold d_in, d_out. cbn. by destruct st.
    - split; [|done]. intros d. cbn. rewrite (bal_eq (c_bank c) (ds_bank st) MStakers); [lia|]. by eapply moves_bal_of.
    - split; [|done]. cbn. apply bal_le. by eapply moves_bal_of.
    - split; [|done]. cbn. rewrite (bal_eq (c_bank c) (ds_bank st) MTeam); [lia|]. by eapply moves_bal_of.
    - apply (g_link _ HG).
    - cbn. rewrite Htm. split_and!; try done. destruct o; done.
    - apply (g_par _ HG).
    - apply sur_one. intros x. cbn [fdonated f_in fwith_bank fs_bank]. rewrite (bal_eq (c_bank c) (ds_bank st) MFunders); [lia|]. by eapply moves_bal_of.
  Qed.
  Lemma G_d c o : (forall s, joins o s = ∅) -> G c -> dop_ok (d_in c) o -> dop_own (Some MPool) o ->
    match o with OBeginBlock dt => ds_time (c_d c) + dt <= c_time c | _ => True end ->
    G (d_out c (dstep (d_in c) o)).
  Proof. intros H HG. apply GJ_d; [done|by apply may_none]. Qed.
  Lemma G_s c o : G c -> sop_ok (s_in c) o -> sop_own (Some MPool) o ->
    match o with SBegin t => t <= c_time c | _ => True end ->
    G (s_out c (sstep (s_in c) o)).
  Proof.
    intros HG Hok Hown Ht. pose proof (sstep_moves (Some MPool) (s_in c) o Hown) as Hm. cbn in Hm.
    pose proof (sstep_time (s_in c) o) as Htm. cbn in Htm. set (st := sstep (s_in c) o) in *.
    destruct (g_times _ HG) as (T1 & T2 & T3 & T4).
    apply (G_ext c _ [OBank (ss_bank st)] [o] [FBank (ss_bank st)] [TBank (ss_bank st)]); try done; try (by apply may_none).
    - eapply moves_nn; [exact Hm|]. apply HG.
    - cbn. rewrite (moves_supply _ _ _ Hm). apply HG.
    - split; [|done]. cbn. apply bal_le. by eapply moves_bal_of.
    - cbn. fold st. unfold s_in, s_out. cbn. by destruct st.
    - split; [|done]. cbn. apply bal_le. by eapply moves_bal_of.
    - split; [|done]. cbn. rewrite (bal_eq (c_bank c) (ss_bank st) MTeam); [lia|]. by eapply moves_bal_of.
    - apply (g_link _ HG).
    - cbn. rewrite Htm. split_and!; try done. destruct o; done.
    - apply (g_par _ HG).
    - apply sur_one. intros x. cbn [fdonated f_in fwith_bank fs_bank]. rewrite (bal_eq (c_bank c) (ss_bank st) MFunders); [lia|]. by eapply moves_bal_of.
  Qed.
  Lemma G_f c o : G c -> fop_ok (f_in c) o -> fop_own (Some MPool) o ->
    match o with FCreateState _ => False | _ => True end ->
    G (f_out c (fstep (f_in c) o)).
  Proof.
    intros HG Hok Hown Ht. pose proof (fstep_moves (Some MPool) (f_in c) o Hown) as Hm. cbn in Hm.
    pose proof (fun q => fstep_states _ (f_in c) o q (G_FInv _ HG)) as Hst. set (st := fstep (f_in c) o) in *.
    destruct (g_times _ HG) as (T1 & T2 & T3 & T4).
    apply (G_ext c _ [OBank (fs_bank st)] [SBank (fs_bank st)] [o] [TBank (fs_bank st)]); try done; try (by apply may_none).
    - eapply moves_nn; [exact Hm|]. apply HG.
    - cbn. rewrite (moves_supply _ _ _ Hm). apply HG.
    - split; [|done]. cbn. apply bal_le. by eapply moves_bal_of.
    - split; [|done]. intros d. cbn. rewrite (bal_eq (c_bank c) (fs_bank st) MStakers); [lia|]. by eapply moves_bal_of.
    - cbn. fold st. unfold f_in, f_out. cbn. by destruct st.
    - split; [|done]. cbn. rewrite (bal_eq (c_bank c) (fs_bank st) MTeam); [lia|]. by eapply moves_bal_of.
    - intros p. cbn. rewrite <- (g_link _ HG). rewrite Hst. unfold states. cbn. destruct o; tauto.
    - apply (g_par _ HG).
    - apply sur_one. intros x. by destruct o.
  Qed.
  Lemma G_t c o : G c -> top_ok (t_in c) o -> top_own o ->
    match o with TBegin t _ _ => t <= c_time c | _ => True end ->
    G (t_out c (tstep (t_in c) o)).
  Proof.
    intros HG Hok Hown Ht. pose proof (tstep_moves (t_in c) o Hown) as Hm. cbn in Hm.
    pose proof (tstep_time (t_in c) o) as Htm. cbn in Htm. set (st := tstep (t_in c) o) in *.
    destruct (g_times _ HG) as (T1 & T2 & T3 & T4).
    apply (G_ext c _ [OBank (ts_bank st)] [SBank (ts_bank st)] [FBank (ts_bank st)] [o]); try done; try (by apply may_none).
    - eapply moves_nn; [exact Hm|]. apply HG.
    - cbn. rewrite (moves_supply _ _ _ Hm). apply HG.
    - split; [|done]. cbn. apply bal_le. eapply moves_bal_of; [exact Hm|by intros []].
    - split; [|done]. intros d. cbn. rewrite (bal_eq (c_bank c) (ts_bank st) MStakers); [lia|]. eapply moves_bal_of; [exact Hm|by intros []].
    - split; [|done]. cbn. apply bal_le. eapply moves_bal_of; [exact Hm|by intros []].
    - cbn. fold st. unfold t_in, t_out. cbn. by destruct st.
    - apply (g_link _ HG).
    - cbn. rewrite Htm. split_and!; try done. destruct o; done.
    - apply (g_par _ HG).
    - apply sur_one. intros x. cbn [fdonated f_in fwith_bank fs_bank]. rewrite (bal_eq (c_bank c) (ts_bank st) MFunders); [lia|]. eapply moves_bal_of; [exact Hm|by intros []].
  Qed.

  Lemma G_reached c : G c -> exists ops, reached ops (d_in c).
  Proof.
    intros HG. destruct (g_d _ HG) as (ops & Hok & E & _). exists ops. exists (g0_bank g), (g0_dp g), (g0_time g).
    destruct Hg as (_ & _ & _ & H4 & _). done.
  Qed.
  Lemma G_power c x : G c -> 0 <= power c x.
  Proof.
    intros HG. destruct (G_reached c HG) as [ops Hr]. destruct (reached_good _ _ Hr) as (b & HGd & _ & _).
    destruct (HGd x) as [HR [HW _]]. change (power c x) with (delegation_amount (d_in c) x).
    unfold delegation_amount. rewrite (Rel_total _ _ HR). apply HW.
  Qed.

  (** ** x/bundles *)
  Lemma G_kick c s p : G c -> G (s_out c (leave_pool (s_in c) s p)).
  Proof. intros HG. by apply (G_s c (SKick s p)). Qed.
  Lemma G_slash c s t : G c -> G (d_out c (fst (slash_delegators (d_in c) s t))).
  Proof. intros HG. by apply (G_d c (OSlash s t)). Qed.
  Lemma G_slash_remove c p s t : G c -> G (slash_remove c p s t).
  Proof. intros HG. unfold slash_remove. cbv zeta. apply G_kick. by apply G_slash. Qed.
  Lemma G_reset c p s : G c -> G (reset_pts c p s).
  Proof. intros HG. by apply (G_s c (SReset s p)). Qed.
  Lemma G_add_point c p s : G c -> G (add_point c p s).
  Proof.
    intros HG. unfold add_point. pose proof (G_s c (SPoint s p) HG I I I) as H. cbn [sstep] in H.
    destruct (increment_points (s_in c) p s) as [s' n]. cbn [fst] in H. destruct (_ <=? _); [|done]. by apply G_slash_remove.
  Qed.
  Lemma G_fold {A} (f : chain -> A -> chain) l c : (forall c x, G c -> G (f c x)) -> G c -> G (fold_left f l c).
  Proof. intros Hf. revert c. induction l as [|x l IH]; intros c HG; simpl; [done|]. auto. Qed.
  Lemma G_non_voters c p : G c -> G (handle_non_voters c p).
  Proof. intros HG. unfold handle_non_voters. apply G_fold; [|done]. intros c' s HG'. destruct (voted _ _); [done|]. by apply G_add_point. Qed.
  Lemma G_halt c : G c -> G (cw_halt c).
  Proof. intros HG. by apply (G_frame c). Qed.
  Lemma G_bad c : G c -> G (cw_bad c).
  Proof. intros HG. by apply (G_frame c). Qed.
  Definition Ap (a : acct) : Prop := match a with MPool | MFeeCollector | PoolAcc _ | Treasury => True | _ => False end.
  Lemma G_send c from to x b : G c -> Ap from -> Ap to -> send (c_bank c) from to x = Some b -> G (cw_bank c b).
  Proof. intros HG H1 H2 Hs. apply (G_moves c b Ap); try done; try (by intros []). exact (moves_one Ap _ _ _ _ _ H1 H2 Hs). Qed.
  Lemma G_charge_inflation c p c' x : G c -> charge_inflation c p = Some (c', x) -> G c'.
  Proof.
    intros HG. unfold charge_inflation. destruct (inflation_payout _ _); [|done]. destruct (i64 _ <? 0); [done|].
    destruct (send _ _ _ _) eqn:E; intros [= <- <-]; [|by apply G_halt]. by eapply G_send; [..|exact E].
  Qed.
  Lemma G_pay_out c u r : G c -> match pay_out c u r with inl c' | inr c' => G c' end.
  Proof.
    intros HG. unfold pay_out. destruct (send _ _ _ _) as [bk|] eqn:E; [|done].
    assert (HG1 : G (cw_bank c bk)) by (by eapply G_send; [..|exact E]). set (c1 := cw_bank c bk) in *.
    set (x := cadd _ _). destruct (increase_commission_rewards _ _ _ _) as [s|] eqn:Ei; [|done].
    assert (HG2 : G (s_out c1 s)).
    { assert (Hs : sstep (s_in c1) (SPay u MPool x) = s) by (cbn [sstep]; by rewrite Ei).
      rewrite <- Hs. apply G_s; try done. split; [|done].
      unfold increase_commission_rewards in Ei. destruct (cempty x) eqn:Ex; [apply cempty_spec in Ex as ->; by intros ? ? ?%lookup_empty_Some|].
      destruct (ss_stakers _ !! _); [|done]. destruct (send (ss_bank _) _ _ _) eqn:Es; [|done]. by eapply send_pos. }
    set (c2 := s_out c1 s) in *. destruct (payout_rewards _ _ _ _) as [d|] eqn:Ep; [|done].
    assert (Hs : dstep (d_in c2) (OPayout u (r_delegation r) MPool) = d) by (cbn [dstep]; by rewrite Ep).
    rewrite <- Hs. apply G_d; try done. split; [|done].
    unfold payout_rewards in Ep. destruct (cempty (r_delegation r)) eqn:Ex; [apply cempty_spec in Ex as ->; by intros ? ? ?%lookup_empty_Some|].
    destruct (f_data _); [|done]. destruct (send (ds_bank _) _ _ _) eqn:Es; [|done]. by eapply send_pos.
  Qed.
  Lemma G_charge_funders c p : G c -> G (f_out c (fst (charge_funders (f_in c) p MPool))).
  Proof. intros HG. by apply (G_f c (FCharge p MPool)). Qed.
  Lemma G_tally c b p : G c ->
    match tally c b p with TrValid c' _ _ _ _ | TrInvalid c' _ | TrNoQuorum c' _ | TrError c' => G c' | TrPanic => True end.
  Proof.
    intros HG. unfold tally. pose proof (G_non_voters c p HG) as Hn. set (c1 := handle_non_voters c p) in *.
    destruct (v_status _); try done.
    - pose proof (G_charge_funders c1 p Hn) as Hf. destruct (charge_funders _ _ _) as [f [fp|]]; [|done]. cbn [fst] in Hf.
      destruct (charge_inflation _ _) as [[c2 x]|] eqn:Ei; [|done]. apply G_charge_inflation in Ei; [|done].
      destruct (payouts _ _ _) as [r|]; [|done]. pose proof (G_pay_out c2 (bp_uploader b) r Ei) as Hp.
      destruct (pay_out _ _ _) as [c3|c3]; [|done]. apply G_fold; [|done]. intros. by apply G_slash_remove.
    - apply G_fold; [|done]. intros. by apply G_slash_remove.
  Qed.
  Lemma G_set_prop c p b : G c -> G (set_prop c p b).
  Proof. intros HG. by apply (G_frame c). Qed.
  Lemma G_choose c p ex : G c -> G (snd (choose c p ex)).
  Proof. intros HG. apply (G_bpart c); [done|apply m_choose|apply b_choose]. Qed.
  Lemma G_choose_from c p l : G c -> G (snd (choose_from c p l)).
  Proof. intros HG. apply (G_bpart c); [done|apply m_choose_from|apply b_choose_from]. Qed.
  Lemma G_finalize c p v : G c -> G (finalize c p v).
  Proof.
    intros HG. unfold finalize. destruct (get_pool c p) as [pl|] eqn:E; [|done]. apply (G_frame c); try done.
    cbn. unfold increment_bundle. by destruct (ps_pools _ !! _).
  Qed.
  Lemma G_register c m n : G c -> G (register c m n).
  Proof. intros HG. unfold register. destruct (get_pool c (sb_pool m)); by apply G_set_prop. Qed.
  Lemma G_submit c m c' : G c -> msg_submit c m = Some c' -> G c'.
  Proof.
    intros HG. unfold msg_submit. destruct (negb _); [done|]. destruct (negb _); [done|].
    pose proof (G_reset c (sb_pool m) (sb_staker m) HG) as Hr. set (c1 := reset_pts _ _ _) in *.
    destruct (_ =? 0)%N.
    - pose proof (G_choose c1 (sb_pool m) [] Hr) as Hc. destruct (choose _ _ _) as [n c2]. intros [= <-]. by apply G_register.
    - pose proof (G_tally c1 (get_prop c (sb_pool m)) (sb_pool m) Hr) as Ht. destruct (tally _ _ _) as [c2 v ? ? ?|c2 v| | |]; try done.
      + pose proof (G_choose_from c2 (sb_pool m) (bp_valid (get_prop c (sb_pool m))) Ht) as Hc.
        destruct (choose_from _ _ _) as [n c3]. intros [= <-]. apply G_register. by apply G_finalize.
      + intros [= <-]. by apply G_set_prop.
  Qed.
  Lemma G_vote c p s v st w c' : G c -> msg_vote c p s v st w = Some c' -> G c'.
  Proof.
    intros HG. unfold msg_vote. destruct (negb _); [done|]. cbv zeta.
    destruct (match w with Valid => _ | _ => _ end); [|done]. intros [= <-]. apply G_reset. by apply G_set_prop.
  Qed.
  Lemma G_skip c p s v from c' : G c -> msg_skip c p s v from = Some c' -> G c'.
  Proof.
    intros HG. unfold msg_skip. destruct (negb _); [done|]. cbv zeta.
    pose proof (G_tally (reset_pts c p s) (get_prop c p) p (G_reset c p s HG)) as Ht.
    destruct (tally _ _ _) as [c1 w ? ? ?|c1 w|c1 w| |]; try done;
      pose proof (G_choose c1 p [s] Ht) as Hc; destruct (choose _ _ _) as [n c2]; cbn [snd] in Hc; intros [= <-]; apply G_set_prop; try done.
    by apply G_finalize.
  Qed.
  Lemma G_claim_role c p s v c' : G c -> msg_claim_role c p s v = Some c' -> G c'.
  Proof. intros HG. unfold msg_claim_role. repeat (destruct (negb _); [done|]). intros [= <-]. by apply G_set_prop. Qed.
  Lemma G_timeout_point c p s : G c -> G (timeout_point c p s).
  Proof. intros HG. unfold timeout_point. destruct (in_pool c p s); [by apply G_add_point|done]. Qed.
  Lemma G_timeout_pool c p i c' : G c -> timeout_pool c p i = Some c' -> G c'.
  Proof.
    intros HG. unfold timeout_pool. destruct (pool_error c p) as [e|].
    { intros [= <-]. destruct (_ && _); [by apply G_set_prop|]. destruct (negb _); [by apply G_set_prop|done]. }
    destruct (_ <? _); [by intros [= <-]|]. destruct (_ && _).
    { pose proof (G_choose (handle_non_voters c p) p [] (G_non_voters c p HG)) as Hc. destruct (choose _ _ _) as [n c1].
      intros [= <-]. by apply G_set_prop. }
    destruct (_ <? _); [by intros [= <-]|]. destruct (_ =? 0)%N.
    { pose proof (G_choose c p [] HG) as Hc. destruct (choose _ _ _) as [n c1]. intros [= <-]. apply G_timeout_point. by apply G_set_prop. }
    pose proof (G_tally c (get_prop c p) p HG) as Ht. destruct (tally _ _ _) as [c1 w ? ? ?|c1 w|c1 w|c1|]; try done.
    - pose proof (G_choose_from c1 p (bp_valid (get_prop c p)) Ht) as Hc. destruct (choose_from _ _ _) as [n c2].
      intros [= <-]. apply G_timeout_point, G_set_prop. by apply G_finalize.
    - pose proof (G_choose c1 p [] Ht) as Hc. destruct (choose _ _ _) as [n c2]. intros [= <-]. apply G_timeout_point. by apply G_set_prop.
    - pose proof (G_choose c1 p [] Ht) as Hc. destruct (choose _ _ _) as [n c2]. intros [= <-]. apply G_timeout_point. by apply G_set_prop.
    - intros [= <-]. by apply G_bad.
  Qed.
  Lemma G_timeouts l c c' : G c -> timeouts c l = Some c' -> G c'.
  Proof.
    revert c. induction l as [|[p i] l IH]; intros c HG; simpl; [by intros [= <-]|].
    destruct (timeout_pool c p i) as [c1|] eqn:E; [|done]. apply IH. by eapply G_timeout_pool.
  Qed.
  Lemma G_handle_timeout c : G c -> G (handle_upload_timeout c).
  Proof. intros HG. unfold handle_upload_timeout. destruct (timeouts _ _) eqn:E; [by eapply G_timeouts|by apply G_halt]. Qed.

  (** ** Blocks *)
  Lemma G_give c p x c' : G c -> give c p x = Some c' -> G c'.
  Proof.
    intros HG. unfold give. destruct (i64 x <? 0); [done|]. destruct (send _ _ _ _) eqn:E; intros [= <-]; [|by apply G_halt].
    by eapply G_send; [..|exact E].
  Qed.
  Lemma G_split_loop l c t pr d c' d' : G c -> split_loop c t pr d l = Some (c', d') -> G c'.
  Proof.
    revert c d. induction l as [|p l IH]; intros c d HG; simpl; [by intros [= <- <-]|].
    destruct (can_run c p); [|by apply IH]. destruct (pool_share _ _ _) as [x|]; [|done].
    destruct (give c p x) as [c1|] eqn:Eg; [|done]. apply IH. by eapply G_give.
  Qed.
  Lemma G_remainder_loop l c x c' : G c -> remainder_loop c x l = Some c' -> G c'.
  Proof.
    revert c. induction l as [|p l IH]; intros c HG; simpl; [by intros [= <-]|].
    destruct (can_run c p); [by apply IH|]. destruct (give c p x) as [c1|] eqn:Eg; [|done]. apply IH. by eapply G_give.
  Qed.
  Lemma G_split c pr c' : G c -> split_inflation c pr = Some c' -> G c'.
  Proof.
    intros HG. unfold split_inflation. destruct (block_provision _ _ _) as [[h team]|]; [|done].
    destruct (trunc64 _) as [protocol|]; [|done].
    set (c0 := if h then cw_halt c else c). assert (Hc0 : G c0) by (unfold c0; destruct h; [by apply G_halt|done]).
    destruct (protocol =? 0); [by intros [= <-]|]. destruct (total_weight c0 =? 0); [by intros [= <-]|].
    destruct (split_loop _ _ _ _ _) as [[c1 d]|] eqn:Es; [|done]. apply G_split_loop in Es; [|done].
    destruct (0 <? _); [by apply G_remainder_loop|by intros [= <-]].
  Qed.
  Lemma share_nn c x : 0 <= x -> (forall d, 0 <= amt c d) -> forall d, 0 <= amt (share_of c x) d.
  Proof.
    intros Hx Hc d. rewrite amt_share. rewrite trunc_int_div; [|specialize (Hc d); nia].
    specialize (Hc d). unfold ONE. apply Z.div_pos; [nia|lia].
  Qed.
  Lemma G_burn_fees c : G c -> G (burn_fees c).
  Proof.
    intros HG. unfold burn_fees. destruct (c_height c =? 1); [done|]. destruct (c_burn c =? 0); [done|].
    destruct (burn _ _ _) as [b|] eqn:Eb; [|by apply G_halt]. unfold burn in Eb. destruct (cle _ _) eqn:Ec; [|done]. injection Eb as <-.
    set (x := share_of _ _) in *. pose proof (g_nn _ HG) as Hn.
    assert (Hx : forall d, 0 <= amt x d).
    { apply share_nn; [|intros d; apply (Hn MFeeCollector d)]. destruct (g_par _ HG) as (_ & _ & _ & H & _). unfold pct_ok in H. lia. }
    assert (Hle := proj1 (cle_amt x (bal_of (c_bank c) MFeeCollector) (fun d => Hn MFeeCollector d)) Ec).
    apply G_bank; try done.
    - intros a d. unfold bal. rewrite bal_of_insert. case_decide; [|apply Hn]. subst. rewrite amt_csub. specialize (Hle d). lia.
    - rewrite supply_insert, amt_csub. pose proof (g_supply _ HG). specialize (Hx KYVE). unfold bal. lia.
    - apply bal_le. by rewrite bal_of_insert.
    - apply bal_le. by rewrite bal_of_insert.
    - apply bal_le. by rewrite bal_of_insert.
    - apply bal_le. by rewrite bal_of_insert.
    - apply kept_eq. by rewrite bal_of_insert.
  Qed.
  Lemma G_upgrades c t : G c -> G (cw_pools c (handle_upgrades (c_pools c) t)).
  Proof. intros HG. by apply (G_frame c). Qed.
  Lemma G_end c : G c -> G (end_block c).
  Proof. intros HG. unfold end_block. apply G_burn_fees, G_handle_timeout. by apply G_upgrades. Qed.
  Lemma G_process c t : G c -> c_time c = t -> G (d_out c (fst (process_queue (with_time (d_in c) t)))).
  Proof.
    intros HG E. destruct (g_times _ HG) as (T1 & T2 & T3 & T4).
    assert (H : dstep (d_in c) (OBeginBlock (t - ds_time (c_d c))) = fst (process_queue (with_time (d_in c) t))).
    { cbn [dstep]. change (ds_time (d_in c)) with (ds_time (c_d c)). by replace (ds_time (c_d c) + (t - ds_time (c_d c))) with t by lia. }
    rewrite <- H. apply G_d; [done|done|cbn; lia|done|lia].
  Qed.
  Lemma G_stakers_begin c t : G c -> c_time c = t -> G (s_out c (stakers_begin (with_stime (s_in c) t))).
  Proof.
    intros HG E. destruct (g_times _ HG) as (T1 & T2 & T3 & T4).
    change (stakers_begin (with_stime (s_in c) t)) with (sstep (s_in c) (SBegin t)).
    apply G_s; [done| |done|lia]. split; [cbn; lia|]. unfold two62, two63 in *. lia.
  Qed.
  Lemma G_team_begin c t pr : G c -> c_time c = t -> 0 <= pr -> pr <= bal (c_bank c) MFeeCollector KYVE -> pr < supply (c_bank c) ->
    G (t_out c (team_begin (twith_time (t_in c) t) pr (supply (c_bank c)))).
  Proof.
    intros HG E Hpr H1 H2. destruct (g_times _ HG) as (T1 & T2 & T3 & T4).
    change (team_begin (twith_time (t_in c) t) pr (supply (c_bank c))) with (tstep (t_in c) (TBegin t pr (supply (c_bank c)))).
    apply G_t; [done| |done|lia]. pose proof (supply_ge2 (c_bank c) MTeam MFeeCollector (g_nn _ HG) ltac:(done)).
    pose proof (g_supply _ HG). cbn [top_ok]. change (ts_time (t_in c)) with (ts_time (c_t c)). change (ts_bank (t_in c)) with (c_bank c).
    unfold two62, two63 in *. lia.
  Qed.
  Lemma G_mint c t h pr : G c -> c_time c <= t < two62 -> 0 <= pr -> supply (c_bank c) + pr < two63 ->
    let c' := cw_time (cw_bank c (mint (c_bank c) MFeeCollector (coin KYVE pr))) t h in
    G c' /\ supply (c_bank c') = supply (c_bank c) + pr /\ pr <= bal (c_bank c') MFeeCollector KYVE.
  Proof.
    intros HG Ht Hpr Hs. cbv zeta. cbn [c_bank cw_time cw_bank].
    set (bk := mint (c_bank c) MFeeCollector (coin KYVE pr)).
    destruct (g_times _ HG) as (T1 & T2 & T3 & T4). pose proof (g_nn _ HG) as Hn.
    assert (Hbk : bank_nn bk).
    { intros a d. unfold bk, mint, bal. rewrite bal_of_insert. case_decide; [|apply Hn]. subst. rewrite amt_cadd, amt_coin.
      specialize (Hn MFeeCollector d). unfold bal in Hn. case_decide; lia. }
    assert (Hsup : supply bk = supply (c_bank c) + pr).
    { unfold bk, mint. rewrite supply_insert, amt_cadd, amt_coin. unfold bal. rewrite decide_True by done. lia. }
    split; [|split; [done|]].
    - assert (HGb : G (cw_bank c bk)) by (apply G_bank; try done; try lia; unfold bk, mint; (apply bal_le || apply kept_eq); by rewrite bal_of_insert).
      destruct HGb as [? ? ? ? ? ? ? ? ?]. split; try done. cbn. split_and!; lia.
    - unfold bk, mint, bal. rewrite bal_of_insert, decide_True by done. rewrite amt_cadd, amt_coin, decide_True by done.
      specialize (Hn MFeeCollector KYVE). unfold bal in Hn. lia.
  Qed.
  Lemma split_time c pr t : c_time c = t -> G c ->
    let c' := match split_inflation c pr with Some x => x | None => cw_halt c end in G c' /\ c_time c' = t.
  Proof.
    intros E HG. cbv zeta. destruct (split_inflation c pr) as [x|] eqn:Es; [|split; [by apply G_halt|done]].
    split; [by eapply G_split|]. apply b_split in Es. apply bpart_eq in Es. intuition congruence.
  Qed.
  Lemma G_begin c t pr : G c -> cop_ok c (CBegin t pr) -> G (begin_block c t pr).
  Proof.
    intros HG (Ht & Hpr & Hs0 & Hs). unfold begin_block. cbv zeta.
    destruct (G_mint c t (c_height c + 1) pr HG Ht Hpr Hs) as (HG0 & Hsup & Hf).
    assert (E0 : c_time (cw_time (cw_bank c (mint (c_bank c) MFeeCollector (coin KYVE pr))) t (c_height c + 1)) = t) by done.
    revert HG0 Hsup Hf E0. generalize (cw_time (cw_bank c (mint (c_bank c) MFeeCollector (coin KYVE pr))) t (c_height c + 1)).
    intros c0 HG0 Hsup Hf E0.
    assert (HG1 := G_team_begin c0 t pr HG0 E0 Hpr Hf ltac:(lia)).
    assert (E1 : c_time (t_out c0 (team_begin (twith_time (t_in c0) t) pr (supply (c_bank c0)))) = t) by exact E0.
    revert HG1 E1. generalize (t_out c0 (team_begin (twith_time (t_in c0) t) pr (supply (c_bank c0)))). intros c1 HG1 E1.
    destruct (split_time c1 pr t E1 HG1) as [HG2 E2]. cbv zeta in *. revert HG2 E2.
    generalize (match split_inflation c1 pr with Some x => x | None => cw_halt c1 end). intros c2 HG2 E2.
    apply G_stakers_begin; [|exact E2]. by apply G_process.
  Qed.

  (** ** x/pool *)
  Lemma G_create c sender json a c' : G c -> chain_create_pool c sender json a = Some c' -> G c'.
  Proof.
    intros HG. unfold chain_create_pool, msg_create_pool. repeat (destruct (negb _); [done|]). intros [= <-].
    set (k := ps_count (c_pools c)).
    assert (Hk : fs_active (c_f c) !! k = None).
    { destruct (fs_active (c_f c) !! k) eqn:E; [|done]. exfalso. assert (k < k)%N; [|lia]. apply (g_link _ HG). by eexists. }
    destruct (g_times _ HG) as (T1 & T2 & T3 & T4). pose proof (g_par _ HG).
    eapply (G_ext c _ [] [] [FCreateState k] []); try done; try apply HG; try (intros ? ?; cbn; set_solver).
    - intros p. cbn. change (states (set_fstate (c_f c) k []) p <-> (p < k + 1)%N). rewrite states_set, (g_link _ HG p). fold k. lia.
    - by apply sur_one.
  Qed.
  Lemma G_disable c sender p c' : G c -> chain_disable_pool c sender p = Some c' -> G c'.
  Proof.
    intros HG. unfold chain_disable_pool, disable_record. destruct (negb _); [done|]. destruct (ps_pools _ !! _) as [pl|]; [|done].
    destruct (pl_disabled pl); [done|]. cbv zeta. set (c1 := cw_pools _ _).
    assert (HG1 : G c1) by (by apply (G_frame c)).
    set (c2 := fold_left _ _ _). assert (HG2 : G c2) by (apply G_fold; [|done]; intros; by apply G_kick).
    destruct (_ <=? _); [done|]. destruct (0 <? _); [|by intros [= <-]]. destruct (_ <? 0); [done|].
    destruct (send _ _ _ _) eqn:E; [|done]. intros [= <-]. by eapply G_send; [..|exact E].
  Qed.

  (** ** All steps *)
  Lemma G_in c c' : G c -> d_in c' = d_in c -> s_in c' = s_in c -> f_in c' = f_in c -> t_in c' = t_in c ->
    c_bank c' = c_bank c -> ps_count (c_pools c') = ps_count (c_pools c) ->
    c_time c' = c_time c -> c_bp c' = c_bp c -> c_pp c' = c_pp c -> c_burn c' = c_burn c -> G c'.
  Proof.
    intros [G1 G2 G3 G4 G5 G6 G7 G8 G9 G10] Ed Es Ef Et Eb Ec Etm E1 E2 E3. split.
    - by rewrite Eb.
    - by rewrite Eb.
    - by rewrite Ed.
    - by rewrite Es.
    - by rewrite Ef.
    - by rewrite Et.
    - intros p. rewrite Ec, <- G7. change (states (f_in c') p <-> states (f_in c) p). by rewrite Ef.
    - change (ds_time (d_in c') <= c_time c' /\ ss_time (s_in c') <= c_time c' /\ ts_time (t_in c') <= c_time c' /\ c_time c' < two62).
      rewrite Ed, Es, Et, Etm. exact G8.
    - unfold params_ok in *. by rewrite E1, E2, E3.
    - by rewrite Ef.
  Qed.
  Lemma G_create_staker c s com a c' : G c -> may_join s s -> cop_ok c (CCreateStaker s com a) -> chain_create_staker c s com a = Some c' -> G c'.
  Proof.
    intros HG HJ (H1 & H2 & H3). unfold chain_create_staker. destruct (msg_delegate _ _ _ _ _) as [d|] eqn:Ed; [|done].
    destruct (msg_create_staker _ _ _ _) as [s'|] eqn:Es; [|done]. intros [= <-].
    pose proof (G_s c (SCreate s com true) HG (conj H1 H2) I I) as HG1. set (c1 := s_out c (sstep (s_in c) (SCreate s com true))) in HG1.
    assert (E : c_s c1 = with_sbank s' (c_bank c) /\ d_in c1 = d_in c).
    { unfold c1. cbn [sstep]. unfold msg_create_staker in *. unfold s_in, s_out in *. cbn [ss_stakers with_sbank] in *.
      destruct (ss_stakers (c_s c) !! s); [done|]. injection Es as <-. done. }
    destruct E as (E1 & E2).
    assert (HJ' : may_all [ODelegate true s s a]).
    { intros s1 d1. cbn [joined joins]. destruct (decide (s = s1)) as [<-|]; [|set_solver]. rewrite union_empty_r_L, elem_of_singleton. by intros ->. }
    pose proof (GJ_d c1 (ODelegate true s s a) HG1 HJ' H3 I I) as HG2.
    cbn [dstep] in HG2. rewrite E2, Ed in HG2. cbn [or_same default from_option id] in HG2.
    apply (G_in (d_out c1 d)); try reflexivity; [exact HG2|].
    change (with_sbank s' (ds_bank d) = with_sbank (c_s c1) (ds_bank d)). by rewrite E1.
  Qed.
  Lemma GJ_step c o : G c -> (forall s d, d ∈ cjoins o s -> may_join d s) -> match o with CBank b => kept (c_bank c) b | _ => True end ->
    cop_ok c o -> G (cstep c o).
  Proof.
    intros HG HJ HK Hok. unfold cstep.
    assert (Hd : forall o x, may_all [o] -> dstep (d_in c) o = or_same (d_in c) x -> dop_ok (d_in c) o -> dop_own (Some MPool) o ->
      match o with OBeginBlock _ => False | _ => True end -> G (default c (d_out c <$> x))).
    { intros o' x HJ' E H1 H2 H3. destruct x as [d|]; [|done]. cbn in *. rewrite <- E. apply GJ_d; try done. by destruct o'. }
    assert (Hs : forall o x, sstep (s_in c) o = default (s_in c) x -> sop_ok (s_in c) o -> sop_own (Some MPool) o ->
      match o with SBegin _ => False | _ => True end -> G (default c (s_out c <$> x))).
    { intros o' x E H1 H2 H3. destruct x as [d|]; [|done]. cbn in *. rewrite <- E. apply G_s; try done. by destruct o'. }
    assert (Hf : forall o x, fstep (f_in c) o = default (f_in c) x -> fop_ok (f_in c) o -> fop_own (Some MPool) o ->
      match o with FCreateState _ => False | _ => True end -> G (default c (f_out c <$> x))).
    { intros o' x E H1 H2 H3. destruct x as [d|]; [|done]. cbn in *. rewrite <- E. apply G_f; done. }
    assert (Ht : forall o x, tstep (t_in c) o = default (t_in c) x -> top_ok (t_in c) o -> top_own o ->
      match o with TBegin _ _ _ => False | _ => True end -> G (default c (t_out c <$> x))).
    { intros o' x E H1 H2 H3. destruct x as [d|]; [|done]. cbn in *. rewrite <- E. apply G_t; try done. by destruct o'. }
    assert (Hm : forall x : option chain, (forall c', x = Some c' -> G c') -> G (default c x)).
    { intros [c'|] H; cbn; auto. }
    assert (Hps : forall x : option pstore, (forall ps, x = Some ps -> ps_count ps = ps_count (c_pools c)) -> G (default c (cw_pools c <$> x))).
    { intros [ps|] H; cbn; [|done]. apply (G_frame c); try done. cbn. by apply H. }
    destruct (g_par _ HG) as (P1 & P2 & P3 & P4 & P5).
    destruct o; cbn [cmsg cop_ok] in *.
    - eapply (Hd (ODelegate (staker_exists c s) d s a)); try done. intros s1 d1. cbn [joined joins]. rewrite union_empty_r_L. apply HJ.
    - eapply (Hd (OUndelegate d s a)); try done.
    - eapply (Hd (ORedelegate (staker_exists c to) (is_active (c_s c) to) d from to a)); try done. intros s1 d1. cbn [joined joins]. rewrite union_empty_r_L. apply HJ.
    - eapply (Hd (OWithdraw d s)); try done.
    - apply Hm. intros c'. apply G_create_staker; try done. apply HJ. cbn [cjoins]. rewrite decide_True by done. set_solver.
    - by eapply (Hs (SUpdateCommission s c0)).
    - by eapply (Hs (SClaim s amounts)).
    - eapply (Hs (SJoin (pl_disabled <$> get_pool c p) (power c) s p v a)); try done. cbn. destruct Hok as (? & ? & ? & Hp).
      split_and!; try done; try apply H1. intros x. split; [by apply G_power|apply Hp].
    - by eapply (Hs (SLeave s p)).
    - by eapply (Hf (FCreateFunder a)).
    - by eapply (Hf (FFund (pool_exists c p) a p amounts apb)).
    - by eapply (Hf (FDefund a p amounts)).
    - destruct o; try done; [by eapply (Ht (TCreate _ _ _))|by eapply (Ht (TClaim _ _ _ _))|by eapply (Ht (TClawback _ _ _))
        |by eapply (Ht (TClaimRewards _ _ _ _))|by eapply (Ht (TClaimAuthority _ _ _))].
    - apply Hm. intros c'. by apply G_submit.
    - apply Hm. intros c'. by apply G_vote.
    - apply Hm. intros c'. by apply G_skip.
    - apply Hm. intros c'. by apply G_claim_role.
    - apply Hm. intros c'. by apply G_create.
    - apply Hps. intros ps. unfold msg_update_pool. repeat (destruct (negb _); [done|]). destruct (ps_pools _ !! _); [|done]. by intros [= <-].
    - apply Hps. intros ps. unfold msg_enable_pool. repeat (destruct (negb _); [done|]). destruct (ps_pools _ !! _) as [pl|]; [|done].
      destruct (pl_disabled pl); [|done]. by intros [= <-].
    - apply Hm. intros c'. by apply G_disable.
    - apply Hps. intros ps. unfold msg_schedule. destruct (negb _); [done|]. destruct (_ || _); [done|]. by intros [= <-].
    - apply Hps. intros ps. unfold msg_cancel. destruct (negb _); [done|]. by intros [= <-].
    - destruct (_ =? _)%N; [|done]. cbn [default from_option id]. apply (G_in (d_out c (dstep (d_in c) (OParams p)))); try reflexivity. by apply G_d.
    - destruct (_ =? _)%N; [|done]. cbn [default from_option id]. apply (G_in (s_out c (sstep (s_in c) (SParams ctime ltime)))); try reflexivity. by apply G_s.
    - destruct (_ =? _)%N; [|done]. cbn [default from_option id]. apply (G_in (f_out c (fstep (f_in c) (FParams p)))); try reflexivity. by apply G_f.
    - destruct (_ =? _)%N; [|done]. cbn. destruct HG. split; try done.
    - destruct (_ =? _)%N; [|done]. cbn. destruct HG. split; try done. destruct Hok as (? & ? & ?). unfold params_ok. cbn. done.
    - destruct (_ =? _)%N; [|done]. cbn. destruct HG. split; done.
    - by apply G_begin.
    - by apply G_end.
    - destruct Hok as (H1 & H2 & H3). cbn. apply G_bank; try done; intros d; by apply H1.
  Qed.
  Lemma GJ_run ops : sur_is = None -> cops_ok (gstart g) ops -> (forall s d, d ∈ cjoined ops s -> may_join d s) -> G (crun (gstart g) ops).
  Proof.
    intros HK. assert (H : forall c, G c -> cops_ok c ops -> (forall s d, d ∈ cjoined ops s -> may_join d s) -> G (crun c ops)).
    2: { apply H, G_init. by rewrite HK. }
    induction ops as [|o t IH]; intros c HG Hok HJ; [done|]. destruct Hok as [H1 H2]. cbn [crun]. apply IH; [|done|].
    - apply GJ_step; [done| |destruct o; try done; unfold kept; by rewrite HK|done]. intros s d Hd. apply HJ. cbn [cjoined]. set_solver.
    - intros s d Hd. apply HJ. cbn [cjoined]. set_solver.
  Qed.
End lift.
Global Instance any_joiner : joiners := fun _ _ => True.
Global Instance any_surplus : surplus := None.
Lemma G_step g : genesis g -> forall c o, G g c -> cop_ok c o -> G g (cstep c o).
Proof. intros Hg c o HG. apply GJ_step; [done|done|done|]. by destruct o. Qed.
Lemma G_run g : genesis g -> forall ops, cops_ok (gstart g) ops -> G g (crun (gstart g) ops).
Proof. intros Hg ops Hok. by apply GJ_run. Qed.
