(** * Following the configuration of the pools and the accounts of the team. *)
From Verif Require Import Base BaseFacts Delegation Stakers StakersInv Funders Team RoundRobin Pool PoolFrame Bundles Chain ChainFrame ChainLift Walk ArchiveInv PaySafe PayFlow Events EventWalk EventFollow EventStakers.
From Verif Require SplitClaims.

(** ** Configuration *)
Record config := mkCf { cf_runtime : N; cf_endkey : N; cf_interval : Z; cf_weight : Z; cf_mindel : Z; cf_maxsize : Z; cf_sp : N; cf_comp : N; cf_disabled : bool }.
Definition at_id (f : N -> option config) (p : N) (x : option config) : N -> option config := fun q => if (q =? p)%N then x else f q.
Definition see_config (v : N -> option config) (e : event) : N -> option config :=
  match e with
  | EvCreatePool p a => at_id v p (Some (mkCf (ca_runtime a) (ca_endkey a) (ca_interval a) (ca_weight a) (ca_mindel a) (ca_maxsize a) (ca_sp a) (ca_comp a) false))
  | EvUpdatePool p u runtime interval weight mindel maxsize sp comp =>
      at_id v p (match v p with
        | Some x => Some (mkCf runtime (match ua_endkey u with Some k => k | None => cf_endkey x end) interval weight mindel maxsize sp comp (cf_disabled x)) | None => None end)
  | EvEnabled p => at_id v p (match v p with Some (mkCf r k i w m z sp co _) => Some (mkCf r k i w m z sp co false) | None => None end)
  | EvDisabled p => at_id v p (match v p with Some (mkCf r k i w m z sp co _) => Some (mkCf r k i w m z sp co true) | None => None end)
  | _ => v
  end.
Definition cfg (x : pool) : config := mkCf (pl_runtime x) (pl_endkey x) (pl_interval x) (pl_weight x) (pl_mindel x) (pl_maxsize x) (pl_sp x) (pl_comp x) (pl_disabled x).
Definition config_of (c : chain) (p : N) : option config := match get_pool c p with Some x => Some (cfg x) | None => None end.

Definition same_cfg (s s' : pstore) : Prop := forall p, cfg <$> ps_pools s' !! p = cfg <$> ps_pools s !! p.
Lemma sc_refl s : same_cfg s s. Proof. done. Qed.
Lemma sc_fmap s (f : pool -> pool) : (forall p, cfg (f p) = cfg p) -> same_cfg s (mkPS (f <$> ps_pools s) (ps_count s)).
Proof. intros Hf p. cbn [ps_pools]. rewrite lookup_fmap. destruct (ps_pools s !! p); cbn; [by rewrite Hf|done]. Qed.
Lemma sc_schedule s now sender r v b t d s' : msg_schedule s now sender r v b t d = Some s' -> same_cfg s s'.
Proof. unfold msg_schedule. destruct (negb _); [done|]. destruct (_ || _); [done|]. intros [= <-]. apply sc_fmap. intros p. unfold schedule_one. destruct (negb _); [done|]. by destruct (negb _). Qed.
Lemma sc_cancel s sender r s' : msg_cancel s sender r = Some s' -> same_cfg s s'.
Proof. unfold msg_cancel. destruct (negb _); [done|]. intros [= <-]. apply sc_fmap. intros p. unfold cancel_one. destruct (negb _); [done|]. by destruct (_ =? 0). Qed.
Lemma sc_upgrades s now : same_cfg s (handle_upgrades s now).
Proof. apply sc_fmap. intros p. unfold upgrade_one. destruct (_ && _); [|done]. destruct (_ || _); by destruct (_ <=? now). Qed.

Section pools.
  Context (g : gen) (Hg : genesis g).
  Definition configs (c : chain) (v : N -> option config) : Prop := forall p, v p = config_of c p.
  Local Notation E := (E see_config configs).
  Definition same_cf (c c' : chain) : Prop := same_cfg (c_pools c) (c_pools c').
  Lemma same_cf_of c c' p : same_cf c c' -> config_of c' p = config_of c p.
  Proof. intros H. specialize (H p). unfold config_of, get_pool. destruct (ps_pools (c_pools c') !! p), (ps_pools (c_pools c) !! p); cbn in H; congruence. Qed.
  Lemma cf_same c c' : same_cf c c' -> E c [] c'.
  Proof. intros H v Hv p. cbn [fold_left]. rewrite Hv. symmetry. by apply same_cf_of. Qed.
  Lemma cf_frame c c' : bpart c' = bpart c -> same_cf c c'.
  Proof. intros H. apply bpart_eq in H as (H1 & _). unfold same_cf. rewrite H1. apply sc_refl. Qed.
  Lemma cf_leave c p s : E c [EvLeave p s] (s_out c (leave_pool (s_in c) s p)).
  Proof. apply E_quiet; [by repeat constructor|]. by apply cf_same. Qed.
  Lemma cf_incr c p s : E c [EvPoint p s (snd (increment_points (s_in c) p s))] (s_out c (fst (increment_points (s_in c) p s))).
  Proof. apply E_quiet; [by repeat constructor|]. by apply cf_same. Qed.
  Lemma cf_reset c p s : E c (ev_reset c p s) (reset_pts c p s).
  Proof. apply E_quiet; [unfold ev_reset; destruct (0 <? _); by repeat constructor|]. by apply cf_same. Qed.
  Lemma cf_slash c p s t : E c (ev_slash (d_in c) p s t) (d_out c (fst (slash_delegators (d_in c) s t))).
  Proof. apply E_quiet; [by apply sh_slash|]. by apply cf_same. Qed.
  Lemma cf_infl c p c' x : charge_inflation c p = Some (c', x) -> same_cf c c'.
  Proof. intros H. unfold charge_inflation in H. destruct (inflation_payout _ _); [|done]. destruct (_ <? 0); [done|]. by destruct (send _ _ _ _); injection H as <- _. Qed.
  Lemma cf_pay c u r : match pay_out c u r with inl c' | inr c' => same_cf c c' end.
  Proof. unfold pay_out. destruct (send _ _ _ _) as [bk|]; [|done]. destruct (increase_commission_rewards _ _ _ _) as [st|]; [|done]. by destruct (payout_rewards _ _ _ _) as [d|]. Qed.
  Lemma cf_final c p v : same_cf c (finalize c p v).
  Proof.
    unfold finalize. destruct (get_pool c p) as [pl|] eqn:Ep; [|done]. cbv zeta. unfold same_cf. set (c1 := cw_fin c _ _). change (c_pools (cw_pools c1 ?x)) with x.
    unfold increment_bundle. change (ps_pools (c_pools c1) !! p) with (get_pool c p). rewrite Ep. intros q. cbn [ps_pools set_pool]. destruct (decide (q = p)) as [->|Hn].
    - rewrite lookup_insert. change (ps_pools (c_pools c) !! p) with (get_pool c p). by rewrite Ep.
    - by rewrite lookup_insert_ne by done.
  Qed.
  Lemma cf_begin c t pr : same_cf c (begin_block c t pr).
  Proof.
    unfold begin_block. set (c0 := cw_time _ _ _). set (c1 := t_out c0 _). set (c2 := match split_inflation c1 pr with Some x => x | None => cw_halt c1 end).
    assert (H2 : bpart c2 = bpart c1). { unfold c2. destruct (split_inflation c1 pr) eqn:Es; [by apply b_split in Es|done]. }
    apply bpart_eq in H2 as (H1 & _). cbv zeta. unfold same_cf. change (c_pools (s_out (d_out c2 ?x) ?y)) with (c_pools c2). rewrite H1. apply sc_refl.
  Qed.
  Lemma cf_set s i a b : ps_pools s !! i = Some a -> forall c v, configs c v -> c_pools c = s -> forall e, (v i = Some (cfg a) -> see_config v e = at_id v i (Some (cfg b))) ->
    forall q, see_config v e q = match ps_pools (set_pool s i b) !! q with Some x => Some (cfg x) | None => None end.
  Proof.
    intros Hi c v Hv Hc e He q. assert (Hvi : v i = Some (cfg a)). { rewrite Hv. unfold config_of, get_pool. by rewrite Hc, Hi. }
    rewrite (He Hvi). unfold at_id. cbn [set_pool ps_pools]. destruct (N.eqb_spec q i) as [->|Hn]; [by rewrite lookup_insert|].
    rewrite lookup_insert_ne, Hv by done. unfold config_of, get_pool. by rewrite Hc.
  Qed.
  Local Ltac still := apply E_quiet; [shape|first [by apply cf_same, cf_frame|apply cf_same; apply sc_refl]].
  Lemma cf_step c o c' : R g c -> cop_ok c o -> cmsg c o = Some c' -> E c (emitted c o) c'.
  Proof.
    intros HR Hok Hm.
    assert (Lp : forall c p b, same_cf c (set_prop c p b)) by done.
    assert (Lr : forall c x, same_cf c (cw_rr c x)) by done. assert (Lh : forall c, same_cf c (cw_halt c)) by done.
    assert (Lb : forall c b, same_cf c (cw_bank c b)) by done. assert (Lf : forall c f, same_cf c (f_out c f)) by done.
    assert (Lu : forall c, same_cf c (cw_pools c (handle_upgrades (c_pools c) (c_time c)))) by (intros; apply sc_upgrades).
    assert (Hval : forall c p c' v fp x r y n t, R g c -> is_Some (get_pool c p) -> tally c (get_prop c p) p = TrValid c' v fp x r ->
      E c (ev_tally c (get_prop c p) p ++ ev_finalize (cw_rr c' y) p v fp x r n) (set_prop (finalize (cw_rr c' y) p v) p (bp_none n t))).
    { intros. eapply (l_valid see_config configs same_cf); eauto using cf_same, cf_slash, cf_leave, cf_incr, cf_infl, cf_final; first [exact cf_pay|done]. }
    destruct o; cbn [cmsg emitted] in *; try (one_of Hm; still); try (param Hm; still).
    - unfold chain_create_staker in Hm. destruct (msg_delegate _ _ _ _ _); [|done]. destruct (msg_create_staker _ _ _ _) as [st|] eqn:Es; [|done]. injection Hm as <-. still.
    - eapply (l_submit g see_config configs same_cf); eauto using cf_same, cf_slash, cf_leave, cf_incr, cf_reset; done.
    - eapply (l_vote see_config configs same_cf); eauto using cf_same, cf_reset; done.
    - eapply (l_skip g see_config configs same_cf); eauto using cf_same, cf_slash, cf_leave, cf_incr, cf_reset; done.
    - eapply (l_claim_role see_config configs same_cf); eauto using cf_same; done.
    - unfold chain_create_pool in Hm. destruct (msg_create_pool _ _ _ _ _) as [ps|] eqn:Ep; [|done]. injection Hm as <-.
      unfold msg_create_pool in Ep. destruct (negb _); [done|]. destruct (negb _); [done|]. destruct (negb _); [done|]. injection Ep as <-.
      intros v Hv q. cbn [fold_left see_config]. unfold at_id, config_of, get_pool. cbn [c_pools cw_f cw_pools append_pool ps_pools].
      destruct (N.eqb_spec q (ps_count (c_pools c))) as [->|Hn]; [by rewrite lookup_insert|]. rewrite lookup_insert_ne by done. apply Hv.
    - one_of Hm. unfold msg_update_pool in Em. destruct (negb _); [done|]. destruct (negb _); [done|]. destruct (ps_pools (c_pools c) !! p) as [pl|] eqn:Ep; [|done]. injection Em as <-.
      intros v Hv q. unfold ev_update_pool, get_pool. rewrite Ep. cbv zeta. cbn [fold_left]. eapply (cf_set _ _ pl); eauto. intros Hx.
      cbn [see_config]. rewrite Hx. unfold cfg, apply_update. cbn. by destruct (ua_endkey a).
    - one_of Hm. unfold msg_enable_pool in Em. destruct (negb _); [done|]. destruct (ps_pools (c_pools c) !! p) as [pl|] eqn:Ep; [|done]. destruct (pl_disabled pl); [|done]. injection Em as <-.
      intros v Hv q. cbn [fold_left]. eapply (cf_set _ _ pl); eauto. intros Hx. cbn [see_config]. by rewrite Hx.
    - unfold chain_disable_pool in Hm. destruct (disable_record _ _ _) as [ps|] eqn:Ed; [|done]. cbv zeta in Hm.
      pose proof (b_leave_all (cw_pools c ps) (members (cw_pools c ps) p) p) as Hb. set (c2 := fold_left _ _ _) in *.
      assert (Hc : bpart c' = bpart c2).
      { revert Hm. clearbody c2. clear. destruct (two64 <=? _); [done|]. destruct (0 <? _); [|by intros [= <-]]. destruct (i64 _ <? 0); [done|]. destruct (send _ _ _ _); [|done]. by intros [= <-]. }
      rewrite Hb in Hc. apply bpart_eq in Hc as (H1 & _). change (c_pools (cw_pools c ps)) with ps in H1.
      unfold disable_record in Ed. destruct (negb _); [done|]. destruct (ps_pools (c_pools c) !! p) as [pl|] eqn:Ep; [|done]. destruct (pl_disabled pl); [done|]. injection Ed as <-.
      intros v Hv q. unfold ev_disable_pool. rewrite fold_left_app, (quiet_all _ (flat_map _ _)) by (clear; induction (members c p); cbn; [constructor|by constructor]).
      cbn [fold_left]. unfold config_of, get_pool. rewrite H1. eapply (cf_set _ _ pl); eauto. intros Hx. cbn [see_config]. by rewrite Hx.
    - one_of Hm. apply E_quiet; [shape|]. apply cf_same. by eapply sc_schedule.
    - one_of Hm. apply E_quiet; [shape|]. apply cf_same. by eapply sc_cancel.
    - injection Hm as <-. apply E_quiet; [shape|]. apply cf_same, cf_begin.
    - injection Hm as <-. eapply (l_end g Hg see_config configs same_cf); eauto using cf_same, cf_slash, cf_leave, cf_incr, cf_reset; done.
    - injection Hm as <-. still.
  Qed.
  Lemma follow_configs ops : cops_ok (gstart g) ops -> forall p, fold_left see_config (elog (gstart g) ops) (fun _ => None) p = config_of (crun (gstart g) ops) p.
  Proof. intros Hok. apply (follow_run g Hg see_config configs); [|exact cf_step|done]. done. Qed.
End pools.

(** ** Accounts of the team *)
Record account := mkAcc { ac_total : Z; ac_start : Z; ac_clawback : Z; ac_claimed : Z; ac_rewards : Z }.
Record tview := mkTV { tv_accounts : nat -> option account; tv_authority : Z }.
Definition at_acc (f : nat -> option account) (i : nat) (x : account) : nat -> option account := fun j => if Nat.eqb j i then Some x else f j.
Definition see_team (v : tview) (e : event) : tview :=
  match e with
  | EvTeamCreate _ i total start => mkTV (at_acc (tv_accounts v) i (mkAcc total start 0 0 0)) (tv_authority v)
  | EvTeamClaim _ i a _ =>
      match tv_accounts v i with
      | Some x => mkTV (at_acc (tv_accounts v) i (mkAcc (ac_total x) (ac_start x) (ac_clawback x) ((ac_claimed x + a) mod 2 ^ 64) (ac_rewards x))) (tv_authority v) | None => v end
  | EvTeamClawback _ i t _ =>
      match tv_accounts v i with
      | Some x => mkTV (at_acc (tv_accounts v) i (mkAcc (ac_total x) (ac_start x) t (ac_claimed x) (ac_rewards x))) (tv_authority v) | None => v end
  | EvTeamRewards _ i a _ =>
      match tv_accounts v i with
      | Some x => mkTV (at_acc (tv_accounts v) i (mkAcc (ac_total x) (ac_start x) (ac_clawback x) (ac_claimed x) ((ac_rewards x + a) mod 2 ^ 64))) (tv_authority v) | None => v end
  | EvTeamAuthority _ a _ => mkTV (tv_accounts v) ((tv_authority v + a) mod 2 ^ 64)
  | _ => v
  end.
Definition tview0 : tview := mkTV (fun _ => None) 0.
Definition acc (a : vacc) : account := mkAcc (va_total a) (va_start a) (va_clawback a) (va_claimed a) (va_rclaimed a).
Definition account_of (c : chain) (i : nat) : option account := match ts_accounts (c_t c) !! i with Some a => Some (acc a) | None => None end.
Definition authority_of (c : chain) : Z := ts_aclaimed (c_t c).

Lemma distribute_acc l t r l' s : distribute l t r = Some (l', s) -> acc <$> l' = acc <$> l.
Proof.
  revert l' s. induction l as [|a l IH]; intros l' s; cbn [distribute]; [by intros [= <- <-]|]. destruct (account_reward a t r); [|done].
  destruct (distribute l t r) as [[l1 s1]|]; [|done]. intros [= <- <-]. rewrite !fmap_cons. f_equal. by eapply IH.
Qed.
Lemma team_begin_acc st pr su : acc <$> ts_accounts (team_begin st pr su) = acc <$> ts_accounts st /\ ts_aclaimed (team_begin st pr su) = ts_aclaimed st.
Proof.
  unfold team_begin. destruct (block_provision _ _ _) as [[h r]|]; [|done]. destruct (distribute _ _ _) as [[l s]|] eqn:Ed; [|done]. apply distribute_acc in Ed. cbv zeta. by destruct (transfer _ _ _ _).
Qed.
Section team.
  Context (g : gen) (Hg : genesis g).
  Definition teams (c : chain) (v : tview) : Prop := (forall i, tv_accounts v i = account_of c i) /\ tv_authority v = authority_of c.
  Local Notation E := (E see_team teams).
  Definition same_t (c c' : chain) : Prop := acc <$> ts_accounts (c_t c') = acc <$> ts_accounts (c_t c) /\ ts_aclaimed (c_t c') = ts_aclaimed (c_t c).
  Lemma tm_same c c' : same_t c c' -> E c [] c'.
  Proof.
    intros [H1 H2] v [V1 V2]. cbn [fold_left]. split; [|unfold authority_of; by rewrite H2]. intros i. rewrite V1. unfold account_of. apply (f_equal (fun l => l !! i)) in H1. rewrite !list_lookup_fmap in H1.
    destruct (ts_accounts (c_t c') !! i), (ts_accounts (c_t c) !! i); cbn in H1; congruence.
  Qed.
  Lemma tm_leave c p s : E c [EvLeave p s] (s_out c (leave_pool (s_in c) s p)).
  Proof. apply E_quiet; [by repeat constructor|]. by apply tm_same. Qed.
  Lemma tm_incr c p s : E c [EvPoint p s (snd (increment_points (s_in c) p s))] (s_out c (fst (increment_points (s_in c) p s))).
  Proof. apply E_quiet; [by repeat constructor|]. by apply tm_same. Qed.
  Lemma tm_reset c p s : E c (ev_reset c p s) (reset_pts c p s).
  Proof. apply E_quiet; [unfold ev_reset; destruct (0 <? _); by repeat constructor|]. by apply tm_same. Qed.
  Lemma tm_slash c p s t : E c (ev_slash (d_in c) p s t) (d_out c (fst (slash_delegators (d_in c) s t))).
  Proof. apply E_quiet; [by apply sh_slash|]. by apply tm_same. Qed.
  Lemma tm_infl c p c' x : charge_inflation c p = Some (c', x) -> same_t c c'.
  Proof. intros H. unfold charge_inflation in H. destruct (inflation_payout _ _); [|done]. destruct (_ <? 0); [done|]. by destruct (send _ _ _ _); injection H as <- _. Qed.
  Lemma tm_pay c u r : match pay_out c u r with inl c' | inr c' => same_t c c' end.
  Proof. unfold pay_out. destruct (send _ _ _ _) as [bk|]; [|done]. destruct (increase_commission_rewards _ _ _ _) as [st|]; [|done]. by destruct (payout_rewards _ _ _ _) as [d|]. Qed.
  Lemma tm_final c p v : same_t c (finalize c p v).
  Proof. unfold finalize. by destruct (get_pool c p). Qed.
  Lemma tm_begin c t pr : same_t c (begin_block c t pr).
  Proof.
    unfold begin_block. set (c0 := cw_time _ _ _). set (c1 := t_out c0 _). set (c2 := match split_inflation c1 pr with Some x => x | None => cw_halt c1 end).
    assert (H2 : c_t c2 = c_t c1). { unfold c2. destruct (split_inflation c1 pr) eqn:Es; [by apply SplitClaims.split_t in Es|done]. }
    cbv zeta. unfold same_t. change (c_t (s_out (d_out c2 ?x) ?y)) with (c_t c2). rewrite H2. exact (team_begin_acc (twith_time (t_in c0) t) pr (supply (c_bank c0))).
  Qed.
  Lemma tm_disable c sender p c' : chain_disable_pool c sender p = Some c' -> same_t c c'.
  Proof.
    unfold chain_disable_pool. destruct (disable_record _ _ _) as [ps|]; [|done]. cbv zeta.
    set (c1 := cw_pools c ps). set (c2 := fold_left _ _ _).
    assert (H2 : c_t c2 = c_t c).
    { unfold c2. change (c_t c) with (c_t c1). generalize (members c1 p). intros l. clearbody c1. clear. revert c1.
      induction l as [|s l IH]; intros c1; cbn [fold_left]; [done|]. by rewrite IH. }
    intros H. unfold same_t. rewrite <- H2. revert H. clearbody c2. clear.
    destruct (two64 <=? _); [done|]. destruct (0 <? _); [|by intros [= <-]]. destruct (i64 _ <? 0); [done|]. destruct (send _ _ _ _); [|done]. by intros [= <-].
  Qed.
  Lemma at_acc_insert c c' v i x y z : (forall i, tv_accounts v i = account_of c i) -> ts_accounts (c_t c) !! i = Some x ->
    ts_accounts (c_t c') = <[i := y]> (ts_accounts (c_t c)) -> z = acc y -> forall j, at_acc (tv_accounts v) i z j = account_of c' j.
  Proof.
    intros V1 Hi Hl -> j. unfold account_of. rewrite Hl. unfold at_acc. destruct (Nat.eqb_spec j i) as [->|Hn].
    - rewrite list_lookup_insert; [done|]. by eapply lookup_lt_Some.
    - rewrite list_lookup_insert_ne by congruence. apply V1.
  Qed.
  Lemma tm_msg c o st' : match o with
      | TCreate s total start => msg_create (t_in c) s total start | TClaim s id a r => msg_claim_unlocked (t_in c) s id a r
      | TClawback s id t => msg_clawback (t_in c) s id t | TClaimRewards s id a r => msg_claim_rewards (t_in c) s id a r
      | TClaimAuthority s a r => msg_claim_authority (t_in c) s a r | _ => None end = Some st' -> E c (ev_team (t_in c) o) (t_out c st').
  Proof.
    intros H v [V1 V2]. change (ts_accounts (t_in c)) with (ts_accounts (c_t c)) in *. destruct o; cbn [ev_team]; try done.
    - unfold msg_create in H. destruct (negb _); [done|]. destruct (_ || _); [done|]. destruct (_ <? _); [done|]. injection H as <-.
      cbn [fold_left see_team]. split; [|exact V2]. intros j. cbn [tv_accounts]. unfold at_acc, account_of. change (ts_accounts (c_t (t_out c (twith_accounts (t_in c) ?l)))) with l.
      change (ts_accounts (t_in c)) with (ts_accounts (c_t c)). destruct (Nat.eqb_spec j (length (ts_accounts (c_t c)))) as [->|Hn].
      + rewrite lookup_app_r by lia. by rewrite Nat.sub_diag.
      + rewrite V1. unfold account_of. destruct (decide (j < length (ts_accounts (c_t c)))%nat); [by rewrite lookup_app_l by done|].
        rewrite lookup_app_r by lia. rewrite (lookup_ge_None_2 (ts_accounts (c_t c))) by lia. destruct (j - _)%nat eqn:Ej; [lia|done].
    - unfold msg_claim_unlocked in H. destruct (negb _); [done|]. change (ts_accounts (t_in c)) with (ts_accounts (c_t c)) in H. destruct (ts_accounts (c_t c) !! id) as [x|] eqn:Ex; [|done].
      destruct (_ <? _); [done|]. destruct (transfer _ _ _ _); [|done]. injection H as <-. cbn [fold_left see_team]. rewrite V1. unfold account_of at 1. rewrite Ex.
      split; [|exact V2]. cbn [tv_accounts]. by eapply (at_acc_insert c _ v id x _ _ V1 Ex).
    - unfold msg_clawback in H. destruct (negb _); [done|]. change (ts_accounts (t_in c)) with (ts_accounts (c_t c)) in H. destruct (ts_accounts (c_t c) !! id) as [x|] eqn:Ex; [|done].
      destruct (_ && _); [done|]. destruct (_ && _); [done|]. injection H as <-. change (ts_accounts (t_in c)) with (ts_accounts (c_t c)). rewrite Ex. cbv zeta. cbn [fold_left see_team]. rewrite V1. unfold account_of at 1. rewrite Ex.
      split; [|exact V2]. cbn [tv_accounts]. by eapply (at_acc_insert c _ v id x _ _ V1 Ex).
    - unfold msg_claim_rewards in H. destruct (negb _); [done|]. change (ts_accounts (t_in c)) with (ts_accounts (c_t c)) in H. destruct (ts_accounts (c_t c) !! id) as [x|] eqn:Ex; [|done].
      destruct (_ <? _); [done|]. destruct (transfer _ _ _ _); [|done]. injection H as <-. cbn [fold_left see_team]. rewrite V1. unfold account_of at 1. rewrite Ex.
      split; [|exact V2]. cbn [tv_accounts]. by eapply (at_acc_insert c _ v id x _ _ V1 Ex).
    - unfold msg_claim_authority in H. destruct (negb _); [done|]. destruct (_ <? _); [done|]. destruct (transfer _ _ _ _); [|done]. injection H as <-. cbn [fold_left see_team].
      split; [exact V1|]. cbn [tv_authority]. rewrite V2. done.
  Qed.
  Local Ltac still := apply E_quiet; [shape|by apply tm_same].
  Lemma tm_step c o c' : R g c -> cop_ok c o -> cmsg c o = Some c' -> E c (emitted c o) c'.
  Proof.
    intros HR Hok Hm.
    assert (Lp : forall c p b, same_t c (set_prop c p b)) by done.
    assert (Lr : forall c x, same_t c (cw_rr c x)) by done. assert (Lh : forall c, same_t c (cw_halt c)) by done.
    assert (Lb : forall c b, same_t c (cw_bank c b)) by done. assert (Lf : forall c f, same_t c (f_out c f)) by done.
    assert (Lu : forall c, same_t c (cw_pools c (handle_upgrades (c_pools c) (c_time c)))) by done.
    assert (Hval : forall c p c' v fp x r y n t, R g c -> is_Some (get_pool c p) -> tally c (get_prop c p) p = TrValid c' v fp x r ->
      E c (ev_tally c (get_prop c p) p ++ ev_finalize (cw_rr c' y) p v fp x r n) (set_prop (finalize (cw_rr c' y) p v) p (bp_none n t))).
    { intros. eapply (l_valid see_team teams same_t); eauto using tm_same, tm_slash, tm_leave, tm_incr, tm_infl, tm_final; first [exact tm_pay|done]. }
    destruct o; cbn [cmsg emitted] in *; try (one_of Hm; still); try (param Hm; still).
    - unfold chain_create_staker in Hm. destruct (msg_delegate _ _ _ _ _); [|done]. destruct (msg_create_staker _ _ _ _) as [st|] eqn:Es; [|done]. injection Hm as <-. still.
    - one_of Hm. by apply tm_msg.
    - eapply (l_submit g see_team teams same_t); eauto using tm_same, tm_slash, tm_leave, tm_incr, tm_reset; done.
    - eapply (l_vote see_team teams same_t); eauto using tm_same, tm_reset; done.
    - eapply (l_skip g see_team teams same_t); eauto using tm_same, tm_slash, tm_leave, tm_incr, tm_reset; done.
    - eapply (l_claim_role see_team teams same_t); eauto using tm_same; done.
    - unfold chain_create_pool in Hm. destruct (msg_create_pool _ _ _ _ _) as [ps|] eqn:Ep; [|done]. injection Hm as <-. still.
    - apply E_quiet; [shape|]. apply tm_same. by eapply tm_disable.
    - injection Hm as <-. apply E_quiet; [shape|]. apply tm_same, tm_begin.
    - injection Hm as <-. eapply (l_end g Hg see_team teams same_t); eauto using tm_same, tm_slash, tm_leave, tm_incr, tm_reset; done.
    - injection Hm as <-. still.
  Qed.
  Lemma follow_team ops : cops_ok (gstart g) ops -> let v := fold_left see_team (elog (gstart g) ops) tview0 in let c := crun (gstart g) ops in
    (forall i, tv_accounts v i = account_of c i) /\ tv_authority v = authority_of c.
  Proof. intros Hok. apply (follow_run g Hg see_team teams); [|exact tm_step|done]. split; done. Qed.
End team.
