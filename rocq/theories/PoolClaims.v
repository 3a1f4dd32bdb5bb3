(** * Pools: who may do what, runtime upgrades, disabling (C27, C28, C39, C40). *)
From Verif Require Import Base BaseFacts Delegation Stakers StakersInv Funders Team RoundRobin Pool Bundles Chain ChainFrame ArchiveInv
  BankMoves ChainLift PoolFrame PoolInv PayoutClaims.

(** ** Reachable states *)
Lemma reach_A g ops : cops_ok (gstart g) ops -> AInv (crun (gstart g) ops).
Proof. intros H. apply AInv_run; [apply AInv_init|done]. Qed.
Lemma reach_B g ops : genesis g -> cops_ok (gstart g) ops -> BInv (crun (gstart g) ops).
Proof.
  intros Hg H. apply BInv_run; [apply AInv_init|apply BInv_init|done]. destruct Hg as (_ & _ & Ht & _). done.
Qed.

(** ** C28 *)
Definition runs (s : pstatus) : Prop := s = StActive \/ s = StNoFunds.
Lemma status_run c p pl : get_pool c p = Some pl -> runs (pool_status c p pl) <-> can_run c p = true.
Proof.
  intros E. unfold runs, pool_status, can_run, pool_error. rewrite E.
  destruct (_ && _); [split; [by intros []|done]|]. destruct (pl_disabled pl); [split; [by intros []|done]|].
  destruct (_ && _); [split; [by intros []|done]|]. destruct (_ <? _); [split; [by intros []|done]|].
  destruct (_ <? _); [split; [by intros []|done]|]. destruct (cempty _); split; auto.
Qed.
Lemma status_none c p : can_run c p = false ->
  (forall m, sb_pool m = p -> cmsg c (CSubmit m) = None) /\ (forall s v st w, cmsg c (CVote p s v st w) = None) /\
  (forall s v from, cmsg c (CSkip p s v from) = None) /\ (forall s v, cmsg c (CClaimRole p s v) = None).
Proof.
  intros H. repeat split.
  - intros m <-. cbn [cmsg]. unfold msg_submit, can_propose. rewrite H. by destruct (get_pool c (sb_pool m)).
  - intros. cbn [cmsg]. unfold msg_vote, can_vote. by rewrite H.
  - intros. cbn [cmsg]. unfold msg_skip, can_propose. rewrite H. by destruct (get_pool c p).
  - intros. cbn [cmsg]. unfold msg_claim_role. by rewrite H.
Qed.
Definition signs (c : chain) (p s v : N) : Prop := exists x, get_val (c_s c) p s = Some x /\ vl_addr x = v.
Lemma signs_auth c p s v : authorized (c_s c) p s v = true <-> signs c p s v.
Proof.
  unfold authorized, signs. destruct (get_val (c_s c) p s) as [x|]; [|split; [done|by intros (? & ? & _)]].
  rewrite N.eqb_eq. split; [eauto|]. intros (y & [= <-] & H). done.
Qed.
Lemma vote_accepted c p s v w : can_run c p = true -> signs c p s v -> bp_storage (get_prop c p) <> 0%N ->
  s ∉ bp_valid (get_prop c p) -> s ∉ bp_invalid (get_prop c p) ->
  w = Valid \/ w = Invalid \/ (w = Abstain /\ s ∉ bp_abstain (get_prop c p)) ->
  is_Some (cmsg c (CVote p s v (bp_storage (get_prop c p)) w)).
Proof.
  intros H1 H2 H3 H4 H5 Hw. cbn [cmsg]. unfold msg_vote, can_vote. rewrite H1. apply signs_auth in H2. rewrite H2.
  apply N.eqb_neq in H3. rewrite H3, N.eqb_refl. apply memb_false in H4, H5. rewrite H4, H5. simpl.
  destruct Hw as [->|[->|[-> Ha]]]; [by eexists..|]. apply memb_false in Ha. rewrite Ha. by eexists.
Qed.
Lemma claim_accepted c p s v : can_run c p = true -> signs c p s v ->
  is_Some (cmsg c (CClaimRole p s v)) <-> bp_next (get_prop c p) = 0%N.
Proof.
  intros H1 H2. cbn [cmsg]. unfold msg_claim_role. rewrite H1. apply signs_auth in H2. rewrite H2. simpl.
  destruct (_ =? 0)%N eqn:E; simpl.
  - apply N.eqb_eq in E. split; [done|by eexists].
  - apply N.eqb_neq in E. split; [by intros []|done].
Qed.
Lemma claim_status c p pl : get_pool c p = Some pl ->
  (~ runs (pool_status c p pl) ->
     (forall m, sb_pool m = p -> cmsg c (CSubmit m) = None) /\ (forall s v st w, cmsg c (CVote p s v st w) = None) /\
     (forall s v from, cmsg c (CSkip p s v from) = None) /\ (forall s v, cmsg c (CClaimRole p s v) = None)) /\
  (runs (pool_status c p pl) -> forall s v, signs c p s v ->
     (forall w, bp_storage (get_prop c p) <> 0%N -> s ∉ bp_valid (get_prop c p) -> s ∉ bp_invalid (get_prop c p) ->
        w = Valid \/ w = Invalid \/ (w = Abstain /\ s ∉ bp_abstain (get_prop c p)) ->
        is_Some (cmsg c (CVote p s v (bp_storage (get_prop c p)) w))) /\
     (is_Some (cmsg c (CClaimRole p s v)) <-> bp_next (get_prop c p) = 0%N)) /\
  (runs (pool_status c p pl) -> (pool_status c p pl = StNoFunds <-> total_active_funding (c_f c) p = ∅)).
Proof.
  intros E. split; [|split].
  - intros H. apply status_none. destruct (can_run c p) eqn:Er; [|done]. exfalso. apply H. by apply status_run.
  - intros H s v Hs. apply status_run in H; [|done]. split; [|by apply claim_accepted]. intros. by apply vote_accepted.
  - unfold runs, pool_status. 
    destruct (_ && _); [by intros []|]. destruct (pl_disabled pl); [by intros []|].
    destruct (_ && _); [by intros []|]. destruct (_ <? _); [by intros []|].
    destruct (_ <? _); [by intros []|]. intros _.
    destruct (cempty _) eqn:Ec; [by apply cempty_spec in Ec|].
    split; [done|]. intros H. apply (cempty_spec (total_active_funding (c_f c) p)) in H. congruence.
Qed.

(** ** C27 *)
(** Everything a submission or a skip must satisfy. *)
Definition next_up (c : chain) (p s v : N) (from : Z) (pl : pool) : Prop :=
  get_pool c p = Some pl /\ runs (pool_status c p pl) /\ signs c p s v /\ bp_next (get_prop c p) = s /\
  bp_updated (get_prop c p) + pl_interval pl <= c_time c /\ from = pl_index pl + bp_size (get_prop c p).
Lemma propose_spec c p s v from : AInv c -> BInv c ->
  can_propose c p s v from = true <-> exists pl, next_up c p s v from pl.
Proof.
  intros HA HB. unfold can_propose, next_up. destruct (get_pool c p) as [pl|] eqn:E; [|split; [done|by intros (? & ? & _)]].
  destruct (get_prop_room _ _ _ HA E) as [H0 H1].
  assert (Hb0 : 0 <= bp_size (get_prop c p)) by (destruct (get_prop_ok c p HA) as [(_ & Hz & _)|(_ & Hz & _)]; lia).
  destruct (bi_pool _ HB _ _ E) as (Hi & _). pose proof (bi_upd _ HB p) as Hu. pose proof (bi_time _ HB) as Ht.
  rewrite (u64_add_id (bp_updated _)) by (unfold two62, two64 in *; lia). rewrite (u64_add_id (pl_index pl)) by lia.
  rewrite !andb_true_iff, N.eqb_eq, Z.leb_le, Z.eqb_eq, signs_auth, <- (status_run c p pl E). split.
  - intros ((((?&?)&?)&?)&?). exists pl. done.
  - intros (x & [= <-] & ?). intuition.
Qed.
Definition args_ok (pl : pool) (m : submit) : Prop :=
  sb_storage m <> 0%N /\ sb_size m <> 0 /\ sb_size m <= pl_maxsize pl /\ sb_fromkey m <> 0%N /\ sb_tokey m <> 0%N.
Lemma submit_needs c m : AInv c -> BInv c -> is_Some (cmsg c (CSubmit m)) ->
  exists pl, next_up c (sb_pool m) (sb_staker m) (sb_creator m) (sb_from m) pl /\ args_ok pl m.
Proof.
  intros HA HB [c' H]. cbn [cmsg] in H. unfold msg_submit in H. destruct (can_propose _ _ _ _ _) eqn:Ec; simpl in H; [|done].
  destruct (submit_valid c m) eqn:Ev; simpl in H; [|done]. apply propose_spec in Ec as (pl & Hn); [|done..]. exists pl. split; [done|].
  unfold submit_valid in Ev. destruct Hn as (E & _). rewrite E in Ev. rewrite !andb_true_iff, !negb_true_iff in Ev.
  destruct Ev as [[[[[Hs _] Hz] Hm] Hf] Ht]. unfold args_ok.
  repeat split; try (by apply N.eqb_neq); [by apply Z.eqb_neq|lia].
Qed.
Lemma submit_first c m pl : AInv c -> BInv c -> next_up c (sb_pool m) (sb_staker m) (sb_creator m) (sb_from m) pl -> args_ok pl m ->
  bp_storage (get_prop c (sb_pool m)) = 0%N -> is_Some (cmsg c (CSubmit m)).
Proof.
  intros HA HB Hn (A1 & A2 & A3 & A4 & A5) H0. cbn [cmsg]. unfold msg_submit. rewrite (proj2 (propose_spec _ _ _ _ _ HA HB)) by eauto. simpl.
  destruct Hn as (E & _ & _ & _ & _ & Hf). destruct (get_prop_room _ _ _ HA E) as [R0 R1].
  assert (Hb0 : 0 <= bp_size (get_prop c (sb_pool m))) by (destruct (get_prop_ok c (sb_pool m) HA) as [(_ & Hz & _)|(_ & Hz & _)]; lia).
  assert (Hv : submit_valid c m = true).
  { unfold submit_valid. rewrite E. rewrite u64_add_id by lia. rewrite <- Hf, Z.eqb_refl.
    apply N.eqb_neq in A1, A4, A5. apply Z.eqb_neq in A2. apply Z.leb_le in A3. by rewrite A1, A2, A3, A4, A5. }
  rewrite Hv. simpl. rewrite (proj2 (N.eqb_eq _ _) H0).
  destruct (choose _ _ _) as [n c2]. by eexists.
Qed.
Lemma skip_needs c p s v from : AInv c -> BInv c -> is_Some (cmsg c (CSkip p s v from)) -> exists pl, next_up c p s v from pl.
Proof.
  intros HA HB [c' H]. cbn [cmsg] in H. unfold msg_skip in H. destruct (can_propose _ _ _ _ _) eqn:Ec; simpl in H; [|done].
  by apply propose_spec in Ec.
Qed.

(** ** C39 *)
Definition ver (p : pool) : N * N := (pl_version p, pl_binaries p).
Definition due (p : pool) (now : Z) : Prop := 0 < pn_at (pl_plan p) <= now.
Definition keeps_version (p p' : pool) : Prop := ver p' = ver p /\ pl_plan p' = pl_plan p.
(** What a message or block does to the version and the scheduled upgrade of a pool. *)
Definition upgrade_effect (c : chain) (o : cop) (p p' : pool) : Prop :=
  match o with
  | CSchedule sender runtime version binaries at_ duration =>
      ver p' = ver p /\
      (sender = AUTHORITY /\ version <> 0%N /\ binaries <> 0%N /\ pl_runtime p = runtime /\ pn_at (pl_plan p) = 0 ->
         pl_plan p' = mkPlan version binaries (Z.max at_ (c_time c)) duration) /\
      (~ (sender = AUTHORITY /\ version <> 0%N /\ binaries <> 0%N /\ pl_runtime p = runtime /\ pn_at (pl_plan p) = 0) ->
         pl_plan p' = pl_plan p)
  | CCancel sender runtime =>
      ver p' = ver p /\
      (sender = AUTHORITY /\ pl_runtime p = runtime -> pn_at (pl_plan p') = 0) /\
      (~ (sender = AUTHORITY /\ pl_runtime p = runtime) -> pl_plan p' = pl_plan p)
  | CEnd =>
      (due p (c_time c) -> ver p' = (pn_version (pl_plan p), pn_binaries (pl_plan p)) /\
         (pn_at (pl_plan p) + pn_duration (pl_plan p) < two64 ->
            (pn_at (pl_plan p) + pn_duration (pl_plan p) <= c_time c -> pn_at (pl_plan p') = 0) /\
            (c_time c < pn_at (pl_plan p) + pn_duration (pl_plan p) -> pl_plan p' = pl_plan p))) /\
      (~ due p (c_time c) -> keeps_version p p')
  | _ => keeps_version p p'
  end.
Lemma admin_keeps p p' : admin p' = admin p -> keeps_version p p'.
Proof. unfold admin, keeps_version, ver. intros H. injection H. intros. split; congruence. Qed.
Lemma keeps_refl p : keeps_version p p. Proof. done. Qed.
Lemma disable_pools c sender p c' : chain_disable_pool c sender p = Some c' ->
  sender = AUTHORITY /\ exists x, get_pool c p = Some x /\ pl_disabled x = false /\ c_pools c' = set_pool (c_pools c) p (with_disabled x true).
Proof.
  unfold chain_disable_pool. destruct (disable_record _ _ _) as [ps|] eqn:Em; [|done]. intros E.
  set (c1 := cw_pools c ps) in E. pose proof (b_leave_all c1 (members c1 p) p) as Hb. set (c2 := fold_left _ _ _) in *. clearbody c2.
  assert (H2 : c_pools c2 = ps) by (apply bpart_eq in Hb as [-> _]; done).
  assert (H' : c_pools c' = ps).
  { destruct (two64 <=? _); [done|]. destruct (0 <? _); [|by injection E as <-]. destruct (i64 _ <? 0); [done|].
    destruct (send _ _ _ _); [|done]. by injection E as <-. }
  unfold disable_record in Em. destruct (_ =? _)%N eqn:Es; simpl in Em; [|done]. apply N.eqb_eq in Es. split; [done|].
  unfold get_pool. destruct (ps_pools (c_pools c) !! p) as [x|]; [|done]. destruct (pl_disabled x) eqn:Ed; [done|].
  exists x. split; [done|]. split; [done|]. congruence.
Qed.
Lemma get_set s p x q : ps_pools (set_pool s p x) !! q = if decide (q = p) then Some x else ps_pools s !! q.
Proof. cbn. destruct (decide (q = p)) as [->|]; [by rewrite lookup_insert|by rewrite lookup_insert_ne]. Qed.
Lemma upgrade_step c o p pl : AInv c -> BInv c -> cop_ok c o -> get_pool c p = Some pl ->
  exists pl', get_pool (cstep c o) p = Some pl' /\ upgrade_effect c o pl pl'.
Proof.
  intros HA HB Hok Hg. destruct (pool_admin o) eqn:Ho.
  2: { destruct (akeep_get _ _ _ _ (akeep_step c o Ho) Hg) as (pl' & Hg' & Ha). exists pl'. split; [done|].
       apply admin_keeps in Ha. by destruct o. }
  destruct o; try done; unfold cstep; cbn [cmsg].
  - unfold chain_create_pool. destruct (msg_create_pool _ _ _ _ _) as [ps|] eqn:Em; [|exists pl; cbn; split; [done|apply keeps_refl]].
    unfold msg_create_pool in Em. destruct (create_basic a) eqn:Ea; simpl in Em; [|done]. destruct (_ =? _)%N; simpl in Em; [|done].
    destruct json; simpl in Em; [|done]. injection Em as <-. exists pl. split; [|apply keeps_refl]. unfold get_pool. cbn.
    rewrite lookup_insert_ne; [done|]. intros <-. assert (ps_count (c_pools c) < ps_count (c_pools c))%N; [|lia]. apply (ai_pools _ HA). by rewrite Hg.
  - unfold msg_update_pool. destruct (update_basic a); cbn; [|exists pl; split; [done|apply keeps_refl]]. destruct (_ =? _)%N; cbn; [|exists pl; split; [done|apply keeps_refl]].
    destruct (ps_pools (c_pools c) !! p0) as [x|] eqn:Ex; cbn; [|exists pl; split; [done|apply keeps_refl]].
    unfold get_pool. cbn [c_pools cw_pools]. rewrite get_set. destruct (decide (p = p0)) as [->|Hne]; [|exists pl; split; [done|apply keeps_refl]].
    unfold get_pool in Hg. rewrite Hg in Ex. injection Ex as <-. eexists. split; [done|]. done.
  - unfold msg_enable_pool. destruct (_ =? _)%N; cbn; [|exists pl; split; [done|apply keeps_refl]].
    destruct (ps_pools (c_pools c) !! p0) as [x|] eqn:Ex; cbn; [|exists pl; split; [done|apply keeps_refl]].
    destruct (pl_disabled x); cbn; [|exists pl; split; [done|apply keeps_refl]].
    unfold get_pool. cbn [c_pools cw_pools]. rewrite get_set. destruct (decide (p = p0)) as [->|Hne]; [|exists pl; split; [done|apply keeps_refl]].
    unfold get_pool in Hg. rewrite Hg in Ex. injection Ex as <-. eexists. split; [done|]. done.
  - destruct (chain_disable_pool c sender p0) as [c'|] eqn:E; [|exists pl; split; [done|apply keeps_refl]]. cbn [default from_option id].
    apply disable_pools in E as (_ & x & Ex & _ & E). unfold get_pool. rewrite E, get_set.
    destruct (decide (p = p0)) as [->|Hne]; [|exists pl; split; [done|apply keeps_refl]].
    rewrite Hg in Ex. injection Ex as <-. eexists. split; [done|]. done.
  - unfold msg_schedule. destruct (sender =? AUTHORITY)%N eqn:Es; cbn.
    2: { apply N.eqb_neq in Es. exists pl. split; [done|]. repeat split; tauto. }
    apply N.eqb_eq in Es. destruct ((version =? 0)%N || (binaries =? 0)%N) eqn:Ev; cbn.
    { apply orb_true_iff in Ev. rewrite !N.eqb_eq in Ev. exists pl. split; [done|]. repeat split; tauto. }
    apply orb_false_iff in Ev as [Ev1 Ev2]. apply N.eqb_neq in Ev1, Ev2.
    unfold get_pool in *. cbn. rewrite lookup_fmap, Hg. cbn. eexists. split; [done|]. unfold schedule_one.
    destruct (pl_runtime pl =? runtime)%N eqn:Er; cbn.
    2: { apply N.eqb_neq in Er. repeat split; tauto. }
    apply N.eqb_eq in Er. destruct (pn_at (pl_plan pl) =? 0) eqn:E0; cbn.
    2: { apply Z.eqb_neq in E0. repeat split; tauto. }
    apply Z.eqb_eq in E0. split; [done|]. split; [|tauto]. intros _. f_equal. destruct (_ <? _) eqn:El; lia.
  - unfold msg_cancel. destruct (sender =? AUTHORITY)%N eqn:Es; cbn.
    2: { apply N.eqb_neq in Es. exists pl. split; [done|]. repeat split; tauto. }
    apply N.eqb_eq in Es. unfold get_pool in *. cbn. rewrite lookup_fmap, Hg. cbn. eexists. split; [done|]. unfold cancel_one.
    destruct (pl_runtime pl =? runtime)%N eqn:Er; cbn.
    2: { apply N.eqb_neq in Er. repeat split; tauto. }
    apply N.eqb_eq in Er. destruct (pn_at (pl_plan pl) =? 0) eqn:E0; cbn.
    + apply Z.eqb_eq in E0. repeat split; tauto.
    + repeat split; tauto.
  - assert (Hx : get_pool (cw_pools c (handle_upgrades (c_pools c) (c_time c))) p = Some (upgrade_one (c_time c) pl)).
    { unfold get_pool in *. cbn. by rewrite lookup_fmap, Hg. }
    destruct (akeep_get _ _ _ _ (akeep_end c) Hx) as (pl' & Hg' & Ha). exists pl'. split; [done|]. apply admin_keeps in Ha as [Hv Hp].
    destruct (bi_pool _ HB _ _ Hg) as (_ & _ & _ & _ & P1 & P2). unfold upgrade_one in Hv, Hp. cbn [upgrade_effect]. unfold due, keeps_version.
    destruct ((0 <? pn_at (pl_plan pl)) && (pn_at (pl_plan pl) <=? c_time c)) eqn:Ed.
    + apply andb_true_iff in Ed as [D1 D2]. split; [intros _|lia].
      set (p1 := if _ || _ then _ else _) in *.
      assert (Hp1 : ver p1 = (pn_version (pl_plan pl), pn_binaries (pl_plan pl)) /\ pl_plan p1 = pl_plan pl).
      { unfold p1, ver. destruct (negb (pl_version pl =? pn_version (pl_plan pl))%N) eqn:V1; [done|].
        destruct (negb (pl_binaries pl =? pn_binaries (pl_plan pl))%N) eqn:V2; [done|].
        apply negb_false_iff, N.eqb_eq in V1, V2. cbn. by rewrite V1, V2. }
      destruct Hp1 as [Hp1 Hp2]. clearbody p1. split; [rewrite Hv; destruct (u64_add _ _ <=? c_time c); exact Hp1|].
      intros Hlt. rewrite (u64_add_id (pn_at _)) in Hp by lia.
      rewrite Hp; destruct (pn_at (pl_plan pl) + _ <=? c_time c) eqn:El; [split; [done|lia]|split; [lia|intros _; exact Hp2]].
    + split; [|done]. rewrite andb_false_iff in Ed. lia.
Qed.
(** No block ends at or after [at_], and the upgrade is not cancelled. *)
Fixpoint quiet (c : chain) (p : N) (at_ : Z) (ops : list cop) : Prop :=
  match ops with
  | [] => True
  | o :: t =>
      match o with
      | CEnd => c_time c < at_
      | CCancel sender r => sender = AUTHORITY -> forall pl, get_pool c p = Some pl -> pl_runtime pl <> r
      | _ => True
      end /\ quiet (cstep c o) p at_ t
  end.
Lemma quiet_run c p pl ops : AInv c -> BInv c -> cops_ok c ops -> get_pool c p = Some pl -> pn_at (pl_plan pl) <> 0 ->
  quiet c p (pn_at (pl_plan pl)) ops -> exists pl', get_pool (crun c ops) p = Some pl' /\ keeps_version pl pl'.
Proof.
  revert c pl. induction ops as [|o ops IH]; intros c pl HA HB Hok Hg Hat Hq; [exists pl; split; [done|apply keeps_refl]|].
  destruct Hok as [Ho Hok], Hq as [Hq1 Hq]. destruct (upgrade_step c o p pl HA HB Ho Hg) as (pl1 & Hg1 & He).
  assert (Hk : keeps_version pl pl1).
  { destruct o; try exact He; cbn [upgrade_effect] in He.
    - destruct He as (E1 & _ & E2). split; [done|]. apply E2. tauto.
    - destruct He as (E1 & _ & E2). split; [done|]. apply E2. intros [-> Hr]. by apply (Hq1 eq_refl _ Hg).
    - destruct He as (_ & He). apply He. unfold due. lia. }
  destruct Hk as [K1 K2]. simpl.
  destruct (IH (cstep c o) pl1) as (pl' & Hg' & K3 & K4); try done.
  - by apply chain_step.
  - by apply BInv_step.
  - by rewrite K2.
  - by rewrite K2.
  - exists pl'. split; [done|]. split; congruence.
Qed.

(** ** C40 *)
Lemma count_step c o : AInv c -> ps_count (c_pools (cstep c o)) =
  match o with CCreatePool _ _ _ => if cmsg c o then ps_count (c_pools c) + 1 else ps_count (c_pools c) | _ => ps_count (c_pools c) end%N.
Proof.
  intros HA. destruct (pool_admin o) eqn:Ho; [|destruct (akeep_step c o Ho) as [-> _]; by destruct o].
  destruct o; try done; unfold cstep; cbn [cmsg].
  - unfold chain_create_pool. destruct (msg_create_pool _ _ _ _ _) as [ps|] eqn:Em; [|done].
    unfold msg_create_pool in Em. destruct (create_basic a) eqn:Ea; simpl in Em; [|done]. destruct (_ =? _)%N; simpl in Em; [|done].
    destruct json; simpl in Em; [|done]. by injection Em as <-.
  - unfold msg_update_pool. destruct (update_basic a); [|done]. destruct (_ =? _)%N; [|done]. by destruct (ps_pools (c_pools c) !! p).
  - unfold msg_enable_pool. destruct (_ =? _)%N; [|done]. destruct (ps_pools (c_pools c) !! p) as [x|]; [|done]. by destruct (pl_disabled x).
  - destruct (chain_disable_pool c sender p) as [c'|] eqn:E; [|done]. by apply disable_pools in E as (_ & x & _ & _ & E); cbn; rewrite E.
  - unfold msg_schedule. destruct (_ =? _)%N; [|done]. by destruct (_ || _).
  - unfold msg_cancel. by destruct (_ =? _)%N.
  - by destruct (akeep_end c) as [H _].
Qed.
Lemma create_effect c sender json a c' : cmsg c (CCreatePool sender json a) = Some c' ->
  get_pool c' (ps_count (c_pools c)) = Some (new_pool a (c_time c)) /\ sender = AUTHORITY.
Proof.
  cbn [cmsg]. unfold chain_create_pool. destruct (msg_create_pool _ _ _ _ _) as [ps|] eqn:Em; [|done]. intros [= <-].
  unfold msg_create_pool in Em. destruct (create_basic a) eqn:Ea; simpl in Em; [|done]. destruct (_ =? _)%N eqn:Es; simpl in Em; [|done].
  destruct json; simpl in Em; [|done]. injection Em as <-. split; [|by apply N.eqb_eq]. unfold get_pool. cbn. by rewrite lookup_insert.
Qed.
(** The messages only governance may send. *)
Definition admin_message (sender : N) (o : cop) : Prop :=
  match o with
  | CCreatePool s _ _ | CUpdatePool s _ _ | CEnablePool s _ | CDisablePool s _ | CSchedule s _ _ _ _ _ | CCancel s _
  | CParamsD s _ | CParamsS s _ _ | CParamsF s _ | CParamsP s _ | CParamsB s _ | CParamsG s _ => s = sender
  | _ => False
  end.
Lemma authority_only c o sender : admin_message sender o -> sender <> AUTHORITY -> cmsg c o = None.
Proof.
  intros Ho Hs. apply N.eqb_neq in Hs.
  destruct o; simpl in Ho; try done; subst; cbn [cmsg];
    unfold chain_create_pool, msg_create_pool, msg_update_pool, msg_enable_pool, chain_disable_pool, disable_record, msg_schedule, msg_cancel;
    rewrite ?Hs; try done.
  - by destruct (create_basic a).
  - by destruct (update_basic a).
Qed.
(** What is left after the blocks have run the scheduled upgrades. *)
Definition settings (p : pool) := (pl_runtime p, pl_endkey p, pl_interval p, pl_weight p, pl_mindel p, pl_maxsize p, pl_disabled p, (pl_sp p, pl_comp p)).
Lemma settings_keep c o p pl pl' : (forall s, ~ admin_message s o) -> get_pool c p = Some pl -> get_pool (cstep c o) p = Some pl' ->
  settings pl' = settings pl.
Proof.
  intros Ho E E'. destruct (pool_admin o) eqn:Hp.
  - destruct o; try done; try (exfalso; eapply Ho; simpl; done). unfold cstep in E'. cbn [cmsg default from_option id] in E'.
    assert (Hx : get_pool (cw_pools c (handle_upgrades (c_pools c) (c_time c))) p = Some (upgrade_one (c_time c) pl)).
    { unfold get_pool in *. cbn. by rewrite lookup_fmap, E. }
    destruct (akeep_get _ _ _ _ (akeep_end c) Hx) as (x & Hg' & Ha). rewrite E' in Hg'. injection Hg' as <-.
    transitivity (settings (upgrade_one (c_time c) pl)); [unfold admin in Ha; unfold settings; congruence|].
    unfold upgrade_one. destruct (_ && _); [|done]. destruct (_ || _); by destruct (_ <=? _).
  - destruct (akeep_get _ _ _ _ (akeep_step c o Hp) E) as (x & Hx & Ha). rewrite E' in Hx. injection Hx as <-.
    unfold admin in Ha; unfold settings; congruence.
Qed.

Lemma send_kyve b from to x : 0 <= x <= bal b from KYVE -> exists b', send b from to (coin KYVE x) = Some b' /\
  forall a d, bal b' a d = bal b a d + (if decide (d = KYVE) then (if decide (a = to) then x else 0) - (if decide (a = from) then x else 0) else 0).
Proof.
  intros Hx. destruct (send_is_Some b from to (coin KYVE x)) as [b' Es].
  - apply cpos_coin; lia.
  - apply cle_spec. intros d y Hd. pose proof (amt_coin KYVE x d) as Ha. unfold amt at 1 in Ha. rewrite Hd in Ha. simpl in Ha.
    case_decide; [subst; unfold bal in *; lia|]. exfalso. subst y. unfold coin in Hd. destruct (nz x); [by rewrite lookup_singleton_ne in Hd|by rewrite lookup_empty in Hd].
  - exists b'. split; [done|]. intros a d. apply send_Some in Es as [_ Hs]. rewrite Hs, amt_coin.
    destruct (decide (d = KYVE)) as [->|], (decide (KYVE = KYVE)); try done; repeat case_decide; subst; try lia; try congruence.
Qed.
Lemma leave_all_bank l c p : c_bank (fold_left (fun c s => s_out c (leave_pool (s_in c) s p)) l c) = c_bank c.
Proof.
  revert c. induction l as [|x l IH]; intros c; simpl; [done|]. rewrite IH. cbn.
  pose proof (leave_frame (s_in c) x p) as H. destruct H as (_&_&_&_&_&_&_&_&_&_&_&_&->). done.
Qed.
Lemma leave_all_other l c p q s : q <> p -> in_pool (fold_left (fun c s => s_out c (leave_pool (s_in c) s p)) l c) q s = in_pool c q s.
Proof.
  intros Hne. revert c. induction l as [|x l IH]; intros c; simpl; [done|]. rewrite IH.
  unfold in_pool. cbn. rewrite get_leave. rewrite decide_False by naive_solver. done.
Qed.
Lemma claim_disable g c sender p : genesis g -> G g c ->
  (is_Some (cmsg c (CDisablePool sender p)) <-> sender = AUTHORITY /\ exists pl, get_pool c p = Some pl /\ pl_disabled pl = false) /\
  (forall c', cmsg c (CDisablePool sender p) = Some c' ->
     (exists pl', get_pool c' p = Some pl' /\ pl_disabled pl' = true) /\
     (forall q s, in_pool c' q s = if decide (q = p) then false else in_pool c q s) /\
     (forall a d, bal (c_bank c') a d = bal (c_bank c) a d +
        (if decide (d = KYVE) then (if decide (a = Treasury) then bal (c_bank c) (PoolAcc p) KYVE else 0)
                                   - (if decide (a = PoolAcc p) then bal (c_bank c) (PoolAcc p) KYVE else 0) else 0))).
Proof.
  intros Hg HG. assert (Hnn : forall a d, 0 <= bal (c_bank c) a d) by (intros; apply (g_nn _ _ HG)).
  assert (Hlt : bal (c_bank c) (PoolAcc p) KYVE < two63).
  { eapply Z.le_lt_trans; [|apply (g_supply _ _ HG)]. apply supply_ge1, (g_nn _ _ HG). }
  specialize (Hnn (PoolAcc p) KYVE) as Hp0. set (B := bal (c_bank c) (PoolAcc p) KYVE) in *.
  assert (Hi : i64 B = B) by (unfold i64; destruct (Z.ltb_spec B two63); lia).
  assert (Hmain : forall ps, let c1 := cw_pools c ps in let c2 := fold_left (fun c s => s_out c (leave_pool (s_in c) s p)) (members c1 p) c1 in
     exists b, (if two64 <=? bal (c_bank c2) (PoolAcc p) KYVE then None
     else if 0 <? bal (c_bank c2) (PoolAcc p) KYVE then
        if i64 (bal (c_bank c2) (PoolAcc p) KYVE) <? 0 then None
        else match send (c_bank c2) (PoolAcc p) Treasury (coin KYVE (bal (c_bank c2) (PoolAcc p) KYVE)) with
             | None => None
             | Some b => Some (cw_bank c2 b)
             end
      else Some c2) = Some (cw_bank c2 b) /\
      forall a d, bal b a d = bal (c_bank c) a d +
        (if decide (d = KYVE) then (if decide (a = Treasury) then B else 0) - (if decide (a = PoolAcc p) then B else 0) else 0)).
  { intros ps c1 c2. assert (Eb : c_bank c2 = c_bank c) by (unfold c2; by rewrite leave_all_bank). rewrite Eb. fold B.
    destruct (two64 <=? B) eqn:E1; [unfold two63, two64 in *; lia|]. destruct (0 <? B) eqn:E2.
    - rewrite Hi. destruct (B <? 0) eqn:E3; [lia|]. destruct (send_kyve (c_bank c) (PoolAcc p) Treasury B) as (b & Es & Hb); [unfold B; lia|].
      rewrite Es. exists b. split; [done|exact Hb].
    - exists (c_bank c2). rewrite Eb. split; [|assert (B = 0) as -> by lia; intros a d; repeat case_decide; lia].
      f_equal. rewrite <- Eb. by destruct c2. }
  clearbody B.
  split.
  - cbn [cmsg]. unfold chain_disable_pool. split.
    + intros [c' H]. destruct (disable_record _ _ _) as [ps|] eqn:Em; [|done]. unfold disable_record in Em.
      destruct (_ =? _)%N eqn:Es; simpl in Em; [|done]. apply N.eqb_eq in Es. split; [done|].
      unfold get_pool. destruct (ps_pools (c_pools c) !! p) as [x|]; [|done]. destruct (pl_disabled x) eqn:Ed; [done|]. eauto.
    + intros (-> & pl & Hpl & Hd). unfold disable_record. unfold get_pool in Hpl. rewrite Hpl, Hd. simpl.
      destruct (Hmain (set_pool (c_pools c) p (with_disabled pl true))) as (b & E & _). rewrite E. by eexists.
  - intros c' H. cbn [cmsg] in H. pose proof (disable_pools _ _ _ _ H) as (_ & x & Hx & _ & Ep).
    split; [exists (with_disabled x true); unfold get_pool; rewrite Ep, get_set, decide_True by done; done|].
    pose proof (fun s => disable_empties _ _ _ _ s H) as Hem. unfold chain_disable_pool in H.
    destruct (disable_record _ _ _) as [ps|]; [|done]. destruct (Hmain ps) as (b & E & Hb). rewrite E in H. injection H as <-. split; [|exact Hb].
    intros q s. destruct (decide (q = p)) as [->|Hne]; [apply Hem|].
    change (in_pool (cw_bank ?z b) q s) with (in_pool z q s). by rewrite leave_all_other.
Qed.
(** While a pool is disabled. *)
Lemma disabled_run c p pl : get_pool c p = Some pl -> pl_disabled pl = true -> can_run c p = false.
Proof.
  intros E Hd. unfold can_run, pool_error. rewrite E, Hd. by destruct (_ && _).
Qed.
Lemma fin_timeout_pool c q i c' p id : timeout_pool c q i = Some c' -> p <> q \/ can_run c p = false -> c_fin c' !! (p, id) = c_fin c !! (p, id).
Proof.
  intros H Hpq.
  assert (Hfin : forall x v, bpart x = bpart c -> p <> q -> c_fin (finalize x q v) !! (p, id) = c_fin c !! (p, id)).
  { intros x v Hb Hne. assert (Ef : c_fin x = c_fin c) by (apply bpart_eq in Hb; apply Hb). unfold finalize. destruct (get_pool x q) as [pl|]; [|by rewrite Ef].
    cbn [c_fin cw_pools cw_fin]. rewrite lookup_insert_ne by congruence. by rewrite Ef. }
  assert (Hb : forall x, bpart x = bpart c -> c_fin x !! (p, id) = c_fin c !! (p, id)).
  { intros x Hb. apply bpart_eq in Hb as (_ & _ & _ & -> & _). done. }
  unfold timeout_pool in H. unfold can_run in Hpq. set (b := get_prop c q) in *.
  destruct (pool_error c q) as [e|] eqn:Ee.
  - injection H as <-. destruct (_ && _); [done|]. by destruct (negb _).
  - assert (Hne : p <> q) by (destruct Hpq as [|Hr]; [done|]; intros ->; by rewrite Ee in Hr). clear Hpq.
    destruct (_ <? _); [by injection H as <-|]. destruct (_ && _).
    + pose proof (b_choose (handle_non_voters c q) q []) as Hc. destruct (choose _ _ _) as [n c1]. simpl in Hc. injection H as <-.
      apply (Hb c1). rewrite Hc. apply b_non_voters.
    + destruct (_ <? _); [by injection H as <-|].
      assert (Hpt : forall x s, c_fin (timeout_point x q s) = c_fin x) by (intros x s; pose proof (b_timeout_point x q s) as Hx; by apply bpart_eq in Hx as (_ & _ & _ & -> & _)).
      destruct (_ =? 0)%N.
      * pose proof (b_choose c q []) as Hc. destruct (choose _ _ _) as [n c1]. simpl in Hc. injection H as <-.
        rewrite Hpt. by apply (Hb c1).
      * pose proof (b_tally c b q) as Ht. destruct (tally c b q) as [c1 vv f x r|c1 vv|c1 vv|c1|]; try done.
        -- pose proof (b_choose_from c1 q (bp_valid b)) as Hc. destruct (choose_from _ _ _) as [n c2]. simpl in Hc. injection H as <-.
           rewrite Hpt. apply Hfin; [congruence|done].
        -- pose proof (b_choose c1 q []) as Hc. destruct (choose _ _ _) as [n c2]. simpl in Hc. injection H as <-.
           rewrite Hpt. apply (Hb c2). congruence.
        -- pose proof (b_choose c1 q []) as Hc. destruct (choose _ _ _) as [n c2]. simpl in Hc. injection H as <-.
           rewrite Hpt. apply (Hb c2). congruence.
        -- injection H as <-. by apply (Hb c1).
Qed.
Lemma fin_timeouts l c c' p pl id : timeouts c l = Some c' -> get_pool c p = Some pl -> pl_disabled pl = true -> c_fin c' !! (p, id) = c_fin c !! (p, id).
Proof.
  revert c pl. induction l as [|[q i] l IH]; intros c pl; simpl; [by intros [= <-]|].
  destruct (timeout_pool c q i) as [c1|] eqn:E; [|done]. intros H Hg Hd.
  destruct (akeep_get _ _ _ _ (akeep_timeout_pool _ _ _ _ E) Hg) as (pl1 & Hg1 & Ha).
  rewrite (IH c1 pl1 H Hg1) by (unfold admin in Ha; congruence).
  apply (fin_timeout_pool _ _ _ _ _ _ E). right. by eapply disabled_run.
Qed.
Lemma fin_submit c m c' p id : msg_submit c m = Some c' -> p <> sb_pool m -> c_fin c' !! (p, id) = c_fin c !! (p, id).
Proof.
  intros H Hne. unfold msg_submit in H. destruct (can_propose _ _ _ _ _); simpl in H; [|done]. destruct (submit_valid c m); simpl in H; [|done].
  set (q := sb_pool m) in *. set (b := get_prop c q) in *. set (c1 := reset_pts c q (sb_staker m)) in *.
  assert (Hreg : forall x n, c_fin (register x m n) = c_fin x) by (intros; unfold register; by destruct (get_pool x (sb_pool m))).
  assert (Hfx : forall x, bpart x = bpart c1 -> c_fin x = c_fin c) by (intros x Hx; by apply bpart_eq in Hx as (_ & _ & _ & -> & _)).
  destruct (bp_storage b =? 0)%N.
  - pose proof (b_choose c1 q []) as Hc. destruct (choose c1 q []) as [n c2]. simpl in Hc. injection H as <-. by rewrite Hreg, Hfx.
  - pose proof (b_tally c1 b q) as Ht. destruct (tally c1 b q) as [c2 v f x r|c2 v|c2 v|c2|]; try done.
    + pose proof (b_choose_from c2 q (bp_valid b)) as Hc. destruct (choose_from _ _ _) as [n c3]. simpl in Hc. injection H as <-.
      rewrite Hreg. unfold finalize. destruct (get_pool c3 q); [|rewrite Hfx; [done|congruence]].
      cbn [c_fin cw_pools cw_fin]. rewrite lookup_insert_ne by congruence. rewrite Hfx; [done|congruence].
    + injection H as <-. cbn. by rewrite Hfx.
Qed.
Lemma fin_skip c q s v from c' p id : msg_skip c q s v from = Some c' -> p <> q -> c_fin c' !! (p, id) = c_fin c !! (p, id).
Proof.
  intros H Hne. unfold msg_skip in H. destruct (can_propose _ _ _ _ _); simpl in H; [|done]. set (b := get_prop c q) in *. set (c0 := reset_pts c q s) in *.
  assert (Hfx : forall x, bpart x = bpart c0 -> c_fin x = c_fin c) by (intros x Hx; by apply bpart_eq in Hx as (_ & _ & _ & -> & _)).
  pose proof (b_tally c0 b q) as Ht. destruct (tally c0 b q) as [c1 vv f x r|c1 vv|c1 vv|c1|]; try done;
    pose proof (b_choose c1 q [s]) as Hc; destruct (choose c1 q [s]) as [n c2]; simpl in Hc; injection H as <-.
  - cbn. unfold finalize. destruct (get_pool c2 q); [|rewrite Hfx; [done|congruence]].
      cbn [c_fin cw_pools cw_fin]. rewrite lookup_insert_ne by congruence. rewrite Hfx; [done|congruence].
  - cbn. rewrite Hfx; [done|congruence].
  - cbn. rewrite Hfx; [done|congruence].
Qed.
Lemma disabled_fin c o p pl id : get_pool c p = Some pl -> pl_disabled pl = true -> c_fin (cstep c o) !! (p, id) = c_fin c !! (p, id).
Proof.
  intros Hg Hd. pose proof (disabled_run _ _ _ Hg Hd) as Hr. destruct (status_none _ _ Hr) as (N1 & _ & N3 & _).
  unfold cstep. destruct (cmsg c o) as [c'|] eqn:E; simpl; [|done].
  destruct o; simpl in E;
    try (match type of E with ?f <$> ?x = _ => destruct x; [injection E as <-; done|done] end);
    try (match type of E with (if ?x then _ else _) = _ => destruct x; [injection E as <-; done|done] end).
  - unfold chain_create_staker in E. destruct (msg_delegate _ _ _ _ _); [|done]. destruct (msg_create_staker _ _ _ _); [|done].
    by injection E as <-.
  - destruct (decide (p = sb_pool m)) as [->|Hne]; [|by eapply fin_submit]. specialize (N1 m eq_refl). simpl in N1. congruence.
  - unfold msg_vote in E. destruct (can_vote _ _ _ _ _); simpl in E; [|done].
    match type of E with match ?x with Some _ => _ | None => _ end = _ => destruct x as [b'|] end; [|done]. by injection E as <-.
  - destruct (decide (p = p0)) as [->|Hne]; [|by eapply fin_skip]. specialize (N3 s creator from). simpl in N3. congruence.
  - unfold msg_claim_role in E. destruct (can_run c p0); simpl in E; [|done]. destruct (authorized _ _ _ _); simpl in E; [|done].
    destruct (_ =? 0)%N; simpl in E; [|done]. by injection E as <-.
  - unfold chain_create_pool in E. destruct (msg_create_pool _ _ _ _ _); [|done]. by injection E as <-.
  - unfold chain_disable_pool in E. destruct (disable_record _ _ _) as [ps|]; [|done]. set (c1 := cw_pools c ps) in E.
    pose proof (b_leave_all c1 (members c1 p0) p0) as Hb. set (c2 := fold_left _ _ _) in *. clearbody c2.
    assert (H2 : c_fin c2 = c_fin c) by (apply bpart_eq in Hb as (_ & _ & _ & -> & _); done).
    destruct (two64 <=? _); [done|]. destruct (0 <? _); [|by injection E as <-; rewrite H2]. destruct (i64 _ <? 0); [done|].
    destruct (send _ _ _ _); [|done]. injection E as <-. cbn. by rewrite H2.
  - injection E as <-. destruct (begin_parts c t provision) as (_ & _ & _ & -> & _). done.
  - injection E as <-. unfold end_block. pose proof (b_burn_fees (handle_upload_timeout (cw_pools c (handle_upgrades (c_pools c) (c_time c))))) as Hb.
    apply bpart_eq in Hb as (_ & _ & _ & -> & _). unfold handle_upload_timeout. set (c1 := cw_pools _ _).
    destruct (timeouts _ _) as [c2|] eqn:Et; [|done].
    assert (Hx : get_pool c1 p = Some (upgrade_one (c_time c) pl)). { unfold get_pool in *. cbn. by rewrite lookup_fmap, Hg. }
    rewrite (fin_timeouts _ _ _ _ _ id Et Hx); [done|]. unfold upgrade_one. destruct (_ && _); [|done]. destruct (_ || _); by destruct (_ <=? _).
  - by injection E as <-.
Qed.
Lemma claim_disabled c p pl : BInv c -> get_pool c p = Some pl -> pl_disabled pl = true ->
  (forall s, in_pool c p s = false) /\ (forall s v a, cmsg c (CJoin s p v a) = None) /\
  (forall m, sb_pool m = p -> cmsg c (CSubmit m) = None) /\ (forall s v st w, cmsg c (CVote p s v st w) = None) /\
  (forall s v from, cmsg c (CSkip p s v from) = None) /\ (forall s v, cmsg c (CClaimRole p s v) = None) /\
  (forall o id, c_fin (cstep c o) !! (p, id) = c_fin c !! (p, id)).
Proof.
  intros HB Hg Hd. pose proof (disabled_run _ _ _ Hg Hd) as Hr. destruct (status_none _ _ Hr) as (N1 & N2 & N3 & N4).
  split; [intros s; by eapply (bi_empty _ HB)|]. split; [|split; [done|split; [done|split; [done|split; [done|]]]]].
  - intros. cbn [cmsg]. rewrite Hg. cbn. by rewrite Hd.
  - intros o id. by eapply disabled_fin.
Qed.

(** ** Over all histories *)
Section Reach.
Variable g : gen.
Hypothesis Hg : genesis g.
Variable ops : list cop.
Hypothesis Hok : cops_ok (gstart g) ops.
Let c := crun (gstart g) ops.
Let HA : AInv c := reach_A g ops Hok.
Let HB : BInv c := reach_B g ops Hg Hok.

Lemma r_submit m c' : cmsg c (CSubmit m) = Some c' ->
  exists pl, next_up c (sb_pool m) (sb_staker m) (sb_creator m) (sb_from m) pl /\ args_ok pl m.
Proof. intros H. apply submit_needs; [done..|by eexists]. Qed.
Lemma r_skip p s v from c' : cmsg c (CSkip p s v from) = Some c' -> exists pl, next_up c p s v from pl.
Proof. intros H. apply skip_needs; [done..|by eexists]. Qed.
Lemma r_submit_first m pl : next_up c (sb_pool m) (sb_staker m) (sb_creator m) (sb_from m) pl -> args_ok pl m ->
  bp_storage (get_prop c (sb_pool m)) = 0%N -> is_Some (cmsg c (CSubmit m)).
Proof. by apply submit_first. Qed.
Lemma r_upgrade o p pl : cop_ok c o -> get_pool c p = Some pl -> exists pl', get_pool (cstep c o) p = Some pl' /\ upgrade_effect c o pl pl'.
Proof. by apply upgrade_step. Qed.
Lemma r_quiet more p pl : cops_ok c more -> get_pool c p = Some pl -> pn_at (pl_plan pl) <> 0 -> quiet c p (pn_at (pl_plan pl)) more ->
  exists pl', get_pool (crun c more) p = Some pl' /\ keeps_version pl pl'.
Proof. by apply quiet_run. Qed.
Lemma r_ids : exists n, (forall p, is_Some (get_pool c p) <-> (p < n)%N) /\
  (forall o p, cop_ok c o -> is_Some (get_pool (cstep c o) p) <->
     is_Some (get_pool c p) \/ (p = n /\ exists j a c', o = CCreatePool AUTHORITY j a /\ cmsg c o = Some c')).
Proof.
  exists (ps_count (c_pools c)). split; [apply (ai_pools _ HA)|]. intros o p Ho.
  assert (HA' : AInv (cstep c o)).
  { pose proof (reach_A g (ops ++ [o])) as H. rewrite crun_app in H. apply H. apply cops_ok_snoc. done. }
  rewrite (ai_pools _ HA'), (ai_pools _ HA), count_step by done.
  destruct o; try (split; [by left|by intros [H|(_ & ? & ? & ? & ? & _)]]).
  destruct (cmsg c (CCreatePool sender json a)) as [c'|] eqn:E.
  - destruct (create_effect _ _ _ _ _ E) as [_ ->]. split.
    + intros H. destruct (decide (p = ps_count (c_pools c))) as [->|]; [|left; lia]. right. split; [done|]. by repeat eexists.
    + intros [H|[-> _]]; lia.
  - split; [by left|]. intros [H|(_ & j & a' & c' & [= -> -> ->] & E')]; [done|congruence].
Qed.
Lemma r_disable sender p :
  (is_Some (cmsg c (CDisablePool sender p)) <-> sender = AUTHORITY /\ exists pl, get_pool c p = Some pl /\ pl_disabled pl = false) /\
  (forall c', cmsg c (CDisablePool sender p) = Some c' ->
     (exists pl', get_pool c' p = Some pl' /\ pl_disabled pl' = true) /\
     (forall q s, in_pool c' q s = if decide (q = p) then false else in_pool c q s) /\
     (forall a d, bal (c_bank c') a d = bal (c_bank c) a d +
        (if decide (d = KYVE) then (if decide (a = Treasury) then bal (c_bank c) (PoolAcc p) KYVE else 0)
                                   - (if decide (a = PoolAcc p) then bal (c_bank c) (PoolAcc p) KYVE else 0) else 0))).
Proof. apply (claim_disable g); [done|]. by apply G_run. Qed.
Lemma r_disabled p pl : get_pool c p = Some pl -> pl_disabled pl = true ->
  (forall s, in_pool c p s = false) /\ (forall s v a, cmsg c (CJoin s p v a) = None) /\
  (forall m, sb_pool m = p -> cmsg c (CSubmit m) = None) /\ (forall s v st w, cmsg c (CVote p s v st w) = None) /\
  (forall s v from, cmsg c (CSkip p s v from) = None) /\ (forall s v, cmsg c (CClaimRole p s v) = None) /\
  (forall o id, c_fin (cstep c o) !! (p, id) = c_fin c !! (p, id)).
Proof. by apply claim_disabled. Qed.
End Reach.
