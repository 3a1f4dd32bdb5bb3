(** * C77: the modules keep their promises inside the running chain (proofs).

    The properties of the single modules (C04, C06, C07, C12, C13, C16, C17, C32, C35-C37, C42, C44) are
    proved for histories of each module. Here they are stated for histories of the whole chain: every
    message and block of all modules, from any genesis. *)
From Verif Require Import Base BaseFacts Delegation F1Spec DelegationInv DelegationBank DelegationQueue DelegationProps DelegationRewards
  DelegationClaims DelegationClaims2 DelegationClaims3 Stakers StakersInv StakersRun StakersClaims Funders FundersInv FundersRun FundersClaims
  Team TeamInv TeamRun TeamClaims RoundRobin Pool Bundles Chain ChainFrame ArchiveInv BankMoves ModTime PayoutClaims ChainLift Walk
  MoneyFlow IndexInv SplitClaims EffectClaims PayFlow.

Lemma G_track g c (k : N -> Z) : G g c -> FInv k (f_in c) -> G (K := Some k) g c.
Proof. intros [? ? ? ? ? ? ? ? ?] Hk. by split. Qed.

Section wide.
  Context (g : gen) (Hg : genesis g).

  (** ** Funders *)
  Lemma f_reach c : G g c -> exists ops, freach (g0_bank g) (g0_fp g) ops /\ f_in c = fend (g0_bank g) (g0_fp g) ops.
  Proof.
    intros HG. destruct (g_f _ _ HG) as (ops & Hok & E). exists ops. split; [|done].
    destruct Hg as (H1 & _ & _ & _ & _ & _ & H7 & _). split; [done|]. split; [intros x; apply H1|done].
  Qed.
  Lemma surplus_step c o x : G g c -> cop_ok c o ->
    fsurplus (f_in (cstep c o)) x = fsurplus (f_in c) x + match o with CBank b => bal b MFunders x - bal (c_bank c) MFunders x | _ => 0 end.
  Proof.
    intros HG Ho. destruct (match o with CBank _ => true | _ => false end) eqn:Eo.
    - destruct o as [| | | | | | | | | | | | | | | | | | | | | | | | | | | | | | |b]; try done. unfold fsurplus.
      change (bal b MFunders x - sum_rem (c_f c) x = bal (c_bank c) MFunders x - sum_rem (c_f c) x + (bal b MFunders x - bal (c_bank c) MFunders x)). lia.
    - pose proof (GJ_step (K := Some (fsurplus (f_in c))) g Hg c o (G_track g c _ HG (G_FInv g Hg c HG)) (fun _ _ _ => I)) as H.
      assert (H' : G (K := Some (fsurplus (f_in c))) g (cstep c o)) by (apply H; [by destruct o|done]).
      pose proof (fi_bank _ _ (g_sur _ _ H') x) as Hb. cut (fsurplus (f_in (cstep c o)) x = fsurplus (f_in c) x); [destruct o; try done; lia|].
      unfold fsurplus in *. lia.
  Qed.
  Lemma surplus_run ops x : forall c, G g c -> cops_ok c ops -> fsurplus (f_in (crun c ops)) x = fsurplus (f_in c) x + from_outside MFunders x c ops.
  Proof.
    induction ops as [|o t IH]; intros c HG Hok; [cbn [crun from_outside]; lia|]. destruct Hok as [Ho Hok]. cbn [crun from_outside].
    rewrite (IH _ (G_step g Hg c o HG Ho) Hok), (surplus_step c o x HG Ho). lia.
  Qed.
  Lemma w_funds ops : cops_ok (gstart g) ops -> let c := crun (gstart g) ops in
    fs_halt (c_f c) = false /\
    (forall x, bal (c_bank c) MFunders x = bal (g0_bank g) MFunders x + from_outside MFunders x (gstart g) ops + sum_rem (c_f c) x) /\
    (forall p, NoDup (actives (c_f c) p) /\ (length (actives (c_f c) p) <= 50)%nat) /\
    (forall a p x, rem (c_f c) a p x <> 0 -> 0 < rem (c_f c) a p x /\ a ∈ actives (c_f c) p).
  Proof.
    intros Hok. cbv zeta. pose proof (G_run g Hg ops Hok) as HG. destruct (f_reach _ HG) as (l & Hr & E).
    destruct (backed _ _ _ Hr) as [B1 _].
    assert (B2 : forall x, bal (c_bank (crun (gstart g) ops)) MFunders x
      = bal (g0_bank g) MFunders x + from_outside MFunders x (gstart g) ops + sum_rem (c_f (crun (gstart g) ops)) x).
    { intros x. pose proof (surplus_run ops x (gstart g) (G_init g Hg I) Hok) as Hs. unfold fsurplus in Hs.
      change (fs_bank (f_in (crun (gstart g) ops))) with (c_bank (crun (gstart g) ops)) in Hs.
      change (sum_rem (f_in (crun (gstart g) ops)) x) with (sum_rem (c_f (crun (gstart g) ops)) x) in Hs.
      change (fs_bank (f_in (gstart g))) with (g0_bank g) in Hs.
      assert (sum_rem (f_in (gstart g)) x = 0) by apply msum_empty. lia. } pose proof (fun p => actives_spec _ _ _ p Hr) as Ha.
    pose proof (fun a p x => rem_nonneg _ _ a p x (freach_inv _ _ _ Hr)) as Hn. rewrite <- E in *.
    split; [exact B1|]. split; [exact B2|]. split; [intros p; split; apply Ha|].
    intros a p x Hx. split; [|by apply (proj2 (proj2 (Ha p)) a x)]. specialize (Hn a p x).
    change (0 <= rem (c_f (crun (gstart g) ops)) a p x) in Hn. lia.
  Qed.
  Lemma w_exit ops a p amounts : cops_ok (gstart g) ops -> let c := crun (gstart g) ops in
    (exists x, rem (c_f c) a p x <> 0) -> cpos amounts -> (forall x, rem (c_f c) a p x <= amt amounts x) ->
    exists c', cmsg c (CDefund a p amounts) = Some c' /\
      forall x, rem (c_f c') a p x = 0 /\ bal (c_bank c') (User a) x = bal (c_bank c) (User a) x + rem (c_f c) a p x.
  Proof.
    intros Hok. cbv zeta. pose proof (G_run g Hg ops Hok) as HG. destruct (f_reach _ HG) as (l & Hr & E).
    set (c := crun (gstart g) ops) in *. clearbody c. intros Hx Ha Hge.
    destruct (exit_ok _ _ _ a p amounts Hr) as (st' & E1 & _ & E2); [by rewrite <- E|done|by rewrite <- E|]. rewrite <- E in E1, E2.
    exists (f_out c st'). cbn [cmsg]. rewrite E1. split; [done|exact E2].
  Qed.
  Lemma w_displaced ops a p amounts apb u : cops_ok (gstart g) ops -> let c := crun (gstart g) ops in
    cop_ok c (CFund a p amounts apb) -> u <> a -> let c' := cstep c (CFund a p amounts apb) in
    (forall q, q <> p -> fs_fundings (c_f c') !! (u, q) = fs_fundings (c_f c) !! (u, q)) /\
    ((fs_fundings (c_f c') !! (u, p) = fs_fundings (c_f c) !! (u, p) /\ forall x, bal (c_bank c') (User u) x = bal (c_bank c) (User u) x) \/
     (length (actives (c_f c) p) = 50%nat /\ u ∈ actives (c_f c) p /\ u ∉ actives (c_f c') p /\
      forall x, rem (c_f c') u p x = 0 /\ bal (c_bank c') (User u) x = bal (c_bank c) (User u) x + rem (c_f c) u p x)).
  Proof.
    intros Hok. cbv zeta. pose proof (G_run g Hg ops Hok) as HG. destruct (f_reach _ HG) as (l & Hr & E).
    set (c := crun (gstart g) ops) in *. clearbody c. intros Ho Hne.
    assert (Ho' : fop_ok (f_in c) (FFund (pool_exists c p) a p amounts apb)) by exact Ho.
    pose proof (displaced _ _ _ (pool_exists c p) a p amounts apb u Hr) as HD. cbv zeta in HD. rewrite <- E in HD. specialize (HD Ho' Hne).
    assert (Hc : exists st', st' = fstep (f_in c) (FFund (pool_exists c p) a p amounts apb) /\
      fs_fundings (c_f (cstep c (CFund a p amounts apb))) = fs_fundings st' /\ fs_active (c_f (cstep c (CFund a p amounts apb))) = fs_active st' /\
      c_bank (cstep c (CFund a p amounts apb)) = fs_bank st').
    { eexists. split; [done|]. unfold cstep. cbn [cmsg fstep]. by destruct (msg_fund _ _ _ _ _ _). }
    destruct Hc as (st' & -> & C1 & C2 & C3). set (st' := fstep _ _) in *. clearbody st'. rewrite C1, C3.
    unfold actives at 3. rewrite C2. fold (actives st' p).
    assert (Hrem : forall x, rem (c_f (cstep c (CFund a p amounts apb))) u p x = rem st' u p x) by (intros x; unfold rem; by rewrite C1).
    destruct HD as [H1 [H2|(H2 & H3 & H4 & H5 & _)]]; split; try exact H1; [by left|]. right.
    split; [exact H2|]. split; [exact H3|]. split; [exact H4|]. intros x. rewrite Hrem. apply H5.
  Qed.

  (** ** Stakers *)
  Lemma s_reach c : G g c -> exists ops, sops_ok (s0 g) ops /\ s_in c = srun (s0 g) ops.
  Proof. intros HG. exact (g_s _ _ HG). Qed.
  Lemma w_commission ops : cops_ok (gstart g) ops -> let c := crun (gstart g) ops in
    (forall d, StakersClaims.owed_all (c_s c) d <= bal (c_bank c) MStakers d) /\
    (forall s amounts, cpos amounts -> is_Some (ss_stakers (c_s c) !! s) ->
       (is_Some (cmsg c (CClaimCommission s amounts)) <-> forall d, amt amounts d <= StakersClaims.owed (c_s c) s d)) /\
    (forall s amounts c', cpos amounts -> cmsg c (CClaimCommission s amounts) = Some c' ->
       forall d, (forall s', StakersClaims.owed (c_s c') s' d = StakersClaims.owed (c_s c) s' d - if decide (s' = s) then amt amounts d else 0) /\
         bal (c_bank c') (User s) d = bal (c_bank c) (User s) d + amt amounts d /\
         bal (c_bank c') MStakers d = bal (c_bank c) MStakers d - amt amounts d).
  Proof.
    intros Hok. cbv zeta. pose proof (G_run g Hg ops Hok) as HG. destruct (s_reach _ HG) as (l & Hl & E).
    destruct (commission_backed (g0_bank g) (g0_time g) (g0_ct g) (g0_lt g) l) as (H1 & H2 & H3); [intros d; apply Hg|exact Hl|].
    fold (s0 g) in H1, H2, H3. rewrite <- E in H1, H2, H3. set (c := crun (gstart g) ops) in *. clearbody c.
    split; [exact H1|]. split.
    - intros s amounts Ha Hs. rewrite <- (H2 s amounts Ha Hs). cbn [cmsg]. destruct (msg_claim_commission _ _ _); cbn; split; intros [? ?]; eauto; done.
    - intros s amounts c' Ha. cbn [cmsg]. destruct (msg_claim_commission _ _ _) as [st'|] eqn:Em; [|done]. intros [= <-]. exact (H3 s amounts st' Ha Em).
  Qed.
  Lemma w_members ops : cops_ok (gstart g) ops -> let c := crun (gstart g) ops in
    (forall p, count_of (c_s c) p = StakersClaims.members (c_s c) p /\ StakersClaims.members (c_s c) p <= 50) /\
    (forall s, is_active (c_s c) s = true <-> exists p, member (c_s c) p s) /\
    (forall p s1 s2 v1 v2, get_val (c_s c) p s1 = Some v1 -> get_val (c_s c) p s2 = Some v2 -> vl_addr v1 = vl_addr v2 -> s1 = s2) /\
    (forall s p1 p2 v1 v2, get_val (c_s c) p1 s = Some v1 -> get_val (c_s c) p2 s = Some v2 -> vl_addr v1 = vl_addr v2 -> p1 = p2) /\
    (forall p s v, get_val (c_s c) p s = Some v -> vl_addr v <> s).
  Proof.
    intros Hok. cbv zeta. pose proof (G_run g Hg ops Hok) as HG. destruct (s_reach _ HG) as (l & Hl & E).
    destruct (count_claim (g0_bank g) (g0_time g) (g0_ct g) (g0_lt g) l Hl) as [H1 H2].
    destruct (valaddr_claim (g0_bank g) (g0_time g) (g0_ct g) (g0_lt g) l Hl) as (H3 & H4 & H5 & _).
    fold (s0 g) in *. rewrite <- E in *. split_and!; done.
  Qed.
  Lemma w_join ops s p v a : cops_ok (gstart g) ops -> let c := crun (gstart g) ops in
    (forall x, power c x < two63) -> 0 <= a < two63 ->
    is_Some (ss_stakers (c_s c) !! s) -> s <> v -> ~ member (c_s c) p s ->
    (forall p' x, get_val (c_s c) p' s = Some x -> vl_addr x <> v) -> (forall s' x, get_val (c_s c) p s' = Some x -> vl_addr x <> v) ->
    a <= bal (c_bank c) (User s) KYVE ->
    is_Some (cmsg c (CJoin s p v a)) <->
      (exists pl, get_pool c p = Some pl /\ pl_disabled pl = false) /\ (StakersClaims.members (c_s c) p < 50 \/ exists m, member (c_s c) p m /\ power c m < power c s).
  Proof.
    intros Hok. cbv zeta. pose proof (G_run g Hg ops Hok) as HG. destruct (s_reach _ HG) as (l & Hl & E).
    pose proof (join_claim (g0_bank g) (g0_time g) (g0_ct g) (g0_lt g) l Hl) as HJ. cbv zeta in HJ. fold (s0 g) in HJ. rewrite <- E in HJ.
    assert (Hp : forall x, 0 <= power (crun (gstart g) ops) x) by (intros x; by apply (G_power g Hg)).
    set (c := crun (gstart g) ops) in *. clearbody c. intros H1 H2 H3 H4 H5 H6 H7 H8.
    pose proof (fun H => proj1 (HJ (pl_disabled <$> get_pool c p) (power c) s p v a H H3 H4 H5 H6 H7 H2 H8)) as HJ1.
    specialize (HJ1 (fun x => conj (Hp x) (H1 x))).
    cbn [cmsg]. transitivity (is_Some (msg_join (s_in c) (pl_disabled <$> get_pool c p) (power c) s p v a)).
    { destruct (msg_join _ _ _ _ _ _ _); cbn; split; intros [? ?]; eauto; done. }
    rewrite HJ1. change (StakersClaims.members (s_in c)) with (StakersClaims.members (c_s c)). split; intros [A B]; split; try exact B.
    - destruct (get_pool c p) as [pl|]; [|done]. exists pl. cbn in A. split; [done|congruence].
    - destruct A as (pl & -> & A). cbn. by rewrite A.
  Qed.

  (** ** Delegators *)
  Lemma w_rewards ops s d : cops_ok (gstart g) ops -> let c := crun (gstart g) ops in
    (forall x, -1 <= amt (outstanding (c_d c) s d) x - amt (payable (c_d c) s d) x <= 1) /\
    (forall x, 0 <= amt (payable (c_d c) s d) x) /\
    forall c', cmsg c (CWithdraw d s) = Some c' ->
      outstanding (c_d c') s d = ∅ /\ delegation_of (c_d c') s d = delegation_of (c_d c) s d /\
      delegation_amount (c_d c') s = delegation_amount (c_d c) s /\
      forall x, bal (c_bank c') (User d) x = bal (c_bank c) (User d) x + amt (payable (c_d c) s d) x.
  Proof.
    intros Hok. cbv zeta. pose proof (G_run g Hg ops Hok) as HG. destruct (G_reached g Hg _ HG) as (l & Hr).
    set (c := crun (gstart g) ops) in *. clearbody c. split; [intros x; exact (claim_query_bound _ _ s d x Hr)|]. split.
    - intros x. destruct Hr as (bk & pp & t & Hp & Hl & E). pose proof (claim_no_halt bk pp t l Hp Hl s) as (_ & Hn). rewrite <- E in Hn.
      destruct (Hn d) as (_ & _ & _ & H & _). exact (H x).
    - intros c'. cbn [cmsg]. destruct (msg_withdraw _ _ _) as [st'|] eqn:Em; [|done]. intros [= <-].
      exact (claim_after_withdraw _ _ _ _ _ Hr Em).
  Qed.
  (** Messages that cannot concern the delegation of [d]: those of others, except the ones that
      evaluate a bundle, and blocks. *)
  Definition outside (d : N) (o : cop) : Prop :=
    match o with
    | CDelegate u _ _ | CUndelegate u _ _ | CRedelegate u _ _ _ | CWithdraw u _ | CCreateStaker u _ _ => u <> d
    | CSubmit _ | CSkip _ _ _ _ | CBegin _ _ | CEnd => False
    | _ => True
    end.
  Local Ltac fin Em Ho := lazymatch goal with
    | |- dop_ok _ _ => exact Ho
    | |- actor _ <> _ => cbn; congruence
    | |- ~ completes _ _ _ _ => intros (? & H & _); destruct H
    | |- dstep _ _ = _ => cbn [dstep]; rewrite Em; reflexivity
    | |- _ => intros; discriminate end.
  Lemma w_isolated ops o s d : cops_ok (gstart g) ops -> let c := crun (gstart g) ops in cop_ok c o -> outside d o -> let c' := cstep c o in
    delegation_of (c_d c') s d = delegation_of (c_d c) s d /\ payable (c_d c') s d = payable (c_d c) s d /\
    forall x, -1 <= amt (outstanding (c_d c') s d) x - amt (outstanding (c_d c) s d) x <= 1.
  Proof.
    intros Hok. cbv zeta. pose proof (G_run g Hg ops Hok) as HG. destruct (G_reached g Hg _ HG) as (l & Hr).
    set (c := crun (gstart g) ops) in *. clearbody c. intros Ho Hn.
    assert (Hq : forall c', c_d c' = c_d c -> delegation_of (c_d c') s d = delegation_of (c_d c) s d /\ payable (c_d c') s d = payable (c_d c) s d /\
      forall x, -1 <= amt (outstanding (c_d c') s d) x - amt (outstanding (c_d c) s d) x <= 1).
    { intros c' ->. split; [done|]. split; [done|]. intros x. lia. }
    assert (Hf : forall p, delegation_of (with_params (c_d c) p) s d = delegation_of (c_d c) s d /\ payable (with_params (c_d c) p) s d = payable (c_d c) s d /\
      forall x, -1 <= amt (outstanding (with_params (c_d c) p) s d) x - amt (outstanding (c_d c) s d) x <= 1).
    { intros p. split; [done|]. split; [done|]. intros x. change (outstanding (with_params (c_d c) p)) with (outstanding (c_d c)). lia. }
    assert (Hd : forall o' st', dop_ok (d_in c) o' -> actor o' <> Some d -> ~ completes (d_in c) o' s d ->
      (forall x y, o' <> OPayout s x y) -> (forall ty, o' <> OSlash s ty) -> dstep (d_in c) o' = st' ->
      delegation_of st' s d = delegation_of (c_d c) s d /\ payable st' s d = payable (c_d c) s d /\
      forall x, -1 <= amt (outstanding st' s d) x - amt (outstanding (c_d c) s d) x <= 1).
    { intros o' st' A1 A2 A3 A4 A5 <-. exact (claim_isolated _ _ o' s d Hr A1 A2 A3 A4 A5). }
    unfold cstep. destruct (cmsg c o) as [c'|] eqn:E; [|by apply Hq]. change (default c (Some c')) with c'.
    destruct o; cbn [cmsg outside cop_ok] in *; try done;
      try (by apply Hq; match type of E with ?f <$> ?x = _ => destruct x; [injection E as <-|done] end).
    - destruct (msg_delegate _ _ _ _ _) as [st'|] eqn:Em; [|done]. injection E as <-.
      apply (Hd (ODelegate (staker_exists c s0) d0 s0 a)); fin Em Ho.
    - destruct (msg_undelegate _ _ _ _) as [st'|] eqn:Em; [|done]. injection E as <-.
      apply (Hd (OUndelegate d0 s0 a)); fin Em Ho.
    - destruct (msg_redelegate _ _ _ _ _ _ _) as [st'|] eqn:Em; [|done]. injection E as <-.
      apply (Hd (ORedelegate (staker_exists c to) (is_active (c_s c) to) d0 from to a)); fin Em Ho.
    - destruct (msg_withdraw _ _ _) as [st'|] eqn:Em; [|done]. injection E as <-.
      apply (Hd (OWithdraw d0 s0)); fin Em Ho.
    - unfold chain_create_staker in E. destruct (msg_delegate _ _ _ _ _) as [st'|] eqn:Em; [|done].
      destruct (msg_create_staker _ _ _ _) as [s'|]; [|done]. injection E as <-.
      apply (Hd (ODelegate true s0 s0 a)); fin Em (proj2 (proj2 Ho)).
    - apply Hq. by apply vote_parts in E as [E _].
    - apply Hq. unfold msg_claim_role in E. repeat (destruct (negb _); [done|]). by injection E as <-.
    - apply Hq. unfold chain_create_pool in E. destruct (msg_create_pool _ _ _ _ _); [|done]. by injection E as <-.
    - apply Hq. by apply disable_parts in E as [E _].
    - destruct (_ =? _)%N; [|done]. injection E as <-. apply Hf.
    - apply Hq. destruct (_ =? _)%N; [|done]. by injection E as <-.
    - apply Hq. destruct (_ =? _)%N; [|done]. by injection E as <-.
    - apply Hq. destruct (_ =? _)%N; [|done]. by injection E as <-.
    - apply Hq. destruct (_ =? _)%N; [|done]. by injection E as <-.
    - apply Hq. destruct (_ =? _)%N; [|done]. by injection E as <-.
    - injection E as <-. by apply Hq.
  Qed.

  (** ** Unbonding: a block completes exactly the requests that are due, in the order they were made *)
  Lemma w_unbonding ops t prov : cops_ok (gstart g) ops -> let c := crun (gstart g) ops in let c' := cstep c (CBegin t prov) in
    let wait := p_unbonding (ds_params (c_d c)) in
    cop_ok c (CBegin t prov) -> t + wait < two64 ->
    exists done, pending (c_d c) = done ++ pending (c_d c') /\
      Forall (fun e => u_time e + wait <= t) done /\ Forall (fun e => t < u_time e + wait) (pending (c_d c')).
  Proof.
    intros Hok. cbv zeta. pose proof (G_run g Hg ops Hok) as HG. set (c := crun (gstart g) ops) in *. clearbody c. intros Ho Hw.
    change (cstep c (CBegin t prov)) with (begin_block c t prov).
    destruct Ho as (Ht & Hpr & Hs0 & Hs). unfold begin_block. cbv zeta.
    destruct (G_mint g c t (c_height c + 1) prov HG Ht Hpr Hs) as (HG0 & Hsup & Hf).
    assert (E0 : c_time (cw_time (cw_bank c (mint (c_bank c) MFeeCollector (coin KYVE prov))) t (c_height c + 1)) = t) by done.
    assert (D0 : c_d (cw_time (cw_bank c (mint (c_bank c) MFeeCollector (coin KYVE prov))) t (c_height c + 1)) = c_d c) by done.
    revert HG0 Hsup Hf E0 D0. generalize (cw_time (cw_bank c (mint (c_bank c) MFeeCollector (coin KYVE prov))) t (c_height c + 1)).
    intros c0 HG0 Hsup Hf E0 D0.
    assert (HG1 := G_team_begin g c0 t prov HG0 E0 Hpr Hf ltac:(lia)).
    assert (E1 : c_time (t_out c0 (team_begin (twith_time (t_in c0) t) prov (supply (c_bank c0)))) = t) by exact E0.
    assert (D1 : c_d (t_out c0 (team_begin (twith_time (t_in c0) t) prov (supply (c_bank c0)))) = c_d c) by exact D0.
    revert HG1 E1 D1. generalize (t_out c0 (team_begin (twith_time (t_in c0) t) prov (supply (c_bank c0)))). intros c1 HG1 E1 D1.
    destruct (split_time g c1 prov t E1 HG1) as [HG2 E2]. cbv zeta in *.
    assert (D2 : c_d (match split_inflation c1 prov with Some x => x | None => cw_halt c1 end) = c_d c).
    { destruct (split_inflation c1 prov) eqn:E; [apply d_split in E; congruence|exact D1]. }
    revert HG2 E2 D2. generalize (match split_inflation c1 prov with Some x => x | None => cw_halt c1 end). intros c2 HG2 E2 D2.
    destruct (g_d _ _ HG2) as (l & Hl & El & _). destruct (g_times _ _ HG2) as (T1 & _ & _ & T4).
    destruct Hg as (_ & _ & H3 & H4 & _). unfold d0 in Hl, El.
    assert (Hd : dop_ok (d_in c2) (OBeginBlock (t - ds_time (c_d c2)))). { cbn. lia. }
    pose proof (claim_on_time (g0_bank g) (g0_dp g) (g0_time g) l (t - ds_time (c_d c2)) H4 ltac:(lia)) as HC. cbv zeta in HC.
    rewrite ops_ok_app in HC. rewrite <- El in HC. change (ds_time (d_in c2)) with (ds_time (c_d c2)) in HC.
    replace (ds_time (c_d c2) + (t - ds_time (c_d c2))) with t in HC by lia. change (ds_params (d_in c2)) with (ds_params (c_d c2)) in HC.
    rewrite D2 in HC.
    assert (Hd' : ops_ok (d_in c2) [OBeginBlock (t - ds_time (c_d c))]) by (rewrite <- D2; exact (conj Hd I)).
    destruct (HC (conj Hl Hd') Hw) as (C1 & C2 & C3).
    change (pending (d_in c2)) with (pending (c_d c2)) in C1. rewrite D2 in C1.
    assert (Hst : pending (dstep (d_in c2) (OBeginBlock (t - ds_time (c_d c)))) = pending (fst (process_queue (with_time (d_in c2) t)))).
    { cbn [dstep]. change (ds_time (d_in c2)) with (ds_time (c_d c2)). rewrite D2. replace (ds_time (c_d c) + (t - ds_time (c_d c))) with t by lia. done. }
    rewrite Hst in C1, C3. eexists. split; [exact C1|]. split; [exact C2|exact C3].
  Qed.

  (** ** Team *)
  Definition touches_team (o : cop) : bool := match o with CTeam _ | CBegin _ _ => true | _ => false end.
  Ltac twalk l := apply (l tk tk_refl tk_trans); try exact tk_pay; try exact tk_infl; try exact tk_final; done.
  Lemma team_frame c o : touches_team o = false -> c_t (cstep c o) = c_t c.
  Proof.
    intros Ho. unfold cstep. destruct (cmsg c o) as [c'|] eqn:E; [|done]. change (default c (Some c')) with c'.
    destruct o; cbn [cmsg touches_team] in E, Ho; try done;
      try (match type of E with ?f <$> ?x = _ => destruct x as [y|] eqn:Ex; [injection E as <-; reflexivity|done] end);
      try (destruct (_ =? _)%N; [injection E as <-; reflexivity|done]).
    - unfold chain_create_staker in E. destruct (msg_delegate _ _ _ _ _) as [d|]; [|done]. destruct (msg_create_staker _ _ _ _); [|done]. by injection E as <-.
    - revert E. twalk k_submit.
    - by apply vote_parts in E as (_ & _ & E & _).
    - revert E. twalk k_skip.
    - unfold msg_claim_role in E. repeat (destruct (negb _); [done|]). by injection E as <-.
    - unfold chain_create_pool in E. destruct (msg_create_pool _ _ _ _ _); [|done]. by injection E as <-.
    - by apply disable_parts in E as (_ & _ & E & _).
    - injection E as <-. unfold end_block. set (c1 := cw_pools _ _).
      assert (H : tk c1 (handle_upload_timeout c1)) by (twalk k_handle_timeout). unfold tk in H.
      unfold burn_fees. destruct (c_height _ =? 1); [done|]. destruct (c_burn _ =? 0); [done|]. by destruct (burn _ _ _).
    - by injection E as <-.
  Qed.
  Lemma team_bank c o : cop_ok c o -> touches_team o = false -> forall x, bal (c_bank c) MTeam x <= bal (c_bank (cstep c o)) MTeam x.
  Proof.
    intros Ho Ht x. assert (Hb : by_chain o \/ exists b, o = CBank b) by (destruct o; eauto; left; exact I).
    destruct Hb as [Hb|[b ->]].
    - destruct (Z.le_gt_cases (bal (c_bank c) MTeam x) (bal (c_bank (cstep c o)) MTeam x)) as [|Hl]; [done|]. exfalso.
      assert (Hm : 0 <= MoneyFlow.minted o KYVE) by (destruct o; try (cbn; lia); done).
      destruct (step_lose c o MTeam x Hb Hm Hl) as [[y Hy]|[_ H]]; [|done].
      inversion Hy; subst; try done; match goal with H : tally_edge _ _ _ |- _ => inversion H end.
    - change (cstep c (CBank b)) with (cw_bank c b). destruct Ho as [Ho _].
      exact (Ho MTeam x I).
  Qed.
  (** Allocations of the chain's own messages below 2^63. *)
  Definition small_team (o : cop) : Prop := match o with CTeam t => small_op t | _ => True end.
  Lemma TI_bank st b : TI (twith_bank st b) <-> TI st. Proof. done. Qed.
  Lemma cteam_step c o : cstep c (CTeam o) = c \/
    (match o with TBegin _ _ _ | TBank _ => False | _ => True end /\ t_in (cstep c (CTeam o)) = tstep (t_in c) o).
  Proof.
    unfold cstep. destruct (cmsg c (CTeam o)) as [c'|] eqn:E; [|by left]. change (default c (Some c')) with c'. cbn [cmsg] in E.
    destruct o; try done; right; (split; [done|]); cbn [tstep];
      match type of E with t_out c <$> ?x = _ => destruct x as [st|] eqn:Ex; [|done] end; injection E as <-;
      change (default (t_in c) (Some st)) with st; unfold t_in, t_out; cbn; by destruct st.
  Qed.
  (** A block: x/team acts on the state with the new coins; the rest of the block leaves its
      records alone and takes nothing from it. *)
  Lemma begin_team c t prov : G g c -> cop_ok c (CBegin t prov) ->
    exists b sup, bal b MTeam KYVE = bal (c_bank c) MTeam KYVE /\
      top_ok (twith_bank (c_t c) b) (TBegin t prov sup) /\
      c_t (cstep c (CBegin t prov)) = tstep (twith_bank (c_t c) b) (TBegin t prov sup) /\
      bal (ts_bank (c_t (cstep c (CBegin t prov)))) MTeam KYVE <= bal (c_bank (cstep c (CBegin t prov))) MTeam KYVE.
  Proof.
    intros HG (Ht & Hpr & Hs0 & Hs).
    change (cstep c (CBegin t prov)) with (begin_block c t prov). unfold begin_block. cbv zeta.
    destruct (G_mint g c t (c_height c + 1) prov HG Ht Hpr Hs) as (HG0 & Hsup & Hf).
    exists (mint (c_bank c) MFeeCollector (coin KYVE prov)), (supply (mint (c_bank c) MFeeCollector (coin KYVE prov))).
    split. { rewrite mint_bal. rewrite decide_False by done. lia. }
    set (c0 := cw_time (cw_bank c (mint (c_bank c) MFeeCollector (coin KYVE prov))) t (c_height c + 1)) in *.
    change (mint (c_bank c) MFeeCollector (coin KYVE prov)) with (c_bank c0).
    change (twith_bank (c_t c) (c_bank c0)) with (t_in c0).
    assert (Ec : c_time c0 = t) by done. clearbody c0.
    split.
    { destruct (g_times _ _ HG0) as (T1 & T2 & T3 & T4). pose proof (supply_ge2 (c_bank c0) MTeam MFeeCollector (g_nn _ _ HG0) ltac:(done)).
      pose proof (g_supply _ _ HG0). cbn [top_ok]. change (ts_time (t_in c0)) with (ts_time (c_t c0)). change (ts_bank (t_in c0)) with (c_bank c0).
      unfold two62, two63 in *. lia. }
    change (tstep (t_in c0) (TBegin t prov (supply (c_bank c0)))) with (team_begin (twith_time (t_in c0) t) prov (supply (c_bank c0))).
    set (st := team_begin (twith_time (t_in c0) t) prov (supply (c_bank c0))).
    assert (H1 : c_t (t_out c0 st) = st /\ ts_bank st = c_bank (t_out c0 st)) by done.
    revert H1. generalize (t_out c0 st). intros c1 [H1 H1'].
    set (R := fun x y : acct => x <> MTeam).
    assert (H2 : c_t (match split_inflation c1 prov with Some x => x | None => cw_halt c1 end) = st /\
      flows R (c_bank c1) (c_bank (match split_inflation c1 prov with Some x => x | None => cw_halt c1 end))).
    { destruct (split_inflation c1 prov) as [x|] eqn:E; [|split; [done|constructor]]. split; [by rewrite (split_t _ _ _ E)|].
      eapply split_flows; [|exact E]. by unfold R. }
    revert H2. generalize (match split_inflation c1 prov with Some x => x | None => cw_halt c1 end). intros c2 [H2 H2'].
    assert (H3 : flows R (c_bank c2) (c_bank (d_out c2 (fst (process_queue (with_time (d_in c2) t)))))).
    { apply (df_process_queue R (with_time (d_in c2) t)). by unfold R. }
    assert (H3' : c_t (d_out c2 (fst (process_queue (with_time (d_in c2) t)))) = st) by done.
    revert H3 H3'. generalize (d_out c2 (fst (process_queue (with_time (d_in c2) t)))). intros c3 H3 H3'.
    assert (H4 : c_bank (s_out c3 (stakers_begin (with_stime (s_in c3) t))) = c_bank c3).
    { cbn. by rewrite sb_begin. }
    rewrite H4. change (c_t (s_out c3 (stakers_begin (with_stime (s_in c3) t)))) with (c_t c3). split; [done|].
    rewrite H3', H1'. apply (flows_ge R); [by eapply flows_trans|]. intros y Hy. by apply Hy.
  Qed.
  Lemma t_in_acc c : ts_accounts (t_in c) = ts_accounts (c_t c) /\ ts_time (t_in c) = ts_time (c_t c). Proof. done. Qed.
  Lemma team_ok c o : cop_ok c (CTeam o) -> match o with TBegin _ _ _ | TBank _ => False | _ => True end -> top_ok (t_in c) o.
  Proof. destruct o; try done. Qed.
  Lemma TI_cstep c o : G g c -> cop_ok c o -> small_team o -> TI (c_t c) -> TI (c_t (cstep c o)).
  Proof.
    intros HG Ho Hs HT. destruct (touches_team o) eqn:E; [|by rewrite team_frame]. destruct o; try done.
    - destruct (cteam_step c o) as [->|[Hn Ht]]; [done|]. change (TI (t_in (cstep c (CTeam o)))). rewrite Ht.
      apply TI_step; [exact HT|by apply team_ok|exact Hs].
    - destruct (begin_team c t provision HG Ho) as (b & sup & _ & Hok & -> & _). apply TI_step; [exact HT|exact Hok|exact I].
  Qed.
  Lemma TI_crun ops : cops_ok (gstart g) ops -> Forall small_team ops -> TI (c_t (crun (gstart g) ops)).
  Proof.
    intros Hok Hs. induction ops as [|o ops IH] using rev_ind.
    - apply TI_init. destruct Hg as (_ & _ & H3 & _). unfold two62, two63 in *. lia.
    - rewrite crun_app. apply cops_ok_app in Hok as [Hok Ho]. apply Forall_app in Hs as [Hs H1]. cbn [crun] in *.
      apply TI_cstep; [by apply G_run|by destruct Ho|by inversion H1|by apply IH].
  Qed.
  Lemma w_team_claims ops : cops_ok (gstart g) ops -> Forall small_team ops -> let c := crun (gstart g) ops in
    (forall i a, ts_accounts (c_t c) !! i = Some a ->
      0 <= va_claimed a <= unlocked a (ts_time (c_t c)) /\ unlocked a (ts_time (c_t c)) <= vested a (ts_time (c_t c)) <= va_total a) /\
    (forall s i x r c', cop_ok c (CTeam (TClaim s i x r)) -> cmsg c (CTeam (TClaim s i x r)) = Some c' ->
      exists a a', ts_accounts (c_t c) !! i = Some a /\ ts_accounts (c_t c') !! i = Some a' /\
        va_claimed a' = va_claimed a + x /\ va_claimed a' <= unlocked a (ts_time (c_t c)) /\
        bal (c_bank c') MTeam KYVE = bal (c_bank c) MTeam KYVE - x /\
        bal (c_bank c') (User r) KYVE = bal (c_bank c) (User r) KYVE + x /\
        (forall j, j <> i -> ts_accounts (c_t c') !! j = ts_accounts (c_t c) !! j) /\ (s = FOUNDATION \/ s = BCP)).
  Proof.
    intros Hok Hs. cbv zeta. destruct (TI_crun ops Hok Hs) as [Ht HF]. set (c := crun (gstart g) ops) in *. clearbody c.
    rewrite Forall_lookup in HF. split.
    - intros i a Hi. destruct (HF _ _ Hi) as (Ha & Hl & Hc).
      pose proof (unlocked_mono a (va_last a) (ts_time (c_t c)) Ha ltac:(lia) (sane_now a _ Ht)).
      pose proof (unlocked_le_vested a _ Ha (sane_now a _ Ht)). pose proof (vested_bounds a (ts_time (c_t c)) Ha). lia.
    - intros s i x r c' Ho. cbn [cmsg]. destruct (msg_claim_unlocked _ _ _ _ _) as [st'|] eqn:Em; [|done]. intros [= <-].
      change (c_t (t_out c st')) with st'. change (c_bank (t_out c st')) with (ts_bank st').
      revert Em. unfold msg_claim_unlocked. destruct (negb (is_authority s)) eqn:Es; [done|].
      change (ts_accounts (t_in c)) with (ts_accounts (c_t c)). change (ts_time (t_in c)) with (ts_time (c_t c)). change (ts_bank (t_in c)) with (c_bank c).
      destruct (ts_accounts (c_t c) !! i) as [a|] eqn:Ei; [|done]. destruct (_ <? x) eqn:E1; [done|].
      destruct (transfer _ _ _ _) as [bk|] eqn:Eb; [|done]. intros H. injection H as <-. cbn in Ho. destruct Ho as [Ho1 Ho2].
      destruct (claimable_spec a (ts_time (c_t c)) x (HF _ _ Ei) Ht ltac:(lia) ltac:(lia)) as [E2 E3].
      eexists a, _. split; [done|]. cbn. rewrite list_lookup_insert by (by eapply lookup_lt_Some).
      split; [reflexivity|]. cbn. split; [done|]. split; [lia|].
      pose proof (TeamRun.transfer_bal _ _ _ _ _ Eb) as Hb.
      split. { rewrite Hb. rewrite decide_True by done. rewrite decide_False by done. lia. }
      split. { rewrite Hb. rewrite decide_False by done. rewrite decide_True by done. lia. }
      split. { intros j Hj. by rewrite list_lookup_insert_ne. }
      apply negb_false_iff in Es. unfold is_authority in Es. apply orb_true_iff in Es as [Es|Es]; apply N.eqb_eq in Es; auto.
  Qed.

  Definition mint_cop (o : cop) : Z := match o with CBegin _ p => p | _ => 0 end.
  Fixpoint quiet (c : chain) (ops : list cop) : Prop :=
    in_cap (c_t c) /\ match ops with [] => True | o :: l =>
      Z.of_nat (length (ts_accounts (c_t c))) * mint_cop o < 2 * ONE /\ quiet (cstep c o) l end.
  Lemma TM_more m st b : bal (ts_bank st) MTeam KYVE <= bal b MTeam KYVE -> TM m st -> TM m (twith_bank st b).
  Proof. intros Hb [H1 H2 H3 H4 H5]. split; try done. change (ts_bank (twith_bank st b)) with b. change (spec_required (twith_bank st b)) with (spec_required st). lia. Qed.
  Lemma TM_cstep m c o : G g c -> cop_ok c o -> small_team o -> TI (c_t c) -> in_cap (c_t c) -> TM m (t_in c) ->
    Z.of_nat (length (ts_accounts (c_t c))) * mint_cop o < 2 * ONE -> m + mint_cop o < two63 -> 0 <= m -> TM (m + mint_cop o) (t_in (cstep c o)).
  Proof.
    intros HG Ho Hs HT Hc HM Hmi Hm H0. destruct (touches_team o) eqn:E.
    - destruct o; try done.
      + destruct (cteam_step c o) as [->|[Hn Ht]]; [by rewrite Z.add_0_r|]. rewrite Ht. cbn [mint_cop] in *.
        replace (m + 0) with (m + mint_of o) by (destruct o; done).
        apply TM_step; try done; [by apply team_ok|by destruct o|destruct o; try done; cbn; lia].
      + destruct (begin_team c t provision HG Ho) as (b & sup & Hb & Hok & He & Hge). cbn [mint_cop] in *.
        unfold t_in at 1. rewrite He in *. apply TM_more; [exact Hge|].
        change (m + provision) with (m + mint_of (TBegin t provision sup)).
        apply TM_step; try done. change (twith_bank (c_t c) b) with (twith_bank (t_in c) b). apply TM_more; [|done].
        change (ts_bank (t_in c)) with (c_bank c). lia.
    - assert (mint_cop o = 0) as -> by (destruct o; done). rewrite Z.add_0_r.
      unfold t_in at 1. rewrite team_frame by done. change (twith_bank (c_t c) ?b) with (twith_bank (t_in c) b). apply TM_more; [|done].
      change (ts_bank (t_in c)) with (c_bank c). by apply team_bank.
  Qed.
  Definition minted_all (ops : list cop) : Z := zsum mint_cop ops.
  Lemma quiet_app c a b : quiet c (a ++ b) -> quiet c a /\ quiet (crun c a) b.
  Proof.
    revert c. induction a as [|o a IH]; intros c H; cbn in *.
    - split; [|done]. split; [|done]. by destruct b; destruct H.
    - destruct H as (H1 & H2 & H3). apply IH in H3. tauto.
  Qed.
  Lemma quiet_end c ops : quiet c ops -> in_cap (c_t (crun c ops)).
  Proof. intros H. rewrite <- (app_nil_r ops) in H. apply quiet_app in H as [_ H]. exact (proj1 H). Qed.
  Lemma mint_nonneg c ops : cops_ok c ops -> 0 <= minted_all ops.
  Proof.
    revert c. induction ops as [|o ops IH]; intros c H; cbn; [lia|]. destruct H as [H1 H2]. apply IH in H2.
    change (0 <= mint_cop o + minted_all ops). destruct o; cbn in *; lia.
  Qed.
  Lemma TM_crun ops : cops_ok (gstart g) ops -> Forall small_team ops -> TEAM_ALLOCATION <= bal (g0_bank g) MTeam KYVE ->
    quiet (gstart g) ops -> minted_all ops < two63 -> TM (minted_all ops) (t_in (crun (gstart g) ops)).
  Proof.
    intros Hok Hs Hb. induction ops as [|o ops IH] using rev_ind; intros Hq Hm.
    - apply (TM_init (g0_bank g) (g0_time g)). exact Hb.
    - rewrite crun_app. pose proof Hok as Hok'. apply cops_ok_app in Hok as [Hok Ho]. apply Forall_app in Hs as [Hs H1]. apply quiet_app in Hq as [Hq Hq1].
      pose proof (mint_nonneg _ _ Hok) as H0.
      assert (Em : minted_all (ops ++ [o]) = minted_all ops + mint_cop o) by (unfold minted_all; rewrite zsum_app; cbn; lia).
      assert (Hn : 0 <= mint_cop o) by (destruct Ho as [Ho _]; destruct o; cbn in *; lia).
      rewrite Em in *. cbn [crun] in *. destruct Hq1 as (Q1 & Q2 & _). destruct Ho as [Ho _]. inversion H1; subst.
      apply TM_cstep; try done; [by apply G_run|by apply TI_crun|apply IH; try done; lia].
  Qed.
  (** What x/team owes: the rest of the 165 million, and the rewards not yet claimed. *)
  Lemma w_team_backed ops : cops_ok (gstart g) ops -> Forall small_team ops -> TEAM_ALLOCATION <= bal (g0_bank g) MTeam KYVE ->
    quiet (gstart g) ops -> minted_all ops < two63 -> let c := crun (gstart g) ops in
    ts_halt (c_t c) = false /\
    TEAM_ALLOCATION - zsum va_claimed (ts_accounts (c_t c)) + zsum (fun a => va_rewards a - va_rclaimed a) (ts_accounts (c_t c))
      + (ts_arewards (c_t c) - ts_aclaimed (c_t c)) <= bal (c_bank c) MTeam KYVE /\
    (forall s i a x r, (s = FOUNDATION \/ s = BCP) -> ts_accounts (c_t c) !! i = Some a -> 0 <= x ->
       va_claimed a + x <= unlocked a (ts_time (c_t c)) -> is_Some (cmsg c (CTeam (TClaim s i x r)))) /\
    (forall s i a x r, (s = FOUNDATION \/ s = BCP) -> ts_accounts (c_t c) !! i = Some a -> 0 <= x ->
       va_rclaimed a + x <= va_rewards a -> is_Some (cmsg c (CTeam (TClaimRewards s i x r)))) /\
    (forall x r, 0 <= x -> ts_aclaimed (c_t c) + x <= ts_arewards (c_t c) -> is_Some (cmsg c (CTeam (TClaimAuthority FOUNDATION x r)))).
  Proof.
    intros Hok Hs Hb Hq Hm. cbv zeta. pose proof (TI_crun _ Hok Hs) as HT. pose proof (TM_crun _ Hok Hs Hb Hq Hm) as [M1 M2 M3 M4 M5].
    pose proof (quiet_end _ _ Hq) as Hc. set (c := crun (gstart g) ops) in *. clearbody c.
    change (ts_accounts (t_in c)) with (ts_accounts (c_t c)) in *. change (ts_halt (t_in c)) with (ts_halt (c_t c)) in *.
    change (ts_aclaimed (t_in c)) with (ts_aclaimed (c_t c)) in *. change (ts_arewards (t_in c)) with (ts_arewards (c_t c)) in *.
    change (ts_bank (t_in c)) with (c_bank c) in *. change (spec_required (t_in c)) with (spec_required (c_t c)) in *. change (recorded (t_in c)) with (recorded (c_t c)) in *.
    split; [done|]. unfold spec_required in M4. split; [exact M4|].
    destruct (claimed_cap _ HT Hc) as ([C1 C2] & C3 & C4). unfold recorded in M3.
    assert (N1 : 0 <= zsum va_rewards (ts_accounts (c_t c))). { apply zsum_nonneg. eapply Forall_impl; [exact M1|]. cbn. lia. }
    assert (N2 : Forall (fun a => 0 <= va_rewards a - va_rclaimed a) (ts_accounts (c_t c))). { eapply Forall_impl; [exact M1|]. cbn. lia. }
    pose proof (zsum_nonneg _ _ N2) as N3.
    assert (Hau : forall s, (s = FOUNDATION \/ s = BCP) -> negb (is_authority s) = false).
    { intros s [->| ->]; done. }
    assert (Hal : TEAM_ALLOCATION < two63) by done.
    split; [|split].
    - intros s i a x r Hsd Hi Hx Hun. cbn [cmsg]. unfold msg_claim_unlocked. rewrite (Hau s Hsd).
      change (ts_accounts (t_in c)) with (ts_accounts (c_t c)). rewrite Hi. change (ts_time (t_in c)) with (ts_time (c_t c)).
      destruct HT as [Ht HF]. rewrite Forall_lookup in HF. destruct (HF _ _ Hi) as (Ha & Hl & Hcl).
      pose proof (unlocked_le_vested a _ Ha (sane_now a _ Ht)) as Huv.
      assert (Hcb : x <= claimable a (ts_time (c_t c))).
      { unfold claimable. destruct (_ <? _) eqn:E; [|lia]. rewrite u64_sub_le; lia. }
      destruct (_ <? x) eqn:E; [lia|].
      assert (Hsum : zsum va_claimed (ts_accounts (c_t c)) + x <= TEAM_ALLOCATION).
      { pose proof (zsum_elem (fun a => vested a (ts_time (c_t c)) - va_claimed a) (ts_accounts (c_t c)) i a) as He. cbn beta in He.
        assert (Hz : forall l, zsum (fun a => vested a (ts_time (c_t c)) - va_claimed a) l = zsum (fun a => vested a (ts_time (c_t c))) l - zsum va_claimed l).
        { induction l as [|y l IH]; [done|]. cbn. fold (zsum (fun a => vested a (ts_time (c_t c)) - va_claimed a) l) (zsum (fun a => vested a (ts_time (c_t c))) l) (zsum va_claimed l). lia. }
        rewrite Hz in He. assert (vested a (ts_time (c_t c)) - va_claimed a <= zsum (fun a => vested a (ts_time (c_t c))) (ts_accounts (c_t c)) - zsum va_claimed (ts_accounts (c_t c))).
        { apply He; [|done]. eapply Forall_impl; [exact C4|]. cbn. lia. } lia. }
      destruct (transfer_ok (c_bank c) MTeam (User r) x) as [b' Eb]; [lia|lia|]. change (ts_bank (t_in c)) with (c_bank c). rewrite Eb. by eexists.
    - intros s i a x r Hsd Hi Hx Hun. cbn [cmsg]. unfold msg_claim_rewards. rewrite (Hau s Hsd).
      change (ts_accounts (t_in c)) with (ts_accounts (c_t c)). rewrite Hi. rewrite Forall_lookup in M1. pose proof (M1 _ _ Hi) as Hr. cbn in Hr.
      rewrite u64_sub_le by lia. destruct (_ <? x) eqn:E; [lia|].
      pose proof (zsum_elem (fun a => va_rewards a - va_rclaimed a) (ts_accounts (c_t c)) i a N2 Hi) as He. cbn beta in He.
      pose proof (zsum_elem va_rewards (ts_accounts (c_t c)) i a) as He2. rewrite Forall_lookup in He2.
      specialize (He2 (fun k y Hy => ltac:(pose proof (M1 _ _ Hy); cbn in *; lia)) Hi).
      destruct (transfer_ok (c_bank c) MTeam (User r) x) as [b' Eb]; [lia|lia|]. change (ts_bank (t_in c)) with (c_bank c). rewrite Eb. by eexists.
    - intros x r Hx Hun. cbn [cmsg]. unfold msg_claim_authority. rewrite N.eqb_refl. cbn [negb].
      change (ts_aclaimed (t_in c)) with (ts_aclaimed (c_t c)). change (ts_arewards (t_in c)) with (ts_arewards (c_t c)).
      rewrite u64_sub_le by lia. destruct (_ <? x) eqn:E; [lia|].
      destruct (transfer_ok (c_bank c) MTeam (User r) x) as [b' Eb]; [lia|lia|]. change (ts_bank (t_in c)) with (c_bank c). rewrite Eb. by eexists.
  Qed.
End wide.
