(** * What an accepted message does (proofs).

    The effects are stated for the messages as they arrive ([rmsg]) and in terms of what is stored
    per user: delegations, the record of a staker, memberships, fundings, team accounts, balances.
    Messages of x/bundles that can evaluate a bundle (submit and skip) are left out where they
    pay, charge or slash; C19-C25 and C31 are about them. *)
From Verif Require Import Base BaseFacts Delegation F1Spec DelegationInv DelegationQueue DelegationClaims DelegationClaims2 DelegationClaims3
  Stakers Funders FundersInv FundersRun Team RoundRobin Pool Bundles Chain
  ChainFrame BankMoves StakersInv StakersClaims StakersClaims2 ChainLift MoneyFlow Walk Global Params ParamsFrame ParamsClaims IndexInv Wire WireFrame WireClaims.

(** ** What is observed *)
Definition del (c : chain) (s d : N) : Z := delegation_of (c_d c) s d.
Definition balance (c : chain) (u d : N) : Z := bal (c_bank c) (User u) d.
Definition record_of (c : chain) (s : N) : option staker := ss_stakers (c_s c) !! s.
Definition membership (c : chain) (p s : N) : option valacc := get_val (c_s c) p s.
Definition remaining (c : chain) (a p d : N) : Z := match fs_fundings (c_f c) !! (a, p) with Some f => amt (fd_amounts f) d | None => 0 end.
Definition per_bundle (c : chain) (a p d : N) : Z := match fs_fundings (c_f c) !! (a, p) with Some f => amt (fd_apb f) d | None => 0 end.
(** The amount of a denom in the coins of a message. *)
Fixpoint carried (l : rcoins) (d : N) : Z :=
  match l with [] => 0 | c :: t => (if (fst c =? d)%N then default 0 (snd c) else 0) + carried t d end.
Lemma carried_other l d : (forall c, c ∈ l -> fst c <> d) -> carried l d = 0.
Proof.
  induction l as [|c l IH]; intros H; [done|]. cbn [carried]. destruct (N.eqb_spec (fst c) d) as [E|_]; [destruct (H c); [set_solver|done]|].
  rewrite IH; [done|]. intros e He. apply H. set_solver.
Qed.
Lemma carried_amt gr l d : coins_wf gr l -> amt (to_coins l) d = carried l d.
Proof.
  intros H. induction l as [|[e y] l IH]; [done|].
  assert (Hl : coins_wf gr l).
  { destruct H as [H1 H2]. split; [intros c Hc; apply H1; set_solver|]. intros i j c f Hij Hi Hj. apply (H2 (S i) (S j)); [lia|done|done]. }
  pose proof (coins_wf_nodup gr _ H) as Hn. cbn in Hn. apply NoDup_cons in Hn as [Hn _].
  unfold to_coins in *. cbn [fmap list_fmap list_to_map fst snd carried foldr]. unfold amt at 1.
  destruct (N.eqb_spec e d) as [->|Hne].
  - cbn. rewrite lookup_insert. rewrite carried_other; [cbn; lia|]. intros c Hc E. apply Hn. rewrite <- E.
    apply elem_of_list_In, List.in_map, elem_of_list_In. done.
  - cbn. rewrite lookup_insert_ne by done. rewrite <- (IH Hl). done.
Qed.

(** ** The payments *)
(** What the sender pays at most. *)
Definition pays (m : rmsg) (d : N) : Z :=
  match m with
  | RDelegate _ _ a | RCreateStaker _ _ a | RJoin _ _ _ a => if (d =? KYVE)%N then a else 0
  | RFund _ _ x _ => carried x d
  | _ => 0
  end.

Section effects.
  Context (gr : grammar) (g : gen) (Hg : genesis g).

  Lemma agreed_pays m o u d : wellformed gr m -> decode m = Some o -> agreed o u d = if (sender_of m =? u)%N then pays m d else 0.
  Proof.
    intros [_ Hw]. destruct m; cbn [decode]; try done; try (destruct payload; [cbn|done]); intros [= <-]; cbn [agreed sender_of pays];
      try done; try (by destruct (_ =? _)%N).
    destruct Hw as (_ & Hw & _). by rewrite (carried_amt gr).
  Qed.
  Lemma claim_pays l m u d r r' : cops_ok (gstart g) l -> r_c r = crun (gstart g) l -> typed m -> moderate (r_c r) m ->
    deliver gr r m = Some r' -> balance (r_c r) u d - (if (sender_of m =? u)%N then pays m d else 0) <= balance (r_c r') u d.
  Proof.
    intros Hl Hc Ht Hm. pose proof (G_run g Hg l Hl) as HG. rewrite <- Hc in HG.
    unfold deliver. destruct (validate gr m) eqn:Ev; [|done]. apply claim_validate in Ev. destruct (payable_to gr m); [|done]. cbn [andb negb].
    assert (Hmain : forall o c', decode m = Some o -> cmsg (r_c r) o = Some c' -> balance (r_c r) u d - (if (sender_of m =? u)%N then pays m d else 0) <= balance c' u d).
    { intros o c' Hd Hcm. destruct (accepted_ok g gr (r_c r) m o c' HG Ht Hm Ev Hd Hcm) as (H1 & _ & _).
      rewrite <- (agreed_pays m o u d Ev Hd). rewrite Hc in H1. pose proof (m_signer g l o u d Hg Hl H1) as H. rewrite <- Hc in H.
      unfold balance. replace c' with (cstep (r_c r) o) by (unfold cstep; by rewrite Hcm). apply H. by destruct m; try done; cbn in Hd; try (destruct payload; [|done]); injection Hd as <-. }
    assert (Hz : forall r'', c_bank (r_c r'') = c_bank (r_c r) -> (forall d, pays m d = 0) -> balance (r_c r) u d - (if (sender_of m =? u)%N then pays m d else 0) <= balance (r_c r'') u d).
    { intros r'' E H0. rewrite H0. unfold balance. rewrite E. destruct (_ =? _)%N; lia. }
    destruct m;
      try (destruct (decode _) as [o|] eqn:Ed; [|done]; destruct (cmsg (r_c r) o) as [c'|] eqn:Ec; [|done]; cbv zeta; intros H; injection H as <-;
           apply (Hmain o c' eq_refl Ec)).
    - destruct (staker_exists _ _); [|done]. intros [= <-]. by apply Hz.
    - case_bool_decide; [|done]. intros [= <-]. by apply Hz.
    - destruct payload as [y|]; [|done]. destruct (msg_update _ _ _) as [u'|] eqn:Eu; [|done]. intros [= <-]. apply Hz; [|done].
      unfold msg_update in Eu. destruct (negb _); [done|]. destruct (negb _); [done|]. cbv zeta in Eu. injection Eu as <-. by destruct y.
  Qed.

  (** ** Delegations *)
  Definition delegation_effect (c c' : chain) (m : rmsg) : Prop :=
    match m with
    | RDelegate u s a =>
        staker_exists c s = true /\ forall t d, del c' t d = del c t d + if decide (t = s /\ d = u) then a else 0
    | RCreateStaker u _ a =>
        staker_exists c u = false /\ forall t d, del c' t d = del c t d + if decide (t = u /\ d = u) then a else 0
    | RRedelegate u s s' a =>
        staker_exists c s' = true /\ is_active (c_s c) s' = true /\ 0 <= a <= del c s u /\
        forall t d, del c' t d = del c t d - (if decide (t = s /\ d = u) then a else 0) + if decide (t = s' /\ d = u) then a else 0
    | RUndelegate u s a =>
        a <= del c s u /\ (forall t d, del c' t d = del c t d) /\ c_bank c' = c_bank c /\
        exists i, ds_queue (c_d c) !! i = None /\ ds_queue (c_d c') = <[i := Delegation.mkU s u a (ds_time (c_d c))]> (ds_queue (c_d c))
    | RWithdraw u s =>
        (forall t d, del c' t d = del c t d) /\ forall d, balance c' u d = balance c u d + amt (payable (d_in c) s u) d
    | RSubmit _ | RSkip _ _ _ _ => True
    | _ => forall t d, del c' t d = del c t d
    end.
  Lemma del_other l c o t d u : reached l (d_in c) -> dop_ok (d_in c) o -> actor o = Some u -> d <> u ->
    delegation_of (dstep (d_in c) o) t d = del c t d.
  Proof.
    intros Hr Hok Ha Hd. refine (proj1 (claim_isolated l (d_in c) o t d Hr Hok _ _ _ _)).
    - rewrite Ha. congruence.
    - intros (e & He & _). by destruct o.
    - intros x y ->. done.
    - intros ty ->. done.
  Qed.
  Lemma del_getf st st' t d : getf st' t = getf st t -> delegation_of st' t d = delegation_of st t d.
  Proof. unfold delegation_of. by intros ->. Qed.
  Lemma delegate_all l c ex u s a st' : reached l (d_in c) -> 0 <= a < two63 -> msg_delegate (d_in c) ex u s a = Some st' ->
    forall t d, delegation_of st' t d = del c t d + if decide (t = s /\ d = u) then a else 0.
  Proof.
    intros Hr Ha Hm t d. destruct (decide (d = u)) as [->|Hd].
    - destruct (decide (t = s)) as [->|Ht].
      + rewrite decide_True by done. exact (proj1 (proj2 (claim_delegate l _ ex u s a st' Hr Ha Hm))).
      + rewrite decide_False by naive_solver. rewrite Z.add_0_r. unfold msg_delegate in Hm. destruct (negb ex); [done|]. cbv zeta in Hm.
        destruct (send _ _ _ _); [|done]. injection Hm as <-. change (delegation_of (perform_delegation (d_in c) s u a) t u = delegation_of (d_in c) t u).
        apply del_getf. by apply getf_delegation.
    - rewrite decide_False by naive_solver. rewrite Z.add_0_r. pose proof (del_other l c (ODelegate ex u s a) t d u Hr Ha eq_refl Hd) as H.
      cbn [dstep] in H. rewrite Hm in H. exact H.
  Qed.
  Lemma redelegate_all l c ex act u s s' a st' : reached l (d_in c) -> 0 <= a < two63 -> msg_redelegate (d_in c) ex act u s s' a = Some st' ->
    forall t d, delegation_of st' t d = del c t d - (if decide (t = s /\ d = u) then a else 0) + if decide (t = s' /\ d = u) then a else 0.
  Proof.
    intros Hr Ha Hm t d. destruct (decide (d = u)) as [->|Hd].
    - destruct (claim_redelegate l _ ex act u s s' a st' Hr Ha Hm) as (_ & _ & _ & H1 & H2 & _).
      destruct (decide (s = s')) as [<-|Hne].
      + destruct (decide (t = s)) as [->|Ht]; [rewrite (H2 eq_refl); unfold del; change (delegation_of (d_in c)) with (delegation_of (c_d c)); repeat case_decide; lia|].
        rewrite decide_False by naive_solver. replace (del c t u - 0 + 0) with (del c t u) by lia. clear H1 H2.
        revert Hm. unfold msg_redelegate. destruct (negb _); [done|]. destruct (negb ex); [done|]. destruct (negb act); [done|]. destruct (_ >? _); [done|].
        destruct (consume_spell _ _ _); [|done]. cbv zeta. destruct (perform_undelegation _ _ _ _) as [st2 x] eqn:E. destruct (negb _); [done|]. intros [= <-].
        apply del_getf. rewrite getf_delegation by done. change st2 with (fst (st2, x)). rewrite <- E. etransitivity; [apply getf_undelegation; [lia|left; congruence]|done].
      + destruct (H1 Hne) as [H3 H4]. change (delegation_of (d_in c)) with (delegation_of (c_d c)) in H3, H4.
        destruct (decide (t = s)) as [->|Ht]; [rewrite H3, decide_True, decide_False by naive_solver; unfold del; lia|].
        destruct (decide (t = s')) as [->|Ht']; [rewrite H4, decide_False, decide_True by naive_solver; unfold del; lia|].
        rewrite !decide_False by naive_solver. replace (del c t u - 0 + 0) with (del c t u) by lia. clear H1 H2 H3 H4.
        revert Hm. unfold msg_redelegate. destruct (negb _); [done|]. destruct (negb ex); [done|]. destruct (negb act); [done|]. destruct (_ >? _); [done|].
        destruct (consume_spell _ _ _); [|done]. cbv zeta. destruct (perform_undelegation _ _ _ _) as [st2 x] eqn:E. destruct (negb _); [done|]. intros [= <-].
        apply del_getf. rewrite getf_delegation by done. change st2 with (fst (st2, x)). rewrite <- E. etransitivity; [apply getf_undelegation; [lia|left; congruence]|done].
    - rewrite !decide_False by naive_solver. replace (del c t d - 0 + 0) with (del c t d) by lia.
      pose proof (del_other l c (ORedelegate ex act u s s' a) t d u Hr Ha eq_refl Hd) as H. cbn [dstep] in H. rewrite Hm in H. exact H.
  Qed.
  Lemma withdraw_all l c u s st' : reached l (d_in c) -> msg_withdraw (d_in c) u s = Some st' -> forall t d, delegation_of st' t d = del c t d.
  Proof.
    intros Hr Hm t d. destruct (decide (d = u)) as [->|Hd].
    - destruct (decide (t = s)) as [->|Ht]; [exact (proj1 (proj2 (claim_after_withdraw l _ st' s u Hr Hm)))|].
      unfold msg_withdraw in Hm. destruct (negb _); [done|]. pose proof (getf_withdrawal (d_in c) s u t (or_introl (not_eq_sym Ht))) as H.
      destruct (perform_withdrawal (d_in c) s u) as [st1 [x|]]; [|done]. injection Hm as <-. change (del c t u) with (delegation_of (d_in c) t u). by apply del_getf.
    - pose proof (del_other l c (OWithdraw u s) t d u Hr I eq_refl Hd) as H. cbn [dstep] in H. rewrite Hm in H. exact H.
  Qed.
  (** The messages that do not touch x/delegation. *)
  Definition dk (c c' : chain) : Prop := c_d c' = c_d c.
  Lemma disable_parts c sender p c' : chain_disable_pool c sender p = Some c' ->
    c_d c' = c_d c /\ c_f c' = c_f c /\ c_t c' = c_t c /\ ss_stakers (c_s c') = ss_stakers (c_s c).
  Proof.
    unfold chain_disable_pool. destruct (disable_record _ _ _) as [ps|]; [|done]. cbv zeta. set (c2 := fold_left _ _ _).
    assert (H2 : c_d c2 = c_d c /\ c_f c2 = c_f c /\ c_t c2 = c_t c /\ ss_stakers (c_s c2) = ss_stakers (c_s c)).
    { unfold c2. change (c_d c) with (c_d (cw_pools c ps)). change (c_f c) with (c_f (cw_pools c ps)). change (c_t c) with (c_t (cw_pools c ps)).
      change (c_s c) with (c_s (cw_pools c ps)).
      apply (k_fold (fun a b => c_d b = c_d a /\ c_f b = c_f a /\ c_t b = c_t a /\ ss_stakers (c_s b) = ss_stakers (c_s a))); [done| |].
      - intros x y z (?&?&?&?) (?&?&?&?). split_and!; congruence.
      - intros x s. split_and!; try done. exact (proj1 (leave_frame (s_in x) s p)). }
    destruct (_ <=? _); [done|]. destruct (0 <? _); [|by intros [= <-]]. destruct (i64 _ <? 0); [done|].
    destruct (send _ _ _ _); [|done]. by intros [= <-].
  Qed.
  Lemma vote_parts c p s v st w c' : msg_vote c p s v st w = Some c' -> c_d c' = c_d c /\ c_f c' = c_f c /\ c_t c' = c_t c /\ c_bank c' = c_bank c.
  Proof.
    unfold msg_vote. destruct (negb _); [done|]. cbv zeta. destruct (match w with Valid => _ | _ => _ end); [|done]. intros [= <-]. split_and!; try done.
    cbn. unfold reset_points. by destruct (get_val _ _ _).
  Qed.
  Lemma claim_delegation_effect m o c c' : G g c -> typed m -> moderate c m -> wellformed gr m -> decode m = Some o -> cmsg c o = Some c' ->
    delegation_effect c c' m.
  Proof.
    intros HG Ht Hm Hw Hd Hc. destruct (accepted_ok g gr c m o c' HG Ht Hm Hw Hd Hc) as (Hok & _ & _).
    destruct (G_reached g Hg c HG) as [l Hr].
    destruct m; cbn [decode] in Hd; try done; try (destruct payload; [cbn in Hd|done]); injection Hd as <-; cbn [cmsg] in Hc; cbn [cop_ok] in Hok; cbn [delegation_effect];
      try (by (match type of Hc with ?f <$> ?x = _ => destruct x; [injection Hc as <-|done] end)).
    - destruct (msg_delegate _ _ _ _ _) as [st'|] eqn:E; [|done]. injection Hc as <-. split.
      + unfold msg_delegate in E. by destruct (staker_exists c staker).
      + intros t d. exact (delegate_all l c _ creator staker a st' Hr Hok E t d).
    - destruct (msg_undelegate _ _ _ _) as [st'|] eqn:E; [|done]. injection Hc as <-. unfold msg_undelegate in E.
      destruct (a >? _) eqn:Ea; [done|]. injection E as <-. change (delegation_of (d_in c)) with (delegation_of (c_d c)) in Ea. unfold del.
      split_and!; [lia|done|done|]. exists (ds_high (c_d c) + 1)%N. split; [|done].
      destruct (g_d _ _ HG) as (dops & Hdo & Hdr & _). unfold d0 in Hdo, Hdr. destruct (queue_run _ _ dops (QRel_init _ _ _) Hdo) as (HQ & _). rewrite <- Hdr in HQ.
      destruct (ds_queue (c_d c) !! (ds_high (c_d c) + 1)%N) eqn:Eq; [|done].
      pose proof (q_out _ _ HQ (ds_high (c_d c) + 1)%N) as Hq. change (ds_queue (d_in c)) with (ds_queue (c_d c)) in Hq.
      change (ds_high (d_in c)) with (ds_high (c_d c)) in Hq. rewrite Eq in Hq. specialize (Hq ltac:(eauto)). lia.
    - destruct (msg_redelegate _ _ _ _ _ _ _) as [st'|] eqn:E; [|done]. injection Hc as <-.
      destruct (claim_redelegate l _ _ _ _ _ _ _ st' Hr Hok E) as (H1 & H2 & H3 & _).
      split_and!; try done; [lia|]. intros t d. exact (redelegate_all l c _ _ creator from to a st' Hr Hok E t d).
    - destruct (msg_withdraw _ _ _) as [st'|] eqn:E; [|done]. injection Hc as <-. split.
      + intros t d. exact (withdraw_all l c creator staker st' Hr E t d).
      + intros d. exact (proj2 (proj2 (proj2 (claim_after_withdraw l _ st' staker creator Hr E))) d).
    - unfold chain_create_staker in Hc. destruct (msg_delegate _ _ _ _ _) as [st'|] eqn:E; [|done]. unfold msg_create_staker in Hc.
      destruct (ss_stakers (c_s c) !! creator) as [y|] eqn:Es; [done|]. injection Hc as <-. split.
      + unfold staker_exists. rewrite Es. apply bool_decide_eq_false. by intros [? ?].
      + intros t d. exact (delegate_all l c true creator creator a st' Hr (proj2 (proj2 Hok)) E t d).
    - apply vote_parts in Hc as [E _]. intros t d. unfold del. by rewrite E.
    - unfold msg_claim_role in Hc. repeat (destruct (negb _); [done|]). by injection Hc as <-.
    - unfold chain_create_pool in Hc. destruct (msg_create_pool _ _ _ _ _); [|done]. by injection Hc as <-.
    - apply disable_parts in Hc as [E _]. intros t d. unfold del. by rewrite E.
  Qed.

  (** ** Stakers *)
  Definition same_stakers (c c' : chain) : Prop :=
    (forall t, record_of c' t = record_of c t) /\ (forall q t, membership c' q t = membership c q t).
  Definition staker_effect (c c' : chain) (m : rmsg) : Prop :=
    match m with
    | RCreateStaker u com _ =>
        (forall t, record_of c' t = if decide (t = u) then Some (mkSt (default DEFAULT_COMMISSION com) ∅) else record_of c t) /\
        (forall q t, membership c' q t = membership c q t)
    | RCommission u com =>
        staker_exists c u = true /\ same_stakers c c' /\ c_bank c' = c_bank c /\
        exists x i, com = Some x /\ ss_centries (c_s c') !! i = Some (mkCE u x (ss_time (c_s c))) /\ ss_cindex (c_s c') !! u = Some i
    | RClaimCommission u l =>
        exists x, record_of c u = Some x /\
        (exists r, record_of c' u = Some (mkSt (st_commission x) r) /\ forall d, amt r d = amt (st_rewards x) d - carried l d) /\
        (forall t, t <> u -> record_of c' t = record_of c t) /\ (forall q t, membership c' q t = membership c q t) /\
        (forall d, 0 < carried l d -> carried l d <= amt (st_rewards x) d) /\
        (forall t d, balance c' t d = balance c t d + if decide (t = u) then carried l d else 0)
    | RJoin u p v a =>
        staker_exists c u = true /\ u <> v /\ pl_disabled <$> get_pool c p = Some false /\
        (forall t, record_of c' t = record_of c t) /\
        membership c p u = None /\ membership c' p u = Some (mkVal v 0 false) /\
        (forall q t, q <> p -> membership c' q t = membership c q t) /\
        ((forall t, t <> u -> membership c' p t = membership c p t) \/
         exists b, b <> u /\ is_Some (membership c p b) /\ membership c' p b = None /\
           power c b < power c u /\ (forall t, is_Some (membership c p t) -> power c b <= power c t) /\
           (forall t, t <> u -> t <> b -> membership c' p t = membership c p t)) /\
        (forall t d, balance c' t d = balance c t d
           - (if decide (t = u /\ d = KYVE) then a else 0) + (if decide (t = v /\ d = KYVE) then a else 0))
    | RLeave u p =>
        (forall t, record_of c' t = record_of c t) /\ c_bank c' = c_bank c /\
        exists w i, membership c p u = Some w /\ membership c' p u = Some (mkVal (vl_addr w) (vl_points w) true) /\
        (forall q t, (q, t) <> (p, u) -> membership c' q t = membership c q t) /\
        ss_lentries (c_s c') = <[i := mkLE u p (ss_time (c_s c))]> (ss_lentries (c_s c))
    | RVote _ _ _ _ _ | RDisablePool _ _ => forall t, record_of c' t = record_of c t
    | RSubmit _ | RSkip _ _ _ _ => True
    | _ => same_stakers c c'
    end.
  Lemma G_MI c : G g c -> MI (s_in c).
  Proof. intros HG. destruct (g_s _ _ HG) as (ops & Hok & E). rewrite E. by apply MI_run, MI_init. Qed.
  Lemma pay_kyve_bal b from to a b' : pay_kyve b from to a = Some b' ->
    forall w d, bal b' w d = bal b w d - (if decide (from = w /\ KYVE = d) then a else 0) + (if decide (to = w /\ KYVE = d) then a else 0).
  Proof.
    intros H w d. unfold pay_kyve in H. destruct (i64 a <? 0); [done|]. apply send_Some in H as (_ & H).
    rewrite H. rewrite amt_coin. repeat case_decide; destruct_and?; try done; naive_solver lia.
  Qed.
  Lemma exists_record c u : is_Some (ss_stakers (c_s c) !! u) -> staker_exists c u = true.
  Proof. intros H. unfold staker_exists. by apply bool_decide_eq_true. Qed.
  Lemma claim_staker_effect m o c c' : G g c -> typed m -> moderate c m -> wellformed gr m -> decode m = Some o -> cmsg c o = Some c' ->
    staker_effect c c' m.
  Proof.
    intros HG Ht Hm Hw Hd Hc. pose proof (G_MI c HG) as HM.
    destruct m; cbn [decode] in Hd; try done; try (destruct payload; [cbn in Hd|done]); injection Hd as <-; cbn [cmsg] in Hc; cbn [staker_effect];
      try (by (match type of Hc with ?f <$> ?x = _ => destruct x; [injection Hc as <-|done] end)).
    - unfold chain_create_staker in Hc. destruct (msg_delegate _ _ _ _ _) as [st'|] eqn:E; [|done]. unfold msg_create_staker in Hc.
      destruct (ss_stakers (c_s c) !! creator) as [y|] eqn:Es; [done|]. injection Hc as <-. split; [|done].
      intros t. unfold record_of. cbn. case_decide; [subst; by rewrite lookup_insert|by rewrite lookup_insert_ne].
    - destruct Hw as [_ Hw]. cbn in Hw. unfold msg_update_commission in Hc. change (ss_stakers (s_in c)) with (ss_stakers (c_s c)) in Hc.
      destruct (ss_stakers (c_s c) !! creator) as [y|] eqn:Es; [|done]. injection Hc as <-.
      split; [apply exists_record; eauto|].
      destruct Hw as (x & -> & _). change (default 0 (Some x)) with x.
      set (st1 := match ss_cindex (s_in c) !! creator with None => s_in c | Some i => match ss_centries (s_in c) !! i with None => s_in c | Some e => remove_centry (s_in c) i e end end).
      assert (H1 : ss_stakers st1 = ss_stakers (c_s c) /\ ss_val st1 = ss_val (c_s c) /\ ss_bank st1 = c_bank c /\ ss_time st1 = ss_time (c_s c)).
      { unfold st1. destruct (ss_cindex _ !! _) as [i|]; [|done]. by destruct (ss_centries _ !! _). }
      destruct H1 as (H1 & H2 & H3 & H4).
      replace (order_commission (s_in c) creator x) with (with_cq st1 (<[(ss_chigh st1 + 1)%N := mkCE creator x (ss_time st1)]> (ss_centries st1)) (<[creator := (ss_chigh st1 + 1)%N]> (ss_cindex st1)) (ss_clow st1) (ss_chigh st1 + 1)%N) by reflexivity.
      split; [split|].
      + intros t. unfold record_of. cbn. by rewrite H1.
      + intros q t. unfold membership, get_val, vals_of. cbn. by rewrite H2.
      + split; [exact H3|]. exists x, (ss_chigh st1 + 1)%N. cbn. rewrite !lookup_insert, H4. done.
    - destruct Hw as [_ [_ Hw]]. unfold msg_claim_commission in Hc. change (ss_stakers (s_in c)) with (ss_stakers (c_s c)) in Hc.
      destruct (ss_stakers (c_s c) !! creator) as [y|] eqn:Es; [|done]. destruct (cle _ _) eqn:El; [|done]. cbn [negb] in Hc.
      destruct (send _ _ _ _) as [b|] eqn:Eb; [|done]. injection Hc as <-. apply send_Some in Eb as [_ Eb].
      assert (Hl : forall d, amt (to_coins x) d = carried x d) by (intros d; by apply (carried_amt gr)).
      exists y. split; [done|]. split; [eexists; split; [unfold record_of; cbn; by rewrite lookup_insert|intros d; by rewrite amt_csub, Hl]|].
      split; [intros t Hne; unfold record_of; cbn; by rewrite lookup_insert_ne|]. split; [done|]. split.
      + intros d. rewrite <- Hl. unfold amt at 1 2. destruct (to_coins _ !! d) as [z|] eqn:Ez; [|cbn; lia]. intros _. by apply (proj1 (cle_spec _ _) El).
      + intros t d. unfold balance. cbn. rewrite Eb, decide_False by done. change (ss_bank (s_in c)) with (c_bank c). rewrite Hl. repeat case_decide; naive_solver lia.
    - destruct (msg_join _ _ _ _ _ _ _) as [st'|] eqn:E; [|done]. injection Hc as <-. apply join_inv in E as (H1 & H2 & H3 & H4 & st1 & b & H5 & _ & _ & H6 & ->).
      assert (Hp : forall x, 0 <= power c x < two63) by (intros x; split; [by apply (G_power g Hg)|apply Hm]).
      destruct (ensure_slot_spec _ _ _ _ _ HM Hp H5) as (HM1 & _ & Hcase).
      assert (Hs1 : ss_stakers st1 = ss_stakers (c_s c) /\ ss_bank st1 = c_bank c /\ get_val st1 p creator = None).
      { destruct Hcase as [[_ ->]|(_ & l & -> & _)]; [done|]. split; [exact (proj1 (leave_frame (s_in c) l p))|]. split.
        - unfold leave_pool. destruct (get_val (s_in c) p l); reflexivity.
        - rewrite get_leave. by case_decide. }
      destruct Hs1 as (Hs1 & Hb1 & Hg1). change (ss_stakers (s_in c)) with (ss_stakers (c_s c)) in H2. rewrite <- Hs1 in H2.
      assert (Hga : forall q t, membership (s_out c (with_sbank (add_val st1 p creator valaddress) b)) q t = if decide (p = q /\ creator = t) then Some (mkVal valaddress 0 false) else get_val st1 q t).
      { intros q t. exact (get_add st1 p creator valaddress q t H2 Hg1). }
      split; [apply exists_record; by rewrite <- Hs1|]. split; [done|]. split; [done|].
      split. { intros t. unfold record_of. rewrite <- Hs1. cbn. by rewrite (proj1 (add_frame st1 creator p valaddress)). }
      split; [done|]. split; [by rewrite Hga, decide_True|].
      assert (Hcase' : st1 = s_in c \/ exists l, st1 = leave_pool (s_in c) l p /\ is_Some (membership c p l) /\ power c l < power c creator /\
        forall t, is_Some (membership c p t) -> power c l <= power c t).
      { destruct Hcase as [[_ ->]|(_ & l & H7 & H8 & H9 & H10)]; [by left|]. right. by exists l. }
      clear Hcase. split.
      { intros q t Hq. rewrite Hga, decide_False by naive_solver. destruct Hcase' as [->|(l & -> & _)]; [done|]. rewrite get_leave, decide_False by naive_solver. done. }
      split.
      { destruct Hcase' as [->|(l & -> & H7 & H8 & H9)].
        - left. intros t Htu. rewrite Hga, decide_False by naive_solver. done.
        - right. exists l. assert (l <> creator) by (intros ->; lia). split; [done|]. split; [done|].
          split; [rewrite Hga, decide_False, get_leave, decide_True by naive_solver; done|]. split; [done|]. split; [done|].
          intros t Ht1 Ht2. rewrite Hga, decide_False, get_leave, decide_False by naive_solver. done. }
      intros t d. unfold balance. cbn. rewrite (pay_kyve_bal _ _ _ _ _ H6), Hb1. repeat case_decide; destruct_and?; simplify_eq; try done; naive_solver lia.
    - destruct (msg_leave _ _ _) as [st'|] eqn:E; [|done]. injection Hc as <-. unfold msg_leave in E.
      destruct (get_val (s_in c) p creator) as [w|] eqn:Ew; [|done]. destruct (bool_decide _); [done|]. injection E as <-.
      split; [done|]. split; [done|]. exists w. eexists. split; [exact Ew|].
      assert (Hga : forall q t, get_val (set_val (s_in c) p creator (mkVal (vl_addr w) (vl_points w) true)) q t = if decide (p = q /\ creator = t) then Some (mkVal (vl_addr w) (vl_points w) true) else get_val (s_in c) q t) by (intros; apply get_set_val).
      split; [etransitivity; [apply (Hga p creator)|by rewrite decide_True]|]. split; [|done].
      intros q t Hne. etransitivity; [apply (Hga q t)|]. by rewrite decide_False by naive_solver.
    - unfold msg_vote in Hc. destruct (negb _); [done|]. cbv zeta in Hc. destruct (match w with Valid => _ | _ => _ end); [|done]. injection Hc as <-.
      intros t. unfold record_of. cbn. unfold reset_points. by destruct (get_val _ _ _).
    - unfold msg_claim_role in Hc. repeat (destruct (negb _); [done|]). by injection Hc as <-.
    - unfold chain_create_pool in Hc. destruct (msg_create_pool _ _ _ _ _); [|done]. by injection Hc as <-.
    - intros t. unfold record_of. by apply disable_parts in Hc as (_ & _ & _ & ->).
  Qed.

  (** ** Funders *)
  Definition same_funders (c c' : chain) : Prop := fs_fundings (c_f c') = fs_fundings (c_f c) /\ fs_funders (c_f c') = fs_funders (c_f c).
  Definition funder_effect (c c' : chain) (m : rmsg) : Prop :=
    match m with
    | RCreateFunder u _ =>
        u ∉ fs_funders (c_f c) /\ (forall a, a ∈ fs_funders (c_f c') <-> a = u \/ a ∈ fs_funders (c_f c)) /\
        fs_fundings (c_f c') = fs_fundings (c_f c) /\ c_bank c' = c_bank c
    | RFund u p x y =>
        u ∈ fs_funders (c_f c) /\ fs_funders (c_f c') = fs_funders (c_f c) /\
        (forall d, remaining c' u p d = remaining c u p d + carried x d) /\
        (forall d, per_bundle c' u p d = if remaining c' u p d =? 0 then 0 else if carried y d =? 0 then per_bundle c u p d else carried y d) /\
        (* nobody else is touched, except the funder who has to make room *)
        exists out, match out with None => True | Some b => b <> u /\ forall d, remaining c' b p d = 0 end /\
        (forall k, k <> (u, p) -> match out with Some b => k <> (b, p) | None => True end -> fs_fundings (c_f c') !! k = fs_fundings (c_f c) !! k) /\
        (forall t d, balance c' t d = balance c t d - (if decide (t = u) then carried x d else 0)
           + (if decide (Some t = out) then remaining c t p d else 0))
    | RDefund u p x =>
        fs_funders (c_f c') = fs_funders (c_f c) /\ is_Some (fs_fundings (c_f c) !! (u, p)) /\
        (forall d, remaining c' u p d = remaining c u p d - Z.min (remaining c u p d) (carried x d)) /\
        (forall d, per_bundle c' u p d = if remaining c' u p d =? 0 then 0 else per_bundle c u p d) /\
        (forall k, k <> (u, p) -> fs_fundings (c_f c') !! k = fs_fundings (c_f c) !! k) /\
        (forall t d, balance c' t d = balance c t d + if decide (t = u) then Z.min (remaining c u p d) (carried x d) else 0)
    | RSubmit _ | RSkip _ _ _ _ => True
    | _ => same_funders c c'
    end.
  Lemma claim_funder_effect m o c c' : G g c -> typed m -> moderate c m -> wellformed gr m -> decode m = Some o -> cmsg c o = Some c' ->
    funder_effect c c' m.
  Proof.
    intros HG Ht Hm Hw Hd Hc. pose proof (G_FInv g Hg c HG) as HF.
    destruct (accepted_ok g gr c m o c' HG Ht Hm Hw Hd Hc) as (Hok & _ & _).
    destruct m; cbn [decode] in Hd; try done; try (destruct payload; [cbn in Hd|done]); injection Hd as <-; cbn [cmsg] in Hc; cbn [cop_ok] in Hok; cbn [funder_effect];
      try (by (match type of Hc with ?f <$> ?x = _ => destruct x; [injection Hc as <-|done] end)).
    - unfold chain_create_staker in Hc. destruct (msg_delegate _ _ _ _ _) as [st'|] eqn:E; [|done].
      destruct (msg_create_staker _ _ _ _); [|done]. by injection Hc as <-.
    - destruct (msg_create_funder _ _) as [st'|] eqn:E; [|done]. injection Hc as <-. unfold msg_create_funder in E.
      destruct (bool_decide _) eqn:Eb; [done|]. injection E as <-. apply bool_decide_eq_false in Eb. split; [exact Eb|]. split; [|done].
      intros a. cbn. rewrite elem_of_union, elem_of_singleton. tauto.
    - destruct (msg_fund _ _ _ _ _ _) as [st'|] eqn:E; [|done]. injection Hc as <-. destruct Hok as (Hok1 & Hok2 & _).
      destruct Hw as (_ & _ & Hw1 & Hw2).
      assert (Hx : forall d, amt (to_coins amounts) d = carried amounts d) by (intros d; by apply (carried_amt gr)).
      assert (Hy : forall d, amt (to_coins per_bundle0) d = carried per_bundle0 d) by (intros d; by apply (carried_amt gr)).
      pose proof (new_funding_pos _ _ creator p _ _ HF Hok1 Hok2) as Hnp.
      destruct (fund_spec _ _ _ _ _ _ _ _ HF Hok1 Hok2 E) as (act & _ & Hin & _ & _ & _ & Hfu & _ & Hcase). cbv zeta in Hcase.
      set (nf := new_funding _ _ _ _ _) in *.
      assert (H1 : fs_fundings st' !! (creator, p) = Some (clean_apb nf)).
      { destruct Hcase as [(_ & E1 & _)|(b & fb & s & s0' & _ & _ & _ & _ & _ & _ & _ & E1 & _)]; by rewrite E1, lookup_insert. }
      assert (Hrem : forall d, remaining (f_out c st') creator p d = remaining c creator p d + carried amounts d).
      { intros d. unfold remaining at 1. cbn. rewrite H1. cbn. rewrite <- Hx. exact (new_funding_rem (f_in c) creator p _ _ d). }
      split; [exact Hin|]. split; [exact Hfu|]. split; [exact Hrem|]. split.
      { intros d. rewrite Hrem. unfold per_bundle at 1. cbn. rewrite H1, clean_apb_amt by exact Hnp.
        replace (amt (fd_amounts nf) d) with (remaining c creator p d + carried amounts d); cycle 1.
        { rewrite <- Hx. symmetry. exact (new_funding_rem (f_in c) creator p _ _ d). }
        destruct (_ =? 0); [done|]. unfold nf, new_funding, per_bundle. change (fs_fundings (f_in c)) with (fs_fundings (c_f c)).
        destruct (fs_fundings (c_f c) !! (creator, p)) as [f|]; cbn [fd_apb].
        - unfold merge_apb. rewrite amt_cadd, amt_cfilter, has_denom_spec, Hy by done. destruct (carried per_bundle0 d =? 0) eqn:E0; cbn [negb]; lia.
        - rewrite Hy. destruct (carried per_bundle0 d =? 0) eqn:E0; lia. }
      destruct Hcase as [(_ & E1 & _ & Hb)|(b & fb & s & s0' & Hbu & _ & _ & Hfb & _ & _ & _ & E1 & _ & Hb)].
      + exists None. split; [done|]. split; [intros k Hk _; change (fs_fundings (c_f (f_out c st'))) with (fs_fundings st'); by rewrite E1, lookup_insert_ne|].
        intros t d. unfold balance. cbn. rewrite Hb, Hx. change (fs_bank (f_in c)) with (c_bank c). repeat case_decide; simplify_eq; try done; lia.
      + exists (Some b). split; [split; [done|]|split].
        * intros d. unfold remaining. cbn. rewrite E1, lookup_insert_ne, lookup_insert by congruence. done.
        * intros k Hk Hk2. change (fs_fundings (c_f (f_out c st'))) with (fs_fundings st'). rewrite E1, !lookup_insert_ne by done. done.
        * intros t d. unfold balance. cbn. rewrite Hb, Hx. change (fs_bank (f_in c)) with (c_bank c).
          assert (Hr : remaining c b p d = amt (fd_amounts fb) d).
          { unfold remaining. change (fs_fundings (c_f c)) with (fs_fundings (f_in c)). by rewrite Hfb. }
          repeat case_decide; simplify_eq; try done; rewrite ?Hr; lia.
    - destruct (msg_defund _ _ _ _) as [st'|] eqn:E; [|done]. injection Hc as <-.
      destruct Hw as (_ & _ & Hw1).
      assert (Hx : forall d, amt (to_coins amounts) d = carried amounts d) by (intros d; by apply (carried_amt gr)).
      destruct (defund_spec _ _ _ _ _ _ HF (proj1 Hok) E) as (f & act & Hf & _ & _ & Hp & _ & _ & Hfu & _ & E1 & _ & Hb).
      change (fs_fundings (f_in c)) with (fs_fundings (c_f c)) in Hf, E1. change (fs_bank (f_in c)) with (c_bank c) in Hb.
      assert (Hr : forall d, remaining c creator p d = amt (fd_amounts f) d) by (intros d; unfold remaining; by rewrite Hf).
      assert (Hpb : forall d, per_bundle c creator p d = amt (fd_apb f) d) by (intros d; unfold per_bundle; by rewrite Hf).
      assert (Hrem : forall d, remaining (f_out c st') creator p d = remaining c creator p d - Z.min (remaining c creator p d) (carried amounts d)).
      { intros d. rewrite Hr. unfold remaining. cbn. rewrite E1, lookup_insert. cbn. by rewrite amt_csub, amt_cmin, Hx. }
      split; [exact Hfu|]. split; [eauto|]. split; [exact Hrem|]. split; [|split].
      + intros d. rewrite Hrem, Hr, Hpb. unfold per_bundle. cbn. rewrite E1, lookup_insert. destruct (fi_pos _ _ HF _ _ Hf) as (P1 & P2 & P3).
        cbn. rewrite amt_cfilter, has_denom_spec.
        * rewrite amt_csub, amt_cmin, Hx. by destruct (_ =? 0).
        * apply Hp.
      + intros k Hk. change (fs_fundings (c_f (f_out c st'))) with (fs_fundings st'). by rewrite E1, lookup_insert_ne.
      + intros t d. unfold balance. cbn. rewrite Hb, Hr, amt_cmin, Hx. repeat case_decide; simplify_eq; try done; lia.
    - apply vote_parts in Hc as (_ & E & _). unfold same_funders. by rewrite E.
    - unfold msg_claim_role in Hc. repeat (destruct (negb _); [done|]). by injection Hc as <-.
    - unfold chain_create_pool in Hc. destruct (msg_create_pool _ _ _ _ _); [|done]. by injection Hc as <-.
    - apply disable_parts in Hc as (_ & E & _). unfold same_funders. by rewrite E.
  Qed.

  (** ** The team *)
  Definition team_effect (c c' : chain) (m : rmsg) : Prop :=
    let accounts x := ts_accounts (c_t x) in
    let authority x := (ts_arewards (c_t x), ts_aclaimed (c_t x)) in
    let paid r a := forall t d, balance c' t d = balance c t d + if decide (t = r /\ d = KYVE) then a else 0 in
    match m with
    | RTeamCreate u total start =>
        is_authority u = true /\ accounts c' = accounts c ++ [mkVA total start 0 0 0 0 0] /\ authority c' = authority c /\ c_bank c' = c_bank c
    | RTeamClaim u i a r =>
        is_authority u = true /\ authority c' = authority c /\ paid r a /\
        exists x, accounts c !! i = Some x /\ accounts c' = <[i := mkVA (va_total x) (va_start x) (va_clawback x) ((va_claimed x + a) mod two64) (ts_time (c_t c)) (va_rewards x) (va_rclaimed x)]> (accounts c)
    | RTeamClawback u i t =>
        is_authority u = true /\ authority c' = authority c /\ c_bank c' = c_bank c /\
        exists x, accounts c !! i = Some x /\ (0 < t -> va_start x <= t /\ va_last x <= t) /\
          accounts c' = <[i := mkVA (va_total x) (va_start x) t (va_claimed x) (va_last x) (va_rewards x) (va_rclaimed x)]> (accounts c)
    | RTeamRewards u i a r =>
        is_authority u = true /\ authority c' = authority c /\ paid r a /\
        exists x, accounts c !! i = Some x /\ accounts c' = <[i := mkVA (va_total x) (va_start x) (va_clawback x) (va_claimed x) (va_last x) (va_rewards x) ((va_rclaimed x + a) mod two64)]> (accounts c)
    | RTeamAuthority u a r =>
        u = FOUNDATION /\ accounts c' = accounts c /\ paid r a /\ authority c' = (ts_arewards (c_t c), (ts_aclaimed (c_t c) + a) mod two64)
    | _ => accounts c' = accounts c /\ authority c' = authority c
    end.
  Definition tk (c c' : chain) : Prop := c_t c' = c_t c.
  Lemma tk_infl c p c' x : charge_inflation c p = Some (c', x) -> tk c c'.
  Proof. unfold charge_inflation. repeat case_match; intros; simplify_eq; done. Qed.
  Lemma tk_pay c u r : match pay_out c u r with inl c' | inr c' => tk c c' end.
  Proof.
    unfold pay_out. destruct (send _ _ _ _) as [bk|]; [|done]. destruct (increase_commission_rewards _ _ _ _) as [s'|]; [|done].
    by destruct (payout_rewards _ _ _ _) as [d|].
  Qed.
  Lemma tk_final c p v : tk c (finalize c p v).
  Proof. unfold finalize. by destruct (get_pool c p). Qed.
  Lemma tk_refl c : tk c c. Proof. done. Qed.
  Lemma tk_trans a b c : tk a b -> tk b c -> tk a c. Proof. unfold tk. congruence. Qed.
  Lemma transfer_bal b r a b' : transfer b MTeam (User r) a = Some b' ->
    forall t d, bal b' (User t) d = bal b (User t) d + if decide (t = r /\ d = KYVE) then a else 0.
  Proof.
    intros H t d. unfold transfer in H. destruct (i64 a <? 0); [done|]. apply send_Some in H as (_ & H). rewrite H, amt_coin.
    repeat case_decide; destruct_and?; simplify_eq; try done; naive_solver lia.
  Qed.
  Lemma claim_team_effect m o c c' : decode m = Some o -> cmsg c o = Some c' -> team_effect c c' m.
  Proof.
    intros Hd Hc.
    assert (Hs : c_t c' = c_t c -> ts_accounts (c_t c') = ts_accounts (c_t c) /\ (ts_arewards (c_t c'), ts_aclaimed (c_t c')) = (ts_arewards (c_t c), ts_aclaimed (c_t c))) by (by intros ->).
    destruct m; cbn [decode] in Hd; try done; try (destruct payload; [cbn in Hd|done]); injection Hd as <-; cbn [cmsg] in Hc; cbn [team_effect];
      try (apply Hs; by (match type of Hc with ?f <$> ?x = _ => destruct x; [injection Hc as <-|done] end)).
    - apply Hs. unfold chain_create_staker in Hc. destruct (msg_delegate _ _ _ _ _) as [st'|] eqn:E; [|done].
      destruct (msg_create_staker _ _ _ _); [|done]. by injection Hc as <-.
    - unfold msg_create in Hc. destruct (is_authority _); [|done]. cbn [negb] in Hc. destruct (_ || _); [done|]. destruct (_ <? _); [done|]. by injection Hc as <-.
    - unfold msg_claim_unlocked in Hc. destruct (is_authority _); [|done]. cbn [negb] in Hc.
      destruct (ts_accounts (t_in c) !! id) as [x|] eqn:Ex; [|done]. destruct (_ <? _); [done|]. destruct (transfer _ _ _ _) as [b|] eqn:Eb; [|done]. injection Hc as <-.
      split; [done|]. split; [done|]. split; [intros t d; exact (transfer_bal _ _ _ _ Eb t d)|]. by exists x.
    - unfold msg_clawback in Hc. destruct (is_authority _); [|done]. cbn [negb] in Hc.
      destruct (ts_accounts (t_in c) !! id) as [x|] eqn:Ex; [|done]. destruct (_ && _) eqn:E1; [done|]. destruct ((0 <? t) && (t <? va_last x)) eqn:E2; [done|]. injection Hc as <-.
      split; [done|]. split; [done|]. split; [done|]. exists x. split; [done|]. split; [lia|done].
    - unfold msg_claim_rewards in Hc. destruct (is_authority _); [|done]. cbn [negb] in Hc.
      destruct (ts_accounts (t_in c) !! id) as [x|] eqn:Ex; [|done]. destruct (_ <? _); [done|]. destruct (transfer _ _ _ _) as [b|] eqn:Eb; [|done]. injection Hc as <-.
      split; [done|]. split; [done|]. split; [intros t d; exact (transfer_bal _ _ _ _ Eb t d)|]. by exists x.
    - unfold msg_claim_authority in Hc. destruct (N.eqb_spec authority FOUNDATION) as [->|]; [|done]. cbn [negb] in Hc. destruct (_ <? _); [done|].
      destruct (transfer _ _ _ _) as [b|] eqn:Eb; [|done]. injection Hc as <-.
      split; [done|]. split; [done|]. split; [intros t d; exact (transfer_bal _ _ _ _ Eb t d)|done].
    - apply Hs. revert Hc. apply (k_submit tk tk_refl tk_trans); try exact tk_pay; try exact tk_infl; try exact tk_final; done.
    - apply Hs. by apply vote_parts in Hc as (_ & _ & E & _).
    - apply Hs. revert Hc. apply (k_skip tk tk_refl tk_trans); try exact tk_pay; try exact tk_infl; try exact tk_final; done.
    - apply Hs. unfold msg_claim_role in Hc. repeat (destruct (negb _); [done|]). by injection Hc as <-.
    - apply Hs. unfold chain_create_pool in Hc. destruct (msg_create_pool _ _ _ _ _); [|done]. by injection Hc as <-.
    - apply Hs. by apply disable_parts in Hc as (_ & _ & E & _).
  Qed.

  (** ** Bundles and pools *)
  Definition node_of (c : chain) (p s v : N) : Prop := exists x, membership c p s = Some x /\ vl_addr x = v.
  Definition bundle_effect (c c' : chain) (m : rmsg) : Prop :=
    match m with
    | RVote v s p st w =>
        node_of c p s v /\ st <> 0%N /\ bp_storage (get_prop c p) = st /\
        (forall q, q <> p -> get_prop c' q = get_prop c q) /\
        bp_valid (get_prop c' p) = bp_valid (get_prop c p) ++ (match w with Valid => [s] | _ => [] end) /\
        bp_invalid (get_prop c' p) = bp_invalid (get_prop c p) ++ (match w with Invalid => [s] | _ => [] end) /\
        (forall t, t <> s -> t ∈ bp_abstain (get_prop c' p) <-> t ∈ bp_abstain (get_prop c p)) /\
        (w = Abstain -> s ∈ bp_abstain (get_prop c' p)) /\ w <> OtherVote /\
        c_bank c' = c_bank c
    | RClaimRole v s p =>
        node_of c p s v /\ bp_next (get_prop c p) = 0%N /\ (forall q, q <> p -> get_prop c' q = get_prop c q) /\
        get_prop c' p = with_next (get_prop c p) s (c_time c) /\ c_bank c' = c_bank c
    | RSubmit m => node_of c (sb_pool m) (sb_staker m) (sb_creator m) /\ bp_next (get_prop c (sb_pool m)) = sb_staker m
    | RSkip v s p _ => node_of c p s v /\ bp_next (get_prop c p) = s
    | _ => forall q, get_prop c' q = get_prop c q
    end.
  Definition taken {A} (x : option A) (y : A) : A := match x with Some z => z | None => y end.
  Definition pool_effect (c c' : chain) (m : rmsg) : Prop :=
    match m with
    | RCreatePool u json w a =>
        u = AUTHORITY /\ json = true /\
        exists pl, get_pool c' (ps_count (c_pools c)) = Some pl /\
          w = Some (pl_weight pl) /\ pl_interval pl = ca_interval a /\ pl_mindel pl = ca_mindel a /\ pl_maxsize pl = ca_maxsize a /\
          pl_runtime pl = ca_runtime a /\ pl_endkey pl = ca_endkey a /\ pl_disabled pl = false /\
          (forall q, q <> ps_count (c_pools c) -> get_pool c' q = get_pool c q)
    | RUpdatePool u p a =>
        u = AUTHORITY /\ exists x pl pl', a = Some x /\ get_pool c p = Some pl /\ get_pool c' p = Some pl' /\
          pl_runtime pl' = taken (ua_runtime x) (pl_runtime pl) /\ pl_endkey pl' = taken (ua_endkey x) (pl_endkey pl) /\
          pl_interval pl' = taken (ua_interval x) (pl_interval pl) /\ pl_weight pl' = taken (ua_weight x) (pl_weight pl) /\
          pl_mindel pl' = taken (ua_mindel x) (pl_mindel pl) /\ pl_maxsize pl' = taken (ua_maxsize x) (pl_maxsize pl) /\
          pl_disabled pl' = pl_disabled pl /\ pl_index pl' = pl_index pl /\ pl_total pl' = pl_total pl /\ pl_plan pl' = pl_plan pl /\
          (forall q, q <> p -> get_pool c' q = get_pool c q)
    | REnablePool u p =>
        u = AUTHORITY /\ exists pl, get_pool c p = Some pl /\ pl_disabled pl = true /\ get_pool c' p = Some (with_disabled pl false) /\
          (forall q, q <> p -> get_pool c' q = get_pool c q)
    | RDisablePool u p =>
        u = AUTHORITY /\ exists pl, get_pool c p = Some pl /\ pl_disabled pl = false /\ get_pool c' p = Some (with_disabled pl true) /\
          (forall q, q <> p -> get_pool c' q = get_pool c q)
    | RSchedule u r v b t d =>
        u = AUTHORITY /\ v <> 0%N /\ b <> 0%N /\
        forall q pl, get_pool c q = Some pl ->
          get_pool c' q = Some (if decide (pl_runtime pl = r /\ pn_at (pl_plan pl) = 0) then with_plan pl (mkPlan v b (Z.max t (c_time c)) d) else pl)
    | RCancel u r =>
        u = AUTHORITY /\ forall q pl, get_pool c q = Some pl ->
          exists pl', get_pool c' q = Some pl' /\ (pl_runtime pl <> r -> pl' = pl) /\ (pl_runtime pl = r -> pn_at (pl_plan pl') = 0) /\
            pl' = with_plan pl (pl_plan pl')
    | RSubmit _ | RSkip _ _ _ _ => True
    | _ => forall q, get_pool c' q = get_pool c q
    end.
  Lemma authorized_node c p s v : authorized (c_s c) p s v = true -> node_of c p s v.
  Proof. unfold authorized, node_of, membership. destruct (get_val (c_s c) p s) as [x|]; [|done]. intros H. exists x. split; [done|lia]. Qed.
  Lemma propose_node c p s v f : can_propose c p s v f = true -> node_of c p s v /\ bp_next (get_prop c p) = s.
  Proof.
    unfold can_propose. destruct (get_pool c p); [|done]. rewrite !andb_true_iff. intros [[[[_ H1] H2] _] _]. split; [by apply authorized_node|lia].
  Qed.
  Lemma disable_fold c p sl : let c2 := fold_left (fun c s => s_out c (leave_pool (s_in c) s p)) sl c in c_pools c2 = c_pools c /\ c_prop c2 = c_prop c.
  Proof. cbv zeta. revert c. induction sl as [|s sl IH]; intros c; [done|]. cbn [fold_left]. destruct (IH (s_out c (leave_pool (s_in c) s p))) as [-> ->]. done. Qed.
  Lemma disable_pools c sender p c' : chain_disable_pool c sender p = Some c' -> disable_record (c_pools c) sender p = Some (c_pools c') /\ c_prop c' = c_prop c.
  Proof.
    unfold chain_disable_pool. destruct (disable_record _ _ _) as [ps|]; [|done]. cbv zeta. set (c2 := fold_left _ _ _).
    assert (H2 : c_pools c2 = ps /\ c_prop c2 = c_prop c) by (exact (disable_fold (cw_pools c ps) p _)). destruct H2 as [H2 H3].
    destruct (_ <=? _); [done|]. destruct (0 <? _); [|by intros [= <-]; rewrite H2]. destruct (i64 _ <? 0); [done|].
    destruct (send _ _ _ _); [|done]. intros [= <-]. cbn. by rewrite H2.
  Qed.
  Lemma remove_first_other s t l : t <> s -> t ∈ remove_first s l <-> t ∈ l.
  Proof.
    intros Ht. induction l as [|x l IH]; [done|]. cbn [remove_first]. destruct (N.eqb_spec x s) as [->|Hx]; rewrite ?elem_of_cons, ?IH; naive_solver.
  Qed.
  Lemma claim_bundle_effect m o c c' : decode m = Some o -> cmsg c o = Some c' -> bundle_effect c c' m.
  Proof.
    intros Hd Hc.
    destruct m; cbn [decode] in Hd; try done; try (destruct payload; [cbn in Hd|done]); injection Hd as <-; cbn [cmsg] in Hc; cbn [bundle_effect];
      try (by (match type of Hc with ?f <$> ?x = _ => destruct x; [injection Hc as <-|done] end)).
    - unfold chain_create_staker in Hc. destruct (msg_delegate _ _ _ _ _) as [st'|] eqn:E; [|done].
      destruct (msg_create_staker _ _ _ _); [|done]. by injection Hc as <-.
    - unfold msg_submit in Hc. destruct (can_propose _ _ _ _ _) eqn:E; [|done]. by apply propose_node in E.
    - pose proof (vote_parts _ _ _ _ _ _ _ Hc) as (_ & _ & _ & Hb).
      unfold msg_vote in Hc. destruct (can_vote _ _ _ _ _) eqn:E; [|done]. cbn [negb] in Hc. cbv zeta in Hc.
      unfold can_vote in E. repeat (apply andb_true_iff in E as [E ?]).
      assert (Hnode : node_of c p staker creator) by (by apply authorized_node).
      assert (Hst : storage <> 0%N /\ bp_storage (get_prop c p) = storage) by lia. destruct Hst as [Hst1 Hst2].
      assert (Hgen : forall b, c' = reset_pts (set_prop c p b) p staker -> (forall q, q <> p -> get_prop c' q = get_prop c q) /\ get_prop c' p = b).
      { intros b ->. unfold get_prop. cbn. split; [intros q Hq; by rewrite lookup_insert_ne|by rewrite lookup_insert]. }
      assert (Ha : forall t, t <> staker -> t ∈ (if memb staker (bp_abstain (get_prop c p)) then remove_first staker (bp_abstain (get_prop c p)) else bp_abstain (get_prop c p)) <-> t ∈ bp_abstain (get_prop c p)).
      { intros t Ht. destruct (memb staker (bp_abstain _)); [by apply remove_first_other|done]. }
      destruct w; try done.
      + injection Hc as Hc. symmetry in Hc. apply Hgen in Hc as [H5 H6]. rewrite H6. cbn [bp_valid bp_invalid bp_abstain with_votes].
        rewrite app_nil_r. split_and!; done.
      + injection Hc as Hc. symmetry in Hc. apply Hgen in Hc as [H5 H6]. rewrite H6. cbn [bp_valid bp_invalid bp_abstain with_votes].
        rewrite app_nil_r. split_and!; done.
      + destruct (memb staker (bp_abstain _)); [done|]. injection Hc as Hc. symmetry in Hc. apply Hgen in Hc as [H5 H6]. rewrite H6. cbn [bp_valid bp_invalid bp_abstain with_votes].
        rewrite !app_nil_r. split_and!; try done; [intros t Ht|intros _]; rewrite elem_of_app, elem_of_list_singleton; [naive_solver|by right].
    - unfold msg_skip in Hc. destruct (can_propose _ _ _ _ _) eqn:E; [|done]. by apply propose_node in E.
    - unfold msg_claim_role in Hc. destruct (negb _); [done|]. destruct (authorized _ _ _ _) eqn:E; [|done]. cbn [negb] in Hc.
      destruct (bp_next _ =? 0)%N eqn:En; [|done]. injection Hc as <-. split; [by apply authorized_node|]. split; [lia|].
      unfold get_prop. cbn. split; [intros q Hq; by rewrite lookup_insert_ne|by rewrite lookup_insert].
    - unfold chain_create_pool in Hc. destruct (msg_create_pool _ _ _ _ _); [|done]. by injection Hc as <-.
    - apply disable_pools in Hc as [_ E]. intros q. unfold get_prop. by rewrite E.
  Qed.
  Lemma claim_pool_effect m o c c' : wellformed gr m -> decode m = Some o -> cmsg c o = Some c' -> pool_effect c c' m.
  Proof.
    intros Hw Hd Hc.
    destruct m; cbn [decode] in Hd; try done; try (destruct payload; [cbn in Hd|done]); injection Hd as <-; cbn [cmsg] in Hc; cbn [pool_effect];
      try (by (match type of Hc with ?f <$> ?x = _ => destruct x; [injection Hc as <-|done] end)).
    - unfold chain_create_staker in Hc. destruct (msg_delegate _ _ _ _ _) as [st'|] eqn:E; [|done].
      destruct (msg_create_staker _ _ _ _); [|done]. by injection Hc as <-.
    - unfold msg_vote in Hc. destruct (negb _); [done|]. cbv zeta in Hc. destruct (match w with Valid => _ | _ => _ end); [|done]. by injection Hc as <-.
    - unfold msg_claim_role in Hc. repeat (destruct (negb _); [done|]). by injection Hc as <-.
    - destruct Hw as [_ (v & -> & Hv)]. unfold chain_create_pool, msg_create_pool in Hc. destruct (create_basic _); [|done]. cbn [negb] in Hc.
      destruct (N.eqb_spec authority AUTHORITY) as [->|]; [|done]. destruct json; [|done]. injection Hc as <-. split; [done|]. split; [done|].
      exists (new_pool (with_weight a v) (c_time c)). unfold get_pool. cbn. rewrite lookup_insert. split_and!; try done. intros q Hq. by rewrite lookup_insert_ne.
    - destruct (msg_update_pool _ _ _ _) as [ps|] eqn:E; [|done]. injection Hc as <-. unfold msg_update_pool in E. destruct (update_basic _); [|done]. cbn [negb] in E.
      destruct (N.eqb_spec authority AUTHORITY) as [->|]; [|done]. cbn [negb] in E. destruct (ps_pools (c_pools c) !! p) as [pl|] eqn:Ep; [|done]. injection E as <-.
      split; [done|]. exists u, pl, (apply_update pl u). unfold get_pool. cbn. rewrite lookup_insert. split_and!; try done. intros q Hq. by rewrite lookup_insert_ne.
    - destruct (msg_enable_pool _ _ _) as [ps|] eqn:E; [|done]. injection Hc as <-. unfold msg_enable_pool in E.
      destruct (N.eqb_spec authority AUTHORITY) as [->|]; [|done]. cbn [negb] in E. destruct (ps_pools (c_pools c) !! p) as [pl|] eqn:Ep; [|done].
      destruct (pl_disabled pl) eqn:Ed; [|done]. injection E as <-.
      split; [done|]. exists pl. unfold get_pool. cbn. rewrite lookup_insert. split_and!; try done. intros q Hq. by rewrite lookup_insert_ne.
    - apply disable_pools in Hc as [E _]. unfold disable_record in E.
      destruct (N.eqb_spec authority AUTHORITY) as [->|]; [|done]. cbn [negb] in E. destruct (ps_pools (c_pools c) !! p) as [pl|] eqn:Ep; [|done].
      destruct (pl_disabled pl) eqn:Ed; [done|]. injection E as E.
      split; [done|]. exists pl. unfold get_pool. rewrite <- E. cbn. rewrite lookup_insert. split_and!; try done. intros q Hq. by rewrite lookup_insert_ne.
    - destruct (msg_schedule _ _ _ _ _ _ _ _) as [ps|] eqn:E; [|done]. injection Hc as <-. unfold msg_schedule in E.
      destruct (N.eqb_spec authority AUTHORITY) as [->|]; [|done]. cbn [negb] in E. destruct (_ || _) eqn:Ev; [done|]. injection E as <-.
      split; [done|]. split; [lia|]. split; [lia|]. intros q pl Hq. unfold get_pool in *. cbn. rewrite lookup_fmap, Hq. cbn. f_equal. unfold schedule_one.
      replace (if at_ <? c_time c then c_time c else at_) with (Z.max at_ (c_time c)) by (destruct (Z.ltb_spec at_ (c_time c)); lia).
      destruct (N.eqb_spec (pl_runtime pl) runtime); cbn [negb]; [|by rewrite decide_False by naive_solver].
      destruct (Z.eqb_spec (pn_at (pl_plan pl)) 0); cbn [negb]; [by rewrite decide_True|by rewrite decide_False by naive_solver].
    - destruct (msg_cancel _ _ _) as [ps|] eqn:E; [|done]. injection Hc as <-. unfold msg_cancel in E.
      destruct (N.eqb_spec authority AUTHORITY) as [->|]; [|done]. cbn [negb] in E. injection E as <-.
      split; [done|]. intros q pl Hq. unfold get_pool in *. cbn. rewrite lookup_fmap, Hq. cbn. eexists. split; [done|]. unfold cancel_one.
      destruct (N.eqb_spec (pl_runtime pl) runtime); cbn [negb]; [|by destruct pl].
      destruct (Z.eqb_spec (pn_at (pl_plan pl)) 0); cbn [negb]; by destruct pl.
  Qed.

  (** ** All of it, for the messages as they arrive *)
  Definition effect (c c' : chain) (m : rmsg) : Prop :=
    delegation_effect c c' m /\ staker_effect c c' m /\ funder_effect c c' m /\ team_effect c c' m /\ bundle_effect c c' m /\ pool_effect c c' m.
  Context (gp : gparams) (Hv : valid_all (params_of (mkU (gstart g) gp))).
  Lemma claim_effect ops m r' : let r := rrun gr (rinit (gstart g) gp) ops in
    rops_ok gr (rinit (gstart g) gp) ops -> typed m -> moderate (r_c r) m -> deliver gr r m = Some r' ->
    effect (r_c r) (r_c r') m /\
    forall u d, balance (r_c r) u d - (if (sender_of m =? u)%N then pays m d else 0) <= balance (r_c r') u d.
  Proof.
    cbv zeta. set (r := rrun gr _ ops). intros Hok Ht Hm Hd. destruct (claim_history gr g Hg gp Hv ops Hok) as (l & Hl & Hc). fold r in Hc.
    split; [|intros u d; by eapply claim_pays].
    pose proof (G_run g Hg l Hl) as HG. rewrite <- Hc in HG. revert Hd.
    unfold deliver. destruct (validate gr m) eqn:Ev; [|done]. apply claim_validate in Ev. destruct (payable_to gr m); [|done]. cbn [andb negb].
    assert (Hmain : forall o c', decode m = Some o -> cmsg (r_c r) o = Some c' -> effect (r_c r) c' m).
    { intros o c' Hd Hcm. split; [by eapply claim_delegation_effect|]. split; [by eapply claim_staker_effect|]. split; [by eapply claim_funder_effect|]. split; [by eapply claim_team_effect|]. split; [by eapply claim_bundle_effect|by eapply claim_pool_effect]. }
    destruct m;
      try (destruct (decode _) as [o|] eqn:Ed; [|done]; destruct (cmsg (r_c r) o) as [c'|] eqn:Ec; [|done]; cbv zeta; intros H; injection H as <-;
           apply (Hmain o c' eq_refl Ec)).
    - destruct (staker_exists _ _); [|done]. intros [= <-]. by repeat split.
    - case_bool_decide; [|done]. intros [= <-]. by repeat split.
    - destruct payload as [y|]; [|done]. destruct (msg_update _ _ _) as [u'|] eqn:Eu; [|done]. intros [= <-].
      unfold msg_update in Eu. destruct (negb _); [done|]. destruct (negb _); [done|]. cbv zeta in Eu. injection Eu as <-. by destruct y; repeat split.
  Qed.
End effects.

(** A message that is accepted after any history, in a form to be used below. *)
Definition accepted_after (gr : grammar) (g : gen) (gp : gparams) (ops : list rop) (m : rmsg) (c c' : chain) : Prop :=
  genesis g /\ valid_all (params_of (mkU (gstart g) gp)) /\ rops_ok gr (rinit (gstart g) gp) ops /\
  let r := rrun gr (rinit (gstart g) gp) ops in
  c = r_c r /\ typed m /\ moderate c m /\ exists r', deliver gr r m = Some r' /\ c' = r_c r'.
Lemma after_effect gr g gp ops m c c' : accepted_after gr g gp ops m c c' -> effect c c' m.
Proof. intros (Hg & Hv & Hok & -> & Ht & Hm & r' & Hd & ->). exact (proj1 (claim_effect gr g Hg gp Hv ops m r' Hok Ht Hm Hd)). Qed.
Lemma after_pays gr g gp ops m c c' : accepted_after gr g gp ops m c c' ->
  forall u d, balance c u d - (if (sender_of m =? u)%N then pays m d else 0) <= balance c' u d.
Proof. intros (Hg & Hv & Hok & -> & Ht & Hm & r' & Hd & ->). exact (proj2 (claim_effect gr g Hg gp Hv ops m r' Hok Ht Hm Hd)). Qed.
Lemma after_delegation gr g gp ops m c c' : accepted_after gr g gp ops m c c' -> delegation_effect c c' m.
Proof. intros H. by destruct (after_effect _ _ _ _ _ _ _ H) as (? & ? & ? & ? & ? & ?). Qed.
Lemma after_staker gr g gp ops m c c' : accepted_after gr g gp ops m c c' -> staker_effect c c' m.
Proof. intros H. by destruct (after_effect _ _ _ _ _ _ _ H) as (? & ? & ? & ? & ? & ?). Qed.
Lemma after_funder gr g gp ops m c c' : accepted_after gr g gp ops m c c' -> funder_effect c c' m.
Proof. intros H. by destruct (after_effect _ _ _ _ _ _ _ H) as (? & ? & ? & ? & ? & ?). Qed.
Lemma after_team gr g gp ops m c c' : accepted_after gr g gp ops m c c' -> team_effect c c' m.
Proof. intros H. by destruct (after_effect _ _ _ _ _ _ _ H) as (? & ? & ? & ? & ? & ?). Qed.
Lemma after_bundle gr g gp ops m c c' : accepted_after gr g gp ops m c c' -> bundle_effect c c' m.
Proof. intros H. by destruct (after_effect _ _ _ _ _ _ _ H) as (? & ? & ? & ? & ? & ?). Qed.
Lemma after_pool gr g gp ops m c c' : accepted_after gr g gp ops m c c' -> pool_effect c c' m.
Proof. intros H. by destruct (after_effect _ _ _ _ _ _ _ H) as (? & ? & ? & ? & ? & ?). Qed.
