(** * Claims about the questions of protocol nodes: CanVote, CanPropose, CanValidate (C62). *)
From Verif Require Import Base BaseFacts Delegation Stakers StakersInv StakersClaims StakersRun Funders Team RoundRobin RoundRobinClaims Pool Bundles Chain ChainFrame ArchiveInv
  BankMoves ChainLift PoolFrame PoolInv PayoutClaims PoolClaims TallyFacts VoteClaims StepCases PaySafe PointsInv TallyClaims TallyProps TallyTotal Query Account.

(** ** Votes *)
(** Who may cast a vote other than abstain. *)
Definition may_vote (c : chain) (p s v storage : N) : Prop :=
  let b := get_prop c p in
  can_run c p = true /\ signs c p s v /\ storage <> 0%N /\ storage = bp_storage b /\ s ∉ bp_valid b /\ s ∉ bp_invalid b.
Lemma may_vote_spec c p s v storage : can_vote c p s v storage = true <-> may_vote c p s v storage.
Proof.
  unfold can_vote, may_vote. cbv zeta. rewrite !andb_true_iff, !negb_true_iff, signs_auth, N.eqb_neq, N.eqb_eq, !memb_false.
  split; [intros [[[[[? ?] ?] ->] ?] ?]; done|intros (? & ? & ? & -> & ? & ?); done].
Qed.
Lemma claim_ask_vote c p s v storage :
  match ask_vote c p s v storage with
  | CannotVote => ~ may_vote c p s v storage /\ forall w, cmsg c (CVote p s v storage w) = None
  | CanVote => may_vote c p s v storage /\ s ∉ bp_abstain (get_prop c p) /\
      forall w, is_Some (cmsg c (CVote p s v storage w)) <-> w = Valid \/ w = Invalid \/ w = Abstain
  | CanVoteNoAbstain => may_vote c p s v storage /\ s ∈ bp_abstain (get_prop c p) /\
      forall w, is_Some (cmsg c (CVote p s v storage w)) <-> w = Valid \/ w = Invalid
  end.
Proof.
  unfold ask_vote. cbn [cmsg]. unfold msg_vote. destruct (can_vote c p s v storage) eqn:E; cbn [negb].
  - pose proof (proj1 (may_vote_spec _ _ _ _ _) E) as HM. destruct (memb s (bp_abstain (get_prop c p))) eqn:Ea; (split; [done|]).
    + split; [by apply memb_spec|]. intros w. destruct w; (split; [auto|]); try (by intros _; eexists); try (by intros [?|?]); by intros [? ?].
    + split; [by apply memb_false|]. intros w. destruct w; (split; [auto|]); try (by intros _; eexists); try (by intros [?|[?|?]]); by intros [? ?].
  - split; [|done]. rewrite <- may_vote_spec, E. done.
Qed.

(** Other votes do not change the answer; one's own vote does. *)
Lemma members_ext c c' p : (forall s, in_pool c p s = in_pool c' p s) -> members c p = members c' p.
Proof.
  intros H. unfold members. apply (Sorted_unique N.le).
  - apply Sorted_merge_sort, _.
  - apply Sorted_merge_sort, _.
  - apply NoDup_Permutation; [apply NoDup_pool_stakers..|]. intros s. rewrite !elem_pool_stakers. specialize (H s). unfold in_pool in H.
    destruct (get_val (c_s c) p s), (get_val (c_s c') p s); try done; split; by intros [].
Qed.
Lemma fold_power c c' l : (forall s, power c s = power c' s) -> forall a,
  fold_left (fun a s => u64_add a (power c s)) l a = fold_left (fun a s => u64_add a (power c' s)) l a.
Proof. intros H. induction l as [|x l IH]; intros a; [done|]. cbn [fold_left]. by rewrite H, IH. Qed.
Lemma fold_high c c' l : (forall s, power c s = power c' s) -> forall a,
  fold_left (fun a s => if a <? power c s then power c s else a) l a = fold_left (fun a s => if a <? power c' s then power c' s else a) l a.
Proof. intros H. induction l as [|x l IH]; intros a; [done|]. cbn [fold_left]. by rewrite H, IH. Qed.
Lemma run_ext c c' p : (forall s, in_pool c p s = in_pool c' p s) -> (forall s, power c s = power c' s) -> c_pools c' = c_pools c -> c_pp c' = c_pp c -> c_time c' = c_time c ->
  can_run c' p = can_run c p.
Proof.
  intros H1 H2 H3 H4 H5. unfold can_run, pool_error, max_delegation, get_pool, total_power, highest_power.
  rewrite H3, H4, H5, <- (members_ext c c' p H1), (fold_power c c' _ H2), (fold_high c c' _ H2). done.
Qed.
Lemma reset_val c q x p s : (vl_addr <$> get_val (c_s (reset_pts c q x)) p s) = (vl_addr <$> get_val (c_s c) p s).
Proof.
  unfold reset_pts. cbn. unfold reset_points. change (get_val (s_in c) q x) with (get_val (c_s c) q x).
  destruct (get_val (c_s c) q x) as [v|] eqn:E; cbn [fst]; [|done].
  change (get_val (c_s (s_out c (set_val (s_in c) q x (mkVal (vl_addr v) 0 (vl_leaving v))))) p s) with (get_val (set_val (s_in c) q x (mkVal (vl_addr v) 0 (vl_leaving v))) p s).
  rewrite get_set_val. destruct (decide _) as [[<- <-]|]; [|done]. by rewrite E.
Qed.
Lemma voted c p s v st w c' : cmsg c (CVote p s v st w) = Some c' -> exists b', c' = reset_pts (set_prop c p b') p s /\ bp_storage b' = bp_storage (get_prop c p) /\
  (forall x, x <> s -> (x ∈ bp_valid b' <-> x ∈ bp_valid (get_prop c p)) /\ (x ∈ bp_invalid b' <-> x ∈ bp_invalid (get_prop c p)) /\ (x ∈ bp_abstain b' <-> x ∈ bp_abstain (get_prop c p))) /\
  match w with Valid => s ∈ bp_valid b' | Invalid => s ∈ bp_invalid b' | _ => s ∈ bp_abstain b' /\ bp_valid b' = bp_valid (get_prop c p) /\ bp_invalid b' = bp_invalid (get_prop c p) end.
Proof.
  assert (Hrm : forall l x, x <> s -> x ∈ remove_first s l <-> x ∈ l).
  { induction l as [|y l IH]; intros x Hx; [done|]. cbn [remove_first]. destruct (N.eqb_spec y s) as [->|]; [set_solver|].
    rewrite !elem_of_cons, IH by done. done. }
  cbn [cmsg]. unfold msg_vote. destruct (can_vote _ _ _ _ _); [|done]. cbn [negb]. cbv zeta. destruct w; [| | |done].
  - intros [= <-]. eexists. split; [reflexivity|]. split; [done|]. split; [|set_solver]. intros x Hx. cbn. split; [set_solver|]. split; [done|].
    destruct (memb _ _); [by apply Hrm|done].
  - intros [= <-]. eexists. split; [reflexivity|]. split; [done|]. split; [|set_solver]. intros x Hx. cbn. split; [done|]. split; [set_solver|].
    destruct (memb _ _); [by apply Hrm|done].
  - destruct (memb _ _); [done|]. intros [= <-]. eexists. split; [reflexivity|]. split; [done|]. split; [|set_solver]. intros x Hx. cbn. set_solver.
Qed.
Lemma memb_iff x l l' : (x ∈ l <-> x ∈ l') -> memb x l = memb x l'.
Proof.
  intros H. destruct (memb x l) eqn:E, (memb x l') eqn:E'; try done.
  - apply memb_spec in E. apply memb_false in E'. tauto.
  - apply memb_false in E. apply memb_spec in E'. tauto.
Qed.
Lemma claim_vote_seen c q x y st w c' : cmsg c (CVote q x y st w) = Some c' ->
  (forall p s v st', (p, s) <> (q, x) -> ask_vote c' p s v st' = ask_vote c p s v st') /\
  ask_vote c' q x y st = match w with Abstain => CanVoteNoAbstain | _ => CannotVote end.
Proof.
  intros E. pose proof (voted _ _ _ _ _ _ _ E) as (b' & -> & Hs & Ho & Hw).
  assert (Hcv : can_vote c q x y st = true). { cbn [cmsg] in E. unfold msg_vote in E. by destruct (can_vote c q x y st). }
  set (c2 := set_prop c q b') in *.
  assert (Hv : forall p s, (vl_addr <$> get_val (c_s (reset_pts c2 q x)) p s) = (vl_addr <$> get_val (c_s c) p s)).
  { intros p s. apply (reset_val c2 q x p s). }
  assert (Hin : forall p s, in_pool c p s = in_pool (reset_pts c2 q x) p s).
  { intros p s. unfold in_pool. specialize (Hv p s). by destruct (get_val (c_s (reset_pts _ _ _)) p s), (get_val (c_s c) p s). }
  assert (Hr : forall p, can_run (reset_pts c2 q x) p = can_run c p) by (intros p; by apply run_ext).
  assert (Hau : forall p s v, authorized (c_s (reset_pts c2 q x)) p s v = authorized (c_s c) p s v).
  { intros p s v. unfold authorized. specialize (Hv p s). destruct (get_val (c_s (reset_pts _ _ _)) p s), (get_val (c_s c) p s); cbn in Hv; try done. by injection Hv as ->. }
  assert (Hpr : forall p, get_prop (reset_pts c2 q x) p = if decide (p = q) then b' else get_prop c p).
  { intros p. change (get_prop (reset_pts c2 q x) p) with (get_prop c2 p). unfold c2, get_prop, set_prop. cbn. destruct (decide (p = q)) as [->|]; [by rewrite lookup_insert|].
    by rewrite lookup_insert_ne. }
  split.
  - intros p s v st' Hne. unfold ask_vote, can_vote. rewrite Hr, Hau, Hpr. destruct (decide (p = q)) as [->|]; [|done].
    assert (Hx : s <> x) by congruence. destruct (Ho s Hx) as (A & B & C). by rewrite Hs, (memb_iff _ _ _ A), (memb_iff _ _ _ B), (memb_iff _ _ _ C).
  - unfold ask_vote. unfold can_vote in *. rewrite Hr, Hau, Hpr, decide_True, Hs by done. rewrite !andb_true_iff in Hcv. destruct Hcv as (((((-> & ->) & ->) & ->) & E1) & E2).
    destruct w.
    + apply memb_spec in Hw. by rewrite Hw.
    + apply memb_spec in Hw. rewrite Hw. cbn [negb]. by rewrite andb_false_r.
    + destruct Hw as (Hw & -> & ->). apply memb_spec in Hw. by rewrite E1, E2, Hw.
    + cbn [cmsg] in E. unfold msg_vote in E. by destruct (negb _).
Qed.

(** ** Proposals *)
Section Reach.
Context (g : gen) (Hg : genesis g) (ops : list cop) (Hok : cops_ok (gstart g) ops).
Let c := crun (gstart g) ops.
Let HA : AInv c := reach_A g ops Hok.
Let HB : BInv c := reach_B g ops Hg Hok.
Let HG : G g c := r_G g ops Hg Hok.

Lemma ask_prop p s v from : can_propose c p s v from = true -> is_Some (c_prop c !! p).
Proof.
  unfold can_propose. destruct (get_pool c p); [|done]. rewrite !andb_true_iff. intros ((((_ & H1) & H2) & _) & _).
  unfold authorized in H1. destruct (get_val (c_s c) p s) as [x|] eqn:Ev; [|done].
  destruct (g_s _ _ HG) as (ops' & Hok' & E). assert (HM : MI (s_in c)) by (rewrite E; by apply MI_run, MI_init).
  destruct (mi_known _ HM p s x Ev) as (_ & Hs & _). apply N.eqb_eq in H2.
  unfold get_prop in H2. destruct (c_prop c !! p); [eauto|]. cbn in H2. congruence.
Qed.
(** The tally behind a submission or a skip neither fails nor panics. *)
Lemma ask_tally p s v from : can_propose c p s v from = true -> is_Some (wl_find (wl (c_f c)) KYVE) -> bp_data (get_prop c p) < two63 ->
  let b := get_prop c p in let c0 := reset_pts c p s in
  tally c0 b p <> TrPanic /\ (forall c1, tally c0 b p <> TrError c1) /\ judged g c p (present c p (Some s)) (distribution (handle_non_voters c0 p) p).
Proof.
  intros E Hk Hd b c0. assert (HG0 : G g c0) by (by apply G_reset). assert (HA0 : AInv c0) by (apply (agood_frame c); [done|apply b_reset]).
  assert (Hpl : is_Some (get_pool c p)) by (unfold can_propose in E; by destruct (get_pool c p)).
  assert (Hpl0 : is_Some (get_pool c0 p)) by exact Hpl.
  assert (Ef : c_f c0 = c_f c).
  { unfold c0, reset_pts. done. }
  split; [|split].
  - apply (tally_total g Hg c0 p); [done|done|done| |done]. by rewrite Ef.
  - apply (tally_safe g Hg c0 p); done.
  - exists (handle_non_voters c0 p). split; [|done]. apply counted_took; [done|done|done|]. by eapply ask_prop.
Qed.
Lemma claim_ask_no p s v from : ask_propose c p s v from = false ->
  (~ exists pl, next_up c p s v from pl) /\ cmsg c (CSkip p s v from) = None /\
  (forall m, sb_pool m = p -> sb_staker m = s -> sb_creator m = v -> sb_from m = from -> cmsg c (CSubmit m) = None).
Proof.
  unfold ask_propose. intros E. split; [rewrite <- propose_spec by done; by rewrite E|]. split; [cbn [cmsg]; unfold msg_skip; by rewrite E|].
  intros m <- <- <- <-. cbn [cmsg]. unfold msg_submit. by rewrite E.
Qed.
Lemma claim_ask_skip p s v from : ask_propose c p s v from = true -> is_Some (wl_find (wl (c_f c)) KYVE) -> bp_data (get_prop c p) < two63 ->
  (exists pl, next_up c p s v from pl) /\ is_Some (cmsg c (CSkip p s v from)).
Proof.
  unfold ask_propose. intros E Hk Hd. split; [by apply propose_spec|]. destruct (ask_tally _ _ _ _ E Hk Hd) as (H1 & H2 & _).
  cbn [cmsg]. unfold msg_skip. rewrite E. cbn [negb]. cbv zeta in *.
  destruct (tally _ _ _) as [c1 v1 f1 x1 r1|c1 v1|c1 v1|c1|]; [destruct (choose _ _ _); by eexists..|by destruct (H2 c1)|done].
Qed.
Lemma claim_ask_submit m pl : ask_propose c (sb_pool m) (sb_staker m) (sb_creator m) (sb_from m) = true ->
  get_pool c (sb_pool m) = Some pl -> args_ok pl m ->
  is_Some (wl_find (wl (c_f c)) KYVE) -> bp_data (get_prop c (sb_pool m)) < two63 -> pool_power c (sb_pool m) < two63 ->
  is_Some (cmsg c (CSubmit m)) <-> bp_storage (get_prop c (sb_pool m)) = 0%N \/ ~ verdict c (sb_pool m) (Some (sb_staker m)) ONone.
Proof.
  unfold ask_propose. intros E Hpl Ha Hk Hd Hpw. destruct (ask_tally _ _ _ _ E Hk Hd) as (H1 & H2 & H3).
  destruct (proj1 (propose_spec _ _ _ _ _ HA HB) E) as (pl' & Hn). assert (pl' = pl) by (destruct Hn as (H & _); congruence). subst pl'.
  destruct (N.eq_dec (bp_storage (get_prop c (sb_pool m))) 0) as [H0|H0]; [split; [by left|intros _; by eapply submit_first]|].
  pose proof (judged_verdict g Hg _ _ _ _ HG H3 Hpw) as HV.
  assert (Hv : submit_valid c m = true).
  { destruct Ha as (A1 & A2 & A3 & A4 & A5). destruct Hn as (_ & _ & _ & _ & _ & Hf). destruct (get_prop_room _ _ _ HA Hpl) as [R0 R1].
    assert (Hb0 : 0 <= bp_size (get_prop c (sb_pool m))) by (destruct (get_prop_ok c (sb_pool m) HA) as [(_ & Hz & _)|(_ & Hz & _)]; lia).
    unfold submit_valid. rewrite Hpl. rewrite u64_add_id by lia. rewrite <- Hf, Z.eqb_refl.
    apply N.eqb_neq in A1, A4, A5. apply Z.eqb_neq in A2. apply Z.leb_le in A3. by rewrite A1, A2, A3, A4, A5. }
  cbn [cmsg]. unfold msg_submit. rewrite E, Hv. cbn [negb]. rewrite (proj2 (N.eqb_neq _ _) H0). cbv zeta in *.
  set (p := sb_pool m) in *. set (b := get_prop c p) in *.
  assert (Ht : match tally (reset_pts c p (sb_staker m)) b p with
    | TrValid _ v _ _ _ => oc (distribution (handle_non_voters (reset_pts c p (sb_staker m)) p) p) = OValid
    | TrInvalid _ _ => oc (distribution (handle_non_voters (reset_pts c p (sb_staker m)) p) p) = OInvalid
    | TrNoQuorum _ _ => oc (distribution (handle_non_voters (reset_pts c p (sb_staker m)) p) p) = ONone
    | _ => True end).
  { unfold tally, oc. destruct (v_status _); try done. destruct (charge_funders _ _ _) as [f [fp|]]; [|done].
    destruct (charge_inflation _ _) as [[c2 x]|]; [|done]. destruct (payouts _ _ _); [|done]. by destruct (pay_out _ _ _). }
  destruct (tally _ _ _) as [c1 v1 f1 x1 r1|c1 v1|c1 v1|c1|]; [| | |by destruct (H2 c1)|done].
  - rewrite Ht in HV. split; [|intros _; destruct (choose_from _ _ _); by eexists]. intros _. right. intros HN.
    by pose proof (verdict_one _ _ _ _ _ _ Hg HG HA HV HN).
  - rewrite Ht in HV. split; [|intros _; by eexists]. intros _. right. intros HN. by pose proof (verdict_one _ _ _ _ _ _ Hg HG HA HV HN).
  - rewrite Ht in HV. split; [by intros []|]. intros [?|HN]; done.
Qed.

(** ** Valaddresses *)
Lemma claim_ask_validate p v : is_Some (get_pool c p) -> forall s, ask_validate c p v = Some s <-> signs c p s v.
Proof.
  intros [pl Hpl] s. unfold ask_validate. rewrite Hpl.
  destruct (g_s _ _ HG) as (ops' & Hok' & E). assert (HM : MI (s_in c)) by (rewrite E; by apply MI_run, MI_init).
  assert (HU : forall s1 s2, signs c p s1 v -> signs c p s2 v -> s1 = s2).
  { intros s1 s2 (x1 & X1 & Y1) (x2 & X2 & Y2). pose proof (valaddr_claim _ _ _ _ _ Hok') as (H & _).
    apply (H p s1 s2 x1 x2); [| |congruence].
    - change (get_val (srun (s0 g) ops') p s1 = Some x1). rewrite <- E. exact X1.
    - change (get_val (srun (s0 g) ops') p s2 = Some x2). rewrite <- E. exact X2. }
  assert (H0 : forall s1, signs c p s1 v -> s1 <> 0%N).
  { intros s1 (x & X & _). by destruct (mi_known _ HM p s1 x X) as (_ & Hs & _). }
  destruct (List.find _ _) as [s1|] eqn:Ef.
  - apply find_some in Ef as [_ Ef]. destruct (get_val (c_s c) p s1) as [x|] eqn:Ev; [|done]. apply N.eqb_eq in Ef.
    assert (HS : signs c p s1 v) by (exists x; done). rewrite (proj2 (N.eqb_neq _ _) (H0 _ HS)).
    split; [by intros [= <-]|]. intros Hs. f_equal. by apply HU.
  - split; [done|]. intros (x & X & Y). exfalso. assert (Hm : s ∈ members c p) by (apply members_in; unfold in_pool; by rewrite X).
    apply elem_of_list_In in Hm. pose proof (find_none _ _ Ef s Hm) as Hf. cbv beta in Hf. rewrite X in Hf. by apply N.eqb_neq in Hf.
Qed.
End Reach.
