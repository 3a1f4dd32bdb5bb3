(** * Claims: when a pool runs, and how many stakers it takes to finalize a bundle (C81). *)
From Verif Require Import Base BaseFacts Delegation DelegationClaims3 Stakers StakersInv StakersClaims StakersRun Funders Team RoundRobin RoundRobinClaims Pool Bundles Chain ChainFrame ArchiveInv
  BankMoves ChainLift PoolFrame PoolInv PayoutClaims PoolClaims TallyFacts VoteClaims StepCases PaySafe PointsInv TallyClaims TallyEffects TallyProps LiveClaims.

(** ** The statement *)
Definition is_member (c : chain) (p s : N) : Prop := points c p s <> None.
Definition stake_of (c : chain) (s : N) : Z := default 0 (delegated c s).
(** The pool exists, is not being upgraded, not disabled and not at its end, has the stake it needs,
    and nobody in it has more than the allowed part of the stake. *)
Definition may_run (c : chain) (p : N) : Prop := exists pl, get_pool c p = Some pl /\
  (pn_at (pl_plan pl) <= 0 \/ c_time c < pn_at (pl_plan pl)) /\ pl_disabled pl = false /\
  (pl_endkey pl = 0%N \/ pl_key pl <> pl_endkey pl) /\ pl_mindel pl <= all_stake c p /\
  forall s, is_member c p s -> stake_of c s * ONE <= pp_maxvp (c_pp c) * all_stake c p.
(** The members of the pool who voted for the stored bundle, the uploader among them. *)
Definition supporters (c : chain) (p : N) : list N := List.filter (fun s => if points c p s then true else false) (bp_valid (get_prop c p)).
(** No member who did not vote reaches the maximum of points with this bundle. *)
Definition nobody_out (c : chain) (p who : N) : Prop :=
  forall s v, points c p s = Some v -> ~ on_list (get_prop c p) s -> start (Some who) s v + 1 < b_maxpoints (c_bp c).

(** ** The highest stake *)
Lemma fold_max (f : N -> Z) (l : list N) : forall a b, fold_left (fun a s => if a <? f s then f s else a) l a <= b <-> a <= b /\ forall s, s ∈ l -> f s <= b.
Proof.
  induction l as [|x l IH]; intros a b; cbn [fold_left].
  - split; [intros H; split; [done|]; intros s Hs; by apply elem_of_nil in Hs|by intros [H _]].
  - rewrite IH. split.
    + intros [H1 H2]. destruct (a <? f x) eqn:E; (split; [lia|]; intros s Hs; apply elem_of_cons in Hs as [->|Hs]; [lia|by apply H2]).
    + intros [H1 H2]. split; [|intros s Hs; apply H2; by apply elem_of_list_further]. pose proof (H2 x (elem_of_list_here _ _)). destruct (a <? f x); lia.
Qed.
Lemma member_in c p s : s ∈ members c p <-> is_member c p s.
Proof. rewrite members_in. unfold in_pool, is_member, points. destruct (get_val (c_s c) p s); split; done. Qed.
Lemma stake_of_power c s : stake_of c s = power c s.
Proof. rewrite stake_power. done. Qed.

Section R.
Context (g : gen) (Hg : genesis g).
Lemma maxvp_pct c : G g c -> 0 <= pp_maxvp (c_pp c) <= ONE.
Proof. intros H. destruct (g_par _ _ H) as (_ & _ & Hpp & _). unfold pparams_valid, pct_ok in Hpp. lia. Qed.
Lemma max_spec c p : G g c -> all_stake c p < two63 -> forall x, x <= max_delegation c p <-> x * ONE <= pp_maxvp (c_pp c) * all_stake c p.
Proof.
  intros HG HT x. pose proof (maxvp_pct c HG) as Hm. pose proof (fun y => G_power g Hg c y HG) as Hp.
  rewrite <- (all_power g Hg) in *. unfold max_delegation. rewrite total_power_sum by (try done; unfold two63, two64 in *; lia).
  assert (H0 : 0 <= pool_power c p) by (by apply sum_nn). rewrite i64_small by done. unfold dec_mul_int.
  assert (Hn : 0 <= pp_maxvp (c_pp c) * pool_power c p) by nia. destruct (trunc_int_spec _ Hn) as (T0 & T1 & T2).
  set (q := trunc_int (pp_maxvp (c_pp c) * pool_power c p)) in *.
  assert (q < two64). { assert (q * ONE <= pool_power c p * ONE) by nia. unfold ONE, two63, two64 in *. lia. }
  unfold w64. rewrite Z.mod_small by (unfold two64 in *; lia). unfold ONE in *. nia.
Qed.
Lemma run_iff c p : G g c -> all_stake c p < two63 -> can_run c p = true <-> may_run c p.
Proof.
  intros HG HT. unfold can_run, pool_error, may_run. pose proof (fun y => G_power g Hg c y HG) as Hp.
  assert (H0 : 0 <= all_stake c p) by (rewrite <- (all_power g Hg); by apply sum_nn).
  assert (HM : (max_delegation c p <? highest_power c p) = false <-> forall s, is_member c p s -> stake_of c s * ONE <= pp_maxvp (c_pp c) * all_stake c p).
  { rewrite Z.ltb_ge. unfold highest_power. rewrite fold_max. setoid_rewrite (max_spec c p HG HT). pose proof (maxvp_pct c HG). split.
    - intros [_ H2] s Hs. rewrite stake_of_power. by apply H2, member_in.
    - intros H2. split; [nia|]. intros s Hs. rewrite <- stake_of_power. by apply H2, member_in. }
  assert (HS : total_power c p = all_stake c p).
  { rewrite <- (all_power g Hg) in *. apply total_power_sum; [done|]. unfold two63, two64 in *; lia. }
  destruct (get_pool c p) as [pl|]; [|split; [done|by intros (? & ? & _)]].
  split.
  - intros H. exists pl. split; [done|].
    destruct (_ && _) eqn:E1 in H; [done|]. destruct (pl_disabled pl) eqn:E2; [done|].
    destruct (_ && _) eqn:E3 in H; [done|]. destruct (total_power c p <? pl_mindel pl) eqn:E4; [done|].
    destruct (max_delegation c p <? highest_power c p) eqn:E5; [done|].
    split; [lia|]. split; [done|]. split; [|split; [lia|by apply HM]].
    apply andb_false_iff in E3 as [E3|E3]; [left; apply negb_false_iff, N.eqb_eq in E3; done|right; by apply N.eqb_neq in E3].
  - intros (? & [= <-] & H1 & H2 & H3 & H4 & H5). apply HM in H5. rewrite H2, H5.
    replace (_ && _) with false by lia. rewrite (proj2 (Z.ltb_ge _ _)) by lia.
    destruct (_ && _) eqn:E; [|done]. apply andb_true_iff in E as [E1 E2]. apply negb_true_iff, N.eqb_neq in E1. apply N.eqb_eq in E2. naive_solver.
Qed.

(** ** How many it takes *)
Lemma backing_le c p m l : (forall s, is_member c p s -> stake_of c s * ONE <= m) -> 0 <= m ->
  backing c p l * ONE <= Z.of_nat (length (List.filter (fun s => if points c p s then true else false) l)) * m.
Proof.
  intros H Hm. unfold backing. induction l as [|x l IH]; [cbn; lia|]. rewrite sum_cons. cbn [List.filter].
  specialize (H x). unfold is_member, stake_of in H. destruct (points c p x) as [v|]; cbn [length]; [|lia]. specialize (H ltac:(done)). lia.
Qed.
Lemma needs c p : G g c -> can_run c p = true -> all_stake c p < two63 -> agreed c p ->
  ONE < 2 * (pp_maxvp (c_pp c) * Z.of_nat (length (supporters c p))).
Proof.
  intros HG Hr HT Ha. apply (run_iff c p HG HT) in Hr as (pl & _ & _ & _ & _ & _ & Hs). pose proof (maxvp_pct c HG) as Hm.
  assert (H0 : 0 <= all_stake c p) by (rewrite <- (all_power g Hg); apply sum_nn; intros y; by apply (G_power g Hg)).
  pose proof (backing_le c p _ (bp_valid (get_prop c p)) Hs ltac:(nia)) as Hb. fold (supporters c p) (for_it c p) in Hb. unfold agreed in Ha.
  set (n := Z.of_nat (length (supporters c p))) in *. set (m := pp_maxvp (c_pp c)) in *. set (T := all_stake c p) in *. set (V := for_it c p) in *.
  assert (Hlt : T * ONE < T * (2 * (m * n))). { assert (T * ONE < 2 * V * ONE) by (unfold ONE; lia). nia. }
  assert (0 < T) by nia. nia.
Qed.
Lemma counted_w1 c p who s : points_ok c -> nobody_out c p who -> w1 (counted_as c p (Some who) s) = w1 (ob c p s).
Proof.
  intros HP Hn. rewrite <- (w1_present c p (Some who) s). unfold counted_as, lose. destruct (decide (silent c p s)) as [[Hi Hv]|]; [|done].
  unfold one_miss, miss. destruct (fst (present c p (Some who) s)) as [v|] eqn:E; [|done].
  assert (Hx : 0 <= vl_points v /\ vl_points v + 1 < b_maxpoints (c_bp c)).
  { unfold in_pool in Hi. destruct (get_val (c_s c) p s) as [u|] eqn:Eu; [|done]. pose proof (HP p s u Eu) as Hb.
    assert (Hon : ~ on_list (get_prop c p) s). { unfold on_list, voted in *. rewrite !orb_false_iff, !memb_false in Hv. tauto. }
    specialize (Hn s (vl_points u)). unfold points in Hn. rewrite Eu in Hn. specialize (Hn eq_refl Hon). unfold start in Hn. unfold present, took in E.
    destruct (decide (s = who)) as [->|Hw]; [rewrite decide_True in Hn by done|rewrite decide_False in Hn by congruence]; unfold ob in E; cbn in E;
      rewrite Eu in E; injection E as <-; cbn; lia. }
  assert (u64_add (vl_points v) 1 <= vl_points v + 1). { unfold u64_add, w64. apply Z.mod_le; [lia|done]. }
  destruct (_ <=? _) eqn:El; [lia|]. unfold w1. rewrite E. done.
Qed.
End R.

Lemma claim_runs g ops p : genesis g -> cops_ok (gstart g) ops -> let c := crun (gstart g) ops in all_stake c p < two63 ->
  (may_run c p <-> can_run c p = true) /\
  (~ may_run c p -> (forall m, sb_pool m = p -> cmsg c (CSubmit m) = None) /\ (forall s v st w, cmsg c (CVote p s v st w) = None) /\
     (forall s v from, cmsg c (CSkip p s v from) = None) /\ (forall s v, cmsg c (CClaimRole p s v) = None)).
Proof.
  intros Hg Hok c HT. pose proof (run_iff g Hg c p (r_G g ops Hg Hok) HT) as H. split; [by rewrite H|]. intros Hn. apply status_none.
  destruct (can_run c p); [|done]. destruct Hn. by apply H.
Qed.
Lemma tallies_runs c p who o c' : tallies c p who o -> cmsg c o = Some c' -> can_run c p = true.
Proof.
  intros HT E. destruct (can_run c p) eqn:H; [done|]. destruct (status_none c p H) as (H1 & _ & H3 & _). destruct HT as [m Hm _ _|v from].
  - by rewrite (H1 m Hm) in E.
  - by rewrite H3 in E.
Qed.
Lemma claim_needs g ops o p who c' : genesis g -> cops_ok (gstart g) ops -> let c := crun (gstart g) ops in
  all_stake c p < two63 -> tallies c p who o -> cmsg c o = Some c' -> finalized c' p <> finalized c p -> nobody_out c p who ->
  ONE < 2 * (pp_maxvp (c_pp c) * Z.of_nat (length (supporters c p))).
Proof.
  intros Hg Hok c HT Hta E Hf Hn. pose proof (tallies_runs c p who o c' Hta E) as Hr.
  destruct (r_message g ops Hg Hok o p who c' Hta E) as (r & Hv & _ & Hfin & _). fold c in Hv, Hfin.
  assert (Hr' : r = OValid) by (destruct r; [done|exfalso; apply Hf; rewrite Hfin; lia..]). subst r.
  apply (needs g Hg c p (r_G g ops Hg Hok) Hr HT). rewrite (all_power g Hg) in Hv. specialize (Hv HT). unfold verdict, decided in Hv.
  unfold agreed, all_stake, for_it. rewrite !backing_weight.
  assert (Hw : forall l, weight (counted_as c p (Some who)) l = weight (ob c p) l).
  { intros l. unfold weight. induction l as [|x l IH]; [done|]. rewrite !sum_cons, IH. f_equal. apply counted_w1; [exact (r_P g ops Hg Hok)|done]. }
  rewrite !Hw in Hv. exact Hv.
Qed.
Lemma claim_block_needs g ops p pl : genesis g -> cops_ok (gstart g) ops -> let c := crun (gstart g) ops in let c' := cstep c CEnd in
  get_pool (upgraded c) p = Some pl -> c_halt c' = false -> waits c p ->
  exists c1 c2, apart c c1 p /\ apart c2 c' p /\
    (can_run c1 p = true -> all_stake c1 p < two63 -> finalized c' p <> finalized c p ->
     ONE < 2 * (pp_maxvp (c_pp c1) * Z.of_nat (length (supporters c1 p)))).
Proof.
  intros Hg Hok c c' Hp Hh Hw. destruct (settled_at g ops p pl Hg Hok Hp Hh Hw) as (c1 & c2 & HG & A1 & A2 & H). fold c c' in A1, A2, H.
  exists c1, c2. split; [done|]. split; [done|]. intros Hr HS Hf. specialize (H Hr HS). apply (needs g Hg c1 p HG Hr HS). set (i := pl_interval pl) in *.
  assert (D1 : agreed c1 p \/ ~ agreed c1 p) by (unfold agreed; lia). assert (D2 : opposed c1 p \/ ~ opposed c1 p) by (unfold opposed; lia).
  assert (D3 : deadline_over c p i \/ ~ deadline_over c p i) by (unfold deadline_over; lia).
  assert (D4 : interval_over c p i \/ ~ interval_over c p i) by (unfold interval_over; lia).
  destruct D1 as [|D1]; [done|]. destruct Hf. destruct D4 as [D4|D4]; [|apply (de_early _ _ _ _ _ H D4)].
  destruct D2 as [D2|D2].
  - destruct D3 as [D3|D3]; [|apply (de_clear _ _ _ _ _ H D3); by right]. destruct (de_opposed _ _ _ _ _ H D3 D2) as (_ & _ & ->). lia.
  - destruct (de_unclear _ _ _ _ _ H D4) as (_ & _ & ->); [by split|lia].
Qed.
