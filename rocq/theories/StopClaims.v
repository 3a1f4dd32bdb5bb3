(** * Claims: which delegations stop a pool (C85). *)
From Verif Require Import Base BaseFacts Delegation DelegationClaims3 Stakers StakersInv StakersClaims StakersRun Funders Team RoundRobin RoundRobinClaims Pool Bundles Chain ChainFrame ArchiveInv
  BankMoves ChainLift PoolFrame PoolInv PayoutClaims PoolClaims TallyFacts VoteClaims StepCases PaySafe PointsInv TallyClaims TallyEffects TallyProps EventStake LiveClaims RunsClaims SwingClaims.

Lemma moved_rest c o c' : moves o -> cmsg c o = Some c' -> c_pools c' = c_pools c /\ c_pp c' = c_pp c /\ c_time c' = c_time c.
Proof. intros Hm E. destruct o; try done; cbn [cmsg] in E; by apply fmap_Some in E as (st' & _ & ->). Qed.
(** A running pool in which [d] delegates [a] to [s] runs on, unless [s] is a member and gets more than the allowed part. *)
Lemma claim_stop g ops d s a p c' : genesis g -> cops_ok (gstart g) (ops ++ [CDelegate d s a]) -> let c := crun (gstart g) ops in
  cmsg c (CDelegate d s a) = Some c' -> all_stake c p < two63 -> all_stake c' p < two63 -> can_run c p = true ->
  (can_run c' p = true <-> (is_member c p s -> (stake_of c s + a) * ONE <= pp_maxvp (c_pp c) * (all_stake c p + a))).
Proof.
  intros Hg Hok c E HT HT' Hr. set (o := CDelegate d s a) in *. assert (Hm : moves o) by done. pose proof Hok as Hok'.
  destruct (claim_swing g ops o p c' Hg Hok Hm E HT HT') as (_ & HS & _). fold c in HS.
  apply cops_ok_app in Hok as [Hok [Ho _]]. fold c in Ho. pose proof (r_G g ops Hg Hok) as HG. fold c in HG.
  assert (HG' : G g c'). { pose proof (G_run g Hg _ Hok') as H. rewrite crun_app in H. fold c in H. cbn [crun] in H. unfold cstep in H. by rewrite E in H. }
  destruct (moved_same c o c' Hm E) as [Es _]. destruct (moved_rest c o c' Hm E) as (Ep & Epp & Et). pose proof (moved_power c o c' Hm E) as Hp.
  assert (Hpt : forall x, is_member c' p x <-> is_member c p x) by (intros x; unfold is_member, points; by rewrite Es).
  assert (Ha : 0 <= a < two63) by exact Ho. pose proof (maxvp_pct g c HG) as Hv.
  assert (Hst : forall x, is_member c p x -> stake_of c' x = stake_of c x + (if (x =? s)%N then a else 0)).
  { intros x Hx. rewrite !stake_of_power. destruct (member_le g Hg c p x HG Hx). destruct (member_le g Hg c' p x HG' (proj2 (Hpt x) Hx)).
    destruct (Hp x) as [k Hk]. cbn [moved] in Hk. unfold o in Hk. cbn [moved] in Hk. unfold two63, two64 in *. destruct (x =? s)%N; lia. }
  apply (run_iff g Hg c p HG HT) in Hr as (pl & P1 & P2 & P3 & P4 & P5 & P6). rewrite (run_iff g Hg c' p HG' HT').
  assert (Hnet : net c p (members c p) o = if decide (is_member c p s) then a else 0).
  { cbn [net o]. unfold counts_in. case_decide as Hd; unfold is_member in *.
    - replace (memb s (members c p)) with true by (symmetry; apply memb_spec; by apply member_in). by destruct (points c p s).
    - destruct (points c p s); [by destruct Hd|]. by rewrite andb_false_r. }
  rewrite Hnet in HS. split.
  - intros (pl' & _ & _ & _ & _ & _ & H) Hs. rewrite decide_True in HS by done. specialize (H s (proj2 (Hpt s) Hs)).
    rewrite (Hst s Hs), N.eqb_refl, Epp, HS in H. done.
  - intros H. exists pl. unfold get_pool. rewrite Ep, Et, Epp, HS. unfold get_pool in P1. split; [exact P1|]. split; [done|]. split; [done|]. split; [done|].
    split; [case_decide; lia|]. intros x Hx. apply Hpt in Hx. rewrite (Hst x Hx). destruct (N.eqb_spec x s) as [->|Hn].
    + rewrite decide_True by done. by apply H.
    + specialize (P6 x Hx). case_decide; nia.
Qed.
