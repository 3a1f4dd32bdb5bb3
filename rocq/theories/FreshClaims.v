(** * Claims: the share of a delegation made just before a payout (C84). *)
From Verif Require Import Base BaseFacts Delegation DelegationClaims DelegationClaims2 DelegationClaims3 DelegationShare Stakers StakersInv StakersClaims StakersRun Funders Team RoundRobin RoundRobinClaims Pool Bundles Chain ChainFrame ArchiveInv
  BankMoves ChainLift PoolFrame PoolInv PayoutClaims PoolClaims TallyFacts VoteClaims StepCases PaySafe PointsInv TallyClaims TallyEffects TallyProps EventStake LiveClaims RunsClaims SwingClaims.

Lemma not_delegator st s d : delegation_of st s d <> 0 -> is_delegator st s d.
Proof. unfold delegation_of, is_delegator, f1_current. destruct (f_delegators (getf st s) !! d); [by eexists|done]. Qed.
(** A delegation of [a] to [s] and then a payout [r] to the delegators of [s], nothing in between:
    every delegator [e] gets the part that [e]'s delegation is of all, the new one included. *)
Lemma claim_fresh g ops d s a c1 r payer st' : genesis g -> cops_ok (gstart g) (ops ++ [CDelegate d s a]) -> let c := crun (gstart g) ops in
  cmsg c (CDelegate d s a) = Some c1 -> stake_of c s < two63 -> stake_of c1 s < two63 -> 0 < a -> cpos r -> payer <> MDelegation -> payout_rewards (d_in c1) s r payer = Some st' ->
  forall e x, let b := delegation_of (c_d c) s e + (if decide (e = d) then a else 0) in let T := stake_of c s + a in let R := amt r x in 0 < b ->
  R * b * ONE - T * (2 * b + 3 + ONE) <= (amt (payable st' s e) x - amt (payable (c_d c1) s e) x) * T * ONE <= R * (b + 1) * ONE + T * (2 * b + 3 + ONE).
Proof.
  intros Hg Hok c E HT HT1 Ha Hr Hp Hpay e x b T R Hb. pose proof Hok as Hok'. apply cops_ok_app in Hok as [Hok [Ho _]]. fold c in Ho. cbn in Ho.
  pose proof (G_run g Hg ops Hok) as HG. fold c in HG.
  assert (HG' : G g c1). { pose proof (G_run g Hg _ Hok') as H. rewrite crun_app in H. fold c in H. cbn [crun] in H. unfold cstep in H. by rewrite E in H. }
  pose proof (moved_power c (CDelegate d s a) c1 I E s) as [k Hk]. cbn [moved] in Hk. rewrite N.eqb_refl in Hk.
  pose proof (G_power g Hg c s HG) as P0. pose proof (G_power g Hg c1 s HG') as P1.
  destruct (G_reached g Hg c HG) as [dl HR]. destruct (G_reached g Hg c1 HG') as [dl1 HR1].
  assert (Hd : forall y, delegation_of (c_d c1) s y = delegation_of (c_d c) s y + (if decide (y = d) then a else 0)).
  { intros y. cbn [cmsg] in E. apply fmap_Some in E as (st1 & E & ->). change (c_d (d_out c st1)) with st1. change (delegation_of (c_d c) s y) with (delegation_of (d_in c) s y).
    destruct (decide (y = d)) as [->|Hn]; [by apply (claim_delegate dl _ _ _ _ _ _ HR Ho E)|].
    destruct (claim_isolated dl (d_in c) (ODelegate (staker_exists c s) d s a) s y HR) as (H1 & _).
    { done. } { cbn. by intros [= ->]. } { intros (u & Hu & _). done. } { done. } { done. }
    cbn [dstep] in H1. rewrite E in H1. cbn in H1. lia. }
  assert (Hk0 : power c1 s = T). { unfold T. rewrite stake_of_power in HT, HT1 |- *. unfold two63, two64 in *. lia. }
  assert (Heb : delegation_of (d_in c1) s e = b) by exact (Hd e). pose proof (claim_share dl1 (d_in c1) s r payer st' HR1 Hr Hp Hpay) as HS.
  change (delegation_amount (d_in c1) s) with (power c1 s) in HS. rewrite Hk0 in HS. assert (HT0 : 0 < T) by (unfold T; rewrite stake_of_power; lia).
  specialize (HS HT0 e x). rewrite Heb in HS. apply HS. apply not_delegator. rewrite Heb. lia.
Qed.
