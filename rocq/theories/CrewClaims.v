(** * Claims: a pool that runs has a crew (C87). *)
From Verif Require Import Base BaseFacts Delegation DelegationClaims3 Stakers StakersInv StakersClaims StakersRun Funders Team RoundRobin RoundRobinClaims Pool Bundles Chain ChainFrame ArchiveInv
  BankMoves ChainLift PoolFrame PoolInv PayoutClaims PoolClaims TallyFacts VoteClaims StepCases PaySafe PointsInv TallyClaims TallyEffects TallyProps LiveClaims RunsClaims.

(** Members with stake, each once. *)
Definition crew (c : chain) (p : N) (l : list N) : Prop := NoDup l /\ Forall (fun s => is_member c p s /\ 0 < stake_of c s) l.
Definition workers (c : chain) (p : N) : list N := List.filter (fun s => 0 <? stake_of c s) (members c p).

Lemma workers_le c p m l : (forall s, is_member c p s -> stake_of c s * ONE <= m) -> (forall s, s ∈ l -> is_member c p s) -> 0 <= m ->
  backing c p l * ONE <= Z.of_nat (length (List.filter (fun s => 0 <? stake_of c s) l)) * m.
Proof.
  intros H Hl Hm. unfold backing. induction l as [|x l IH]; [cbn; lia|]. rewrite sum_cons. cbn [List.filter].
  specialize (IH ltac:(intros s Hs; apply Hl; by right)).
  pose proof (H x (Hl x ltac:(by left))) as Hx. pose proof (Hl x ltac:(by left)) as Hi. unfold is_member in Hi. fold (stake_of c x).
  destruct (points c p x) as [v|]; [|done]. destruct (0 <? stake_of c x) eqn:E; cbn [length]; [lia|].
  apply Z.ltb_ge in E. unfold ONE in *. lia.
Qed.
Lemma claim_crew g ops p pl : genesis g -> cops_ok (gstart g) ops -> let c := crun (gstart g) ops in
  all_stake c p < two63 -> get_pool c p = Some pl -> 0 < pl_mindel pl -> can_run c p = true ->
  exists l, crew c p l /\ ONE <= pp_maxvp (c_pp c) * Z.of_nat (length l).
Proof.
  intros Hg Hok c HT Hp Hmin Hr. pose proof (r_G g ops Hg Hok) as HG. fold c in HG. clearbody c.
  apply (run_iff g Hg c p HG HT) in Hr as (pl' & Hp' & _ & _ & _ & Hd & Hs). rewrite Hp in Hp'. injection Hp' as <-.
  pose proof (maxvp_pct g c HG) as Hm. assert (H0 : 0 < all_stake c p) by lia.
  exists (workers c p). split.
  - split; [apply NoDup_ListNoDup, List.NoDup_filter, NoDup_ListNoDup, members_NoDup|]. apply Forall_forall. intros s Hi. apply elem_of_list_In, filter_In in Hi as [Hi Hw].
    apply elem_of_list_In, member_in in Hi. split; [exact Hi|lia].
  - pose proof (workers_le c p _ (members c p) Hs (fun s => proj1 (member_in c p s)) ltac:(nia)) as Hb. fold (all_stake c p) (workers c p) in Hb. nia.
Qed.
