(** * Claims: what moving stake does to a vote that is under way (C83). *)
From Verif Require Import Base BaseFacts Delegation DelegationClaims3 Stakers StakersInv StakersClaims StakersRun Funders Team RoundRobin RoundRobinClaims Pool Bundles Chain ChainFrame ArchiveInv
  BankMoves ChainLift PoolFrame PoolInv PayoutClaims PoolClaims TallyFacts VoteClaims StepCases PaySafe PointsInv TallyClaims TallyEffects TallyProps EventStake LiveClaims RunsClaims.

(** ** The statement *)
(** The messages by which a delegator puts stake somewhere at once. *)
Definition moves (o : cop) : Prop := match o with CDelegate _ _ _ | CRedelegate _ _ _ _ => True | _ => False end.
(** [s] is on the list and a member of the pool. *)
Definition counts_in (c : chain) (p : N) (l : list N) (s : N) : bool := memb s l && (if points c p s then true else false).
(** By how much the message changes the stake behind the members on the list. *)
Definition net (c : chain) (p : N) (l : list N) (o : cop) : Z :=
  match o with
  | CDelegate _ s a => if counts_in c p l s then a else 0
  | CRedelegate _ from to a => (if counts_in c p l to then a else 0) - (if counts_in c p l from then a else 0)
  | _ => 0
  end.

(** ** The stake of one staker *)
Definition moved (o : cop) (s : N) : Z :=
  match o with
  | CDelegate _ t a => if (s =? t)%N then a else 0
  | CRedelegate _ from to a => (if (s =? to)%N then a else 0) - (if (s =? from)%N then a else 0)
  | _ => 0
  end.
Lemma moved_power c o c' : moves o -> cmsg c o = Some c' -> forall s, eq64 (power c' s) (power c s + moved o s).
Proof.
  intros Hm E s. destruct o; try done; cbn [cmsg moved] in *.
  - apply fmap_Some in E as (st' & E & ->). unfold msg_delegate in E. destruct (negb _); [done|]. destruct (send _ _ _ _) as [b|]; [|done]. injection E as <-.
    change (eq64 (tot (perform_delegation (d_in c) s0 d a) s) (tot (d_in c) s + (if (s =? s0)%N then a else 0))). apply tot_delegation.
  - apply fmap_Some in E as (st' & E & ->). unfold msg_redelegate in E. destruct (negb _); [done|]. destruct (negb _); [done|]. destruct (negb _); [done|].
    destruct (_ >? _); [done|]. destruct (consume_spell _ _ _) as [l|]; [|done].
    set (st1 := with_cool (d_in c) (<[d := l]> (ds_cool (d_in c)))) in *. pose proof (tot_undelegation st1 from d a s) as Hu. cbv zeta in Hu.
    destruct (perform_undelegation st1 from d a) as [st2 actual]. cbn [fst snd] in Hu. destruct (actual =? a) eqn:Ea; [|done]. cbn [negb] in E. apply Z.eqb_eq in Ea. subst actual. injection E as <-.
    change (eq64 (tot (perform_delegation st2 to d a) s) (tot st1 s + ((if (s =? to)%N then a else 0) - (if (s =? from)%N then a else 0)))).
    pose proof (tot_delegation st2 to d a s) as Hd. destruct Hu as [k Hk]. destruct Hd as [j Hj]. exists (k + j). lia.
Qed.
Lemma moved_same c o c' : moves o -> cmsg c o = Some c' -> c_s c' = c_s c /\ c_prop c' = c_prop c.
Proof.
  intros Hm E. destruct o; try done; cbn [cmsg] in E; by apply fmap_Some in E as (st' & _ & ->).
Qed.

(** ** Sums *)
Lemma sum_point (f : N -> Z) (l : list N) s a : NoDup l -> sum_of (fun x => if (x =? s)%N then f x * a else 0) l = if memb s l then f s * a else 0.
Proof.
  induction 1 as [|x l Hx Hn IH]; [done|]. rewrite sum_cons, IH. apply memb_false in Hx. unfold memb in *. cbn [existsb].
  destruct (N.eqb_spec x s) as [->|Hne]; cbn [orb]; [rewrite Hx; lia|lia].
Qed.
Lemma sum_add (f h : N -> Z) l : sum_of (fun x => f x + h x) l = sum_of f l + sum_of h l.
Proof. induction l as [|x l IH]; [done|]. rewrite !sum_cons, IH. lia. Qed.
Lemma sum_ext (f h : N -> Z) l : (forall x, x ∈ l -> f x = h x) -> sum_of f l = sum_of h l.
Proof. induction l as [|x l IH]; intros H; [done|]. rewrite !sum_cons, IH; [f_equal; apply H; by left|]. intros y Hy. apply H. by right. Qed.

Section S.
Context (g : gen) (Hg : genesis g).
Lemma member_le c p s : G g c -> points c p s <> None -> 0 <= power c s <= all_stake c p.
Proof.
  intros HG Hs. pose proof (fun y => G_power g Hg c y HG) as Hp. split; [done|]. rewrite <- (all_power g Hg). unfold pool_power.
  apply member_in in Hs. assert (H : sum_of (power c) [s] <= sum_of (power c) (members c p)).
  { apply sum_incl; [done|apply NoDup_singleton|]. intros y Hy. by apply elem_of_list_singleton in Hy as ->. }
  cbn in H. lia.
Qed.
Lemma backing_moved c o c' p l : G g c -> G g c' -> moves o -> cmsg c o = Some c' -> cop_ok c o -> all_stake c p < two63 -> all_stake c' p < two63 -> NoDup l ->
  backing c' p l = backing c p l + net c p l o.
Proof.
  intros HG HG' Hm E Ho HT HT' Hn. destruct (moved_same c o c' Hm E) as [Es _]. pose proof (moved_power c o c' Hm E) as Hp.
  assert (Hpt : forall s, points c' p s = points c p s) by (intros s; unfold points; by rewrite Es).
  set (u := fun s => if points c p s then 1 else 0).
  assert (Hb : backing c' p l = backing c p l + sum_of (fun s => u s * moved o s) l).
  { unfold backing. rewrite <- sum_add. apply sum_ext. intros s _. rewrite Hpt. unfold u. destruct (points c p s) as [v|] eqn:Ev; [|lia].
    fold (stake_of c' s) (stake_of c s). rewrite !stake_of_power. destruct (member_le c p s HG) as [A1 A2]; [by rewrite Ev|].
    destruct (member_le c' p s HG') as [B1 B2]; [by rewrite Hpt, Ev|]. destruct (Hp s) as [k Hk]. unfold two63, two64 in *.
    destruct o; try done; cbn [moved cop_ok] in *; unfold two63 in *; repeat (destruct (_ =? _)%N in * ); lia. }
  rewrite Hb. f_equal. destruct o; try done; cbn [moved net]; unfold counts_in.
  - rewrite (sum_ext _ (fun x => if (x =? s)%N then u x * a else 0)) by (intros x _; destruct (x =? s)%N; lia).
    rewrite sum_point by done. unfold u. destruct (memb s l), (points c p s); cbn [andb]; lia.
  - rewrite (sum_ext _ (fun x => (if (x =? to)%N then u x * a else 0) + (if (x =? from)%N then u x * (- a) else 0))) by (intros x _; destruct (x =? to)%N, (x =? from)%N; lia).
    rewrite sum_add, !sum_point by done. unfold u. destruct (memb to l), (points c p to), (memb from l), (points c p from); cbn [andb]; lia.
Qed.
End S.

(** Moving stake changes no vote, but what the votes weigh. *)
Lemma claim_swing g ops o p c' : genesis g -> cops_ok (gstart g) (ops ++ [o]) -> let c := crun (gstart g) ops in moves o -> cmsg c o = Some c' ->
  all_stake c p < two63 -> all_stake c' p < two63 -> let b := get_prop c p in
  get_prop c' p = b /\ all_stake c' p = all_stake c p + net c p (members c p) o /\
  for_it c' p = for_it c p + net c p (bp_valid b) o /\ against_it c' p = against_it c p + net c p (bp_invalid b) o.
Proof.
  intros Hg Hok c Hm E HT HT' b. pose proof Hok as Hok'. apply cops_ok_app in Hok as [Hok [Ho _]]. fold c in Ho. pose proof (r_G g ops Hg Hok) as HG. fold c in HG.
  assert (HG' : G g c').
  { pose proof (G_run g Hg _ Hok') as H. rewrite crun_app in H. fold c in H. cbn [crun] in H. unfold cstep in H. by rewrite E in H. }
  destruct (moved_same c o c' Hm E) as [Es Ep]. assert (Eb : get_prop c' p = b) by (unfold get_prop; by rewrite Ep).
  assert (Em : members c' p = members c p) by (unfold members; by rewrite Es).
  destruct (votes_once c p (r_A g ops Hok)) as [Hn _]. fold c b in Hn. rewrite !NoDup_app in Hn. destruct Hn as (N1 & _ & N2 & _).
  split; [done|]. unfold all_stake at 1, for_it at 1, against_it at 1. rewrite Eb, Em. fold (all_stake c p).
  split; [|split]; apply (backing_moved g Hg); try done. apply members_NoDup.
Qed.
(** What it takes: new stake behind a supporter, or stake of a member who is not one moved to a supporter. *)
Lemma claim_cost g ops o p c' : genesis g -> cops_ok (gstart g) (ops ++ [o]) -> let c := crun (gstart g) ops in moves o -> cmsg c o = Some c' ->
  all_stake c p < two63 -> all_stake c' p < two63 ->
  (forall d s a, o = CDelegate d s a -> s ∈ supporters c p -> (agreed c' p <-> all_stake c p - 2 * for_it c p < a)) /\
  (forall d from to a, o = CRedelegate d from to a -> is_member c p from -> from ∉ supporters c p -> to ∈ supporters c p ->
     (agreed c' p <-> all_stake c p - 2 * for_it c p < 2 * a)).
Proof.
  intros Hg Hok c Hm E HT HT'. destruct (claim_swing g ops o p c' Hg Hok Hm E HT HT') as (_ & H1 & H2 & _). fold c in H1, H2. unfold agreed. rewrite H1, H2.
  assert (Hs : forall s, s ∈ supporters c p <-> counts_in c p (bp_valid (get_prop c p)) s = true).
  { intros s. unfold supporters, counts_in. rewrite elem_of_list_In, filter_In, <- elem_of_list_In, andb_true_iff, memb_spec. done. }
  assert (Hk : forall s, is_member c p s <-> counts_in c p (members c p) s = true).
  { intros s. unfold counts_in. rewrite andb_true_iff, memb_spec, member_in. unfold is_member. destruct (points c p s); naive_solver. }
  assert (Hsm : forall s, s ∈ supporters c p -> counts_in c p (members c p) s = true).
  { intros s H. apply Hs in H. unfold counts_in in H. apply andb_true_iff in H as [_ H]. apply Hk. unfold is_member. by destruct (points c p s). }
  clear H1 H2. split; [intros d s a -> Ha|intros d from to a -> Hf Hn Ht]; cbn [net].
  - rewrite (Hsm s Ha). apply Hs in Ha. rewrite Ha. lia.
  - apply Hk in Hf. rewrite (Hsm to Ht), Hf. apply Hs in Ht. rewrite Ht.
    destruct (counts_in c p (bp_valid (get_prop c p)) from) eqn:Ef; [destruct Hn; by apply Hs|]. lia.
Qed.
