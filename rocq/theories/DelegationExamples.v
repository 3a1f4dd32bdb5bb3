(** * Delegation: concrete histories.
    Non-trivial cases meeting the hypotheses of the claims, and witnesses of the
    claims that are false of the code. *)
From Verif Require Import Base BaseFacts Delegation F1Spec
  DelegationInv DelegationQueue DelegationProps DelegationRewards DelegationClaims
  DelegationClaims2 DelegationClaims3.

Lemma some_ne {A} (o : option A) : match o with Some _ => true | None => false end = true -> o <> None.
Proof. by destruct o. Qed.
(** Decide a conjunction of computations. *)
Ltac conj := repeat match goal with |- _ /\ _ => split end;
  try match goal with |- _ <> None => apply some_ne end.

(** Boolean form of the admissibility of inputs (no bank interference). *)
Definition dop_okb (o : dop) : bool :=
  match o with
  | ODelegate _ _ _ a | OUndelegate _ _ a | ORedelegate _ _ _ _ _ a => (0 <=? a) && (a <? two63)
  | OPayout _ c payer => forallb (fun p => 0 <? snd p) (map_to_list c)
                         && match payer with MDelegation => false | _ => true end
  | OBeginBlock dt => 0 <=? dt
  | OParams p => dparams_valid p
  | OBank _ => false
  | _ => true
  end.
Lemma dop_okb_ok st o : dop_okb o = true -> dop_ok st o.
Proof.
  destruct o; simpl; rewrite ?andb_true_iff; try (lia || done).
  intros [H1 H2]. split; [|by destruct payer].
  intros d x Hx. rewrite forallb_forall in H1.
  specialize (H1 (d, x)). assert (0 <? x = true); [|lia].
  apply H1. apply elem_of_list_In. by apply elem_of_map_to_list.
Qed.
Lemma ops_okb_ok st ops : forallb dop_okb ops = true -> ops_ok st ops.
Proof.
  revert st. induction ops as [|o t IH]; intros st H; simpl in *; [done|].
  apply andb_true_iff in H as [H1 H2]. split; [by apply dop_okb_ok|by apply IH].
Qed.

Definition quarter : Z := 250000000000000000.
Definition half : Z := 500000000000000000.
(** Unbonding 5 s, cooldown 10 s, 2 redelegations; vote 1/4, upload 1/2, timeout 1/4. *)
Definition prm : dparams := mkDP 5 10 2 quarter half quarter.

Definition rich (a b c payer : Z) : bank :=
  <[User 1 := {[KYVE := a]}]> (<[User 2 := {[KYVE := b]}]> (<[User 3 := {[KYVE := c]}]>
  (<[PoolAcc 0 := {[KYVE := payer]}]> ∅))).

Definition pay (s : N) (v : Z) : dop := OPayout s (coin KYVE v) (PoolAcc 0).

(** ** A history exercising every operation *)
Definition bk1 := rich 1000 1000 1000 1000.
Definition h1 : list dop :=
  [ ODelegate true 1 10 300; ODelegate true 2 10 200; ODelegate true 3 11 100; pay 10 77;
    OSlash 10 SlashVote; pay 10 31; OWithdraw 1 10; OUndelegate 2 10 50; OBeginBlock 3;
    ORedelegate true true 1 10 11 40; OUndelegate 1 10 20; OBeginBlock 2; pay 10 5; OBeginBlock 3 ].
Definition s1 := drun (dinit bk1 prm 100) h1.

Example h1_ok : ops_ok (dinit bk1 prm 100) h1.
Proof. apply ops_okb_ok. by vm_compute. Qed.
Example h1_reached : reached h1 s1.
Proof. exists bk1, prm, 100. split; [done|]. split; [apply h1_ok|done]. Qed.

Example h1_state :
  (delegation_amount s1 10, delegation_of s1 10 1, delegation_of s1 10 2,
   delegation_amount s1 11, delegation_of s1 11 1, delegation_of s1 11 3)
  = (265, 165, 100, 140, 40, 100).
Proof. by vm_compute. Qed.

Notation i1 := (dinit bk1 prm 100).

(** slack and drift are far below the bounds of C01, C02 and C05. *)
Example h1_drift :
  (slack h1 10, drift i1 h1 10 KYVE, received_total i1 h1 10 KYVE, withdrawn_total i1 h1 10 KYVE)
  = (2, 2898, 113, 110).
Proof. by vm_compute. Qed.

(** Bounds for all stakers and denoms of a history whose payouts are in one denom. *)
Definition staker_free (s : N) (o : dop) : bool :=
  match o with OPayout s' _ _ | OSlash s' _ => negb (s' =? s)%N | _ => true end.
Definition pays_in (y : N) (o : dop) : bool :=
  match o with OPayout _ c _ => forallb (fun q => (fst q =? y)%N) (map_to_list c) | _ => true end.
Lemma free_zero ops s : forallb (staker_free s) ops = true -> payouts ops s = 0 /\ slashes ops s = 0.
Proof.
  induction ops as [|o t IH]; simpl; [done|]. rewrite andb_true_iff. intros [H1 H2].
  destruct (IH H2) as [A B]. rewrite A, B. unfold pays, slashed_by, at_staker.
  destruct o; simpl in *; rewrite ?decide_False by (intros ->; by rewrite N.eqb_refl in H1); lia.
Qed.
Lemma received_other ops st s x y : x <> y -> forallb (pays_in y) ops = true -> received_total st ops s x = 0.
Proof.
  intros Hxy. revert st. induction ops as [|o t IH]; intros st; simpl; [done|]. rewrite andb_true_iff. intros [H1 H2].
  rewrite (IH _ H2). unfold received. destruct o; try done. destruct (payout_rewards _ _ _ _); [|done].
  unfold at_staker. destruct (decide _); [|done]. simpl in H1. rewrite forallb_forall in H1.
  unfold amt. destruct (_ !! x) as [v|] eqn:E; [|done]. specialize (H1 (x, v)). simpl in H1.
  assert ((x =? y)%N = true); [|by apply N.eqb_eq in H].
  apply H1, elem_of_list_In, elem_of_map_to_list. done.
Qed.
Lemma drift_all st ops y B (L : list N) :
  forallb (pays_in y) ops = true ->
  forallb (fun o => match o with OPayout s _ _ | OSlash s _ => bool_decide (s ∈ L) | _ => true end) ops = true ->
  2 * Z.of_nat (length ops) < B ->
  Forall (fun s => drift st ops s y < B /\
    payouts ops s * (max_total st ops s + 2 * slack ops s) + 2 * Z.of_nat (length ops) + slack ops s < B) L ->
  forall s x, drift st ops s x < B.
Proof.
  intros Hy HL HB HD s x. destruct (decide (s ∈ L)) as [Hs|Hs].
  - rewrite Forall_forall in HD. destruct (HD s Hs) as [H1 H2]. destruct (decide (x = y)) as [->|Hx]; [done|].
    unfold drift. rewrite (received_other ops st s x y Hx Hy). lia.
  - destruct (free_zero ops s) as [H1 H2].
    { rewrite forallb_forall in HL |- *. intros o Ho. specialize (HL o Ho). destruct o; simpl in *; try done.
      all: apply bool_decide_eq_true in HL; apply negb_true_iff, N.eqb_neq; by intros ->. }
    unfold drift, slack. rewrite H1, H2. lia.
Qed.
Lemma slack_all ops (L : list N) :
  forallb (fun o => match o with OPayout s _ _ | OSlash s _ => bool_decide (s ∈ L) | _ => true end) ops = true ->
  Forall (fun s => slack ops s < ONE) L -> forall s, slack ops s < ONE.
Proof.
  intros HL HD s. destruct (decide (s ∈ L)) as [Hs|Hs]; [rewrite Forall_forall in HD; by apply HD|].
  destruct (free_zero ops s) as [H1 H2].
  { rewrite forallb_forall in HL |- *. intros o Ho. specialize (HL o Ho). destruct o; simpl in *; try done.
    all: apply bool_decide_eq_true in HL; apply negb_true_iff, N.eqb_neq; by intros ->. }
  unfold slack. rewrite H2. reflexivity.
Qed.

Example h1_slack_all : forall s, slack h1 s < ONE.
Proof. apply (slack_all h1 [10%N]); [done|]. repeat constructor. Qed.
Example h1_drift_all : forall s x, drift i1 h1 s x < 2 * ONE - 1.
Proof.
  apply (drift_all i1 h1 KYVE _ [10%N]); [by vm_compute|by vm_compute|done|].
  repeat constructor; by vm_compute.
Qed.
(** The module account covers principal (265 + 140) and unpaid rewards (3). *)
Example h1_solvent :
  (bal (ds_bank s1) MDelegation KYVE, bal (ds_bank s1) Treasury KYVE, bal (ds_bank s1) (User 1) KYVE, ds_halt s1)
  = (408, 125, 787, false).
Proof. by vm_compute. Qed.
Example h1_delegators : is_delegator s1 10 1 /\ is_delegator s1 10 2 /\ is_delegator s1 11 1.
Proof. conj; (apply (bool_decide_unpack _); by vm_compute). Qed.
(** C04 on [h1]: delegator 2 is owed one unit, delegator 1 nothing. *)
Example h1_outstanding :
  map_to_list (outstanding s1 10 2) = [(KYVE, 1)] /\ map_to_list (payable s1 10 2) = [(KYVE, 1)] /\
  map_to_list (outstanding s1 10 1) = [] /\ msg_withdraw s1 2 10 <> None.
Proof. conj; try by vm_compute. Qed.
(** No slash of 11, and (for staker 10) none since the withdrawal of delegator 1. *)
Example h1_since :
  slashes h1 11 = 0 /\
  h1 = firstn 6 h1 ++ OWithdraw 1 10 :: skipn 7 h1 /\
  msg_withdraw (drun i1 (firstn 6 h1)) 1 10 <> None /\ slashes (skipn 7 h1) 10 = 0 /\ slashes h1 10 = 1.
Proof. conj; by vm_compute. Qed.
(** C06: another delegator undelegates. *)
Example h1_isolated :
  actor (OUndelegate 1 10 20) <> Some 2%N /\ dop_ok s1 (OUndelegate 1 10 20) /\
  msg_undelegate s1 1 10 20 <> None /\ delegation_of s1 10 2 = 100.
Proof. conj; try by vm_compute. Qed.
(** C07: two requests, completed in order, with the delegations still held. *)
Example h1_queue :
  map (fun q => (q.1.1, u_delegator q.1.2, u_amount q.1.2, q.2)) (completed i1 h1) = [(1%N, 2%N, 50, 50); (2%N, 1%N, 20, 20)]
  /\ length (requests i1 h1) = 2%nat /\ pending s1 = [].
Proof. conj; by vm_compute. Qed.
Example h1_queue_pending :
  map u_amount (pending (drun i1 (firstn 12 h1))) = [20] /\
  map u_amount (out_entries (paid_by (drun i1 (firstn 11 h1)) (OBeginBlock 2))) = [50].
Proof. conj; by vm_compute. Qed.

(** C08: two redelegations fit in the cooldown of 10 s, the third is rejected until it has passed,
    and two at the same time are rejected. *)
Definition h8 : list dop :=
  let r := ORedelegate true true 1 10 11 5 in
  [ODelegate true 1 10 300; r; r; OBeginBlock 3; r; OBeginBlock 3; r; OBeginBlock 5; r].
Example h8_ok : ops_ok i1 h8 /\ Forall no_params h8.
Proof. split; [apply ops_okb_ok; by vm_compute|repeat constructor]. Qed.
Example h8_times : redel_times i1 h8 1 = [100; 103; 111] /\ delegation_of (drun i1 h8) 11 1 = 15.
Proof. split; by vm_compute. Qed.

(** C09 *)
Example h1_redelegate :
  (forall s, s = 10%N \/ s = 11%N -> slack h1 s < ONE) /\
  match msg_redelegate (drun i1 (firstn 9 h1)) true true 1 10 11 40 with
  | Some st' => ds_halt st' = false /\ delegation_of (drun i1 (firstn 9 h1)) 10 1 = 225 /\
                delegation_of st' 10 1 = 185 /\ delegation_of st' 11 1 = 40
  | None => False
  end.
Proof. split; [intros; apply h1_slack_all|by vm_compute]. Qed.

(** C10: a slash by one half. *)
Example h1_slash :
  f_data (getf s1 10) <> None /\ ds_halt (fst (slash_delegators s1 10 SlashUpload)) = false /\
  snd (slash_delegators s1 10 SlashUpload) = 132 /\
  delegation_of (fst (slash_delegators s1 10 SlashUpload)) 10 1 = 82 /\
  delegation_of (fst (slash_delegators s1 10 SlashUpload)) 10 2 = 50 /\
  delegation_amount (fst (slash_delegators s1 10 SlashUpload)) 10 = 133 /\
  match msg_delegate (fst (slash_delegators s1 10 SlashUpload)) true 1 10 7 with
  | Some st' => delegation_of st' 10 1 = 89 | None => False end.
Proof. conj; by vm_compute. Qed.

(** C11: nobody ever delegated to 12. *)
Example h1_never : joined h1 12 = ∅ /\ coin KYVE 5 <> ∅.
Proof. split; [apply (bool_decide_unpack _); by vm_compute|by vm_compute]. Qed.

(** ** Witnesses of false statements *)

(** C04: after a slash the query reports a coin that a withdrawal does not pay. *)
Definition h4 : list dop :=
  [ODelegate true 1 10 2; ODelegate true 2 10 1; OSlash 10 SlashVote; pay 10 1; OWithdraw 2 10; pay 10 1].
Lemma refute_query : exists ops st s d,
  reached ops st /\ is_delegator st s d /\ outstanding st s d <> payable st s d /\
  amt (outstanding st s d) KYVE = 1 /\ amt (payable st s d) KYVE = 0.
Proof.
  exists h4, (drun i1 h4), 10%N, 1%N. split.
  { exists bk1, prm, 100. split; [done|]. split; [apply ops_okb_ok; by vm_compute|done]. }
  split; [(apply (bool_decide_unpack _); by vm_compute)|]. split; [|by vm_compute].
  intros H. apply (f_equal (fun c => amt c KYVE)) in H. by vm_compute in H.
Qed.

(** C07: a waiting time close to 2^64 is accepted by the validation of the parameters, the sum
    with the creation time wraps, and the request is paid in the next block. *)
Definition prm_wait : dparams := mkDP (two64 - 50) 10 2 quarter half quarter.
Definition h7 : list dop := [ODelegate true 1 10 300; OUndelegate 1 10 100].
Lemma refute_on_time : exists bk p t ops dt,
  dparams_valid p = true /\ 0 <= t /\ ops_ok (dinit bk p t) (ops ++ [OBeginBlock dt]) /\
  let st := drun (dinit bk p t) ops in
  exists e, In e (out_entries (paid_by st (OBeginBlock dt))) /\ ds_time st + dt < u_time e + p_unbonding (ds_params st) /\
    bal (ds_bank (dstep st (OBeginBlock dt))) (User (u_delegator e)) KYVE
    = bal (ds_bank st) (User (u_delegator e)) KYVE + u_amount e.
Proof.
  exists bk1, prm_wait, 100, h7, 5. split; [done|]. split; [lia|]. split; [apply ops_okb_ok; by vm_compute|].
  exists (mkU 10 1 100 100). split; [vm_compute; left; reflexivity|]. split; vm_compute; reflexivity.
Qed.

(** C08: a cooldown of 2^63 becomes negative as an int64, every record expires at once, and neither the
    number of redelegations nor the one per block is limited. *)
Definition prm_cool : dparams := mkDP 5 two63 1 quarter half quarter.
Definition h8w : list dop :=
  let r := ORedelegate true true 1 10 11 5 in [ODelegate true 1 10 300; r; r; OBeginBlock 3; r].
Lemma refute_redelegation_limit : exists bk p t ops who lo,
  dparams_valid p = true /\ ops_ok (dinit bk p t) ops /\ Forall no_params ops /\
  let ts := redel_times (dinit bk p t) ops who in
  ~ NoDup ts /\ p_maxredel p < Z.of_nat (length (between lo (lo + p_cooldown p) ts)).
Proof.
  exists bk1, prm_cool, 100, h8w, 1%N, 100. split; [done|]. split; [apply ops_okb_ok; by vm_compute|].
  split; [repeat constructor|]. cbv zeta.
  assert (E : redel_times (dinit bk1 prm_cool 100) h8w 1 = [100; 100; 103]) by by vm_compute. rewrite E.
  split; [|by vm_compute]. intros H. apply NoDup_cons in H as [H _]. apply H. apply elem_of_list_here.
Qed.

(** C05, C02: a staker with 999500249875061 + 1 base units (within the supply of the
    chain), two delegators and 2002 payouts of one unit: 2003 units are withdrawn, the
    last principal cannot be returned and the chain is halted. *)
Definition whale : Z := 999500249875061.
Definition bk5 : bank := rich whale 1 0 2002.
Definition h5 : list dop :=
  [ODelegate true 1 10 whale; ODelegate true 2 10 1]
  ++ concat (repeat [pay 10 1; OWithdraw 2 10] 2002)
  ++ [OWithdraw 1 10; OUndelegate 2 10 1; OUndelegate 1 10 whale; OBeginBlock 5].
(** Totals and last state in one pass. *)
Fixpoint track (st : dstate) (ops : list dop) (s x : N) : Z * Z * dstate :=
  match ops with
  | [] => (0, 0, st)
  | o :: t => let '(r, w, f) := track (dstep st o) t s x in (received st o s x + r, withdrawn st o s x + w, f)
  end.
Lemma track_spec ops s x : forall st, track st ops s x = (received_total st ops s x, withdrawn_total st ops s x, drun st ops).
Proof. induction ops as [|o t IH]; intros st; [done|]. cbn [track received_total withdrawn_total drun]. by rewrite IH. Qed.
Definition overpaid (bk : bank) (p : dparams) (t : Z) (ops : list dop) (s x d : N) : bool :=
  let '(r, w, st) := track (dinit bk p t) ops s x in
  (r <? w) && ds_halt st
  && match pending st with [] => true | _ => false end
  && (reported_sum st s =? 0) && (bal (ds_bank st) (User d) x <? bal bk (User d) x).
Lemma overpaid_ok bk p t ops s x d :
  dparams_valid p = true -> forallb dop_okb ops = true -> slashes ops s = 0 -> overpaid bk p t ops s x d = true ->
  exists bk p t ops s x d,
  dparams_valid p = true /\ ops_ok (dinit bk p t) ops /\ slashes ops s = 0 /\
  received_total (dinit bk p t) ops s x < withdrawn_total (dinit bk p t) ops s x /\
  ds_halt (drun (dinit bk p t) ops) = true /\ pending (drun (dinit bk p t) ops) = [] /\
  reported_sum (drun (dinit bk p t) ops) s = 0 /\
  bal (ds_bank (drun (dinit bk p t) ops)) (User d) x < bal bk (User d) x.
Proof.
  intros H1 H2 H3 H. exists bk, p, t, ops, s, x, d. unfold overpaid in H. rewrite track_spec, !andb_true_iff in H.
  destruct H as [[[[A B] C] D] E]. split; [done|]. split; [by apply ops_okb_ok|]. split; [done|].
  split; [lia|]. split; [done|]. split; [by destruct (pending _)|]. lia.
Qed.
Lemma refute_rewards : exists bk p t ops s x d,
  dparams_valid p = true /\ ops_ok (dinit bk p t) ops /\ slashes ops s = 0 /\
  received_total (dinit bk p t) ops s x < withdrawn_total (dinit bk p t) ops s x /\
  ds_halt (drun (dinit bk p t) ops) = true /\ pending (drun (dinit bk p t) ops) = [] /\
  (* all delegators left, [d] still misses the principal *)
  reported_sum (drun (dinit bk p t) ops) s = 0 /\
  bal (ds_bank (drun (dinit bk p t) ops)) (User d) x < bal bk (User d) x.
Proof.
  apply (overpaid_ok bk5 prm 100 h5 10 KYVE 1); [done|vm_cast_no_check (eq_refl true)|
    vm_cast_no_check (eq_refl 0)|vm_cast_no_check (eq_refl true)].
Qed.

Lemma refute_exact : exists bk p t ops s x,
  dparams_valid p = true /\ ops_ok (dinit bk p t) ops /\ slashes ops s = 0 /\
  received_total (dinit bk p t) ops s x < withdrawn_total (dinit bk p t) ops s x.
Proof. destruct refute_rewards as (bk & p & t & ops & s & x & d & H). exists bk, p, t, ops, s, x. tauto. Qed.
Lemma refute_solvent : exists bk p t ops s x d,
  dparams_valid p = true /\ ops_ok (dinit bk p t) ops /\ slashes ops s = 0 /\
  ds_halt (drun (dinit bk p t) ops) = true /\ pending (drun (dinit bk p t) ops) = [] /\
  reported_sum (drun (dinit bk p t) ops) s = 0 /\
  bal (ds_bank (drun (dinit bk p t) ops)) (User d) x < bal bk (User d) x.
Proof. destruct refute_rewards as (bk & p & t & ops & s & x & d & H). exists bk, p, t, ops, s, x, d. tauto. Qed.

(** C11: everybody has left, a payout is still accepted and lost: after a new
    delegator joins and rewards arrive, only the new rewards are ever paid. *)
Definition h11 : list dop := [ODelegate true 1 10 100; OUndelegate 1 10 100; OBeginBlock 5].
Definition h11' : list dop := [pay 10 50; ODelegate true 2 10 100; pay 10 7; OWithdraw 2 10; OUndelegate 2 10 100; OBeginBlock 5].
Lemma refute_payout : exists ops st ops' s c payer st',
  reached ops st /\ (forall d, ~ is_delegator st s d) /\ delegation_amount st s = 0 /\
  c <> ∅ /\ payout_rewards st s c payer = Some st' /\
  (* the 50 coins stay in the module account for good *)
  ops_ok st (OPayout s c payer :: ops') /\
  let st2 := drun st (OPayout s c payer :: ops') in
  delegation_amount st2 s = 0 /\ (forall d, ~ is_delegator st2 s d) /\
  bal (ds_bank st2) MDelegation KYVE = 50 /\
  received_total st (OPayout s c payer :: ops') s KYVE = 57 /\
  withdrawn_total st (OPayout s c payer :: ops') s KYVE = 7.
Proof.
  set (st := drun i1 h11).
  destruct (payout_rewards st 10 (coin KYVE 50) (PoolAcc 0)) as [st'|] eqn:E; [|exfalso; revert E; apply some_ne; by vm_compute].
  exists h11, st, (tail h11'), 10%N, (coin KYVE 50), (PoolAcc 0), st'.
  assert (HN : forall s, f_delegators (getf s 10) = ∅ -> forall d, ~ is_delegator s 10 d).
  { intros s H d [x Hx]. by rewrite H in Hx. }
  split. { exists bk1, prm, 100. split; [done|]. split; [apply ops_okb_ok; by vm_compute|done]. }
  split. { apply HN. apply (bool_decide_unpack _); by vm_compute. }
  split; [by vm_compute|]. split; [by vm_compute|]. split; [done|].
  split; [apply ops_okb_ok; by vm_compute|]. cbv zeta.
  split; [by vm_compute|]. split; [apply HN; apply (bool_decide_unpack _); by vm_compute|].
  conj; by vm_compute.
Qed.
