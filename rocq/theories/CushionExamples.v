(** * Concrete cases for the reserve of the delegation module. *)
From Verif Require Import Base BaseFacts Delegation F1Spec F1Acct DelegationInv DelegationBank DelegationQueue DelegationProps DelegationRewards DelegationClaims
  DelegationClaims2 DelegationExamples DelegationCushion.

(** As in [refute_solvent], with ten times the stake, so that 202 payouts are enough to halt the chain, and one base unit
    more in the module account. *)
Definition whale6 : Z := 9950248756218904.
Definition bk6 : bank := <[MDelegation := coin KYVE 1]> (rich whale6 1 0 202).
Definition h6 : list dop :=
  [ODelegate true 1 10 whale6; ODelegate true 2 10 1]
  ++ concat (repeat [pay 10 1; OWithdraw 2 10] 202)
  ++ [OWithdraw 1 10; OUndelegate 2 10 1; OUndelegate 1 10 whale6; OBeginBlock 5].
Definition i6 : dstate := dinit bk6 prm 100.
Definition f6 : dstate := drun i6 h6.

Lemma free_payouts_in ops s x : payouts ops s = 0 -> payouts_in ops s x = 0.
Proof.
  assert (H : payouts_in ops s x <= payouts ops s).
  { induction ops as [|o t IH]; simpl; [lia|]. assert (DelegationCushion.pays_in o s x <= pays o s); [|lia].
    destruct o; simpl; try lia. unfold at_staker. destruct (amt _ x =? 0); destruct (decide _); lia. }
  intros H0. pose proof (payouts_in_nonneg ops s x). lia.
Qed.
Lemma other_payouts_in ops s x y : x <> y -> forallb (DelegationExamples.pays_in y) ops = true -> payouts_in ops s x = 0.
Proof.
  intros Hxy. induction ops as [|o t IH]; simpl; [done|]. rewrite andb_true_iff. intros [H1 H2]. rewrite (IH H2).
  destruct o as [| | | |s0 c0 acc0| | | |]; try done. simpl in *.
  assert (amt c0 x = 0) as ->; [|done]. rewrite forallb_forall in H1.
  unfold amt. destruct (_ !! x) as [v|] eqn:E; [|done]. specialize (H1 (x, v)). simpl in H1.
  assert ((x =? y)%N = true); [|by apply N.eqb_eq in H]. apply H1. apply elem_of_list_In, elem_of_map_to_list. done.
Qed.

Lemma only_staker ops s0 s : forallb (fun o => match o with OPayout s _ _ | OSlash s _ => (s =? s0)%N | _ => true end) ops = true ->
  s <> s0 -> payouts ops s = 0.
Proof.
  intros HL Hs. apply free_zero. rewrite forallb_forall in HL |- *. intros o Ho. specialize (HL o Ho). destruct o; simpl in *; try done.
  all: apply N.eqb_eq in HL as ->; by apply negb_true_iff, N.eqb_neq.
Qed.
Lemma no_slashes ops s : forallb (fun o => match o with OSlash _ _ => false | _ => true end) ops = true -> slashes ops s = 0.
Proof. induction ops as [|o t IH]; simpl; [done|]. rewrite andb_true_iff. intros [H1 H2]. rewrite IH by done. by destruct o. Qed.
Lemma h6_slashes s : slashes h6 s = 0.
Proof. apply no_slashes. vm_cast_no_check (eq_refl true). Qed.
Example h6_rounding : (let r := rounding i6 h6 10 KYVE in (r / (2 * ONE) =? 1) && ((r + 1) / (2 * ONE) =? 1)) = true.
Proof. vm_cast_no_check (eq_refl true). Qed.
Example h6_length : 2 * Z.of_nat (length h6) + 1 < 2 * ONE.
Proof. apply Z.ltb_lt. vm_cast_no_check (eq_refl true). Qed.
Lemma h6_units k : 0 <= k <= 1 -> units (rounding i6 h6 10 KYVE + k) <= 1.
Proof.
  generalize h6_rounding. cbv zeta. generalize (rounding i6 h6 10 KYVE). intros r H Hk. apply andb_true_iff in H as [H1 H2]. apply Z.eqb_eq in H1, H2.
  unfold units. rewrite <- H2. apply Z.div_le_mono; [done|]. lia.
Qed.
Lemma units_0 r : r < 2 * ONE -> units r <= 0.
Proof. intros H. assert (r / (2 * ONE) < 1); [|unfold units; lia]. apply Z.div_lt_upper_bound; [done|lia]. Qed.
Lemma bk6_kyve : bal bk6 MDelegation KYVE = 1.
Proof. by vm_compute. Qed.
Lemma bk6_other x : x <> KYVE -> bal bk6 MDelegation x = 0.
Proof. intros Hx. unfold bal, bk6, bal_of. rewrite lookup_insert. unfold coin, amt. simpl. by rewrite lookup_singleton_ne. Qed.
Lemma h6_reserve_k k : 0 <= k <= 1 -> reserve bk6 prm 100 h6 k.
Proof.
  intros Hk. exists [10%N]. split; [apply NoDup_singleton|].
  assert (Hother : forall s x, payouts_in h6 s x = 0 -> rounding i6 h6 s x + k < 2 * ONE).
  { intros s x Hp. unfold rounding, slack. rewrite Hp, h6_slashes. pose proof h6_length. lia. }
  split.
  - intros s x Hs. apply Hother, free_payouts_in. apply (only_staker h6 10); [vm_cast_no_check (eq_refl true)|]. clear -Hs. set_solver.
  - intros x. cbn [foldr]. rewrite Z.add_0_r. destruct (decide (x = KYVE)) as [->|Hx].
    + rewrite bk6_kyve. apply h6_units. lia.
    + rewrite bk6_other by exact Hx. apply units_0, Hother. apply (other_payouts_in h6 10 x KYVE Hx). vm_cast_no_check (eq_refl true).
Qed.
(** The hypotheses of the two theorems are met; those of [C02_solvent_partial] are not. *)
Example h6_ok : dparams_valid prm = true /\ ops_ok (dinit bk6 prm 100) h6 /\ (forall s, slack h6 s < ONE) /\
  reserve bk6 prm 100 h6 0 /\ reserve bk6 prm 100 h6 1.
Proof.
  split; [done|]. split; [apply ops_okb_ok; vm_cast_no_check (eq_refl true)|].
  split; [intros s; unfold slack; by rewrite h6_slashes|]. split; by apply h6_reserve_k.
Qed.
(** The reserve of one unit is used up: everybody leaves with their principal, the account is empty, the chain runs. *)
Example h6_paid : (let f := f6 in
  ((ds_halt f, bal (ds_bank f) MDelegation KYVE),
   (bal (ds_bank f) (User 1) KYVE + bal (ds_bank f) (User 2) KYVE - (whale6 + 1), delegation_amount f 10)))
  = ((false, 0), (203, 0)).
Proof. vm_cast_no_check (eq_refl ((false, 0), (203, 0))). Qed.
(** Without the unit it halts. *)
Example h6_halts : ds_halt (drun (dinit (rich whale6 1 0 202) prm 100) h6) = true.
Proof. vm_cast_no_check (eq_refl true). Qed.
(** With rounding below one unit no reserve is needed: the case of [C02_solvent_partial] is covered. *)
Lemma no_reserve bk p t ops k : ops_ok (dinit bk p t) ops -> (forall x, 0 <= bal bk MDelegation x) ->
  (forall s x, rounding (dinit bk p t) ops s x + k < 2 * ONE) -> reserve bk p t ops k.
Proof. intros _ Hb H. exists []. split; [constructor|]. split; [intros s x _; apply H|done]. Qed.
Lemma max_total_nonneg st ops s : 0 <= max_total st ops s.
Proof. revert st. induction ops as [|o t IH]; intros st; simpl; [lia|]. specialize (IH (dstep st o)). lia. Qed.
Lemma rounding_drift st ops s x : ops_ok st ops -> rounding st ops s x <= drift st ops s x.
Proof.
  intros Hok. unfold rounding, drift. assert (payouts_in ops s x <= payouts ops s).
  { induction ops as [|o t IH] in st, Hok |- *; simpl; [lia|]. destruct Hok as [_ Hok]. specialize (IH _ Hok).
    assert (DelegationCushion.pays_in o s x <= pays o s); [|lia].
    destruct o; simpl; try lia. unfold at_staker. destruct (amt _ x =? 0); destruct (decide _); lia. }
  pose proof (received_total_nonneg st ops s x Hok). pose proof (max_total_nonneg st ops s).
  assert (0 <= slack ops s) by (unfold slack; pose proof (slashes_nonneg ops s); nia).
  assert (0 <= max_total st ops s + 2 * slack ops s * (received_total st ops s x + 1)) by nia.
  apply Z.add_le_mono_r, Z.add_le_mono_r. by apply Z.mul_le_mono_nonneg_r.
Qed.
Example h1_reserve : reserve bk1 prm 100 h1 1.
Proof.
  apply no_reserve; [apply h1_ok|intros x; by vm_compute|]. intros s x.
  pose proof (h1_drift_all s x). pose proof (rounding_drift i1 h1 s x h1_ok). lia.
Qed.
