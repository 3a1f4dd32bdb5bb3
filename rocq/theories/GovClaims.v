(** * The voting power x/stakers reports to governance. *)
From Verif Require Import Base BaseFacts Delegation F1Spec F1Refine F1Acct DelegationInv DelegationBank DelegationProps DelegationClaims SlashCount
  Stakers StakersInv StakersClaims Funders Team RoundRobin Pool Bundles Chain ChainFrame ChainLift Query IndexInv QueryClaims Gov.

(** ** What is promised *)
Definition lsum {A} (f : A -> Z) (l : list A) : Z := foldr (fun x z => f x + z) 0 l.
(** The shares with which a vote of [d] counts at validator [s]. *)
Definition cast (c : chain) (d s : N) : Z := lsum snd (List.filter (fun e => (fst e =? s)%N) (gov_delegations c d)).
(** x/gov of the Cosmos SDK 0.50 (keeper/tally.go), which is not part of the repository: with how much
    power [shares] of a validator count, [shares.MulInt(BondedTokens).Quo(DelegatorShares)]; the quotient
    panics for a divisor of zero. *)
Definition counted (v : govinfo) (shares : Z) : option Z :=
  if gi_shares v =? 0 then None
  else Some (dec_quo (dec_mul_int (dec_of_int shares) (gi_bonded v)) (dec_of_int (gi_shares v))).

(** ** Sums over lists *)
Lemma lsum_map {A B} (f : B -> Z) (g : A -> B) l : lsum f (map g l) = lsum (fun x => f (g x)) l.
Proof. induction l; cbn; [done|]. unfold lsum in *. lia. Qed.
Lemma fold_lsum {A} (f : A -> Z) l : forall t, fold_left (fun t x => t + f x) l t = t + lsum f l.
Proof. induction l as [|a l IH]; intros t; cbn; [lia|]. rewrite IH. unfold lsum. lia. Qed.
Lemma lsum_ext {A} (f g : A -> Z) l : (forall x, In x l -> f x = g x) -> lsum f l = lsum g l.
Proof. induction l as [|a l IH]; intros H; cbn; [done|]. rewrite (H a) by (by left). unfold lsum in *. rewrite IH; [done|]. intros; apply H; by right. Qed.
Lemma lsum_msum {A} (D : list N) : forall (m : gmap N A) (f : N -> Z), NoDup D -> (forall d, 0 <= f d) -> (forall d, m !! d = None -> f d = 0) ->
  lsum f D <= msum (fun d _ => f d) m.
Proof.
  induction D as [|a D IH]; intros m f HD H0 Hm; [apply msum_nonneg; auto|]. apply NoDup_cons in HD as [Ha HD]. cbn.
  set (f' := fun d => if decide (d = a) then 0 else f d).
  assert (E : lsum f D = lsum f' D).
  { apply lsum_ext. intros x Hx. unfold f'. rewrite decide_False; [done|]. intros ->. by apply Ha, elem_of_list_In. }
  assert (H : lsum f' D <= msum (fun d _ => f' d) (delete a m)).
  { apply IH; [done| |].
    - intros d. unfold f'. destruct (decide _); [lia|apply H0].
    - intros d. unfold f'. destruct (decide _); [done|]. rewrite lookup_delete_ne by done. apply Hm. }
  assert (E' : msum (fun d _ => f' d) (delete a m) = msum (fun d _ => f d) (delete a m)).
  { apply msum_ext. intros k x Hk. unfold f'. rewrite decide_False; [done|]. intros ->. by rewrite lookup_delete in Hk. }
  change (foldr _ 0 D) with (lsum f D).
  destruct (m !! a) as [x|] eqn:Em.
  - pose proof (msum_delete (fun d _ => f d) m a x Em) as Hd. cbv beta in Hd. clearbody f'. lia.
  - rewrite (Hm a Em). rewrite (delete_notin m a Em) in H, E'. clearbody f'. lia.
Qed.

(** ** Active validators *)
Lemma active_in c s : In s (all_active c) <-> is_Some (ss_active (c_s c) !! s).
Proof.
  unfold all_active. rewrite in_map_iff. split.
  - intros ((s' & n) & E & Hin). cbn in E. subst s'. rewrite <- elem_of_list_In, elem_of_map_to_list in Hin. by eexists.
  - intros [n Hn]. exists (s, n). split; [done|]. by rewrite <- elem_of_list_In, elem_of_map_to_list.
Qed.
Lemma active_nodup c : NoDup (all_active c).
Proof. apply NoDup_fst_map_to_list. Qed.
Lemma is_active_spec st s : is_active st s = true <-> is_Some (ss_active st !! s).
Proof. unfold is_active. destruct (ss_active st !! s); split; try done. by intros [? ?]. Qed.
Lemma active_pool c s : MI (c_s c) -> is_Some (ss_active (c_s c) !! s) <-> in_some_pool c s.
Proof.
  intros HM. rewrite <- (pool_count_spec c s HM). unfold pool_count. rewrite (mi_active _ HM). pose proof (npools_nonneg (c_s c) s) as H0.
  destruct (Z.eqb_spec (npools (c_s c) s) 0) as [E|E]; cbn [default from_option]; rewrite Z.ltb_lt.
  - split; [by intros [? ?]|lia].
  - split; [intros _|by eexists]. change (0 < npools (c_s c) s). lia.
Qed.
Lemma i64_id x : x < two63 -> i64 x = x.
Proof. intros H. unfold i64. by rewrite (proj2 (Z.ltb_lt _ _) H). Qed.

Lemma claim_power g ops : genesis g -> cops_ok (gstart g) ops ->
  let c := crun (gstart g) ops in
  total_bonded c = lsum gi_bonded (active_validators c) /\
  NoDup (map gi_addr (active_validators c)) /\
  (forall s, In s (map gi_addr (active_validators c)) <-> in_some_pool c s) /\
  (forall v, In v (active_validators c) -> gi_shares v = gi_bonded v /\
     (delegation_amount (c_d c) (gi_addr v) < two63 -> gi_bonded v = delegation_amount (c_d c) (gi_addr v))).
Proof.
  intros Hg Hok c. pose proof (MI_chain g c (G_run g Hg ops Hok)) as HM.
  assert (E : map gi_addr (active_validators c) = all_active c) by (unfold active_validators; rewrite map_map; apply map_id).
  split; [|split; [|split]].
  - unfold total_bonded, active_validators. rewrite fold_lsum, lsum_map. done.
  - rewrite E. apply active_nodup.
  - intros s. rewrite E, active_in. by apply active_pool.
  - intros v. unfold active_validators. rewrite in_map_iff. intros (s & <- & _). cbn. split; [done|]. apply i64_id.
Qed.

(** ** Delegations *)
Lemma stakers_of_in d x s : In s (stakers_of d x) <-> is_Some (f_delegators (getf d s) !! x).
Proof.
  unfold stakers_of. rewrite in_map_iff. unfold getf. split.
  - intros ((s' & f) & E & Hin). cbn in E. subst s'. apply filter_In in Hin as [Hin Hx]. apply bool_decide_eq_true in Hx.
    rewrite <- elem_of_list_In, elem_of_map_to_list in Hin. by rewrite Hin.
  - intros Hx. destruct (ds_f1 d !! s) as [f|] eqn:E; cbn in Hx; [|by destruct Hx as [? Hx]; rewrite lookup_empty in Hx].
    exists (s, f). split; [done|]. apply filter_In. rewrite <- elem_of_list_In, elem_of_map_to_list. split; [done|]. by apply bool_decide_eq_true.
Qed.
Lemma nodup_filter_map {A} (h : N * A -> bool) (l : list (N * A)) : NoDup (map fst l) -> NoDup (map fst (List.filter h l)).
Proof.
  induction l as [|a l IH]; cbn; [done|]. rewrite NoDup_cons. intros [H1 H2]. destruct (h a); [|auto]. cbn. apply NoDup_cons. split; [|auto].
  intros H. apply H1. rewrite elem_of_list_In, in_map_iff in *. destruct H as (y & E & Hy). apply filter_In in Hy. exists y. tauto.
Qed.
Lemma stakers_of_nodup d x : NoDup (stakers_of d x).
Proof. apply nodup_filter_map, NoDup_fst_map_to_list. Qed.
Lemma no_delegator d s x : f_delegators (getf d s) !! x = None -> delegation_of d s x = 0.
Proof. unfold delegation_of, f1_current. by intros ->. Qed.
Lemma gov_list c x : map fst (gov_delegations c x) = List.filter (is_active (c_s c)) (stakers_of (c_d c) x).
Proof. unfold gov_delegations. rewrite map_map. apply map_id. Qed.
Lemma lsum_pick (f : N -> Z) s l : NoDup l -> lsum snd (List.filter (fun e => (fst e =? s)%N) (map (fun t => (t, f t)) l)) = if decide (s ∈ l) then f s else 0.
Proof.
  induction l as [|a l IH]; intros H; [done|]. apply NoDup_cons in H as [Ha Hl]. cbn [map List.filter fst]. specialize (IH Hl).
  destruct (N.eqb_spec a s) as [->|Hne].
  - change (lsum snd (?x :: ?y)) with (snd x + lsum snd y). rewrite IH. rewrite decide_False by done.
    rewrite decide_True by (by left). cbn. lia.
  - rewrite IH. destruct (decide (s ∈ l)) as [E|E].
    + rewrite decide_True; [done|by right].
    + rewrite decide_False; [done|]. rewrite elem_of_cons. intros [?|?]; congruence.
Qed.
Lemma cast_spec c d s : MI (c_s c) -> delegation_of (c_d c) s d < two63 ->
  (in_some_pool c s -> cast c d s = delegation_of (c_d c) s d) /\ (~ in_some_pool c s -> cast c d s = 0).
Proof.
  intros HM Hd. unfold cast, gov_delegations.
  rewrite (lsum_pick (fun s => i64 (delegation_of (c_d c) s d)) s) by (apply filter_nodup, stakers_of_nodup).
  pose proof (active_pool c s HM) as Ha. rewrite <- is_active_spec in Ha. rewrite <- Ha.
  destruct (decide _) as [E|E]; rewrite elem_of_list_In, filter_In, stakers_of_in in E.
  - destruct E as [E1 E2]. split; [intros _; by apply i64_id|]. done.
  - split; [|done]. intros Hs.
    symmetry. apply no_delegator. destruct (f_delegators _ !! d) eqn:Ed; [|done]. exfalso. apply E. split; [by eexists|done].
Qed.

Lemma claim_delegations g ops d : genesis g -> cops_ok (gstart g) ops ->
  let c := crun (gstart g) ops in
  NoDup (map fst (gov_delegations c d)) /\
  (forall s, delegation_of (c_d c) s d < two63 ->
     (in_some_pool c s -> cast c d s = delegation_of (c_d c) s d) /\ (~ in_some_pool c s -> cast c d s = 0)).
Proof.
  intros Hg Hok c. pose proof (MI_chain g c (G_run g Hg ops Hok)) as HM. split.
  - rewrite gov_list. apply filter_nodup, stakers_of_nodup.
  - intros s Hd. by apply cast_spec.
Qed.

(** ** C01 in the chain *)
Lemma claim_principal g ops s : genesis g -> cops_ok (gstart g) ops ->
  let c := crun (gstart g) ops in
  Z.of_nat (length (recorded (c_d c) s)) * Z.of_nat (size (cjoined ops s)) < ONE ->
  reported_sum (c_d c) s <= delegation_amount (c_d c) s /\ forall d, 0 <= delegation_of (c_d c) s d <= delegation_amount (c_d c) s.
Proof.
  intros Hg Hok c HO.
  pose proof (GJ_run (J := fun d s => d ∈ cjoined ops s) g Hg ops eq_refl Hok ltac:(done)) as HG. fold c in HG.
  destruct (g_d _ _ HG) as (dops & Hd & E & HJ). destruct Hg as (_ & _ & _ & Hp & _).
  pose proof (principal_recorded (g0_bank g) (g0_dp g) (g0_time g) dops s (cjoined ops s) Hp Hd) as H.
  change (dinit (g0_bank g) (g0_dp g) (g0_time g)) with (d0 g) in H. rewrite <- E in H. cbv zeta in H.
  apply H; [|exact HO]. intros d Hin. exact (HJ s d Hin).
Qed.

(** ** C52: the votes of the delegators and of the validator *)
Lemma quo_exact a b : b <> 0 -> dec_quo (dec_mul_int (dec_of_int a) b) (dec_of_int b) = dec_of_int a.
Proof.
  intros Hb. unfold dec_quo, dec_mul_int, dec_of_int.
  replace (a * ONE * b * (ONE * ONE)) with (a * ONE * ONE * (b * ONE)) by ring. rewrite Z.quot_mul; [apply chop_round_exact|]. unfold ONE. lia.
Qed.
Lemma claim_votes g ops v D : genesis g -> cops_ok (gstart g) ops ->
  let c := crun (gstart g) ops in let s := gi_addr v in
  In v (active_validators c) -> gi_shares v <> 0 -> delegation_amount (c_d c) s < two63 ->
  Z.of_nat (length (recorded (c_d c) s)) * Z.of_nat (size (cjoined ops s)) < ONE -> NoDup D ->
  (forall d, 0 <= cast c d s) /\
  lsum (fun d => cast c d s) D <= gi_bonded v /\
  (forall d, counted v (cast c d s) = Some (dec_of_int (cast c d s))) /\
  counted v (gi_shares v - lsum (fun d => cast c d s) D) = Some (dec_of_int (gi_bonded v - lsum (fun d => cast c d s) D)).
Proof.
  intros Hg Hok c s Hv Hn Hamt HO HD.
  pose proof (MI_chain g c (G_run g Hg ops Hok)) as HM.
  destruct (claim_power g ops Hg Hok) as (_ & _ & Hin & Hinf). fold c in Hin, Hinf. destruct (Hinf v Hv) as [Hsh Hb]. specialize (Hb Hamt). fold s in Hb.
  assert (Hp : in_some_pool c s) by (apply Hin; exact (List.in_map gi_addr _ _ Hv)).
  destruct (claim_principal g ops s Hg Hok HO) as [H1 H2]. fold c in H1, H2.
  assert (Hc : forall d, cast c d s = delegation_of (c_d c) s d).
  { intros d. specialize (H2 d). destruct (cast_spec c d s HM ltac:(lia)) as [H _]. auto. }
  assert (Hsum : lsum (fun d => cast c d s) D <= gi_bonded v).
  { rewrite Hb. etransitivity; [|exact H1]. rewrite (lsum_ext _ (delegation_of (c_d c) s)) by (intros; apply Hc).
    apply lsum_msum; [done|apply H2|]. apply no_delegator. }
  split; [intros d; rewrite Hc; apply H2|]. split; [done|].
  assert (Hq : forall x, counted v x = Some (dec_of_int x)).
  { intros x. unfold counted. rewrite (proj2 (Z.eqb_neq _ _) Hn). f_equal. rewrite Hsh. apply quo_exact. by rewrite <- Hsh. }
  split; [done|]. rewrite Hq. by rewrite Hsh.
Qed.
