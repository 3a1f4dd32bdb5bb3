(** * Votes are counted once (C18), the majority in the chain (C19). *)
From Verif Require Import Base BaseFacts Delegation Stakers StakersInv Funders Team RoundRobin Pool Bundles Chain ChainFrame ArchiveInv
  BankMoves ChainLift PoolFrame PoolInv PayoutClaims PoolClaims TallyFacts.

(** Unbounded sums. *)
Definition sum_of (f : N -> Z) (l : list N) : Z := foldr (fun s a => f s + a) 0 l.
Lemma sum_app f a b : sum_of f (a ++ b) = sum_of f a + sum_of f b.
Proof. induction a as [|x a IH]; simpl; lia. Qed.
Lemma sum_nn f l : (forall x, 0 <= f x) -> 0 <= sum_of f l.
Proof. intros H. induction l as [|x l IH]; simpl; [lia|]. specialize (H x). lia. Qed.
Lemma sum_perm f l l' : l ≡ₚ l' -> sum_of f l = sum_of f l'.
Proof. induction 1; simpl; lia. Qed.
Lemma sum_incl f l l' : (forall x, 0 <= f x) -> NoDup l -> l ⊆ l' -> sum_of f l <= sum_of f l'.
Proof.
  intros Hf Hn Hi. apply NoDup_submseteq in Hi; [|done]. apply submseteq_Permutation in Hi as [k Hk].
  rewrite (sum_perm f _ _ Hk), sum_app. pose proof (sum_nn f k Hf). lia.
Qed.
Lemma wrap_sum (f : N -> Z) l a : (forall x, 0 <= f x) -> 0 <= a -> a + sum_of f l < two64 ->
  fold_left (fun a s => u64_add a (f s)) l a = a + sum_of f l.
Proof.
  intros Hf. revert a. induction l as [|x l IH]; intros a Ha Hs; simpl in *; [lia|]. pose proof (Hf x). pose proof (sum_nn f l Hf).
  rewrite u64_add_id by lia. rewrite IH; lia.
Qed.

(** The power of those among [l] who are members now, and of all members. *)
Definition here (c : chain) (p : N) (l : list N) : list N := List.filter (in_pool c p) l.
Definition power_of (c : chain) (p : N) (l : list N) : Z := sum_of (power c) (here c p l).
Definition pool_power (c : chain) (p : N) : Z := sum_of (power c) (members c p).
Lemma list_power_sum c p l : (forall x, 0 <= power c x) -> power_of c p l < two64 -> list_power c p l = power_of c p l.
Proof.
  intros Hf. unfold list_power, power_of, here.
  cut (forall a, 0 <= a -> a + sum_of (power c) (List.filter (in_pool c p) l) < two64 ->
    fold_left (fun a s => if in_pool c p s then u64_add a (power c s) else a) l a = a + sum_of (power c) (List.filter (in_pool c p) l)).
  { intros H Hs. rewrite H; lia. }
  induction l as [|x l IH]; intros a Ha Hs; simpl in *; [lia|]. destruct (in_pool c p x); simpl in *; [|by apply IH].
  pose proof (Hf x). pose proof (sum_nn (power c) (List.filter (in_pool c p) l) Hf). rewrite u64_add_id by lia. rewrite IH; lia.
Qed.
Lemma total_power_sum c p : (forall x, 0 <= power c x) -> pool_power c p < two64 -> total_power c p = pool_power c p.
Proof. intros Hf H. unfold total_power. rewrite wrap_sum; [|done|lia|]; unfold pool_power in *; lia. Qed.
Lemma filter_elem (P : N -> bool) l x : x ∈ List.filter P l <-> x ∈ l /\ P x = true.
Proof. rewrite elem_of_list_In, List.filter_In, <- elem_of_list_In. done. Qed.
Lemma filter_NoDup (P : N -> bool) l : NoDup l -> NoDup (List.filter P l).
Proof. intros H. apply NoDup_ListNoDup. apply List.NoDup_filter. by apply NoDup_ListNoDup. Qed.
Lemma here_incl c p l : here c p l ⊆ members c p.
Proof. intros x Hx. apply filter_elem in Hx as [_ Hx]. by apply members_in. Qed.
Lemma here_app c p a b : here c p (a ++ b) = here c p a ++ here c p b.
Proof. apply List.filter_app. Qed.
Lemma power_le c p l : (forall x, 0 <= power c x) -> NoDup l -> power_of c p l <= pool_power c p.
Proof. intros Hf Hn. apply sum_incl; [done|by apply filter_NoDup|apply here_incl]. Qed.

(** ** C18 *)
Lemma votes_once c p : AInv c -> let b := get_prop c p in
  NoDup (bp_valid b ++ bp_invalid b ++ bp_abstain b) /\ (bp_storage b <> 0%N -> bp_uploader b ∈ bp_valid b).
Proof.
  intros HA b. destruct (get_prop_ok c p HA) as [Hf|Hf]; unfold full, bare in Hf; fold b in Hf.
  - destruct Hf as (H0 & _ & -> & -> & ->). split; [constructor|done].
  - destruct Hf as (_ & _ & _ & Hu & Hv). done.
Qed.
Lemma dist_some c p b : c_prop c !! p = Some b -> distribution c p =
  mkV (list_power c p (bp_valid b)) (list_power c p (bp_invalid b)) (list_power c p (bp_abstain b)) (total_power c p)
    (quorum (list_power c p (bp_valid b)) (list_power c p (bp_invalid b)) (total_power c p)).
Proof. unfold distribution. by intros ->. Qed.
Lemma votes_power c p b : AInv c -> (forall x, 0 <= power c x) -> c_prop c !! p = Some b -> pool_power c p < two64 ->
  let v := distribution c p in
  v_valid v = power_of c p (bp_valid b) /\ v_invalid v = power_of c p (bp_invalid b) /\ v_abstain v = power_of c p (bp_abstain b) /\
  v_total v = pool_power c p /\ v_valid v + v_invalid v + v_abstain v <= v_total v.
Proof.
  intros HA Hf Eb Ht. rewrite (dist_some c p b Eb). cbn.
  assert (Eg : get_prop c p = b) by (unfold get_prop; by rewrite Eb).
  destruct (votes_once c p HA) as [Hn _]. rewrite Eg in Hn.
  pose proof (power_le c p _ Hf Hn) as Hle. unfold power_of in Hle. rewrite !here_app, !sum_app in Hle.
  pose proof (sum_nn (power c) (here c p (bp_valid b)) Hf). pose proof (sum_nn (power c) (here c p (bp_invalid b)) Hf).
  pose proof (sum_nn (power c) (here c p (bp_abstain b)) Hf).
  rewrite total_power_sum by done. rewrite !list_power_sum by (done || (unfold power_of; lia)). unfold power_of. lia.
Qed.
(** What a vote does to the lists. *)
Lemma vote_lists c p s v st w c' : AInv c -> cmsg c (CVote p s v st w) = Some c' ->
  let b := get_prop c p in let b' := get_prop c' p in
  st = bp_storage b /\ st <> 0%N /\ signs c p s v /\ s ∉ bp_valid b /\ s ∉ bp_invalid b /\
  (forall x, x ∈ bp_valid b' <-> x ∈ bp_valid b \/ (x = s /\ w = Valid)) /\
  (forall x, x ∈ bp_invalid b' <-> x ∈ bp_invalid b \/ (x = s /\ w = Invalid)) /\
  (forall x, x ∈ bp_abstain b' <-> (x ∈ bp_abstain b /\ x <> s) \/ (x = s /\ w = Abstain)) /\
  (w = Abstain -> s ∉ bp_abstain b) /\ bp_uploader b' = bp_uploader b /\ bp_storage b' = bp_storage b.
Proof.
  intros HA E b b'. cbn [cmsg] in E. unfold msg_vote in E. destruct (can_vote c p s v st) eqn:Ev; simpl in E; [|done].
  unfold can_vote in Ev. rewrite !andb_true_iff, !negb_true_iff in Ev. destruct Ev as [[[[[_ H2] H3] H4] H5] H6].
  apply N.eqb_neq in H3. apply N.eqb_eq in H4. apply memb_false in H5, H6. apply signs_auth in H2. fold b in E, H3, H4, H5, H6.
  destruct (votes_once c p HA) as [Hn _]. fold b in Hn. rewrite !NoDup_app in Hn. destruct Hn as (_ & _ & _ & _ & Hna).
  set (a := if memb s (bp_abstain b) then remove_first s (bp_abstain b) else bp_abstain b) in *.
  assert (Ha : forall x, x ∈ a <-> x ∈ bp_abstain b /\ x <> s).
  { intros x. unfold a. destruct (memb s (bp_abstain b)) eqn:Em; [by apply remove_first_spec|].
    apply memb_false in Em. split; [|tauto]. intros Hx. split; [done|]. by intros ->. }
  set (o := match w with Valid => _ | Invalid => _ | Abstain => _ | OtherVote => _ end) in E.
  destruct o as [b1|] eqn:Eo; [|done]. injection E as <-.
  assert (Eb : b' = b1).
  { unfold b'. assert (Hb : bpart (reset_pts (set_prop c p b1) p s) = bpart (set_prop c p b1)) by apply b_reset.
    rewrite (get_prop_b _ _ p Hb). unfold get_prop, set_prop. cbn. by rewrite lookup_insert. }
  rewrite Eb. clear Eb. subst st. split; [done|]. split; [done|]. split; [done|]. split; [done|]. split; [done|].
  subst o. destruct w; simpl in Eo; try done.
  - injection Eo as <-. cbn. split; [intros x; rewrite elem_of_app, elem_of_list_singleton; naive_solver|].
    split; [naive_solver|]. split; [|done]. intros x. rewrite Ha. naive_solver.
  - injection Eo as <-. cbn. split; [naive_solver|].
    split; [intros x; rewrite elem_of_app, elem_of_list_singleton; naive_solver|]. split; [|done]. intros x. rewrite Ha. naive_solver.
  - destruct (memb s (bp_abstain b)) eqn:Em; [done|]. injection Eo as <-. cbn. split; [naive_solver|]. split; [naive_solver|].
    split; [|split; [by intros _; apply memb_false|done]]. intros x. rewrite elem_of_app, elem_of_list_singleton, Ha. naive_solver.
Qed.

(** ** C19 *)
Lemma majority c p b : AInv c -> (forall x, 0 <= power c x) -> c_prop c !! p = Some b -> pool_power c p < two63 ->
  let V := power_of c p (bp_valid b) in let I := power_of c p (bp_invalid b) in let T := pool_power c p in
  let v := v_status (distribution c p) in
  (v = VValid <-> T < 2 * V) /\ (v = VInvalid <-> 0 < T /\ T <= 2 * I) /\ (v = VNoQuorum <-> T = 0 \/ (2 * V <= T /\ 2 * I < T)).
Proof.
  intros HA Hf Eb Ht V I T. destruct (votes_power c p b HA Hf Eb) as (H1 & H2 & H3 & H4 & H5); [unfold two63, two64 in *; lia|].
  cbv zeta in *. rewrite (dist_some c p b Eb) in *. cbn [v_valid v_invalid v_abstain v_total v_status] in *.
  rewrite H1, H2, H4 in *. fold V I T in H1, H2, H4, H5 |- *.
  pose proof (sum_nn (power c) (here c p (bp_valid b)) Hf) as N1. pose proof (sum_nn (power c) (here c p (bp_invalid b)) Hf) as N2.
  pose proof (sum_nn (power c) (here c p (bp_abstain b)) Hf) as N3. unfold power_of in *.
  apply claim_quorum; unfold V, I, power_of in *; lia.
Qed.
