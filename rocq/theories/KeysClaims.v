(** * What the byte keys guarantee (C48). *)
From Verif Require Import Base Keys.
From stdpp Require Import sorting.
Local Open Scope N_scope.

(** ** The claim's own words *)
(** The accounts of the chain: bech32 texts "kyve1…" whose data part has no "1" (BIP 173), of any
    length; and those of a plain key, which are 43 bytes long. *)
Definition HRP : bytes := [107; 121; 118; 101; 49].
Definition bech (a : bytes) : Prop := exists d, a = HRP ++ d /\ ~ In 49 d.
Definition plain (a : bytes) : Prop := length a = 43%nat.
Definition u64 (n : N) : Prop := n < 18446744073709551616.
(** A record whose addresses are such and whose numbers fit 64 bits. *)
Definition rok (P : bytes -> Prop) (r : rec) : Prop :=
  match r with
  | DDelegator a b | DDelegatorIx a b => P a /\ P b
  | DEntry a k | DSlash a k | DUndelIx a k | DCooldown a k | MStaker k a | SVal k a | SValIx a k | SLeaveIx a k | FByFunder a k | FByPool k a => P a /\ u64 k
  | DData a | SStaker a | SCommIx a | SActive a | FFunder a => P a
  | DUndel k | SComm k | SLeave k | SCount k | BProposal k | BRound k | FState k | PPool k | TAccount k => u64 k
  | BFinal p i | BIndex p i => u64 p /\ u64 i
  | _ => True
  end.
(** What the code iterates over: the records of a kind that share their first part, or all of a kind. *)
Inductive scan :=
  | DelegatorsOf (s : bytes) | StakersOf (d : bytes) | UnbondingsOf (a : bytes) | CooldownsOf (a : bytes)
  | ValsOfPool (p : N) | ValsOfStaker (a : bytes) | BundlesOf (p : N) | IndexOf (p : N)
  | FundingsOf (a : bytes) | FundingsOfPool (p : N)
  | Delegators | Entries | Datas | Slashes | Unbondings | Cooldowns | Index
  | Stakers | Vals | Comms | Leaves | Actives | Proposals | Bundles | Rounds | Fundings | Funders | States | Pools | Accounts.
Definition scan_store (s : scan) : N :=
  match s with
  | DelegatorsOf _ | StakersOf _ | UnbondingsOf _ | CooldownsOf _ | Delegators | Entries | Datas | Slashes | Unbondings | Cooldowns => 1
  | Index => 2
  | ValsOfPool _ | ValsOfStaker _ | Stakers | Vals | Comms | Leaves | Actives => 3
  | BundlesOf _ | Proposals | Bundles | Rounds => 4
  | IndexOf _ => 5
  | FundingsOf _ | FundingsOfPool _ | Fundings | Funders | States => 6
  | Pools => 7
  | Accounts => 9
  end.
(** The prefixes in the order of the constructors: x/delegation and x/query build theirs with the
    address (getters_undelegation.go 84, getters_redelegation.go 29, grpc_account_assets.go 50,
    grpc_delegation_delegators_by_staker.go 26), the others iterate a prefix store. *)
Definition scan_prefix (s : scan) : bytes :=
  match s with
  | DelegatorsOf s => [1; 0] ++ s | StakersOf d => [1; 1] ++ d | UnbondingsOf a => [6; 1] ++ a | CooldownsOf a => [7] ++ a
  | ValsOfPool p => [2; 0] ++ be8 p | ValsOfStaker a => [2; 1] ++ a | BundlesOf p => [2] ++ be8 p | IndexOf p => [11] ++ be8 p
  | FundingsOf a => [2; 0] ++ a | FundingsOfPool p => [2; 1] ++ be8 p
  | Delegators => [1; 0] | Entries => [2] | Datas => [3] | Slashes => [4] | Unbondings => [6; 0] | Cooldowns => [7] | Index => [1]
  | Stakers => [1] | Vals => [2; 0] | Comms => [4; 0] | Leaves => [5; 0] | Actives => [6] | Proposals => [1] | Bundles => [2] | Rounds => [4]
  | Fundings => [2; 0] | Funders => [1] | States => [3; 0] | Pools => [1] | Accounts => [2]
  end.
Definition scan_ok (s : scan) : Prop :=
  match s with
  | DelegatorsOf a | StakersOf a | UnbondingsOf a | CooldownsOf a | ValsOfStaker a | FundingsOf a => plain a
  | ValsOfPool p | BundlesOf p | IndexOf p | FundingsOfPool p => u64 p
  | _ => True
  end.
(** The records meant. *)
Definition selects (s : scan) (r : rec) : Prop :=
  match s with
  | DelegatorsOf x => exists d, r = DDelegator x d
  | StakersOf x => exists s, r = DDelegatorIx x s
  | UnbondingsOf x => exists k, r = DUndelIx x k
  | CooldownsOf x => exists t, r = DCooldown x t
  | ValsOfPool p => exists a, r = SVal p a
  | ValsOfStaker a => exists p, r = SValIx a p
  | BundlesOf p => exists i, r = BFinal p i
  | IndexOf p => exists i, r = BIndex p i
  | FundingsOf a => exists p, r = FByFunder a p
  | FundingsOfPool p => exists a, r = FByPool p a
  | Delegators => exists a b, r = DDelegator a b
  | Entries => exists a k, r = DEntry a k
  | Datas => exists a, r = DData a
  | Slashes => exists a k, r = DSlash a k
  | Unbondings => exists k, r = DUndel k
  | Cooldowns => exists a t, r = DCooldown a t
  | Index => exists n a, r = MStaker n a
  | Stakers => exists a, r = SStaker a
  | Vals => exists p a, r = SVal p a
  | Comms => exists i, r = SComm i
  | Leaves => exists i, r = SLeave i
  | Actives => exists a, r = SActive a
  | Proposals => exists p, r = BProposal p
  | Bundles => exists p i, r = BFinal p i
  | Rounds => exists p, r = BRound p
  | Fundings => exists a p, r = FByFunder a p
  | Funders => exists a, r = FFunder a
  | States => exists p, r = FState p
  | Pools => exists i, r = PPool i
  | Accounts => exists i, r = TAccount i
  end.
(** A store that holds nothing but records of its module with such addresses. *)
Definition kept (s : N) (P : bytes -> Prop) {V} (st : kvs V) : Prop :=
  forall k v, st !! k = Some v -> exists r, store_of r = s /\ rok P r /\ k = key_of r.

(** ** Numbers *)
Lemma be_length k n : length (be k n) = k.
Proof. revert n. induction k as [|k IH]; intros n; cbn [be]; [done|]. rewrite app_length, IH. cbn. lia. Qed.
Lemma be8_length n : length (be8 n) = 8%nat.
Proof. apply be_length. Qed.
Lemma pow_S k : 256 ^ N.of_nat (S k) = 256 * 256 ^ N.of_nat k.
Proof. rewrite Nat2N.inj_succ. apply N.pow_succ_r'. Qed.
Lemma unbe_be k n : n < 256 ^ N.of_nat k -> unbe (be k n) = n.
Proof.
  revert n. induction k as [|k IH]; intros n Hn; [cbn in Hn; cbn; lia|].
  rewrite pow_S in Hn. cbn [be]. unfold unbe in *. rewrite fold_left_app. cbn [fold_left].
  rewrite IH; [|apply N.div_lt_upper_bound; lia]. pose proof (N.div_mod n 256 ltac:(lia)). lia.
Qed.
Lemma u64_pow n : u64 n <-> n < 256 ^ N.of_nat 8.
Proof. unfold u64. change (256 ^ N.of_nat 8) with 18446744073709551616. done. Qed.
Lemma unbe_be8 n : u64 n -> unbe (be8 n) = n.
Proof. intros Hn. apply unbe_be, u64_pow, Hn. Qed.
Lemma be8_inj n m : u64 n -> u64 m -> be8 n = be8 m -> n = m.
Proof. intros Hn Hm E. rewrite <-(unbe_be8 n Hn), <-(unbe_be8 m Hm). by rewrite E. Qed.

(** ** The order of bytes *)
Lemma blt_irr a : blt a a = false.
Proof. induction a as [|x a IH]; cbn; [done|]. by rewrite N.ltb_irrefl. Qed.
Lemma blt_app a b x y : length a = length b -> blt (a ++ x) (b ++ y) = if decide (a = b) then blt x y else blt a b.
Proof.
  revert b. induction a as [|u a IH]; intros [|w b] Hl; try discriminate; cbn [app blt length] in *; [done|].
  destruct (u <? w) eqn:E1.
  { apply N.ltb_lt in E1. destruct (decide _) as [E|]; [injection E as E _; lia|done]. }
  destruct (w <? u) eqn:E2.
  { apply N.ltb_lt in E2. destruct (decide _) as [E|]; [injection E as E _; lia|done]. }
  apply N.ltb_ge in E1, E2. assert (u = w) as -> by lia. rewrite IH by lia.
  destruct (decide (a = b)) as [->|Hn]; [by rewrite decide_True|]. rewrite decide_False; [done|]. intros E. injection E as E. done.
Qed.
Lemma blt_app_same p a b : blt (p ++ a) (p ++ b) = blt a b.
Proof. rewrite blt_app by done. by rewrite decide_True. Qed.
Lemma be_blt k n m : n < 256 ^ N.of_nat k -> m < 256 ^ N.of_nat k -> blt (be k n) (be k m) = (n <? m).
Proof.
  revert n m. induction k as [|k IH]; intros n m Hn Hm.
  { cbn in Hn, Hm. assert (n = 0) as -> by lia. assert (m = 0) as -> by lia. done. }
  rewrite pow_S in Hn, Hm. cbn [be]. rewrite blt_app by by rewrite !be_length.
  assert (Dn := N.div_mod n 256 ltac:(lia)). assert (Dm := N.div_mod m 256 ltac:(lia)).
  assert (Ln := N.mod_lt n 256 ltac:(lia)). assert (Lm := N.mod_lt m 256 ltac:(lia)).
  assert (Qn : n / 256 < 256 ^ N.of_nat k) by (apply N.div_lt_upper_bound; lia).
  assert (Qm : m / 256 < 256 ^ N.of_nat k) by (apply N.div_lt_upper_bound; lia).
  destruct (decide _) as [E|Hne].
  - assert (n / 256 = m / 256) as Eq by (rewrite <-(unbe_be k (n / 256) Qn), E; by apply unbe_be).
    cbn [blt]. rewrite Eq in Dn. destruct (n mod 256 <? m mod 256) eqn:E1; [apply N.ltb_lt in E1; symmetry; apply N.ltb_lt; lia|].
    apply N.ltb_ge in E1. replace (n <? m) with false by (symmetry; apply N.ltb_ge; lia). by destruct (m mod 256 <? n mod 256).
  - rewrite IH by done. destruct (n / 256 <? m / 256) eqn:E1.
    + apply N.ltb_lt in E1. symmetry. apply N.ltb_lt. nia.
    + apply N.ltb_ge in E1. symmetry. apply N.ltb_ge.
      assert (n / 256 <> m / 256) by (intros X; by rewrite X in Hne). nia.
Qed.
Lemma be8_blt n m : u64 n -> u64 m -> blt (be8 n) (be8 m) = (n <? m).
Proof. intros Hn Hm. apply be_blt; by apply u64_pow. Qed.
Lemma blt_trans a b c : blt a b = true -> blt b c = true -> blt a c = true.
Proof.
  revert b c. induction a as [|x a IH]; intros [|y b] [|z c]; cbn; try done. intros H1 H2.
  destruct (x <? y) eqn:E1; destruct (y <? z) eqn:E2; try apply N.ltb_lt in E1; try apply N.ltb_lt in E2.
  - by replace (x <? z) with true by (symmetry; apply N.ltb_lt; lia).
  - destruct (z <? y) eqn:E3; [done|]. apply N.ltb_ge in E2, E3. by replace (x <? z) with true by (symmetry; apply N.ltb_lt; lia).
  - destruct (y <? x) eqn:E3; [done|]. apply N.ltb_ge in E1, E3. by replace (x <? z) with true by (symmetry; apply N.ltb_lt; lia).
  - destruct (y <? x) eqn:E3; [done|]. destruct (z <? y) eqn:E4; [done|]. apply N.ltb_ge in E1, E2, E3, E4.
    replace (x <? z) with false by (symmetry; apply N.ltb_ge; lia). replace (z <? x) with false by (symmetry; apply N.ltb_ge; lia). eauto.
Qed.
Lemma blt_total a b : blt a b = false -> blt b a = false -> a = b.
Proof.
  revert b. induction a as [|x a IH]; intros [|y b]; cbn; try done. intros H1 H2.
  destruct (x <? y) eqn:E1; [done|]. destruct (y <? x) eqn:E2; [done|]. apply N.ltb_ge in E1, E2. f_equal; [lia|auto].
Qed.
Lemma blt_asym a b : blt a b = true -> blt b a = false.
Proof. intros H. destruct (blt b a) eqn:E; [|done]. pose proof (blt_trans _ _ _ H E) as X. by rewrite blt_irr in X. Qed.

(** ** Iterators *)
Lemma ble_total : Total (fun a b => Is_true (ble a b)).
Proof. intros a b. unfold ble. destruct (blt b a) eqn:E; [right|left; done]. by rewrite (blt_asym _ _ E). Qed.
Lemma ble_trans : Transitive (fun a b => Is_true (ble a b)).
Proof.
  intros a b c. unfold ble. rewrite !Is_true_true, !negb_true_iff. intros H1 H2. destruct (blt c a) eqn:E; [|done].
  destruct (blt a b) eqn:E1; [rewrite (blt_trans _ _ _ E E1) in H2; done|]. rewrite (blt_total a b E1 H1) in E. congruence.
Qed.
Definition sorted_keys (f : bytes -> bool) {V} (st : kvs V) : list bytes := merge_sort (fun a b => Is_true (ble a b)) (List.filter f (map fst (map_to_list st))).
Lemma sorted_in (f : bytes -> bool) {V} (st : kvs V) (k : bytes) : In k (sorted_keys f st) <-> f k = true /\ is_Some (st !! k).
Proof.
  unfold sorted_keys. rewrite <-elem_of_list_In. rewrite (merge_sort_Permutation (fun a b => Is_true (ble a b)) _), elem_of_list_In, filter_In.
  rewrite in_map_iff. split.
  - intros [([k' v] & <- & Hin) Hf]. split; [done|]. apply elem_of_list_In, (elem_of_map_to_list (M := gmap bytes)) in Hin. by exists v.
  - intros [Hf [v Hv]]. split; [|done]. exists (k, v). split; [done|]. by apply elem_of_list_In, (elem_of_map_to_list (M := gmap bytes)).
Qed.
Lemma filter_nodup f (l : list bytes) : NoDup l -> NoDup (List.filter f l).
Proof.
  intros Hl. induction Hl as [|x l Hx Hl IH]; cbn; [constructor|]. destruct (f x); [|done]. constructor; [|done].
  rewrite elem_of_list_In, filter_In. intros [X _]. by rewrite <-elem_of_list_In in X.
Qed.
Lemma sorted_nodup (f : bytes -> bool) {V} (st : kvs V) : NoDup (sorted_keys f st).
Proof.
  unfold sorted_keys. rewrite (merge_sort_Permutation (fun a b => Is_true (ble a b)) _). apply filter_nodup.
  change (map fst (map_to_list st)) with ((map_to_list st).*1). apply (NoDup_fst_map_to_list (M := gmap bytes)).
Qed.
Lemma sorted_sorted (f : bytes -> bool) {V} (st : kvs V) : StronglySorted (fun a b => blt a b = true) (sorted_keys f st).
Proof.
  assert (Hs : StronglySorted (fun a b => Is_true (ble a b)) (sorted_keys f st)).
  { apply Sorted_StronglySorted; [apply ble_trans|]. pose proof ble_total. apply (Sorted_merge_sort (fun a b => Is_true (ble a b))). }
  pose proof (sorted_nodup f st) as Hn. revert Hs Hn. generalize (sorted_keys f st). intros l Hs Hn. induction Hs as [|x l Hs IH Hx]; [constructor|].
  apply NoDup_cons in Hn. destruct Hn as [Hx' Hn]. constructor; [auto|]. rewrite Forall_forall in Hx |- *. intros y Hy.
  specialize (Hx y Hy). cbn in Hx. unfold ble in Hx. rewrite Is_true_true, negb_true_iff in Hx.
  destruct (blt x y) eqn:E; [done|]. rewrite (blt_total _ _ E Hx) in Hx'. done.
Qed.
Lemma visit_sorted {V} (p : bytes) (st : kvs V) : visit p st = sorted_keys (starts p) st.
Proof. reflexivity. Qed.
Lemma visit_range_sorted {V} (lo hi : bytes) (st : kvs V) : visit_range lo hi st = sorted_keys (fun k => ble lo k && blt k hi) st.
Proof. reflexivity. Qed.

(** The part of a sorted list of keys behind a common part is sorted. *)
Lemma mapped_sorted {A} (R : A -> A -> Prop) (f : bytes -> A) (l : list bytes) :
  StronglySorted (fun a b => blt a b = true) l -> (forall a b, In a l -> In b l -> blt a b = true -> R (f a) (f b)) -> StronglySorted R (map f l).
Proof.
  intros Hs. induction Hs as [|x l Hs IH Hx]; intros HR; cbn; [constructor|]. constructor; [apply IH; intros; apply HR; cbn; auto|].
  apply Forall_forall. intros y Hy. apply elem_of_list_In in Hy. apply in_map_iff in Hy. destruct Hy as (z & <- & Hz).
  rewrite Forall_forall in Hx. apply HR; cbn; auto. apply Hx. by apply elem_of_list_In.
Qed.

(** ** Prefixes *)
Lemma starts_app p k : starts p (p ++ k) = true.
Proof. induction p as [|x p IH]; cbn; [done|]. by rewrite N.eqb_refl. Qed.
Lemma starts_Some p k : starts p k = true -> exists t, k = p ++ t.
Proof.
  revert k. induction p as [|x p IH]; intros k H; [by exists k|]. destruct k as [|y k]; [done|]. cbn in H.
  apply andb_true_iff in H. destruct H as [E H]. apply N.eqb_eq in E. subst y. destruct (IH _ H) as [t ->]. by exists t.
Qed.
Lemma starts_len p a b : length p = length a -> starts p (a ++ b) = true <-> p = a.
Proof.
  intros Hl. split; [|intros ->; apply starts_app]. intros H. destruct (starts_Some _ _ H) as [t E].
  apply app_inj_1 in E as [E _]; [done|lia].
Qed.

(** ** No two records share a key *)
Lemma split_at {A} (z : A) (u v u' v' : list A) : ~ In z u -> ~ In z u' -> u ++ z :: v = u' ++ z :: v' -> u = u'.
Proof.
  revert u'. induction u as [|x u IH]; intros [|y u'] H1 H2 E; cbn in *; try done.
  - injection E as E _. subst. exfalso. apply H2. auto.
  - injection E as E _. subst. exfalso. apply H1. auto.
  - injection E as -> E. f_equal. apply IH; auto.
Qed.
Lemma bech_pair a b a' b' : bech a -> bech b -> bech a' -> bech b' -> a ++ b = a' ++ b' -> a = a' /\ b = b'.
Proof.
  intros (d & -> & Hd) (e & -> & He) (d' & -> & Hd') (e' & -> & He') E.
  rewrite <-!app_assoc in E. apply app_inv_head in E.
  assert (d ++ [107; 121; 118; 101] = d' ++ [107; 121; 118; 101]) as Ed.
  { apply (split_at 49 _ e _ e').
    - rewrite in_app_iff. cbn. intros [X|X]; [done|]. lia.
    - rewrite in_app_iff. cbn. intros [X|X]; [done|]. lia.
    - rewrite <-!app_assoc. exact E. }
  apply app_inv_tail in Ed. subst d'. apply app_inv_head in E. auto.
Qed.
Lemma addr_num (a a' : bytes) k k' : u64 k -> u64 k' -> a ++ be8 k = a' ++ be8 k' -> a = a' /\ k = k'.
Proof. intros Hk Hk' E. apply app_inj_2 in E as [-> E]; [|by rewrite !be8_length]. split; [done|]. by apply be8_inj. Qed.
Lemma num_rest k k' (a a' : bytes) : u64 k -> u64 k' -> be8 k ++ a = be8 k' ++ a' -> k = k' /\ a = a'.
Proof. intros Hk Hk' E. apply app_inj_1 in E as [E ->]; [|by rewrite !be8_length]. split; [|done]. by apply be8_inj. Qed.

Lemma tl_inj {A} (x y : A) l l' : x :: l = y :: l' -> l = l'.
Proof. intros E. by injection E. Qed.
Ltac unprefix E := repeat match type of E with _ :: _ = _ :: _ => apply tl_inj in E end.
Lemma keys_distinct r r' : rok bech r -> rok bech r' -> store_of r = store_of r' -> key_of r = key_of r' -> r = r'.
Proof.
  destruct r, r'; cbn [rok store_of]; intros H H' Es; try discriminate Es; clear Es; cbn [key_of app STAT]; intros E; try discriminate E; try reflexivity;
    repeat match goal with H : _ /\ _ |- _ => destruct H end;
    unprefix E;
    match type of E with
    | be8 _ ++ _ = be8 _ ++ _ => apply num_rest in E as [? E]; [|assumption..]; try (apply be8_inj in E; [|assumption..])
    | _ ++ be8 _ = _ ++ be8 _ => apply addr_num in E as [? E]; [|assumption..]
    | be8 _ = be8 _ => apply be8_inj in E; [|assumption..]
    | _ ++ _ = _ ++ _ => apply bech_pair in E as [? E]; [|assumption..]
    | _ => idtac
    end; congruence.
Qed.

(** ** The iterators see exactly the records meant *)
Lemma scan_exact sc r : scan_ok sc -> rok plain r -> store_of r = scan_store sc -> starts (scan_prefix sc) (key_of r) = true <-> selects sc r.
Proof.
  destruct sc, r; cbn [scan_ok rok store_of scan_store selects]; intros H H' Es; try discriminate Es; clear Es;
    cbn [key_of scan_prefix app STAT starts N.eqb Pos.eqb andb];
    try (split; [discriminate|intros X; repeat match goal with X : exists _, _ |- _ => destruct X as [? X] end; discriminate X]);
    try (split; [intros _; repeat eexists|reflexivity]; fail).
  all: repeat match goal with H : _ /\ _ |- _ => destruct H end.
  all: rewrite starts_len by (unfold plain in *; rewrite ?be8_length; lia).
  all: split; [intros E; try (apply be8_inj in E; [|assumption..]); subst; eexists; reflexivity|intros [? X]; injection X; congruence].
Qed.
Lemma visit_scan (sc : scan) {V} (st : kvs V) (k : bytes) : scan_ok sc -> kept (scan_store sc) plain st ->
  In k (visit (scan_prefix sc) st) <-> exists r, selects sc r /\ store_of r = scan_store sc /\ rok plain r /\ k = key_of r /\ is_Some (st !! k).
Proof.
  intros Hs Hk. rewrite visit_sorted, sorted_in. split.
  - intros [Hp [v Hv]]. destruct (Hk k v Hv) as (r & Es & Hr & ->). exists r. apply (scan_exact sc r Hs Hr Es) in Hp. eauto 10.
  - intros (r & Hsel & Es & Hr & -> & Hv). split; [|done]. by apply scan_exact.
Qed.

(** ** Reading back *)
Lemma slice_app (u v w : bytes) i j : length u = i -> length v = (j - i)%nat -> slice i j (u ++ v ++ w) = v.
Proof. intros <- Hv. unfold slice. rewrite drop_app, <-Hv. apply take_app. Qed.
Lemma slice_app_end (u v : bytes) i j : length u = i -> length v = (j - i)%nat -> slice i j (u ++ v) = v.
Proof. intros Hu Hv. pose proof (slice_app u v [] i j Hu Hv) as X. by rewrite app_nil_r in X. Qed.

(** Valaccounts: every record has its index entry and the other way round. *)
Definition paired (st : kvs sval) : Prop :=
  forall p a, u64 p -> plain a -> (exists v, st !! key_of (SVal p a) = Some (VAcc v)) <-> is_Some (st !! key_of (SValIx a p)).
Lemma vals_exact st a : kept 3 plain st -> paired st -> plain a ->
  exists ps, StronglySorted N.lt ps /\ (forall p, In p ps <-> u64 p /\ exists v, get_val st p a = Some v) /\
    map Some (vals_from_staker st a) = map (fun p => get_val st p a) ps /\ pool_count st a = length ps.
Proof.
  intros Hk Hp Ha. pose proof (fun k => visit_scan (ValsOfStaker a) st k Ha Hk) as Hin. cbn [scan_prefix] in Hin.
  set (f := fun k : bytes => unbe (slice 43 51 (drop 2 k))). exists (map f (visit ([2; 1] ++ a) st)).
  assert (Hf : forall k, In k (visit ([2; 1] ++ a) st) -> exists p, u64 p /\ k = key_of (SValIx a p) /\ f k = p /\ exists v, get_val st p a = Some v).
  { intros k Hi. apply Hin in Hi. destruct Hi as (r & [p ->] & _ & [_ Hu] & -> & Hs). exists p. split; [done|]. split; [done|]. split.
    - unfold f. cbn [key_of app drop]. rewrite (slice_app_end a (be8 p)) by (rewrite ?be8_length; done). by apply unbe_be8.
    - apply (Hp p a Hu Ha) in Hs. destruct Hs as [v Hv]. exists v. unfold get_val. by rewrite Hv. }
  split; [|split; [|split]].
  - apply mapped_sorted; [apply sorted_sorted|]. intros x y Hx Hy Hl. destruct (Hf x Hx) as (n & Hn & -> & -> & _). destruct (Hf y Hy) as (m & Hm & -> & -> & _).
    cbn [key_of] in Hl. rewrite !app_assoc, blt_app_same, be8_blt in Hl by done. by apply N.ltb_lt.
  - intros p. rewrite in_map_iff. split.
    + intros (k & <- & Hi). destruct (Hf k Hi) as (n & Hn & _ & -> & Hv). done.
    + intros [Hu [v Hv]]. exists (key_of (SValIx a p)). assert (Hi : is_Some (st !! key_of (SValIx a p))).
      { apply Hp; [done..|]. unfold get_val in Hv. destruct (st !! _) as [[x|]|]; cbn in Hv; try discriminate. by exists x. }
      assert (Hi' : In (key_of (SValIx a p)) (visit ([2; 1] ++ a) st)).
      { apply Hin. exists (SValIx a p). cbn. split; [by exists p|]. split; [done|]. split; [done|]. split; [done|]. exact Hi. }
      split; [|exact Hi']. unfold f. cbn [key_of app drop]. rewrite (slice_app_end a (be8 p)) by (rewrite ?be8_length; done). by apply unbe_be8.
  - unfold vals_from_staker. revert Hf. generalize (visit ([2; 1] ++ a) st). clear Hin. intros l. induction l as [|k l IH]; intros Hf; [done|].
    destruct (Hf k (or_introl eq_refl)) as (n & _ & _ & En & [v Hv]). cbn [omap list_omap map]. fold (f k). rewrite En, Hv. cbn [map].
    f_equal. apply IH. intros k' Hk'. apply Hf. by right.
  - unfold pool_count. by rewrite map_length.
Qed.
(** Joining (SetValaccount) keeps both conditions. *)
Lemma kept_insert (s : N) (P : bytes -> Prop) {V} (st : kvs V) (r : rec) (v : V) : kept s P st -> store_of r = s -> rok P r -> kept s P (<[key_of r := v]> st).
Proof.
  intros Hk Hs Hr k v'. rewrite lookup_insert_Some. intros [[<- _]|[_ H]]; [by exists r|eauto].
Qed.
Lemma plain_index a a' p p' : plain a -> plain a' -> u64 p -> u64 p' -> key_of (SValIx a p) = key_of (SValIx a' p') -> a = a' /\ p = p'.
Proof. intros Ha Ha' Hp Hp' E. cbn [key_of app] in E. unprefix E. by apply addr_num in E. Qed.
Lemma set_val_ok st p a v : kept 3 plain st -> paired st -> u64 p -> plain a -> kept 3 plain (set_val st p a v) /\ paired (set_val st p a v).
Proof.
  intros Hk Hp Hu Ha. split.
  - unfold set_val. apply kept_insert; [|done|done]. apply kept_insert; done.
  - intros p' a' Hu' Ha'. unfold set_val.
    rewrite (lookup_insert_ne _ (key_of (SValIx a p)) (key_of (SVal p' a'))) by (cbn [key_of app]; discriminate).
    destruct (decide (key_of (SValIx a p) = key_of (SValIx a' p'))) as [E|Hn].
    + destruct (plain_index _ _ _ _ Ha Ha' Hu Hu' E) as [<- <-]. rewrite !lookup_insert. split; eauto.
    + rewrite (lookup_insert_ne _ _ _ _ Hn). rewrite (lookup_insert_ne _ _ (key_of (SVal p' a'))).
      2:{ intros E. cbn [key_of app] in E. unprefix E. apply num_rest in E as [-> ->]; done. }
      rewrite (lookup_insert_ne _ (key_of (SVal p a)) (key_of (SValIx a' p'))) by (cbn [key_of app]; discriminate). by apply Hp.
Qed.
Lemma get_set_val st p a v p' a' : u64 p -> plain a -> u64 p' -> plain a' ->
  get_val (set_val st p a v) p' a' = if decide (p = p' /\ a = a') then Some v else get_val st p' a'.
Proof.
  intros Hu Ha Hu' Ha'. unfold get_val, set_val.
  rewrite (lookup_insert_ne _ (key_of (SValIx a p)) (key_of (SVal p' a'))) by (cbn [key_of app]; discriminate).
  destruct (decide (p = p' /\ a = a')) as [[<- <-]|Hn]; [by rewrite lookup_insert|].
  rewrite lookup_insert_ne; [done|]. intros E. cbn [key_of app] in E. unprefix E. apply num_rest in E as [-> ->]; [|done..]. apply Hn; done.
Qed.
(** The valaddress check of joining a pool refuses exactly the valaddresses in use by the staker in
    any pool or by anybody in this pool. *)
Lemma pool_vals_exact st p v : kept 3 plain st -> u64 p -> In v (vals_of_pool st p) <-> exists a, plain a /\ get_val st p a = Some v.
Proof.
  intros Hk Hu. pose proof (fun k => visit_scan (ValsOfPool p) st k Hu Hk) as Hin. cbn [scan_prefix] in Hin.
  unfold vals_of_pool. rewrite <-elem_of_list_In, elem_of_list_omap. split.
  - intros (k & Hi & Ev). apply elem_of_list_In, Hin in Hi. destruct Hi as (r & [a ->] & _ & [Ha _] & -> & _). eauto.
  - intros (a & Ha & Ev). exists (key_of (SVal p a)). split; [|exact Ev]. apply elem_of_list_In, Hin. exists (SVal p a). split; [by exists a|].
    split; [done|]. split; [done|]. split; [done|]. unfold get_val in Ev. destruct (st !! _); [eauto|discriminate].
Qed.
Lemma vals_in st a v : kept 3 plain st -> paired st -> plain a -> In v (vals_from_staker st a) <-> exists p, u64 p /\ get_val st p a = Some v.
Proof.
  intros Hk Hp Ha. destruct (vals_exact st a Hk Hp Ha) as (ps & _ & Hps & E & _). split.
  - intros Hi. assert (Hm : In (Some v) (map Some (vals_from_staker st a))) by by apply in_map. rewrite E in Hm. apply in_map_iff in Hm.
    destruct Hm as (p & Ev & Hin). apply Hps in Hin. destruct Hin as [Hu _]. eauto.
  - intros (p & Hu & Ev). assert (Hm : In (Some v) (map (fun p => get_val st p a) ps)).
    { apply in_map_iff. exists p. split; [done|]. apply Hps. eauto. }
    rewrite <-E in Hm. apply in_map_iff in Hm. destruct Hm as (x & Ex & Hin). by injection Ex as <-.
Qed.
Lemma existsb_in (l : list bytes) v : existsb (fun x => if decide (x = v) then true else false) l = true <-> In v l.
Proof.
  rewrite existsb_exists. split.
  - intros (x & Hin & E). destruct (decide (x = v)) as [<-|]; [done|discriminate].
  - intros Hin. exists v. by rewrite decide_True.
Qed.
Lemma used_exact st p a v : kept 3 plain st -> paired st -> plain a -> u64 p ->
  val_used st p a v = true <-> (exists q, u64 q /\ get_val st q a = Some v) \/ (exists b, plain b /\ get_val st p b = Some v).
Proof. intros Hk Hp Ha Hu. unfold val_used. rewrite orb_true_iff, !existsb_in, vals_in, pool_vals_exact; done. Qed.
Lemma inactive_exact st a : kept 3 plain st -> paired st -> plain a ->
  dest_inactive st a = true <-> ~ exists p v, u64 p /\ get_val st p a = Some v.
Proof.
  intros Hk Hp Ha. pose proof (fun v => vals_in st a v Hk Hp Ha) as Hv. unfold dest_inactive. destruct (vals_from_staker st a) as [|v l].
  - split; [|done]. intros _ (p & v & Hu & E). apply (Hv v). eauto.
  - split; [done|]. intros Hn. exfalso. apply Hn. destruct (proj1 (Hv v) (or_introl eq_refl)) as (p & Hu & E). eauto.
Qed.

(** Stakers of a delegator. *)
Lemma stakers_exact {V} (st : kvs V) (d : bytes) : kept 1 plain st -> plain d ->
  NoDup (stakers_by_delegator st d) /\ forall s, In s (stakers_by_delegator st d) <-> plain s /\ is_Some (st !! key_of (DDelegatorIx d s)).
Proof.
  intros Hk Hd. pose proof (fun k => visit_scan (StakersOf d) st k Hd Hk) as Hin. cbn [scan_prefix] in Hin.
  set (f := fun k : bytes => slice 43 86 (drop 2 k)).
  assert (Hf : forall k, In k (visit ([1; 1] ++ d) st) -> exists s, plain s /\ k = key_of (DDelegatorIx d s) /\ f k = s /\ is_Some (st !! k)).
  { intros k Hi. apply Hin in Hi. destruct Hi as (r & [s ->] & _ & [_ Hs] & -> & Hv). exists s. split; [done|]. split; [done|]. split; [|done].
    unfold f. cbn [key_of app drop]. by apply slice_app_end. }
  assert (Hs : StronglySorted (fun a b => blt a b = true) (stakers_by_delegator st d)).
  { apply mapped_sorted; [apply sorted_sorted|]. intros x y Hx Hy Hl. destruct (Hf x Hx) as (n & Hn & Ex & Fx & _). destruct (Hf y Hy) as (m & Hm & Ey & Fy & _).
    unfold f in Fx, Fy. rewrite Fx, Fy. rewrite Ex, Ey in Hl. cbn [key_of] in Hl. by rewrite !app_assoc, blt_app_same in Hl. }
  split.
  - induction Hs as [|x l Hs IH Hx]; [constructor|]. constructor; [|done]. intros Hi. rewrite Forall_forall in Hx. specialize (Hx _ Hi). by rewrite blt_irr in Hx.
  - intros s. unfold stakers_by_delegator. rewrite in_map_iff. split.
    + intros (k & <- & Hi). destruct (Hf k Hi) as (s & Hs' & -> & Fs & Hv). unfold f in Fs. rewrite Fs. done.
    + intros [Hp Hv]. exists (key_of (DDelegatorIx d s)). assert (Hi : In (key_of (DDelegatorIx d s)) (visit ([1; 1] ++ d) st)).
      { apply Hin. exists (DDelegatorIx d s). split; [by exists s|]. done. }
      split; [|done]. cbn [key_of app drop]. by apply slice_app_end.
Qed.

(** Cooldowns of a delegator, oldest first. *)
Lemma cooldowns_exact {V} (st : kvs V) (d : bytes) : kept 1 plain st -> plain d ->
  StronglySorted N.lt (cooldowns st d) /\ forall t, In t (cooldowns st d) <-> u64 t /\ is_Some (st !! key_of (DCooldown d t)).
Proof.
  intros Hk Hd. pose proof (fun k => visit_scan (CooldownsOf d) st k Hd Hk) as Hin. cbn [scan_prefix] in Hin.
  set (f := fun k : bytes => unbe (take 8 (drop (1 + length d) k))).
  assert (Hkey : forall t, u64 t -> f (key_of (DCooldown d t)) = t).
  { intros t Hu. unfold f. cbn [key_of app drop Nat.add]. rewrite drop_app. rewrite take_ge by (rewrite be8_length; lia). by apply unbe_be8. }
  assert (Hf : forall k, In k (visit ([7] ++ d) st) -> exists t, u64 t /\ k = key_of (DCooldown d t) /\ f k = t /\ is_Some (st !! k)).
  { intros k Hi. apply Hin in Hi. destruct Hi as (r & [t ->] & _ & [_ Hs] & -> & Hv). exists t. auto. }
  split.
  - apply mapped_sorted; [apply sorted_sorted|]. intros x y Hx Hy Hl. destruct (Hf x Hx) as (n & Hn & Ex & Fx & _). destruct (Hf y Hy) as (m & Hm & Ey & Fy & _).
    unfold f in Fx, Fy. rewrite Fx, Fy. rewrite Ex, Ey in Hl. cbn [key_of] in Hl. rewrite !app_assoc, blt_app_same, be8_blt in Hl by done. by apply N.ltb_lt.
  - intros t. unfold cooldowns. rewrite in_map_iff. split.
    + intros (k & <- & Hi). destruct (Hf k Hi) as (s & Hs' & -> & Fs & Hv). unfold f in Fs. rewrite Fs. done.
    + intros [Hp Hv]. exists (key_of (DCooldown d t)). split; [by apply Hkey|]. apply Hin. exists (DCooldown d t). split; [by exists t|]. done.
Qed.
(** Exported cooldowns. *)
Lemma all_cooldowns_exact {V} (st : kvs V) : kept 1 plain st ->
  forall d t, In (d, t) (all_cooldowns st) <-> plain d /\ u64 t /\ is_Some (st !! key_of (DCooldown d t)).
Proof.
  intros Hk d t. pose proof (fun k => visit_scan Cooldowns st k I Hk) as Hin. cbn [scan_prefix] in Hin.
  assert (Hkey : forall d t, plain d -> u64 t -> (slice 0 43 (drop 1 (key_of (DCooldown d t))), unbe (slice 43 51 (drop 1 (key_of (DCooldown d t))))) = (d, t)).
  { intros d' t' Hd Hu. cbn [key_of app drop]. f_equal.
    - apply (slice_app [] d' (be8 t')); [done|]. unfold plain in Hd. lia.
    - rewrite (slice_app_end d' (be8 t')) by (rewrite ?be8_length; done). by apply unbe_be8. }
  unfold all_cooldowns. rewrite in_map_iff. split.
  - intros (k & E & Hi). apply Hin in Hi. destruct Hi as (r & (d' & t' & ->) & _ & [Hd Hu] & -> & Hv). rewrite Hkey in E by done. by injection E as <- <-.
  - intros (Hd & Hu & Hv). exists (key_of (DCooldown d t)). split; [by apply Hkey|]. apply Hin. exists (DCooldown d t). split; [by exists d, t|]. done.
Qed.

(** Slashes between two periods, both included. *)
Lemma slashes_exact {V} (st : kvs V) (s : bytes) (lo hi : N) : kept 1 plain st -> plain s -> lo <= hi -> hi < MAXU ->
  StronglySorted N.lt (slashes_between st s lo hi) /\ forall k, In k (slashes_between st s lo hi) <-> lo <= k <= hi /\ is_Some (st !! key_of (DSlash s k)).
Proof.
  intros Hk Hs Hlo Hhi. assert (Hm : (hi + 1) mod 18446744073709551616 = hi + 1) by (apply N.mod_small; unfold MAXU in Hhi; lia).
  assert (Ulo : u64 lo) by (unfold u64, MAXU in *; lia). assert (Uhi : u64 (hi + 1)) by (unfold u64, MAXU in *; lia).
  set (f := fun k : bytes => unbe (drop (1 + length s) k)).
  assert (Hkey : forall t, u64 t -> f (key_of (DSlash s t)) = t).
  { intros t Hu. unfold f. cbn [key_of app drop Nat.add]. rewrite drop_app. by apply unbe_be8. }
  assert (Hin : forall k, In k (visit_range ([4] ++ s ++ be8 lo) ([4] ++ s ++ be8 (hi + 1)) st) <-> exists t, lo <= t <= hi /\ k = key_of (DSlash s t) /\ is_Some (st !! k)).
  { intros k. rewrite visit_range_sorted, sorted_in. split.
    - intros [Hr [v Hv]]. apply andb_true_iff in Hr. destruct Hr as [H1 H2]. unfold ble in H1. apply negb_true_iff in H1.
      destruct (Hk k v Hv) as (r & Es & Hr & ->).
      assert (Hd : exists a t, plain a /\ u64 t /\ r = DSlash a t).
      { destruct r; cbn [store_of] in Es; try discriminate Es; cbn [key_of app blt N.ltb N.compare Pos.compare Pos.compare_cont] in H1, H2; try discriminate; destruct Hr; eauto. }
      destruct Hd as (a & t & Ha & Ht & ->). cbn [key_of] in H1, H2. rewrite blt_app_same in H1, H2.
      rewrite blt_app in H1, H2 by (unfold plain in *; lia). destruct (decide (a = s)) as [->|Hn].
      + rewrite be8_blt in H1, H2 by done. apply N.ltb_ge in H1. apply N.ltb_lt in H2. exists t. split; [lia|]. split; [done|]. by exists v.
      + congruence.
    - intros (t & Ht & -> & Hv). split; [|done]. assert (Ut : u64 t) by (unfold u64 in *; lia). cbn [key_of]. unfold ble. rewrite !blt_app_same, !be8_blt by done.
      apply andb_true_iff. split; [apply negb_true_iff, N.ltb_ge; lia|apply N.ltb_lt; lia]. }
  unfold slashes_between. rewrite Hm. split.
  - apply mapped_sorted; [apply sorted_sorted|]. intros x y Hx Hy Hl. apply Hin in Hx, Hy. destruct Hx as (n & Hn & -> & _). destruct Hy as (m & Hm' & -> & _).
    fold (f (key_of (DSlash s n))). fold (f (key_of (DSlash s m))). assert (u64 n) by (unfold u64 in *; lia). assert (u64 m) by (unfold u64 in *; lia).
    rewrite !Hkey by done. cbn [key_of] in Hl. rewrite !app_assoc, blt_app_same, be8_blt in Hl by done. by apply N.ltb_lt.
  - intros k. rewrite in_map_iff. split.
    + intros (x & <- & Hi). apply Hin in Hi. destruct Hi as (t & Ht & -> & Hv). fold (f (key_of (DSlash s t))). rewrite Hkey by (unfold u64 in *; lia). done.
    + intros [Ht Hv]. exists (key_of (DSlash s k)). split; [apply Hkey; unfold u64 in *; lia|]. apply Hin. exists k. done.
Qed.

(** The stakers by delegation, largest first. *)
Lemma by_delegation_exact {V} (st : kvs V) : kept 2 plain st ->
  exists l, map snd l = stakers_by_delegation st /\ NoDup l /\ StronglySorted (fun x y => y.1 <= x.1) l /\
    forall n s, In (n, s) l <-> n <= MAXU /\ plain s /\ is_Some (st !! key_of (MStaker (MAXU - n) s)).
Proof.
  intros Hk. pose proof (fun k => visit_scan Index st k I Hk) as Hin. cbn [scan_prefix] in Hin.
  set (f := fun k : bytes => (MAXU - unbe (slice 0 8 (drop 1 k)), slice 8 51 (drop 1 k))).
  assert (Hkey : forall n s, u64 n -> plain s -> f (key_of (MStaker n s)) = (MAXU - n, s)).
  { intros n s Hn Hs. unfold f. cbn [key_of app drop]. f_equal.
    - rewrite (slice_app [] (be8 n) s) by done. by rewrite unbe_be8.
    - apply slice_app_end; [apply be8_length|]. unfold plain in Hs. lia. }
  assert (Hf : forall k, In k (visit [1] st) -> exists n s, u64 n /\ plain s /\ k = key_of (MStaker n s) /\ is_Some (st !! k)).
  { intros k Hi. apply Hin in Hi. destruct Hi as (r & (n & s & ->) & _ & [Hs Hn] & -> & Hv). eauto 10. }
  exists (map f (visit [1] st)). split; [unfold stakers_by_delegation; by rewrite map_map|]. split; [|split].
  - apply NoDup_fmap_2_strong; [|apply sorted_nodup]. intros x y Hx Hy E. apply elem_of_list_In in Hx, Hy.
    destruct (Hf x Hx) as (n & s & Hn & Hs & -> & _). destruct (Hf y Hy) as (m & s' & Hm & Hs' & -> & _). rewrite !Hkey in E by done. apply pair_equal_spec in E as [E ->].
    assert (n = m) as -> by (unfold u64, MAXU in *; lia). done.
  - apply mapped_sorted; [apply sorted_sorted|]. intros x y Hx Hy Hl. destruct (Hf x Hx) as (n & s & Hn & Hs & -> & _). destruct (Hf y Hy) as (m & s' & Hm & Hs' & -> & _).
    rewrite !Hkey by done. cbn [fst]. cbn [key_of] in Hl. rewrite blt_app_same, blt_app in Hl by by rewrite !be8_length.
    destruct (decide _) as [E|_]; [apply be8_inj in E; [|done..]; lia|]. rewrite be8_blt in Hl by done. apply N.ltb_lt in Hl. lia.
  - intros n s. rewrite in_map_iff. split.
    + intros (k & E & Hi). destruct (Hf k Hi) as (m & s' & Hm & Hs & -> & Hv). rewrite Hkey in E by done. apply pair_equal_spec in E as [<- <-].
      split; [unfold MAXU; lia|]. split; [done|]. replace (MAXU - (MAXU - m)) with m by (unfold u64, MAXU in *; lia). done.
    + intros (Hn & Hs & Hv). exists (key_of (MStaker (MAXU - n) s)). assert (u64 (MAXU - n)) by (unfold u64, MAXU in *; lia). split.
      * rewrite Hkey by done. f_equal. lia.
      * apply Hin. exists (MStaker (MAXU - n) s). split; [by exists (MAXU - n), s|]. done.
Qed.

(** The entries an index holds after writing ([true]) and deleting some. *)
Definition index_op : Type := bool * (N * bytes).
Definition held (h : gset (N * bytes)) (o : index_op) : gset (N * bytes) := if fst o then {[snd o]} ∪ h else h ∖ {[snd o]}.
Definition do_index (st : kvs unit) (o : index_op) : kvs unit :=
  if fst o then set_index st (fst (snd o)) (snd (snd o)) tt else del_index st (fst (snd o)) (snd (snd o)).
Definition index_op_ok (o : index_op) : Prop := fst (snd o) <= MAXU /\ plain (snd (snd o)).
Lemma MStaker_inj n m s s' : n <= MAXU -> m <= MAXU -> plain s -> plain s' -> key_of (MStaker (MAXU - n) s) = key_of (MStaker (MAXU - m) s') -> (n, s) = (m, s').
Proof.
  intros Hn Hm _ _ E. cbn [key_of] in E. apply app_inj_1 in E as [_ E]; [|done]. apply app_inj_1 in E as [E ->]; [|by rewrite !be8_length].
  apply be8_inj in E; [|unfold u64, MAXU in *; lia..]. f_equal. lia.
Qed.
Lemma index_exact ops : Forall index_op_ok ops ->
  exists l, map snd l = stakers_by_delegation (fold_left do_index ops ∅) /\ NoDup l /\ StronglySorted (fun x y => y.1 <= x.1) l /\
    forall x, In x l <-> x ∈ fold_left held ops ∅.
Proof.
  intros Hok.
  assert (H : forall ops st h, Forall index_op_ok ops -> kept 2 plain st ->
    (forall n s, n <= MAXU /\ plain s /\ is_Some (st !! key_of (MStaker (MAXU - n) s)) <-> (n, s) ∈ h) ->
    kept 2 plain (fold_left do_index ops st) /\
    (forall n s, n <= MAXU /\ plain s /\ is_Some (fold_left do_index ops st !! key_of (MStaker (MAXU - n) s)) <-> (n, s) ∈ fold_left held ops h)).
  { clear. induction ops as [|[b [m t]] ops IH]; intros st h Hok Hk Hh; [done|]. apply Forall_cons_1 in Hok as [[Hm Ht] Hok]. cbn [fst snd] in Hm, Ht.
    cbn [fold_left]. apply IH; [done| |]; destruct b; cbn [do_index held fst snd]; unfold set_index, del_index.
    - intros k v. rewrite lookup_insert_Some. intros [[<- <-]|[_ H]]; [|by apply (Hk k v)].
      exists (MStaker (MAXU - m) t). split; [done|]. split; [|done]. split; [done|]. unfold u64, MAXU in *. lia.
    - intros k v. rewrite lookup_delete_Some. intros [_ H]. by apply (Hk k v).
    - intros n s. rewrite lookup_insert_is_Some, elem_of_union, elem_of_singleton, <- Hh. split.
      + intros (Hn & Hs & [E|[_ H]]); [|by right]. left. symmetry. by apply MStaker_inj.
      + intros [[= -> ->]|(Hn & Hs & H)]; [by split_and!; try done; left|]. split; [done|]. split; [done|].
        destruct (decide (key_of (MStaker (MAXU - m) t) = key_of (MStaker (MAXU - n) s))); [by left|by right].
    - intros n s. rewrite lookup_delete_is_Some, elem_of_difference, elem_of_singleton, <- Hh. split.
      + intros (Hn & Hs & E & H). split; [done|]. intros [= -> ->]. done.
      + intros ((Hn & Hs & H) & E). split; [done|]. split; [done|]. split; [|done]. intros Ek. apply E. symmetry. by apply MStaker_inj. }
  destruct (H ops ∅ ∅ Hok) as [H1 H2].
  { intros k v. by rewrite lookup_empty. }
  { intros n s. rewrite lookup_empty, elem_of_empty. split; [intros (_ & _ & [? ?])|]; done. }
  destruct (by_delegation_exact _ H1) as (l & E1 & E2 & E3 & E4). exists l. split; [done|]. split; [done|]. split; [done|].
  intros [n s]. rewrite E4. apply H2.
Qed.
