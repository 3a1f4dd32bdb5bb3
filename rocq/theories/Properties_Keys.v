(** * C48: the keys of the stores; C57: accounts with long addresses. *)
From Verif Require Import Base Keys KeysClaims KeysExamples.
From stdpp Require Import sorting.
Local Open Scope N_scope.

(** Two records of a store never share a key, whatever the lengths of the addresses. *)
Theorem C48_distinct : forall r r', rok bech r -> rok bech r' -> store_of r = store_of r' -> key_of r = key_of r' -> r = r'.
Proof. exact keys_distinct. Qed.
Example C48_distinct_case : rok bech (DDelegator A1 A3) /\ rok bech (DDelegator A3 A1) /\ store_of (DDelegator A1 A3) = store_of (DDelegator A3 A1) /\
  key_of (DDelegator A1 A3) <> key_of (DDelegator A3 A1) /\ key_of (SVal 258 A1) = [2; 0; 0; 0; 0; 0; 0; 0; 1; 2] ++ A1.
Proof. exact keys_case. Qed.

(** An iterator over a prefix visits exactly the records meant: those of the address or id, or all
    of the kind. *)
Theorem C48_iterate : forall sc (V : Type) (st : kvs V) k, scan_ok sc -> kept (scan_store sc) plain st ->
  In k (visit (scan_prefix sc) st) <-> exists r, selects sc r /\ store_of r = scan_store sc /\ rok plain r /\ k = key_of r /\ is_Some (st !! k).
Proof. intros sc V. exact (@visit_scan sc V). Qed.
(** Numeric keys are iterated in numeric order. *)
Theorem C48_order : forall pre n m, u64 n -> u64 m -> blt (pre ++ be8 n) (pre ++ be8 m) = (n <? m).
Proof. intros pre n m Hn Hm. rewrite blt_app_same. exact (be8_blt n m Hn Hm). Qed.
Example C48_order_case : u64 255 /\ u64 256 /\ blt ([2] ++ be8 255) ([2] ++ be8 256) = true /\ (be8 255, be8 256) = ([0; 0; 0; 0; 0; 0; 0; 255], [0; 0; 0; 0; 0; 0; 1; 0]).
Proof. repeat split. Qed.

(** The pools of a staker: its valaccounts, each once, by increasing pool id. *)
Theorem C48_valaccounts : forall st a, kept 3 plain st -> paired st -> plain a ->
  exists ps, StronglySorted N.lt ps /\ (forall p, In p ps <-> u64 p /\ exists v, get_val st p a = Some v) /\
    map Some (vals_from_staker st a) = map (fun p => get_val st p a) ps /\ pool_count st a = length ps.
Proof. exact vals_exact. Qed.
(** Joining keeps the conditions and changes the one valaccount; the valaddress check refuses
    exactly those in use by the staker or in the pool; a redelegation is refused exactly when the
    destination is in no pool. *)
Theorem C48_join : forall st p a v, kept 3 plain st -> paired st -> u64 p -> plain a ->
  (kept 3 plain (set_val st p a v) /\ paired (set_val st p a v)) /\
  (forall p' a', u64 p' -> plain a' -> get_val (set_val st p a v) p' a' = if decide (p = p' /\ a = a') then Some v else get_val st p' a') /\
  (forall w, val_used st p a w = true <-> (exists q, u64 q /\ get_val st q a = Some w) \/ (exists b, plain b /\ get_val st p b = Some w)) /\
  (dest_inactive st a = true <-> ~ exists q w, u64 q /\ get_val st q a = Some w).
Proof.
  intros st p a v Hk Hp Hu Ha. split; [exact (set_val_ok st p a v Hk Hp Hu Ha)|]. split; [intros p' a'; exact (get_set_val st p a v p' a' Hu Ha)|].
  split; [intros w; exact (used_exact st p a w Hk Hp Ha Hu)|exact (inactive_exact st a Hk Hp Ha)].
Qed.
Example C48_valaccounts_case : (kept 3 plain st1 /\ paired st1) /\ plain A1 /\
  (vals_from_staker st1 A1, pool_count st1 A1, vals_of_pool st1 2) = ([V2; V1], 2%nat, [V2; V1]) /\
  (val_used st1 3 A1 V1, val_used st1 258 A2 V2, dest_inactive st1 A1, dest_inactive st1 V1) = (true, false, false, true).
Proof. split; [exact st1_ok|]. split; [reflexivity|]. exact st1_case. Qed.

(** The stakers of a delegator, the cooldowns of a delegator and all exported cooldowns, and the
    slashes between two periods are exactly those stored, the numbers in increasing order. *)
Theorem C48_delegation : forall (V : Type) (st : kvs V), kept 1 plain st ->
  (forall d, plain d -> NoDup (stakers_by_delegator st d) /\ forall s, In s (stakers_by_delegator st d) <-> plain s /\ is_Some (st !! key_of (DDelegatorIx d s))) /\
  (forall d, plain d -> StronglySorted N.lt (cooldowns st d) /\ forall t, In t (cooldowns st d) <-> u64 t /\ is_Some (st !! key_of (DCooldown d t))) /\
  (forall d t, In (d, t) (all_cooldowns st) <-> plain d /\ u64 t /\ is_Some (st !! key_of (DCooldown d t))) /\
  (forall s lo hi, plain s -> lo <= hi -> hi < MAXU ->
     StronglySorted N.lt (slashes_between st s lo hi) /\ forall k, In k (slashes_between st s lo hi) <-> lo <= k <= hi /\ is_Some (st !! key_of (DSlash s k))).
Proof.
  intros V st Hk. split; [intros d; exact (stakers_exact st d Hk)|]. split; [intros d; exact (cooldowns_exact st d Hk)|].
  split; [exact (all_cooldowns_exact st Hk)|intros s lo hi; exact (slashes_exact st s lo hi Hk)].
Qed.
Example C48_delegation_case : kept 1 plain dl /\ stakers_by_delegator dl A1 = [A1; A2] /\ cooldowns dl A1 = [255; 256] /\
  all_cooldowns dl = [(A1, 255); (A1, 256); (A2, 3)] /\ slashes_between dl A1 5 256 = [255; 256].
Proof. split; [exact dl_kept|exact dl_case]. Qed.
(** The index of the stakers lists what has been written and not deleted, by decreasing delegation. *)
Theorem C48_ranking : forall ops, Forall index_op_ok ops ->
  exists l, map snd l = stakers_by_delegation (fold_left do_index ops ∅) /\ NoDup l /\ StronglySorted (fun x y => y.1 <= x.1) l /\
    forall x, In x l <-> x ∈ fold_left held ops ∅.
Proof. exact index_exact. Qed.
Example C48_ranking_case : Forall index_op_ok ixops /\ stakers_by_delegation (fold_left do_index ixops ∅) = [A2; V1; A1].
Proof. split; [exact ixops_ok|exact ix_case]. Qed.

(** For a staker with an address longer than 43 bytes the list of its valaccounts is empty: it may
    use one valaddress in two pools, and redelegating to it is refused. *)
Theorem C57_staker_refuted : exists st p a v, kept 3 bech st /\ bech a /\ u64 p /\ st = set_val ∅ p a v /\ get_val st p a = Some v /\ pool_count st a = 1%nat /\
  vals_from_staker st a = [] /\ val_used st (p + 1) a v = false /\ dest_inactive st a = true.
Proof. exact long_staker. Qed.
(** Delegations from or to such an account are not found, and its redelegation cooldown is exported
    as one of another account. *)
Theorem C57_delegator_refuted : exists (st : kvs unit) d s t, kept 1 bech st /\ bech d /\ bech s /\ u64 t /\
  is_Some (st !! key_of (DDelegatorIx d s)) /\ ~ In s (stakers_by_delegator st d) /\
  is_Some (st !! key_of (DDelegatorIx s d)) /\ ~ In d (stakers_by_delegator st s) /\
  is_Some (st !! key_of (DCooldown d t)) /\ ~ In (d, t) (all_cooldowns st) /\ exists a x, In (a, x) (all_cooldowns st) /\ st !! key_of (DCooldown a x) = None.
Proof. exact long_delegator. Qed.

Print Assumptions C48_distinct.
Print Assumptions C48_iterate.
Print Assumptions C48_order.
Print Assumptions C48_valaccounts.
Print Assumptions C48_join.
Print Assumptions C48_delegation.
Print Assumptions C48_ranking.
Print Assumptions C57_staker_refuted.
Print Assumptions C57_delegator_refuted.
