(** * Concrete addresses and stores, and what fails for long addresses. *)
From Verif Require Import Base Keys KeysClaims.
From stdpp Require Import sorting.
Local Open Scope N_scope.

(** Two accounts of 43 bytes ("kyve1qqq…", "kyve1zzz…") and one of 63 bytes, as a group policy or an
    interchain account has it. *)
Definition A1 : bytes := HRP ++ replicate 38 113.
Definition A2 : bytes := HRP ++ replicate 38 122.
Definition A3 : bytes := HRP ++ replicate 58 120.
Definition V1 : bytes := HRP ++ replicate 38 112.
Definition V2 : bytes := HRP ++ replicate 38 114.

Lemma bech_rep n x : x <> 49 -> bech (HRP ++ replicate n x).
Proof. intros Hx. exists (replicate n x). split; [done|]. intros Hin. apply elem_of_list_In, elem_of_replicate in Hin. by destruct Hin. Qed.
Lemma A1_bech : bech A1. Proof. by apply bech_rep. Qed.
Lemma A2_bech : bech A2. Proof. by apply bech_rep. Qed.
Lemma A3_bech : bech A3. Proof. by apply bech_rep. Qed.
Lemma A12_plain : plain A1 /\ plain A2 /\ ~ plain A3.
Proof. repeat split. unfold plain. cbn. lia. Qed.

Lemma keys_case : rok bech (DDelegator A1 A3) /\ rok bech (DDelegator A3 A1) /\ store_of (DDelegator A1 A3) = store_of (DDelegator A3 A1) /\
  key_of (DDelegator A1 A3) <> key_of (DDelegator A3 A1) /\ key_of (SVal 258 A1) = [2; 0; 0; 0; 0; 0; 0; 0; 1; 2] ++ A1.
Proof.
  split; [split; [apply A1_bech|apply A3_bech]|]. split; [split; [apply A3_bech|apply A1_bech]|]. split; [done|]. split; [|reflexivity].
  intros E. apply keys_distinct in E; [discriminate E|split..|done]; apply A1_bech || apply A3_bech.
Qed.

(** A1 has joined pools 258 and 2, A2 has joined pool 2. *)
Definition st1 : kvs sval := set_val (set_val (set_val ∅ 258 A1 V1) 2 A1 V2) 2 A2 V1.
Lemma empty_ok : kept 3 plain (∅ : kvs sval) /\ paired ∅.
Proof. split; [intros k v H; by rewrite lookup_empty in H|]. intros p a _ _. rewrite !lookup_empty. split; intros [? H]; discriminate H. Qed.
Lemma st1_ok : kept 3 plain st1 /\ paired st1.
Proof.
  destruct empty_ok as [K P]. unfold st1.
  destruct (set_val_ok ∅ 258 A1 V1 K P) as [K1 P1]; [done..|].
  destruct (set_val_ok _ 2 A1 V2 K1 P1) as [K2 P2]; [done..|].
  destruct (set_val_ok _ 2 A2 V1 K2 P2) as [K3 P3]; [done..|]. done.
Qed.
Lemma st1_case : (vals_from_staker st1 A1, pool_count st1 A1, vals_of_pool st1 2) = ([V2; V1], 2%nat, [V2; V1]) /\
  (val_used st1 3 A1 V1, val_used st1 258 A2 V2, dest_inactive st1 A1, dest_inactive st1 V1) = (true, false, false, true).
Proof. split; vm_compute; reflexivity. Qed.

(** Delegations, cooldowns and slashes. *)
Definition dl : kvs unit :=
  list_to_map (map (fun r => (key_of r, ())) [DDelegatorIx A1 A2; DDelegatorIx A1 A1; DDelegatorIx A2 A1; DDelegator A2 A1; DDelegator A1 A1; DDelegator A1 A2;
    DCooldown A1 256; DCooldown A1 255; DCooldown A2 3; DSlash A1 4; DSlash A1 256; DSlash A1 255; DSlash A2 255; DData A1; DParams]).
Lemma list_kept s (P : bytes -> Prop) (l : list rec) : Forall (fun r => store_of r = s /\ rok P r) l ->
  kept s P (list_to_map (map (fun r => (key_of r, ())) l) : kvs unit).
Proof.
  intros Hl k v H. apply elem_of_list_to_map_2 in H. apply elem_of_list_In, in_map_iff in H. destruct H as (r & E & Hin). injection E as <- _.
  apply elem_of_list_In in Hin. rewrite Forall_forall in Hl. destruct (Hl r Hin). eauto.
Qed.
Lemma dl_kept : kept 1 plain dl.
Proof. apply list_kept. repeat constructor. Qed.
Lemma dl_case : stakers_by_delegator dl A1 = [A1; A2] /\ cooldowns dl A1 = [255; 256] /\ all_cooldowns dl = [(A1, 255); (A1, 256); (A2, 3)] /\
  slashes_between dl A1 5 256 = [255; 256].
Proof. repeat split; vm_compute; reflexivity. Qed.
(** The index of the stakers by delegation. *)
Definition ixops : list index_op := [(true, (5, A1)); (true, (4, A2)); (true, (300, A2)); (false, (4, A2)); (true, (7, V1))].
Lemma ixops_ok : Forall index_op_ok ixops.
Proof. repeat constructor; cbn; unfold MAXU; lia. Qed.
Lemma ix_case : stakers_by_delegation (fold_left do_index ixops ∅) = [A2; V1; A1].
Proof. vm_compute. reflexivity. Qed.

(** A staker with a long address joins pool 0 with a valaddress: its valaccount is there and counted,
    but the list of its valaccounts is empty. It may use the same valaddress in pool 1, and nobody
    can redelegate to it. *)
Lemma long_staker : exists st p a v, kept 3 bech st /\ bech a /\ u64 p /\ st = set_val ∅ p a v /\ get_val st p a = Some v /\ pool_count st a = 1%nat /\
  vals_from_staker st a = [] /\ val_used st (p + 1) a v = false /\ dest_inactive st a = true.
Proof.
  exists (set_val ∅ 0 A3 V1), 0, A3, V1. split.
  { unfold set_val. apply kept_insert; [apply kept_insert; [|done|]|done|]; try (split; [apply A3_bech|done]). intros k v H. by rewrite lookup_empty in H. }
  split; [apply A3_bech|]. split; [done|]. split; [done|]. vm_compute. done.
Qed.
(** A delegation from a plain account to a long staker and one from a long account to a plain
    staker: neither staker is found, and the exported cooldown names an account that has none. *)
Definition dl3 : kvs unit := list_to_map (map (fun r => (key_of r, ())) [DDelegatorIx A1 A3; DDelegator A3 A1; DDelegatorIx A3 A1; DDelegator A1 A3; DCooldown A3 5]).
Lemma long_delegator : exists (st : kvs unit) d s t, kept 1 bech st /\ bech d /\ bech s /\ u64 t /\
  is_Some (st !! key_of (DDelegatorIx d s)) /\ ~ In s (stakers_by_delegator st d) /\
  is_Some (st !! key_of (DDelegatorIx s d)) /\ ~ In d (stakers_by_delegator st s) /\
  is_Some (st !! key_of (DCooldown d t)) /\ ~ In (d, t) (all_cooldowns st) /\ exists a x, In (a, x) (all_cooldowns st) /\ st !! key_of (DCooldown a x) = None.
Proof.
  exists dl3, A3, A1, 5. split.
  { apply list_kept. repeat constructor; try apply A1_bech; try apply A3_bech. }
  split; [apply A3_bech|]. split; [apply A1_bech|]. split; [done|].
  assert (E1 : stakers_by_delegator dl3 A3 = [replicate 20 120 ++ take 23 A1]) by (vm_compute; reflexivity).
  assert (E2 : stakers_by_delegator dl3 A1 = [take 43 A3]) by (vm_compute; reflexivity).
  assert (E3 : all_cooldowns dl3 = [(take 43 A3, 8680820740569200760)]) by (vm_compute; reflexivity).
  split; [vm_compute; eauto|]. split; [rewrite E1; intros [X|[]]; discriminate X|].
  split; [vm_compute; eauto|].
  split; [rewrite E2; intros [X|[]]; discriminate X|].
  split; [vm_compute; eauto|]. rewrite E3. split; [intros [X|[]]; discriminate X|]. exists (take 43 A3), 8680820740569200760. split; [by left|]. vm_compute. reflexivity.
Qed.
