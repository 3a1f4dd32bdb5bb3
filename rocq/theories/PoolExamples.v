(** * Pools: concrete cases and counterexamples. *)
From Verif Require Import Base BaseFacts Delegation Stakers StakersInv Funders Team RoundRobin Pool Bundles Chain ChainFrame ArchiveInv
  BankMoves ChainLift PoolFrame PoolInv PayoutClaims PoolClaims ChainExamples.
From Verif Require FundersExamples.

Definition gen0 : gen := mkGen b0 0 dp0 50 60 fp0 pp0 bp0 (ONE / 2).
Lemma gen0_start : gstart gen0 = g0. Proof. done. Qed.
Definition bank_nnb (b : bank) : bool := forallb (fun x => forallb (fun y => 0 <=? snd y) (map_to_list (snd x))) (map_to_list b).
Lemma bank_nnb_ok b : bank_nnb b = true -> bank_nn b.
Proof.
  unfold bank_nnb. rewrite forallb_forall. intros H a d. unfold bal, bal_of, amt.
  destruct (b !! a) as [m|] eqn:E; simpl; [|by rewrite lookup_empty].
  destruct (m !! d) as [x|] eqn:Ex; simpl; [|lia]. specialize (H (a, m)). simpl in H. rewrite forallb_forall in H.
  assert ((0 <=? snd (d, x)) = true); [|simpl in *; lia]. apply H; apply elem_of_list_In, elem_of_map_to_list; done.
Qed.
Lemma gen0_genesis : genesis gen0.
Proof.
  split; [apply bank_nnb_ok; by vm_compute|]. split; [by vm_compute|]. split; [cbn; unfold two62; lia|]. split; [by vm_compute|].
  split; [apply u64b_ok; by vm_compute|]. split; [apply u64b_ok; by vm_compute|].
  split; [by apply FundersExamples.fparams_okb_ok; vm_compute|]. repeat split; by vm_compute.
Qed.

(** ** C28, C27 *)
(** Status and pending upload: before and after the first submission, during an upgrade, when
    disabled, and without funds. *)
Definition stat (ops : list cop) : option pstatus := (fun pl => pool_status (after ops) 0 pl) <$> get_pool (after ops) 0.
Definition upgrade : list cop := [CBegin 30 0; CSchedule AUTHORITY 7 2 3 40 100; CEnd].
Lemma status_case :
  stat [CBegin 10 0; CCreatePool AUTHORITY true ca0] = Some StMinDelegation /\
  stat setup = Some StActive /\
  stat (setup ++ [CDefund 4 0 (coin KYVE 1000)]) = Some StNoFunds /\
  stat (setup ++ upgrade) = Some StActive /\
  stat (setup ++ upgrade ++ [CBegin 40 0]) = Some StUpgrading /\
  stat (setup ++ [CDisablePool AUTHORITY 0]) = Some StDisabled.
Proof. repeat split; by vm_compute. Qed.
(** The next uploader is staker 1, with valaddress 11; not before time 80, and not from 2. *)
Lemma submit_case :
  let ok ops m := match cmsg (after ops) (CSubmit m) with Some _ => true | None => false end in
  map (ok (setup ++ [CBegin 79 0])) [sub 1 11 51 10 0 20 60] = [false] /\
  map (ok (setup ++ [CBegin 80 0])) [sub 1 11 51 10 0 20 60; sub 1 12 51 10 0 20 60; sub 2 12 51 10 0 20 60; sub 1 11 51 10 1 20 60; sub 1 11 51 10 0 101 60]
    = [true; false; false; false; false].
Proof. split; by vm_compute. Qed.

(** ** C39 *)
Definition vers (ops : list cop) : option (N * N * Z) := (fun pl => (pl_version pl, pl_binaries pl, pn_at (pl_plan pl))) <$> get_pool (after ops) 0.
Lemma upgrade_case :
  vers setup = Some (1%N, 1%N, 0) /\
  vers (setup ++ upgrade) = Some (1%N, 1%N, 40) /\
  vers (setup ++ upgrade ++ [CBegin 39 0; CEnd]) = Some (1%N, 1%N, 40) /\
  vers (setup ++ upgrade ++ [CBegin 45 0; CEnd]) = Some (2%N, 3%N, 40) /\
  vers (setup ++ upgrade ++ [CBegin 45 0; CEnd; CBegin 139 0; CEnd]) = Some (2%N, 3%N, 40) /\
  vers (setup ++ upgrade ++ [CBegin 45 0; CEnd; CBegin 140 0; CEnd]) = Some (2%N, 3%N, 0) /\
  vers (setup ++ upgrade ++ [CCancel AUTHORITY 7; CBegin 45 0; CEnd]) = Some (1%N, 1%N, 0).
Proof. repeat split; by vm_compute. Qed.
(** With a duration of 2^64-1 the sum with the scheduled time wraps around: the upgrade is
    over in the block that applies it. *)
Definition endless : list cop := setup ++ [CBegin 30 0; CSchedule AUTHORITY 7 2 3 30 (two64 - 1)].
Lemma endless_ok : cops_ok g0 endless. Proof. apply cops_okb_ok. vm_cast_no_check (eq_refl true). Qed.
Lemma endless_plan : (exists pl, get_pool (after endless) 0 = Some pl /\ pl_plan pl = mkPlan 2 3 30 (two64 - 1)) /\
  (exists pl, get_pool (after (endless ++ [CEnd])) 0 = Some pl /\ pl_plan pl = no_plan) /\
  c_time (after (endless ++ [CEnd])) = 30.
Proof. split; [by eexists; split; vm_compute|]. split; [by eexists; split; vm_compute|by vm_compute]. Qed.
Lemma endless_due : 0 < 30 <= c_time (after endless). Proof. vm_compute. split; [done|by intros]. Qed.
Lemma endless_late : 30 < 30 + (two64 - 1). Proof. done. Qed.
Lemma due_at pl n t : pl_plan pl = n -> 0 < pn_at n <= t -> due pl t. Proof. by intros <-. Qed.
Lemma late_at pl n t : pl_plan pl = n -> t = 30 -> 30 < pn_at n + pn_duration n -> t < pn_at (pl_plan pl) + pn_duration (pl_plan pl).
Proof. by intros <- ->. Qed.
Lemma endless_refutes : exists g ops p pl pl', genesis g /\ cops_ok (gstart g) (ops ++ [CEnd]) /\
  get_pool (crun (gstart g) ops) p = Some pl /\ get_pool (crun (gstart g) (ops ++ [CEnd])) p = Some pl' /\
  due pl (c_time (crun (gstart g) ops)) /\
  c_time (crun (gstart g) (ops ++ [CEnd])) < pn_at (pl_plan pl) + pn_duration (pl_plan pl) /\ pl_plan pl' = no_plan.
Proof.
  destruct endless_plan as ((pl & E1 & P1) & (pl' & E2 & P2) & Ht).
  exact (ex_intro _ gen0 (ex_intro _ endless (ex_intro _ 0%N (ex_intro _ pl (ex_intro _ pl'
    (conj gen0_genesis (conj (with_end _ _ endless_ok) (conj E1 (conj E2
      (conj (due_at _ _ _ P1 endless_due) (conj (late_at _ _ _ P1 Ht endless_late) P2))))))))))).
Qed.

(** ** C40 *)
Definition pool2 : list cop := [CCreatePool AUTHORITY true ca0; CCreatePool 5 true ca0].
Lemma pools_case :
  ps_count (c_pools (after (setup ++ pool2))) = 2%N /\ is_Some (get_pool (after (setup ++ pool2)) 1) /\ get_pool (after (setup ++ pool2)) 2 = None.
Proof. split; [by vm_compute|]. split; [|by vm_compute]. eexists. by vm_compute. Qed.
Definition off : list cop := setup ++ first ++ [CDisablePool AUTHORITY 0].
Definition joins (ops : list cop) : bool := match cmsg (after ops) (CJoin 1 0 21 0) with Some _ => true | None => false end.
Lemma disable_case :
  held (setup ++ first) (PoolAcc 0) = 66 /\ held off (PoolAcc 0) = 0 /\ held off Treasury = 66 /\
  Bundles.members (after (setup ++ first)) 0 = [1; 2; 3]%N /\ Bundles.members (after off) 0 = [] /\
  joins off = false /\ joins (off ++ [CEnablePool AUTHORITY 0]) = true.
Proof. repeat (split; [by vm_compute|]). by vm_compute. Qed.
(** Coins of other denoms stay in the account of a disabled pool. *)
Lemma gift_ok g c a d x : G g c -> ~ protocol_account a -> d <> KYVE -> 0 <= x ->
  cop_ok c (CBank (<[a := cadd (bal_of (c_bank c) a) (coin d x)]> (c_bank c))).
Proof.
  intros HG Ha Hd Hx. cbn [cop_ok]. split; [|split].
  - intros a' d' Ha'. unfold bal. rewrite bal_of_insert. rewrite decide_False; [done|]. by intros <-.
  - intros a' d'. unfold bal. rewrite bal_of_insert. pose proof (g_nn _ _ HG a d') as H1. pose proof (g_nn _ _ HG a' d') as H2. unfold bal in *.
    destruct (decide _); [|done]. rewrite amt_cadd, amt_coin. destruct (decide _); lia.
  - rewrite supply_insert, amt_cadd, amt_coin. pose proof (g_supply _ _ HG). unfold bal. rewrite decide_False by done. lia.
Qed.
Definition gift : bank := <[PoolAcc 0 := cadd (bal_of (c_bank (after setup)) (PoolAcc 0)) (coin 2 500)]> (c_bank (after setup)).
Lemma setup_ok : cops_ok g0 setup. Proof. apply cops_okb_ok. vm_cast_no_check (eq_refl true). Qed.
Definition stray : list cop := setup ++ [CBank gift; CDisablePool AUTHORITY 0].
Lemma stray_ok : cops_ok g0 stray.
Proof.
  unfold stray. apply cops_ok_app. split; [exact setup_ok|]. split; [|split; exact I].
  apply (gift_ok gen0); [exact (G_run gen0 gen0_genesis setup setup_ok)|by intros []|done|lia].
Qed.
Lemma stray_left : (exists pl, get_pool (after stray) 0 = Some pl /\ pl_disabled pl = true) /\ bal (c_bank (after stray)) (PoolAcc 0) 2 = 500.
Proof. split; [|by vm_compute]. by eexists; split; vm_compute. Qed.
Lemma pos500 x : x = 500 -> 0 < x. Proof. by intros ->. Qed.
Lemma stray_refutes : exists g ops p pl d, genesis g /\ cops_ok (gstart g) ops /\ get_pool (crun (gstart g) ops) p = Some pl /\
  pl_disabled pl = true /\ 0 < bal (c_bank (crun (gstart g) ops)) (PoolAcc p) d.
Proof.
  destruct stray_left as ((pl & E & D) & B).
  exact (ex_intro _ gen0 (ex_intro _ stray (ex_intro _ 0%N (ex_intro _ pl (ex_intro _ 2%N
    (conj gen0_genesis (conj stray_ok (conj E (conj D (pos500 _ B)))))))))).
Qed.
