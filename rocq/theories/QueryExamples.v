(** * Paginated queries: concrete cases and counterexamples. *)
From Verif Require Import Base BaseFacts Delegation Stakers StakersInv Funders Team RoundRobin Pool Bundles Chain ChainFrame ArchiveInv
  ChainLift ChainExamples PoolExamples Query QueryFacts IndexInv QueryClaims.

Definition all_of (c : chain) (f : sfilter) (limit : Z) : option (list (Z * N)) := walk 10 (ask_stakers c f None limit) None.
(** Three stakers in a pool, one outside with more delegation. *)
Definition four : list cop := setup ++ [ CBegin 30 0; CCreateStaker 5 (ONE / 10) 5000; CDelegate 4 2 70 ].
Lemma four_ok : cops_ok g0 four. Proof. apply cops_okb_ok. vm_cast_no_check (eq_refl true). Qed.
Lemma four_case :
  all_of (after four) AllStakers 3 = Some [(5000, 5%N); (1070, 2%N); (1000, 1%N); (1000, 3%N)] /\
  all_of (after four) InactiveStakers 0 = Some [(5000, 5%N)] /\
  stakers_page (after four) AllStakers (Some (fun s => (s <? 4)%N)) None 1 1 true = Some ([(1000, 1%N)], Some (1000, 3%N), 3) /\
  active_page (after four) [2; 1; 3]%N None 0 2 = Some ([2; 1]%N, 3) /\
  active_page (after four) [2; 1; 3]%N None 2 2 = Some ([3]%N, 3).
Proof. repeat (split; [by vm_compute|]). by vm_compute. Qed.

(** ** C49: stakers by pool count *)
Lemma setup_active : [1; 2; 3]%N ≡ₚ map fst (map_to_list (ss_active (c_s (after setup)))).
Proof.
  assert (E : merge_sort N.le (map fst (map_to_list (ss_active (c_s (after setup))))) = [1; 2; 3]%N) by (vm_compute; reflexivity).
  rewrite <- E. apply merge_sort_Permutation.
Qed.
Lemma setup_in : in_some_pool (after setup) 1.
Proof. exists 0%N. eexists. by vm_compute. Qed.
Lemma poolcount_refutes : exists g ops slice s, genesis g /\ cops_ok (gstart g) ops /\
  slice ≡ₚ map fst (map_to_list (ss_active (c_s (crun (gstart g) ops)))) /\ in_some_pool (crun (gstart g) ops) s /\
  pool_count_page slice 0 0 = None /\ fst <$> pool_count_page slice 0 1 = Some [2%N] /\
  forall offset limit r n, 0 <= offset -> 0 <= limit -> offset + 2 * page_size limit < two63 ->
    pool_count_page slice offset limit = Some (r, n) -> ~ In s r.
Proof.
  exists gen0, setup, [1; 2; 3]%N, 1%N. split; [exact gen0_genesis|]. split; [exact setup_ok|]. split; [exact setup_active|].
  split; [exact setup_in|]. split; [by vm_compute|]. split; [by vm_compute|].
  intros o limit r n H1 H2 H3 E. eapply page_skips; [exact H1|exact H2|exact H3| |exact E|].
  - apply (bool_decide_unpack (NoDup [1; 2; 3]%N)). by vm_compute.
  - pose proof (page_size_pos limit H2). destruct (Z.to_nat (page_size limit)) eqn:Ep; [lia|]. by left.
Qed.

(** ** C49: an entry without a staker *)
Definition phantom : list cop := setup ++ [ CBegin 30 0; CUndelegate 9 8 0; CEnd; CBegin 200 0 ].
Lemma phantom_ok : cops_ok g0 phantom. Proof. apply cops_okb_ok. vm_cast_no_check (eq_refl true). Qed.
Lemma phantom_refutes : exists g ops s, genesis g /\ cops_ok (gstart g) ops /\ ~ is_staker (crun (gstart g) ops) s /\
  exists r k n, stakers_page (crun (gstart g) ops) AllStakers None None 0 0 true = Some (r, k, n) /\ In s (map snd r).
Proof.
  exists gen0, phantom, 8%N. split; [exact gen0_genesis|]. split; [exact phantom_ok|]. split.
  - change (gstart gen0) with g0. intros H. vm_compute in H. by destruct H.
  - eexists [(1000, 1%N); (1000, 2%N); (1000, 3%N); (0, 8%N)], None, 4. split; [by vm_compute|]. cbn. tauto.
Qed.

(** ** C49: the index after a restart *)
Definition poor : list cop := setup ++ [ CBegin 30 0; CCreateStaker 5 (ONE / 10) 0; CEnd; CBegin 40 0 ].
Lemma poor_ok : cops_ok g0 poor. Proof. apply cops_okb_ok. vm_cast_no_check (eq_refl true). Qed.
Definition nodes (c : chain) : option (list (Z * N)) := all_of c AllStakers 0.
Lemma poor_lists : nodes (after poor) = Some [(1000, 1%N); (1000, 2%N); (1000, 3%N); (0, 5%N)] /\
  nodes (restart (after poor)) = Some [(1000, 1%N); (1000, 2%N); (1000, 3%N)] /\ is_staker (restart (after poor)) 5.
Proof. split; [by vm_compute|]. split; [by vm_compute|]. eexists. by vm_compute. Qed.
(** Two nodes with the same history, one of them restarted: different answers, and a staker is
    missing in one of them. *)
Lemma restart_refutes : exists g ops s, genesis g /\ cops_ok (gstart g) ops /\
  let c := crun (gstart g) ops in let c' := restart c in
  is_staker c s /\ is_staker c' s /\
  exists r r', stakers_page c AllStakers None None 0 0 true = Some (r, None, 4) /\ In s (map snd r) /\
    stakers_page c' AllStakers None None 0 0 true = Some (r', None, 3) /\ ~ In s (map snd r').
Proof.
  exists gen0, poor, 5%N. split; [exact gen0_genesis|]. split; [exact poor_ok|]. split; [eexists; by vm_compute|]. split; [eexists; by vm_compute|].
  exists [(1000, 1%N); (1000, 2%N); (1000, 3%N); (0, 5%N)], [(1000, 1%N); (1000, 2%N); (1000, 3%N)].
  split; [by vm_compute|]. split; [cbn; tauto|]. split; [by vm_compute|]. cbn. intros [H|[H|[H|H]]]; done.
Qed.
Definition renode : list nop := map NChain four ++ [NRestart; NChain (CDelegate 4 3 500)].
Lemma nops_chain ops rest : forall c, cops_ok c ops -> nops_ok (crun c ops) rest -> nops_ok c (map NChain ops ++ rest).
Proof. induction ops as [|o t IH]; intros c H1 H2; [done|]. cbn in H1. destruct H1 as [H1 H3]. split; [done|]. by apply IH. Qed.
Lemma renode_ok : nops_ok (gstart gen0) renode.
Proof. apply nops_chain; [exact four_ok|]. split; [done|]. split; [|done]. cbn [cop_ok]. unfold two63. lia. Qed.
Lemma renode_case : all_of (nrun (gstart gen0) renode) AllStakers 0 = Some [(5000, 5%N); (1500, 3%N); (1070, 2%N); (1000, 1%N)].
Proof. by vm_compute. Qed.

(** ** C58 *)
Definition ids (r : option fpage) : option (list N * option Z * Z) := (fun r => (map fst (fp_items r), fp_next r, fp_total r)) <$> r.
Lemma bundles_case :
  ids (fin_page (after h1) 0 None 0 0 false) = Some ([0; 1]%N, None, 2) /\
  ids (fin_page (after h1) 0 None 0 1 false) = Some ([0]%N, Some 1, 2) /\
  ids (fin_page (after h1) 0 None 0 1 true) = Some ([1]%N, Some 1, 2) /\
  ids (fin_page (after h1) 0 (Some 1) 0 1 true) = Some ([0]%N, None, 2) /\
  ids (fin_page (after h1) 0 None 1 1 true) = Some ([0]%N, None, 2) /\
  ids (fin_page (after h1) 0 None 2 1 true) = Some ([], None, 2) /\
  ids (fin_page (after h1) 0 None 3 1 true) = Some ([1]%N, Some 1, 2).
Proof. repeat (split; [by vm_compute|]). by vm_compute. Qed.
Lemma wrap_refutes : exists c0 ops p pl offset limit, start c0 /\ cops_ok c0 ops /\ get_pool (crun c0 ops) p = Some pl /\
  Z.of_N (pl_total pl) < offset < two64 /\
  exists x t next total, fin_page (crun c0 ops) p None offset limit true = Some (mkFP (x :: t) next total).
Proof.
  exists g0, h1, 0%N. eexists. exists 3, 1. split; [exact g0_start|]. split; [exact h1_ok|]. split; [by vm_compute|].
  split; [vm_compute; done|]. eexists _, _, _, _. by vm_compute.
Qed.
