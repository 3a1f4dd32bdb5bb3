(** * Queries about pools, stakers and the current vote: concrete cases and a counterexample (C66). *)
From Verif Require Import Base BaseFacts Delegation Stakers Funders Team RoundRobin Pool Bundles Chain ChainFrame ArchiveInv ChainLift ChainExamples PoolExamples Query Listings.
Local Notation after ops := (crun g0 ops).

(** Staker 3 has half of the power of the pool and never votes. The first bundle is dropped without a
    quorum, the second one is voted on by 1 and 2. *)
Definition quiet : list cop := setup ++
  [ CDelegate 5 3 1000; CBegin 100 1000; CSubmit (sub 1 11 51 10 0 20 60); CEnd; CBegin 110 1000; CVote 0 2 12 51 Valid; CEnd;
    CBegin 710 1000; CEnd; CBegin 800 1000; CSubmit (sub 1 11 52 10 0 20 60); CEnd; CBegin 810 1000; CVote 0 2 12 52 Valid; CEnd; CBegin 880 1000 ].
Lemma quiet_ok : cops_ok g0 quiet. Proof. apply cops_okb_ok. vm_cast_no_check (eq_refl true). Qed.
(** Two more pools: 5 has funded the second one and taken everything back, 3 has joined it and is leaving; the third one is disabled. *)
Definition wide : list cop := quiet ++
  [ CCreatePool AUTHORITY true ca0; CCreateFunder 5; CFund 5 1 (coin KYVE 500) (coin KYVE 50); CDefund 5 1 (coin KYVE 500);
    CJoin 3 1 23 200; CLeave 3 1; CUpdateCommission 3 (ONE / 5); CUndelegate 3 3 100; CCreatePool AUTHORITY true ca0; CDisablePool AUTHORITY 2 ].
Lemma wide_ok : cops_ok g0 wide. Proof. apply cops_okb_ok. vm_cast_no_check (eq_refl true). Qed.
Definition show_pool (r : presp) : N * list N * Z * Z * pstatus * Z * list (N * Z) :=
  (pr_id r, pr_stakers r, pr_self r, pr_total r, pr_status r, pr_balance r, map (fun x => (fst x, amt (fd_amounts (snd x)) KYVE)) (pr_fundings r)).
Definition show_member (m : mresp) : N * Z * Z * pstatus * Z * bool * N * Z :=
  (mr_pool m, amt (mr_funds m) KYVE, mr_delegation m, mr_status m, mr_points m, mr_leaving m, mr_addr m, mr_balance m).
Definition show_staker (r : sresp) : N * Z * Z * option (Z * Z) * Z * Z * Z * Z * list (N * Z * Z * pstatus * Z * bool * N * Z) :=
  (sr_addr r, sr_commission r, amt (sr_rewards r) KYVE, sr_pending r, sr_self r, sr_unbonding r, sr_total r, sr_count r, map show_member (sr_pools r)).
Lemma pools_case :
  show_pool <$> pool_info (after wide) 1 = Some (1%N, [3%N], 1000, 2000, StNoFunds, 0, [(5%N, 0)]) /\ pool_info (after wide) 9 = None /\
  (fun x => (map show_pool (fst (fst x)), snd (fst x), snd x)) <$> pools_page (after wide) (fun _ => true) 0 false 0 None 0 1 true
    = Some ([(0%N, [1%N; 2%N; 3%N], 3000, 4000, StActive, 231, [(4%N, 1000)])], Some 1%N, 2) /\
  (fun x => (map pr_id (fst (fst x)), snd (fst x), snd x)) <$> pools_page (after wide) (fun _ => true) 0 false 0 (Some 1%N) 0 1 true = Some ([1%N], Some 2%N, 0) /\
  (fun x => (map pr_id (fst (fst x)), snd (fst x), snd x)) <$> pools_page (after wide) (fun _ => true) 0 true 0 None 0 1 true = Some ([2%N], None, 1).
Proof. repeat split; vm_compute; reflexivity. Qed.
Lemma staker_case :
  show_staker <$> staker_info (after wide) 3 = Some (3%N, ONE / 10, 0, Some (ONE / 5, 880), 1000, 100, 2000, 2,
    [(0%N, 1000, 4000, StActive, 1, false, 13%N, 100); (1%N, 0, 2000, StNoFunds, 0, true, 23%N, 200)]) /\
  staker_info (after wide) 4 = None /\
  map (fun x => (sr_addr (fst x), vl_addr (snd x))) <$> stakers_by_pool (after wide) 0 = Some [(1%N, 11%N); (2%N, 12%N); (3%N, 13%N)].
Proof. repeat split; vm_compute; reflexivity. Qed.
Lemma vote_case : vote_status (after wide) 0 = Some (2000, 0, 0, 4000) /\ vote_status (after wide) 1 = Some (0, 0, 0, 0).
Proof. repeat split; vm_compute; reflexivity. Qed.
(** 2000 of 4000 is no quorum, but the next submission first removes the staker that does not vote. *)
Definition next_sub : cop := CSubmit (sub 2 12 53 10 20 5 70).
Lemma tally_case : vote_status (after quiet) 0 = Some (2000, 0, 0, 4000) /\ c_fin (after quiet) !! (0%N, 0%N) = None /\
  (fb_storage <$> c_fin (cstep (after quiet) next_sub) !! (0%N, 0%N)) = Some 52%N /\ bp_storage (get_prop (after quiet) 0) = 52%N.
Proof. repeat split; vm_compute; reflexivity. Qed.
Lemma refute_with g ops o (p st : N) v i a t : genesis g -> cops_ok (gstart g) ops -> (exists m, o = CSubmit m /\ sb_pool m = p) -> 2 * v <= t ->
  vote_status (crun (gstart g) ops) p = Some (v, i, a, t) /\ c_fin (crun (gstart g) ops) !! (p, 0%N) = None /\
  (fb_storage <$> c_fin (cstep (crun (gstart g) ops) o) !! (p, 0%N)) = Some st /\ bp_storage (get_prop (crun (gstart g) ops) p) = st ->
  exists f, genesis g /\ cops_ok (gstart g) ops /\ let c := crun (gstart g) ops in
  vote_status c p = Some (v, i, a, t) /\ 2 * v <= t /\ (exists m, o = CSubmit m /\ sb_pool m = p) /\
  c_fin c !! (p, 0%N) = None /\ c_fin (cstep c o) !! (p, 0%N) = Some f /\ fb_storage f = bp_storage (get_prop c p).
Proof.
  intros H1 H2 H3 H4 (H5 & H6 & H7 & H8). destruct (c_fin (cstep _ o) !! _) as [f|] eqn:E; [|discriminate H7]. exists f. cbv zeta. rewrite H8.
  injection H7 as H7. rewrite E. auto 10.
Qed.
Lemma next_sub_pool : exists m, next_sub = CSubmit m /\ sb_pool m = 0%N. Proof. exact (ex_intro _ _ (conj eq_refl eq_refl)). Qed.
Lemma half : 2 * 2000 <= 4000. Proof. lia. Qed.
Lemma tally_refutes : exists g ops p v i a t o f, genesis g /\ cops_ok (gstart g) ops /\ let c := crun (gstart g) ops in
  vote_status c p = Some (v, i, a, t) /\ 2 * v <= t /\ (exists m, o = CSubmit m /\ sb_pool m = p) /\
  c_fin c !! (p, 0%N) = None /\ c_fin (cstep c o) !! (p, 0%N) = Some f /\ fb_storage f = bp_storage (get_prop c p).
Proof.
  exact (ex_intro _ gen0 (ex_intro _ quiet (ex_intro _ 0%N (ex_intro _ 2000 (ex_intro _ 0 (ex_intro _ 0 (ex_intro _ 4000 (ex_intro _ next_sub
    (refute_with gen0 quiet next_sub 0 52 2000 0 0 4000 gen0_genesis quiet_ok next_sub_pool half tally_case))))))))).
Qed.
