(** * The split of the block inflation: concrete cases and counterexamples. *)
From Verif Require Import Base BaseFacts Delegation Stakers Funders Team TeamInv TeamRun RoundRobin Pool Bundles Chain ChainFrame ArchiveInv
  BankMoves ChainLift PoolInv PayoutClaims PoolClaims SplitClaims ChainExamples PoolExamples.

(** Pools with the given weights; staker 1 joins the first [n], the others lack the delegation. *)
Definition ca_w (w : Z) : create_args := mkCA 7 0 60 w 100 100 1 1 1 1.
Definition pools (ws : list Z) (n : nat) : list cop :=
  [CBegin 10 0; CCreateStaker 1 (ONE / 10) 1000] ++ map (fun w => CCreatePool AUTHORITY true (ca_w w)) ws ++
  map (fun p => CJoin 1 (N.of_nat p) (20 + N.of_nat p) 100) (seq 0 n) ++ [CEnd].
Definition full_share : list cop := [CParamsP AUTHORITY (mkPP ONE (ONE / 10) ONE)].
Definition gains (ops : list cop) (t prov : Z) (k : nat) : list (bool * Z) :=
  let c := after ops in map (fun p => (can_run (at_time c t) (N.of_nat p), gain c (cstep c (CBegin t prov)) (N.of_nat p))) (seq 0 k).
(** Weights 100, 200, 300 run and share the protocol's 110 (4% of 3300 - 544) as 18, 36 and 55;
    the remainder of 1 goes to both of the pools that cannot run. *)
Definition e1 : list cop := pools [100; 200; 300; 50; 50] 3.
Lemma e1_ok : cops_ok (gstart gen0) (e1 ++ [CBegin 20 3300]). Proof. apply cops_okb_ok. vm_cast_no_check (eq_refl true). Qed.
Lemma e1_case : let c := after e1 in let c' := cstep c (CBegin 20 3300) in
  gains e1 20 3300 5 = [(true, 18); (true, 36); (true, 55); (false, 1); (false, 1)] /\ team_gain c c' = 544 /\
  (required_balance (c_t c) <=? supply (c_bank c)) = true /\ (required_balance (c_t c') <=? supply (c_bank c)) = true /\
  block_provision (c_t c') 3300 (supply (c_bank c) + 3300) = Some (false, 544) /\
  (3300 - 544) * pp_share (c_pp c) / ONE = 110 /\ to_all c c' = 111 /\ goes_on c' /\ c_halt c = false /\
  weights (at_time c 20) = 600 /\ n_eligible (at_time c 20) = 3 /\ n_other (at_time c 20) = 2 /\ collected c = 0 /\ collected c' = 2645.
Proof. repeat split; by vm_compute. Qed.
Lemma of_fmap (c c0 : chain) p b : (fun pl => eligible_pool c0 p pl) <$> get_pool c p = Some b -> exists pl, get_pool c p = Some pl /\ eligible_pool c0 p pl = b.
Proof. destruct (get_pool c p) as [pl|]; [|done]. cbn. intros [= <-]. by exists pl. Qed.
Lemma to_last g ops o : cops_ok (gstart g) (ops ++ [o]) -> cops_ok (gstart g) ops /\ cop_ok (crun (gstart g) ops) o.
Proof. rewrite cops_ok_app. intros [H [H1 _]]. done. Qed.

Definition protocol_share (c c' : chain) (prov : Z) : Z := (prov - team_gain c c') * pp_share (c_pp c) / ONE.
Lemma remainder_refutes : exists g ops t prov p, genesis g /\ cops_ok (gstart g) (ops ++ [CBegin t prov]) /\
  let c := crun (gstart g) ops in let c0 := at_time c t in let c' := cstep c (CBegin t prov) in
  goes_on c' /\ 0 < n_eligible c0 /\ (exists pl, get_pool c p = Some pl /\ eligible_pool c0 p pl = false) /\
  0 < gain c c' p /\ protocol_share c c' prov < to_all c c'.
Proof.
  exists gen0, e1, 20, 3300, 3%N. split; [exact gen0_genesis|]. split; [exact e1_ok|]. cbv zeta.
  split; [split; by vm_compute|]. split; [by vm_compute|]. split; [apply of_fmap; by vm_compute|]. split; by vm_compute.
Qed.
(** Without a pool that cannot run the remainder is not handed out. *)
Definition e2 : list cop := pools [100; 100; 100] 3.
Lemma e2_ok : cops_ok (gstart gen0) (e2 ++ [CBegin 20 300]). Proof. apply cops_okb_ok. vm_cast_no_check (eq_refl true). Qed.
Lemma e2_case : gains e2 20 300 3 = [(true, 3); (true, 3); (true, 3)] /\ protocol_share (after e2) (cstep (after e2) (CBegin 20 300)) 300 = 10.
Proof. repeat split; by vm_compute. Qed.
Lemma complete_refutes : exists g ops t prov, genesis g /\ cops_ok (gstart g) (ops ++ [CBegin t prov]) /\
  let c := crun (gstart g) ops in let c0 := at_time c t in let c' := cstep c (CBegin t prov) in
  goes_on c' /\ 0 < n_eligible c0 /\ n_other c0 = 0 /\ to_all c c' < protocol_share c c' prov.
Proof.
  exists gen0, e2, 20, 300. split; [exact gen0_genesis|]. split; [exact e2_ok|]. cbv zeta.
  split; [split; by vm_compute|]. repeat split; by vm_compute.
Qed.
(** With the whole provision for the pools, the remainder handed out twice exceeds what the
    fee collector has: the chain stops. *)
Definition e3 : list cop := pools [100; 100; 100; 50; 50] 3 ++ full_share.
Lemma e3_ok : cops_ok (gstart gen0) (e3 ++ [CBegin 20 13]). Proof. apply cops_okb_ok. vm_cast_no_check (eq_refl true). Qed.
Lemma halt_refutes : exists g ops t prov, genesis g /\ cops_ok (gstart g) (ops ++ [CBegin t prov]) /\
  let c := crun (gstart g) ops in let c' := cstep c (CBegin t prov) in
  c_halt c = false /\ ts_halt (c_t c') = false /\ required_balance (c_t c') <= supply (c_bank c) /\ c_halt c' = true.
Proof.
  exists gen0, e3, 20, 13. split; [exact gen0_genesis|]. split; [exact e3_ok|]. cbv zeta.
  split; [by vm_compute|]. split; [by vm_compute|]. split; [by vm_compute|by vm_compute].
Qed.
(** A sixth, rounded to 18 digits, is too large: for a large provision the pools get more than
    the protocol's part, and with a pool that cannot run the chain stops. *)
Definition e4 : list cop := pools [100; 100; 100; 100; 100; 100] 6 ++ full_share.
Definition e4' : list cop := pools [100; 100; 100; 100; 100; 100; 100] 6 ++ full_share.
Definition big_prov : Z := 3000000000000000013.
Lemma e4_ok : cops_ok (gstart gen0) (e4 ++ [CBegin 20 big_prov]). Proof. apply cops_okb_ok. vm_cast_no_check (eq_refl true). Qed.
Lemma e4'_ok : cops_ok (gstart gen0) (e4' ++ [CBegin 20 big_prov]). Proof. apply cops_okb_ok. vm_cast_no_check (eq_refl true). Qed.
Definition team_of (c c' : chain) (prov : Z) : Z := match block_provision (c_t c') prov (supply (c_bank c) + prov) with Some (_, x) => x | None => 0 end.
Lemma team_of_ok c c' prov : match block_provision (c_t c') prov (supply (c_bank c) + prov) with Some (h, _) => negb h | None => false end = true ->
  block_provision (c_t c') prov (supply (c_bank c) + prov) = Some (false, team_of c c' prov).
Proof. unfold team_of. by destruct (block_provision _ _ _) as [[[|] x]|]. Qed.
Lemma overspend_refutes : exists g ops t prov team, genesis g /\ cops_ok (gstart g) (ops ++ [CBegin t prov]) /\
  let c := crun (gstart g) ops in let c0 := at_time c t in let c' := cstep c (CBegin t prov) in
  goes_on c' /\ block_provision (c_t c') prov (supply (c_bank c) + prov) = Some (false, team) /\
  n_other c0 = 0 /\ (prov - team) * pp_share (c_pp c) / ONE < to_eligible c0 c c'.
Proof.
  exists gen0, e4, 20, big_prov, (team_of (after e4) (cstep (after e4) (CBegin 20 big_prov)) big_prov).
  split; [exact gen0_genesis|]. split; [exact e4_ok|]. cbv zeta.
  split; [split; by vm_compute|]. split; [apply team_of_ok; by vm_compute|]. split; by vm_compute.
Qed.
Lemma e4'_case : c_halt (after e4') = false /\ c_halt (cstep (after e4') (CBegin 20 big_prov)) = true /\ ts_halt (c_t (cstep (after e4') (CBegin 20 big_prov))) = false.
Proof. repeat split; by vm_compute. Qed.
(** The team's part is computed a second time after it was paid, from the now larger claims:
    the pools get less than their share of what the team left. *)
Definition e5 : list cop := pools [100] 1.
Lemma e5_ok : cops_ok (gstart gen0) (e5 ++ [CBegin 20 1000000000000000]). Proof. apply cops_okb_ok. vm_cast_no_check (eq_refl true). Qed.
Lemma team_refutes : exists g ops t prov, genesis g /\ cops_ok (gstart g) (ops ++ [CBegin t prov]) /\
  let c := crun (gstart g) ops in let c0 := at_time c t in let c' := cstep c (CBegin t prov) in
  goes_on c' /\ n_eligible c0 = 1 /\ n_other c0 = 0 /\ to_all c c' + 1000000000 < protocol_share c c' prov.
Proof.
  exists gen0, e5, 20, 1000000000000000. split; [exact gen0_genesis|]. split; [exact e5_ok|]. cbv zeta.
  split; [split; by vm_compute|]. split; [by vm_compute|]. split; by vm_compute.
Qed.
