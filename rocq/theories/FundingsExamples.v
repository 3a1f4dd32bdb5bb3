(** * Queries about funders and fundings: concrete cases and a counterexample (C65). *)
From Verif Require Import Base BaseFacts Delegation DelegationClaims Stakers Funders FundersInv Team RoundRobin Pool Bundles Chain ChainFrame ArchiveInv
  ChainLift ChainExamples PoolExamples Query QueryFacts Account AccountClaims AccountLists Fundings FundingsFrame FundingsClaims.
From Verif Require FundersExamples.
Local Notation after ops := (crun g0 ops).

Definition countableb (st : fstate) : bool :=
  forallb (fun kf : N * N * funding => forallb (fun xv : N * Z => match wl_find (wl st) (fst xv) with
    | Some e => w_weight e * snd xv <=? (two63 - 1) * ONE * 10 ^ w_decimals e | None => true end) (map_to_list (fd_amounts (snd kf)))) (map_to_list (fs_fundings st)).
Lemma countableb_ok st : countableb st = true -> countable st.
Proof.
  unfold countableb. rewrite forallb_forall. intros H a p x e E.
  assert (H0 : 0 <= (two63 - 1) * ONE * 10 ^ w_decimals e) by (apply Z.mul_nonneg_nonneg; [done|apply Z.pow_nonneg; lia]).
  unfold rem. destruct (fs_fundings st !! (a, p)) as [f|] eqn:Ef; [|lia].
  specialize (H (a, p, f)). cbn [snd] in H. rewrite forallb_forall in H. unfold amt. destruct (fd_amounts f !! x) as [v|] eqn:Ex; cbn [from_option]; [|rewrite Z.mul_0_r; exact H0].
  specialize (H ltac:(by apply elem_of_list_In, elem_of_map_to_list) (x, v) ltac:(by apply elem_of_list_In, elem_of_map_to_list)). cbn [fst snd] in H.
  rewrite E in H. by apply Z.leb_le in H.
Qed.

(** Two pools and two funders: 5 has funded both pools and taken everything back from the second one. *)
Definition funds : list cop := setup ++
  [ CBegin 30 0; CCreatePool AUTHORITY true ca0; CCreateFunder 5; CFund 5 0 (coin KYVE 500) (coin KYVE 50); CFund 5 1 (coin KYVE 100) (coin KYVE 20);
    CFund 4 1 (coin KYVE 300) (coin KYVE 60); CFund 6 1 (coin KYVE 300) (coin KYVE 60); CEnd;
    CBegin 100 1000; CDefund 5 1 (coin KYVE 100); CSubmit (sub 1 11 51 10 0 20 60); CEnd; CBegin 110 1000; CVote 0 2 12 51 Valid; CVote 0 3 13 51 Valid; CEnd;
    CBegin 200 1000; CSubmit (sub 1 11 52 10 20 30 70); CEnd ].
Lemma funds_ok : cops_ok g0 funds. Proof. apply cops_okb_ok. vm_cast_no_check (eq_refl true). Qed.
Lemma funds_countable : countable (c_f (after funds)). Proof. apply countableb_ok. vm_cast_no_check (eq_refl true). Qed.
Definition rec5 (r : fresp) : N * N * Z * Z * Z * Z :=
  (fr_funder r, fr_pool r, amt (fr_amounts r) KYVE, amt (fr_apb r) KYVE, amt (fr_total r) KYVE, fr_score r).
Definition sums (x : fstats) : Z * Z * Z * list N * Z :=
  (amt (sf_used x) KYVE, amt (sf_allocated x) KYVE, amt (sf_perbundle x) KYVE, sf_pools x, sf_score x).
Definition item (r : fitem) : N * Z * Z * Z * pstatus := (it_pool r, amt (it_amounts r) KYVE, amt (it_funds r) KYVE, it_delegation r, it_status r).
Lemma funds_case :
  (fun x => (map rec5 (fst (fst x)), snd (fst x), snd x)) <$> fundings_by_funder (c_f (after funds)) 5 AnyFunding None 0 1 true
    = Some ([(5%N, 0%N, 450, 50, 50, 450)], Some (5%N, 1%N), 2) /\
  (fun x => (map rec5 (fst (fst x)), snd (fst x), snd x)) <$> fundings_by_funder (c_f (after funds)) 5 AnyFunding (Some (5%N, 1%N)) 0 1 true
    = Some ([(5%N, 1%N, 0, 0, 0, 0)], None, 0) /\
  (fun x => (map rec5 (fst (fst x)), snd (fst x), snd x)) <$> fundings_by_pool (c_f (after funds)) 1 AnyFunding None 0 0 true
    = Some ([(4%N, 1%N, 300, 60, 0, 300); (5%N, 1%N, 0, 0, 0, 0)], None, 2) /\
  (fun x => (map rec5 (fst (fst x)), snd (fst x), snd x)) <$> fundings_by_pool (c_f (after funds)) 1 InactiveFunding None 0 0 true
    = Some ([(5%N, 1%N, 0, 0, 0, 0)], None, 1).
Proof. split; [vm_compute; reflexivity|]. split; [vm_compute; reflexivity|]. split; vm_compute; reflexivity. Qed.
Lemma funder_case :
  (fun x => (sums (snd (fst x)), map rec5 (snd x))) <$> funder_info (c_f (after funds)) 5 ActiveFunding
    = Some (50, 450, 50, [0%N; 1%N], 450, [(5%N, 0%N, 450, 50, 50, 450)]) /\
  (fun x => (map (fun y => (fst y, sums (snd y))) (fst (fst x)), snd (fst x), snd x)) <$> funders_page (c_f (after funds)) (fun _ => true) None 0 0 true
    = Some ([(4%N, (100, 1200, 160, [0%N; 1%N], 1200)); (5%N, (50, 450, 50, [0%N; 1%N], 450))], None, 2).
Proof. split; vm_compute; reflexivity. Qed.
Lemma account_case :
  map item <$> account_funded (after funds) 5 = Some [(0%N, 450, 1350, 3000, StActive)] /\
  map item <$> account_funded (after funds) 4 = Some [(0%N, 900, 1350, 3000, StActive); (1%N, 300, 300, 0, StMinDelegation)] /\
  map item <$> account_funded (after funds) 6 = Some [].
Proof. split; [vm_compute; reflexivity|]. split; vm_compute; reflexivity. Qed.

(** A coin is weighted with 20 per unit. The value of what 5 funds is above 2^63: the list of all funders and the list of
    the pool's fundings fail, with any page that contains 5. *)
Definition rich : list cop := setup ++ [ CBegin 30 0; CParamsF AUTHORITY (Funders.mkFP [mkW KYVE 0 10 1 (20 * ONE)] 5); CCreateFunder 5;
  CFund 5 0 (coin KYVE 800000000000000000) (coin KYVE 50); CEnd ].
Lemma rich_ok : cops_ok g0 rich. Proof. apply cops_okb_ok. vm_cast_no_check (eq_refl true). Qed.
Definition answers {A} (x : option A) : bool := match x with Some _ => true | None => false end.
Lemma answers_no {A} (x : option A) : answers x = false -> x = None. Proof. by destruct x. Qed.
Lemma answers_yes {A} (x : option A) : answers x = true -> is_Some x. Proof. destruct x; [eauto|done]. Qed.
Lemma rich_refutes : exists g ops a p, genesis g /\ cops_ok (gstart g) ops /\
  let st := c_f (crun (gstart g) ops) in
  is_Some (funder_info st a AnyFunding) /\ funders_page st (fun _ => true) None 0 0 false = None /\ fundings_by_pool st p AnyFunding None 0 0 false = None.
Proof.
  exists gen0, rich, 4%N, 0%N. split; [exact gen0_genesis|]. split; [exact rich_ok|]. cbv zeta. change (gstart gen0) with g0.
  split; [apply answers_yes; vm_compute; reflexivity|]. split; apply answers_no; vm_compute; reflexivity.
Qed.
