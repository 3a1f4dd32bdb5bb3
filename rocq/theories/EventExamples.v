(** * Following the events: concrete cases and counterexamples. *)
From Verif Require Import Base BaseFacts Delegation Stakers Funders Team RoundRobin Pool Bundles Chain ChainLift ChainExamples PoolExamples
  Events EventFollow EventStakers EventTally EventCommission EventStake EventBundles EventAdmin EventFunds EventMoney.

(** Two finalized bundles, a third one that is pending; staker 3 votes against the first bundle, is
    slashed and removed. Then 4 takes 100 back, the pool is changed, disabled and enabled again, the
    team gets an account and 1 claims rewards. *)
Definition story : list cop := h1 ++
  [ CBegin 310 1000; CDefund 4 0 (coin KYVE 100); CUpdatePool AUTHORITY 0 (mkUA None (Some 9%N) (Some 77) None None None None None); CUpdateCommission 2 (ONE / 4);
    CTeam (TCreate FOUNDATION 1000 5); CTeam (TClawback BCP 0 40); CDelegate 4 2 250; CRedelegate 4 2 1 50; CClaimCommission 1 (coin KYVE 3); CVote 0 2 12 53 Abstain; CEnd;
    CBegin 320 0; CUndelegate 4 1 20; CEnd; CBegin 430 0; CDisablePool AUTHORITY 0; CEnd; CBegin 440 0; CEnablePool AUTHORITY 0; CEnd ].
Lemma story_ok : cops_ok g0 story. Proof. apply cops_okb_ok. vm_cast_no_check (eq_refl true). Qed.
Definition slog : list event := elog g0 story.
Definition hlog : list event := elog g0 h1.
Definition s_stake := fold_left see_stake slog (fun _ => 0).
Definition s_seat := fold_left see_seat hlog (fun _ _ => None).
Definition s_com := fold_left see_commission slog (fun _ => None).
Definition s_rew := fold_left see_reward slog (fun _ _ => 0).
Definition s_bun := fold_left see_bundle hlog bview0.
Definition s_cfg := fold_left see_config slog (fun _ => None).
Definition s_team := fold_left see_team slog tview0.
Definition s_fund := fold_left see_fund slog (fun _ _ => 0).

(** What a follower who only has these events says, by view. *)
Lemma story_stakers : map s_stake [1; 2; 3; 4]%N = [1030; 1200; 900; 0] /\ map (s_seat 0%N) [1; 2; 3; 4]%N = [Some (11%N, 0); Some (12%N, 0); None; None] /\
  map s_com [1; 2; 3; 4]%N = [Some (ONE / 10); Some (ONE / 4); Some (ONE / 10); None] /\ map (fun s => s_rew s KYVE) [1; 2; 3]%N = [28; 0; 0].
Proof. split_and!; vm_compute; reflexivity. Qed.
Lemma story_bundles : bv_pending s_bun 0%N = Some (mkPd 53 2 10 50 5 80 81 253 153 1 1 [2%N] [] []) /\
  map (bv_archive s_bun 0%N) [0; 1; 2]%N = [Some (mkAr 51 1 0 20 60 61 251 151 200 1 1 2000 3000); Some (mkAr 52 1 20 50 70 71 252 152 300 1 1 2000 2000); None] /\
  bv_progress s_bun 0%N = Some (50, 2%N, 71%N, 252%N).
Proof. split_and!; vm_compute; reflexivity. Qed.
Lemma story_admin : s_cfg 0%N = Some (mkCf 7 9 77 1000 100 100 1 1 false) /\ s_cfg 1%N = None /\ tv_accounts s_team 0%nat = Some (mkAcc 1000 5 40 0 0) /\
  s_fund 0%N KYVE = 700 /\ existsb nothing_named slog = false.
Proof. split_and!; vm_compute; reflexivity. Qed.

(** ** A displaced funder gets back what no event tells *)
(** 50 funders, the first has the least; another one displaces them. *)
Definition crowd_b : bank := fold_right (fun i b => <[User (N.of_nat i) := coin KYVE 1000000]> b) b0 (seq 20 51).
Definition genc : gen := mkGen crowd_b 0 dp0 50 60 fp0 pp0 bp0 (ONE / 2).
Definition crowded : list cop := [CBegin 10 0; CCreatePool AUTHORITY true ca0] ++
  flat_map (fun i => [CCreateFunder (N.of_nat i); CFund (N.of_nat i) 0 (coin KYVE (Z.of_nat i * 100)) (coin KYVE 1)]) (seq 20 50) ++
  [CCreateFunder 70; CFund 70 0 (coin KYVE 9000) (coin KYVE 1); CEnd].
Lemma genc_genesis : genesis genc.
Proof.
  split; [apply bank_nnb_ok; vm_cast_no_check (eq_refl true)|]. split; [vm_cast_no_check (eq_refl Lt)|]. split; [cbn; unfold two62; lia|]. split; [by vm_compute|].
  split; [apply u64b_ok; by vm_compute|]. split; [apply u64b_ok; by vm_compute|].
  split; [by apply FundersExamples.fparams_okb_ok; vm_compute|]. repeat split; by vm_compute.
Qed.
Lemma crowded_ok : cops_ok (gstart genc) crowded. Proof. apply cops_okb_ok. vm_cast_no_check (eq_refl true). Qed.
Lemma crowded_told : fold_left see_fund (elog (gstart genc) crowded) (fun _ _ => 0) 0%N KYVE = 231500. Proof. vm_compute. reflexivity. Qed.
Lemma crowded_left : pool_funds (crun (gstart genc) crowded) 0 KYVE = 229500. Proof. vm_compute. reflexivity. Qed.
Lemma displaced_refutes : exists g ops p d, genesis g /\ cops_ok (gstart g) ops /\
  fold_left see_fund (elog (gstart g) ops) (fun _ _ => 0) p d <> pool_funds (crun (gstart g) ops) p d.
Proof.
  refine (ex_intro _ genc (ex_intro _ crowded (ex_intro _ 0%N (ex_intro _ KYVE (conj genc_genesis (conj crowded_ok _)))))).
  rewrite crowded_told, crowded_left. done.
Qed.

(** ** Same messages, same number of blocks, same events *)
Definition nextu (c : chain) (p : N) : N := bp_next (get_prop c p).
Definition version (c : chain) (p : N) : option N := pl_version <$> get_pool c p.
Definition messages (ops : list cop) : list cop := List.filter (fun o => match o with CBegin _ _ => false | _ => true end) ops.
(** Nobody has the role; when nobody claims it for longer than the timeout, it is assigned. *)
Definition quick : list cop := take 11 setup ++ [CBegin 500 0; CEnd].
Definition slow : list cop := take 11 setup ++ [CBegin 1000 0; CEnd].
Lemma quick_ok : cops_ok g0 quick. Proof. apply cops_okb_ok. vm_cast_no_check (eq_refl true). Qed.
Lemma slow_ok : cops_ok g0 slow. Proof. apply cops_okb_ok. vm_cast_no_check (eq_refl true). Qed.
Lemma role_refutes : exists g ops ops' p, genesis g /\ cops_ok (gstart g) ops /\ cops_ok (gstart g) ops' /\ messages ops = messages ops' /\
  elog (gstart g) ops = elog (gstart g) ops' /\ nextu (crun (gstart g) ops) p = 0%N /\ nextu (crun (gstart g) ops') p = 1%N.
Proof.
  refine (ex_intro _ gen0 (ex_intro _ quick (ex_intro _ slow (ex_intro _ 0%N (conj gen0_genesis (conj quick_ok (conj slow_ok (conj _ (conj _ (conj _ _)))))))))); vm_compute; reflexivity.
Qed.
(** A runtime upgrade that has been scheduled for 150 is applied. *)
Definition planned : list cop := setup ++ [CBegin 100 0; CSchedule AUTHORITY 7 2 3 150 10; CEnd].
Definition early : list cop := planned ++ [CBegin 120 0; CEnd].
Definition late : list cop := planned ++ [CBegin 200 0; CEnd].
Lemma early_ok : cops_ok g0 early. Proof. apply cops_okb_ok. vm_cast_no_check (eq_refl true). Qed.
Lemma late_ok : cops_ok g0 late. Proof. apply cops_okb_ok. vm_cast_no_check (eq_refl true). Qed.
Lemma upgrade_refutes : exists g ops ops' p, genesis g /\ cops_ok (gstart g) ops /\ cops_ok (gstart g) ops' /\ messages ops = messages ops' /\
  elog (gstart g) ops = elog (gstart g) ops' /\ version (crun (gstart g) ops) p = Some 1%N /\ version (crun (gstart g) ops') p = Some 2%N.
Proof.
  refine (ex_intro _ gen0 (ex_intro _ early (ex_intro _ late (ex_intro _ 0%N (conj gen0_genesis (conj early_ok (conj late_ok (conj _ (conj _ (conj _ _)))))))))); vm_compute; reflexivity.
Qed.

(** ** Events that tell something else than what happened *)
(** An upgrade for a time that is over: the plan gets the time of the block. *)
Definition past : list cop := setup ++ [CBegin 100 0].
Definition past_msg : cop := CSchedule AUTHORITY 7 2 3 50 10.
Lemma past_ok : cops_ok g0 past. Proof. apply cops_okb_ok. vm_cast_no_check (eq_refl true). Qed.
Lemma past_refutes : exists g ops o r v b t d p, genesis g /\ cops_ok (gstart g) ops /\ let c := crun (gstart g) ops in
  events c o = [EvScheduled r v b t d [p]] /\ (pn_at ∘ pl_plan) <$> get_pool (cstep c o) p = Some 100 /\ t = 50.
Proof.
  refine (ex_intro _ gen0 (ex_intro _ past (ex_intro _ past_msg (ex_intro _ 7%N (ex_intro _ 2%N (ex_intro _ 3%N (ex_intro _ 50 (ex_intro _ 10 (ex_intro _ 0%N
    (conj gen0_genesis (conj past_ok _))))))))))). cbv zeta. split; [vm_compute; reflexivity|]. split; vm_compute; reflexivity.
Qed.
(** Staker 3 votes against a bundle and leaves the pool; when the bundle is found valid they are removed once more. *)
Definition gone : list cop := setup ++ first ++ [CBegin 110 0; CVote 0 2 12 51 Valid; CVote 0 3 13 51 Invalid; CLeave 3 0; CEnd; CBegin 180 0].
Definition gone_msg : cop := CSubmit (sub 1 11 52 10 20 30 70).
Lemma gone_ok : cops_ok g0 gone. Proof. apply cops_okb_ok. vm_cast_no_check (eq_refl true). Qed.
Lemma nth_in {A} (l : list A) i x : l !! i = Some x -> x ∈ l. Proof. apply elem_of_list_lookup_2. Qed.
Lemma gone_refutes : exists g ops o p s, genesis g /\ cops_ok (gstart g) ops /\ let c := crun (gstart g) ops in EvLeave p s ∈ events c o /\ seat_of c p s = None.
Proof.
  refine (ex_intro _ gen0 (ex_intro _ gone (ex_intro _ gone_msg (ex_intro _ 0%N (ex_intro _ 3%N (conj gen0_genesis (conj gone_ok _))))))). cbv zeta.
  split; [apply (nth_in _ 1); vm_compute; reflexivity|vm_compute; reflexivity].
Qed.

(** ** The balances of users *)
Lemma story_balances : ds_halt (c_d (crun g0 story)) = false /\
  map (fun u => tells (User u) KYVE slog) [1; 2; 3; 4; 11]%N = [-1097; -1100; -1100; -1130; 100] /\ map (fun u => bal (c_bank (crun g0 story)) (User u) KYVE - bal (c_bank g0) (User u) KYVE) [1; 2; 3; 4; 11]%N = [-1097; -1100; -1100; -1130; 100].
Proof. split_and!; vm_compute; reflexivity. Qed.
Lemma displaced_balance : exists g ops u d, genesis g /\ cops_ok (gstart g) ops /\ ds_halt (c_d (crun (gstart g) ops)) = false /\
  bal (c_bank (gstart g)) (User u) d + outside (User u) d (gstart g) ops + tells (User u) d (elog (gstart g) ops) <> bal (c_bank (crun (gstart g) ops)) (User u) d.
Proof.
  refine (ex_intro _ genc (ex_intro _ crowded (ex_intro _ 20%N (ex_intro _ KYVE (conj genc_genesis (conj crowded_ok _)))))).
  split; [vm_compute; reflexivity|]. apply Z.eqb_neq. vm_cast_no_check (eq_refl false).
Qed.

(** ** The books of the modules *)
Definition books : list acct := [User 1; User 4; MDelegation; MStakers; MFunders; MPool].
Lemma story_books : map (fun a => tells a KYVE slog) books = [-1097; -1130; 3328; 28; 700; 0] /\
  map (fun a => bal (c_bank (crun g0 story)) a KYVE - bal (c_bank g0) a KYVE) books = [-1097; -1130; 3328; 28; 700; 0].
Proof. split; vm_compute; reflexivity. Qed.
(** The submission that finalizes the first bundle: the funders pay 100, the inflation 13; 1 goes
    to the treasury, 15 to the uploader, 97 to their delegators. Staker 3, who has voted against
    it, loses 100 to the treasury. *)
Definition paying : list cop := firstn 22 h1.
Definition pay_msg : cop := nth 22 h1 CEnd.
Definition tills : list acct := [MFunders; PoolAcc 0; MPool; MStakers; MDelegation; Treasury].
Lemma paying_case : cops_ok (gstart gen0) paying /\ let c := crun (gstart gen0) paying in map (untold pay_msg) tills = repeat false 6 /\
  ds_halt (c_d (cstep c pay_msg)) = false /\ existsb nothing_named (events c pay_msg) = false /\
  map (fun a => tells a KYVE (events c pay_msg)) tills = [-100; -13; 0; 15; -3; 101] /\
  map (fun a => bal (c_bank (cstep c pay_msg)) a KYVE - bal (c_bank c) a KYVE) tills = [-100; -13; 0; 15; -3; 101].
Proof.
  split; [apply cops_okb_ok; vm_cast_no_check (eq_refl true)|]. split_and!; vm_compute; reflexivity.
Qed.
(** A pool is disabled: its 200 of inflation go to the treasury, the events say who has left. *)
Definition off_story : list cop := firstn (length story - 5) story.
Lemma off_story_ok : cops_ok (gstart gen0) off_story. Proof. apply cops_okb_ok. vm_cast_no_check (eq_refl true). Qed.
Lemma off_refutes : exists g ops o a d, genesis g /\ cops_ok (gstart g) ops /\ let c := crun (gstart g) ops in
  events c o = [EvLeave 0 1; EvLeave 0 2; EvDisabled 0] /\ bal (c_bank (cstep c o)) a d = bal (c_bank c) a d + 200 /\ tells a d (events c o) = 0.
Proof.
  refine (ex_intro _ gen0 (ex_intro _ off_story (ex_intro _ (CDisablePool AUTHORITY 0) (ex_intro _ Treasury (ex_intro _ KYVE (conj gen0_genesis (conj off_story_ok _))))))). cbv zeta.
  split_and!; vm_compute; reflexivity.
Qed.
