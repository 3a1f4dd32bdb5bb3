(** * C77: concrete cases. *)
From Verif Require Import Base BaseFacts Delegation F1Spec DelegationBank DelegationQueue DelegationProps DelegationRewards
  DelegationClaims DelegationClaims2 DelegationClaims3 Stakers StakersInv StakersClaims Funders FundersInv FundersRun FundersClaims
  Team TeamRun TeamClaims RoundRobin Pool Bundles Chain ChainLift ChainWide ChainExamples PoolExamples EventExamples MeaningExamples.

(** ** Funders *)
(** Funder 4 has 700 left after [story] and takes them. *)
Definition leaving : cop := CDefund 4 0 (coin KYVE 1000).
Lemma funds_case : fs_halt (c_f (crun g0 story)) = false /\ bal (c_bank (crun g0 story)) MFunders KYVE = 700 /\
  actives (c_f (crun g0 story)) 0 = [4%N] /\ rem (c_f (crun g0 story)) 4 0 KYVE = 700 /\
  bal (c_bank (cstep (crun g0 story) leaving)) (User 4) KYVE = bal (c_bank (crun g0 story)) (User 4) KYVE + 700.
Proof. split_and!; vm_compute; reflexivity. Qed.
(** 50 funders; funder 70 displaces funder 20 and not 21. *)
Definition full : list cop := firstn (length crowded - 2) crowded.
Definition newcomer : cop := CFund 70 0 (coin KYVE 9000) (coin KYVE 1).
Lemma displaced_case : cops_ok (gstart genc) full /\ let c := crun (gstart genc) full in let c' := cstep c newcomer in
  length (actives (c_f c) 0) = 50%nat /\ map (fun u => rem (c_f c) u 0 KYVE) [20; 21]%N = [2000; 2100] /\ map (fun u => rem (c_f c') u 0 KYVE) [20; 21]%N = [0; 2100] /\
  map (fun u => bal (c_bank c') (User u) KYVE - bal (c_bank c) (User u) KYVE) [20; 21]%N = [2000; 0].
Proof. split; [apply cops_okb_ok; vm_cast_no_check (eq_refl true)|]. split_and!; vm_compute; reflexivity. Qed.

(** ** Stakers *)
Definition yes (x : option chain) : bool := match x with Some _ => true | None => false end.
Lemma commission_case : let c := crun g0 story in map (fun s => StakersClaims.owed (c_s c) s KYVE) [1; 2; 3]%N = [28; 0; 0] /\
  yes (cmsg c (CClaimCommission 1 (coin KYVE 28))) = true /\ yes (cmsg c (CClaimCommission 1 (coin KYVE 29))) = false.
Proof. split_and!; vm_compute; reflexivity. Qed.
Lemma join_case : let c := crun g0 h1 in StakersClaims.members (c_s c) 0 = 2 /\ yes (cmsg c (CJoin 3 0 33 0)) = true /\ yes (cmsg c (CJoin 3 1 33 0)) = false /\
  yes (cmsg c (CJoin 3 0 12 0)) = false.
Proof. split_and!; vm_compute; reflexivity. Qed.

(** ** Delegators *)
Lemma rewards_case : let c := crun g0 h1 in amt (payable (c_d c) 1 1) KYVE = 198 /\ yes (cmsg c (CWithdraw 1 1)) = true /\
  bal (c_bank (cstep c (CWithdraw 1 1))) (User 1) KYVE = bal (c_bank c) (User 1) KYVE + 198 /\
  amt (payable (c_d (cstep c (CDelegate 4 1 250))) 1 1) KYVE = 198.
Proof. split_and!; vm_compute; reflexivity. Qed.
Lemma unbonding_case : cops_ok g0 (waiting ++ [CBegin 135 0]) /\ map u_delegator (pending (c_d (crun g0 waiting))) = [1; 2]%N /\
  map u_delegator (pending (c_d (cstep (crun g0 waiting) (CBegin 135 0)))) = [2]%N.
Proof. split; [apply cops_okb_ok; vm_cast_no_check (eq_refl true)|]. split; vm_compute; reflexivity. Qed.

(** ** Team *)
Definition quietb (c : chain) (ops : list cop) : bool :=
  (fix go (c : chain) (ops : list cop) : bool :=
    (zsum vesting_max (ts_accounts (c_t c)) <=? TEAM_ALLOCATION) && match ops with [] => true | o :: l =>
      (Z.of_nat (length (ts_accounts (c_t c))) * mint_cop o <? 2 * ONE) && go (cstep c o) l end) c ops.
Lemma quietb_ok c ops : quietb c ops = true -> quiet c ops.
Proof.
  revert c. induction ops as [|o ops IH]; intros c H; cbn in *; apply andb_true_iff in H as [H1 H2]; (split; [unfold in_cap; lia|]); [done|].
  apply andb_true_iff in H2 as [H2 H3]. split; [lia|by apply IH].
Qed.
(** 165 million, two accounts; a year after the lock-up part of the first is claimed. *)
Definition team_b : bank := <[MTeam := coin KYVE TEAM_ALLOCATION]> (<[User 9 := coin KYVE TEAM_ALLOCATION]> b0).
Definition gent : gen := mkGen team_b 0 dp0 50 60 fp0 pp0 bp0 (ONE / 2).
Definition DAY : Z := 86400.
Definition employed : list cop :=
  [ CBegin TGE 1000000; CTeam (TCreate FOUNDATION 1000000000000 TGE); CTeam (TCreate BCP 3000000000000 (TGE + 30 * DAY)); CEnd;
    CBegin (TGE + 730 * DAY) 5000000; CTeam (TClaim BCP 0 100000000000 7); CEnd; CBegin (TGE + 731 * DAY) 5000000 ].
Lemma gent_genesis : genesis gent.
Proof.
  split; [apply bank_nnb_ok; vm_cast_no_check (eq_refl true)|]. split; [vm_cast_no_check (eq_refl Lt)|]. split; [cbn; unfold two62; lia|]. split; [by vm_compute|].
  split; [apply u64b_ok; by vm_compute|]. split; [apply u64b_ok; by vm_compute|].
  split; [by apply FundersExamples.fparams_okb_ok; vm_compute|]. repeat split; by vm_compute.
Qed.
Lemma team_case : cops_ok (gstart gent) employed /\ Forall small_team employed /\ TEAM_ALLOCATION <= bal (g0_bank gent) MTeam KYVE /\
  quiet (gstart gent) employed /\ minted_all employed < two63 /\ let c := crun (gstart gent) employed in
  map (fun a => (va_claimed a, unlocked a (ts_time (c_t c)), va_rewards a)) (ts_accounts (c_t c)) = [(100000000000, 334704447363, 4); (0, 883978232313, 16)] /\
  ts_arewards (c_t c) = 1557918 /\ bal (c_bank c) MTeam KYVE = TEAM_ALLOCATION - 100000000000 + 4 + 16 + 1557918 /\
  map (fun x => yes (cmsg c (CTeam (TClaim FOUNDATION 0 x 7)))) [234704447363; 234704447364] = [true; false] /\
  map (fun x => yes (cmsg c (CTeam (TClaimRewards BCP 1 x 7)))) [16; 17] = [true; false] /\ yes (cmsg c (CTeam (TClaimAuthority FOUNDATION 1557918 7))) = true.
Proof.
  split; [apply cops_okb_ok; vm_cast_no_check (eq_refl true)|]. split; [repeat constructor|]. split; [vm_compute; discriminate|].
  split; [apply quietb_ok; vm_cast_no_check (eq_refl true)|]. split; [by vm_compute|]. split_and!; vm_compute; reflexivity.
Qed.
