(** * The whole protocol: concrete histories and counterexamples. *)
From Verif Require Import Base BaseFacts Delegation Stakers Funders Team RoundRobin Pool Bundles Chain ChainFrame ArchiveInv ArchiveClaims PayoutClaims.
From Verif Require FundersExamples FundersInv.

(** ** Boolean admissibility of inputs (without [CBank]) *)
Definition u64b (x : Z) : bool := (0 <=? x) && (x <? two64).
Lemma u64b_ok x : u64b x = true -> u64 x.
Proof. unfold u64b, u64. rewrite andb_true_iff. lia. Qed.
Definition ou64b (x : option Z) : bool := match x with None => true | Some v => u64b v end.
Lemma ou64b_ok x : ou64b x = true -> opt_u64 x.
Proof. destruct x; simpl; [apply u64b_ok|done]. Qed.
Definition belowb (x b : Z) : bool := (0 <=? x) && (x <? b).
(** Only finitely many stakers have delegations. *)
Definition powers_below (c : chain) : bool := forallb (fun x => power c (fst x) <? two63) (map_to_list (ds_f1 (c_d c))).
Lemma powers_below_ok c : powers_below c = true -> forall x, power c x < two63.
Proof.
  unfold powers_below. rewrite forallb_forall. intros H x. destruct (ds_f1 (c_d c) !! x) as [f|] eqn:E.
  - apply Z.ltb_lt. apply (H (x, f)). apply elem_of_list_In, elem_of_map_to_list. done.
  - unfold power, delegation_amount, getf. rewrite E. done.
Qed.
Definition cop_okb (c : chain) (o : cop) : bool :=
  match o with
  | CDelegate _ _ a | CUndelegate _ _ a | CRedelegate _ _ _ a => belowb a two63
  | CCreateStaker s com a => negb (s =? 0)%N && pct_ok com && belowb a two63
  | CUpdateCommission _ x => pct_ok x
  | CClaimCommission _ x => FundersExamples.cposb x
  | CJoin s _ v a => negb (s =? 0)%N && negb (v =? 0)%N && u64b a && powers_below c
  | CFund _ _ x y => FundersExamples.cposb x && FundersExamples.cposb y && negb (cempty x && cempty y)
  | CDefund _ _ x => FundersExamples.cposb x && negb (cempty x)
  | CTeam (TCreate _ total start) => u64b total && u64b start
  | CTeam (TClaim _ _ x _) | CTeam (TClawback _ _ x) | CTeam (TClaimRewards _ _ x _) | CTeam (TClaimAuthority _ x _) => u64b x
  | CSubmit m => u64b (sb_data m) && u64b (sb_from m) && u64b (sb_size m) && (sb_from m + sb_size m <? two64)
  | CCreatePool _ _ a => belowb (ca_interval a) two62 && u64b (ca_mindel a) && u64b (ca_maxsize a)
  | CUpdatePool _ _ a =>
      match ua_interval a with None => true | Some i => belowb i two62 end && ou64b (ua_mindel a) && ou64b (ua_maxsize a)
  | CSchedule _ _ _ _ t d => u64b t && u64b d
  | CParamsD _ p => dparams_valid p
  | CParamsS _ x y => u64b x && u64b y
  | CParamsF _ p => FundersExamples.fparams_okb p
  | CParamsP _ p => pparams_valid p
  | CParamsB _ p => bparams_valid p && (b_timeout p <? two62) && (b_maxpoints p <? two64)
  | CParamsG _ x => pct_ok x
  | CBegin t provision =>
      (c_time c <=? t) && (t <? two62) && (0 <=? provision) && (0 <? supply (c_bank c)) && (supply (c_bank c) + provision <? two63)
  | CBank _ => false
  | _ => true
  end.
Fixpoint cops_okb (c : chain) (ops : list cop) : bool :=
  match ops with [] => true | o :: t => cop_okb c o && cops_okb (cstep c o) t end.
Lemma cop_okb_ok c o : cop_okb c o = true -> cop_ok c o.
Proof.
  destruct o; try (destruct o); unfold cop_okb, cop_ok, belowb, pct_ok; rewrite ?andb_true_iff, ?negb_true_iff, ?N.eqb_neq, ?andb_false_iff;
    intros; repeat match goal with H : _ /\ _ |- _ => destruct H end; repeat split; try done; try lia;
    try (by apply FundersExamples.cposb_ok); try (by apply u64b_ok); try (by apply ou64b_ok); try (by apply powers_below_ok); try (by apply FundersExamples.fparams_okb_ok).
  all: try match goal with H : match ua_interval ?a with _ => _ end = true |- _ => destruct (ua_interval a); [|done]; rewrite ?andb_true_iff in H; lia end.
  all: try match goal with H : u64b ?x = true |- _ => apply u64b_ok in H; unfold u64 in H; lia end.
  - destruct H0 as [H0|H0]; apply FundersInv.cempty_false in H0; by auto.
  - by apply FundersInv.cempty_false.
Qed.
Lemma cops_okb_ok c ops : cops_okb c ops = true -> cops_ok c ops.
Proof.
  revert c. induction ops as [|o t IH]; intros c H; simpl in *; [done|].
  apply andb_true_iff in H as [H1 H2]. split; [by apply cop_okb_ok|by apply IH].
Qed.

(** ** A pool with three stakers *)
Definition b0 : bank :=
  <[User 1 := coin KYVE 1000000]> (<[User 2 := coin KYVE 1000000]> (<[User 3 := coin KYVE 1000000]>
  (<[User 4 := coin KYVE 1000000]> (<[User 5 := coin KYVE 835000000000000000]> (<[MTeam := coin KYVE TEAM_ALLOCATION]> ∅))))).
Definition dp0 : dparams := mkDP 100 100 5 (ONE / 10) (ONE / 5) (ONE / 50).
Definition fp0 : fparams := mkFP [mkW KYVE 0 10 1 ONE] 5.
Definition pp0 : pparams := mkPP (ONE / 25) (ONE / 10) ONE.
Definition bp0 : bparams := mkBPar 600 [(1%N, ONE / 2)] (ONE / 100) 2.
Definition g0 : chain := cinit b0 0 dp0 50 60 fp0 pp0 bp0 (ONE / 2).
Definition ca0 : create_args := mkCA 7 0 60 1000 100 100 1 1 1 1.
Definition setup : list cop :=
  [ CBegin 10 0; CCreatePool AUTHORITY true ca0;
    CCreateStaker 1 (ONE / 10) 1000; CCreateStaker 2 (ONE / 10) 1000; CCreateStaker 3 (ONE / 10) 1000;
    CJoin 1 0 11 100; CJoin 2 0 12 100; CJoin 3 0 13 100;
    CCreateFunder 4; CFund 4 0 (coin KYVE 1000) (coin KYVE 100); CEnd;
    CBegin 20 1000; CClaimRole 0 1 11; CEnd ].
Definition sub (s v st : N) (data from size : Z) (k : N) : submit := mkSub v s 0 st data (100 + st) from size k (k + 1) (200 + st).
Definition first : list cop := [ CBegin 100 1000; CSubmit (sub 1 11 51 10 0 20 60); CEnd ].
(** Staker 2 agrees with the first bundle, 3 does not; it is finalized when 1 submits the next
    one, on which 2 abstains and 3 (removed from the pool) cannot vote. *)
Definition second : list cop :=
  [ CBegin 110 1000; CVote 0 2 12 51 Valid; CVote 0 3 13 51 Invalid; CEnd;
    CBegin 200 1000; CSubmit (sub 1 11 52 10 20 30 70); CEnd;
    CBegin 210 1000; CVote 0 2 12 52 Abstain; CVote 0 3 13 52 Valid; CVote 0 2 12 52 Valid; CEnd ].
Definition third : list cop := [ CBegin 300 1000; CSubmit (sub 2 12 53 10 50 5 80); CSubmit (sub 1 11 53 10 50 5 80); CEnd ].
Definition h1 : list cop := setup ++ first ++ second ++ third.

Notation after ops := (crun g0 ops).
Lemma g0_start : start g0. Proof. unfold start, g0. by eexists _, _, _, _, _, _, _, _, _. Qed.
Lemma h1_ok : cops_ok g0 h1. Proof. apply cops_okb_ok. vm_cast_no_check (eq_refl true). Qed.
Definition fbs (ops : list cop) : list (Z * Z * N) :=
  map (fun id => match c_fin (after ops) !! (0%N, id) with Some f => (fb_from f, fb_to f, fb_uploader f) | None => (-1, -1, 0%N) end) [0; 1; 2]%N.
(** Two finalized bundles, [0,20) and [20,50), uploaded by 1. *)
Lemma h1_bundles : fbs h1 = [(0, 20, 1%N); (20, 50, 1%N); (-1, -1, 0%N)].
Proof. by vm_compute. Qed.
Definition found (ops : list cop) (i : Z) : option N := fb_storage <$> find_by_index (after ops) 0 i.
Lemma h1_found : map (found h1) [0; 19; 20; 49; 50; two64 - 1] = [Some 51; Some 51; Some 52; Some 52; None; None]%N.
Proof. by vm_compute. Qed.
(** The first bundle paid out 100 of the funder and a tenth of the pool's inflation balance;
    the money is in the treasury, with the stakers and with the delegators. *)
Definition held (ops : list cop) (a : acct) : Z := bal (c_bank (after ops)) a KYVE.
Lemma h1_money :
  map (held (setup ++ first)) [MFunders; PoolAcc 0; Treasury; MStakers; MDelegation; MPool] = [1000; 66; 0; 0; 3000; 0] /\
  map (held h1) [MFunders; PoolAcc 0; Treasury; MStakers; MDelegation; MPool] = [800; 167; 102; 31; 3098; 0].
Proof. by vm_compute. Qed.

(** ** A data size of 2^63 stops the chain *)
(** The data size is not checked. The reward of such a bundle cannot be computed: the next
    submission is rejected whatever it says, and when the uploader's time is up the end of
    the block panics. *)
Definition huge : list cop :=
  setup ++ [ CBegin 100 1000; CSubmit (sub 1 11 51 two63 0 20 60); CEnd; CBegin 110 1000; CVote 0 2 12 51 Valid; CEnd; CBegin 1000 1000 ].
Lemma huge_ok : cops_ok g0 huge. Proof. apply cops_okb_ok. vm_cast_no_check (eq_refl true). Qed.
Lemma huge_halts : c_halt (after huge) = false /\ c_halt (after (huge ++ [CEnd])) = true /\
  cmsg (after huge) (CSubmit (sub 1 11 52 10 20 30 70)) = None.
Proof. repeat split; by vm_compute. Qed.

(** ** A whitelist without the base denom stops the chain *)
Definition unlisted : list cop :=
  setup ++ [ CParamsF AUTHORITY (mkFP [] 5); CBegin 100 1000; CSubmit (sub 1 11 51 10 0 20 60); CEnd; CBegin 110 1000; CVote 0 2 12 51 Valid; CEnd; CBegin 1000 1000 ].
Lemma unlisted_ok : cops_ok g0 unlisted. Proof. apply cops_okb_ok. vm_cast_no_check (eq_refl true). Qed.
Lemma unlisted_halts : c_halt (after unlisted) = false /\ c_halt (after (unlisted ++ [CEnd])) = true.
Proof. repeat split; by vm_compute. Qed.
Lemma with_end c0 ops : cops_ok c0 ops -> cops_ok c0 (ops ++ [CEnd]).
Proof. intros H. apply cops_ok_app. split; [done|]. split; exact I. Qed.
Lemma huge_refutes : exists c0 ops m, start c0 /\ cops_ok c0 (ops ++ [CEnd]) /\
  c_halt (crun c0 ops) = false /\ c_halt (crun c0 (ops ++ [CEnd])) = true /\ cmsg (crun c0 ops) (CSubmit m) = None.
Proof. exact (ex_intro _ g0 (ex_intro _ huge (ex_intro _ (sub 1 11 52 10 20 30 70) (conj g0_start (conj (with_end _ _ huge_ok) huge_halts))))). Qed.
Lemma unlisted_refutes : exists c0 ops, start c0 /\ cops_ok c0 (ops ++ [CEnd]) /\
  c_halt (crun c0 ops) = false /\ c_halt (crun c0 (ops ++ [CEnd])) = true.
Proof. exact (ex_intro _ g0 (ex_intro _ unlisted (conj g0_start (conj (with_end _ _ unlisted_ok) unlisted_halts)))). Qed.
Lemma split_case : reward_inputs bp0 (fp_list fp0) (ONE / 10) 10 (coin KYVE 108) /\
  (fun r => map (fun c => amt c KYVE) [r_treasury r; r_storage r; r_commission r; r_delegation r])
    <$> calculate_payouts true (ONE / 10) 1000 bp0 (fp_list fp0) 1 10 (coin KYVE 108) = Some [1; 5; 10; 92].
Proof.
  split; [|by vm_compute]. split; [by vm_compute|]. split; [|split; [by vm_compute|split; [by vm_compute|by apply FundersExamples.cposb_ok; vm_compute]]].
  repeat constructor; by vm_compute.
Qed.
