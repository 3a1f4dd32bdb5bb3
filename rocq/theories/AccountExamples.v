(** * Account queries and questions of protocol nodes: concrete cases and counterexamples (C60 to C63). *)
From Verif Require Import Base BaseFacts Delegation DelegationQueue DelegationClaims DelegationClaims2 DelegationClaims3 Stakers Funders FundersClaims Team RoundRobin Pool Bundles Chain ChainFrame ArchiveInv
  ChainLift ChainExamples PoolExamples PoolClaims TallyClaims Query QueryFacts Account AccountClaims AccountSlots AccountLists AskClaims.

Local Notation after ops := (crun g0 ops).
(** ** C60 *)
(** Account 4 funds a pool, delegates to two stakers, earns rewards and has asked for 30 back. *)
Definition busy : list cop := setup ++ [ CBegin 30 0; CDelegate 4 1 100; CDelegate 4 2 50; CDelegate 2 2 7; CUndelegate 4 1 30 ] ++
  [ CBegin 100 1000; CSubmit (sub 1 11 51 10 0 20 60); CEnd; CBegin 110 1000; CVote 0 2 12 51 Valid; CVote 0 3 13 51 Valid; CEnd;
    CBegin 120 1000; CUndelegate 4 2 5; CEnd ].
Definition busy_more : list cop := [ CBegin 200 1000; CSubmit (sub 1 11 52 10 20 30 70); CEnd; CUndelegate 2 2 3 ].
Lemma busy_ok : cops_ok g0 (busy ++ busy_more). Proof. apply cops_okb_ok. vm_cast_no_check (eq_refl true). Qed.
Definition shown (c : chain) (a : N) : option (Z * Z * Z * Z * Z * Z * Z) :=
  (fun r => (as_balance r, as_self r, as_self_unbonding r, as_delegation r, as_unbonding r, amt (as_rewards r) KYVE, amt (as_funding r) KYVE)) <$> account_assets c a.
Definition user_bal (c : chain) (a : N) : Z := bal (c_bank c) (User a) KYVE.
Lemma busy_case :
  shown (after (busy ++ busy_more)) 4 = Some (998880, 0, 0, 120, 5, 6, 900) /\
  shown (after (busy ++ busy_more)) 2 = Some (998893, 1007, 3, 1007, 3, 0, 0) /\
  (fun c => user_bal c 4) <$> perform (after (busy ++ busy_more)) [CWithdraw 4 1; CWithdraw 4 2] = Some 998886 /\
  (fun c => user_bal c 4) <$> perform (after (busy ++ busy_more)) [CDefund 4 0 (coin KYVE 900)] = Some 999780.
Proof. split; [vm_compute; reflexivity|]. split; [vm_compute; reflexivity|]. split; vm_compute; reflexivity. Qed.
(** Two requests for the same 100: both are accepted and reported, one is paid. *)
Definition twice : list cop := setup ++ [ CBegin 30 0; CDelegate 4 1 100; CUndelegate 4 1 100; CUndelegate 4 1 100; CEnd ].
Definition paid_out : list cop := [ CBegin 200 0; CEnd; CBegin 300 0; CEnd ].
Lemma twice_ok : cops_ok g0 (twice ++ paid_out). Proof. apply cops_okb_ok. vm_cast_no_check (eq_refl true). Qed.
Lemma ok_app a : forall c b, cops_ok c (a ++ b) -> cops_ok c a /\ cops_ok (crun c a) b.
Proof. induction a as [|o a IH]; intros c b; cbn; [done|]. intros [H1 H2]. destruct (IH _ _ H2). done. Qed.
Lemma run_app a : forall c b, crun c (a ++ b) = crun (crun c a) b.
Proof. induction a as [|o a IH]; intros c b; cbn; [done|]. apply IH. Qed.
Definition unb (c : chain) (a : N) : option Z := as_unbonding <$> account_assets c a.
Lemma unbonding_refutes : exists g ops more a, genesis g /\ cops_ok (gstart g) ops /\ cops_ok (crun (gstart g) ops) more /\
  let c := crun (gstart g) ops in let c' := crun c more in
  unb c a = Some 200 /\ pending (c_d c') = [] /\ bal (c_bank c') (User a) KYVE = bal (c_bank c) (User a) KYVE + 100.
Proof.
  exists gen0, twice, paid_out, 4%N. split; [exact gen0_genesis|]. destruct (ok_app twice g0 paid_out twice_ok) as [H1 H2].
  split; [exact H1|]. split; [exact H2|]. cbv zeta. change (gstart gen0) with g0. split; [vm_compute; reflexivity|]. split; vm_compute; reflexivity.
Qed.
(** The sum of the requests wraps: 32 requests for the same 2^59 are reported as zero. *)
Definition many : list cop := setup ++ [ CBegin 30 0; CDelegate 5 1 (2 ^ 59) ] ++ repeat (CUndelegate 5 1 (2 ^ 59)) 32 ++ [ CEnd ].
Lemma many_ok : cops_ok g0 (many ++ paid_out). Proof. apply cops_okb_ok. vm_cast_no_check (eq_refl true). Qed.
Lemma wrap_refutes : exists g ops more a, genesis g /\ cops_ok (gstart g) ops /\ cops_ok (crun (gstart g) ops) more /\
  let c := crun (gstart g) ops in let c' := crun c more in
  unb c a = Some 0 /\ pending (c_d c') = [] /\ bal (c_bank c') (User a) KYVE = bal (c_bank c) (User a) KYVE + 2 ^ 59.
Proof.
  exists gen0, many, paid_out, 5%N. split; [exact gen0_genesis|]. destruct (ok_app many g0 paid_out many_ok) as [H1 H2].
  split; [exact H1|]. split; [exact H2|]. cbv zeta. change (gstart gen0) with g0. split; [vm_compute; reflexivity|]. split; vm_compute; reflexivity.
Qed.

(** ** C61 *)
Definition moves : list cop := setup ++
  [ CBegin 30 0; CDelegate 4 1 100; CRedelegate 4 1 2 10; CEnd; CBegin 31 0; CRedelegate 4 1 2 10; CEnd; CBegin 32 0; CRedelegate 4 1 2 10; CEnd ].
Lemma moves_ok : cops_ok g0 (moves ++ [CBegin 131 0]). Proof. apply cops_okb_ok. vm_cast_no_check (eq_refl true). Qed.
Definition slots (c : chain) (a : N) : list (Z * Z) * Z := (redelegation_entries (c_d c) a, available_slots (c_d c) a).
Definition accepts (c : chain) (o : cop) : bool := match cmsg c o with Some _ => true | None => false end.
Fixpoint never_raisedb (c : chain) (ops : list cop) : bool :=
  match ops with [] => true | o :: t => (cooldown (cstep c o) <=? cooldown c) && never_raisedb (cstep c o) t end.
Lemma never_raisedb_ok ops : forall c, never_raisedb c ops = true -> never_raised c ops.
Proof. induction ops as [|o t IH]; intros c; cbn; [done|]. rewrite andb_true_iff, Z.leb_le. intros [? ?]. split; [done|by apply IH]. Qed.
Lemma moves_raised : never_raised g0 moves. Proof. apply never_raisedb_ok. vm_cast_no_check (eq_refl true). Qed.
Lemma moves_case : slots (after moves) 4 = ([(30, 130); (31, 131); (32, 132)], 2) /\ redelegated g0 moves 4 = [30; 31; 32] /\
  slots (after (moves ++ [CBegin 131 0])) 4 = ([(31, 131); (32, 132)], 3) /\ accepts (after (moves ++ [CBegin 131 0])) (CRedelegate 4 1 2 10) = true.
Proof. split; [vm_compute; reflexivity|]. split; [vm_compute; reflexivity|]. split; vm_compute; reflexivity. Qed.
Lemma accepts_no c o : accepts c o = false -> cmsg c o = None.
Proof. unfold accepts. by destruct (cmsg c o). Qed.
Lemma accepts_yes c o : accepts c o = true -> cmsg c o <> None.
Proof. unfold accepts. by destruct (cmsg c o). Qed.
(** Free slots are reported, yet a second redelegation in the same block is refused. *)
Lemma slot_refutes : exists g ops a from to x, genesis g /\ cops_ok (gstart g) ops /\
  let c := crun (gstart g) ops in
  available_slots (c_d c) a = 2 /\ x <= delegation_of (c_d c) from a /\ cmsg c (CRedelegate a from to x) = None /\
  cmsg (cstep c (CBegin 33 0)) (CRedelegate a from to x) <> None.
Proof.
  exists gen0, moves, 4%N, 1%N, 2%N, 10. split; [exact gen0_genesis|]. split; [exact (proj1 (ok_app moves g0 _ moves_ok))|]. cbv zeta. change (gstart gen0) with g0.
  split; [vm_compute; reflexivity|]. split; [apply Z.leb_le; vm_compute; reflexivity|].
  split; [apply accepts_no; vm_compute; reflexivity|]. apply accepts_yes. vm_compute. reflexivity.
Qed.
(** After the maximum has been lowered below the number of used slots, the report underflows. *)
Definition lowered : list cop := moves ++ [ CParamsD AUTHORITY (mkDP 100 100 1 (ONE / 10) (ONE / 5) (ONE / 50)); CBegin 33 0 ].
Lemma lowered_ok : cops_ok g0 lowered. Proof. apply cops_okb_ok. vm_cast_no_check (eq_refl true). Qed.
Lemma lowered_refutes : exists g ops a, genesis g /\ cops_ok (gstart g) ops /\
  let c := crun (gstart g) ops in
  available_slots (c_d c) a = two64 - 2 /\ max_redelegations c = 1 /\ cmsg c (CRedelegate a 1 2 10) = None.
Proof.
  exists gen0, lowered, 4%N. split; [exact gen0_genesis|]. split; [exact lowered_ok|]. cbv zeta. change (gstart gen0) with g0.
  split; [vm_compute; reflexivity|]. split; [vm_compute; reflexivity|]. apply accepts_no. vm_compute. reflexivity.
Qed.

(** ** C62 *)
(** Staker 2 agrees with the bundle of staker 1; staker 3 has not voted; staker 1 is next. *)
Definition asked : list cop := setup ++ first ++ [ CBegin 110 1000; CVote 0 2 12 51 Valid; CEnd; CBegin 200 1000 ].
Lemma asked_ok : cops_ok g0 asked. Proof. apply cops_okb_ok. vm_cast_no_check (eq_refl true). Qed.
Lemma asked_case :
  (ask_vote (after asked) 0 2 12 51, ask_vote (after asked) 0 3 13 51, ask_vote (cstep (after asked) (CVote 0 3 13 51 Abstain)) 0 3 13 51, ask_vote (after asked) 0 3 12 51)
    = (CannotVote, CanVote, CanVoteNoAbstain, CannotVote) /\
  (ask_propose (after asked) 0 1 11 20, accepts (after asked) (CSubmit (sub 1 11 52 10 20 30 70)), accepts (after asked) (CSkip 0 1 11 20)) = (true, true, true) /\
  (ask_propose (after asked) 0 2 12 20, ask_propose (after asked) 0 1 11 21) = (false, false) /\
  (ask_validate (after asked) 0 12, ask_validate (after asked) 0 14, ask_validate (after asked) 1 12) = (Some 2%N, None, None).
Proof. split; [vm_compute; reflexivity|]. split; [vm_compute; reflexivity|]. split; vm_compute; reflexivity. Qed.
(** Nobody but the uploader has voted: proposing is reported as possible, but refused. *)
Definition undecided : list cop := setup ++ first ++ [ CBegin 200 1000 ].
Lemma undecided_ok : cops_ok g0 undecided. Proof. apply cops_okb_ok. vm_cast_no_check (eq_refl true). Qed.
Definition ca_max (c : chain) (p : N) : option Z := pl_maxsize <$> get_pool c p.
Lemma pool_args c p m x : ca_max c p = Some x -> (sb_storage m <> 0%N /\ sb_size m <> 0 /\ sb_size m <= x /\ sb_fromkey m <> 0%N /\ sb_tokey m <> 0%N) ->
  exists pl, get_pool c p = Some pl /\ args_ok pl m.
Proof. unfold ca_max. destruct (get_pool c p) as [pl|]; [|done]. intros [= <-] H. by exists pl. Qed.
Lemma propose_refutes : exists g ops m, genesis g /\ cops_ok (gstart g) ops /\
  let c := crun (gstart g) ops in
  ask_propose c (sb_pool m) (sb_staker m) (sb_creator m) (sb_from m) = true /\
  (exists pl, get_pool c (sb_pool m) = Some pl /\ args_ok pl m) /\ cmsg c (CSubmit m) = None.
Proof.
  exists gen0, undecided, (sub 1 11 52 10 20 30 70). split; [exact gen0_genesis|]. split; [exact undecided_ok|]. cbv zeta. change (gstart gen0) with g0.
  split; [vm_compute; reflexivity|].
  split; [|apply accepts_no; vm_compute; reflexivity].
  apply (pool_args _ _ _ 100); [vm_compute; reflexivity|cbn; repeat split; lia].
Qed.

(** ** C63 *)
Definition rec3 (r : dresp) : N * N * Z * Z := (dr_staker r, dr_delegator r, dr_amount r, amt (dr_rewards r) KYVE).
Lemma lists_case :
  (fun x => (map rec3 (fst (fst (fst (fst x)))), snd (fst (fst (fst x))), snd (fst (fst x)), snd (fst x), snd x)) <$> delegators_page (c_d (after (busy ++ busy_more))) 1 None 0 1 true
    = Some ([(1%N, 1%N, 1000, 92)], Some 4%N, 2, 1070, 2) /\
  (fun x => (map rec3 (fst (fst x)), snd (fst x), snd x)) <$> stakers_of_page (c_d (after (busy ++ busy_more))) 4 None 0 5 true
    = Some ([(1%N, 4%N, 70, 6); (2%N, 4%N, 50, 0)], None, 2) /\
  unbondings_page (c_d (after (busy ++ busy_more))) 4 None 0 1 true = Some ([(5, 120, 2%N)], None, 1).
Proof. split; [vm_compute; reflexivity|]. split; vm_compute; reflexivity. Qed.
