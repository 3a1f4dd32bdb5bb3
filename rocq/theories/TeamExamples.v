(** * Team: concrete histories and counterexamples. *)
From Verif Require Import Base BaseFacts Team TeamInv TeamRun TeamClaims.

(** Boolean admissibility of inputs (no bank interference). *)
Definition top_okb (st : tstate) (o : top) : bool :=
  match o with
  | TCreate _ total start => (0 <=? total) && (total <? two64) && (0 <=? start) && (start <? two64)
  | TClaim _ _ x _ | TClaimRewards _ _ x _ | TClaimAuthority _ x _ => (0 <=? x) && (x <? two64)
  | TClawback _ _ c => (0 <=? c) && (c <? two64)
  | TBegin t p s => (ts_time st <=? t) && (t <? two63) && (0 <=? p) && (p <=? bal (ts_bank st) MFeeCollector KYVE)
      && (bal (ts_bank st) MTeam KYVE + bal (ts_bank st) MFeeCollector KYVE <=? s) && (s <? two63) && (p <? s)
  | TBank _ => false
  end.
Definition smallb (o : top) : bool := match o with TCreate _ total _ => total <? two63 | _ => true end.
Definition mildb (st : tstate) (o : top) : bool :=
  match o with TBegin _ p _ => Z.of_nat (length (ts_accounts st)) * p <? 2 * ONE | _ => true end.
Definition earlierb (st : tstate) (o : top) : bool :=
  match o with
  | TClawback _ i c => match ts_accounts st !! i with Some a => (0 <? c) && ((va_clawback a =? 0) || (c <=? va_clawback a)) | None => true end
  | _ => true
  end.
Fixpoint tops_okb (st : tstate) (ops : list top) : bool :=
  match ops with [] => true | o :: t => top_okb st o && tops_okb (tstep st o) t end.
Fixpoint withinb (st : tstate) (ops : list top) : bool :=
  (zsum vesting_max (ts_accounts st) <=? TEAM_ALLOCATION) &&
  match ops with [] => true | o :: t => mildb st o && withinb (tstep st o) t end.
Fixpoint all_earlierb (st : tstate) (ops : list top) : bool :=
  match ops with [] => true | o :: t => earlierb st o && all_earlierb (tstep st o) t end.
Lemma top_okb_ok st o : top_okb st o = true -> top_ok st o.
Proof. destruct o; simpl; rewrite ?andb_true_iff; try done; lia. Qed.
Lemma tops_okb_ok st ops : tops_okb st ops = true -> tops_ok st ops.
Proof.
  revert st. induction ops as [|o t IH]; intros st H; simpl in *; [done|].
  apply andb_true_iff in H as [H1 H2]. split; [by apply top_okb_ok|by apply IH].
Qed.
Lemma smallb_ok ops : forallb smallb ops = true -> Forall small_op ops.
Proof.
  rewrite forallb_forall, Forall_forall. intros H o Ho. apply elem_of_list_In in Ho. specialize (H o Ho).
  destruct o; simpl in *; lia.
Qed.
Lemma withinb_ok st ops : withinb st ops = true -> within st ops.
Proof.
  revert st. induction ops as [|o t IH]; intros st H; simpl in *; apply andb_true_iff in H as [H1 H2]; unfold in_cap.
  - split; [lia|done].
  - apply andb_true_iff in H2 as [H2 H3]. split; [lia|]. split; [|by apply IH]. destruct o; simpl in *; lia.
Qed.
Lemma all_earlierb_ok st ops : all_earlierb st ops = true -> all_earlier st ops.
Proof.
  revert st. induction ops as [|o t IH]; intros st H; simpl in *; [done|].
  apply andb_true_iff in H as [H1 H2]. split; [|by apply IH]. destruct o; simpl in *; try done.
  intros a Ea. rewrite Ea in H1. apply andb_true_iff in H1 as [H1 H3]. apply orb_true_iff in H3. lia.
Qed.

Lemma some_with {A} (o : option A) (f : A -> bool) :
  match o with Some x => f x | None => false end = true -> exists x, o = Some x /\ f x = true.
Proof. destruct o; [by eauto|done]. Qed.

(** ** A history exercising every operation *)
Definition tbk : bank := <[MTeam := coin KYVE TEAM_ALLOCATION]> (<[MFeeCollector := coin KYVE 10000000000]> ∅).
Definition T0 : Z := 1700000000.
Definition supply0 : Z := 1000000000000000.
Definition h1 : list top :=
  [ TCreate FOUNDATION 90000000000000000 (T0 - CLIFF); TCreate BCP 75000000000000000 T0;
    TCreate BCP 1 T0; TCreate 7 5 T0;
    TBegin (T0 + UNLOCK) 100000000 (500 * supply0);
    TClaim BCP 0 1000 3; TClaim FOUNDATION 0 90000000000000000 3; TClaim 7 0 5 7;
    TClawback BCP 0 (T0 + UNLOCK); TClawback BCP 0 (T0 + UNLOCK - 1); TClawback FOUNDATION 1 (T0 + UNLOCK + 5);
    TBegin (T0 + UNLOCK + 1000000) 200000000 (501 * supply0);
    TClaimRewards FOUNDATION 1 10 4; TClaimAuthority FOUNDATION 10 5; TClaimAuthority BCP 10 5;
    TClaim BCP 0 40000000000000000 3; TCreate FOUNDATION 3 T0;
    TBegin (T0 + 10 * VESTING) 200000000 (502 * supply0); TClaim BCP 1 40000000000000000 3 ].
Definition hend : tstate := tend tbk T0 h1.

Lemma h1_reach : treach tbk T0 h1.
Proof.
  split; [unfold T0, two63; lia|]. split.
  - apply tops_okb_ok. vm_cast_no_check (eq_refl true).
  - apply smallb_ok. vm_cast_no_check (eq_refl true).
Qed.
Lemma h1_reach44 : treach44 tbk T0 h1.
Proof.
  split; [apply h1_reach|]. split; [apply Z.leb_le; vm_cast_no_check (eq_refl true)|].
  split; [apply withinb_ok; vm_cast_no_check (eq_refl true)|]. apply Z.ltb_lt. vm_cast_no_check (eq_refl true).
Qed.
Lemma h1_earlier : all_earlier (tinit tbk T0) h1.
Proof. apply all_earlierb_ok. vm_cast_no_check (eq_refl true). Qed.
Lemma h1_values :
  (length (ts_accounts hend), recorded hend, spec_required hend, ts_halt hend) = (3%nat, 148669059, 85000000148668039, false).
Proof. apply (bool_decide_unpack _). by vm_compute. Qed.
(** The history is not trivial: rewards were recorded, claims were paid. *)
Example ex_claims : exists a, ts_accounts hend !! 0%nat = Some a /\ va_claimed a = 40000000000001000 /\
  unlocked a (ts_time hend) = 90000000000000000.
Proof. eexists. split; [by vm_compute|]. split; by vm_compute. Qed.
Example ex_claim_exact : exists st', msg_claim_unlocked hend BCP 1 5 9 = Some st' /\ top_ok hend (TClaim BCP 1 5 9).
Proof.
  destruct (some_with (msg_claim_unlocked hend BCP 1 5 9) (fun _ => true)) as (st' & E & _);
    [vm_cast_no_check (eq_refl true)|]. exists st'. split; [exact E|]. apply top_okb_ok. vm_cast_no_check (eq_refl true).
Qed.
Example ex_reward_claims : (exists st', msg_claim_authority hend FOUNDATION 7 9 = Some st') /\
  (exists st', msg_claim_rewards hend BCP 1 7 9 = Some st') /\ msg_claim_authority hend BCP 7 9 = None.
Proof.
  split; [|split].
  - destruct (some_with (msg_claim_authority hend FOUNDATION 7 9) (fun _ => true)) as (st' & E & _);
      [vm_cast_no_check (eq_refl true)|exact (ex_intro _ st' E)].
  - destruct (some_with (msg_claim_rewards hend BCP 1 7 9) (fun _ => true)) as (st' & E & _);
      [vm_cast_no_check (eq_refl true)|exact (ex_intro _ st' E)].
  - vm_cast_no_check (eq_refl (@None tstate)).
Qed.
Example ex_block : top_ok hend (TBegin (ts_time hend) 300000000 (503 * supply0)) /\
  mild hend (TBegin (ts_time hend) 300000000 (503 * supply0)) /\ minted h1 + 300000000 < two63 /\
  recorded hend < recorded (tstep hend (TBegin (ts_time hend) 300000000 (503 * supply0))).
Proof.
  split; [apply top_okb_ok; vm_cast_no_check (eq_refl true)|].
  split; [apply Z.ltb_lt; vm_cast_no_check (eq_refl true)|].
  split; apply Z.ltb_lt; vm_cast_no_check (eq_refl true).
Qed.
Definition acc0 : vacc := mkVA 1000 T0 (T0 + 2 * CLIFF) 0 0 0 0.
Example ex_curves : va_ok acc0 /\ vested acc0 (T0 + CLIFF + 1) = 333 /\ vested acc0 (T0 + VESTING) = 666 /\
  unlocked acc0 (T0 + CLIFF) = 0 /\ unlocked acc0 (T0 + 2 * CLIFF) = 333 /\ vesting_max acc0 = 666.
Proof. split; [split; [|split; [|right]]; unfold acc0, T0, CLIFF, two63, two64; simpl; lia|]. by vm_compute. Qed.

(** ** C41 fails at query times beyond 2^63 when commencement + vesting duration wraps around *)
Definition acc_wrap : vacc := mkVA 1000 (two64 - 2 * CLIFF) 0 0 0 0 0.
Lemma refute_curves : exists a t, va_ok a /\ 0 <= t < two64 /\ vesting_max a < vested a t.
Proof.
  exists acc_wrap, (two64 - 1). split; [split; [|split; [|by left]]; unfold acc_wrap, CLIFF, two63, two64; simpl; lia|].
  split; [unfold two64; lia|]. apply Z.ltb_lt. vm_cast_no_check (eq_refl true).
Qed.

(** ** C43 fails: un-clawback, and uint64 overflow of the sum *)
Definition r1 : list top :=
  [ TCreate FOUNDATION TEAM_ALLOCATION T0; TClawback FOUNDATION 0 T0; TCreate FOUNDATION TEAM_ALLOCATION T0;
    TClawback FOUNDATION 0 0 ].
Lemma refute_cap : exists b t ops, treach b t ops /\
  zsum vesting_max (ts_accounts (tend b t ops)) = 2 * TEAM_ALLOCATION.
Proof.
  exists tbk, T0, r1. split.
  - split; [unfold T0, two63; lia|]. split; [apply tops_okb_ok; vm_cast_no_check (eq_refl true)|].
    apply smallb_ok. vm_cast_no_check (eq_refl true).
  - apply Z.eqb_eq. vm_cast_no_check (eq_refl true).
Qed.
Definition r2 : list top :=
  [ TCreate FOUNDATION 1000 (T0 - 2 * VESTING); TCreate FOUNDATION (two64 - 1000) (T0 - 2 * VESTING); TBegin (T0 + VESTING) 0 (500 * supply0) ].
(** The second account's allocation is 2^64 - 1000 and the authority can claim the whole module. *)
Lemma refute_cap_overflow : exists b t ops, 0 <= t < two63 /\ tops_ok (tinit b t) ops /\
  all_earlier (tinit b t) ops /\
  TEAM_ALLOCATION < zsum vesting_max (ts_accounts (tend b t ops)) /\
  exists st', msg_claim_unlocked (tend b t ops) FOUNDATION 1 (bal b MTeam KYVE) 3 = Some st' /\ bal (ts_bank st') MTeam KYVE = 0.
Proof.
  exists tbk, T0, r2. split; [unfold T0, two63; lia|]. split; [apply tops_okb_ok; vm_cast_no_check (eq_refl true)|].
  split; [apply all_earlierb_ok; vm_cast_no_check (eq_refl true)|].
  split; [apply Z.ltb_lt; vm_cast_no_check (eq_refl true)|].
  destruct (some_with (msg_claim_unlocked (tend tbk T0 r2) FOUNDATION 1 (bal tbk MTeam KYVE) 3)
    (fun st' => bal (ts_bank st') MTeam KYVE =? 0)) as (st' & E & E2); [vm_cast_no_check (eq_refl true)|].
  exists st'. split; [exact E|]. by apply Z.eqb_eq.
Qed.

(** ** C44: with 4*10^18 ukyve minted in one block, the rounded shares exceed the provision *)
Definition tbk2 : bank := <[MTeam := coin KYVE TEAM_ALLOCATION]> (<[MFeeCollector := coin KYVE (4 * ONE)]> ∅).
Definition r3 : list top :=
  [ TCreate FOUNDATION 27500000000000000 T0; TCreate FOUNDATION 27500000000000000 T0; TCreate FOUNDATION 110000000000000000 T0 ].
Definition b3 : top := TBegin (T0 + VESTING) (4 * ONE) (TEAM_ALLOCATION + 4 * ONE).
Lemma refute_block : exists b t ops o, treach44 b t ops /\ top_ok (tend b t ops) o /\ minted (ops ++ [o]) < two63 /\
  in_cap (tstep (tend b t ops) o) /\ ts_halt (tstep (tend b t ops) o) = true.
Proof.
  exists tbk2, T0, r3, b3. split; [|split; [|split; [|split]]].
  - split; [split; [unfold T0, two63; lia|split]|split; [|split]].
    + apply tops_okb_ok. vm_cast_no_check (eq_refl true).
    + apply smallb_ok. vm_cast_no_check (eq_refl true).
    + apply Z.leb_le. vm_cast_no_check (eq_refl true).
    + apply withinb_ok. vm_cast_no_check (eq_refl true).
    + apply Z.ltb_lt. vm_cast_no_check (eq_refl true).
  - apply top_okb_ok. vm_cast_no_check (eq_refl true).
  - apply Z.ltb_lt. vm_cast_no_check (eq_refl true).
  - apply Z.leb_le. vm_cast_no_check (eq_refl true).
  - vm_cast_no_check (eq_refl true).
Qed.
