(** * Stakers: concrete histories and counterexamples. *)
From Verif Require Import Base BaseFacts Stakers StakersInv StakersRun StakersClaims StakersClaims2.

(** Boolean admissibility of inputs, apart from the delegation function of a join. *)
Definition cposb (c : coins) : bool := forallb (fun p => 0 <? snd p) (map_to_list c).
Lemma cposb_ok c : cposb c = true -> cpos c.
Proof.
  unfold cposb. rewrite forallb_forall. intros H d x Hx. apply elem_of_map_to_list, elem_of_list_In in Hx.
  specialize (H _ Hx). simpl in H. lia.
Qed.
Definition sop_okb (st : sstate) (o : sop) : bool :=
  match o with
  | SCreate s c _ => negb (s =? 0)%N && (0 <=? c) && (c <=? ONE)
  | SUpdateCommission s c => (0 <=? c) && (c <=? ONE)
  | SClaim s a => cposb a
  | SJoin _ _ s p v a => negb (s =? 0)%N && negb (v =? 0)%N && (0 <=? a) && (a <? two64)
  | SPay s payer a => cposb a && match payer with MStakers | User _ => false | _ => true end
  | SParams c l => (0 <=? c) && (c <? two64) && (0 <=? l) && (l <? two64)
  | SBegin t => (ss_time st <=? t) && (t <? two63)
  | SBank _ => false
  | _ => true
  end.
Definition del_ok (o : sop) : Prop := match o with SJoin _ del _ _ _ _ => forall x, 0 <= del x < two63 | _ => True end.
Definition smallb (o : sop) : bool :=
  match o with
  | SParams c l => (0 <=? c) && (c <? 2 ^ 62) && (0 <=? l) && (l <? 2 ^ 62) | SBegin t => (0 <=? t) && (t <? 2 ^ 62) | _ => true end.
Definition no_staleb (st : sstate) (o : sop) : bool :=
  match o with SJoin _ _ s p _ _ => bool_decide ((s, p) ∉ ss_lindex st) | _ => true end.
Fixpoint checkb (f : sstate -> sop -> bool) (st : sstate) (ops : list sop) : bool :=
  match ops with [] => true | o :: t => f st o && checkb f (sstep st o) t end.
Lemma sops_okb_ok st ops : checkb sop_okb st ops = true -> Forall del_ok ops -> sops_ok st ops.
Proof.
  revert st. induction ops as [|o t IH]; intros st H HF; simpl in *; [done|].
  apply andb_true_iff in H as [H1 H2]. apply Forall_cons in HF as [HF1 HF2]. split; [|by apply IH].
  destruct o; simpl in *; rewrite ?andb_true_iff, ?negb_true_iff, ?N.eqb_neq in H1; try done; try (split_and!; first [tauto|lia]); try (by apply cposb_ok).
  destruct H1 as [H1 H3]. split; [by apply cposb_ok|]. destruct payer; done.
Qed.
Lemma smallb_ok ops : forallb smallb ops = true -> Forall sop_small ops.
Proof.
  rewrite forallb_forall, Forall_forall. intros H o Ho. apply elem_of_list_In in Ho. specialize (H o Ho).
  destruct o; simpl in *; unfold small_time; try done; rewrite ?andb_true_iff in H; lia.
Qed.
Lemma no_staleb_ok st ops : checkb no_staleb st ops = true -> no_stales st ops.
Proof.
  revert st. induction ops as [|o t IH]; intros st H; simpl in *; [done|].
  apply andb_true_iff in H as [H1 H2]. split; [|by apply IH]. destruct o; simpl in *; try done. by apply bool_decide_eq_true in H1.
Qed.

Definition accepted {A} (o : option A) : bool := match o with Some _ => true | None => false end.
Lemma not_accepted {A} (o : option A) : accepted o = false -> o = None.
Proof. by destruct o. Qed.

(** ** A full pool: 50 stakers (1 to 50) in pool 7, staker 51 pushes out staker 1 *)
Definition dm (x : N) : Z := Z.of_N (x mod 1000).
Lemma dm_ok x : 0 <= dm x < two63.
Proof. unfold dm, two63. pose proof (N.mod_lt x 1000 ltac:(done)). lia. Qed.
Definition sb : bank := <[User 51 := coin KYVE 500]> (<[PoolAcc 7 := coin KYVE 1000]> ∅).
Definition st0 : sstate := sinit sb 100 50 60.
Definition reg (i : N) : list sop := [SCreate i (ONE / 10) true; SJoin (Some false) dm i 7 (1000 + i) 0].
Definition full : list sop := flat_map reg (map N.of_nat (seq 1 50)) ++ [SCreate 51 (ONE / 5) true].
Lemma full_ok : sops_ok st0 full.
Proof.
  apply sops_okb_ok; [vm_cast_no_check (eq_refl true)|].
  unfold full. apply Forall_app. split; [|by repeat constructor]. rewrite Forall_forall. intros o Ho.
  apply elem_of_list_In, in_flat_map in Ho as (i & _ & [<-|[<-|[]]]); [done|]. simpl. exact dm_ok.
Qed.
Definition fend_st : sstate := srun st0 full.
Example ex_full : members fend_st 7 = 50 /\ count_of fend_st 7 = 50 /\ member fend_st 7 1 /\ ~ member fend_st 7 51 /\
  is_active fend_st 1 = true /\ is_active fend_st 51 = false.
Proof.
  split; [by vm_compute|]. split; [by vm_compute|]. split; [apply member_b_spec; by vm_compute|].
  split; [intros H; apply member_b_spec in H; by vm_compute in H|]. split; by vm_compute.
Qed.
Definition jn : sop := SJoin (Some false) dm 51 7 2000 30.
(** Hypotheses of C16 hold for this joiner, and the eviction case applies. *)
Example ex_join : (forall x, 0 <= dm x < two63) /\ is_Some (ss_stakers fend_st !! 51%N) /\ ~ member fend_st 7 51 /\
  50 <= members fend_st 7 /\ 30 <= bal (ss_bank fend_st) (User 51) KYVE /\
  member (sstep fend_st jn) 7 51 /\ ~ member (sstep fend_st jn) 7 1 /\ members (sstep fend_st jn) 7 = 50.
Proof.
  split; [exact dm_ok|]. split; [exists (mkSt (ONE / 5) ∅); by vm_compute|].
  split; [intros H; apply member_b_spec in H; by vm_compute in H|]. split; [by vm_compute|]. split; [by vm_compute|].
  split; [apply member_b_spec; by vm_compute|]. split; [intros H; apply member_b_spec in H; by vm_compute in H|]. by vm_compute.
Qed.
(** A joiner with as little delegation as the smallest member is refused. *)
Example ex_join_refused : accepted (msg_join fend_st (Some false) (fun _ => 5) 51 7 2000 30) = false.
Proof. vm_cast_no_check (eq_refl false). Qed.
(** Staker 1 in two pools uses two valaddresses; the second with the first's is refused. *)
Example ex_valaddr : member (sstep fend_st (SJoin (Some false) dm 1 8 3000 0)) 8 1 /\
  ~ member (sstep fend_st (SJoin (Some false) dm 1 8 1001 0)) 8 1 /\
  authorized fend_st 7 1 1001 = true.
Proof.
  split; [apply member_b_spec; by vm_compute|]. split; [intros H; apply member_b_spec in H; by vm_compute in H|by vm_compute].
Qed.

(** ** Commission: staker 1 announces 20 %, replaces it by 30 % ten seconds later *)
Definition comm : list sop :=
  [SCreate 1 (ONE / 10) true; SUpdateCommission 1 (ONE / 5); SBegin 110; SUpdateCommission 1 (3 * (ONE / 10)); SBegin 155].
Lemma comm_ok : sops_ok st0 (comm ++ [SBegin 160]) /\ Forall sop_small (comm ++ [SBegin 160]).
Proof.
  split; [apply sops_okb_ok; [vm_cast_no_check (eq_refl true)|by repeat constructor]|apply smallb_ok; vm_cast_no_check (eq_refl true)].
Qed.
Example ex_commission : commission_of (srun st0 comm) 1 = Some (ONE / 10) /\
  commission_of (srun st0 (comm ++ [SBegin 160])) 1 = Some (3 * (ONE / 10)) /\
  cs_pend (cspec_run (cspec_init 100 50) comm) 1 = Some (3 * (ONE / 10), 110).
Proof. split; [by vm_compute|]. split; by vm_compute. Qed.
(** A waiting time of 2^63 seconds is no waiting time at all. *)
Definition comm_wrap : list sop := [SParams two63 60; SCreate 1 0 true; SUpdateCommission 1 ONE].
Lemma refute_commission : exists b t c l ops now, sops_ok (sinit b t c l) (ops ++ [SBegin now]) /\
  small_time t /\ small_time c /\ small_time l /\
  commission_of (srun (sinit b t c l) ops) 1 <> commission_of (srun (sinit b t c l) (ops ++ [SBegin now])) 1 /\
  now < t + ss_ctime (srun (sinit b t c l) ops).
Proof.
  exists sb, 100, 50, 60, comm_wrap, 101. split; [apply sops_okb_ok; [vm_cast_no_check (eq_refl true)|by repeat constructor]|].
  split; [done|]. split; [done|]. split; [done|]. split; [by vm_compute|by vm_compute].
Qed.

(** ** Leaving *)
Definition leav : list sop := reg 1 ++ reg 2 ++ [SLeave 1 7; SBegin 159].
Lemma leav_ok : sops_ok st0 (leav ++ [SBegin 160]) /\ Forall sop_small (leav ++ [SBegin 160]) /\ no_stales st0 leav.
Proof.
  split; [apply sops_okb_ok; [vm_cast_no_check (eq_refl true)|]|].
  - repeat (constructor; [try exact I; exact dm_ok|]). constructor.
  - split; [apply smallb_ok; vm_cast_no_check (eq_refl true)|apply no_staleb_ok; vm_cast_no_check (eq_refl true)].
Qed.
Example ex_leave : member (srun st0 leav) 7 1 /\ lreqs st0 leav (fun _ _ => None) 1 7 = Some 100 /\
  ~ member (srun st0 (leav ++ [SBegin 160])) 7 1 /\ member (srun st0 (leav ++ [SBegin 160])) 7 2.
Proof.
  split; [apply member_b_spec; by vm_compute|]. split; [by vm_compute|].
  split; [intros H; apply member_b_spec in H; by vm_compute in H|apply member_b_spec; by vm_compute].
Qed.
Example ex_flag : map (fun s => vl_leaving <$> get_val (srun st0 leav) 7 s) [1; 2]%N = [Some true; Some false] /\
  lreqs st0 leav (fun _ _ => None) 2 7 = None.
Proof. by vm_compute. Qed.
(** Leave request, removal by a slash, new membership: the old request ends the new membership,
    and a new request is refused. *)
Definition stale : list sop :=
  reg 1 ++ [SLeave 1 7; SKick 1 7; SBegin 159; SJoin (Some false) dm 1 7 3000 0].
Lemma refute_leave : exists b t c l ops now s p, sops_ok (sinit b t c l) (ops ++ [SBegin now]) /\ Forall sop_small (ops ++ [SBegin now]) /\
  small_time t /\ small_time c /\ small_time l /\
  member (srun (sinit b t c l) ops) p s /\ lreqs (sinit b t c l) ops (fun _ _ => None) s p = None /\
  msg_leave (srun (sinit b t c l) ops) s p = None /\
  ~ member (sstep (srun (sinit b t c l) ops) (SBegin now)) p s.
Proof.
  exists sb, 100, 50, 60, stale, 160, 1%N, 7%N.
  split; [apply sops_okb_ok; [vm_cast_no_check (eq_refl true)|repeat (constructor; [try exact I; exact dm_ok|]); constructor]|].
  split; [apply smallb_ok; vm_cast_no_check (eq_refl true)|].
  split; [done|]. split; [done|]. split; [done|]. split; [apply member_b_spec; by vm_compute|].
  split; [by vm_compute|]. split; [|intros H; apply member_b_spec in H; by vm_compute in H].
  apply not_accepted. vm_cast_no_check (eq_refl false).
Qed.

(** ** Commission rewards *)
Definition rew : list sop := reg 1 ++ [SPay 1 (PoolAcc 7) (coin KYVE 40)].
Lemma rew_ok : sops_ok st0 rew.
Proof.
  apply sops_okb_ok; [vm_cast_no_check (eq_refl true)|]. repeat (constructor; [try exact I; exact dm_ok|]). constructor.
Qed.
Example ex_rewards : owed (srun st0 rew) 1 KYVE = 40 /\ owed_all (srun st0 rew) KYVE = 40 /\
  (forall d, amt (coin KYVE 15) d <= owed (srun st0 rew) 1 d) /\
  owed (srun st0 (rew ++ [SClaim 1 (coin KYVE 15)])) 1 KYVE = 25 /\
  bal (ss_bank (srun st0 (rew ++ [SClaim 1 (coin KYVE 15)]))) (User 1) KYVE = 15.
Proof.
  split; [by vm_compute|]. split; [by vm_compute|]. split; [|split; by vm_compute].
  intros d. rewrite amt_coin. assert (owed (srun st0 rew) 1 d = if decide (KYVE = d) then 40 else 0) as ->; [|by destruct (decide _)].
  assert (st_rewards <$> ss_stakers (srun st0 rew) !! 1%N = Some (coin KYVE 40)) as H.
  { apply (bool_decide_unpack _). by vm_compute. }
  unfold owed. destruct (ss_stakers (srun st0 rew) !! 1%N) as [x|]; [|done]. simpl in H. injection H as ->. by rewrite amt_coin.
Qed.
