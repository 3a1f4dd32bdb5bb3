(** * Stake that is slashed although it was to be undelegated, and stake that escapes: concrete cases. *)
From Verif Require Import Base BaseFacts Delegation DelegationClaims3 Stakers StakersInv Funders Team RoundRobin Pool Bundles Chain ChainFrame ArchiveInv
  BankMoves ChainLift PoolFrame PoolInv PayoutClaims PoolClaims EffectClaims TallyFacts VoteClaims StepCases PointsInv TallyClaims TallyEffects TallyProps ChainExamples PoolExamples EscapeClaims.

(** Staker 1 has uploaded a bundle; 2 and 3 vote against it. Meanwhile 1 undelegates everything, or
    redelegates everything to 2. Then the bundle is dropped. *)
Definition base : list cop := setup ++ first.
Definition against : list cop := [CVote 0 2 12 51 Invalid; CVote 0 3 13 51 Invalid; CEnd; CBegin 165 0].
Definition asks : list cop := [CBegin 110 0; CUndelegate 1 1 1000] ++ against.
Definition moves : list cop := [CBegin 110 0] ++ against ++ [CRedelegate 1 1 2 1000].
Definition skip1 : cop := CSkip 0 1 11 20.
Lemma asks_ok : cops_ok g0 (base ++ asks ++ [skip1]). Proof. apply cops_okb_ok. vm_cast_no_check (eq_refl true). Qed.
Lemma moves_ok : cops_ok g0 (base ++ moves ++ [skip1]). Proof. apply cops_okb_ok. vm_cast_no_check (eq_refl true). Qed.
Lemma base_pending : map (fun e => (u_staker e, u_delegator e)) (pending (c_d (after base))) = []. Proof. by vm_compute. Qed.
Lemma base_not_asked : not_asked (after base) 1 1.
Proof. unfold not_asked. pose proof base_pending as H. destruct (pending _); [constructor|done]. Qed.
Lemma asks_stays : Forall (stays 1 1) asks. Proof. repeat constructor; cbn; naive_solver. Qed.
(** The waiting time along a history. *)
Fixpoint soonb (T : Z) (c : chain) (more : list cop) : bool :=
  match more with
  | [] => true
  | o :: r => match o with
              | CBegin t _ => bool_decide (t < T + p_unbonding (ds_params (c_d c))) && bool_decide (t + p_unbonding (ds_params (c_d c)) < two64)
              | _ => true end && soonb T (cstep c o) r
  end.
Lemma soonb_ok T more : forall c, soonb T c more = true -> soon T c more.
Proof.
  induction more as [|o r IH]; intros c H; cbn [soonb soon] in *; [done|]. apply andb_true_iff in H as [H1 H2]. split; [|by apply IH].
  destruct o; try done. apply andb_true_iff in H1 as [H1 H3]. apply bool_decide_eq_true in H1, H3. done.
Qed.
Lemma asks_soon : soon (c_time (after base)) (after base) asks. Proof. apply soonb_ok. by vm_compute. Qed.
Lemma moves_soon : soon (c_time (after base)) (after base) moves. Proof. apply soonb_ok. by vm_compute. Qed.
Definition stake_of (c : chain) := (slashes c 1, (del c 1 1, del c 2 1)).
Lemma asks_look : map (fun l => stake_of (after l)) [base; base ++ asks; base ++ asks ++ [skip1]] =
  [ ([], (1000, 0)); ([], (1000, 0)); ([ONE / 5], (800, 0)) ].
Proof. by vm_compute. Qed.
Lemma moves_look : map (fun l => stake_of (after l)) [base; base ++ moves; base ++ moves ++ [skip1]] =
  [ ([], (1000, 0)); ([], (0, 1000)); ([ONE / 5], (0, 1000)) ].
Proof. by vm_compute. Qed.
Lemma asks_valid : bp_valid (get_prop (after (base ++ asks)) 0) = [1%N]. Proof. by vm_compute. Qed.
Lemma opt_some {A} (o : option A) : (if o then true else false) = true -> is_Some o.
Proof. destruct o; [by eexists|done]. Qed.
Lemma asks_skips : tallies (after (base ++ asks)) 0 1 skip1 /\ is_Some (cmsg (after (base ++ asks)) skip1) /\
  loses (get_prop (after (base ++ asks)) 0) OInvalid 1.
Proof.
  split; [apply tallies_skip|]. split; [apply opt_some; by vm_compute|]. change (1%N ∈ bp_valid (get_prop (after (base ++ asks)) 0)). rewrite asks_valid. by left.
Qed.
Lemma least_most : least 1000 [ONE / 5] = 800 /\ most 1000 [ONE / 5] = 800. Proof. by vm_compute. Qed.
Lemma stake_eq c l a b : stake_of c = (l, (a, b)) -> slashes c 1 = l /\ del c 1 1 = a /\ del c 2 1 = b.
Proof. unfold stake_of. intros [= -> -> ->]. done. Qed.
Lemma three {A} (a b c x y z : A) : [a; b; c] = [x; y; z] -> a = x /\ b = y /\ c = z.
Proof. by intros [= -> -> ->]. Qed.
Lemma moves_refutes : exists g ops more o s s2 d, genesis g /\ cops_ok (gstart g) (ops ++ more ++ [o]) /\
  let c := crun (gstart g) ops in let c2 := crun (gstart g) (ops ++ more ++ [o]) in
  not_asked c s d /\ soon (c_time c) c more /\ s <> s2 /\ slashes c s = [] /\ slashes c2 s = [ONE / 5] /\
  del c s d = 1000 /\ del c s2 d = 0 /\ del c2 s d = 0 /\ del c2 s2 d = 1000.
Proof.
  refine (ex_intro _ gen0 (ex_intro _ base (ex_intro _ moves (ex_intro _ skip1 (ex_intro _ 1%N (ex_intro _ 2%N (ex_intro _ 1%N
    (conj gen0_genesis (conj moves_ok _))))))))). cbv zeta. rewrite gen0_start.
  pose proof moves_look as H. cbn [map] in H. apply three in H as (H1 & _ & H3). apply stake_eq in H1 as (A1 & A2 & A3), H3 as (B1 & B2 & B3).
  refine (conj base_not_asked (conj moves_soon (conj _ (conj A1 (conj B1 (conj A2 (conj A3 (conj B2 B3)))))))). done.
Qed.
