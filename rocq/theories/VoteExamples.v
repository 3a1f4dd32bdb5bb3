(** * Votes, tallies, points, timeouts: concrete cases and counterexamples. *)
From Verif Require Import Base BaseFacts Delegation Stakers StakersInv Funders Team RoundRobin Pool Bundles Chain ChainFrame ArchiveInv
  BankMoves ChainLift PoolFrame PoolInv PayoutClaims PoolClaims TallyFacts VoteClaims StepCases PointsInv TallyClaims TallyEffects TallyProps ChainExamples PoolExamples.
(** Points, slashes and stakes of the three stakers. *)
Definition seen (ops : list cop) : list (option Z * list Z * option Z) :=
  map (fun s => (points (after ops) 0 s, slashes (after ops) s, delegated (after ops) s)) [1; 2; 3]%N.
Definition nxt (ops : list cop) : N * Z := (bp_next (get_prop (after ops) 0), bp_updated (get_prop (after ops) 0)).

(** ** C23, C24: three tallies *)
(** The first bundle of [h1] is valid; 3 voted invalid, is slashed by a tenth and removed. *)
Lemma valid_case : seen h1 = [(Some 0, [], Some 1000); (Some 0, [], Some 1000); (None, [ONE / 10], Some 900)].
Proof. by vm_compute. Qed.
(** 2 and 3 vote invalid: the uploader is slashed by a fifth. *)
Definition bad_bundle : list cop := setup ++ first ++ [CBegin 110 0; CVote 0 2 12 51 Invalid; CVote 0 3 13 51 Invalid; CEnd; CBegin 800 0].
Lemma bad_bundle_ok : cops_ok g0 bad_bundle. Proof. apply cops_okb_ok. vm_cast_no_check (eq_refl true). Qed.
Lemma invalid_case : seen (bad_bundle ++ [CEnd]) = [(None, [ONE / 5], Some 800); (Some 0, [], Some 1000); (Some 0, [], Some 1000)].
Proof. by vm_compute. Qed.
(** 2 votes for the bundle, 3 does not vote; when the next one is submitted 3 gets a point. *)
Definition silent3 : list cop := setup ++ first ++ [CBegin 110 0; CVote 0 2 12 51 Valid; CEnd; CBegin 200 0].
Lemma silent3_ok : cops_ok g0 silent3. Proof. apply cops_okb_ok. vm_cast_no_check (eq_refl true). Qed.
Lemma silent_case : bp_storage (get_prop (after silent3) 0) = 51%N /\
  (match cmsg (after silent3) (CSubmit (sub 1 11 52 10 20 30 70)) with Some c' => map (points c' 0) [1; 2; 3]%N | None => [] end) = [Some 0; Some 0; Some 1].
Proof. split; by vm_compute. Qed.
(** Nobody ever submits a bundle; two skips cost 1 and 3 their place and 2% of their stake. *)
Definition idle : list cop := setup ++ [CBegin 100 0; CSkip 0 1 11 0; CEnd; CBegin 200 0; CSkip 0 2 12 0; CEnd].
Lemma idle_ok : cops_ok g0 idle. Proof. apply cops_okb_ok. vm_cast_no_check (eq_refl true). Qed.
Lemma idle_case : seen idle = [(None, [ONE / 50], Some 980); (Some 1, [], Some 1000); (None, [ONE / 50], Some 980)].
Proof. by vm_compute. Qed.
Definition submits (o : cop) : bool := match o with CSubmit _ => true | _ => false end.
Lemma idle_none m : CSubmit m ∉ idle.
Proof.
  intros H. assert (Hx : forallb (fun o => negb (submits o)) idle = true) by (by vm_compute).
  rewrite forallb_forall in Hx. apply elem_of_list_In in H. by specialize (Hx (CSubmit m) H).
Qed.
Lemma idle_slashed : slashes (after idle) 3 = [ONE / 50]. Proof. by vm_compute. Qed.
Lemma idle_refutes : exists g ops s, genesis g /\ cops_ok (gstart g) ops /\ (forall m, CSubmit m ∉ ops) /\
  slashes (crun (gstart g) ops) s = [p_timeout (g0_dp g)].
Proof. exact (ex_intro _ gen0 (ex_intro _ idle (ex_intro _ 3%N (conj gen0_genesis (conj idle_ok (conj idle_none idle_slashed)))))). Qed.

(** ** C29 *)
(** 1 lets the time pass: a point, and a new choice. *)
Definition late1 : list cop := setup ++ [CBegin 680 0].
Lemma late1_ok : cops_ok g0 late1. Proof. apply cops_okb_ok. vm_cast_no_check (eq_refl true). Qed.
Lemma late_case : can_run (after late1) 0 = true /\ nxt late1 = (1%N, 20) /\ nxt (late1 ++ [CEnd]) = (1%N, 680) /\
  map fst (map fst (seen (late1 ++ [CEnd]))) = [Some 1; Some 0; Some 0].
Proof. repeat (split; [by vm_compute|]). by vm_compute. Qed.
(** 1 has most of the stake, is chosen again and removed by the same turn: the role stays with
    somebody who cannot act, though 2 and 3 could. *)
Definition big : list cop := setup ++ [CDelegate 1 1 100000; CBegin 700 0; CEnd; CBegin 1400 0].
Lemma big_ok : cops_ok g0 big. Proof. apply cops_okb_ok. vm_cast_no_check (eq_refl true). Qed.
Lemma big_state : get_prop (after big) 0 = with_next bp_zero 1 700 /\ can_run (after big) 0 = true /\
  bp_next (get_prop (after (big ++ [CEnd])) 0) = 1%N /\ points (after (big ++ [CEnd])) 0 1 = None /\
  can_run (after (big ++ [CEnd])) 0 = true /\ points (after (big ++ [CEnd])) 0 2 = Some 0 /\ delegated (after (big ++ [CEnd])) 2 = Some 1000 /\
  (pl_interval <$> get_pool (after big) 0) = Some 60.
Proof. repeat (split; [by vm_compute|]). by vm_compute. Qed.
Lemma eligible_at c p s v t : points c p s = Some v -> delegated c s = Some t -> 0 < t -> eligible c p s.
Proof. intros H1 H2 H3. unfold eligible. by rewrite H1, H2. Qed.
Lemma over_at c p i b n u : get_prop c p = with_next b n u -> u + i + b_timeout (c_bp c) <= c_time c -> deadline_over c p i.
Proof. unfold deadline_over. by intros ->. Qed.
Lemma big_abs c c' u b i : get_prop c 0 = with_next b 1 u -> can_run c 0 = true ->
  bp_next (get_prop c' 0) = 1%N -> points c' 0 1 = None -> can_run c' 0 = true -> points c' 0 2 = Some 0 -> delegated c' 2 = Some 1000 ->
  (pl_interval <$> get_pool c 0) = Some i -> u + i + b_timeout (c_bp c) <= c_time c ->
  exists pl, get_pool c 0 = Some pl /\ deadline_over c 0 (pl_interval pl) /\ can_run c 0 = true /\ can_run c' 0 = true /\
  (exists s, eligible c' 0 s) /\ points c' 0 (bp_next (get_prop c' 0)) = None.
Proof.
  intros H1 H2 H3 H4 H5 H6 H7 H8 H9. destruct (get_pool c 0) as [pl|]; [|done]. injection H8 as H8. exists pl. rewrite H3, H8.
  split; [done|]. split; [by eapply over_at|]. split; [done|]. split; [done|]. split; [|done]. exists 2%N. by eapply eligible_at.
Qed.
Lemma big_time : 700 + 60 + b_timeout (c_bp (after big)) <= c_time (after big). Proof. apply Z.leb_le. vm_cast_no_check (eq_refl true). Qed.
Lemma big_refutes : exists g ops p pl, genesis g /\ cops_ok (gstart g) (ops ++ [CEnd]) /\
  let c := crun (gstart g) ops in let c' := crun (gstart g) (ops ++ [CEnd]) in
  get_pool c p = Some pl /\ deadline_over c p (pl_interval pl) /\ can_run c p = true /\ can_run c' p = true /\
  (exists s, eligible c' p s) /\ points c' p (bp_next (get_prop c' p)) = None.
Proof.
  pose proof big_state as (H1 & H2 & H3 & H4 & H5 & H6 & H7 & H8).
  destruct (big_abs _ _ _ _ _ H1 H2 H3 H4 H5 H6 H7 H8 big_time) as (pl & H).
  exact (ex_intro _ gen0 (ex_intro _ big (ex_intro _ 0%N (ex_intro _ pl (conj gen0_genesis (conj (with_end _ _ big_ok) H)))))).
Qed.
(** The next uploader 1 lets the deadline pass while a bundle without quorum is stored: when the
    block comes late enough, dropping the bundle restarts the clock, and 1 gets no point. *)
Definition jump : list cop := setup ++ first ++ [CBegin 110 0; CVote 0 2 12 51 Abstain; CEnd; CBegin 800 0].
Lemma jump_ok : cops_ok g0 jump. Proof. apply cops_okb_ok. vm_cast_no_check (eq_refl true). Qed.
Lemma jump_state : nxt jump = (1%N, 100) /\ can_run (after jump) 0 = true /\ points (after jump) 0 1 = Some 0 /\
  points (after (jump ++ [CEnd])) 0 1 = Some 0 /\
  (pl_interval <$> get_pool (after jump) 0) = Some 60.
Proof. repeat (split; [by vm_compute|]). by vm_compute. Qed.
Lemma jump_abs c c' n u i : (bp_next (get_prop c 0), bp_updated (get_prop c 0)) = (n, u) -> can_run c 0 = true -> points c 0 n = Some 0 -> points c' 0 n = Some 0 ->
  (pl_interval <$> get_pool c 0) = Some i -> u + i + b_timeout (c_bp c) <= c_time c ->
  exists pl, get_pool c 0 = Some pl /\ deadline_over c 0 (pl_interval pl) /\ can_run c 0 = true /\ ~ pointed c c' 0 (bp_next (get_prop c 0)).
Proof.
  intros H1 H2 H3 H4 H8 H9. injection H1 as Hn Hu. destruct (get_pool c 0) as [pl|]; [|done]. injection H8 as H8. exists pl. rewrite H8.
  split; [done|]. split; [unfold deadline_over; by rewrite Hu|]. split; [done|].
  unfold pointed. rewrite Hn, H3, H4. intros [?|(v & [= <-] & Hv)]; [done|lia].
Qed.
Lemma jump_time : 100 + 60 + b_timeout (c_bp (after jump)) <= c_time (after jump). Proof. apply Z.leb_le. vm_cast_no_check (eq_refl true). Qed.
Lemma jump_refutes : exists g ops p pl, genesis g /\ cops_ok (gstart g) (ops ++ [CEnd]) /\
  let c := crun (gstart g) ops in let c' := crun (gstart g) (ops ++ [CEnd]) in
  get_pool c p = Some pl /\ deadline_over c p (pl_interval pl) /\ can_run c p = true /\
  ~ pointed c c' p (bp_next (get_prop c p)).
Proof.
  pose proof jump_state as (H1 & H2 & H3 & H4 & H8).
  destruct (jump_abs _ _ _ _ _ H1 H2 H3 H4 H8 jump_time) as (pl & H).
  exact (ex_intro _ gen0 (ex_intro _ jump (ex_intro _ 0%N (ex_intro _ pl (conj gen0_genesis (conj (with_end _ _ jump_ok) H)))))).
Qed.
(** ** C18, C19 *)
Definition poll : list cop := setup ++ first ++ [CBegin 110 0; CVote 0 2 12 51 Abstain; CVote 0 3 13 51 Invalid].
Lemma poll_ok : cops_ok g0 poll. Proof. apply cops_okb_ok. vm_cast_no_check (eq_refl true). Qed.
Definition lists (c : chain) : list (list N) := let b := get_prop c 0 in [bp_valid b; bp_invalid b; bp_abstain b].
(** 2 may change from abstain to valid; 3 may not vote again. *)
Lemma poll_case : lists (after poll) = [[1]; [3]; [2]]%N /\
  (match cmsg (after poll) (CVote 0 2 12 51 Valid) with Some c' => lists c' | None => [] end) = [[1; 2]; [3]; []]%N /\
  (match cmsg (after poll) (CVote 0 3 13 51 Valid) with Some _ => true | None => false end) = false /\
  (let v := distribution (after poll) 0 in (v_valid v, v_invalid v, v_abstain v, v_total v, v_status v)) = (1000, 1000, 1000, 3000, VNoQuorum) /\
  pool_power (after poll) 0 = 3000.
Proof. repeat (split; [by vm_compute|]). by vm_compute. Qed.
Lemma final_case : finalized (after silent3) 0 = 0%N /\
  finalized (cstep (after silent3) (CSubmit (sub 1 11 52 10 20 30 70))) 0 = 1%N /\ pool_power (after silent3) 0 = 3000.
Proof. split; [by vm_compute|]. split; by vm_compute. Qed.
Lemma poll_storage : bp_storage (get_prop (after poll) 0) = 51%N. Proof. by vm_compute. Qed.
