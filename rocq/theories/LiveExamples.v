(** * Bundles that are settled in time, and two that are not: concrete cases. *)
From Verif Require Import Base BaseFacts Delegation Stakers StakersInv Funders Team RoundRobin Pool Bundles Chain ChainFrame ArchiveInv
  BankMoves ChainLift PoolFrame PoolInv PayoutClaims PoolClaims TallyFacts VoteClaims StepCases PointsInv TallyClaims TallyEffects TallyProps ChainExamples PoolExamples LiveClaims.

(** What is seen of a pool: whether it can run, the stake for and against its bundle, all stake, the bundle, the number of bundles. *)
Definition look (c : chain) : bool * (Z * Z * Z) * N * N :=
  (can_run c 0, (for_it c 0, against_it c 0, all_stake c 0), bp_storage (get_prop c 0), finalized c 0).
(** The bundle stored at 100 by staker 1; interval 60, timeout 600. Without further votes it is dropped at 160; with the
    vote of 2 it waits and is finalized at 760; with the votes of 2 and 3 against it, it is dropped at 760. *)
Definition yes : list cop := setup ++ first ++ [CBegin 110 0; CVote 0 2 12 51 Valid; CEnd; CBegin 759 0; CEnd; CBegin 760 0].
Definition no : list cop := setup ++ first ++ [CBegin 110 0; CVote 0 2 12 51 Invalid; CVote 0 3 13 51 Invalid; CEnd; CBegin 759 0; CEnd; CBegin 760 0].
Definition none : list cop := setup ++ first ++ [CBegin 159 0; CEnd; CBegin 160 0].
Lemma live_ok : cops_ok g0 yes /\ cops_ok g0 no /\ cops_ok g0 none.
Proof. split; [|split]; apply cops_okb_ok; vm_cast_no_check (eq_refl true). Qed.
Definition both (ops : list cop) := let c := after ops in (look c, snd (fst (look (cstep c CEnd))), snd (look (cstep c CEnd)), c_halt (cstep c CEnd)).
Lemma live_case : map both [yes; no; none] =
  [ (true, (2000, 0, 3000), 51%N, 0%N, 0%N, 1%N, false); (true, (1000, 2000, 3000), 51%N, 0%N, 0%N, 0%N, false);
    (true, (1000, 0, 3000), 51%N, 0%N, 0%N, 0%N, false) ].
Proof. by vm_compute. Qed.

(** ** The end key *)
(** The pool is to end at key 61, the last key of the first bundle. Submitting the second bundle
    finalizes the first; the pool has ended then, and the second is stored. *)
Definition until61 : cop := CUpdatePool AUTHORITY 0 (mkUA None (Some 61%N) None None None None None None).
Definition at_end : list cop := setup ++ [CBegin 90 0; until61; CEnd] ++ first ++ [CBegin 110 0; CVote 0 2 12 51 Valid; CEnd; CBegin 200 0; CSubmit (sub 1 11 52 10 20 30 70); CEnd].
Lemma at_end_ok : cops_ok g0 at_end. Proof. apply cops_okb_ok. vm_cast_no_check (eq_refl true). Qed.
Definition end_look (c : chain) := (bp_storage (get_prop c 0), (fun pl => (pl_disabled pl, pl_endkey pl, pl_key pl, pl_total pl)) <$> get_pool c 0).
Lemma at_end_look : end_look (after at_end) = (52%N, Some (false, 61%N, 61%N, 1%N)). Proof. by vm_compute. Qed.
Lemma at_end_ended : ended (after at_end) 0 /\ waits (after at_end) 0.
Proof.
  pose proof at_end_look as H. unfold end_look in H. set (c := after at_end) in *. clearbody c. injection H as H1 H2. split; [|unfold waits; by rewrite H1].
  destruct (get_pool c 0) as [pl|] eqn:E; [|done]. cbn in H2. injection H2 as E1 E2 E3 E4. exists pl. rewrite E2, E3. done.
Qed.
Lemma at_end_one : finalized (after at_end) 0 = 1%N. Proof. by vm_compute. Qed.
Lemma end_refutes : exists g ops p, genesis g /\ cops_ok (gstart g) ops /\ forall more, cops_ok (gstart g) (ops ++ more) ->
  Forall (fun o => changes_pool o p = false) more -> waits (crun (gstart g) (ops ++ more)) p /\ finalized (crun (gstart g) (ops ++ more)) p = 1%N.
Proof.
  refine (ex_intro _ gen0 (ex_intro _ at_end (ex_intro _ 0%N (conj gen0_genesis (conj at_end_ok _))))).
  apply (ended_forever gen0 at_end 0 1 gen0_genesis at_end_ok); rewrite gen0_start; [exact (proj1 at_end_ended)|exact (proj2 at_end_ended)|exact at_end_one].
Qed.

(** ** Points for votes nobody could cast *)
(** Right after the first bundle the pool needs more stake than it has; for 900 seconds no vote is
    accepted. When somebody delegates, the same block drops the bundle and 2 and 3 get a point. *)
Definition need (x : Z) : cop := CUpdatePool AUTHORITY 0 (mkUA None None None None (Some x) None None None).
Definition stored : list cop := setup ++ [CBegin 100 0; CSubmit (sub 1 11 51 10 0 20 60)].
Definition pause : list cop := [need 5000; CEnd; CBegin 500 0; CEnd; CBegin 1000 0].
Definition again : list cop := [CDelegate 1 1 2000; CEnd].
Lemma paused_ok : cops_ok g0 (stored ++ pause ++ again). Proof. apply cops_okb_ok. vm_cast_no_check (eq_refl true). Qed.
Definition as_is (c : chain) := (pool_error c 0, look c, bp_next (get_prop c 0), bp_updated (get_prop c 0), bp_valid (get_prop c 0)).
Lemma opt_some {A} (o : option A) : (if o then true else false) = true -> is_Some o.
Proof. destruct o; [by eexists|done]. Qed.
Lemma paused_case : let c := after (stored ++ [need 5000]) in is_Some (get_pool (upgraded c) 0) /\ c_halt (cstep c CEnd) = false /\ (as_is c, as_is (cstep c CEnd)) =
  ((Some EMinDelegation, (false, (1000, 0, 3000), 51%N, 0%N), 1%N, 100, [1%N]), (Some EMinDelegation, (false, (1000, 0, 3000), 51%N, 0%N), 0%N, 100, [1%N])).
Proof. cbv zeta. split; [apply opt_some; by vm_compute|]. split; by vm_compute. Qed.
Definition stops (n : nat) : bool := negb (can_run (after (stored ++ take n pause)) 0).
Lemma paused_stops : forallb stops (seq 1 5) = true. Proof. by vm_compute. Qed.
Lemma paused_points : map (fun s => (points (after stored) 0 s, points (after (stored ++ pause ++ again)) 0 s)) [1; 2; 3]%N =
  [(Some 0, Some 0); (Some 0, Some 1); (Some 0, Some 1)] /\ look (after stored) = (true, (1000, 0, 3000), 51%N, 0%N) /\
  bp_storage (get_prop (after (stored ++ pause ++ again)) 0) = 0%N.
Proof. split; [by vm_compute|]. split; by vm_compute. Qed.
Lemma stopped_votes c p s v st w : can_run c p = false -> cmsg c (CVote p s v st w) = None.
Proof. intros H. cbn [cmsg]. unfold msg_vote, can_vote. by rewrite H. Qed.
Lemma paused_votes n u v st w : (1 <= n <= length pause)%nat -> cmsg (after (stored ++ take n pause)) (CVote 0 u v st w) = None.
Proof.
  intros Hn. apply stopped_votes. pose proof paused_stops as H. rewrite forallb_forall in H. specialize (H n).
  assert (Hs : stops n = true) by (apply H, in_seq; change (length pause) with 5%nat in Hn; lia). unfold stops in Hs. by apply negb_true_iff in Hs.
Qed.
Definition brief (c : chain) := (bp_storage (get_prop c 0), points c 0 2, c_time c).
Lemma paused_brief : brief (after stored) = (51%N, Some 0, 100) /\ brief (after (stored ++ pause ++ again)) = (0%N, Some 1, 1000).
Proof. split; by vm_compute. Qed.
Lemma brief_eq c st v t : brief c = (st, v, t) -> bp_storage (get_prop c 0) = st /\ points c 0 2 = v /\ c_time c = t.
Proof. unfold brief. intros [= -> -> ->]. done. Qed.
Lemma paused_facts : let c := after stored in let c' := after (stored ++ pause ++ again) in
  waits c 0 /\ points c 0 2 = Some 0 /\ c_time c + 900 <= c_time c' /\ points c' 0 2 = Some 1 /\ ~ waits c' 0.
Proof.
  cbv zeta. destruct paused_brief as [H1 H2]. apply brief_eq in H1, H2. revert H1 H2. generalize (after stored). generalize (after (stored ++ pause ++ again)).
  intros c' c (A1 & A2 & A3) (B1 & B2 & B3). unfold waits. rewrite A1, A2, A3, B1, B2, B3. repeat split; try done. by intros ?.
Qed.
Lemma paused_refutes : exists g ops pause d x a p s, genesis g /\ cops_ok (gstart g) (ops ++ pause ++ [CDelegate d x a; CEnd]) /\
  let c := crun (gstart g) ops in let c' := crun (gstart g) (ops ++ pause ++ [CDelegate d x a; CEnd]) in
  waits c p /\ points c p s = Some 0 /\ c_time c + 900 <= c_time c' /\
  (forall n u v st w, (1 <= n <= length pause)%nat -> cmsg (crun (gstart g) (ops ++ take n pause)) (CVote p u v st w) = None) /\
  points c' p s = Some 1 /\ ~ waits c' p.
Proof.
  refine (ex_intro _ gen0 (ex_intro _ stored (ex_intro _ pause (ex_intro _ 1%N (ex_intro _ 1%N (ex_intro _ 2000 (ex_intro _ 0%N (ex_intro _ 2%N
    (conj gen0_genesis (conj paused_ok _)))))))))). cbv zeta. rewrite gen0_start.
  destruct paused_facts as (H1 & H2 & H3 & H4 & H5). exact (conj H1 (conj H2 (conj H3 (conj paused_votes (conj H4 H5))))).
Qed.
