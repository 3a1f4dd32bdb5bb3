(** * Moving stake during a vote: concrete case. *)
From Verif Require Import Base BaseFacts ChainFrame ArchiveInv BankMoves PoolFrame PoolInv PayoutClaims Delegation Stakers Funders Team RoundRobin Pool Bundles Chain ChainLift PoolClaims TallyFacts VoteClaims StepCases PointsInv TallyClaims TallyEffects TallyProps
  ChainExamples PoolExamples LiveClaims RunsClaims SwingClaims RunsExamples.

(** 5 has delegated 3000 to 3. 1 uploads, 2 and 3 vote against the bundle: nobody is left to vote. *)
Definition voted_all : list cop := setup ++ [CBegin 30 0; CDelegate 5 3 3000; CEnd] ++ first ++ [CBegin 110 0; CVote 0 2 12 51 Invalid; CVote 0 3 13 51 Invalid; CEnd; CBegin 761 0].
(** 5 moves the stake to 1. *)
Definition shift : cop := CRedelegate 5 3 1 3000.
(** Stake of the pool, for and against the bundle, bundles, stakes, points, where 5 has delegated. *)
Definition view (c : chain) := (all_stake c 0, for_it c 0, against_it c 0, finalized c 0, map (stake_of c) [1;2;3]%N, map (points c 0) [1;2;3]%N, map (fun s => delegation_of (c_d c) s 5) [1; 3]%N).
Lemma voted_ok : cops_ok g0 (voted_all ++ [shift; CEnd]). Proof. apply cops_okb_ok. vm_cast_no_check (eq_refl true). Qed.
Lemma voted_ok1 : cops_ok g0 (voted_all ++ [shift]).
Proof. pose proof voted_ok as H. change [shift; CEnd] with ([shift] ++ [CEnd]) in H. rewrite app_assoc in H. by apply cops_ok_app in H as [H _]. Qed.
Lemma voted_view : map (fun l => view (crun (after voted_all) l)) [[]; [shift]; [CEnd]; [shift; CEnd]] =
  [ (6000, 1000, 5000, 0%N, [1000; 1000; 4000], [Some 0; Some 0; Some 0], [0; 3000]); (6000, 4000, 2000, 0%N, [4000; 1000; 1000], [Some 0; Some 0; Some 0], [3000; 0]);
    (5000, 0, 0, 0%N, [800; 1000; 4000], [None; Some 0; Some 1], [0; 3000]); (4000, 0, 0, 1%N, [4000; 900; 900], [Some 0; None; None], [3000; 0]) ].
Proof. by vm_compute. Qed.
Lemma shift_accepted : is_Some (cmsg (after voted_all) shift). Proof. apply opt_some. by vm_compute. Qed.
Lemma voted_lists : members (after voted_all) 0 = [1; 2; 3]%N /\ bp_valid (get_prop (after voted_all) 0) = [1%N] /\ bp_invalid (get_prop (after voted_all) 0) = [2; 3]%N /\
  supporters (after voted_all) 0 = [1%N].
Proof. repeat split; by vm_compute. Qed.
Lemma all_on_list c : members c 0 = [1; 2; 3]%N -> bp_valid (get_prop c 0) = [1%N] -> bp_invalid (get_prop c 0) = [2; 3]%N -> forall s, is_member c 0 s -> on_list (get_prop c 0) s.
Proof. intros H1 H2 H3 s Hs. apply member_in in Hs. rewrite H1 in Hs. unfold on_list. rewrite H2, H3. set_solver. Qed.
Definition numbers (c : chain) := (all_stake c 0, against_it c 0, finalized c 0).
Lemma numbers_eq c a b d : numbers c = (a, b, d) -> all_stake c 0 = a /\ against_it c 0 = b /\ finalized c 0 = d.
Proof. unfold numbers. by intros [= -> -> ->]. Qed.
Lemma voted_numbers : numbers (after voted_all) = (6000, 5000, 0%N) /\ finalized (cstep (after voted_all) CEnd) 0 = 0%N /\
  finalized (cstep (cstep (after voted_all) shift) CEnd) 0 = 1%N /\ points (cstep (cstep (after voted_all) shift) CEnd) 0 2 = None /\ points (cstep (cstep (after voted_all) shift) CEnd) 0 3 = None.
Proof. repeat split; by vm_compute. Qed.
Lemma decided_by (c c0 c1 : chain) : numbers c = (6000, 5000, 0%N) -> finalized c0 0 = 0%N -> finalized c1 0 = 1%N -> points c1 0 2 = None -> points c1 0 3 = None ->
  members c 0 = [1; 2; 3]%N -> bp_valid (get_prop c 0) = [1%N] -> bp_invalid (get_prop c 0) = [2; 3]%N ->
  (forall s, is_member c 0 s -> on_list (get_prop c 0) s) /\ opposed c 0 /\ finalized c0 0 = finalized c 0 /\ finalized c1 0 = (finalized c 0 + 1)%N /\
  (forall s, s ∈ bp_invalid (get_prop c 0) -> ~ is_member c1 0 s).
Proof.
  intros H1 H2 H3 P2 P3 L1 L2 L3. apply numbers_eq in H1 as (A1 & A2 & A3).
  split; [by apply all_on_list|]. split; [unfold opposed; rewrite A1, A2; lia|]. split; [by rewrite H2, A3|]. split; [by rewrite H3, A3|]. rewrite L3.
  intros s Hs Hm. unfold is_member in Hm. apply elem_of_cons in Hs as [->|Hs]; [by rewrite P2 in Hm|]. apply elem_of_list_singleton in Hs as ->. by rewrite P3 in Hm.
Qed.
Lemma decided_refuted : exists g ops o p, genesis g /\ cops_ok (gstart g) (ops ++ [o; CEnd]) /\ let c := crun (gstart g) ops in
  let c1 := cstep (cstep c o) CEnd in (forall s, is_member c p s -> on_list (get_prop c p) s) /\ opposed c p /\ moves o /\ is_Some (cmsg c o) /\
  finalized (cstep c CEnd) p = finalized c p /\ finalized c1 p = (finalized c p + 1)%N /\ (forall s, s ∈ bp_invalid (get_prop c p) -> ~ is_member c1 p s).
Proof.
  refine (ex_intro _ gen0 (ex_intro _ voted_all (ex_intro _ shift (ex_intro _ 0%N (conj gen0_genesis (conj voted_ok _)))))). cbv zeta. rewrite gen0_start.
  destruct voted_numbers as (H1 & H2 & H3 & P2 & P3). destruct voted_lists as (L1 & L2 & L3 & _).
  destruct (decided_by _ _ _ H1 H2 H3 P2 P3 L1 L2 L3) as (B1 & B2 & B3 & B4 & B5).
  exact (conj B1 (conj B2 (conj I (conj shift_accepted (conj B3 (conj B4 B5)))))).
Qed.
