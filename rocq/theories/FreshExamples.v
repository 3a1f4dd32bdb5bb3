(** * A delegation just before a payout: concrete case. *)
From Verif Require Import Base BaseFacts ChainFrame ArchiveInv BankMoves PoolFrame PoolInv PayoutClaims Delegation DelegationClaims2 Stakers Funders Team RoundRobin Pool Bundles Chain ChainLift PoolClaims TallyFacts VoteClaims StepCases PointsInv TallyClaims TallyEffects TallyProps
  ChainExamples PoolExamples LiveClaims RunsClaims SwingClaims FreshClaims RunsExamples.

(** 1 has uploaded, everybody agrees, and the time of the vote is over. *)
Definition ready : list cop := setup ++ first ++ [CBegin 110 0; CVote 0 2 12 51 Valid; CVote 0 3 13 51 Valid; CEnd; CBegin 165 0].
Definition fresh : cop := CDelegate 5 1 9000.
Definition pays : cop := CSubmit (sub 1 11 52 10 20 20 70).
Definition away : cop := CRedelegate 5 1 2 9000.
(** What 1 and 5 can withdraw at 1; the delegations of 5 to 1 and 2; the coins of 5. *)
Definition purse (c : chain) := (finalized c 0, map (fun d => amt (payable (c_d c) 1 d) KYVE) [1; 5]%N, map (fun s => delegation_of (c_d c) s 5) [1; 2]%N, bal (c_bank c) (User 5) KYVE).
Lemma ready_ok : cops_ok g0 (ready ++ [fresh; pays; away]). Proof. apply cops_okb_ok. vm_cast_no_check (eq_refl true). Qed.
Lemma ready_purse : map (fun l => purse (crun (after ready) l)) [[]; [pays]; [fresh; pays]; [fresh; pays; away]] =
  [ (0%N, [0; 0], [0; 0], 835000000000000000); (1%N, [90; 0], [0; 0], 835000000000000000); (1%N, [9; 81], [9000; 0], 834999999999991000);
    (1%N, [9; 0], [0; 9000], 834999999999991081) ].
Proof. by vm_compute. Qed.
Lemma fresh_accepted : is_Some (cmsg (after ready) fresh). Proof. apply opt_some. by vm_compute. Qed.
Lemma ready_lists : members (after ready) 0 = [1; 2; 3]%N /\ bp_valid (get_prop (after ready) 0) = [1; 2; 3]%N /\ map (fun s => delegation_of (c_d (after ready)) s 5) [1; 2; 3]%N = [0; 0; 0].
Proof. repeat split; by vm_compute. Qed.
Lemma ready_numbers : finalized (after ready) 0 = 0%N /\ finalized (cstep (cstep (after ready) fresh) pays) 0 = 1%N /\
  amt (payable (c_d (cstep (cstep (after ready) fresh) pays)) 1 5) KYVE = 81 /\ amt (payable (c_d (cstep (cstep (after ready) fresh) pays)) 1 1) KYVE = 9 /\
  amt (payable (c_d (cstep (after ready) pays)) 1 1) KYVE = 90.
Proof. repeat split; by vm_compute. Qed.
Lemma fresh_by (c c0 c1 : chain) : members c 0 = [1; 2; 3]%N -> bp_valid (get_prop c 0) = [1; 2; 3]%N -> map (fun s => delegation_of (c_d c) s 5) [1; 2; 3]%N = [0; 0; 0] ->
  finalized c 0 = 0%N -> finalized c1 0 = 1%N -> amt (payable (c_d c1) 1 5) KYVE = 81 -> amt (payable (c_d c1) 1 1) KYVE = 9 -> amt (payable (c_d c0) 1 1) KYVE = 90 ->
  (forall s, is_member c 0 s -> on_list (get_prop c 0) s /\ delegation_of (c_d c) s 5 = 0) /\ finalized c1 0 = (finalized c 0 + 1)%N /\
  0 < amt (payable (c_d c1) 1 5) KYVE /\ amt (payable (c_d c1) 1 1) KYVE < amt (payable (c_d c0) 1 1) KYVE.
Proof.
  intros H1 H2 H3 H4 H5 H6 H7 H8. split; [|rewrite H4, H5, H6, H7, H8; split_and!; done]. intros s Hs. apply member_in in Hs. rewrite H1 in Hs.
  cbn [map] in H3. injection H3 as D1 D2 D3. split; [unfold on_list; rewrite H2; by left|].
  apply elem_of_cons in Hs as [->|Hs]; [done|]. apply elem_of_cons in Hs as [->|Hs]; [done|]. by apply elem_of_list_singleton in Hs as ->.
Qed.
Lemma fresh_ok : cops_ok g0 (ready ++ [fresh; pays]).
Proof. pose proof ready_ok as H. change [fresh; pays; away] with ([fresh; pays] ++ [away]) in H. rewrite app_assoc in H. by apply cops_ok_app in H as [H _]. Qed.
Lemma fresh_refuted : exists g ops o t p s d, genesis g /\ cops_ok (gstart g) (ops ++ [o; t]) /\ let c := crun (gstart g) ops in let c1 := cstep (cstep c o) t in
  moves o /\ is_Some (cmsg c o) /\ (forall s, is_member c p s -> on_list (get_prop c p) s /\ delegation_of (c_d c) s d = 0) /\
  finalized c1 p = (finalized c p + 1)%N /\ 0 < amt (payable (c_d c1) s d) KYVE /\ amt (payable (c_d c1) s s) KYVE < amt (payable (c_d (cstep c t)) s s) KYVE.
Proof.
  refine (ex_intro _ gen0 (ex_intro _ ready (ex_intro _ fresh (ex_intro _ pays (ex_intro _ 0%N (ex_intro _ 1%N (ex_intro _ 5%N (conj gen0_genesis (conj fresh_ok _))))))))).
  cbv zeta. rewrite gen0_start. destruct ready_numbers as (N1 & N2 & N3 & N4 & N5). destruct ready_lists as (L1 & L2 & L3).
  exact (conj I (conj fresh_accepted (fresh_by _ _ _ L1 L2 L3 N1 N2 N3 N4 N5))).
Qed.
