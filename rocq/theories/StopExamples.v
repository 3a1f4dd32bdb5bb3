(** * A delegation that stops a pool: concrete case. *)
From Verif Require Import Base BaseFacts ChainFrame ArchiveInv BankMoves PoolFrame PoolInv PayoutClaims Delegation Stakers Funders Team RoundRobin Pool Bundles Chain ChainLift PoolClaims TallyFacts VoteClaims StepCases PointsInv TallyClaims TallyEffects TallyProps
  ChainExamples PoolExamples LiveClaims RunsClaims SwingClaims StopClaims RunsExamples.

(** In [agree] 1, 2 and 3 have 3000, 2000 and 1000, nobody may have more than half, a bundle has its
    majority and 1 is about to submit the next one ([next1]). 5 delegates one unit to 1, or to 2. *)
Definition poke (s : N) : cop := CDelegate 5 s 1.
Definition runs_to (c : chain) := (can_run c 0, stake_of c 1, all_stake c 0, if cmsg c next1 then true else false).
Lemma poke_ok s : cops_ok g0 (agree ++ [poke s]).
Proof. apply cops_ok_app. split; [exact agree_ok|]. split; [|done]. cbn. unfold two63. lia. Qed.
Lemma poke_accepted : is_Some (cmsg (after agree) (poke 1)) /\ is_Some (cmsg (after agree) (poke 2)). Proof. split; apply opt_some; by vm_compute. Qed.
Lemma poke_view : map (fun l => runs_to (crun (after agree) l)) [[]; [poke 1]; [poke 2]; [poke 1; poke 2]] =
  [ (true, 3000, 6000, true); (false, 3001, 6001, false); (true, 3000, 6001, true); (true, 3001, 6002, true) ].
Proof. by vm_compute. Qed.
Lemma poke_numbers : can_run (after agree) 0 = true /\ can_run (cstep (after agree) (poke 1)) 0 = false /\ bp_storage (get_prop (after agree) 0) = 51%N /\
  members (after agree) 0 = [1; 2; 3]%N /\ map (fun s => delegation_of (c_d (after agree)) s 5) [1; 2; 3]%N = [0; 0; 0].
Proof. repeat split; by vm_compute. Qed.
Lemma poke_by (c c1 : chain) : can_run c 0 = true -> can_run c1 0 = false -> bp_storage (get_prop c 0) = 51%N -> members c 0 = [1; 2; 3]%N ->
  map (fun s => delegation_of (c_d c) s 5) [1; 2; 3]%N = [0; 0; 0] ->
  waits c 0 /\ can_run c 0 = true /\ (forall s, is_member c 0 s -> delegation_of (c_d c) s 5 = 0) /\ can_run c1 0 = false /\
  (forall m, sb_pool m = 0%N -> cmsg c1 (CSubmit m) = None) /\ (forall s v st w, cmsg c1 (CVote 0 s v st w) = None) /\ (forall s v from, cmsg c1 (CSkip 0 s v from) = None).
Proof.
  intros H1 H2 H3 H4 H5. split; [unfold waits; by rewrite H3|]. split; [done|]. split; [|split; [done|destruct (status_none c1 0 H2) as (A & B & C & _); done]].
  intros s Hs. apply member_in in Hs. rewrite H4 in Hs. cbn [map] in H5. injection H5 as D1 D2 D3.
  apply elem_of_cons in Hs as [->|Hs]; [done|]. apply elem_of_cons in Hs as [->|Hs]; [done|]. by apply elem_of_list_singleton in Hs as ->.
Qed.
Lemma outsider_refuted : exists g ops d s p, genesis g /\ cops_ok (gstart g) (ops ++ [CDelegate d s 1]) /\ let c := crun (gstart g) ops in let c1 := cstep c (CDelegate d s 1) in
  waits c p /\ can_run c p = true /\ (forall s, is_member c p s -> delegation_of (c_d c) s d = 0) /\ can_run c1 p = false /\
  (forall m, sb_pool m = p -> cmsg c1 (CSubmit m) = None) /\ (forall s v st w, cmsg c1 (CVote p s v st w) = None) /\ (forall s v from, cmsg c1 (CSkip p s v from) = None).
Proof.
  refine (ex_intro _ gen0 (ex_intro _ agree (ex_intro _ 5%N (ex_intro _ 1%N (ex_intro _ 0%N (conj gen0_genesis (conj (poke_ok 1) _))))))).
  cbv zeta. rewrite gen0_start. destruct poke_numbers as (N1 & N2 & N3 & N4 & N5). exact (poke_by _ _ N1 N2 N3 N4 N5).
Qed.
