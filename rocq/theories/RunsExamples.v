(** * When a pool runs: concrete cases. *)
From Verif Require Import Base BaseFacts ChainFrame ArchiveInv BankMoves PoolFrame PoolInv PayoutClaims Delegation Stakers Funders Team RoundRobin Pool Bundles Chain ChainLift PoolClaims TallyFacts VoteClaims StepCases PointsInv TallyClaims TallyEffects TallyProps
  ChainExamples PoolExamples LiveClaims RunsClaims.

(** Nobody may have more than half of a pool; 1 has half of it. *)
Definition half : list cop := setup ++ [CBegin 30 0; CDelegate 1 1 2000; CDelegate 2 2 1000; CParamsP AUTHORITY (mkPP (ONE / 25) (ONE / 10) (ONE / 2)); CEnd].
Definition up (s v : N) (t : Z) (st : N) (from : Z) (k : N) : list cop := [CBegin t 0; CSubmit (sub s v st 10 from 20 k)].
Definition look (c : chain) := (bp_valid (get_prop c 0), finalized c 0, map (points c 0) [1; 2; 3]%N, map (stake_of c) [1; 2; 3]%N, can_run c 0).
(** 1 uploads and 2 agrees; 1 uploads again, which finalizes the first bundle, and nobody votes. *)
Definition agree : list cop := half ++ up 1 11 100 51 0 60 ++ [CVote 0 2 12 51 Valid; CEnd; CBegin 165 0].
Definition next1 : cop := CSubmit (sub 1 11 52 10 20 20 70).
Definition alone : list cop := agree ++ [next1; CEnd; CBegin 230 0].
Definition skip2 : cop := CSkip 0 2 12 40.
Lemma alone_ok : cops_ok g0 (alone ++ [skip2]). Proof. apply cops_okb_ok. vm_cast_no_check (eq_refl true). Qed.
Lemma cut_ok l m : cops_ok g0 (l ++ m) -> cops_ok g0 l. Proof. intros H. by apply cops_ok_app in H as [H _]. Qed.
Lemma agree_ok : cops_ok g0 agree.
Proof. apply (cut_ok agree ([next1; CEnd; CBegin 230 0] ++ [skip2])). pose proof alone_ok as H. unfold alone in H. by rewrite <- app_assoc in H. Qed.
Lemma alone_look : map (fun l => look (after l)) [half; agree; agree ++ [next1]; alone; alone ++ [skip2]] =
  [ ([], 0%N, [Some 0; Some 0; Some 0], [3000; 2000; 1000], true); ([1%N; 2%N], 0%N, [Some 0; Some 0; Some 0], [3000; 2000; 1000], true);
    ([1%N], 1%N, [Some 0; Some 0; Some 1], [3000; 2000; 1000], true); ([1%N], 1%N, [Some 0; Some 0; Some 1], [3000; 2000; 1000], true);
    ([], 2%N, [Some 0; Some 1; None], [3000; 2000; 980], false) ].
Proof. by vm_compute. Qed.
Definition facts (c : chain) := (all_stake c 0, supporters c 0, pp_maxvp (c_pp c), b_maxpoints (c_bp c), bp_invalid (get_prop c 0), bp_abstain (get_prop c 0)).
Lemma agree_facts : facts (after agree) = (6000, [1; 2]%N, ONE / 2, 2, [], []) /\ facts (after alone) = (6000, [1%N], ONE / 2, 2, [], []).
Proof. split; by vm_compute. Qed.
Lemma opt_some {A} (o : option A) : (if o then true else false) = true -> is_Some o.
Proof. destruct o; [by eexists|done]. Qed.
Lemma agree_accepts : is_Some (cmsg (after agree) next1) /\ is_Some (cmsg (after alone) skip2).
Proof. split; apply opt_some; by vm_compute. Qed.
Lemma agree_members : members (after agree) 0 = [1; 2; 3]%N /\ bp_valid (get_prop (after agree) 0) = [1; 2]%N /\ points (after agree) 0 3 = Some 0 /\
  b_maxpoints (c_bp (after agree)) = 2 /\ bp_storage (get_prop (after agree) 0) = 51%N.
Proof. repeat split; by vm_compute. Qed.
Lemma few_out c p : members c p = [1; 2; 3]%N -> bp_valid (get_prop c p) = [1; 2]%N -> points c p 3 = Some 0 -> b_maxpoints (c_bp c) = 2 -> nobody_out c p 1.
Proof.
  intros H1 H2 H3 H4 s v Hs Hon. assert (Hm : s ∈ members c p) by (apply member_in; unfold is_member; by rewrite Hs). rewrite H1 in Hm. rewrite H4.
  unfold on_list in Hon. rewrite H2 in Hon. apply elem_of_cons in Hm as [->|Hm]; [destruct Hon; left; by left|].
  apply elem_of_cons in Hm as [->|Hm]; [destruct Hon; left; right; by left|]. apply elem_of_list_singleton in Hm as ->.
  rewrite H3 in Hs. injection Hs as <-. unfold start. rewrite decide_False by done. lia.
Qed.
Lemma agree_case : tallies (after agree) 0 1 next1 /\ is_Some (cmsg (after agree) next1) /\ nobody_out (after agree) 0 1.
Proof.
  destruct agree_members as (H1 & H2 & H3 & H4 & H5). split; [apply tallies_submit; [done..|by rewrite H5]|]. split; [apply agree_accepts|by apply few_out].
Qed.
Definition brief (c : chain) := (can_run c 0, all_stake c 0, supporters c 0, pp_maxvp (c_pp c), finalized c 0).
Lemma alone_brief : brief (after alone) = (true, 6000, [1%N], ONE / 2, 1%N) /\ finalized (after (alone ++ [skip2])) 0 = 2%N.
Proof. split; by vm_compute. Qed.
Lemma brief_eq c a b d e f : brief c = (a, b, d, e, f) -> can_run c 0 = a /\ all_stake c 0 = b /\ supporters c 0 = d /\ pp_maxvp (c_pp c) = e /\ finalized c 0 = f.
Proof. unfold brief. by intros [= -> -> -> -> ->]. Qed.
Lemma alone_refutes : exists g ops o p who s, genesis g /\ cops_ok (gstart g) (ops ++ [o]) /\
  let c := crun (gstart g) ops in let c' := crun (gstart g) (ops ++ [o]) in
  tallies c p who o /\ may_run c p /\ pp_maxvp (c_pp c) = ONE / 2 /\ supporters c p = [s] /\ finalized c' p = (finalized c p + 1)%N.
Proof.
  refine (ex_intro _ gen0 (ex_intro _ alone (ex_intro _ skip2 (ex_intro _ 0%N (ex_intro _ 2%N (ex_intro _ 1%N (conj gen0_genesis (conj alone_ok _)))))))).
  cbv zeta. pose proof alone_ok as Hok. apply cut_ok in Hok.
  pose proof (claim_runs gen0 alone 0 gen0_genesis) as Hr. rewrite gen0_start in *. specialize (Hr Hok). cbv zeta in Hr.
  destruct alone_brief as [H1 H2]. apply brief_eq in H1 as (A1 & A2 & A3 & A4 & A5).
  change (crun g0 alone) with (after alone) in *. change (crun g0 (alone ++ [skip2])) with (after (alone ++ [skip2])).
  split; [apply tallies_skip|]. split; [|split; [exact A4|split; [exact A3|]]].
  - rewrite A2 in Hr. by apply Hr.
  - rewrite H2, A5. done.
Qed.
(** The next uploader does not act: the end of a block finalizes the bundle. *)
Definition block : list cop := setup ++ first ++ [CBegin 110 0; CVote 0 2 12 51 Valid; CEnd; CBegin 761 0].
Lemma block_ok : cops_ok g0 block. Proof. apply cops_okb_ok. vm_cast_no_check (eq_refl true). Qed.
Lemma block_case : brief (after block) = (true, 3000, [1; 2]%N, ONE, 0%N) /\ bp_storage (get_prop (after block) 0) = 51%N /\
  finalized (cstep (after block) CEnd) 0 = 1%N /\ c_halt (cstep (after block) CEnd) = false.
Proof. repeat split; by vm_compute. Qed.
