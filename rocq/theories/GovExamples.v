(** * Governance: a concrete case and a counterexample. *)
From Verif Require Import Base BaseFacts Delegation SlashCount Stakers StakersInv Funders Team RoundRobin Pool Bundles Chain ChainFrame ArchiveInv
  ChainLift ChainExamples PoolExamples Query IndexInv QueryClaims Gov GovClaims.

(** 4 delegates to the stakers 2 and 3; 3 votes against a valid bundle, is slashed by a tenth and
    removed, joins the pool again. *)
Definition govh : list cop :=
  setup ++ first ++ [ CBegin 105 0; CDelegate 4 2 700; CDelegate 4 3 77; CDelegate 5 3 88; CEnd ] ++ second ++ [ CBegin 220 0; CJoin 3 0 13 100 ].
Lemma govh_ok : cops_ok g0 govh. Proof. apply cops_okb_ok. vm_cast_no_check (eq_refl true). Qed.
Definition v3 : govinfo := mkGovInfo 3 1049 1049.
Lemma govh_case : let c := after govh in
  total_bonded c = 3749 /\ In v3 (active_validators c) /\ length (active_validators c) = 3%nat /\
  map (fun d => cast c d 3) [3; 4; 5; 6]%N = [900; 69; 79; 0] /\ cast c 4 2 = 700 /\ cast c 4 1 = 0 /\
  delegation_amount (c_d c) 3 = 1049 /\ length (recorded (c_d c) 3) = 1%nat /\ size (cjoined govh 3) = 3%nat.
Proof.
  cbv zeta. split; [by vm_compute|]. split; [|repeat (split; [by vm_compute|]); by vm_compute].
  assert (E : List.filter (fun v => (gi_addr v =? 3)%N) (active_validators (after govh)) = [v3]) by (by vm_compute).
  assert (H : In v3 (List.filter (fun v => (gi_addr v =? 3)%N) (active_validators (after govh)))) by (rewrite E; by left).
  exact (proj1 (proj1 (filter_In _ _ _) H)).
Qed.
(** The hypotheses of [claim_votes] hold there. *)
Lemma govh_votes : lsum (fun d => cast (after govh) d 3) [4; 5]%N = 148 /\
  counted v3 (1049 - 148) = Some (dec_of_int (1049 - 148)).
Proof.
  destruct govh_case as (_ & H1 & _ & _ & _ & _ & H2 & H3 & H4).
  assert (E : lsum (fun d => cast (after govh) d 3) [4; 5]%N = 148) by (by vm_compute). split; [exact E|].
  assert (HD : NoDup [4; 5]%N) by (apply (bool_decide_unpack (NoDup [4; 5]%N)); by vm_compute).
  pose proof (claim_votes gen0 govh v3 [4; 5]%N gen0_genesis govh_ok) as H. cbv zeta in H. change (gstart gen0) with g0 in H.
  change (gi_addr v3) with 3%N in H. change (gi_shares v3) with 1049 in H. change (gi_bonded v3) with 1049 in H.
  rewrite H2, H3, H4, E in H. destruct H as (_ & _ & _ & H); [exact H1|lia|unfold two63; lia|unfold ONE; lia|exact HD|exact H].
Qed.

(** A staker takes out its whole stake and stays in its pool: a validator with zero shares. *)
Definition empty_validator : list cop := setup ++ [ CBegin 30 0; CUndelegate 3 3 1000; CEnd; CBegin 200 0 ].
Lemma empty_validator_ok : cops_ok g0 empty_validator. Proof. apply cops_okb_ok. vm_cast_no_check (eq_refl true). Qed.
Lemma empty_refutes : exists g ops v, genesis g /\ cops_ok (gstart g) ops /\
  In v (active_validators (crun (gstart g) ops)) /\ forall shares, counted v shares = None.
Proof.
  exists gen0, empty_validator, (mkGovInfo 3 0 0). split; [exact gen0_genesis|]. split; [exact empty_validator_ok|]. split; [|done].
  assert (E : List.filter (fun v => (gi_addr v =? 3)%N) (active_validators (after empty_validator)) = [mkGovInfo 3 0 0]) by (by vm_compute).
  assert (H : In (mkGovInfo 3 0 0) (List.filter (fun v => (gi_addr v =? 3)%N) (active_validators (after empty_validator)))) by (rewrite E; by left).
  exact (proj1 (proj1 (filter_In _ _ _) H)).
Qed.
