(** * What a finalized bundle pays: concrete cases. *)
From Verif Require Import Base BaseFacts Delegation Stakers Funders Team RoundRobin Pool Bundles Chain ChainFrame ArchiveInv
  BankMoves ChainLift PoolInv PayoutClaims PoolClaims PayFlow ChainExamples PoolExamples.

(** Up to the block in which staker 1 submits their second bundle: the first is paid. *)
Definition before_second : list cop := setup ++ first ++ take 5 second.
Definition second_sub : cop := CSubmit (sub 1 11 52 10 20 30 70).
(** Up to the end of a block long after the uploader's time was up: the bundle is paid there. *)
Definition before_late : list cop := setup ++ first ++ [CBegin 110 1000; CVote 0 2 12 51 Valid; CEnd; CBegin 1000 1000].
Definition purse (ops : list cop) : list Z := map (held ops) [MFunders; PoolAcc 0; Treasury; MStakers; MDelegation; MPool].
Definition reward_of (ops : list cop) (s : N) : option Z := (fun x => amt (st_rewards x) KYVE) <$> ss_stakers (c_s (after ops)) !! s.
Lemma pay_case : cops_ok (gstart gen0) before_second /\ (if cmsg (after before_second) second_sub then true else false) = true /\
  (bundles (after before_second) 0, purse before_second, kx (after before_second) 0 KYVE, reward_of before_second 1) = (0%N, [1000; 132; 0; 0; 3000; 0], 13, Some 0) /\
  (bundles (after (before_second ++ [second_sub])) 0, purse (before_second ++ [second_sub]), reward_of (before_second ++ [second_sub]) 1) =
    (1%N, [900; 119; 101; 15; 2997; 0], Some 15).
Proof. split; [apply cops_okb_ok; vm_cast_no_check (eq_refl true)|]. split; [vm_cast_no_check (eq_refl true)|]. by vm_compute. Qed.
Lemma pay_end_case : cops_ok (gstart gen0) before_late /\
  (bundles (after before_late) 0, purse before_late, kx (after before_late) 0 KYVE) = (0%N, [1000; 132; 0; 0; 3000; 0], 13) /\
  (bundles (after (before_late ++ [CEnd])) 0, purse (before_late ++ [CEnd])) = (1%N, [900; 119; 1; 15; 3097; 0]).
Proof. split; [apply cops_okb_ok; vm_cast_no_check (eq_refl true)|]. by vm_compute. Qed.
