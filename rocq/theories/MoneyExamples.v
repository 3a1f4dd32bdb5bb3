(** * Movements of money: concrete cases. *)
From Verif Require Import Base BaseFacts Delegation Stakers Funders Team RoundRobin Pool Bundles Chain ChainFrame ArchiveInv
  BankMoves ChainLift PoolInv PayoutClaims PoolClaims MoneyFlow ChainExamples PoolExamples.
From Verif Require FundersExamples.

(** Fees of 1001 of the base denom and 7 of another, half of which is burned. *)
Definition gen1 : gen := mkGen (<[MFeeCollector := cadd (coin KYVE 1001) (coin 5 7)]> b0) 0 dp0 50 60 fp0 pp0 bp0 (ONE / 2).
Lemma gen1_genesis : genesis gen1.
Proof.
  split; [apply bank_nnb_ok; by vm_compute|]. split; [by vm_compute|]. split; [cbn; unfold two62; lia|]. split; [by vm_compute|].
  split; [apply u64b_ok; by vm_compute|]. split; [apply u64b_ok; by vm_compute|].
  split; [by apply FundersExamples.fparams_okb_ok; vm_compute|]. repeat split; by vm_compute.
Qed.
Definition fees (ops : list cop) (d : N) : Z := bal (c_bank (crun (gstart gen1) ops)) MFeeCollector d.
Definition all (ops : list cop) (d : N) : Z := total (c_bank (crun (gstart gen1) ops)) d - total (c_bank (gstart gen1)) d.
Definition two_blocks : list cop := [CBegin 10 0; CEnd; CBegin 20 0; CEnd].
Lemma two_blocks_ok : cops_ok (gstart gen1) two_blocks. Proof. apply cops_okb_ok. vm_cast_no_check (eq_refl true). Qed.
Lemma burn_case :
  map (fun d => (fees (take 1 two_blocks) d, fees (take 2 two_blocks) d, fees (take 3 two_blocks) d, fees two_blocks d, all two_blocks d)) [KYVE; 5]%N =
  [(1001, 1001, 1001, 501, -500); (7, 7, 7, 4, -3)] /\
  map (fun d => burned (crun (gstart gen1) (take 3 two_blocks)) CEnd d) [KYVE; 5]%N = [500; 3].
Proof. by vm_compute. Qed.

(** A history with all kinds of movements: the stakers delegate, join with a transfer to their
    valaddress, a pool is funded, two bundles are paid, a staker is slashed. *)
Lemma money_case : cops_ok (gstart gen0) h1 /\
  map (fun a => (bal (c_bank g0) a KYVE, bal (c_bank (after h1)) a KYVE)) [User 1; User 11; User 4; MFunders; MPool; MStakers; MDelegation; Treasury] =
  [(1000000, 998900); (0, 100); (1000000, 999000); (0, 800); (0, 0); (0, 31); (0, 3098); (0, 102)].
Proof. split; [exact h1_ok|]. by vm_compute. Qed.
(** One step that spends exactly what was agreed to, and one that is rejected. *)
Lemma spend_case : let c := after setup in
  map (fun o => (agreed o 4 KYVE, bal (c_bank c) (User 4) KYVE - bal (c_bank (cstep c o)) (User 4) KYVE))
    [CDelegate 4 1 500; CDelegate 4 9 500; CFund 4 0 (coin KYVE 70) ∅; CDefund 4 0 (coin KYVE 70); CDelegate 2 1 500] =
  [(500, 500); (500, 0); (70, 70); (0, -70); (0, 0)].
Proof. by vm_compute. Qed.
