(** * C46, C54: movements of money. *)
From Verif Require Import Base BaseFacts Delegation Stakers Funders Team RoundRobin Pool Bundles Chain ChainFrame ArchiveInv
  BankMoves ChainLift PoolInv PayoutClaims PoolClaims MoneyFlow MoneyExamples ChainExamples PoolExamples.

(** ** C46: at the end of every block but the first, the configured part of the collected fees
    is burned, rounded down, per denom; the fee collector and the supply fall by exactly that. *)
Theorem C46_burn : forall g ops d, genesis g -> cops_ok (gstart g) ops -> let c := crun (gstart g) ops in let c' := cstep c CEnd in
  let x := if c_height c =? 1 then 0 else bal (c_bank c) MFeeCollector d * c_burn c / ONE in
  0 <= x <= bal (c_bank c) MFeeCollector d /\
  bal (c_bank c') MFeeCollector d = bal (c_bank c) MFeeCollector d - x /\ total (c_bank c') d = total (c_bank c) d - x.
Proof. exact m_burn. Qed.
Example C46_case : genesis gen1 /\ cops_ok (gstart gen1) two_blocks /\
  map (fun d => (fees (take 1 two_blocks) d, fees (take 2 two_blocks) d, fees (take 3 two_blocks) d, fees two_blocks d, all two_blocks d)) [KYVE; 5]%N =
  [(1001, 1001, 1001, 501, -500); (7, 7, 7, 4, -3)].
Proof. split; [exact gen1_genesis|]. split; [exact two_blocks_ok|exact (proj1 burn_case)]. Qed.

(** ** C54: money is neither made nor lost, and moves only along the allowed edges *)
(** The supply of every denom changes by what is minted at the begin of a block and burned at its end. *)
Theorem C54_supply : forall g ops o d, genesis g -> cops_ok (gstart g) ops -> by_chain o -> let c := crun (gstart g) ops in
  total (c_bank (cstep c o)) d = total (c_bank c) d + minted o d - burned c o d.
Proof. exact m_supply. Qed.
(** An account whose balance falls is one the message may take from. *)
Theorem C54_losers : forall g ops o a d, genesis g -> cops_ok (gstart g) ops -> let c := crun (gstart g) ops in cop_ok c o -> by_chain o ->
  bal (c_bank (cstep c o)) a d < bal (c_bank c) a d -> (exists y, allowed o a y) \/ (o = CEnd /\ a = MFeeCollector).
Proof. exact m_losers. Qed.
(** An account whose balance rises is one the message may pay to. *)
Theorem C54_gainers : forall g ops o a d, genesis g -> cops_ok (gstart g) ops -> let c := crun (gstart g) ops in by_chain o ->
  bal (c_bank c) a d < bal (c_bank (cstep c o)) a d -> (exists y, allowed o y a) \/ (a = MFeeCollector /\ 0 < minted o d).
Proof. exact m_gainers. Qed.
(** No message or block takes money from a user except from the signer, and then no more than
    the amount in the message. *)
Theorem C54_signer : forall g ops o u d, genesis g -> cops_ok (gstart g) ops -> let c := crun (gstart g) ops in cop_ok c o -> by_chain o ->
  bal (c_bank c) (User u) d - agreed o u d <= bal (c_bank (cstep c o)) (User u) d.
Proof. exact m_signer. Qed.
Example C54_case : genesis gen0 /\ cops_ok (gstart gen0) h1 /\
  map (fun a => (bal (c_bank g0) a KYVE, bal (c_bank (after h1)) a KYVE)) [User 1; User 11; User 4; MFunders; MPool; MStakers; MDelegation; Treasury] =
  [(1000000, 998900); (0, 100); (1000000, 999000); (0, 800); (0, 0); (0, 31); (0, 3098); (0, 102)] /\
  let c := after setup in
  map (fun o => (agreed o 4 KYVE, bal (c_bank c) (User 4) KYVE - bal (c_bank (cstep c o)) (User 4) KYVE))
    [CDelegate 4 1 500; CDelegate 4 9 500; CFund 4 0 (coin KYVE 70) ∅; CDefund 4 0 (coin KYVE 70); CDelegate 2 1 500] =
  [(500, 500); (500, 0); (70, 70); (0, -70); (0, 0)].
Proof. split; [exact gen0_genesis|]. destruct money_case as [H1 H2]. split; [exact H1|]. split; [exact H2|exact spend_case]. Qed.

Print Assumptions C46_burn.
Print Assumptions C54_supply.
Print Assumptions C54_losers.
Print Assumptions C54_gainers.
Print Assumptions C54_signer.
