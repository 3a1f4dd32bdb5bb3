(** * Property C78: coins paid into the protocol's own accounts by a join message.
    [wop]: a step of the chain, or a join whose valaddress is the address of any account [to];
    [unowned c d]: money of x/funders beyond the sum of all fundings. Cases: GiftsExamples.v. *)
From Verif Require Import Base BaseFacts Delegation Stakers Funders FundersInv Team RoundRobin Pool Bundles Chain ChainLift ChainExamples PoolExamples
  Gifts GiftsClaims GiftsExamples.

(** Whatever the account: the message joins the pool exactly as with a user's address and moves
    its coins from the staker to that account, nothing else. Case: [story_case]. *)
Theorem C78_join : forall c s p v to a c', u64 a -> wmsg c (WJoin s p v to a) = Some c' ->
  exists c1, cmsg c (CJoin s p v a) = Some c1 /\ c' = cw_bank c1 (c_bank c') /\
  forall x d, bal (c_bank c') x d = bal (c_bank c) x d
    - (if decide (User s = x) then (if decide (d = KYVE) then a else 0) else 0)
    + (if decide (to = x) then (if decide (d = KYVE) then a else 0) else 0).
Proof. exact gift_join. Qed.
Print Assumptions C78_join.
(** It is accepted for any account whenever it is for a user's. *)
Theorem C78_accepted : forall c s p v to a, (exists c', wmsg c (WJoin s p v to a) = Some c') <-> (exists c1, cmsg c (CJoin s p v a) = Some c1).
Proof. exact wjoin_iff. Qed.
Print Assumptions C78_accepted.
(** Every state reached with such messages is reached by an admissible history of the chain: all
    theorems about those hold for it. Case: [story_ok]. *)
Theorem C78_covered : forall g l, genesis g -> wops_ok (gstart g) l ->
  exists ops, cops_ok (gstart g) ops /\ crun (gstart g) ops = wrun (gstart g) l.
Proof. exact gift_covered. Qed.
Print Assumptions C78_covered.
(** What x/funders gets this way no later message or block pays out. Case: [story_ok], [gift_passes]. *)
Theorem C78_stuck : forall g before s p v a later d, genesis g ->
  wops_ok (gstart g) (before ++ WJoin s p v MFunders a :: later) ->
  let c := wrun (gstart g) before in
  let c' := wrun (gstart g) (before ++ WJoin s p v MFunders a :: later) in
  (exists c1, wmsg c (WJoin s p v MFunders a) = Some c1) ->
  bal (c_bank c) MFunders d - sum_rem (c_f c) d + (if decide (d = KYVE) then a else 0)
    <= bal (c_bank c') MFunders d - sum_rem (c_f c') d.
Proof. exact gift_stuck. Qed.
Print Assumptions C78_stuck.
(** Nor what the account of x/pool gets. Case: [pool_story_ok], [pool_gift_passes]. *)
Theorem C78_stuck_pool : forall g before s p v a later d, genesis g ->
  wops_ok (gstart g) (before ++ WJoin s p v MPool a :: later) ->
  let c := wrun (gstart g) before in
  let c' := wrun (gstart g) (before ++ WJoin s p v MPool a :: later) in
  (exists c1, wmsg c (WJoin s p v MPool a) = Some c1) ->
  bal (c_bank c) MPool d + (if decide (d = KYVE) then a else 0) <= bal (c_bank c') MPool d.
Proof. exact gift_stuck_pool. Qed.
Print Assumptions C78_stuck_pool.
(** The property as users read it, that coins cannot be sent to the protocol's own accounts, is
    false: 700 coins of a staker belong to nobody after any continuation. *)
Theorem C78_gift_refuted : exists g l, genesis g /\ wops_ok (gstart g) l /\ bal (g0_bank g) MFunders KYVE = 0 /\
  forall later, wops_ok (gstart g) (l ++ later) -> let c := wrun (gstart g) (l ++ later) in
    700 <= bal (c_bank c) MFunders KYVE - sum_rem (c_f c) KYVE.
Proof. exact gift_lost. Qed.
Print Assumptions C78_gift_refuted.
Example C78_case : genesis gen0 /\ wops_ok (gstart gen0) story /\
  map (fun l => (kyve_at l (User 3), kyve_at l MFunders, sum_rem (c_f (wrun g0 l)) KYVE, joined3 l)) [running; running ++ [to_funders]; story]
  = [(999000, 1000, 1000, false); (998300, 1700, 1000, true); (998300, 700, 0, false)].
Proof. exact (conj gen0_genesis (conj story_ok story_case)). Qed.
