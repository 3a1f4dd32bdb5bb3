(** * Property C84: the rewards of a bundle go to the stake that stood behind it.
    [payable st s d]: what [d] can withdraw at [s]; [stake_of c s]: the stake of [s]; [on_list]: has
    voted on the stored bundle. Case: FreshExamples.v. *)
From Verif Require Import Base BaseFacts Delegation DelegationClaims2 Stakers Funders Team RoundRobin Pool Bundles Chain ChainLift PoolClaims TallyClaims TallyEffects TallyProps
  ChainExamples PoolExamples LiveClaims RunsClaims SwingClaims FreshClaims FreshExamples.

(** A delegation of [a] directly before a payout of [r] counts like all others: every delegator [e],
    [d] among them, gets R*b/T of it, where T and b include the new stake, up to the rounding of C53. *)
Theorem C84_fresh : forall g ops d s a c1 r payer st', genesis g -> cops_ok (gstart g) (ops ++ [CDelegate d s a]) -> let c := crun (gstart g) ops in
  cmsg c (CDelegate d s a) = Some c1 -> stake_of c s < two63 -> stake_of c1 s < two63 -> 0 < a -> cpos r -> payer <> MDelegation -> payout_rewards (d_in c1) s r payer = Some st' ->
  forall e x, let b := delegation_of (c_d c) s e + (if decide (e = d) then a else 0) in let T := stake_of c s + a in let R := amt r x in 0 < b ->
  R * b * ONE - T * (2 * b + 3 + ONE) <= (amt (payable st' s e) x - amt (payable (c_d c1) s e) x) * T * ONE <= R * (b + 1) * ONE + T * (2 * b + 3 + ONE).
Proof. exact claim_fresh. Qed.
Print Assumptions C84_fresh.
(** 1 has 1000 at stake and would get 90. 5 delegates 9000 after the votes and gets 81 of them, and
    moves the stake and the rewards away in the same block. *)
Example C84_fresh_case : genesis gen0 /\ cops_ok g0 (ready ++ [fresh; pays; away]) /\ is_Some (cmsg (after ready) fresh) /\
  map (fun l => purse (crun (after ready) l)) [[]; [pays]; [fresh; pays]; [fresh; pays; away]] =
  [ (0%N, [0; 0], [0; 0], 835000000000000000); (1%N, [90; 0], [0; 0], 835000000000000000); (1%N, [9; 81], [9000; 0], 834999999999991000);
    (1%N, [9; 0], [0; 9000], 834999999999991081) ].
Proof. exact (conj gen0_genesis (conj ready_ok (conj fresh_accepted ready_purse))). Qed.
(** Everybody has voted and [d] has delegated to no member of the pool; [d] delegates, the bundle is
    finalized, and [d] gets a part of what the others would have got. *)
Theorem C84_risk_refuted : exists g ops o t p s d, genesis g /\ cops_ok (gstart g) (ops ++ [o; t]) /\ let c := crun (gstart g) ops in let c1 := cstep (cstep c o) t in
  moves o /\ is_Some (cmsg c o) /\ (forall s, is_member c p s -> on_list (get_prop c p) s /\ delegation_of (c_d c) s d = 0) /\
  finalized c1 p = (finalized c p + 1)%N /\ 0 < amt (payable (c_d c1) s d) KYVE /\ amt (payable (c_d c1) s s) KYVE < amt (payable (c_d (cstep c t)) s s) KYVE.
Proof. exact fresh_refuted. Qed.
Print Assumptions C84_risk_refuted.
