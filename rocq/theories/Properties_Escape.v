(** * Property C80: stake that backs a vote cannot be withdrawn from the slash.
    [del c s d]: the stake of [d] with staker [s]; [slashes c s]: the fractions by which [s] was
    slashed so far; [not_asked]: nothing of the stake is being undelegated; [soon]: the blocks that
    follow start within the waiting time; [stays]: [d] does not delegate to [s] or redelegate from or
    to it, but may undelegate. [least], [most]: a stake after some slashes, up to rounding.
    Cases: EscapeExamples.v. *)
From Verif Require Import Base BaseFacts Delegation Stakers Funders Team RoundRobin Pool Bundles Chain ChainLift EffectClaims VoteClaims StepCases PointsInv TallyFacts TallyClaims TallyEffects TallyProps
  ChainExamples PoolExamples EscapeClaims EscapeExamples.

(** For the whole waiting time the stake stays with the staker, even if it is undelegated at once,
    and every slash of the staker cuts it by its fraction. Missing: stake that is redelegated. *)
Theorem C80_trapped_partial : forall g ops more s d, genesis g -> cops_ok (gstart g) (ops ++ more) ->
  let c := crun (gstart g) ops in let c' := crun c more in
  not_asked c s d -> Forall (stays d s) more -> soon (c_time c) c more ->
  exists frs, slashes c' s = slashes c s ++ frs /\ Forall (fun fr => 0 <= fr <= ONE) frs /\
    least (del c s d) frs <= del c' s d <= most (del c s d) frs.
Proof. exact claim_trapped. Qed.
Print Assumptions C80_trapped_partial.
(** Bundle decided by a submission or a skip within the waiting time, against the vote of [s]: what
    was staked with [s] when the vote was cast is cut by the penalty too. *)
Theorem C80_punished_partial : forall g ops more o p who s d c2, genesis g -> cops_ok (gstart g) (ops ++ more ++ [o]) ->
  let c := crun (gstart g) ops in let c1 := crun c more in
  not_asked c s d -> Forall (stays d s) more -> soon (c_time c) c more -> tallies c1 p who o -> cmsg c1 o = Some c2 ->
  exists r, (pool_power c1 p < two63 -> verdict c1 p (Some who) r) /\
    (loses (get_prop c1 p) r s -> 0 < del c1 s d ->
     exists frs, slashes c1 s = slashes c s ++ frs /\ let all := frs ++ [penalty (ds_params (c_d c1)) (get_prop c1 p) r s] in
       slashes c2 s = slashes c s ++ all /\ least (del c s d) all <= del c2 s d <= most (del c s d) all).
Proof. exact claim_punished. Qed.
Print Assumptions C80_punished_partial.
(** Staker 1 uploads, undelegates everything, is voted down and slashed: 1000 become 800. *)
Example C80_case : genesis gen0 /\ cops_ok g0 (base ++ asks ++ [skip1]) /\ not_asked (after base) 1 1 /\ Forall (stays 1 1) asks /\
  soon (c_time (after base)) (after base) asks /\
  (tallies (after (base ++ asks)) 0 1 skip1 /\ is_Some (cmsg (after (base ++ asks)) skip1) /\ loses (get_prop (after (base ++ asks)) 0) OInvalid 1) /\
  map (fun l => stake_of (after l)) [base; base ++ asks; base ++ asks ++ [skip1]] = [ ([], (1000, 0)); ([], (1000, 0)); ([ONE / 5], (800, 0)) ] /\
  least 1000 [ONE / 5] = 800 /\ most 1000 [ONE / 5] = 800.
Proof. exact (conj gen0_genesis (conj asks_ok (conj base_not_asked (conj asks_stays (conj asks_soon (conj asks_skips (conj asks_look least_most))))))). Qed.
(** Without the condition on redelegations it is false: the uploader of a bundle that is voted down
    redelegates the whole stake to another staker just before the decision. The staker is slashed by
    a fifth, and the delegator loses nothing. *)
Theorem C80_redelegated_refuted : exists g ops more o s s2 d, genesis g /\ cops_ok (gstart g) (ops ++ more ++ [o]) /\
  let c := crun (gstart g) ops in let c2 := crun (gstart g) (ops ++ more ++ [o]) in
  not_asked c s d /\ soon (c_time c) c more /\ s <> s2 /\ slashes c s = [] /\ slashes c2 s = [ONE / 5] /\
  del c s d = 1000 /\ del c s2 d = 0 /\ del c2 s d = 0 /\ del c2 s2 d = 1000.
Proof. exact moves_refutes. Qed.
Print Assumptions C80_redelegated_refuted.
