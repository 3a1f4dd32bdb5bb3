(** * Property C87: only a pool with stakers counts as running and gets inflation.
    [crew]: members of the pool with stake, each once; [can_run]: the check of C81, by which the block also
    selects the pools that share the inflation (C30); [gain]: what the account of the pool gets in a
    block. Cases: CrewExamples.v. *)
From Verif Require Import Base BaseFacts Delegation Stakers Funders Team RoundRobin Pool Bundles Chain ChainLift SplitClaims TallyClaims LiveClaims RunsClaims CrewClaims
  ChainExamples PoolExamples RunsExamples CrewExamples.

(** With a minimum delegation and a maximum voting power of 1/n, a pool that runs has n stakers with stake. *)
Theorem C87_crew : forall g ops p pl, genesis g -> cops_ok (gstart g) ops -> let c := crun (gstart g) ops in
  all_stake c p < two63 -> get_pool c p = Some pl -> 0 < pl_mindel pl -> can_run c p = true ->
  exists l, crew c p l /\ ONE <= pp_maxvp (c_pp c) * Z.of_nat (length l).
Proof. exact claim_crew. Qed.
Print Assumptions C87_crew.
Example C87_crew_case : genesis gen0 /\ cops_ok g0 agree /\
  (workers (after agree) 0, pp_maxvp (c_pp (after agree)), pl_mindel <$> get_pool (after agree) 0, all_stake (after agree) 0, can_run (after agree) 0) = ([1; 2; 3]%N, ONE / 2, Some 100, 6000, true).
Proof. exact (conj gen0_genesis (conj agree_ok crew_view)). Qed.
(** Without a minimum a pool that nobody has joined counts as running and gets a part of the inflation. *)
Theorem C87_empty_refuted : exists g ops t prov p, genesis g /\ cops_ok (gstart g) (ops ++ [CBegin t prov]) /\ let c := crun (gstart g) ops in let c' := cstep c (CBegin t prov) in
  can_run c p = true /\ (forall s, ~ is_member c p s) /\ 0 < gain c c' p.
Proof. exact empty_refuted. Qed.
Print Assumptions C87_empty_refuted.
