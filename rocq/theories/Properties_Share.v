(** * Property C82: the part of the minted coins which the team, each of its accounts and its authority get.
    [fair_part x sum part whole]: [x] of [sum] is given to the holder of [part] out of [whole], up to
    the rounding of one quotient of 18 decimals and of the result; [team_gain]: what the module gets
    in the block; [spec_required]: what it must hold for its allocation and rewards;
    [team_grant]: TeamShare.v. Case: TeamShareExamples.v. *)
From Verif Require Import Base BaseFacts Delegation Stakers Funders Team TeamRun TeamClaims RoundRobin Pool Bundles Chain ChainLift SplitClaims ChainWide
  ChainExamples WideExamples TeamShare TeamShareExamples.

(** In every block the team gets the part of the minted coins that its holdings are of all coins
    before the block; each account gets of this the part that its vested and unclaimed coins are of
    the whole allocation, and its other fields stay; the authority gets exactly the rest. Missing:
    allocations above the total one and very large inflation, see C44. *)
Theorem C82_grant_partial : forall g ops t prov, genesis g -> cops_ok (gstart g) (ops ++ [CBegin t prov]) -> Forall small_team ops ->
  TEAM_ALLOCATION <= bal (g0_bank g) MTeam KYVE -> quiet (gstart g) (ops ++ [CBegin t prov]) -> minted_all ops + prov < two63 ->
  let c := crun (gstart g) ops in let c' := cstep c (CBegin t prov) in ts_halt (c_t c') = false /\ team_grant c c' t prov.
Proof. exact claim_grant. Qed.
Print Assumptions C82_grant_partial.
Example C82_grant_case : genesis gent /\ cops_ok (gstart gent) (granted ++ [CBegin grant_t grant_p]) /\ quiet (gstart gent) (granted ++ [CBegin grant_t grant_p]) /\
  (Forall small_team granted /\ TEAM_ALLOCATION <= bal (g0_bank gent) MTeam KYVE /\ minted_all granted + grant_p < two63) /\
  let c := crun (gstart gent) granted in map va_rewards (ts_accounts (c_t c)) = [85; 164] /\
  grant_look c (cstep c (CBegin grant_t grant_p)) =
  (164999000000849784, 1165000000007424892, 141630042, [19027397260273; 38410958904109], [16417; 33134], 141580740).
Proof. exact (conj gent_genesis (conj granted_ok (conj granted_quiet (conj granted_small granted_look)))). Qed.
(** With at most 10^18 units minted in the block, the team gets what is due to within two units. *)
Theorem C82_near_partial : forall g ops t prov, genesis g -> cops_ok (gstart g) (ops ++ [CBegin t prov]) -> Forall small_team ops ->
  TEAM_ALLOCATION <= bal (g0_bank g) MTeam KYVE -> quiet (gstart g) (ops ++ [CBegin t prov]) -> minted_all ops + prov < two63 -> prov <= ONE ->
  let c := crun (gstart g) ops in let x := team_gain c (cstep c (CBegin t prov)) in
  2 * (supply (c_bank c) * x) <= 2 * (prov * spec_required (c_t c)) + supply (c_bank c) /\ prov * spec_required (c_t c) < supply (c_bank c) * (x + 2).
Proof. exact claim_near. Qed.
Print Assumptions C82_near_partial.
(** In the case above 10^9 units are minted: 141630042 for the team. *)
Example C82_near_case : grant_p <= ONE /\ 2 * (1165000000007424892 * 141630042) <= 2 * (grant_p * 164999000000849784) + 1165000000007424892 /\
  grant_p * 164999000000849784 < 1165000000007424892 * (141630042 + 2).
Proof. split_and!; vm_compute; first [reflexivity|discriminate]. Qed.
