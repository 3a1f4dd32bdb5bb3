(** * C82: concrete case. *)
From Verif Require Import Base BaseFacts Delegation Stakers Funders Team TeamRun TeamClaims RoundRobin Pool Bundles Chain ChainLift SplitClaims ChainWide
  ChainExamples WideExamples TeamShare.

(** Accounts of 3 * 10^13 and 6 * 10^13 units; two years after the start 10^9 are minted in a block. *)
Definition granted : list cop :=
  [ CBegin TGE 1000000; CTeam (TCreate FOUNDATION 30000000000000 TGE); CTeam (TCreate BCP 60000000000000 (TGE + 30 * DAY)); CEnd;
    CBegin (TGE + 730 * DAY) 5000000; CTeam (TClaim BCP 0 1000000000000 7); CEnd ].
Definition grant_t : Z := TGE + 731 * DAY.
Definition grant_p : Z := 1000000000.
Lemma granted_ok : cops_ok (gstart gent) (granted ++ [CBegin grant_t grant_p]).
Proof. apply cops_okb_ok. vm_cast_no_check (eq_refl true). Qed.
Lemma granted_quiet : quiet (gstart gent) (granted ++ [CBegin grant_t grant_p]).
Proof. apply quietb_ok. vm_cast_no_check (eq_refl true). Qed.
Lemma granted_small : Forall small_team granted /\ TEAM_ALLOCATION <= bal (g0_bank gent) MTeam KYVE /\ minted_all granted + grant_p < two63.
Proof. split; [repeat constructor|]. split; [vm_compute; discriminate|by vm_compute]. Qed.
Definition grant_look (c c' : chain) : Z * Z * Z * list Z * list Z * Z :=
  (spec_required (c_t c), supply (c_bank c), team_gain c c', map (fun a => vested a grant_t - va_claimed a) (ts_accounts (c_t c)),
   map (fun a => va_rewards a) (ts_accounts (c_t c')), ts_arewards (c_t c') - ts_arewards (c_t c)).
Lemma granted_look : let c := crun (gstart gent) granted in map va_rewards (ts_accounts (c_t c)) = [85; 164] /\
  grant_look c (cstep c (CBegin grant_t grant_p)) =
  (164999000000849784, 1165000000007424892, 141630042, [19027397260273; 38410958904109], [16417; 33134], 141580740).
Proof. split; vm_compute; reflexivity. Qed.
