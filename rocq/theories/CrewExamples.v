(** * Pools with and without stakers: concrete cases. *)
From Verif Require Import Base BaseFacts Delegation DelegationClaims3 Stakers Funders Team TeamInv TeamRun RoundRobin Pool Bundles Chain ChainFrame ArchiveInv
  BankMoves ChainLift PoolInv PayoutClaims PoolClaims SplitClaims TallyClaims LiveClaims RunsClaims CrewClaims ChainExamples PoolExamples SplitExamples RunsExamples.

(** Governance creates a pool without a minimum; nobody joins it; a block mints 100000. *)
Definition open_pool : list cop := [CBegin 10 0; CCreatePool AUTHORITY true (mkCA 7 0 60 1000 0 100 1 1 1 1); CEnd].
Lemma open_ok : cops_ok g0 (open_pool ++ [CBegin 20 100000]). Proof. apply cops_okb_ok. vm_cast_no_check (eq_refl true). Qed.
Definition got (c c' : chain) := (members c 0, can_run c 0, gain c c' 0).
Lemma open_view : got (crun g0 open_pool) (cstep (crun g0 open_pool) (CBegin 20 100000)) = ([], true, 3340).
Proof. by vm_compute. Qed.
Lemma open_by (c c' : chain) x : got c c' = ([], true, x) -> 0 < x -> can_run c 0 = true /\ (forall s, ~ is_member c 0 s) /\ 0 < gain c c' 0.
Proof. unfold got. intros [= H1 H2 <-] Hx. split; [done|]. split; [|done]. intros s Hs. apply member_in in Hs. rewrite H1 in Hs. by apply elem_of_nil in Hs. Qed.
Lemma empty_refuted : exists g ops t prov p, genesis g /\ cops_ok (gstart g) (ops ++ [CBegin t prov]) /\ let c := crun (gstart g) ops in let c' := cstep c (CBegin t prov) in
  can_run c p = true /\ (forall s, ~ is_member c p s) /\ 0 < gain c c' p.
Proof.
  refine (ex_intro _ gen0 (ex_intro _ open_pool (ex_intro _ 20 (ex_intro _ 100000 (ex_intro _ 0%N (conj gen0_genesis _)))))). rewrite gen0_start.
  split; [exact open_ok|]. cbv zeta. exact (open_by _ _ _ open_view eq_refl).
Qed.
(** In [agree] of RunsExamples nobody may have more than half, and three have stake. *)
Lemma crew_view : (workers (after agree) 0, pp_maxvp (c_pp (after agree)), pl_mindel <$> get_pool (after agree) 0, all_stake (after agree) 0, can_run (after agree) 0) = ([1; 2; 3]%N, ONE / 2, Some 100, 6000, true).
Proof. by vm_compute. Qed.
