(** * Properties of the queries about pools, stakers and the current vote: C66. *)
From Verif Require Import Base BaseFacts Delegation DelegationClaims DelegationClaims2 DelegationClaims3 Stakers Funders FundersInv Team RoundRobin Pool Bundles Chain ChainFrame ArchiveInv
  ChainLift ChainExamples PoolExamples Query QueryFacts Account AccountClaims AccountLists Fundings FundingsFrame FundingsClaims Listings ListingsClaims ListingsExamples.
Local Notation after ops := (crun g0 ops).

(** ** C66: what is told about pools and stakers *)
(** [shows]: a client that follows page keys or offsets gets this list with any limit. [pool_says]: the
    stored pool and proposal, each member once, the sums of their self delegations and delegations
    (modulo 2^64), the balance of the pool's account, each funding ever made. Pools that are disabled and
    pools that are not are separate lists. No query fails. *)
Theorem C66_pools : forall g, genesis g -> forall ops, cops_ok (gstart g) ops ->
  let c := crun (gstart g) ops in forall search runtime disabled sp,
  exists L, shows (pools_page c search runtime disabled sp) L /\ NoDup (map pr_id L) /\
    (forall p, In p (map pr_id L) <-> exists pl, get_pool c p = Some pl /\ search p = true /\ pl_disabled pl = disabled /\
       (runtime = 0%N \/ pl_runtime pl = runtime) /\ (sp = 0%N \/ pl_sp pl = sp)) /\ Forall (pool_says g ops) L.
Proof. intros g Hg ops Hok c. exact (claim_pools g Hg ops Hok). Qed.
Theorem C66_pool : forall g, genesis g -> forall ops, cops_ok (gstart g) ops ->
  let c := crun (gstart g) ops in forall p,
  match get_pool c p with
  | None => pool_info c p = None
  | Some pl => exists r, pool_info c p = Some r /\ pr_id r = p /\ pool_says g ops r
  end.
Proof. intros g Hg ops Hok c. exact (claim_pool g Hg ops Hok). Qed.
Example C66_pools_case : genesis gen0 /\ cops_ok (gstart gen0) wide /\
  show_pool <$> pool_info (after wide) 1 = Some (1%N, [3%N], 1000, 2000, StNoFunds, 0, [(5%N, 0)]) /\ pool_info (after wide) 9 = None /\
  (fun x => (map show_pool (fst (fst x)), snd (fst x), snd x)) <$> pools_page (after wide) (fun _ => true) 0 false 0 None 0 1 true
    = Some ([(0%N, [1%N; 2%N; 3%N], 3000, 4000, StActive, 231, [(4%N, 1000)])], Some 1%N, 2) /\
  (fun x => (map pr_id (fst (fst x)), snd (fst x), snd x)) <$> pools_page (after wide) (fun _ => true) 0 false 0 (Some 1%N) 0 1 true = Some ([1%N], Some 2%N, 0) /\
  (fun x => (map pr_id (fst (fst x)), snd (fst x), snd x)) <$> pools_page (after wide) (fun _ => true) 0 true 0 None 0 1 true = Some ([2%N], None, 1).
Proof. split; [exact gen0_genesis|]. split; [exact wide_ok|exact pools_case]. Qed.
(** Members are in pools that exist. *)
Theorem C66_members : forall g ops, cops_ok (gstart g) ops -> forall p s,
  in_pool (crun (gstart g) ops) p s = true -> is_Some (get_pool (crun (gstart g) ops) p).
Proof. exact member_pool. Qed.
(** [staker_says]: the commission and its rewards, the pending change if there is one, the self delegation
    and what of it is unbonding (modulo 2^64), the delegation, the number of delegators, and each pool the
    staker is in once with [member_says]. *)
Theorem C66_staker : forall g, genesis g -> forall ops, cops_ok (gstart g) ops ->
  let c := crun (gstart g) ops in forall s,
  match ss_stakers (c_s c) !! s with
  | None => staker_info c s = None
  | Some _ => exists r, staker_info c s = Some r /\ sr_addr r = s /\ staker_says g ops r
  end.
Proof. intros g Hg ops Hok c. exact (claim_staker g Hg ops Hok). Qed.
Theorem C66_by_pool : forall g, genesis g -> forall ops, cops_ok (gstart g) ops ->
  let c := crun (gstart g) ops in forall p,
  match get_pool c p with
  | None => stakers_by_pool c p = None
  | Some _ => exists L, stakers_by_pool c p = Some L /\ NoDup (map (fun x => sr_addr (fst x)) L) /\
      (forall s, In s (map (fun x => sr_addr (fst x)) L) <-> in_pool c p s = true) /\
      Forall (fun x => staker_says g ops (fst x) /\ get_val (c_s c) p (sr_addr (fst x)) = Some (snd x)) L
  end.
Proof. intros g Hg ops Hok c. exact (claim_by_pool g Hg ops Hok). Qed.
Example C66_staker_case : genesis gen0 /\ cops_ok (gstart gen0) wide /\
  show_staker <$> staker_info (after wide) 3 = Some (3%N, ONE / 10, 0, Some (ONE / 5, 880), 1000, 100, 2000, 2,
    [(0%N, 1000, 4000, StActive, 1, false, 13%N, 100); (1%N, 0, 2000, StNoFunds, 0, true, 23%N, 200)]) /\
  staker_info (after wide) 4 = None /\
  map (fun x => (sr_addr (fst x), vl_addr (snd x))) <$> stakers_by_pool (after wide) 0 = Some [(1%N, 11%N); (2%N, 12%N); (3%N, 13%N)].
Proof. split; [exact gen0_genesis|]. split; [exact wide_ok|exact staker_case]. Qed.
(** The shown vote: the delegations of the members in each list of voters, and of all members. All zero as
    long as the pool has no proposal. Missing: a pool with a delegation of 2^64 or more. *)
Theorem C66_vote_partial : forall g, genesis g -> forall ops, cops_ok (gstart g) ops ->
  let c := crun (gstart g) ops in forall p pl, get_pool c p = Some pl -> zsum (power c) (members c p) < two64 ->
  exists v i a t, vote_status c p = Some (v, i, a, t) /\
    (c_prop c !! p = None -> v = 0 /\ i = 0 /\ a = 0 /\ t = 0) /\
    (forall b, c_prop c !! p = Some b ->
      (forall l, NoDup l -> (forall s, In s l <-> in_pool c p s = true /\ In s (bp_valid b)) -> v = zsum (power c) l) /\
      (forall l, NoDup l -> (forall s, In s l <-> in_pool c p s = true /\ In s (bp_invalid b)) -> i = zsum (power c) l) /\
      (forall l, NoDup l -> (forall s, In s l <-> in_pool c p s = true /\ In s (bp_abstain b)) -> a = zsum (power c) l) /\
      t = zsum (power c) (members c p) /\ v + i + a <= t).
Proof. intros g Hg ops Hok c. exact (claim_vote g Hg ops Hok). Qed.
Example C66_vote_case : genesis gen0 /\ cops_ok (gstart gen0) wide /\
  vote_status (after wide) 0 = Some (2000, 0, 0, 4000) /\ vote_status (after wide) 1 = Some (0, 0, 0, 0).
Proof. split; [exact gen0_genesis|]. split; [exact wide_ok|exact vote_case]. Qed.
(** The shown vote does not foretell the outcome: without a quorum in it, the next submission finalizes the
    bundle, because members that miss too many votes are removed before the votes are counted. *)
Theorem C66_tally_refuted : exists g ops p v i a t o f, genesis g /\ cops_ok (gstart g) ops /\ let c := crun (gstart g) ops in
  vote_status c p = Some (v, i, a, t) /\ 2 * v <= t /\ (exists m, o = CSubmit m /\ sb_pool m = p) /\
  c_fin c !! (p, 0%N) = None /\ c_fin (cstep c o) !! (p, 0%N) = Some f /\ fb_storage f = bp_storage (get_prop c p).
Proof. exact tally_refutes. Qed.

Print Assumptions C66_pools.
Print Assumptions C66_pool.
Print Assumptions C66_members.
Print Assumptions C66_staker.
Print Assumptions C66_by_pool.
Print Assumptions C66_vote_partial.
Print Assumptions C66_tally_refuted.
