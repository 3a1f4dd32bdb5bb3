(** * Properties of the queries about funders and fundings: C65. *)
From Verif Require Import Base BaseFacts Delegation DelegationClaims Stakers Funders FundersInv Team RoundRobin Pool Bundles Chain ChainFrame ArchiveInv
  ChainLift ChainExamples PoolExamples Query QueryFacts Account AccountClaims AccountLists Fundings FundingsFrame FundingsClaims FundingsExamples.
Local Notation after ops := (crun g0 ops).

(** ** C65: what is told about funders and fundings *)
(** [countable]: no value of a remaining coin is above 2^63 - 1. Missing for the full statement: larger
    values, see [C65_values_refuted]. [shows]: a client that follows page keys or offsets gets this list
    with any limit. [lists]: each of these fundings once, with the stored amounts and its score. *)
Theorem C65_by_funder_partial : forall g, genesis g -> forall ops, cops_ok (gstart g) ops ->
  let st := c_f (crun (gstart g) ops) in countable st -> forall a s,
  exists L, shows (fundings_by_funder st a s) L /\
    lists g ops L (fun b p => b = a /\ has_funded (gstart g) ops a p /\ with_status st s a p).
Proof. intros g Hg ops Hok st Hc a s. exact (lists_by_funder g Hg ops Hok Hc a s). Qed.
Theorem C65_by_pool_partial : forall g, genesis g -> forall ops, cops_ok (gstart g) ops ->
  let st := c_f (crun (gstart g) ops) in countable st -> forall p s,
  exists L, shows (fundings_by_pool st p s) L /\
    lists g ops L (fun a q => q = p /\ has_funded (gstart g) ops a p /\ with_status st s a p).
Proof. intros g Hg ops Hok st Hc p s. exact (lists_by_pool g Hg ops Hok Hc p s). Qed.
Example C65_case : genesis gen0 /\ cops_ok (gstart gen0) funds /\ countable (c_f (after funds)) /\
  (fun x => (map rec5 (fst (fst x)), snd (fst x), snd x)) <$> fundings_by_funder (c_f (after funds)) 5 AnyFunding None 0 1 true
    = Some ([(5%N, 0%N, 450, 50, 50, 450)], Some (5%N, 1%N), 2) /\
  (fun x => (map rec5 (fst (fst x)), snd (fst x), snd x)) <$> fundings_by_funder (c_f (after funds)) 5 AnyFunding (Some (5%N, 1%N)) 0 1 true
    = Some ([(5%N, 1%N, 0, 0, 0, 0)], None, 0) /\
  (fun x => (map rec5 (fst (fst x)), snd (fst x), snd x)) <$> fundings_by_pool (c_f (after funds)) 1 AnyFunding None 0 0 true
    = Some ([(4%N, 1%N, 300, 60, 0, 300); (5%N, 1%N, 0, 0, 0, 0)], None, 2) /\
  (fun x => (map rec5 (fst (fst x)), snd (fst x), snd x)) <$> fundings_by_pool (c_f (after funds)) 1 InactiveFunding None 0 0 true
    = Some ([(5%N, 1%N, 0, 0, 0, 0)], None, 1).
Proof. split; [exact gen0_genesis|]. split; [exact funds_ok|]. split; [exact funds_countable|exact funds_case]. Qed.
(** A registered funder: the pools are those the account has ever funded; what was used, what is left and
    what is charged per bundle are the sums over them. *)
Theorem C65_funder_partial : forall g, genesis g -> forall ops, cops_ok (gstart g) ops ->
  let st := c_f (crun (gstart g) ops) in countable st -> forall a s, registered (gstart g) ops a ->
  exists x L, funder_info st a s = Some (a, x, L) /\ stats_say g ops a x /\
    lists g ops L (fun b p => b = a /\ has_funded (gstart g) ops a p /\ with_status st s a p).
Proof. intros g Hg ops Hok st Hc a s. exact (claim_funder g Hg ops Hok Hc a s). Qed.
Theorem C65_funders_partial : forall g, genesis g -> forall ops, cops_ok (gstart g) ops ->
  let st := c_f (crun (gstart g) ops) in countable st -> forall search,
  exists L, shows (funders_page st search) L /\ NoDup (map fst L) /\
    (forall a, In a (map fst L) <-> registered (gstart g) ops a /\ search a = true) /\ Forall (fun y => stats_say g ops (fst y) (snd y)) L.
Proof. intros g Hg ops Hok st Hc search. exact (claim_funders g Hg ops Hok Hc search). Qed.
Example C65_funder_case : genesis gen0 /\ cops_ok (gstart gen0) funds /\ countable (c_f (after funds)) /\
  (fun x => (sums (snd (fst x)), map rec5 (snd x))) <$> funder_info (c_f (after funds)) 5 ActiveFunding
    = Some (50, 450, 50, [0%N; 1%N], 450, [(5%N, 0%N, 450, 50, 50, 450)]) /\
  (fun x => (map (fun y => (fst y, sums (snd y))) (fst (fst x)), snd (fst x), snd x)) <$> funders_page (c_f (after funds)) (fun _ => true) None 0 0 true
    = Some ([(4%N, (100, 1200, 160, [0%N; 1%N], 1200)); (5%N, (50, 450, 50, [0%N; 1%N], 450))], None, 2).
Proof. split; [exact gen0_genesis|]. split; [exact funds_ok|]. split; [exact funds_countable|exact funder_case]. Qed.
(** Only registered accounts have fundings. *)
Theorem C65_registered : forall g ops a p, has_funded (gstart g) ops a p -> registered (gstart g) ops a.
Proof. intros g ops a p H. apply registered_iff. apply (funded_registered g ops a p). by apply has_funded_iff. Qed.
(** AccountFundedList never fails: every pool in which the account has coins left, with the sum of what all
    funders have left in it, its delegation and its status. *)
Theorem C65_account : forall g, genesis g -> forall ops, cops_ok (gstart g) ops ->
  let c := crun (gstart g) ops in let st := c_f c in forall a,
  exists L, account_funded c a = Some L /\ NoDup (map it_pool L) /\
    (forall p, In p (map it_pool L) <-> exists x, rem st a p x <> 0) /\
    Forall (fun r => let p := it_pool r in (forall d, amt (it_amounts r) d = rem st a p d) /\
      (forall X, (forall b, (exists x, rem st b p x <> 0) -> b ∈ X) -> forall d, amt (it_funds r) d = sum_over X (fun b => rem st b p d)) /\
      it_delegation r = total_power c p /\ exists pl, get_pool c p = Some pl /\ it_status r = pool_status c p pl) L.
Proof. intros g Hg ops Hok c st a. exact (claim_account_funded g Hg ops Hok a). Qed.
Example C65_account_case : genesis gen0 /\ cops_ok (gstart gen0) funds /\
  map item <$> account_funded (after funds) 5 = Some [(0%N, 450, 1350, 3000, StActive)] /\
  map item <$> account_funded (after funds) 4 = Some [(0%N, 900, 1350, 3000, StActive); (1%N, 300, 300, 0, StMinDelegation)] /\
  map item <$> account_funded (after funds) 6 = Some [].
Proof. split; [exact gen0_genesis|]. split; [exact funds_ok|exact account_case]. Qed.
(** One funding of a huge value: the lists of all funders and of the fundings of the pool fail, while the
    answer about another funder does not. *)
Theorem C65_values_refuted : exists g ops a p, genesis g /\ cops_ok (gstart g) ops /\
  let st := c_f (crun (gstart g) ops) in
  is_Some (funder_info st a AnyFunding) /\ funders_page st (fun _ => true) None 0 0 false = None /\ fundings_by_pool st p AnyFunding None 0 0 false = None.
Proof. exact rich_refutes. Qed.

Print Assumptions C65_by_funder_partial.
Print Assumptions C65_by_pool_partial.
Print Assumptions C65_funder_partial.
Print Assumptions C65_funders_partial.
Print Assumptions C65_registered.
Print Assumptions C65_account.
Print Assumptions C65_values_refuted.
