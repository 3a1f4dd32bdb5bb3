(** * Properties of the paginated queries: C49 and C58. *)
From Verif Require Import Base BaseFacts Delegation Stakers Funders Team RoundRobin Pool Bundles Chain ArchiveInv ArchiveClaims
  ChainLift Query QueryFacts IndexInv QueryClaims.
From Verif Require Import ChainExamples PoolExamples QueryExamples.

(** ** C49 *)
(** The listing of the stakers with a search term: following the page keys or adding up offsets, with
    any limit, a client gets one list; it contains the matching stakers of the wanted status and
    nobody else, once each, with their delegation, sorted by it. *)
Theorem C49_search : forall g ops f m, genesis g -> cops_ok (gstart g) ops ->
  let c := crun (gstart g) ops in
  exists L, pages_of c f (Some m) L /\ by_delegation c L /\
    forall s, In s (map snd L) <-> is_staker c s /\ m s = true /\ wanted_status c f s.
Proof. exact claim_search. Qed.
(** Without a search term: every staker of the wanted status is there, but an entry may belong to an
    account that is no staker, with a delegation of zero ([C49_phantom_refuted]). *)
Theorem C49_all_partial : forall g ops f, genesis g -> cops_ok (gstart g) ops ->
  let c := crun (gstart g) ops in
  exists L, pages_of c f None L /\ by_delegation c L /\
    (forall s, is_staker c s -> wanted_status c f s -> In s (map snd L)) /\
    (forall a s, In (a, s) L -> wanted_status c f s /\ (is_staker c s \/ (a = 0 /\ f_data (getf (c_d c) s) = None))).
Proof. exact claim_all. Qed.
(** On a node that is restarted at any time, and so builds the index anew: the stakers somebody has
    ever delegated to are all listed ([C49_restart_refuted] for the others). *)
Theorem C49_restarts_partial : forall g ops m, nops_ok (gstart g) ops ->
  let c := nrun (gstart g) ops in
  exists L, pages_of c AllStakers (Some m) L /\ by_delegation c L /\
    (forall s, In s (map snd L) -> is_staker c s /\ m s = true) /\
    (forall s, f_data (getf (c_d c) s) <> None -> m s = true -> In s (map snd L)).
Proof. exact claim_restarted. Qed.
(** The active stakers, in whatever order sort.Slice leaves them in. *)
Theorem C49_active : forall g ops search slice, genesis g -> cops_ok (gstart g) ops ->
  let c := crun (gstart g) ops in
  slice ≡ₚ map fst (map_to_list (ss_active (c_s c))) ->
  let L := List.filter (Query.found c search) slice in
  NoDup L /\
  (forall s, In s L <-> in_some_pool c s /\ match search with None => True | Some m => m s = true end) /\
  (forall n limit, 0 <= limit -> Z.of_nat n * page_size limit + page_size limit < two63 ->
     Z.of_nat (length L) <= Z.of_nat n * page_size limit ->
     by_offset n (fun o => fst <$> active_page c slice search o limit) (page_size limit) 0 = Some L).
Proof. exact claim_active. Qed.
Example C49_case : genesis gen0 /\ cops_ok (gstart gen0) four /\
  all_of (crun (gstart gen0) four) AllStakers 3 = Some [(5000, 5%N); (1070, 2%N); (1000, 1%N); (1000, 3%N)] /\
  all_of (crun (gstart gen0) four) InactiveStakers 0 = Some [(5000, 5%N)] /\
  stakers_page (crun (gstart gen0) four) AllStakers (Some (fun s => (s <? 4)%N)) None 1 1 true = Some ([(1000, 1%N)], Some (1000, 3%N), 3) /\
  active_page (crun (gstart gen0) four) [2; 1; 3]%N None 0 2 = Some ([2; 1]%N, 3) /\
  active_page (crun (gstart gen0) four) [2; 1; 3]%N None 2 2 = Some ([3]%N, 3).
Proof. split; [exact gen0_genesis|]. split; [exact four_ok|]. exact four_case. Qed.
Example C49_restarts_case : nops_ok (gstart gen0) renode /\
  all_of (nrun (gstart gen0) renode) AllStakers 0 = Some [(5000, 5%N); (1500, 3%N); (1070, 2%N); (1000, 1%N)].
Proof. split; [exact renode_ok|exact renode_case]. Qed.
(** The stakers by pool count: the request without arguments is answered with an error unless there
    are at least 100 active stakers, and no request shows the first of them. *)
Theorem C49_poolcount_refuted : exists g ops slice s, genesis g /\ cops_ok (gstart g) ops /\
  slice ≡ₚ map fst (map_to_list (ss_active (c_s (crun (gstart g) ops)))) /\ in_some_pool (crun (gstart g) ops) s /\
  pool_count_page slice 0 0 = None /\ fst <$> pool_count_page slice 0 1 = Some [2%N] /\
  forall offset limit r n, 0 <= offset -> 0 <= limit -> offset + 2 * page_size limit < two63 ->
    pool_count_page slice offset limit = Some (r, n) -> ~ In s r.
Proof. exact poolcount_refutes. Qed.
(** After an undelegation of nothing from an account that is no staker, the account is listed. *)
Theorem C49_phantom_refuted : exists g ops s, genesis g /\ cops_ok (gstart g) ops /\ ~ is_staker (crun (gstart g) ops) s /\
  exists r k n, stakers_page (crun (gstart g) ops) AllStakers None None 0 0 true = Some (r, k, n) /\ In s (map snd r).
Proof. exact phantom_refutes. Qed.
(** A staker created without a delegation is not listed by a node that has been restarted since. *)
Theorem C49_restart_refuted : exists g ops s, genesis g /\ cops_ok (gstart g) ops /\
  let c := crun (gstart g) ops in let c' := restart c in
  is_staker c s /\ is_staker c' s /\
  exists r r', stakers_page c AllStakers None None 0 0 true = Some (r, None, 4) /\ In s (map snd r) /\
    stakers_page c' AllStakers None None 0 0 true = Some (r', None, 3) /\ ~ In s (map snd r').
Proof. exact restart_refutes. Qed.

(** ** C58 *)
(** The finalized bundles of a pool, oldest or newest first. *)
Theorem C58_bundles : forall c0 ops p pl, start c0 -> cops_ok c0 ops -> get_pool (crun c0 ops) p = Some pl ->
  let c := crun c0 ops in
  exists L, archive c p (pl_total pl) L /\
    (forall reverse limit, 0 <= limit -> exists n, walk n (ask_bundles c p limit reverse) None = Some (directed reverse L)) /\
    (forall reverse offset limit, 0 <= offset < two64 -> 0 <= limit -> (reverse = true -> offset <= Z.of_N (pl_total pl)) ->
       exists next, fin_page c p None offset limit reverse =
         Some (mkFP (firstn (Z.to_nat (page_size limit)) (skipn (Z.to_nat offset) (directed reverse L))) next (Z.of_N (pl_total pl)))).
Proof. exact claim_bundles. Qed.
Example C58_case : start g0 /\ cops_ok g0 h1 /\
  ids (fin_page (crun g0 h1) 0 None 0 0 false) = Some ([0; 1]%N, None, 2) /\
  ids (fin_page (crun g0 h1) 0 None 0 1 false) = Some ([0]%N, Some 1, 2) /\
  ids (fin_page (crun g0 h1) 0 None 0 1 true) = Some ([1]%N, Some 1, 2) /\
  ids (fin_page (crun g0 h1) 0 (Some 1) 0 1 true) = Some ([0]%N, None, 2) /\
  ids (fin_page (crun g0 h1) 0 None 1 1 true) = Some ([0]%N, None, 2) /\
  ids (fin_page (crun g0 h1) 0 None 2 1 true) = Some ([], None, 2) /\
  ids (fin_page (crun g0 h1) 0 None 3 1 true) = Some ([1]%N, Some 1, 2).
Proof. split; [exact g0_start|]. split; [exact h1_ok|]. exact bundles_case. Qed.
(** Newest first, an offset beyond the last bundle gives the newest page again, so that a client
    adding up offsets until a page is empty does not stop in time. *)
Theorem C58_offset_refuted : exists c0 ops p pl offset limit, start c0 /\ cops_ok c0 ops /\ get_pool (crun c0 ops) p = Some pl /\
  Z.of_N (pl_total pl) < offset < two64 /\
  exists x t next total, fin_page (crun c0 ops) p None offset limit true = Some (mkFP (x :: t) next total).
Proof. exact wrap_refutes. Qed.
Theorem C58_wrap : forall c0 ops p pl o limit, start c0 -> cops_ok c0 ops -> get_pool (crun c0 ops) p = Some pl ->
  Z.of_N (pl_total pl) < o < two64 -> 0 <= limit ->
  fin_page (crun c0 ops) p None o limit true = fin_page (crun c0 ops) p None 0 limit true.
Proof. exact claim_wrap. Qed.

Print Assumptions C49_search.
Print Assumptions C49_all_partial.
Print Assumptions C49_restarts_partial.
Print Assumptions C49_active.
Print Assumptions C49_poolcount_refuted.
Print Assumptions C49_phantom_refuted.
Print Assumptions C49_restart_refuted.
Print Assumptions C58_bundles.
Print Assumptions C58_offset_refuted.
Print Assumptions C58_wrap.
