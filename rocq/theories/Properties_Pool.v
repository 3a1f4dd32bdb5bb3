(** * Properties of x/pool and the checks of x/bundles (C27, C28, C39, C40).
    [genesis g]: a chain without pools, stakers and funders, with any non-negative balances and
    admissible parameters; [gstart g] is its state, [crun (gstart g) ops] the state after the
    admissible history [ops]. *)
From Verif Require Import Base BaseFacts Delegation Stakers Funders Team RoundRobin Pool Bundles Chain ChainFrame ArchiveInv ChainLift
  PoolFrame PoolInv PoolClaims ChainExamples PoolExamples.

(** C27: who may submit or skip, when, and from which index; an accepted submission carries a
    storage id, a size within the pool's maximum and both keys. *)
Theorem C27_submit : forall g ops m c', genesis g -> cops_ok (gstart g) ops ->
  let c := crun (gstart g) ops in cmsg c (CSubmit m) = Some c' ->
  exists pl, next_up c (sb_pool m) (sb_staker m) (sb_creator m) (sb_from m) pl /\ args_ok pl m.
Proof. exact (fun g ops m c' Hg Hok => r_submit g Hg ops Hok m c'). Qed.
Theorem C27_skip : forall g ops p s v from c', genesis g -> cops_ok (gstart g) ops ->
  let c := crun (gstart g) ops in cmsg c (CSkip p s v from) = Some c' -> exists pl, next_up c p s v from pl.
Proof. exact (fun g ops p s v from c' Hg Hok => r_skip g Hg ops Hok p s v from c'). Qed.
(** Conversely, when no bundle is pending, those conditions suffice. *)
Theorem C27_accepted : forall g ops m pl, genesis g -> cops_ok (gstart g) ops ->
  let c := crun (gstart g) ops in
  next_up c (sb_pool m) (sb_staker m) (sb_creator m) (sb_from m) pl -> args_ok pl m ->
  bp_storage (get_prop c (sb_pool m)) = 0%N -> is_Some (cmsg c (CSubmit m)).
Proof. exact (fun g ops m pl Hg Hok => r_submit_first g Hg ops Hok m pl). Qed.
Example C27_case : genesis gen0 /\ cops_ok (gstart gen0) setup /\
  let ok ops m := match cmsg (after ops) (CSubmit m) with Some _ => true | None => false end in
  map (ok (setup ++ [CBegin 79 0])) [sub 1 11 51 10 0 20 60] = [false] /\
  map (ok (setup ++ [CBegin 80 0])) [sub 1 11 51 10 0 20 60; sub 1 12 51 10 0 20 60; sub 2 12 51 10 0 20 60; sub 1 11 51 10 1 20 60; sub 1 11 51 10 0 101 60]
    = [true; false; false; false; false].
Proof. split; [exact gen0_genesis|]. split; [exact setup_ok|exact submit_case]. Qed.

(** C28: unless the status is Active or NoFunds every protocol message is rejected; if it is,
    a vote of a member on the pending bundle is accepted unless they voted already, and the
    uploader role can be claimed unless it is taken. NoFunds means that nobody funds the pool. *)
Theorem C28_status : forall c p pl, get_pool c p = Some pl ->
  (~ runs (pool_status c p pl) ->
     (forall m, sb_pool m = p -> cmsg c (CSubmit m) = None) /\ (forall s v st w, cmsg c (CVote p s v st w) = None) /\
     (forall s v from, cmsg c (CSkip p s v from) = None) /\ (forall s v, cmsg c (CClaimRole p s v) = None)) /\
  (runs (pool_status c p pl) -> forall s v, signs c p s v ->
     (forall w, bp_storage (get_prop c p) <> 0%N -> s ∉ bp_valid (get_prop c p) -> s ∉ bp_invalid (get_prop c p) ->
        w = Valid \/ w = Invalid \/ (w = Abstain /\ s ∉ bp_abstain (get_prop c p)) ->
        is_Some (cmsg c (CVote p s v (bp_storage (get_prop c p)) w))) /\
     (is_Some (cmsg c (CClaimRole p s v)) <-> bp_next (get_prop c p) = 0%N)) /\
  (runs (pool_status c p pl) -> (pool_status c p pl = StNoFunds <-> total_active_funding (c_f c) p = ∅)).
Proof. exact claim_status. Qed.
Example C28_case :
  stat [CBegin 10 0; CCreatePool AUTHORITY true ca0] = Some StMinDelegation /\
  stat setup = Some StActive /\
  stat (setup ++ [CDefund 4 0 (coin KYVE 1000)]) = Some StNoFunds /\
  stat (setup ++ upgrade) = Some StActive /\
  stat (setup ++ upgrade ++ [CBegin 40 0]) = Some StUpgrading /\
  stat (setup ++ [CDisablePool AUTHORITY 0]) = Some StDisabled.
Proof. exact status_case. Qed.

(** C39: what every message and block does to the version, the binaries and the scheduled
    upgrade of every pool. *)
Theorem C39_upgrades : forall g ops o p pl, genesis g -> cops_ok (gstart g) ops ->
  let c := crun (gstart g) ops in cop_ok c o -> get_pool c p = Some pl ->
  exists pl', get_pool (cstep c o) p = Some pl' /\ upgrade_effect c o pl pl'.
Proof. exact (fun g ops o p pl Hg Hok => r_upgrade g Hg ops Hok o p pl). Qed.
(** Until a block ends at or after the scheduled time nothing but a cancellation changes them. *)
Theorem C39_waits : forall g ops more p pl, genesis g -> cops_ok (gstart g) ops ->
  let c := crun (gstart g) ops in cops_ok c more -> get_pool c p = Some pl -> pn_at (pl_plan pl) <> 0 ->
  quiet c p (pn_at (pl_plan pl)) more -> exists pl', get_pool (crun c more) p = Some pl' /\ keeps_version pl pl'.
Proof. exact (fun g ops more p pl Hg Hok => r_quiet g Hg ops Hok more p pl). Qed.
(** The duration is not always respected: the end of the upgrade is computed modulo 2^64. *)
Theorem C39_duration_refuted : exists g ops p pl pl', genesis g /\ cops_ok (gstart g) (ops ++ [CEnd]) /\
  get_pool (crun (gstart g) ops) p = Some pl /\ get_pool (crun (gstart g) (ops ++ [CEnd])) p = Some pl' /\
  due pl (c_time (crun (gstart g) ops)) /\
  c_time (crun (gstart g) (ops ++ [CEnd])) < pn_at (pl_plan pl) + pn_duration (pl_plan pl) /\ pl_plan pl' = no_plan.
Proof. exact endless_refutes. Qed.
Example C39_case : genesis gen0 /\ cops_ok (gstart gen0) setup /\
  vers setup = Some (1%N, 1%N, 0) /\
  vers (setup ++ upgrade) = Some (1%N, 1%N, 40) /\
  vers (setup ++ upgrade ++ [CBegin 39 0; CEnd]) = Some (1%N, 1%N, 40) /\
  vers (setup ++ upgrade ++ [CBegin 45 0; CEnd]) = Some (2%N, 3%N, 40) /\
  vers (setup ++ upgrade ++ [CBegin 45 0; CEnd; CBegin 139 0; CEnd]) = Some (2%N, 3%N, 40) /\
  vers (setup ++ upgrade ++ [CBegin 45 0; CEnd; CBegin 140 0; CEnd]) = Some (2%N, 3%N, 0) /\
  vers (setup ++ upgrade ++ [CCancel AUTHORITY 7; CBegin 45 0; CEnd]) = Some (1%N, 1%N, 0).
Proof. split; [exact gen0_genesis|]. split; [exact setup_ok|exact upgrade_case]. Qed.

(** C40: the pools are those with an id below some [n]; only an accepted creation by the
    authority adds one, the pool [n], and none is removed. *)
Theorem C40_ids : forall g ops, genesis g -> cops_ok (gstart g) ops ->
  let c := crun (gstart g) ops in exists n,
  (forall p, is_Some (get_pool c p) <-> (p < n)%N) /\
  (forall o p, cop_ok c o -> is_Some (get_pool (cstep c o) p) <->
     is_Some (get_pool c p) \/ (p = n /\ exists j a c', o = CCreatePool AUTHORITY j a /\ cmsg c o = Some c')).
Proof. exact (fun g ops Hg Hok => r_ids g ops Hok). Qed.
Theorem C40_authority : forall c o sender, admin_message sender o -> sender <> AUTHORITY -> cmsg c o = None.
Proof. exact authority_only. Qed.
Theorem C40_settings : forall c o p pl pl', (forall s, ~ admin_message s o) -> get_pool c p = Some pl -> get_pool (cstep c o) p = Some pl' ->
  settings pl' = settings pl.
Proof. exact settings_keep. Qed.
(** Disabling: accepted from the authority for an enabled pool; removes every member of that
    pool and of no other, and moves all its KYVE to the treasury. *)
Theorem C40_disable : forall g ops sender p, genesis g -> cops_ok (gstart g) ops ->
  let c := crun (gstart g) ops in
  (is_Some (cmsg c (CDisablePool sender p)) <-> sender = AUTHORITY /\ exists pl, get_pool c p = Some pl /\ pl_disabled pl = false) /\
  (forall c', cmsg c (CDisablePool sender p) = Some c' ->
     (exists pl', get_pool c' p = Some pl' /\ pl_disabled pl' = true) /\
     (forall q s, in_pool c' q s = if decide (q = p) then false else in_pool c q s) /\
     (forall a d, bal (c_bank c') a d = bal (c_bank c) a d +
        (if decide (d = KYVE) then (if decide (a = Treasury) then bal (c_bank c) (PoolAcc p) KYVE else 0)
                                   - (if decide (a = PoolAcc p) then bal (c_bank c) (PoolAcc p) KYVE else 0) else 0))).
Proof. exact (fun g ops sender p Hg Hok => r_disable g Hg ops Hok sender p). Qed.
(** While disabled: no members, nobody joins, no protocol message, no new finalized bundle. *)
Theorem C40_disabled : forall g ops p pl, genesis g -> cops_ok (gstart g) ops ->
  let c := crun (gstart g) ops in get_pool c p = Some pl -> pl_disabled pl = true ->
  (forall s, in_pool c p s = false) /\ (forall s v a, cmsg c (CJoin s p v a) = None) /\
  (forall m, sb_pool m = p -> cmsg c (CSubmit m) = None) /\ (forall s v st w, cmsg c (CVote p s v st w) = None) /\
  (forall s v from, cmsg c (CSkip p s v from) = None) /\ (forall s v, cmsg c (CClaimRole p s v) = None) /\
  (forall o id, c_fin (cstep c o) !! (p, id) = c_fin c !! (p, id)).
Proof. exact (fun g ops p pl Hg Hok => r_disabled g Hg ops Hok p pl). Qed.
(** "Its whole balance": coins of other denoms stay behind. *)
Theorem C40_whole_balance_refuted : exists g ops p pl d, genesis g /\ cops_ok (gstart g) ops /\ get_pool (crun (gstart g) ops) p = Some pl /\
  pl_disabled pl = true /\ 0 < bal (c_bank (crun (gstart g) ops)) (PoolAcc p) d.
Proof. exact stray_refutes. Qed.
Example C40_case :
  ps_count (c_pools (after (setup ++ pool2))) = 2%N /\
  held (setup ++ first) (PoolAcc 0) = 66 /\ held off (PoolAcc 0) = 0 /\ held off Treasury = 66 /\
  Bundles.members (after (setup ++ first)) 0 = [1; 2; 3]%N /\ Bundles.members (after off) 0 = [] /\
  joins off = false /\ joins (off ++ [CEnablePool AUTHORITY 0]) = true.
Proof. split; [exact (proj1 pools_case)|exact disable_case]. Qed.

Print Assumptions C27_submit.
Print Assumptions C27_skip.
Print Assumptions C27_accepted.
Print Assumptions C28_status.
Print Assumptions C39_upgrades.
Print Assumptions C39_waits.
Print Assumptions C39_duration_refuted.
Print Assumptions C40_ids.
Print Assumptions C40_authority.
Print Assumptions C40_settings.
Print Assumptions C40_disable.
Print Assumptions C40_disabled.
Print Assumptions C40_whole_balance_refuted.
