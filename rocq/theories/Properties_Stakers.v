(** * Stakers: the properties C12-C17 (statements; proofs are in the Stakers* files).

    [sinit b t c l] is genesis with bank [b], block time [t], commission change time [c] and leave
    time [l]; [srun st ops] the state after the operations [ops]; [sops_ok] says that the
    environment can produce the inputs. *)
From Verif Require Import Base BaseFacts Stakers StakersInv StakersRun StakersClaims StakersClaims2 StakersFlag StakersExamples.

(** C12: the reported count is the number of members, at most 50; active iff member somewhere. *)
Theorem C12_counts : forall b t c l ops, sops_ok (sinit b t c l) ops ->
  let st := srun (sinit b t c l) ops in
  (forall p, count_of st p = members st p /\ members st p <= 50) /\
  (forall s, is_active st s = true <-> exists p, member st p s).
Proof. exact count_claim. Qed.

(** C13: valaddresses are unique within a pool and per staker; at most one staker is authorised. *)
Theorem C13_valaddresses : forall b t c l ops, sops_ok (sinit b t c l) ops ->
  let st := srun (sinit b t c l) ops in
  (forall p s1 s2 v1 v2, get_val st p s1 = Some v1 -> get_val st p s2 = Some v2 -> vl_addr v1 = vl_addr v2 -> s1 = s2) /\
  (forall s p1 p2 v1 v2, get_val st p1 s = Some v1 -> get_val st p2 s = Some v2 -> vl_addr v1 = vl_addr v2 -> p1 = p2) /\
  (forall p s v, get_val st p s = Some v -> vl_addr v <> s) /\
  (forall p a s1 s2, authorized st p s1 a = true -> authorized st p s2 a = true -> s1 = s2).
Proof. exact valaddr_claim. Qed.

(** C14: commissions are exactly those of the specification machine [cspec_run] (one pending
    request per staker, replaced by newer ones, applied in the first block at least the waiting
    time after the request), they stay in [0,1], and one request per staker is queued. For block
    and waiting times below 2^62. *)
Theorem C14_commission_partial : forall b t c l ops, small_time t -> small_time c -> small_time l ->
  sops_ok (sinit b t c l) ops -> Forall sop_small ops ->
  let st := srun (sinit b t c l) ops in let sp := cspec_run (cspec_init t c) ops in
  (forall s, commission_of st s = cs_cur sp s) /\
  (forall s x, commission_of st s = Some x -> 0 <= x <= ONE) /\
  (forall i j ei ej, ss_centries st !! i = Some ei -> ss_centries st !! j = Some ej -> ce_staker ei = ce_staker ej -> i = j) /\
  (forall s, cs_pend sp s = None <-> forall i e, ss_centries st !! i = Some e -> ce_staker e <> s).
Proof. exact commission_claim. Qed.
(** A changed commission goes back to the last request of that staker, old enough. *)
Theorem C14_only_requested_partial : forall b t c l ops o s x0 x1, small_time t -> small_time c -> small_time l ->
  sops_ok (sinit b t c l) (ops ++ [o]) -> Forall sop_small (ops ++ [o]) ->
  commission_of (srun (sinit b t c l) ops) s = Some x0 ->
  commission_of (srun (sinit b t c l) (ops ++ [o])) s = Some x1 -> x0 <> x1 ->
  exists now pre post, o = SBegin now /\ ops = pre ++ SUpdateCommission s x1 :: post /\
    ss_time (srun (sinit b t c l) pre) + ss_ctime (srun (sinit b t c l) ops) <= now /\
    Forall (fun o => forall y, o <> SUpdateCommission s y) post.
Proof. exact commission_change. Qed.
(** With a waiting time of 2^63 seconds the next block applies the change. *)
Theorem C14_commission_refuted : exists b t c l ops now, sops_ok (sinit b t c l) (ops ++ [SBegin now]) /\
  small_time t /\ small_time c /\ small_time l /\
  commission_of (srun (sinit b t c l) ops) 1 <> commission_of (srun (sinit b t c l) (ops ++ [SBegin now])) 1 /\
  now < t + ss_ctime (srun (sinit b t c l) ops).
Proof. exact refute_commission. Qed.

(** C15: a member stays a member except when kicked, pushed out by a joiner, or in a block at
    least the leave time after the leave request of its current membership ([lreqs]); that block
    does remove it. For histories in which nobody joins a pool again while an old leave request
    of theirs for that pool is still queued. *)
Theorem C15_leave_partial : forall b t c l ops o, small_time t -> small_time c -> small_time l ->
  sops_ok (sinit b t c l) (ops ++ [o]) -> Forall sop_small (ops ++ [o]) -> no_stales (sinit b t c l) ops ->
  let st := srun (sinit b t c l) ops in let st' := sstep st o in
  forall s p, member st p s ->
  match o with
  | SBegin now => member st' p s <-> ~ exists d, lreqs (sinit b t c l) ops (fun _ _ => None) s p = Some d /\ d + ss_ltime st <= now
  | SKick s' p' => member st' p s <-> ~ (s' = s /\ p' = p)
  | SJoin _ _ s' p' _ _ => ~ member st' p s -> s' <> s /\ p' = p
  | _ => member st' p s
  end.
Proof. exact leave_claim. Qed.
(** In all histories: the leave queue removes only those who asked to leave that pool, the leave
    time before. *)
Theorem C15_requested_partial : forall b t c l ops now s p, small_time t -> small_time c -> small_time l ->
  sops_ok (sinit b t c l) (ops ++ [SBegin now]) -> Forall sop_small (ops ++ [SBegin now]) ->
  let st := srun (sinit b t c l) ops in
  member st p s -> ~ member (sstep st (SBegin now)) p s ->
  exists pre post, ops = pre ++ SLeave s p :: post /\ is_Some (msg_leave (srun (sinit b t c l) pre) s p) /\
    ss_time (srun (sinit b t c l) pre) + ss_ltime st <= now.
Proof. exact leave_requested. Qed.
(** A member is shown as leaving iff it has asked to leave during its current membership; a
    request is accepted iff it is the first one. The same histories. Case: ex_flag. *)
Theorem C15_flag_partial : forall b t c l ops, small_time t -> small_time c -> small_time l ->
  sops_ok (sinit b t c l) ops -> Forall sop_small ops -> no_stales (sinit b t c l) ops ->
  let st := srun (sinit b t c l) ops in
  forall s p v, get_val st p s = Some v ->
  let asked := is_Some (lreqs (sinit b t c l) ops (fun _ _ => None) s p) in
  (vl_leaving v = true <-> asked) /\ (is_Some (msg_leave st s p) <-> ~ asked).
Proof. exact flag_claim. Qed.
(** A request of an earlier membership ends the current one; a new request is refused. *)
Theorem C15_leave_refuted : exists b t c l ops now s p,
  sops_ok (sinit b t c l) (ops ++ [SBegin now]) /\ Forall sop_small (ops ++ [SBegin now]) /\
  small_time t /\ small_time c /\ small_time l /\
  member (srun (sinit b t c l) ops) p s /\ lreqs (sinit b t c l) ops (fun _ _ => None) s p = None /\
  msg_leave (srun (sinit b t c l) ops) s p = None /\
  ~ member (sstep (srun (sinit b t c l) ops) (SBegin now)) p s.
Proof. exact refute_leave. Qed.

(** C16: joining. *)
Theorem C16_join : forall b0 t c l ops, sops_ok (sinit b0 t c l) ops ->
  let st := srun (sinit b0 t c l) ops in
  forall pool del s p v amount, (forall x, 0 <= del x < two63) ->
  is_Some (ss_stakers st !! s) -> s <> v -> ~ member st p s ->
  (forall p' x, get_val st p' s = Some x -> vl_addr x <> v) -> (forall s' x, get_val st p s' = Some x -> vl_addr x <> v) ->
  0 <= amount < two63 -> amount <= bal (ss_bank st) (User s) KYVE ->
  (is_Some (msg_join st pool del s p v amount) <->
     pool = Some false /\ (members st p < 50 \/ exists m, member st p m /\ del m < del s)) /\
  (forall st', msg_join st pool del s p v amount = Some st' ->
     (members st p < 50 -> forall p' s', member st' p' s' <-> member st p' s' \/ (p' = p /\ s' = s)) /\
     (50 <= members st p -> exists l, member st p l /\ del l < del s /\ (forall m, member st p m -> del l <= del m) /\
        forall p' s', member st' p' s' <-> (member st p' s' /\ ~ (p' = p /\ s' = l)) \/ (p' = p /\ s' = s)) /\
     get_val st' p s = Some (mkVal v 0 false)).
Proof. exact join_claim. Qed.

(** C17: commission rewards are backed, and claims are exact. *)
Theorem C17_commission_rewards : forall b t c l ops, (forall d, 0 <= bal b MStakers d) -> sops_ok (sinit b t c l) ops ->
  let st := srun (sinit b t c l) ops in
  (forall d, owed_all st d <= bal (ss_bank st) MStakers d) /\
  (forall s amounts, cpos amounts -> is_Some (ss_stakers st !! s) ->
     (is_Some (msg_claim_commission st s amounts) <-> forall d, amt amounts d <= owed st s d)) /\
  (forall s amounts st', cpos amounts -> msg_claim_commission st s amounts = Some st' ->
     forall d, (forall s', owed st' s' d = owed st s' d - if decide (s' = s) then amt amounts d else 0) /\
       bal (ss_bank st') (User s) d = bal (ss_bank st) (User s) d + amt amounts d /\
       bal (ss_bank st') MStakers d = bal (ss_bank st) MStakers d - amt amounts d).
Proof. exact commission_backed. Qed.

Print Assumptions C12_counts.
Print Assumptions C13_valaddresses.
Print Assumptions C14_commission_partial.
Print Assumptions C14_only_requested_partial.
Print Assumptions C14_commission_refuted.
Print Assumptions C15_leave_partial.
Print Assumptions C15_requested_partial.
Print Assumptions C15_flag_partial.
Print Assumptions C15_leave_refuted.
Print Assumptions C16_join.
Print Assumptions C17_commission_rewards.
