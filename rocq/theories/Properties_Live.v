(** * Property C79: a stored bundle does not stay open.
    [waits c p]: a bundle is stored in pool [p]; [for_it], [against_it], [all_stake]: the stake of
    the members who voted valid, voted invalid, and of all of them; [finalized]: the number of
    bundles of the pool. [apart c c1 p]: the turns of other pools lie between the two states.
    Cases: LiveExamples.v. *)
From Verif Require Import Base BaseFacts Delegation Stakers Funders Team RoundRobin Pool Bundles Chain ChainLift TallyClaims TallyEffects ChainExamples PoolExamples
  LiveClaims LiveExamples.

(** The end of a block, for a pool that can run at its turn [c1]. Before the upload interval is
    over nothing happens to the bundle. Then it is dropped if neither more than half of the stake
    is for it nor at least half is against it. With a clear result it waits for the next uploader,
    at most until the upload timeout is over too: if the majority is for it, it becomes one of the
    pool's bundles then, otherwise it is dropped. *)
Theorem C79_settled : forall g ops p pl, genesis g -> cops_ok (gstart g) ops -> let c := crun (gstart g) ops in let c' := cstep c CEnd in
  get_pool (upgraded c) p = Some pl -> c_halt c' = false -> waits c p ->
  exists c1 c2, apart c c1 p /\ apart c2 c' p /\
    (can_run c1 p = true -> all_stake c1 p < two63 -> decided_by c c1 c' p (pl_interval pl)).
Proof. exact claim_settled. Qed.
Print Assumptions C79_settled.
Example C79_settled_case : genesis gen0 /\ (cops_ok g0 yes /\ cops_ok g0 no /\ cops_ok g0 none) /\ map both [yes; no; none] =
  [ (true, (2000, 0, 3000), 51%N, 0%N, 0%N, 1%N, false); (true, (1000, 2000, 3000), 51%N, 0%N, 0%N, 0%N, false);
    (true, (1000, 0, 3000), 51%N, 0%N, 0%N, 0%N, false) ].
Proof. exact (conj gen0_genesis (conj live_ok live_case)). Qed.
(** A pool that cannot run at its turn: if it is disabled its bundle is dropped; otherwise the bundle
    stays as it is, with its votes and its time, and only the next uploader is taken away. *)
Theorem C79_paused : forall g ops p pl, genesis g -> cops_ok (gstart g) ops -> let c := crun (gstart g) ops in let c' := cstep c CEnd in
  get_pool (upgraded c) p = Some pl -> c_halt c' = false ->
  exists c1 c2, apart c c1 p /\ apart c2 c' p /\ forall e, pool_error c1 p = Some e ->
    (e = EDisabled -> ~ waits c' p) /\ (e <> EDisabled -> get_prop c' p = core (get_prop c p)) /\ finalized c' p = finalized c p.
Proof. exact claim_paused. Qed.
Print Assumptions C79_paused.
Example C79_paused_case : genesis gen0 /\ cops_ok g0 (stored ++ pause ++ again) /\ let c := after (stored ++ [need 5000]) in
  is_Some (get_pool (upgraded c) 0) /\ c_halt (cstep c CEnd) = false /\ (as_is c, as_is (cstep c CEnd)) =
  ((Some EMinDelegation, (false, (1000, 0, 3000), 51%N, 0%N), 1%N, 100, [1%N]), (Some EMinDelegation, (false, (1000, 0, 3000), 51%N, 0%N), 0%N, 100, [1%N])).
Proof. exact (conj gen0_genesis (conj paused_ok paused_case)). Qed.
(** Once a pool has reached its end key, nothing changes its bundle and its archive any more, as
    long as the authority does not update or disable this pool. *)
Theorem C79_ended : forall g ops more p, genesis g -> cops_ok (gstart g) (ops ++ more) -> Forall (fun o => changes_pool o p = false) more ->
  let c := crun (gstart g) ops in ended c p -> rests c (crun c more) p.
Proof. exact claim_ended. Qed.
Print Assumptions C79_ended.
Example C79_ended_case : genesis gen0 /\ cops_ok g0 at_end /\ ended (after at_end) 0 /\ waits (after at_end) 0.
Proof. exact (conj gen0_genesis (conj at_end_ok at_end_ended)). Qed.
(** That every bundle is decided some day is false: the submission that takes the pool to its end
    key stores one more bundle, and whatever happens later no vote and no tally reaches it. *)
Theorem C79_end_refuted : exists g ops p, genesis g /\ cops_ok (gstart g) ops /\ forall more, cops_ok (gstart g) (ops ++ more) ->
  Forall (fun o => changes_pool o p = false) more -> waits (crun (gstart g) (ops ++ more)) p /\ finalized (crun (gstart g) (ops ++ more)) p = 1%N.
Proof. exact end_refutes. Qed.
Print Assumptions C79_end_refuted.
(** That points for not voting are only given to those who could have voted is false as well: from
    the message after the submission until the last block no vote was accepted, by anybody; then
    somebody delegates, and the end of this very block drops the bundle and gives the point. *)
Theorem C79_points_refuted : exists g ops pause d x a p s, genesis g /\ cops_ok (gstart g) (ops ++ pause ++ [CDelegate d x a; CEnd]) /\
  let c := crun (gstart g) ops in let c' := crun (gstart g) (ops ++ pause ++ [CDelegate d x a; CEnd]) in
  waits c p /\ points c p s = Some 0 /\ c_time c + 900 <= c_time c' /\
  (forall n u v st w, (1 <= n <= length pause)%nat -> cmsg (crun (gstart g) (ops ++ take n pause)) (CVote p u v st w) = None) /\
  points c' p s = Some 1 /\ ~ waits c' p.
Proof. exact paused_refutes. Qed.
Print Assumptions C79_points_refuted.
