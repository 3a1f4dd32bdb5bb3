(** * The events (model only, no proofs).

    Every message and block hook emits typed events; explorers and protocol nodes follow the
    chain through them. Modelled: all calls of EmitTypedEvent in x/bundles, x/delegation,
    x/funders, x/pool, x/stakers and x/team, in the order of the code, except those of
    profiles (EventUpdateMetadata, EventUpdateFunder; the profile fields of EventCreateFunder)
    and of parameter updates (EventUpdateParams, Params.v). A function [ev_f] gives the events
    of the function [f] of the other files; it takes the same arguments and goes through the
    same states.

    Simplifications used everywhere in this file:
    - An event whose transaction fails is not published, so a rejected message has no events.
    - Names, logos, configs and start keys are left out as in Pool.v; coins are not turned into
      text. The events of the SDK (bank transfers) are not modelled. *)
From Verif Require Import Base Delegation Stakers Funders Team RoundRobin Pool Bundles Chain.

(** x/bundles/types/events.pb.go EventBundleProposed. *)
Record proposed := mkEP {
  ep_pool : N; ep_id : N; ep_storage : N; ep_uploader : N; ep_data : Z; ep_from : Z; ep_size : Z;
  ep_fromkey : N; ep_tokey : N; ep_summary : N; ep_hash : N; ep_time : Z; ep_sp : N; ep_comp : N
}.
(** types/bundles.pb.go BundleStatus: what the votes gave, or DISABLED. *)
Inductive bstatus := Judged (v : vstatus) | Stopped.
(** EventBundleFinalized; RewardUploader is the sum of the commission and the storage cost. *)
Record finalized := mkEF {
  ef_pool : N; ef_id : N; ef_valid : Z; ef_invalid : Z; ef_abstain : Z; ef_total : Z; ef_status : bstatus;
  ef_funders : coins; ef_inflation : Z; ef_reward : reward; ef_rewards : coins; ef_time : Z; ef_uploader : N; ef_next : N
}.
(** The typed events: x/delegation/types/events.pb.go, x/stakers, x/funders, x/bundles, x/pool,
    x/team. *)
Inductive event :=
  | EvDelegate (d s : N) (a : Z)
  | EvStartUndelegation (d s : N) (a date : Z)
  | EvUndelegate (d s : N) (a : Z)
  | EvRedelegate (d from to : N) (a : Z)
  | EvWithdraw (d s : N) (x : coins)
  | EvSlash (p s : N) (a : Z) (t : slash_type)
  | EvCreateStaker (s : N) (a commission : Z)
  | EvUpdateCommission (s : N) (commission : Z)
  | EvClaimCommission (s : N) (x : coins)
  | EvJoin (p s v : N) (a : Z)
  | EvLeave (p s : N)
  | EvCreateFunder (a : N)
  | EvFund (p a : N) (amounts apb : coins)
  | EvDefund (p a : N) (amounts : coins)
  | EvOutOfFunds (p : N)
  | EvPoint (p s : N) (points : Z)
  | EvReset (p s : N)
  | EvProposed (e : proposed)
  | EvVote (p s storage : N) (w : vote)
  | EvFinalized (e : finalized)
  | EvSkipped (p id prev next : N)
  | EvClaimedRole (p id next : N)
  | EvCreatePool (p : N) (a : create_args)
  | EvUpdatePool (p : N) (payload : update_args) (runtime : N) (interval weight mindel maxsize : Z) (sp comp : N)
  | EvEnabled (p : N)
  | EvDisabled (p : N)
  | EvScheduled (runtime version binaries : N) (at_ duration : Z) (pools : list N)
  | EvCancelled (runtime : N) (pools : list N)
  | EvTeamCreate (authority : N) (id : nat) (total start : Z)
  | EvTeamClaim (authority : N) (id : nat) (a : Z) (recipient : N)
  | EvTeamClawback (authority : N) (id : nat) (t a : Z)
  | EvTeamRewards (authority : N) (id : nat) (a : Z) (recipient : N)
  | EvTeamAuthority (authority : N) (a : Z) (recipient : N).

(** The events of a loop [fold_left step l c]. *)
Fixpoint ev_fold {S A} (step : S -> A -> S) (ev : S -> A -> list event) (l : list A) (c : S) : list event :=
  match l with [] => [] | x :: t => ev c x ++ ev_fold step ev t (step c x) end.

(** ** x/delegation *)
(** logic_delegation.go 62-80: no event if the transfer fails. *)
Definition ev_withdrawal (st : dstate) (s d : N) : list event :=
  match perform_withdrawal st s d with (_, Some r) => [EvWithdraw d s r] | (_, None) => [] end.
(** logic_delegation.go 11-31. *)
Definition ev_delegation (st : dstate) (s d : N) : list event :=
  let st0 := remove_index st s in
  if bool_decide (is_Some (f_delegators (getf st0 s) !! d)) then ev_withdrawal st0 s d else [].
(** logic_delegation.go 36-58. *)
Definition ev_undelegation (st : dstate) (s d : N) : list event := ev_withdrawal (remove_index st s) s d.
(** msg_server_delegate.go 17-40. *)
Definition ev_msg_delegate (st : dstate) (d s : N) (a : Z) : list event := ev_delegation st s d ++ [EvDelegate d s a].
(** msg_server_undelegate.go 25-30; the date is a uint64 sum. *)
Definition ev_msg_undelegate (st : dstate) (d s : N) (a : Z) : list event :=
  [EvStartUndelegation d s a (u64_add (w64 (ds_time st)) (p_unbonding (ds_params st)))].
(** msg_server_redelegate.go 17-60. *)
Definition ev_msg_redelegate (st : dstate) (d from to : N) (a : Z) : list event :=
  match consume_spell (ds_params st) (ds_time st) (default [] (ds_cool st !! d)) with
  | None => []
  | Some l =>
      let st1 := with_cool st (<[d := l]> (ds_cool st)) in
      ev_undelegation st1 from d ++ ev_delegation (fst (perform_undelegation st1 from d a)) to d ++ [EvRedelegate d from to a]
  end.
(** logic_unbonding.go 38-87; the loop and its fuel are those of [process_loop]. *)
Fixpoint ev_process_loop (fuel : nat) (st : dstate) (low : N) : list event :=
  match fuel with
  | O => []
  | S fuel =>
      match ds_queue st !! (low + 1)%N with
      | None => if (low <? ds_high st)%N then ev_process_loop fuel st (low + 1)%N else []
      | Some e =>
          if due st e then
            let '(st3, paid) := process_one st low e in
            ev_undelegation st (u_staker e) (u_delegator e) ++ EvUndelegate (u_delegator e) (u_staker e) paid :: ev_process_loop fuel st3 (low + 1)%N
          else []
      end
  end.
Definition ev_queue (st : dstate) : list event := ev_process_loop (queue_fuel st) st (ds_low st).
(** exported_functions.go 90-114. *)
Definition ev_slash (st : dstate) (p s : N) (t : slash_type) : list event :=
  match f_data (getf st s) with None => [] | Some _ => [EvSlash p s (snd (slash_delegators st s t)) t] end.

(** ** x/stakers *)
(** exported_functions.go 22-29: emitted whether or not the staker was in the pool. *)
Definition ev_leave (p s : N) : list event := [EvLeave p s].
(** logic_stakers.go 62-80. *)
Definition ev_slot (st : sstate) (del : N -> Z) (p : N) : list event :=
  if MAX_STAKERS <=? count_of st p then ev_leave p (lowest_staker st del p) else [].
(** logic_commission.go 40-59, logic_leave.go 34-46. *)
Definition ev_centry (st : sstate) (i : N) : list event :=
  match ss_centries st !! i with
  | None => []
  | Some e => if wrap_i64 (ce_date e + i64 (ss_ctime st)) <=? ss_time st then [EvUpdateCommission (ce_staker e) (ce_commission e)] else []
  end.
Definition ev_lentry (st : sstate) (i : N) : list event :=
  match ss_lentries st !! i with
  | None => []
  | Some e => if wrap_i64 (le_date e + i64 (ss_ltime st)) <=? ss_time st then ev_leave (le_pool e) (le_staker e) else []
  end.
(** logic_queue.go 25-45. *)
Fixpoint ev_queue_loop (f : sstate -> N -> option sstate) (ev : sstate -> N -> list event) (high : N) (fuel : nat) (st : sstate) (low : N) : list event :=
  match fuel with
  | O => []
  | S fuel =>
      ev st (low + 1)%N ++
      match f st (low + 1)%N with
      | None => []
      | Some st1 => if (low <? high)%N then ev_queue_loop f ev high fuel st1 (low + 1)%N else []
      end
  end.
Definition ev_commissions (st : sstate) : list event :=
  ev_queue_loop process_centry ev_centry (ss_chigh st) (S (N.to_nat (ss_chigh st - ss_clow st))) st (ss_clow st).
Definition ev_leaves (st : sstate) : list event :=
  ev_queue_loop process_lentry ev_lentry (ss_lhigh st) (S (N.to_nat (ss_lhigh st - ss_llow st))) st (ss_llow st).
Definition ev_stakers_begin (st : sstate) : list event := ev_commissions st ++ ev_leaves (process_commissions st).

(** ** x/funders *)
(** logic_funders.go 64-109: out of funds, if the list of active funders is empty after the charge. *)
Definition ev_charge (st : fstate) (p : N) : list event :=
  match fs_active st !! p with
  | None => []
  | Some l =>
      match active_fundings st p l with
      | [] => []
      | _ =>
          match fs_active (fst (charge_funders st p MPool)) !! p with
          | Some [] => [EvOutOfFunds p]
          | _ => []
          end
      end
  end.
(** logic_funders.go 195-238 ensureFreeSlot: the amounts of the event are read after they have
    been set to nothing (lines 226-235). *)
Definition ev_free_slot (st : fstate) (p a : N) (act : list N) : list event :=
  let afs := active_fundings st p act in
  if (length afs <? MAX_FUNDERS)%nat then []
  else match lowest_funding (wl st) afs with
       | None => []
       | Some (b, fb, _) => if (b =? a)%N then [] else [EvDefund p b (fd_amounts (mkFd ∅ ∅ (fd_total fb)))]
       end.
(** msg_server_fund_pool.go 17-96. *)
Definition ev_fund (st : fstate) (a p : N) (amounts apb : coins) : list event :=
  ev_free_slot st p a (default [] (fs_active st !! p)) ++ [EvFund p a amounts apb].
(** msg_server_defund_pool.go 61-65. *)
Definition ev_defund (st : fstate) (a p : N) (amounts : coins) : list event :=
  match fs_fundings st !! (a, p) with None => [] | Some f => [EvDefund p a (cmin (fd_amounts f) amounts)] end.

(** ** x/bundles *)
(** logic_bundles.go 172-175. *)
Definition ev_slash_remove (c : chain) (p s : N) (t : slash_type) : list event := ev_slash (d_in c) p s t ++ ev_leave p s.
(** logic_bundles.go 178-188. *)
Definition ev_reset (c : chain) (p s : N) : list event := if 0 <? snd (reset_points (s_in c) p s) then [EvReset p s] else [].
(** logic_bundles.go 192-207. *)
Definition ev_add_point (c : chain) (p s : N) : list event :=
  let '(s', points) := increment_points (s_in c) p s in
  let c1 := s_out c s' in
  EvPoint p s points :: (if b_maxpoints (c_bp c1) <=? points then ev_slash_remove c1 p s SlashTimeout else []).
(** logic_bundles.go 213-234. *)
Definition ev_non_voters (c : chain) (p : N) : list event :=
  let b := get_prop c p in
  ev_fold (fun c s => if voted b s then c else add_point c p s) (fun c s => if voted b s then [] else ev_add_point c p s) (members c p) c.
(** logic_bundles.go 567-655. After an error or a panic the events do not matter: the message is
    rejected, and at the end of a block there is none (C64). *)
Definition ev_tally (c : chain) (b : proposal) (p : N) : list event :=
  let c1 := handle_non_voters c p in
  ev_non_voters c p ++
  match v_status (distribution c1 p) with
  | VValid =>
      ev_charge (f_in c1) p ++
      match charge_inflation (f_out c1 (fst (charge_funders (f_in c1) p MPool))) p with
      | None => []
      | Some (c2, x) =>
          match payouts c2 p (cadd (default ∅ (snd (charge_funders (f_in c1) p MPool))) (coin KYVE x)) with
          | None => []
          | Some r =>
              match pay_out c2 (bp_uploader b) r with
              | inr _ => []
              | inl c3 => ev_fold (fun c s => slash_remove c p s SlashVote) (fun c s => ev_slash_remove c p s SlashVote) (bp_invalid b) c3
              end
          end
      end
  | VInvalid =>
      ev_fold (fun c s => slash_remove c p s (slash_type_of b s)) (fun c s => ev_slash_remove c p s (slash_type_of b s)) (bp_valid b) c1
  | _ => []
  end.
(** TotalBundles and CurrentIndex of a pool (zero if it is not found). *)
Definition total_of (c : chain) (p : N) : N := match get_pool c p with Some pl => pl_total pl | None => 0%N end.
Definition index_at (c : chain) (p : N) : Z := match get_pool c p with Some pl => pl_index pl | None => 0 end.
(** logic_bundles.go 332-378. *)
Definition ev_register (c : chain) (m : submit) : list event :=
  let '(sp, comp) := match get_pool c (sb_pool m) with Some pl => (pl_sp pl, pl_comp pl) | None => (0%N, 0%N) end in
  [EvProposed (mkEP (sb_pool m) (total_of c (sb_pool m)) (sb_storage m) (sb_staker m) (sb_data m) (index_at c (sb_pool m)) (sb_size m)
     (sb_fromkey m) (sb_tokey m) (sb_summary m) (sb_hash m) (c_time c) sp comp);
   EvVote (sb_pool m) (sb_staker m) (sb_storage m) Valid].
(** logic_bundles.go 383-437. *)
Definition ev_finalize (c : chain) (p : N) (v : votes) (fp : coins) (x : Z) (r : reward) (next : N) : list event :=
  [EvFinalized (mkEF p (total_of c p) (v_valid v) (v_invalid v) (v_abstain v) (v_total v) (Judged (v_status v)) fp x r
     (cadd (r_commission r) (r_storage r)) (c_time c) (bp_uploader (get_prop c p)) next)].
(** logic_bundles.go 443-467: no next uploader, no payouts. *)
Definition ev_drop (c : chain) (p : N) (v : votes) (s : bstatus) : list event :=
  [EvFinalized (mkEF p (total_of c p) (v_valid v) (v_invalid v) (v_abstain v) (v_total v) s ∅ 0 r_zero ∅ (c_time c) (bp_uploader (get_prop c p)) 0)].
(** msg_server_submit_bundle_proposal.go 11-65. *)
Definition ev_submit (c : chain) (m : submit) : list event :=
  let p := sb_pool m in
  let b := get_prop c p in
  let c1 := reset_pts c p (sb_staker m) in
  ev_reset c p (sb_staker m) ++
  if (bp_storage b =? 0)%N then ev_register (snd (choose c1 p [])) m
  else
    ev_tally c1 b p ++
    match tally c1 b p with
    | TrValid c2 v fp x r =>
        let '(next, c3) := choose_from c2 p (bp_valid b) in
        ev_finalize c3 p v fp x r next ++ ev_register (finalize c3 p v) m
    | TrInvalid c2 v => ev_drop c2 p v (Judged (v_status v))
    | _ => []
    end.
(** msg_server_vote_bundle_proposal.go 47-57. *)
Definition ev_vote (c : chain) (p s storage : N) (w : vote) : list event := ev_reset c p s ++ [EvVote p s storage w].
(** msg_server_skip_uploader_role.go 11-64. *)
Definition ev_skip (c : chain) (p s : N) : list event :=
  let b := get_prop c p in
  let c0 := reset_pts c p s in
  ev_reset c p s ++ ev_tally c0 b p ++
  match tally c0 b p with
  | TrValid c1 v fp x r =>
      let '(next, c2) := choose c1 p [s] in
      ev_finalize c2 p v fp x r next ++ [EvSkipped p (total_of (finalize c2 p v) p) s next]
  | TrInvalid c1 v =>
      let '(next, c2) := choose c1 p [s] in
      ev_drop c2 p v (Judged (v_status v)) ++ [EvSkipped p (total_of c2 p) s next]
  | TrNoQuorum c1 _ => let '(next, c2) := choose c1 p [s] in [EvSkipped p (total_of c2 p) s next]
  | _ => []
  end.
(** logic_end_block_handle_upload_timeout.go 11-120; taking the role away (line 32) and handing
    it on without a bundle (lines 106-109) emit nothing. *)
Definition ev_timeout_point (c : chain) (p s : N) : list event := if in_pool c p s then ev_add_point c p s else [].
Definition no_votes : votes := mkV 0 0 0 0 VUnspecified.
Definition ev_timeout_pool (c : chain) (p : N) (interval : Z) : list event :=
  let b := get_prop c p in
  match pool_error c p with
  | Some e =>
      let disabled := match e with EDisabled => true | _ => false end in
      if disabled && negb (bp_storage b =? 0)%N then ev_drop c p no_votes Stopped else []
  | None =>
      if c_time c <? u64_add (bp_updated b) interval then []
      else
        let v := distribution c p in
        let noq := match v_status v with VNoQuorum => true | _ => false end in
        if negb (bp_storage b =? 0)%N && noq then
          ev_non_voters c p ++ ev_drop (snd (choose (handle_non_voters c p) p [])) p v (Judged (v_status v))
        else if c_time c <? u64_add (u64_add (bp_updated b) interval) (b_timeout (c_bp c)) then []
        else if (bp_storage b =? 0)%N then
          let '(next, c1) := choose c p [] in
          ev_timeout_point (set_prop c1 p (with_next b next (c_time c1))) p (bp_next b)
        else
          ev_tally c b p ++
          match tally c b p with
          | TrPanic | TrError _ => []
          | TrValid c1 v fp x r =>
              let '(next, c2) := choose_from c1 p (bp_valid b) in
              let c3 := finalize c2 p v in
              ev_finalize c2 p v fp x r next ++ ev_timeout_point (set_prop c3 p (bp_none next (c_time c3))) p (bp_next b)
          | TrInvalid c1 v | TrNoQuorum c1 v =>
              let '(next, c2) := choose c1 p [] in
              ev_drop c2 p v (Judged (v_status v)) ++ ev_timeout_point (drop c2 p next) p (bp_next b)
          end
  end.
Fixpoint ev_timeouts (c : chain) (l : list (N * Z)) : list event :=
  match l with
  | [] => []
  | (p, i) :: l => ev_timeout_pool c p i ++ match timeout_pool c p i with None => [] | Some c1 => ev_timeouts c1 l end
  end.
(** A panic stops the node: nothing of the block is published. *)
Definition ev_handle_timeout (c : chain) : list event :=
  match timeouts c (pool_intervals c) with Some _ => ev_timeouts c (pool_intervals c) | None => [] end.

(** ** x/pool *)
(** msg_server_schedule_runtime_upgrade.go 35-68: the event has the requested time, the plan the
    later one of it and the block time. msg_server_cancel_runtime_upgrade.go 24-42. *)
Definition schedulable (runtime : N) (pl : pool) : bool := (pl_runtime pl =? runtime)%N && (pn_at (pl_plan pl) =? 0).
Definition cancellable (runtime : N) (pl : pool) : bool := (pl_runtime pl =? runtime)%N && negb (pn_at (pl_plan pl) =? 0).
Definition pools_with (f : pool -> bool) (s : pstore) : list N :=
  List.filter (fun p => match ps_pools s !! p with Some pl => f pl | None => false end) (pool_ids s).
(** msg_server_update_pool.go 68-81: the fields after the update, without the end key. *)
Definition ev_update_pool (s : pstore) (p : N) (a : update_args) : list event :=
  match ps_pools s !! p with
  | None => []
  | Some pl =>
      let q := apply_update pl a in
      [EvUpdatePool p a (pl_runtime q) (pl_interval q) (pl_weight q) (pl_mindel q) (pl_maxsize q) (pl_sp q) (pl_comp q)]
  end.
(** msg_server_disable_pool.go 41-54. *)
Definition ev_disable_pool (c : chain) (p : N) : list event := flat_map (fun s => ev_leave p s) (members c p) ++ [EvDisabled p].

(** ** x/team *)
(** msg_server_create_team_vesting_account.go 33-38, msg_server_claim_unlocked.go 44-49,
    msg_server_clawback.go 37-42, msg_server_claim_account_rewards.go 40-45,
    msg_server_claim_authority_rewards.go 37-41. *)
Definition ev_team (st : tstate) (o : top) : list event :=
  match o with
  | TCreate s total start => [EvTeamCreate s (length (ts_accounts st)) total start]
  | TClaim s id a r => [EvTeamClaim s id a r]
  | TClawback s id t =>
      match ts_accounts st !! id with
      | None => []
      | Some a =>
          let a' := mkVA (va_total a) (va_start a) t (va_claimed a) (va_last a) (va_rewards a) (va_rclaimed a) in
          [EvTeamClawback s id t (u64_sub (va_total a') (vesting_max a'))]
      end
  | TClaimRewards s id a r => [EvTeamRewards s id a r]
  | TClaimAuthority s a r => [EvTeamAuthority s a r]
  | _ => []
  end.

(** ** The machine *)
(** Chain.v [begin_block]: x/delegation, then x/stakers. *)
Definition ev_begin (c : chain) (t provision : Z) : list event :=
  let c0 := cw_time (cw_bank c (mint (c_bank c) MFeeCollector (coin KYVE provision))) t (c_height c + 1) in
  let c1 := t_out c0 (team_begin (twith_time (t_in c0) t) provision (supply (c_bank c0))) in
  let c2 := match split_inflation c1 provision with Some x => x | None => cw_halt c1 end in
  let c3 := d_out c2 (fst (process_queue (with_time (d_in c2) t))) in
  ev_queue (with_time (d_in c2) t) ++ ev_stakers_begin (with_stime (s_in c3) t).
(** What an accepted message, or a block hook, emits. *)
Definition emitted (c : chain) (o : cop) : list event :=
  match o with
  | CDelegate d s a => ev_msg_delegate (d_in c) d s a
  | CUndelegate d s a => ev_msg_undelegate (d_in c) d s a
  | CRedelegate d from to a => ev_msg_redelegate (d_in c) d from to a
  | CWithdraw d s => ev_withdrawal (d_in c) s d
  | CCreateStaker s com a => ev_msg_delegate (d_in c) s s a ++ [EvCreateStaker s a com]
  | CUpdateCommission _ _ => []
  | CClaimCommission s x => [EvClaimCommission s x]
  | CJoin s p v a => ev_slot (s_in c) (power c) p ++ [EvJoin p s v a]
  | CLeave _ _ => []
  | CCreateFunder a => [EvCreateFunder a]
  | CFund a p x y => ev_fund (f_in c) a p x y
  | CDefund a p x => ev_defund (f_in c) a p x
  | CTeam o => ev_team (t_in c) o
  | CSubmit m => ev_submit c m
  | CVote p s _ st w => ev_vote c p s st w
  | CSkip p s _ _ => ev_skip c p s
  | CClaimRole p s _ => [EvClaimedRole p (total_of c p) s]
  | CCreatePool _ _ a => [EvCreatePool (ps_count (c_pools c)) a]
  | CUpdatePool _ p a => ev_update_pool (c_pools c) p a
  | CEnablePool _ p => [EvEnabled p]
  | CDisablePool _ p => ev_disable_pool c p
  | CSchedule _ r v b t d => [EvScheduled r v b t d (pools_with (schedulable r) (c_pools c))]
  | CCancel _ r => [EvCancelled r (pools_with (cancellable r) (c_pools c))]
  | CParamsD _ _ | CParamsS _ _ _ | CParamsF _ _ | CParamsP _ _ | CParamsB _ _ | CParamsG _ _ => []
  | CBegin t provision => ev_begin c t provision
  | CEnd => ev_handle_timeout (cw_pools c (handle_upgrades (c_pools c) (c_time c)))
  | CBank _ => []
  end.
Definition events (c : chain) (o : cop) : list event := match cmsg c o with Some _ => emitted c o | None => [] end.
(** The log of a history. *)
Fixpoint elog (c : chain) (ops : list cop) : list event :=
  match ops with [] => [] | o :: t => events c o ++ elog (cstep c o) t end.
