(** * The queries of x/team (model only, no proofs).

    Modelled: x/team/keeper/grpc_team_info.go, grpc_team_vesting_account.go,
    grpc_team_vesting_status.go, grpc_query_vesting_status_by_time.go, and logic_team.go 49-81
    and 95-125 in full ([Team] only has the parts the messages use).

    Simplifications used everywhere in this file:
    - A date in an answer is the number of seconds passed to time.Unix; the text it is turned
      into by String() is not modelled.
    - A nil request (an error) is not modelled. An error and a panic are [None]. *)
From Verif Require Import Base Team.

(** types/query.pb.go QueryVestingStatus. *)
Record vstatus := mkStatus {
  vs_vested : Z;      (* TotalVestedAmount *)
  vs_unlocked : Z;    (* TotalUnlockedAmount *)
  vs_claimable : Z;   (* CurrentClaimableAmount *)
  vs_locked : Z;      (* LockedVestedAmount *)
  vs_unvested : Z;    (* RemainingUnvestedAmount *)
  vs_claimed : Z;     (* ClaimedAmount *)
  vs_rewards : Z;     (* TotalRewards *)
  vs_rclaimed : Z;    (* ClaimedRewards *)
  vs_ravail : Z       (* AvailableRewards *)
}.
(** types/query.pb.go QueryVestingPlan. *)
Record vplan := mkPlan {
  vp_commencement : Z;
  vp_vest_start : Z;      (* TokenVestingStart *)
  vp_vest_end : Z;        (* TokenVestingFinished *)
  vp_unlock_start : Z;    (* TokenUnlockStart *)
  vp_unlock_end : Z;      (* TokenUnlockFinished *)
  vp_clawback : Z;        (* Clawback *)
  vp_clawed : Z;          (* ClawbackAmount *)
  vp_max : Z              (* MaximumVestingAmount *)
}.
(** types/query.pb.go QueryTeamVestingStatus(ByTime)Response. *)
Record vanswer := mkAnswer { an_date : Z; an_plan : vplan; an_status : vstatus }.

(** logic_team.go 51-65 GetVestingStatus with grpc_query_vesting_status_by_time.go 26-38. *)
Definition status_of (a : vacc) (q : Z) : vstatus :=
  mkStatus (vested a q) (unlocked a q) (claimable a q)
    (u64_sub (vested a q) (unlocked a q)) (u64_sub (vesting_max a) (vested a q))
    (va_claimed a) (va_rewards a) (va_rclaimed a) (u64_sub (va_rewards a) (va_rclaimed a)).
(** logic_team.go 68-81 GetVestingPlan with grpc_query_vesting_status_by_time.go 40-51: the dates
    are converted to int64. *)
Definition plan_of (a : vacc) : vplan :=
  mkPlan (i64 (va_start a)) (i64 (u64_add (va_start a) CLIFF)) (i64 (u64_add (va_start a) VESTING))
    (i64 (lockup_date a)) (i64 (u64_add (lockup_date a) UNLOCK))
    (va_clawback a) (u64_sub (va_total a) (vesting_max a)) (vesting_max a).
(** grpc_query_vesting_status_by_time.go 14-58 TeamVestingStatusByTime. *)
Definition status_by_time (st : tstate) (i : nat) (q : Z) : option vanswer :=
  match ts_accounts st !! i with
  | None => None
  | Some a => Some (mkAnswer (ts_time st) (plan_of a) (status_of a q))
  end.
(** grpc_team_vesting_status.go 14-34 TeamVestingStatus. *)
Definition status_now (st : tstate) (i : nat) : option vanswer :=
  match status_by_time st i (ts_time st) with
  | None => None
  | Some r => Some (mkAnswer (ts_time st) (an_plan r) (an_status r))
  end.
(** grpc_team_vesting_account.go 14-37: the accounts with their ids, in the order of the ids
    (getters_team_vesting_account.go 102-120, 8-byte big-endian keys), and one of them. *)
Definition list_accounts (st : tstate) : list (nat * vacc) := imap (fun i a => (i, a)) (ts_accounts st).
Definition show_account (st : tstate) (i : nat) : option vacc := ts_accounts st !! i.

(** types/query.pb.go QueryTeamInfoResponse. *)
Record tinfo := mkInfo {
  ti_foundation : N; ti_bcp : N;
  ti_total : Z;         (* TotalTeamAllocation *)
  ti_issued : Z;        (* IssuedTeamAllocation *)
  ti_available : Z;     (* AvailableTeamAllocation *)
  ti_arewards : Z;      (* TotalAuthorityRewards *)
  ti_aclaimed : Z;      (* ClaimedAuthorityRewards *)
  ti_aavail : Z;        (* AvailableAuthorityRewards *)
  ti_rewards : Z;       (* TotalAccountRewards *)
  ti_rclaimed : Z;      (* ClaimedAccountRewards *)
  ti_ravail : Z;        (* AvailableAccountRewards *)
  ti_required : Z;      (* RequiredModuleBalance *)
  ti_balance : Z        (* TeamModuleBalance *)
}.
(** logic_team.go 95-125 GetTeamInfo, grpc_team_info.go 13-21. Int64 panics from 2^63 on. *)
Definition team_info (st : tstate) : option tinfo :=
  let balance := bal (ts_bank st) MTeam KYVE in
  if two63 <=? balance then None
  else Some (mkInfo FOUNDATION BCP TEAM_ALLOCATION (issued (ts_accounts st))
    (u64_sub TEAM_ALLOCATION (issued (ts_accounts st)))
    (ts_arewards st) (ts_aclaimed st) (u64_sub (ts_arewards st) (ts_aclaimed st))
    (fold_left (fun s a => u64_add s (va_rewards a)) (ts_accounts st) 0)
    (fold_left (fun s a => u64_add s (va_rclaimed a)) (ts_accounts st) 0)
    (fold_left (fun s a => u64_add s (u64_sub (va_rewards a) (va_rclaimed a))) (ts_accounts st) 0)
    (required_balance st) balance).
