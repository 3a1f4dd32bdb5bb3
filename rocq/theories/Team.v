(** * x/team: vesting accounts, claims, team inflation (model only, no proofs).

    Modelled: all of x/team/keeper/logic_team.go, the five message servers,
    x/team/abci.go, getters_team_vesting_account.go.

    Simplifications used everywhere in this file:
    - Accounts are only ever appended with id = count and never deleted
      (getters_team_vesting_account.go 67-86), so the account store is a list indexed by id.
      (Genesis could import other ids; it is not modelled here.)
    - A panic in a message is the error result; a panic in begin block stops the chain
      ([ts_halt]).
    - The two authority addresses are fixed numbers; the recipient of a claim is a user
      address (module accounts are blocked, app/app_config.go 190-206).
    - Panics of LegacyDec beyond 315 bits are not modelled (all values here have fewer). *)
From Verif Require Import Base.

(** types/keys.go 22-28, types/types.go 46-47 (2023-02-01T10:34:15 UTC). *)
Definition VESTING : Z := 94608000.
Definition UNLOCK : Z := 63072000.
Definition CLIFF : Z := 31536000.
Definition TEAM_ALLOCATION : Z := 165000000000000000.
Definition TGE : Z := 1675247655.
(** types/types.go 44-45, as opaque addresses. *)
Definition FOUNDATION : N := 1001.
Definition BCP : N := 1002.

(** types/team.pb.go TeamVestingAccount without the id. *)
Record vacc := mkVA {
  va_total : Z;          (* TotalAllocation *)
  va_start : Z;          (* Commencement *)
  va_clawback : Z;       (* 0 = none *)
  va_claimed : Z;        (* UnlockedClaimed *)
  va_last : Z;           (* LastClaimedTime *)
  va_rewards : Z;        (* TotalRewards *)
  va_rclaimed : Z        (* RewardsClaimed *)
}.

(** LegacyNewDec(int64(a)).Mul(LegacyNewDec(int64(b))).Quo(LegacyNewDec(int64(n))) and then
    uint64(TruncateInt64()). TruncateInt64 cannot panic where this is used: b < n. *)
Definition prorate (a b n : Z) : Z :=
  w64 (trunc_int (dec_quo (dec_mul (dec_of_int (i64 a)) (dec_of_int (i64 b))) (dec_of_int n))).

(** logic_team.go 129-160 getVestedAmount. *)
Definition vested (a : vacc) (t : Z) : Z :=
  let d0 := if va_start a <? t then t - va_start a else 0 in
  let d := if (0 <? va_clawback a) && (va_clawback a <? t) then u64_sub (va_clawback a) (va_start a) else d0 in
  if d <? CLIFF then 0
  else if d <? VESTING then prorate (va_total a) d VESTING
  else va_total a.
(** logic_team.go 163-167 getVestingMaxAmount. *)
Definition vesting_max (a : vacc) : Z := vested a (u64_add (va_start a) VESTING).
(** logic_team.go 170-173 getLockUpReferenceDate. *)
Definition lockup_date (a : vacc) : Z := u64_add (Z.max (va_start a) TGE) CLIFF.
(** logic_team.go 177-201 getUnlockedAmount. *)
Definition unlocked (a : vacc) (t : Z) : Z :=
  let tu := lockup_date a in
  if t <? tu then 0
  else if t - tu <? UNLOCK then prorate (vested a t) (t - tu) UNLOCK
  else vesting_max a.
(** logic_team.go 51-65 GetVestingStatus: CurrentClaimableAmount. *)
Definition claimable (a : vacc) (t : Z) : Z :=
  if va_claimed a <? unlocked a t then u64_sub (unlocked a t) (va_claimed a) else 0.

(** ** State *)
Record tstate := mkTS {
  ts_accounts : list vacc;
  ts_arewards : Z;        (* Authority.TotalRewards *)
  ts_aclaimed : Z;        (* Authority.RewardsClaimed *)
  ts_time : Z;            (* block time, unix seconds *)
  ts_bank : bank;
  ts_halt : bool          (* PanicHalt called or begin block panicked *)
}.
Definition twith_accounts (st : tstate) x := mkTS x (ts_arewards st) (ts_aclaimed st) (ts_time st) (ts_bank st) (ts_halt st).
Definition twith_auth (st : tstate) r c := mkTS (ts_accounts st) r c (ts_time st) (ts_bank st) (ts_halt st).
Definition twith_bank (st : tstate) x := mkTS (ts_accounts st) (ts_arewards st) (ts_aclaimed st) (ts_time st) x (ts_halt st).
Definition twith_time (st : tstate) x := mkTS (ts_accounts st) (ts_arewards st) (ts_aclaimed st) x (ts_bank st) (ts_halt st).
Definition twith_halt (st : tstate) x := mkTS (ts_accounts st) (ts_arewards st) (ts_aclaimed st) (ts_time st) (ts_bank st) (ts_halt st || x).

(** logic_team.go 87-93 GetIssuedTeamAllocation. *)
Definition issued (l : list vacc) : Z := fold_left (fun s a => u64_add s (vesting_max a)) l 0.
(** logic_team.go 95-125 GetTeamInfo: RequiredModuleBalance. *)
Definition required_balance (st : tstate) : Z :=
  fold_left (fun s a => u64_sub (u64_add s (u64_sub (va_rewards a) (va_rclaimed a))) (va_claimed a))
    (ts_accounts st) (u64_add TEAM_ALLOCATION (u64_sub (ts_arewards st) (ts_aclaimed st))).

(** util/logic_bank.go 32-47 TransferFromModuleToAddress and 68-78: NewInt64Coin panics on a
    negative int64, which is the case [two63 <= amount]. *)
Definition transfer (b : bank) (from to : acct) (amount : Z) : option bank :=
  if i64 amount <? 0 then None else send b from to (coin KYVE amount).

(** ** Messages *)
Definition is_authority (s : N) : bool := (s =? FOUNDATION)%N || (s =? BCP)%N.

(** msg_server_create_team_vesting_account.go 12-41. *)
Definition msg_create (st : tstate) (sender : N) (total start : Z) : option tstate :=
  if negb (is_authority sender) then None
  else if (total =? 0) || (start =? 0) then None
  else if TEAM_ALLOCATION <? u64_add (issued (ts_accounts st)) total then None
  else Some (twith_accounts st (ts_accounts st ++ [mkVA total start 0 0 0 0 0])).

(** msg_server_claim_unlocked.go 13-52. *)
Definition msg_claim_unlocked (st : tstate) (sender : N) (id : nat) (amount : Z) (recipient : N) : option tstate :=
  if negb (is_authority sender) then None
  else
    match ts_accounts st !! id with
    | None => None
    | Some a =>
        if claimable a (ts_time st) <? amount then None
        else
          match transfer (ts_bank st) MTeam (User recipient) amount with
          | None => None
          | Some b =>
              Some (twith_bank (twith_accounts st (<[id := mkVA (va_total a) (va_start a) (va_clawback a)
                (u64_add (va_claimed a) amount) (ts_time st) (va_rewards a) (va_rclaimed a)]> (ts_accounts st))) b)
          end
    end.

(** msg_server_clawback.go 12-45. *)
Definition msg_clawback (st : tstate) (sender : N) (id : nat) (clawback : Z) : option tstate :=
  if negb (is_authority sender) then None
  else
    match ts_accounts st !! id with
    | None => None
    | Some a =>
        if (0 <? clawback) && (clawback <? va_start a) then None
        else if (0 <? clawback) && (clawback <? va_last a) then None
        else Some (twith_accounts st (<[id := mkVA (va_total a) (va_start a) clawback
               (va_claimed a) (va_last a) (va_rewards a) (va_rclaimed a)]> (ts_accounts st)))
    end.

(** msg_server_claim_account_rewards.go 14-48. *)
Definition msg_claim_rewards (st : tstate) (sender : N) (id : nat) (amount : Z) (recipient : N) : option tstate :=
  if negb (is_authority sender) then None
  else
    match ts_accounts st !! id with
    | None => None
    | Some a =>
        if u64_sub (va_rewards a) (va_rclaimed a) <? amount then None
        else
          match transfer (ts_bank st) MTeam (User recipient) amount with
          | None => None
          | Some b =>
              Some (twith_bank (twith_accounts st (<[id := mkVA (va_total a) (va_start a) (va_clawback a)
                (va_claimed a) (va_last a) (va_rewards a) (u64_add (va_rclaimed a) amount)]> (ts_accounts st))) b)
          end
    end.

(** msg_server_claim_authority_rewards.go 14-44. *)
Definition msg_claim_authority (st : tstate) (sender : N) (amount : Z) (recipient : N) : option tstate :=
  if negb (sender =? FOUNDATION)%N then None
  else if u64_sub (ts_arewards st) (ts_aclaimed st) <? amount then None
  else
    match transfer (ts_bank st) MTeam (User recipient) amount with
    | None => None
    | Some b => Some (twith_bank (twith_auth st (ts_arewards st) (u64_add (ts_aclaimed st) amount)) b)
    end.

(** ** Begin block *)
(** TruncateInt64. *)
Definition trunc64 (d : Z) : option Z :=
  let q := trunc_int d in if (- two63 <=? q) && (q <? two63) then Some q else None.

(** logic_team.go 16-47 GetTeamBlockProvision; [provision] and [supply] come from x/mint and
    x/bank. First component: PanicHalt called; [None]: panic (division by zero, Int64). *)
Definition block_provision (st : tstate) (provision supply : Z) : option (bool * Z) :=
  if (two63 <=? supply) || (two63 <=? provision) then None
  else if supply - provision =? 0 then None
  else
    let share := dec_quo (dec_of_int (i64 (required_balance st))) (dec_of_int (supply - provision)) in
    match trunc64 (dec_mul share (dec_of_int provision)) with
    | None => None
    | Some r => Some (ONE <? share, r)
    end.

(** abci.go 30-32: reward of one account. *)
Definition account_reward (a : vacc) (t r : Z) : option Z :=
  let share := dec_quo (dec_of_int (i64 (u64_sub (vested a t) (va_claimed a)))) (dec_of_int (i64 TEAM_ALLOCATION)) in
  match trunc64 (dec_mul (dec_of_int r) share) with None => None | Some q => Some (w64 q) end.

(** abci.go 26-40: the loop over the accounts. *)
Fixpoint distribute (l : list vacc) (t r : Z) : option (list vacc * Z) :=
  match l with
  | [] => Some ([], 0)
  | a :: l =>
      match account_reward a t r, distribute l t r with
      | Some x, Some (l', s) =>
          Some (mkVA (va_total a) (va_start a) (va_clawback a) (va_claimed a) (va_last a)
                     (u64_add (va_rewards a) x) (va_rclaimed a) :: l', u64_add x s)
      | _, _ => None
      end
  end.

(** abci.go 18-58 DistributeTeamInflation. *)
Definition team_begin (st : tstate) (provision supply : Z) : tstate :=
  match block_provision st provision supply with
  | None => twith_halt st true
  | Some (h, r) =>
      match distribute (ts_accounts st) (ts_time st) r with
      | None => twith_halt st true
      | Some (l, total) =>
          let h1 := w64 r <? total in
          let st1 := twith_auth (twith_accounts st l) (u64_add (ts_arewards st) (u64_sub (w64 r) total)) (ts_aclaimed st) in
          let st2 := twith_halt st1 (h || h1) in
          match transfer (ts_bank st2) MFeeCollector MTeam (w64 r) with
          | None => twith_halt st2 true
          | Some b => twith_bank st2 b
          end
      end
  end.

(** ** The machine *)
Inductive top :=
  | TCreate (sender : N) (total start : Z)
  | TClaim (sender : N) (id : nat) (amount : Z) (recipient : N)
  | TClawback (sender : N) (id : nat) (clawback : Z)
  | TClaimRewards (sender : N) (id : nat) (amount : Z) (recipient : N)
  | TClaimAuthority (sender : N) (amount : Z) (recipient : N)
  | TBegin (t provision supply : Z)     (* next block: time, minted coins, supply after minting *)
  | TBank (b : bank).                   (* other modules move other money *)

(** Inputs the environment can produce: uint64 fields; time does not run backwards; x/mint has
    put the provision into the fee collector before (app_config.go: mint runs before team) and
    the supply covers the balances of the two accounts and fits int64. *)
Definition top_ok (st : tstate) (o : top) : Prop :=
  match o with
  | TCreate _ total start => 0 <= total < two64 /\ 0 <= start < two64
  | TClaim _ _ amount _ | TClaimRewards _ _ amount _ | TClaimAuthority _ amount _ => 0 <= amount < two64
  | TClawback _ _ c => 0 <= c < two64
  | TBegin t provision supply =>
      ts_time st <= t < two63 /\ 0 <= provision /\ provision <= bal (ts_bank st) MFeeCollector KYVE /\
      bal (ts_bank st) MTeam KYVE + bal (ts_bank st) MFeeCollector KYVE <= supply < two63 /\ provision < supply
  | TBank b => bal (ts_bank st) MTeam KYVE <= bal b MTeam KYVE
  end.

Definition tstep (st : tstate) (o : top) : tstate :=
  match o with
  | TCreate s total start => default st (msg_create st s total start)
  | TClaim s id amount r => default st (msg_claim_unlocked st s id amount r)
  | TClawback s id c => default st (msg_clawback st s id c)
  | TClaimRewards s id amount r => default st (msg_claim_rewards st s id amount r)
  | TClaimAuthority s amount r => default st (msg_claim_authority st s amount r)
  | TBegin t provision supply => team_begin (twith_time st t) provision supply
  | TBank b => twith_bank st b
  end.

Definition tinit (b : bank) (t : Z) : tstate := mkTS [] 0 0 t b false.
Fixpoint trun (st : tstate) (ops : list top) : tstate :=
  match ops with [] => st | o :: t => trun (tstep st o) t end.
Fixpoint tops_ok (st : tstate) (ops : list top) : Prop :=
  match ops with [] => True | o :: t => top_ok st o /\ tops_ok (tstep st o) t end.
