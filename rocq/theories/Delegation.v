(** * x/delegation: F1 fee distribution, unbonding queue, redelegation limit.

    Modelled: x/delegation/keeper/logic_f1distribution.go, logic_delegation.go,
    logic_unbonding.go, logic_redelegation.go, exported_functions.go,
    msg_server_delegate.go, msg_server_undelegate.go, msg_server_redelegate.go,
    msg_server_withdraw_rewards.go, the staker index of
    getters_index_stakers.go, and the stores behind them.

    Simplifications used everywhere in this file:
    - uint64 additions and int64 conversions of token amounts are exact: amounts
      are backed by coins of the bond denom, whose supply is below 2^63.
      uint64 subtractions wrap (u64_sub).
    - A Go panic of DecCoins.Sub (negative difference) is recorded in the same
      sticky flag as util.PanicHalt and execution continues.
    - The per-staker stores (delegation data, entries, slashes, delegators) are
      grouped into one record per staker; C48 justifies the partition of keys.
    - Existence of the staker, and whether it is in a pool, come from
      x/stakers and are inputs of the messages. *)
From Verif Require Import Base.

(** ** F1 state of one staker *)

(** x/delegation/types/delegation.pb.go: Delegator (InitialAmount, KIndex). *)
Record delegator := mkDelegator { d_init : Z; d_k : N }.

(** x/delegation/types/delegation.pb.go: DelegationData. *)
Record ddata := mkDD {
  dd_rewards : coins;       (* CurrentRewards *)
  dd_total : Z;             (* TotalDelegation *)
  dd_latest : N;            (* LatestIndexK *)
  dd_count : Z;             (* DelegatorCount *)
  dd_undel : bool           (* LatestIndexWasUndelegation *)
}.
(** The zero value of the Go struct. *)
Definition dd_zero : ddata := mkDD ∅ 0 0 0 false.

Record f1 := mkF1 {
  f_data : option ddata;             (* DelegationData store *)
  f_entries : gmap N coins;          (* DelegationEntry store: KIndex -> Value *)
  f_slashes : list (N * Z);          (* DelegationSlash store, in key order *)
  f_delegators : gmap N delegator;   (* Delegator store *)
  f_halt : bool                      (* PanicHalt was called *)
}.
Definition f1_empty : f1 := mkF1 None ∅ [] ∅ false.

Definition set_data (f : f1) (x : option ddata) : f1 :=
  mkF1 x (f_entries f) (f_slashes f) (f_delegators f) (f_halt f).
Definition set_entries (f : f1) (x : gmap N coins) : f1 :=
  mkF1 (f_data f) x (f_slashes f) (f_delegators f) (f_halt f).
Definition set_slashes (f : f1) (x : list (N * Z)) : f1 :=
  mkF1 (f_data f) (f_entries f) x (f_delegators f) (f_halt f).
Definition set_delegators (f : f1) (x : gmap N delegator) : f1 :=
  mkF1 (f_data f) (f_entries f) (f_slashes f) x (f_halt f).
(** util/logic_error.go 17-35: PanicHalt schedules a halt and returns. *)
Definition panic_if (b : bool) (f : f1) : f1 :=
  mkF1 (f_data f) (f_entries f) (f_slashes f) (f_delegators f) (f_halt f || b).

Definition get_dd (f : f1) : ddata := default dd_zero (f_data f).
Definition no_data (f : f1) : bool := match f_data f with None => true | Some _ => false end.

(** getters_delegation_entries.go: RemoveDelegationEntry. *)
Definition del_entry (f : f1) (k : N) : f1 := set_entries f (delete k (f_entries f)).

(** logic_f1distribution.go 36-45 (and 308-315): the quotient T_f / n_f. *)
Definition period_value (dd : ddata) : coins :=
  if dd_total dd =? 0 then ∅
  else cmap (fun r => dec_quo (dec_of_int r) (dec_of_int (dd_total dd))) (dd_rewards dd).

(** logic_f1distribution.go 25-72: f1StartNewPeriod.  Returns the store and the
    updated (unsaved) delegation data; the new index is its [dd_latest].
    Lines 66-67: if the previous entry was not found, its Staker field is empty
    and the removal does not hit any entry of this staker. *)
Definition f1_start_new_period (f : f1) (dd : ddata) : f1 * ddata :=
  let prev := f_entries f !! dd_latest dd in
  let value := cadd (period_value dd) (default ∅ prev) in
  let k := (dd_latest dd + 1)%N in
  let f1 := set_entries f (<[k := value]> (f_entries f)) in
  let f2 := if dd_undel dd then
              match prev with Some _ => del_entry f1 (dd_latest dd) | None => f1 end
            else f1 in
  (f2, mkDD ∅ (dd_total dd) k (dd_count dd) false).

(** logic_f1distribution.go 76-106: f1CreateDelegator. *)
Definition f1_create (f : f1) (d : N) (amount : Z) : f1 :=
  if amount =? 0 then f
  else
    let '(f1, dd1) := f1_start_new_period f (get_dd f) in
    let dd2 := mkDD (dd_rewards dd1) (dd_total dd1 + amount) (dd_latest dd1)
                    (dd_count dd1 + 1) (dd_undel dd1) in
    let f2 := set_data f1 (Some dd2) in
    set_delegators f2 (<[d := mkDelegator amount (dd_latest dd2)]> (f_delegators f2)).

(** getters_delegation_slash.go 82-97: GetAllDelegationSlashesBetween, both ends inclusive. *)
Definition slashes_between (f : f1) (lo hi : N) : list (N * Z) :=
  List.filter (fun p => (lo <=? fst p)%N && (fst p <=? hi)%N) (f_slashes f).

(** logic_f1distribution.go 237-246: the loop over slashes; result is the list
    of handler calls (startIndex, endIndex, delegation). *)
Fixpoint periods (prev : N) (b : Z) (sl : list (N * Z)) (hi : N) : list (N * N * Z) :=
  match sl with
  | [] => [(prev, hi, b)]
  | (k, fr) :: t => (prev, k, b) :: periods k (b - dec_mul_trunc b fr) t hi
  end.

(** logic_f1distribution.go 226-247: f1IterateConstantDelegationPeriods. *)
Definition f1_periods (f : f1) (d : N) (lo hi : N) : list (N * N * Z) :=
  let dl := default (mkDelegator 0 0) (f_delegators f !! d) in
  periods lo (dec_of_int (d_init dl)) (slashes_between f lo hi) hi.

(** The balance passed to the last handler call. *)
Definition last_balance (init : Z) (ps : list (N * N * Z)) : Z :=
  List.fold_left (fun _ p => snd p) ps init.

(** logic_f1distribution.go 251-270: f1GetCurrentDelegation (without the
    PanicHalt of lines 258-261, which [f1_current_panics] reports). *)
Definition f1_current (f : f1) (d : N) : Z :=
  match f_delegators f !! d with
  | None => 0
  | Some dl =>
      trunc_int (last_balance (dec_of_int (d_init dl))
                   (f1_periods f d (d_k dl) (dd_latest (get_dd f))))
  end.
Definition f1_current_panics (f : f1) (d : N) : bool :=
  match f_delegators f !! d with None => false | Some _ => no_data f end.

(** logic_f1distribution.go 111-148: f1RemoveDelegator. *)
Definition f1_remove (f : f1) (d : N) : f1 * Z :=
  match f_delegators f !! d with
  | None => (f, 0)
  | Some dl =>
      let f0 := panic_if (no_data f || f1_current_panics f d) f in
      let balance := f1_current f0 d in
      let '(f1, dd1) := f1_start_new_period f0 (get_dd f0) in
      let dd2 := mkDD (dd_rewards dd1) (u64_sub (dd_total dd1) balance) (dd_latest dd1)
                      (u64_sub (dd_count dd1) 1) true in
      let f2 := set_delegators f1 (delete d (f_delegators f1)) in
      let f3 := del_entry f2 (d_k dl) in
      let f4 := if dd_count dd2 =? 0 then del_entry f3 (dd_latest dd2) else f3 in
      (set_data f4 (Some dd2), balance)
  end.

(** logic_f1distribution.go 154-177: f1Slash. *)
Definition f1_slash (f : f1) (fr : Z) : f1 * Z :=
  let '(f1, dd1) := f1_start_new_period f (get_dd f) in
  let f2 := set_slashes f1 (kv_set (dd_latest dd1) fr (f_slashes f1)) in
  let slashed := trunc_int (dec_mul (dec_of_int (dd_total dd1)) fr) in
  let dd2 := mkDD (dd_rewards dd1) (u64_sub (dd_total dd1) slashed) (dd_latest dd1)
                  (dd_count dd1) (dd_undel dd1) in
  (set_data f2 (Some dd2), slashed).

(** logic_f1distribution.go 329-342: f1GetEntryDifference; the boolean tells
    whether PanicHalt was called or DecCoins.Sub panicked. *)
Definition f1_entry_diff (f : f1) (lo hi : N) : coins * bool :=
  let a := f_entries f !! lo in
  let b := f_entries f !! hi in
  let missing := match a, b with Some _, Some _ => false | _, _ => true end in
  let va := default ∅ a in
  let vb := default ∅ b in
  (csub vb va, missing || negb (cle va vb)).

(** logic_f1distribution.go 353-358: safeMulDec. *)
Definition safe_mul_dec (c : coins) (x : Z) : coins :=
  if x =? 0 then ∅ else cmap (fun v => dec_mul v x) c.

(** The handler of f1WithdrawRewards, lines 202-209, and of
    f1GetOutstandingRewards, lines 291-300. *)
Definition reward_step (f : f1) (acc : coins * bool) (p : N * N * Z) : coins * bool :=
  let '(lo, hi, b) := p in
  let '(diff, bad) := f1_entry_diff f lo hi in
  (cadd (fst acc) (safe_mul_dec diff b), snd acc || bad).

(** The sum over all handler calls. *)
Definition f1_sum_rewards (f : f1) (ps : list (N * N * Z)) : coins * bool :=
  List.fold_left (reward_step f) ps (∅, false).

(** logic_f1distribution.go 345-351: truncateDecCoins. *)
Definition truncate_coins (c : coins) : coins := cmap trunc_int c.

(** logic_f1distribution.go 181-221: f1WithdrawRewards. *)
Definition f1_withdraw (f : f1) (d : N) : f1 * coins :=
  match f_delegators f !! d with
  | None => (f, ∅)
  | Some dl =>
      let f0 := panic_if (no_data f) f in
      let '(f1, dd1) := f1_start_new_period f0 (get_dd f0) in
      let f2 := set_data f1 (Some dd1) in
      let endk := dd_latest dd1 in
      let '(reward, bad) := f1_sum_rewards f2 (f1_periods f2 d (d_k dl) endk) in
      let f3 := panic_if bad (del_entry f2 (d_k dl)) in
      let f4 := panic_if (f1_current_panics f3 d) f3 in
      (set_delegators f4 (<[d := mkDelegator (f1_current f4 d) endk]> (f_delegators f4)),
       truncate_coins reward)
  end.

(** logic_f1distribution.go 274-327: f1GetOutstandingRewards; the boolean tells
    whether the query would call PanicHalt or panic. *)
Definition f1_outstanding (f : f1) (d : N) : coins * bool :=
  match f_delegators f !! d with
  | None => (∅, false)
  | Some dl =>
      let dd := get_dd f in
      let ps := f1_periods f d (d_k dl) (dd_latest dd) in
      let '(reward, bad) := f1_sum_rewards f ps in
      let latest := last_balance (dec_of_int (d_init dl)) ps in
      let missing := match f_entries f !! dd_latest dd with None => true | Some _ => false end in
      let ongoing := safe_mul_dec (period_value dd) latest in
      (truncate_coins (cadd reward ongoing), no_data f || bad || missing)
  end.

(** getters_delegation_data.go 18-24: AddAmountToDelegationRewards. *)
Definition f1_add_rewards (f : f1) (c : coins) : f1 :=
  match f_data f with
  | None => f
  | Some dd => set_data f (Some (mkDD (cadd (dd_rewards dd) c) (dd_total dd) (dd_latest dd)
                                      (dd_count dd) (dd_undel dd)))
  end.

(** exported_functions.go 19-27: GetDelegationAmount. *)
Definition f1_total (f : f1) : Z :=
  match f_data f with None => 0 | Some dd => dd_total dd end.

(** ** Module state *)

(** x/delegation/types/delegation.pb.go: UndelegationQueueEntry. *)
Record uentry := mkU { u_staker : N; u_delegator : N; u_amount : Z; u_time : Z }.

(** x/delegation/types/params.go. *)
Record dparams := mkDP {
  p_unbonding : Z;        (* UnbondingDelegationTime *)
  p_cooldown : Z;         (* RedelegationCooldown *)
  p_maxredel : Z;         (* RedelegationMaxAmount *)
  p_vote : Z; p_upload : Z; p_timeout : Z  (* slash fractions *)
}.

Record dstate := mkD {
  ds_f1 : gmap N f1;              (* per staker *)
  ds_bank : bank;
  ds_low : N; ds_high : N;        (* QueueState *)
  ds_queue : gmap N uentry;       (* undelegation queue by index *)
  ds_cool : gmap N (list Z);      (* redelegation cooldowns: creation dates in key order *)
  ds_index : gset (Z * N);        (* staker index (amount, staker), in memory *)
  ds_params : dparams;
  ds_time : Z;                    (* block time, unix seconds *)
  ds_halt : bool                  (* PanicHalt because of missing funds *)
}.

Definition with_f1 (st : dstate) x := mkD x (ds_bank st) (ds_low st) (ds_high st)
  (ds_queue st) (ds_cool st) (ds_index st) (ds_params st) (ds_time st) (ds_halt st).
Definition with_bank (st : dstate) x := mkD (ds_f1 st) x (ds_low st) (ds_high st)
  (ds_queue st) (ds_cool st) (ds_index st) (ds_params st) (ds_time st) (ds_halt st).
Definition with_queue (st : dstate) lo hi q := mkD (ds_f1 st) (ds_bank st) lo hi
  q (ds_cool st) (ds_index st) (ds_params st) (ds_time st) (ds_halt st).
Definition with_cool (st : dstate) x := mkD (ds_f1 st) (ds_bank st) (ds_low st) (ds_high st)
  (ds_queue st) x (ds_index st) (ds_params st) (ds_time st) (ds_halt st).
Definition with_index (st : dstate) x := mkD (ds_f1 st) (ds_bank st) (ds_low st) (ds_high st)
  (ds_queue st) (ds_cool st) x (ds_params st) (ds_time st) (ds_halt st).
Definition with_params (st : dstate) x := mkD (ds_f1 st) (ds_bank st) (ds_low st) (ds_high st)
  (ds_queue st) (ds_cool st) (ds_index st) x (ds_time st) (ds_halt st).
Definition with_time (st : dstate) x := mkD (ds_f1 st) (ds_bank st) (ds_low st) (ds_high st)
  (ds_queue st) (ds_cool st) (ds_index st) (ds_params st) x (ds_halt st).
Definition with_halt (st : dstate) (x : bool) := mkD (ds_f1 st) (ds_bank st) (ds_low st) (ds_high st)
  (ds_queue st) (ds_cool st) (ds_index st) (ds_params st) (ds_time st) (ds_halt st || x).

Definition getf (st : dstate) (s : N) : f1 := default f1_empty (ds_f1 st !! s).
Definition setf (st : dstate) (s : N) (f : f1) : dstate := with_f1 st (<[s := f]> (ds_f1 st)).

(** exported_functions.go 19-33: the two delegation queries. *)
Definition delegation_amount (st : dstate) (s : N) : Z := f1_total (getf st s).
Definition delegation_of (st : dstate) (s d : N) : Z := f1_current (getf st s) d.

(** getters_index_stakers.go 78-83, 87-92: SetStakerIndex, RemoveStakerIndex.
    The key holds MaxUint64 - amount; the model keeps the amount. *)
Definition set_index (st : dstate) (s : N) : dstate :=
  with_index st (ds_index st ∪ {[ (delegation_amount st s, s) ]}).
Definition remove_index (st : dstate) (s : N) : dstate :=
  with_index st (ds_index st ∖ {[ (delegation_amount st s, s) ]}).

(** util/logic_bank.go 32-47, 50-65, 96-111.  sdk.NewInt64Coin panics for a
    negative amount; amounts here are below 2^63 by the convention above. *)
Definition pay_user (st : dstate) (d : N) (c : coins) : option dstate :=
  match send (ds_bank st) MDelegation (User d) c with
  | Some b => Some (with_bank st b) | None => None end.

(** logic_delegation.go 62-80: performWithdrawal.  The F1 state is written
    before the transfer; [None] in the second component is the error. *)
Definition perform_withdrawal (st : dstate) (s d : N) : dstate * option coins :=
  let '(f, reward) := f1_withdraw (getf st s) d in
  let st1 := if bool_decide (is_Some (f_delegators (getf st s) !! d)) then setf st s f else st in
  match pay_user st1 d reward with
  | Some st2 => (st2, Some reward)
  | None => (st1, None)
  end.

Definition failed {A} (o : option A) : bool := match o with None => true | Some _ => false end.

(** logic_delegation.go 11-31: performDelegation. *)
Definition perform_delegation (st : dstate) (s d : N) (amount : Z) : dstate :=
  let st0 := remove_index st s in
  let st1 :=
    if bool_decide (is_Some (f_delegators (getf st0 s) !! d)) then
      let '(sw, err) := perform_withdrawal st0 s d in
      let sw := with_halt sw (failed err) in
      let '(f, und) := f1_remove (getf sw s) d in
      let sr := setf sw s f in
      setf sr s (f1_create (getf sr s) d (und + amount))
    else setf st0 s (f1_create (getf st0 s) d amount) in
  set_index st1 s.

(** logic_delegation.go 36-58: performUndelegation. *)
Definition perform_undelegation (st : dstate) (s d : N) (amount : Z) : dstate * Z :=
  let st0 := remove_index st s in
  let '(sw, err) := perform_withdrawal st0 s d in
  let sw := with_halt sw (failed err) in
  let '(f, und) := f1_remove (getf sw s) d in
  let sr := setf sw s f in
  let redel := if und >? amount then u64_sub und amount else 0 in
  let sc := if und >? amount then setf sr s (f1_create (getf sr s) d redel) else sr in
  (set_index sc s, u64_sub und redel).

(** logic_unbonding.go 12-32: StartUnbondingDelegator. *)
Definition start_unbonding (st : dstate) (s d : N) (amount : Z) : dstate :=
  let hi := (ds_high st + 1)%N in
  with_queue st (ds_low st) hi (<[hi := mkU s d amount (ds_time st)]> (ds_queue st)).

(** logic_unbonding.go 59-83: completing the entry [e] at index [low + 1].
    Returns the paid amount. *)
Definition process_one (st : dstate) (low : N) (e : uentry) : dstate * Z :=
  let '(st1, paid) := perform_undelegation st (u_staker e) (u_delegator e) (u_amount e) in
  let st2 := match pay_user st1 (u_delegator e) (coin KYVE paid) with
             | Some s' => s' | None => with_halt st1 true end in
  (with_queue st2 (ds_low st2) (ds_high st2) (delete (low + 1)%N (ds_queue st2)), paid).

(** logic_unbonding.go 57; the uint64 sum wraps. *)
Definition due (st : dstate) (e : uentry) : bool :=
  u64_add (u_time e) (p_unbonding (ds_params st)) <=? ds_time st.

(** logic_unbonding.go 38-87: ProcessDelegatorUnbondingQueue.  [fuel] bounds the
    loop; [process_queue] supplies high - low + 1, which always suffices (every
    continued iteration increments LowIndex, proved in DelegationQueue.v).
    The paid entries are returned as (index, entry, amount). *)
Fixpoint process_loop (fuel : nat) (st : dstate) (low : N) : dstate * N * list (N * uentry * Z) :=
  match fuel with
  | O => (st, low, [])
  | S fuel =>
      match ds_queue st !! (low + 1)%N with
      | None => if (low <? ds_high st)%N then process_loop fuel st (low + 1)%N
                else (st, low, [])
      | Some e =>
          if due st e then
            let '(st3, paid) := process_one st low e in
            let '(st4, low', out) := process_loop fuel st3 (low + 1)%N in
            (st4, low', ((low + 1)%N, e, paid) :: out)
          else (st, low, [])
      end
  end.

Definition queue_fuel (st : dstate) : nat := S (N.to_nat (ds_high st - ds_low st)).

Definition process_queue (st : dstate) : dstate * list (N * uentry * Z) :=
  let '(st1, low, out) := process_loop (queue_fuel st) st (ds_low st) in
  (with_queue st1 low (ds_high st1) (ds_queue st1), out).

(** logic_redelegation.go 17-23: remove expired cooldowns up to the first that
    has not expired. *)
Fixpoint drop_expired (now cooldown : Z) (l : list Z) : list Z :=
  match l with
  | [] => []
  | c :: t => if now - c >? cooldown then drop_expired now cooldown t else l
  end.

(** getters_redelegation.go 17-24: SetRedelegationCooldown (sorted, unique keys). *)
Fixpoint insert_date (x : Z) (l : list Z) : list Z :=
  match l with
  | [] => [x]
  | c :: t => if x <? c then x :: l else if x =? c then l else c :: insert_date x t
  end.

Definition last_date (l : list Z) : option Z := last l.

(** logic_redelegation.go 14-46: consumeRedelegationSpell on the dates of one
    address; [None] is the error (the transaction is then rolled back). The parameters
    are converted to int64. *)
Definition consume_spell (p : dparams) (now : Z) (l : list Z) : option (list Z) :=
  let l' := drop_expired now (i64 (p_cooldown p)) l in
  if Z.of_nat (length l') >=? i64 (p_maxredel p) then None
  else if bool_decide (last_date l' = Some now) then None
  else Some (insert_date now l').

(** ** Messages *)

(** msg_server_delegate.go 17-40: Delegate. *)
Definition msg_delegate (st : dstate) (staker_exists : bool) (d s : N) (amount : Z) : option dstate :=
  if negb staker_exists then None
  else
    let st1 := perform_delegation st s d amount in
    match send (ds_bank st1) (User d) MDelegation (coin KYVE amount) with
    | Some b => Some (with_bank st1 b)
    | None => None
    end.

(** msg_server_undelegate.go 14-33: Undelegate. *)
Definition msg_undelegate (st : dstate) (d s : N) (amount : Z) : option dstate :=
  if amount >? delegation_of st s d then None
  else Some (start_unbonding st s d amount).

(** msg_server_redelegate.go 17-60: Redelegate. *)
Definition msg_redelegate (st : dstate) (target_exists target_active : bool)
    (d from to : N) (amount : Z) : option dstate :=
  if negb (bool_decide (is_Some (f_delegators (getf st from) !! d))) then None
  else if negb target_exists then None
  else if negb target_active then None
  else if amount >? delegation_of st from d then None
  else
    match consume_spell (ds_params st) (ds_time st) (default [] (ds_cool st !! d)) with
    | None => None
    | Some l =>
        let st1 := with_cool st (<[d := l]> (ds_cool st)) in
        let '(st2, actual) := perform_undelegation st1 from d amount in
        if negb (actual =? amount) then None
        else Some (perform_delegation st2 to d amount)
    end.

(** msg_server_withdraw_rewards.go 13-31: WithdrawRewards. *)
Definition msg_withdraw (st : dstate) (d s : N) : option dstate :=
  if negb (bool_decide (is_Some (f_delegators (getf st s) !! d))) then None
  else match perform_withdrawal st s d with
       | (st1, Some _) => Some st1
       | (_, None) => None
       end.

(** exported_functions.go 66-86: PayoutRewards; [None] is the error. *)
Definition payout_rewards (st : dstate) (s : N) (c : coins) (payer : acct) : option dstate :=
  if cempty c then Some st
  else match f_data (getf st s) with
       | None => None
       | Some _ =>
           let st1 := setf st s (f1_add_rewards (getf st s) c) in
           match send (ds_bank st1) payer MDelegation c with
           | Some b => Some (with_bank st1 b)
           | None => None
           end
       end.

(** keeper/params.go: getSlashFraction; types: SlashType. *)
Inductive slash_type := SlashTimeout | SlashVote | SlashUpload.
Definition slash_fraction (p : dparams) (t : slash_type) : Z :=
  match t with
  | SlashTimeout => p_timeout p | SlashVote => p_vote p | SlashUpload => p_upload p end.

(** exported_functions.go 90-114: SlashDelegators. Returns the slashed amount. *)
Definition slash_delegators (st : dstate) (s : N) (t : slash_type) : dstate * Z :=
  match f_data (getf st s) with
  | None => (st, 0)
  | Some _ =>
      let st0 := remove_index st s in
      let '(f, slashed) := f1_slash (getf st0 s) (slash_fraction (ds_params st0) t) in
      let st1 := setf st0 s f in
      let st2 := match send (ds_bank st1) MDelegation Treasury (coin KYVE slashed) with
                 | Some b => with_bank st1 b
                 | None => with_halt st1 true
                 end in
      (set_index st2 s, slashed)
  end.

(** types/params.go 58-86: Validate. The uint64 checks never fail; the last line says that the three
    numbers are uint64. *)
Definition dparams_valid (p : dparams) : bool :=
  (0 <=? p_vote p) && (p_vote p <=? ONE) && (0 <=? p_upload p) && (p_upload p <=? ONE)
  && (0 <=? p_timeout p) && (p_timeout p <=? ONE)
  && ((0 <=? p_unbonding p) && (p_unbonding p <? two64)) && ((0 <=? p_cooldown p) && (p_cooldown p <? two64))
  && ((0 <=? p_maxredel p) && (p_maxredel p <? two64)).

(** ** The machine *)
Inductive dop :=
  | ODelegate (staker_exists : bool) (d s : N) (amount : Z)
  | OUndelegate (d s : N) (amount : Z)
  | ORedelegate (target_exists target_active : bool) (d from to : N) (amount : Z)
  | OWithdraw (d s : N)
  | OPayout (s : N) (c : coins) (payer : acct)   (* call from x/bundles *)
  | OSlash (s : N) (t : slash_type)              (* call from x/bundles *)
  | OBeginBlock (dt : Z)                         (* module.go 243-248 *)
  | OParams (p : dparams)                        (* governance, validated *)
  | OBank (b : bank).                            (* other modules move other money *)

(** A failed message leaves the state unchanged (runTx rolls back). *)
Definition or_same (st : dstate) (o : option dstate) : dstate := default st o.

(** Inputs the environment can produce: uint64 amounts, valid coins, payer
    other than the module itself, time moving forward, and bank changes of other
    modules that take nothing from this module's account (they may add to it: a join message
    can name any recipient, x/stakers/keeper/msg_server_join_pool.go 76). *)
Definition dop_ok (st : dstate) (o : dop) : Prop :=
  match o with
  | ODelegate _ _ _ a | OUndelegate _ _ a | ORedelegate _ _ _ _ _ a => 0 <= a < two63
  | OPayout _ c payer => cpos c /\ payer <> MDelegation
  | OBeginBlock dt => 0 <= dt
  | OParams p => dparams_valid p = true
  | OBank b => forall x, bal (ds_bank st) MDelegation x <= bal b MDelegation x
  | _ => True
  end.

Definition dstep (st : dstate) (o : dop) : dstate :=
  match o with
  | ODelegate ex d s a => or_same st (msg_delegate st ex d s a)
  | OUndelegate d s a => or_same st (msg_undelegate st d s a)
  | ORedelegate ex act d from to a => or_same st (msg_redelegate st ex act d from to a)
  | OWithdraw d s => or_same st (msg_withdraw st d s)
  | OPayout s c payer => or_same st (payout_rewards st s c payer)
  | OSlash s t => fst (slash_delegators st s t)
  | OBeginBlock dt => fst (process_queue (with_time st (ds_time st + dt)))
  | OParams p => with_params st p
  | OBank b => with_bank st b
  end.

Definition dinit (b : bank) (p : dparams) (t : Z) : dstate :=
  mkD ∅ b 0 0 ∅ ∅ ∅ p t false.
