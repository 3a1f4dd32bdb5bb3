(** * x/stakers: stakers, pool membership, commission and leave queues (model only, no proofs).

    Modelled: x/stakers/keeper/{logic_commission,logic_leave,logic_queue,logic_stakers}.go,
    the messages create staker, update commission, claim commission rewards, join pool and leave
    pool, LeavePool and AssertValaccountAuthorized of exported_functions.go, the getters and
    setters they use, module.go BeginBlock.

    Simplifications used everywhere in this file:
    - The valaccount store and its second index (getters_valaccount.go 103-133) always hold the
      same keys and are one two-level map pool -> staker -> valaccount.
    - Iteration in byte order of addresses is iteration in the order of the numbers that stand
      for addresses.
    - Queue positions and the number of pools per staker are unbounded numbers (uint64 counters
      incremented once per message).
    - Whether a pool exists and is disabled (x/pool) and the delegation of each staker
      (x/delegation) are inputs of the join message; whether the initial self delegation of a
      new staker succeeds is an input of the create message.
    - A panic in a message is the error result. Metadata and events are left out. *)
From stdpp Require Import sorting.
From Verif Require Import Base.

(** int64 addition as Go performs it. *)
Definition wrap_i64 (x : Z) : Z := (x + two63) mod two64 - two63.

(** types/stakers.pb.go Staker: commission and commission rewards. *)
Record staker := mkSt { st_commission : Z; st_rewards : coins }.
(** Valaccount. *)
Record valacc := mkVal { vl_addr : N; vl_points : Z; vl_leaving : bool }.
(** CommissionChangeEntry and LeavePoolEntry. *)
Record centry := mkCE { ce_staker : N; ce_commission : Z; ce_date : Z }.
Record lentry := mkLE { le_staker : N; le_pool : N; le_date : Z }.

Record sstate := mkSS {
  ss_stakers : gmap N staker;
  ss_val : gmap N (gmap N valacc);       (* pool, staker *)
  ss_count : gmap N Z;                   (* STAKER_STATS_COUNT per pool *)
  ss_active : gmap N Z;                  (* ActiveStakerIndex: number of pools per staker *)
  ss_centries : gmap N centry;           (* commission queue *)
  ss_cindex : gmap N N;                  (* its second index: staker -> position *)
  ss_clow : N; ss_chigh : N;
  ss_lentries : gmap N lentry;           (* leave queue *)
  ss_lindex : gset (N * N);              (* its second index: (staker, pool) *)
  ss_llow : N; ss_lhigh : N;
  ss_ctime : Z; ss_ltime : Z;            (* parameters, uint64 *)
  ss_time : Z;
  ss_bank : bank
}.
Definition with_stakers (st : sstate) x := mkSS x (ss_val st) (ss_count st) (ss_active st) (ss_centries st) (ss_cindex st) (ss_clow st) (ss_chigh st) (ss_lentries st) (ss_lindex st) (ss_llow st) (ss_lhigh st) (ss_ctime st) (ss_ltime st) (ss_time st) (ss_bank st).
Definition with_val (st : sstate) x := mkSS (ss_stakers st) x (ss_count st) (ss_active st) (ss_centries st) (ss_cindex st) (ss_clow st) (ss_chigh st) (ss_lentries st) (ss_lindex st) (ss_llow st) (ss_lhigh st) (ss_ctime st) (ss_ltime st) (ss_time st) (ss_bank st).
Definition with_counts (st : sstate) c a := mkSS (ss_stakers st) (ss_val st) c a (ss_centries st) (ss_cindex st) (ss_clow st) (ss_chigh st) (ss_lentries st) (ss_lindex st) (ss_llow st) (ss_lhigh st) (ss_ctime st) (ss_ltime st) (ss_time st) (ss_bank st).
Definition with_cq (st : sstate) e i l h := mkSS (ss_stakers st) (ss_val st) (ss_count st) (ss_active st) e i l h (ss_lentries st) (ss_lindex st) (ss_llow st) (ss_lhigh st) (ss_ctime st) (ss_ltime st) (ss_time st) (ss_bank st).
Definition with_lq (st : sstate) e i l h := mkSS (ss_stakers st) (ss_val st) (ss_count st) (ss_active st) (ss_centries st) (ss_cindex st) (ss_clow st) (ss_chigh st) e i l h (ss_ctime st) (ss_ltime st) (ss_time st) (ss_bank st).
Definition with_sparams (st : sstate) c l := mkSS (ss_stakers st) (ss_val st) (ss_count st) (ss_active st) (ss_centries st) (ss_cindex st) (ss_clow st) (ss_chigh st) (ss_lentries st) (ss_lindex st) (ss_llow st) (ss_lhigh st) c l (ss_time st) (ss_bank st).
Definition with_stime (st : sstate) x := mkSS (ss_stakers st) (ss_val st) (ss_count st) (ss_active st) (ss_centries st) (ss_cindex st) (ss_clow st) (ss_chigh st) (ss_lentries st) (ss_lindex st) (ss_llow st) (ss_lhigh st) (ss_ctime st) (ss_ltime st) x (ss_bank st).
Definition with_sbank (st : sstate) x := mkSS (ss_stakers st) (ss_val st) (ss_count st) (ss_active st) (ss_centries st) (ss_cindex st) (ss_clow st) (ss_chigh st) (ss_lentries st) (ss_lindex st) (ss_llow st) (ss_lhigh st) (ss_ctime st) (ss_ltime st) (ss_time st) x.

(** ** Getters *)
Definition vals_of (st : sstate) (p : N) : gmap N valacc := default ∅ (ss_val st !! p).
(** getters_valaccount.go 136-150 GetValaccount. *)
Definition get_val (st : sstate) (p s : N) : option valacc := vals_of st p !! s.
(** exported_functions.go 34-40 GetAllStakerAddressesOfPool, in store order. *)
Definition pool_stakers (st : sstate) (p : N) : list N :=
  merge_sort N.le (map fst (map_to_list (vals_of st p))).
(** getters_valaccount.go 57-74 GetValaccountsFromStaker: the valaddresses a staker uses. *)
Definition valaddrs_of (st : sstate) (s : N) : list N :=
  omap (fun p => vl_addr <$> (snd p) !! s) (map_to_list (ss_val st)).
(** getters_staker.go 198-220 GetStakerCountOfPool, 235-239 isActiveStaker. *)
Definition count_of (st : sstate) (p : N) : Z := default 0 (ss_count st !! p).
Definition is_active (st : sstate) (s : N) : bool := match ss_active st !! s with Some _ => true | None => false end.
(** exported_functions.go 52-64 AssertValaccountAuthorized. *)
Definition authorized (st : sstate) (p s v : N) : bool :=
  match get_val st p s with Some x => (vl_addr x =? v)%N | None => false end.
(** exported_functions.go 43-46 GetCommission. *)
Definition commission_of (st : sstate) (s : N) : option Z := st_commission <$> ss_stakers st !! s.

Definition set_val (st : sstate) (p s : N) (v : valacc) : sstate :=
  with_val st (<[p := <[s := v]> (vals_of st p)]> (ss_val st)).

(** getters_staker.go 61-73 AddValaccountToPool with 202-205 and 244-263. *)
Definition add_val (st : sstate) (p s v : N) : sstate :=
  match ss_stakers st !! s with
  | None => st
  | Some _ =>
      match get_val st p s with
      | Some _ => st
      | None =>
          let st1 := set_val st p s (mkVal v 0 false) in
          with_counts st1 (<[p := u64_add (count_of st p) 1]> (ss_count st))
            (<[s := default 0 (ss_active st !! s) + 1]> (ss_active st))
      end
  end.
(** getters_staker.go 77-88 RemoveValaccountFromPool with 207-210 and 269-295;
    exported_functions.go 22-29 LeavePool. *)
Definition remove_active (m : gmap N Z) (s : N) : gmap N Z :=
  let c := default 0 (m !! s) in
  if (c =? 0) || (c =? 1) then delete s m else <[s := c - 1]> m.
Definition leave_pool (st : sstate) (s p : N) : sstate :=
  match get_val st p s with
  | None => st
  | Some _ =>
      let st1 := with_val st (<[p := delete s (vals_of st p)]> (ss_val st)) in
      with_counts st1 (<[p := u64_sub (count_of st p) 1]> (ss_count st)) (remove_active (ss_active st) s)
  end.

(** ** Slots *)
(** types/keys.go 63 MaxStakers. *)
Definition MAX_STAKERS : Z := 50.
(** getters_staker.go 98-109 getAllStakersOfPool, logic_stakers.go 40-52 getLowestStaker: the
    address of the first staker with the least delegation; 0 is the empty address. *)
Definition known (st : sstate) (s : N) : N := match ss_stakers st !! s with Some _ => s | None => 0%N end.
Definition lowest_staker (st : sstate) (del : N -> Z) (p : N) : N :=
  snd (fold_left (fun acc s => if del s <? fst acc then (del s, s) else acc)
         (map (known st) (pool_stakers st p)) (two64 - 1, 0%N)).
(** logic_stakers.go 62-80 ensureFreeSlot. *)
Definition ensure_slot (st : sstate) (del : N -> Z) (p s : N) : option sstate :=
  if MAX_STAKERS <=? count_of st p then
    let l := lowest_staker st del p in
    if del l <? del s then Some (leave_pool st l p) else None
  else Some st.

(** ** Messages *)
(** util/logic_bank.go 9-29: NewInt64Coin panics on amounts of 2^63 and more. *)
Definition pay_kyve (b : bank) (from to : acct) (amount : Z) : option bank :=
  if i64 amount <? 0 then None else send b from to (coin KYVE amount).

(** msg_server_create_staker.go 18-53; [delegates]: the self delegation succeeds. The move of
    the self delegation itself belongs to x/delegation. *)
Definition msg_create_staker (st : sstate) (s : N) (commission : Z) (delegates : bool) : option sstate :=
  match ss_stakers st !! s with
  | Some _ => None
  | None => if delegates then Some (with_stakers st (<[s := mkSt commission ∅]> (ss_stakers st))) else None
  end.

(** logic_commission.go 13-30 orderNewCommissionChange with getters_commission.go 16-69. *)
Definition remove_centry (st : sstate) (i : N) (e : centry) : sstate :=
  with_cq st (delete i (ss_centries st)) (delete (ce_staker e) (ss_cindex st)) (ss_clow st) (ss_chigh st).
Definition order_commission (st : sstate) (s : N) (c : Z) : sstate :=
  let st1 :=
    match ss_cindex st !! s with
    | None => st
    | Some i => match ss_centries st !! i with None => st | Some e => remove_centry st i e end
    end in
  let i := (ss_chigh st1 + 1)%N in
  with_cq st1 (<[i := mkCE s c (ss_time st1)]> (ss_centries st1)) (<[s := i]> (ss_cindex st1)) (ss_clow st1) i.
(** msg_server_update_commission.go 16-28. *)
Definition msg_update_commission (st : sstate) (s : N) (c : Z) : option sstate :=
  match ss_stakers st !! s with None => None | Some _ => Some (order_commission st s c) end.

(** msg_server_claim_commission_rewards.go 13-44. *)
Definition msg_claim_commission (st : sstate) (s : N) (amounts : coins) : option sstate :=
  match ss_stakers st !! s with
  | None => None
  | Some x =>
      if negb (cle amounts (st_rewards x)) then None
      else
        match send (ss_bank st) MStakers (User s) amounts with
        | None => None
        | Some b =>
            Some (with_sbank (with_stakers st (<[s := mkSt (st_commission x) (csub (st_rewards x) amounts)]> (ss_stakers st))) b)
        end
  end.

(** msg_server_join_pool.go 22-88; [pool]: [None] not found, [Some d]: disabled flag. *)
Definition msg_join (st : sstate) (pool : option bool) (del : N -> Z) (s p v : N) (amount : Z) : option sstate :=
  match pool with
  | None => None
  | Some true => None
  | Some false =>
      match ss_stakers st !! s with
      | None => None
      | Some _ =>
          if (s =? v)%N then None
          else
            match get_val st p s with
            | Some _ => None
            | None =>
                match ensure_slot st del p s with
                | None => None
                | Some st1 =>
                    if existsb (fun x => x =? v)%N (valaddrs_of st1 s) then None
                    else if existsb (fun x => match get_val st1 p x with Some y => (vl_addr y =? v)%N | None => false end)
                              (pool_stakers st1 p) then None
                    else
                      let st2 := add_val st1 p s v in
                      match pay_kyve (ss_bank st2) (User s) (User v) amount with
                      | None => None
                      | Some b => Some (with_sbank st2 b)
                      end
                end
            end
      end
  end.

(** logic_leave.go 10-28 orderLeavePool, msg_server_leave_pool.go 16-33. *)
Definition msg_leave (st : sstate) (s p : N) : option sstate :=
  match get_val st p s with
  | None => None
  | Some v =>
      let st1 := set_val st p s (mkVal (vl_addr v) (vl_points v) true) in
      if bool_decide ((s, p) ∈ ss_lindex st1) then None
      else
        let i := (ss_lhigh st1 + 1)%N in
        Some (with_lq st1 (<[i := mkLE s p (ss_time st1)]> (ss_lentries st1)) ({[ (s, p) ]} ∪ ss_lindex st1) (ss_llow st1) i)
  end.

(** ** Calls from x/bundles *)
(** logic_stakers.go 16-34 IncreaseStakerCommissionRewards. *)
Definition increase_commission_rewards (st : sstate) (s : N) (payer : acct) (amount : coins) : option sstate :=
  if cempty amount then Some st
  else
    match ss_stakers st !! s with
    | None => None
    | Some x =>
        match send (ss_bank st) payer MStakers amount with
        | None => None
        | Some b => Some (with_sbank (with_stakers st (<[s := mkSt (st_commission x) (cadd (st_rewards x) amount)]> (ss_stakers st))) b)
        end
    end.
(** getters_valaccount.go 18-37 IncrementPoints, ResetPoints. *)
Definition increment_points (st : sstate) (p s : N) : sstate * Z :=
  match get_val st p s with
  | None => (st, 0)
  | Some v => (set_val st p s (mkVal (vl_addr v) (u64_add (vl_points v) 1) (vl_leaving v)), u64_add (vl_points v) 1)
  end.
Definition reset_points (st : sstate) (p s : N) : sstate * Z :=
  match get_val st p s with
  | None => (st, 0)
  | Some v => (set_val st p s (mkVal (vl_addr v) 0 (vl_leaving v)), vl_points v)
  end.

(** ** Queues *)
(** logic_commission.go 40-59. [None]: stop; [Some st']: continue. *)
Definition process_centry (st : sstate) (i : N) : option sstate :=
  match ss_centries st !! i with
  | None => Some st
  | Some e =>
      if wrap_i64 (ce_date e + i64 (ss_ctime st)) <=? ss_time st then
        let st1 := remove_centry st i e in
        Some (match ss_stakers st1 !! ce_staker e with
              | None => st1
              | Some x => with_stakers st1 (<[ce_staker e := mkSt (ce_commission e) (st_rewards x)]> (ss_stakers st1))
              end)
      else None
  end.
(** logic_leave.go 34-46. *)
Definition process_lentry (st : sstate) (i : N) : option sstate :=
  match ss_lentries st !! i with
  | None => Some st
  | Some e =>
      if wrap_i64 (le_date e + i64 (ss_ltime st)) <=? ss_time st then
        let st1 := with_lq st (delete i (ss_lentries st)) (ss_lindex st ∖ {[ (le_staker e, le_pool e) ]}) (ss_llow st) (ss_lhigh st) in
        Some (leave_pool st1 (le_staker e) (le_pool e))
      else None
  end.
(** logic_queue.go 25-45 processQueue: [fuel] bounds the loop, [high - low + 1] suffices. *)
Fixpoint queue_loop (f : sstate -> N -> option sstate) (high : N) (fuel : nat) (st : sstate) (low : N) : sstate * N :=
  match fuel with
  | O => (st, low)
  | S fuel =>
      match f st (low + 1)%N with
      | None => (st, low)
      | Some st1 => if (low <? high)%N then queue_loop f high fuel st1 (low + 1)%N else (st1, low)
      end
  end.
Definition process_commissions (st : sstate) : sstate :=
  let '(st1, low) := queue_loop process_centry (ss_chigh st) (S (N.to_nat (ss_chigh st - ss_clow st))) st (ss_clow st) in
  with_cq st1 (ss_centries st1) (ss_cindex st1) low (ss_chigh st1).
Definition process_leaves (st : sstate) : sstate :=
  let '(st1, low) := queue_loop process_lentry (ss_lhigh st) (S (N.to_nat (ss_lhigh st - ss_llow st))) st (ss_llow st) in
  with_lq st1 (ss_lentries st1) (ss_lindex st1) low (ss_lhigh st1).
(** module.go 160-165 BeginBlock. *)
Definition stakers_begin (st : sstate) : sstate := process_leaves (process_commissions st).

(** ** The machine *)
Inductive sop :=
  | SCreate (s : N) (commission : Z) (delegates : bool)
  | SUpdateCommission (s : N) (c : Z)
  | SClaim (s : N) (amounts : coins)
  | SJoin (pool : option bool) (del : N -> Z) (s p v : N) (amount : Z)
  | SLeave (s p : N)
  | SKick (s p : N)                          (* LeavePool called by x/bundles or x/pool *)
  | SPay (s : N) (payer : acct) (amount : coins)
  | SPoint (s p : N)
  | SReset (s p : N)
  | SParams (ctime ltime : Z)
  | SBegin (t : Z)
  | SBank (b : bank).                        (* other modules move other money *)

(** Inputs the environment can produce. Commissions have passed ValidatePercentage, coins have
    passed Coins.Validate, addresses are not empty, times do not run backwards. *)
Definition sop_ok (st : sstate) (o : sop) : Prop :=
  match o with
  | SCreate s c _ => s <> 0%N /\ 0 <= c <= ONE
  | SUpdateCommission s c => 0 <= c <= ONE
  | SClaim s amounts => cpos amounts
  | SJoin _ del s p v amount => s <> 0%N /\ v <> 0%N /\ (forall x, 0 <= del x < two63) /\ 0 <= amount < two64
  | SPay s payer amount => cpos amount /\ match payer with MStakers | User _ => False | _ => True end
  | SParams c l => 0 <= c < two64 /\ 0 <= l < two64
  | SBegin t => ss_time st <= t < two63
  | SBank b => forall d, bal (ss_bank st) MStakers d <= bal b MStakers d
  | _ => True
  end.

Definition sstep (st : sstate) (o : sop) : sstate :=
  match o with
  | SCreate s c d => default st (msg_create_staker st s c d)
  | SUpdateCommission s c => default st (msg_update_commission st s c)
  | SClaim s a => default st (msg_claim_commission st s a)
  | SJoin pool del s p v a => default st (msg_join st pool del s p v a)
  | SLeave s p => default st (msg_leave st s p)
  | SKick s p => leave_pool st s p
  | SPay s payer a => default st (increase_commission_rewards st s payer a)
  | SPoint s p => fst (increment_points st p s)
  | SReset s p => fst (reset_points st p s)
  | SParams c l => with_sparams st c l
  | SBegin t => stakers_begin (with_stime st t)
  | SBank b => with_sbank st b
  end.
Definition sinit (b : bank) (t ctime ltime : Z) : sstate :=
  mkSS ∅ ∅ ∅ ∅ ∅ ∅ 0 0 ∅ ∅ 0 0 ctime ltime t b.
Fixpoint srun (st : sstate) (ops : list sop) : sstate :=
  match ops with [] => st | o :: t => srun (sstep st o) t end.
Fixpoint sops_ok (st : sstate) (ops : list sop) : Prop :=
  match ops with [] => True | o :: t => sop_ok st o /\ sops_ok (sstep st o) t end.
