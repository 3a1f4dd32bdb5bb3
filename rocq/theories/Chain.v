(** * The whole protocol: all modules over one bank (model only, no proofs).

    The messages of all modules, the begin block and the end block in the order of
    app/app_config.go 113-154, with the glue between the modules: x/stakers create staker
    (delegates), x/pool create and disable pool, x/bundles.

    Simplifications: the Cosmos SDK modules (mint, distribution, staking, gov, IBC) and plain
    transfers appear as [CBegin] (x/mint puts the block provision into the fee collector) and
    [CBank] (any other change of the bank that takes nothing from the module accounts of the
    protocol); x/distribution, which empties the fee collector between x/bundles and x/delegation,
    is a [CBank] after [CBegin]. InitMemStore rebuilds indexes that are equal to the stored
    data (Delegation.v, getters_bundles.go 80-88). *)
From Verif Require Import Base Delegation Stakers Funders Team RoundRobin Pool Bundles.

(** ** Glue *)
(** x/stakers/keeper/msg_server_create_staker.go 18-53: the staker exists when it delegates. *)
Definition chain_create_staker (c : chain) (s : N) (commission amount : Z) : option chain :=
  match msg_delegate (d_in c) true s s amount with
  | None => None
  | Some d =>
      match msg_create_staker (c_s c) s commission true with
      | None => None
      | Some s' => Some (d_out (cw_s c s') d)
      end
  end.
Definition staker_exists (c : chain) (s : N) : bool := bool_decide (is_Some (ss_stakers (c_s c) !! s)).
Definition pool_exists (c : chain) (p : N) : bool := bool_decide (is_Some (get_pool c p)).
(** x/pool/keeper/msg_server_create_pool.go 29-51. *)
Definition chain_create_pool (c : chain) (sender : N) (json : bool) (a : create_args) : option chain :=
  match msg_create_pool (c_pools c) (c_time c) sender json a with
  | None => None
  | Some ps => Some (cw_f (cw_pools c ps) (set_fstate (c_f c) (ps_count (c_pools c)) []))
  end.
(** x/pool/keeper/msg_server_disable_pool.go 19-57. *)
Definition chain_disable_pool (c : chain) (sender p : N) : option chain :=
  match disable_record (c_pools c) sender p with
  | None => None
  | Some ps =>
      let c1 := cw_pools c ps in
      let c2 := fold_left (fun c s => s_out c (leave_pool (s_in c) s p)) (members c1 p) c1 in
      let balance := bal (c_bank c2) (PoolAcc p) KYVE in
      if two64 <=? balance then None     (* Int.Uint64 panics *)
      else if 0 <? balance then
        if i64 balance <? 0 then None
        else match send (c_bank c2) (PoolAcc p) Treasury (coin KYVE balance) with
             | None => None
             | Some b => Some (cw_bank c2 b)
             end
      else Some c2
  end.

(** x/global/abci.go 17-47: burn a part of the fees. *)
Definition burn_fees (c : chain) : chain :=
  if c_height c =? 1 then c
  else if c_burn c =? 0 then c
  else
    match burn (c_bank c) MFeeCollector (share_of (bal_of (c_bank c) MFeeCollector) (c_burn c)) with
    | Some b => cw_bank c b
    | None => cw_halt c
    end.

(** Begin block: x/mint, x/team, x/bundles, x/delegation, x/stakers. *)
Definition begin_block (c : chain) (t provision : Z) : chain :=
  let c0 := cw_time (cw_bank c (mint (c_bank c) MFeeCollector (coin KYVE provision))) t (c_height c + 1) in
  let c1 := t_out c0 (team_begin (twith_time (t_in c0) t) provision (supply (c_bank c0))) in
  let c2 := match split_inflation c1 provision with Some x => x | None => cw_halt c1 end in
  let c3 := d_out c2 (fst (process_queue (with_time (d_in c2) t))) in
  s_out c3 (stakers_begin (with_stime (s_in c3) t)).
(** End block: x/pool, x/bundles, x/global. *)
Definition end_block (c : chain) : chain :=
  burn_fees (handle_upload_timeout (cw_pools c (handle_upgrades (c_pools c) (c_time c)))).

(** ** The machine *)
Inductive cop :=
  (* x/delegation *)
  | CDelegate (d s : N) (a : Z)
  | CUndelegate (d s : N) (a : Z)
  | CRedelegate (d from to : N) (a : Z)
  | CWithdraw (d s : N)
  (* x/stakers *)
  | CCreateStaker (s : N) (commission a : Z)
  | CUpdateCommission (s : N) (c : Z)
  | CClaimCommission (s : N) (amounts : coins)
  | CJoin (s p v : N) (a : Z)
  | CLeave (s p : N)
  (* x/funders *)
  | CCreateFunder (a : N)
  | CFund (a p : N) (amounts apb : coins)
  | CDefund (a p : N) (amounts : coins)
  (* x/team, the messages only *)
  | CTeam (o : top)
  (* x/bundles *)
  | CSubmit (m : submit)
  | CVote (p s creator storage : N) (w : vote)
  | CSkip (p s creator : N) (from : Z)
  | CClaimRole (p s creator : N)
  (* x/pool *)
  | CCreatePool (sender : N) (json : bool) (a : create_args)
  | CUpdatePool (sender p : N) (a : update_args)
  | CEnablePool (sender p : N)
  | CDisablePool (sender p : N)
  | CSchedule (sender runtime version binaries : N) (at_ duration : Z)
  | CCancel (sender runtime : N)
  (* parameters: the new value (C51 is about how it is put together) *)
  | CParamsD (sender : N) (p : dparams)
  | CParamsS (sender : N) (ctime ltime : Z)
  | CParamsF (sender : N) (p : fparams)
  | CParamsP (sender : N) (p : pparams)
  | CParamsB (sender : N) (p : bparams)
  | CParamsG (sender : N) (burn_ratio : Z)
  (* blocks, and everything else *)
  | CBegin (t provision : Z)
  | CEnd
  | CBank (b : bank).

(** The effect of a message, [None] if it is rejected. *)
Definition cmsg (c : chain) (o : cop) : option chain :=
  match o with
  | CDelegate d s a => d_out c <$> msg_delegate (d_in c) (staker_exists c s) d s a
  | CUndelegate d s a => d_out c <$> msg_undelegate (d_in c) d s a
  | CRedelegate d from to a =>
      d_out c <$> msg_redelegate (d_in c) (staker_exists c to) (is_active (c_s c) to) d from to a
  | CWithdraw d s => d_out c <$> msg_withdraw (d_in c) d s
  | CCreateStaker s com a => chain_create_staker c s com a
  | CUpdateCommission s x => s_out c <$> msg_update_commission (s_in c) s x
  | CClaimCommission s x => s_out c <$> msg_claim_commission (s_in c) s x
  | CJoin s p v a => s_out c <$> msg_join (s_in c) (pl_disabled <$> get_pool c p) (power c) s p v a
  | CLeave s p => s_out c <$> msg_leave (s_in c) s p
  | CCreateFunder a => f_out c <$> msg_create_funder (f_in c) a
  | CFund a p x y => f_out c <$> msg_fund (f_in c) (pool_exists c p) a p x y
  | CDefund a p x => f_out c <$> msg_defund (f_in c) a p x
  | CTeam o =>
      t_out c <$> match o with
                  | TCreate s total start => msg_create (t_in c) s total start
                  | TClaim s id x r => msg_claim_unlocked (t_in c) s id x r
                  | TClawback s id x => msg_clawback (t_in c) s id x
                  | TClaimRewards s id x r => msg_claim_rewards (t_in c) s id x r
                  | TClaimAuthority s x r => msg_claim_authority (t_in c) s x r
                  | _ => None
                  end
  | CSubmit m => msg_submit c m
  | CVote p s v st w => msg_vote c p s v st w
  | CSkip p s v from => msg_skip c p s v from
  | CClaimRole p s v => msg_claim_role c p s v
  | CCreatePool sender json a => chain_create_pool c sender json a
  | CUpdatePool sender p a => cw_pools c <$> msg_update_pool (c_pools c) sender p a
  | CEnablePool sender p => cw_pools c <$> msg_enable_pool (c_pools c) sender p
  | CDisablePool sender p => chain_disable_pool c sender p
  | CSchedule sender r v b t d => cw_pools c <$> msg_schedule (c_pools c) (c_time c) sender r v b t d
  | CCancel sender r => cw_pools c <$> msg_cancel (c_pools c) sender r
  | CParamsD sender p => if (sender =? AUTHORITY)%N then Some (cw_d c (with_params (c_d c) p)) else None
  | CParamsS sender x y => if (sender =? AUTHORITY)%N then Some (cw_s c (with_sparams (c_s c) x y)) else None
  | CParamsF sender p => if (sender =? AUTHORITY)%N then Some (cw_f c (fwith_params (c_f c) p)) else None
  | CParamsP sender p => if (sender =? AUTHORITY)%N then Some (cw_pp c p) else None
  | CParamsB sender p => if (sender =? AUTHORITY)%N then Some (cw_bp c p) else None
  | CParamsG sender x => if (sender =? AUTHORITY)%N then Some (cw_burn c x) else None
  | CBegin t provision => Some (begin_block c t provision)
  | CEnd => Some (end_block c)
  | CBank b => Some (cw_bank c b)
  end.
Definition cstep (c : chain) (o : cop) : chain := default c (cmsg c o).

Definition u64 (x : Z) : Prop := 0 <= x < two64.
(** The accounts only the protocol's modules move money from; all of them are blocked as
    recipients of transfers (app_config.go 189-204), but a join message may name them as the
    recipient (x/stakers/keeper/msg_server_join_pool.go 76, util/logic_bank.go 9-29): that is
    a join followed by a [CBank]. *)
Definition protocol_account (a : acct) : Prop :=
  match a with MDelegation | MStakers | MFunders | MBundles | MTeam | MPool => True | _ => False end.
Definition opt_u64 (x : option Z) : Prop := match x with None => True | Some v => u64 v end.

(** Inputs the environment can produce. uint64 fields; amounts of money below 2^63 (the supply
    is, so others are rejected anyway, except in a failing NewInt64Coin); coins and percentages
    have passed ValidateBasic; addresses are not empty; time does not run backwards and, like
    upload intervals and timeouts, stays below 2^62; the data of a pool has less than 2^64
    items; the supply of the base denom is positive and stays below 2^63, and so does what is
    recorded as delegated to any one staker (by C02 it is part of the supply, up to rounding). *)
Definition two62 : Z := 4611686018427387904.
Definition cop_ok (c : chain) (o : cop) : Prop :=
  match o with
  | CDelegate _ _ a | CUndelegate _ _ a | CRedelegate _ _ _ a => 0 <= a < two63
  | CCreateStaker s com a => s <> 0%N /\ 0 <= com <= ONE /\ 0 <= a < two63
  | CUpdateCommission _ x => 0 <= x <= ONE
  | CClaimCommission _ x => cpos x
  | CJoin s _ v a => s <> 0%N /\ v <> 0%N /\ u64 a /\ (forall x, power c x < two63)
  | CFund _ _ x y => cpos x /\ cpos y /\ (x <> ∅ \/ y <> ∅)
  | CDefund _ _ x => cpos x /\ x <> ∅
  | CTeam (TCreate _ total start) => u64 total /\ u64 start
  | CTeam (TClaim _ _ x _) | CTeam (TClawback _ _ x) | CTeam (TClaimRewards _ _ x _) | CTeam (TClaimAuthority _ x _) => u64 x
  | CSubmit m => u64 (sb_data m) /\ u64 (sb_from m) /\ u64 (sb_size m) /\ sb_from m + sb_size m < two64
  | CCreatePool _ _ a => 0 <= ca_interval a < two62 /\ u64 (ca_mindel a) /\ u64 (ca_maxsize a)
  | CUpdatePool _ _ a =>
      match ua_interval a with None => True | Some i => 0 <= i < two62 end /\ opt_u64 (ua_mindel a) /\ opt_u64 (ua_maxsize a)
  | CSchedule _ _ _ _ t d => u64 t /\ u64 d
  | CParamsD _ p => dparams_valid p = true
  | CParamsS _ x y => u64 x /\ u64 y
  | CParamsF _ p => fparams_ok p
  | CParamsP _ p => pparams_valid p = true
  | CParamsB _ p => bparams_valid p = true /\ b_timeout p < two62 /\ b_maxpoints p < two64
  | CParamsG _ x => pct_ok x = true
  | CBegin t provision =>
      c_time c <= t < two62 /\ 0 <= provision /\ 0 < supply (c_bank c) /\ supply (c_bank c) + provision < two63
  | CBank b =>
      (forall a d, protocol_account a -> bal (c_bank c) a d <= bal b a d)
      /\ (forall a d, 0 <= bal b a d) /\ supply b < two63
  | _ => True
  end.

(** Genesis: no pools, stakers, funders; money and parameters are given. *)
Definition cinit (b : bank) (t : Z) (dp : dparams) (ctime ltime : Z) (fp : fparams) (pp : pparams) (bp : bparams) (burn_ratio : Z) : chain :=
  mkC (dinit b dp t) (sinit b t ctime ltime) (finit b fp) (tinit b t) (mkPS ∅ 0) pp ∅ ∅ ∅ ∅ bp burn_ratio b t 0 false false.

Fixpoint crun (c : chain) (ops : list cop) : chain :=
  match ops with [] => c | o :: t => crun (cstep c o) t end.
Fixpoint cops_ok (c : chain) (ops : list cop) : Prop :=
  match ops with [] => True | o :: t => cop_ok c o /\ cops_ok (cstep c o) t end.
