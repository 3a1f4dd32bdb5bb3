(** * The upgrade to version 1.5.0 (model only, no proofs).

    Modelled: app/upgrades/v1_5/upgrade.go 61-109 (order of the handler), 205-262
    (migrateFundersModule), 264-289 (migrateDelegationModule), 291-308 (migrateStakersModule), 310-336
    (migrateBundlesModule), 338-412 (migratePoolModule), 414-474 (upgradeRuntimes), and of
    migrateOldGovProposals (130-203) the new form of a MsgCreatePool (156-172).

    Not modelled: RunMigrations (the SDK's own migrations), migrateGovParams, titles of proposals, events,
    and decoding. The getters of v1_4_types read every record of a store; the setters of the keepers write
    at the key made from the same fields. A store is a map here, so the loops are maps. [None] is a panic,
    which stops the chain at this height. A pool always has a protocol and a plan (as in Pool.v). *)
From Verif Require Import Base Delegation Stakers Funders Team RoundRobin Pool Bundles Chain.

(** ** The records of version 1.4 *)
(** v1_4_types/funders/funders.pb.go Funding, params.pb.go Params. *)
Record ofunding := mkOF { of_amount : Z; of_apb : Z; of_total : Z }.
Record ofparams := mkOFP { ofp_min : Z; ofp_minpb : Z; ofp_multiple : Z }.
(** v1_4_types/delegation/delegation.pb.go DelegationData, DelegationEntry (only the value); the other
    stores of the module have not changed. *)
Record oddata := mkODD { od_rewards : Z; od_total : Z; od_latest : N; od_count : Z; od_undel : bool }.
Record of1 := mkOF1 {
  o1_data : option oddata; o1_entries : gmap N Z;
  o1_slashes : list (N * Z); o1_delegators : gmap N delegator; o1_halt : bool
}.
(** v1_4_types/stakers/stakers.pb.go Staker without its texts. *)
Record ostaker := mkOSt { os_commission : Z; os_rewards : Z }.
(** v1_4_types/bundles/params.pb.go Params; v1_4_types/pool/params.pb.go Params. *)
Record obparams := mkOBP { ob_timeout : Z; ob_cost : Z; ob_fee : Z; ob_maxpoints : Z }.
Record opparams := mkOPP { opp_share : Z; opp_rate : Z }.
(** v1_4_types/pool/pool.pb.go Pool: as in Pool.v, but the weight is a uint64. *)
Record opool := mkOPool {
  op_runtime : N; op_endkey : N; op_interval : Z; op_weight : Z; op_mindel : Z; op_maxsize : Z; op_disabled : bool;
  op_version : N; op_binaries : N; op_last : Z; op_plan : plan; op_sp : N; op_comp : N;
  op_index : Z; op_total : N; op_key : N; op_summary : N
}.
(** v1_4_types/pool/tx.pb.go MsgCreatePool: the weight is a uint64, there is no end key. *)
Record ocreate := mkOC {
  oc_runtime : N; oc_interval : Z; oc_weight : Z; oc_mindel : Z; oc_maxsize : Z;
  oc_version : N; oc_binaries : N; oc_sp : N; oc_comp : N
}.
(** The state before the upgrade. [ol_rest] is everything in records that have not changed; its
    fundings, stakers, pools, [ds_f1] and the three parameters below are not looked at. *)
Record old := mkOld {
  ol_fparams : ofparams; ol_fundings : gmap (N * N) ofunding;
  ol_f1 : gmap N of1; ol_stakers : gmap N ostaker;
  ol_bparams : obparams; ol_pparams : opparams; ol_pools : gmap N opool;
  ol_rest : chain
}.

(** ** Single records *)
(** sdk.NewCoins(sdk.NewInt64Coin(globalTypes.Denom, int64(x))) of a uint64: panics if int64(x) < 0. *)
Definition coin1 (x : Z) : option coins := if i64 x <? 0 then None else Some (coin KYVE (i64 x)).
(** sdk.NewDecCoins(sdk.NewDecCoinFromDec(globalTypes.Denom, v)). *)
Definition dec1 (v : Z) : option coins := if v <? 0 then None else Some (coin KYVE v).
(** upgrade.go 252-258. *)
Definition new_funding (f : ofunding) : option funding :=
  match coin1 (of_amount f), coin1 (of_apb f), coin1 (of_total f) with
  | Some a, Some b, Some t => Some (mkFd a b t)
  | _, _, _ => None
  end.
(** upgrade.go 209-239, the names of the two other coins are given. *)
Definition new_fparams (andromeda source : N) (p : ofparams) : fparams :=
  mkFP [ mkW KYVE 6 (ofp_min p) (ofp_minpb p) 35800000000000000;
         mkW andromeda 6 1000000000 100000 100700000000000000;
         mkW source 6 1000000000 100000 20700000000000000 ] (ofp_multiple p).
(** Every record of a store; panics if one of them does. *)
Definition some_ {A} (x : option A) : bool := match x with Some _ => true | None => false end.
Definition migrate_all {K} `{Countable K} {A B} (h : A -> option B) (m : gmap K A) : option (gmap K B) :=
  if forallb (fun x => some_ (h (snd x))) (map_to_list m) then Some (omap h m) else None.
(** upgrade.go 277-286. *)
Definition new_data (d : oddata) : option ddata :=
  match coin1 (od_rewards d) with
  | Some r => Some (mkDD r (od_total d) (od_latest d) (od_count d) (od_undel d))
  | None => None
  end.
(** upgrade.go 267-273 and 277-286 for one staker. *)
Definition new_f1 (f : of1) : option f1 :=
  match migrate_all dec1 (o1_entries f), o1_data f with
  | Some e, None => Some (mkF1 None e (o1_slashes f) (o1_delegators f) (o1_halt f))
  | Some e, Some d => match new_data d with
                      | Some d' => Some (mkF1 (Some d') e (o1_slashes f) (o1_delegators f) (o1_halt f))
                      | None => None
                      end
  | None, _ => None
  end.
(** upgrade.go 294-305. *)
Definition new_staker (s : ostaker) : option staker :=
  match coin1 (os_rewards s) with Some r => Some (mkSt (os_commission s) r) | None => None end.
(** upgrade.go 313-325. *)
Definition new_bparams (p : obparams) : bparams :=
  mkBPar (ob_timeout p) [(1%N, 4194000000); (2%N, 6288000000); (3%N, 0)] (ob_fee p) (ob_maxpoints p).
(** upgrade.go 341-345. *)
Definition new_pparams (p : opparams) : pparams := mkPP (opp_share p) (opp_rate p) (ONE / 2).
(** upgrade.go 369-393: the weight is 1 whatever it was. *)
Definition new_record (p : opool) : pool :=
  mkPool (op_runtime p) (op_endkey p) (op_interval p) ONE (op_mindel p) (op_maxsize p) (op_disabled p)
    (op_version p) (op_binaries p) (op_last p) (op_plan p) (op_sp p) (op_comp p) (op_index p) (op_total p) (op_key p) (op_summary p).
(** upgrade.go 440-463: one runtime with its version and binaries; ScheduledAt is the time of the block
    the upgrade runs in, the duration is 600. *)
Definition runtime_one (now : Z) (u : N * N * N) (p : pool) : pool :=
  if negb (pl_runtime p =? fst (fst u))%N then p
  else if negb (pn_at (pl_plan p) =? 0) then p
  else with_plan p (mkPlan (snd (fst u)) (snd u) now 600).
Definition upgrade_runtimes (now : Z) (us : list (N * N * N)) (m : gmap N pool) : gmap N pool :=
  fold_left (fun m u => runtime_one now u <$> m) us m.

(** ** The handler: upgrade.go 73-108 *)
Definition upgrade (andromeda source : N) (us : list (N * N * N)) (now : Z) (o : old) : option chain :=
  match migrate_all new_funding (ol_fundings o), migrate_all new_f1 (ol_f1 o), migrate_all new_staker (ol_stakers o) with
  | Some fs, Some f1s, Some ss =>
      let r := ol_rest o in
      Some (mkC (with_f1 (c_d r) f1s) (with_stakers (c_s r) ss)
              (mkFS (new_fparams andromeda source (ol_fparams o)) (fs_funders (c_f r)) fs (fs_active (c_f r)) (fs_bank (c_f r)) (fs_halt (c_f r))) (c_t r)
              (mkPS (upgrade_runtimes now us (new_record <$> ol_pools o)) (ps_count (c_pools r)))
              (new_pparams (ol_pparams o)) (c_prop r) (c_fin r) (c_idx r) (c_rr r)
              (new_bparams (ol_bparams o)) (c_burn r) (c_bank r) (c_time r) (c_height r) (c_halt r) (c_bad r))
  | _, _, _ => None
  end.
(** upgrade.go 156-172: a MsgCreatePool of a proposal. *)
Definition new_create (m : ocreate) : create_args :=
  mkCA (oc_runtime m) 0 (oc_interval m) (i64 (oc_weight m) * ONE) (oc_mindel m) (oc_maxsize m)
    (oc_version m) (oc_binaries m) (oc_sp m) (oc_comp m).
