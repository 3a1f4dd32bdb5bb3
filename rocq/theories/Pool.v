(** * x/pool: pools, runtime upgrades, administration (model only, no proofs).

    Modelled: x/pool/keeper/getters_pool.go, logic_end_block_handle_pool_upgrades.go, the parts
    of the governance messages create, update, enable, disable pool and schedule, cancel runtime
    upgrade that concern the pool records (the calls to other modules are in Chain.v), the
    ValidateBasic checks of x/pool/types/msgs.go, x/pool/types/params.go.

    Simplifications used everywhere in this file:
    - Strings are numbers (0 is ""). Name, logo, config and start key of a pool are left out:
      no code reads them (GetPoolStatus and queries copy them).
    - The JSON payload of an update is given by its fields ([None]: not in the payload). *)
From Verif Require Import Base.

(** types/pool.pb.go UpgradePlan; the zero value means that no upgrade is scheduled. *)
Record plan := mkPlan { pn_version : N; pn_binaries : N; pn_at : Z; pn_duration : Z }.
Definition no_plan : plan := mkPlan 0 0 0 0.

(** types/pool.pb.go Pool with Protocol. *)
Record pool := mkPool {
  pl_runtime : N;
  pl_endkey : N;
  pl_interval : Z;        (* UploadInterval *)
  pl_weight : Z;          (* InflationShareWeight *)
  pl_mindel : Z;          (* MinDelegation *)
  pl_maxsize : Z;         (* MaxBundleSize *)
  pl_disabled : bool;
  pl_version : N; pl_binaries : N; pl_last : Z;   (* Protocol *)
  pl_plan : plan;         (* UpgradePlan *)
  pl_sp : N; pl_comp : N; (* CurrentStorageProviderId, CurrentCompressionId *)
  pl_index : Z;           (* CurrentIndex *)
  pl_total : N;           (* TotalBundles *)
  pl_key : N;             (* CurrentKey *)
  pl_summary : N          (* CurrentSummary *)
}.

Definition with_disabled (p : pool) (b : bool) : pool :=
  mkPool (pl_runtime p) (pl_endkey p) (pl_interval p) (pl_weight p) (pl_mindel p) (pl_maxsize p) b
    (pl_version p) (pl_binaries p) (pl_last p) (pl_plan p) (pl_sp p) (pl_comp p) (pl_index p) (pl_total p) (pl_key p) (pl_summary p).
Definition with_plan (p : pool) (x : plan) : pool :=
  mkPool (pl_runtime p) (pl_endkey p) (pl_interval p) (pl_weight p) (pl_mindel p) (pl_maxsize p) (pl_disabled p)
    (pl_version p) (pl_binaries p) (pl_last p) x (pl_sp p) (pl_comp p) (pl_index p) (pl_total p) (pl_key p) (pl_summary p).
Definition with_protocol (p : pool) (v b : N) (l : Z) : pool :=
  mkPool (pl_runtime p) (pl_endkey p) (pl_interval p) (pl_weight p) (pl_mindel p) (pl_maxsize p) (pl_disabled p)
    v b l (pl_plan p) (pl_sp p) (pl_comp p) (pl_index p) (pl_total p) (pl_key p) (pl_summary p).
Definition with_progress (p : pool) (i : Z) (t k s : N) : pool :=
  mkPool (pl_runtime p) (pl_endkey p) (pl_interval p) (pl_weight p) (pl_mindel p) (pl_maxsize p) (pl_disabled p)
    (pl_version p) (pl_binaries p) (pl_last p) (pl_plan p) (pl_sp p) (pl_comp p) i t k s.

(** types/params.go 40-54 with Validate. *)
Record pparams := mkPP { pp_share : Z; pp_rate : Z; pp_maxvp : Z }.
Definition pct_ok (x : Z) : bool := (0 <=? x) && (x <=? ONE).
Definition pparams_valid (p : pparams) : bool := pct_ok (pp_share p) && pct_ok (pp_rate p) && pct_ok (pp_maxvp p).

(** The pool store and the counter. *)
Record pstore := mkPS { ps_pools : gmap N pool; ps_count : N }.
(** getters_pool.go 38-52 AppendPool, 55-60 SetPool. *)
Definition append_pool (s : pstore) (p : pool) : pstore :=
  mkPS (<[ps_count s := p]> (ps_pools s)) (ps_count s + 1).
Definition set_pool (s : pstore) (id : N) (p : pool) : pstore := mkPS (<[id := p]> (ps_pools s)) (ps_count s).
(** getters_pool.go 82-96 GetAllPools: in the order of the ids (big endian keys, C48). *)
Definition pool_ids (s : pstore) : list N := merge_sort N.le (map fst (map_to_list (ps_pools s))).

(** ** Messages. The address of the governance module (keeper.authority). *)
Definition AUTHORITY : N := 1003.

(** msgs.go 32-54 and msg_server_create_pool.go 18-51; [json]: the binaries are valid JSON.
    [now] is the block time. *)
Record create_args := mkCA {
  ca_runtime : N; ca_endkey : N; ca_interval : Z; ca_weight : Z; ca_mindel : Z; ca_maxsize : Z;
  ca_version : N; ca_binaries : N; ca_sp : N; ca_comp : N
}.
Definition create_basic (a : create_args) : bool :=
  (0 <? ca_interval a) && (0 <=? ca_weight a) && (0 <? ca_maxsize a).
Definition new_pool (a : create_args) (now : Z) : pool :=
  mkPool (ca_runtime a) (ca_endkey a) (ca_interval a) (ca_weight a) (ca_mindel a) (ca_maxsize a) false
    (ca_version a) (ca_binaries a) now no_plan (ca_sp a) (ca_comp a) 0 0 0 0.
Definition msg_create_pool (s : pstore) (now : Z) (sender : N) (json : bool) (a : create_args) : option pstore :=
  if negb (create_basic a) then None
  else if negb (sender =? AUTHORITY)%N then None
  else if negb json then None
  else Some (append_pool s (new_pool a now)).

(** msgs.go 78-113 and msg_server_update_pool.go 16-66. *)
Record update_args := mkUA {
  ua_runtime : option N; ua_endkey : option N; ua_interval : option Z; ua_weight : option Z;
  ua_mindel : option Z; ua_maxsize : option Z; ua_sp : option N; ua_comp : option N
}.
Definition opt_ok (f : Z -> bool) (x : option Z) : bool := match x with None => true | Some v => f v end.
Definition update_basic (a : update_args) : bool :=
  opt_ok (fun v => 0 <? v) (ua_interval a) && opt_ok (fun v => 0 <=? v) (ua_weight a) && opt_ok (fun v => 0 <? v) (ua_maxsize a).
Definition apply_update (p : pool) (a : update_args) : pool :=
  mkPool (default (pl_runtime p) (ua_runtime a)) (default (pl_endkey p) (ua_endkey a)) (default (pl_interval p) (ua_interval a))
    (default (pl_weight p) (ua_weight a)) (default (pl_mindel p) (ua_mindel a)) (default (pl_maxsize p) (ua_maxsize a)) (pl_disabled p)
    (pl_version p) (pl_binaries p) (pl_last p) (pl_plan p) (default (pl_sp p) (ua_sp a)) (default (pl_comp p) (ua_comp a))
    (pl_index p) (pl_total p) (pl_key p) (pl_summary p).
Definition msg_update_pool (s : pstore) (sender id : N) (a : update_args) : option pstore :=
  if negb (update_basic a) then None
  else if negb (sender =? AUTHORITY)%N then None
  else match ps_pools s !! id with None => None | Some p => Some (set_pool s id (apply_update p a)) end.

(** msg_server_enable_pool.go 16-37. *)
Definition msg_enable_pool (s : pstore) (sender id : N) : option pstore :=
  if negb (sender =? AUTHORITY)%N then None
  else match ps_pools s !! id with
       | None => None
       | Some p => if pl_disabled p then Some (set_pool s id (with_disabled p false)) else None
       end.
(** msg_server_disable_pool.go 23-39 (the rest is in Chain.v). *)
Definition disable_record (s : pstore) (sender id : N) : option pstore :=
  if negb (sender =? AUTHORITY)%N then None
  else match ps_pools s !! id with
       | None => None
       | Some p => if pl_disabled p then None else Some (set_pool s id (with_disabled p true))
       end.

(** msg_server_schedule_runtime_upgrade.go 15-71. *)
Definition schedule_one (runtime version binaries : N) (at_ duration : Z) (p : pool) : pool :=
  if negb (pl_runtime p =? runtime)%N then p
  else if negb (pn_at (pl_plan p) =? 0) then p
  else with_plan p (mkPlan version binaries at_ duration).
Definition msg_schedule (s : pstore) (now : Z) (sender runtime version binaries : N) (at_ duration : Z) : option pstore :=
  if negb (sender =? AUTHORITY)%N then None
  else if (version =? 0)%N || (binaries =? 0)%N then None
  else Some (mkPS (schedule_one runtime version binaries (if at_ <? now then now else at_) duration <$> ps_pools s) (ps_count s)).
(** msg_server_cancel_runtime_upgrade.go 15-45. *)
Definition cancel_one (runtime : N) (p : pool) : pool :=
  if negb (pl_runtime p =? runtime)%N then p
  else if pn_at (pl_plan p) =? 0 then p
  else with_plan p no_plan.
Definition msg_cancel (s : pstore) (sender runtime : N) : option pstore :=
  if negb (sender =? AUTHORITY)%N then None
  else Some (mkPS (cancel_one runtime <$> ps_pools s) (ps_count s)).

(** logic_end_block_handle_pool_upgrades.go 9-31. *)
Definition upgrade_one (now : Z) (p : pool) : pool :=
  let pn := pl_plan p in
  if (0 <? pn_at pn) && (pn_at pn <=? now) then
    let p1 := if negb (pl_version p =? pn_version pn)%N || negb (pl_binaries p =? pn_binaries pn)%N
              then with_protocol p (pn_version pn) (pn_binaries pn) (pn_at pn) else p in
    if u64_add (pn_at pn) (pn_duration pn) <=? now then with_plan p1 no_plan else p1
  else p.
Definition handle_upgrades (s : pstore) (now : Z) : pstore :=
  mkPS (upgrade_one now <$> ps_pools s) (ps_count s).

(** logic_pool.go 58-73 IncrementBundleInformation. *)
Definition increment_bundle (s : pstore) (id : N) (index : Z) (key summary : N) : pstore :=
  match ps_pools s !! id with
  | None => s
  | Some p => set_pool s id (with_progress p index (pl_total p + 1) key summary)
  end.
