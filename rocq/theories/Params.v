(** * How MsgUpdateParams puts the new parameters together (model only, no proofs).

    Modelled: x/{delegation,stakers,funders,pool,bundles,global}/keeper/msg_server_update_params.go 16-35
    (the six files are the same), ValidateBasic of the message in x/*/types/msgs.go (global 19-35, the
    others likewise; pool 182-198), DefaultParams and Validate in x/*/types/params.go, and what
    encoding/json does to a struct and to a slice that already hold values.

    A payload is a JSON object. Here it is a record that says for every field whether the payload
    names it. Not modelled: the text of the payload, names in other capitalisation, a name that
    occurs twice, the value null (a null for a list empties it, a null as an element of the whitelist
    panics in Validate, elsewhere null is no change), payloads that do not parse (ValidateBasic
    rejects them).

    encoding/json (Go 1.22, decode.go func array) does not clear a slice: element i of the payload is
    decoded into the element i the slice has already, fields that are not named keep their values,
    and the slice is cut to the length of the payload. Elements beyond the old length start as zero
    values, in which a math.Int or math.LegacyDec is nil. *)
From Verif Require Import Base Delegation Stakers Funders Team RoundRobin Pool Bundles Chain Global.

(** decode.go func array, for a slice [old] and a payload [new]. *)
Fixpoint merge_list {E P} (fresh : E) (upd : E -> P -> E) (old : list E) (new : list P) : list E :=
  match new with
  | [] => []
  | p :: t => upd (match old with e :: _ => e | [] => fresh end) p :: merge_list fresh upd (match old with _ :: r => r | [] => [] end) t
  end.
Definition merge_opt {E P} (fresh : E) (upd : E -> P -> E) (old : list E) (new : option (list P)) : list E :=
  match new with None => old | Some l => merge_list fresh upd old l end.
(** [newParams := oldParams] copies the slice header (or, in x/funders, the pointers), so the elements of
    the old value are overwritten as well: what [oldParams] holds after the decoding. *)
Fixpoint overwritten {E} (old new : list E) : list E :=
  match old, new with
  | _ :: o, n :: t => n :: overwritten o t
  | o, [] => o
  | [], _ => []
  end.
Definition overwritten_opt {E P} (old new : list E) (payload : option (list P)) : list E :=
  match payload with None => old | Some _ => overwritten old new end.
(** A nil math.Int or math.LegacyDec is stored as zero (its Marshal allocates one). *)
Definition or_zero (x : option Z) : Z := default 0 x.
Definition or_nil (x new : option Z) : option Z := match new with Some v => Some v | None => x end.

(** ** x/delegation *)
Record dpay := mkDY { dy_unbonding : option Z; dy_cooldown : option Z; dy_maxredel : option Z; dy_vote : option Z; dy_upload : option Z; dy_timeout : option Z }.
Definition dmerge (p : dparams) (y : dpay) : dparams :=
  mkDP (default (p_unbonding p) (dy_unbonding y)) (default (p_cooldown p) (dy_cooldown y)) (default (p_maxredel p) (dy_maxredel y))
    (default (p_vote p) (dy_vote y)) (default (p_upload p) (dy_upload y)) (default (p_timeout p) (dy_timeout y)).
(** x/delegation/types/params.go 9-24, 46-55. *)
Definition ddefault : dparams := mkDP 432000 432000 5 (ONE / 10) (ONE / 5) (ONE / 50).

(** ** x/stakers *)
Record spay := mkSY { sy_ctime : option Z; sy_ltime : option Z }.
(** x/stakers/types/params.go: two numbers, which Validate always accepts (util/validate.go 35-46). *)

(** ** x/funders *)
Record wpay := mkWY { wy_denom : option N; wy_decimals : option Z; wy_min : option Z; wy_minpb : option Z; wy_weight : option Z }.
Record fpay := mkFY { fy_list : option (list wpay); fy_multiple : option Z }.
(** A decoded entry, whose numbers may be nil. *)
Record wraw := mkWR { wr_denom : N; wr_decimals : Z; wr_min : option Z; wr_minpb : option Z; wr_weight : option Z }.
Definition wr_fresh : wraw := mkWR 0 0 None None None.
Definition wmerge (e : wraw) (y : wpay) : wraw :=
  mkWR (default (wr_denom e) (wy_denom y)) (default (wr_decimals e) (wy_decimals y)) (or_nil (wr_min e) (wy_min y))
    (or_nil (wr_minpb e) (wy_minpb y)) (or_nil (wr_weight e) (wy_weight y)).
Definition wload (e : wentry) : wraw := mkWR (w_denom e) (w_decimals e) (Some (w_min e)) (Some (w_minpb e)) (Some (w_weight e)).
Definition wstore (e : wraw) : wentry := mkW (wr_denom e) (wr_decimals e) (or_zero (wr_min e)) (or_zero (wr_minpb e)) (or_zero (wr_weight e)).
Definition fmerge_raw (p : fparams) (y : fpay) : list wraw := merge_opt wr_fresh wmerge (map wload (fp_list p)) (fy_list y).
Definition fmerge (p : fparams) (y : fpay) : fparams :=
  mkFP (map wstore (fmerge_raw p y)) (default (fp_multiple p) (fy_multiple y)).
(** x/funders/types/params.go 26-41 DefaultParams. *)
Definition fdefault : fparams := mkFP [mkW KYVE 6 1000000000 100000 ONE] 20.
(** 44-79 Validate. *)
Definition not_negative (x : option Z) : bool := match x with Some v => 0 <=? v | None => false end.
Definition wraw_valid (e : wraw) : bool := negb (wr_denom e =? 0)%N && not_negative (wr_min e) && not_negative (wr_minpb e) && not_negative (wr_weight e).
Definition fraw_valid (l : list wraw) : bool := forallb wraw_valid l && existsb (fun e => (wr_denom e =? KYVE)%N) l.
Definition fparams_valid (p : fparams) : bool := fraw_valid (map wload (fp_list p)).

(** ** x/pool *)
Record ppay := mkPY { py_share : option Z; py_rate : option Z; py_maxvp : option Z }.
Definition pmerge (p : pparams) (y : ppay) : pparams :=
  mkPP (default (pp_share p) (py_share y)) (default (pp_rate p) (py_rate y)) (default (pp_maxvp p) (py_maxvp y)).
(** x/pool/types/params.go 9-15, 31-37. *)
Definition pdefault : pparams := mkPP 0 (ONE / 20) (ONE / 2).

(** ** x/bundles *)
(** An entry of a list of parameters that pairs a name or id with a number. *)
Record epay := mkEY { ey_key : option N; ey_value : option Z }.
Record bpay := mkBY { by_timeout : option Z; by_costs : option (list epay); by_fee : option Z; by_maxpoints : option Z }.
Definition eraw : Type := N * option Z.
Definition emerge (e : eraw) (y : epay) : eraw := (default (fst e) (ey_key y), or_nil (snd e) (ey_value y)).
Definition eload (e : N * Z) : eraw := (fst e, Some (snd e)).
Definition estore (e : eraw) : N * Z := (fst e, or_zero (snd e)).
Definition bmerge_raw (p : bparams) (y : bpay) : list eraw := merge_opt (0%N, None) emerge (map eload (b_costs p)) (by_costs y).
Definition bmerge (p : bparams) (y : bpay) : bparams :=
  mkBPar (default (b_timeout p) (by_timeout y)) (map estore (bmerge_raw p y)) (default (b_fee p) (by_fee y)) (default (b_maxpoints p) (by_maxpoints y)).
(** x/bundles/types/params.go 10-19, 37-44. *)
Definition bdefault : bparams := mkBPar 600 [] (ONE / 100) 24.
(** 47-67 Validate, on what was decoded. *)
Definition bpay_valid (y : bpay) : bool :=
  forallb (fun e => not_negative (snd e)) (bmerge_raw bdefault y) && bparams_valid (bmerge bdefault y).

(** ** x/global *)
Record gpay := mkGY { gy_price : option Z; gy_burn : option Z; gy_adj : option (list epay); gy_ref : option (list epay) }.
(** GasAdjustment: the amount is a uint64. *)
Definition amerge (e : N * Z) (y : epay) : N * Z := (default (fst e) (ey_key y), default (snd e) (ey_value y)).
Definition gmerge_ref (p : gparams) (y : gpay) : list eraw := merge_opt (0%N, None) emerge (map eload (gp_ref p)) (gy_ref y).
Definition gmerge (p : gparams) (y : gpay) : gparams :=
  mkGP (default (gp_price p) (gy_price y)) (merge_opt (0%N, 0) amerge (gp_adj p) (gy_adj y)) (map estore (gmerge_ref p y)).
Definition burn_merge (burn : Z) (y : gpay) : Z := default burn (gy_burn y).
(** x/global/types/params.go 10-13, 26-28. *)
Definition gdefault : gparams := mkGP 0 [] [].
Definition gpay_valid (y : gpay) : bool :=
  forallb (fun e => not_negative (snd e)) (gmerge_ref gdefault y) && gparams_valid (gmerge gdefault y) && pct_ok (burn_merge 0 y).

(** ** The message *)
Inductive payload := YDelegation (y : dpay) | YStakers (y : spay) | YFunders (y : fpay) | YPool (y : ppay) | YBundles (y : bpay) | YGlobal (y : gpay).
(** ValidateBasic: the payload is applied to the default parameters. *)
Definition payload_valid (y : payload) : bool :=
  match y with
  | YDelegation y => dparams_valid (dmerge ddefault y)
  | YStakers _ => true
  | YFunders y => fraw_valid (fmerge_raw fdefault y)
  | YPool y => pparams_valid (pmerge pdefault y)
  | YBundles y => bpay_valid y
  | YGlobal y => gpay_valid y
  end.
(** The chain together with the parameters of x/global that Chain.v leaves out. *)
Record ustate := mkU { u_c : chain; u_g : gparams }.
(** msg_server_update_params.go 16-35: the payload is applied to the current parameters. *)
Definition msg_update (u : ustate) (sender : N) (y : payload) : option ustate :=
  if negb (payload_valid y) then None
  else if negb (sender =? AUTHORITY)%N then None
  else let c := u_c u in
  Some match y with
  | YDelegation y => mkU (cw_d c (with_params (c_d c) (dmerge (ds_params (c_d c)) y))) (u_g u)
  | YStakers y => mkU (cw_s c (with_sparams (c_s c) (default (ss_ctime (c_s c)) (sy_ctime y)) (default (ss_ltime (c_s c)) (sy_ltime y)))) (u_g u)
  | YFunders y => mkU (cw_f c (fwith_params (c_f c) (fmerge (fs_params (c_f c)) y))) (u_g u)
  | YPool y => mkU (cw_pp c (pmerge (c_pp c) y)) (u_g u)
  | YBundles y => mkU (cw_bp c (bmerge (c_bp c) y)) (u_g u)
  | YGlobal y => mkU (cw_burn c (burn_merge (c_burn c) y)) (gmerge (u_g u) y)
  end.
(** 28-32 the event: OldParams and NewParams of the three modules that have lists. *)
Definition funders_event (p : fparams) (y : fpay) : fparams * fparams :=
  (mkFP (overwritten_opt (fp_list p) (fp_list (fmerge p y)) (fy_list y)) (fp_multiple p), fmerge p y).
Definition bundles_event (p : bparams) (y : bpay) : bparams * bparams :=
  (mkBPar (b_timeout p) (overwritten_opt (b_costs p) (b_costs (bmerge p y)) (by_costs y)) (b_fee p) (b_maxpoints p), bmerge p y).
Definition global_event (p : gparams) (y : gpay) : gparams * gparams :=
  (mkGP (gp_price p) (overwritten_opt (gp_adj p) (gp_adj (gmerge p y)) (gy_adj y)) (overwritten_opt (gp_ref p) (gp_ref (gmerge p y)) (gy_ref y)), gmerge p y).

(** ** The machine: the chain, with parameters changed by payloads only *)
Inductive uop := UChain (o : cop) | UParams (sender : N) (y : payload).
Definition ustep (u : ustate) (o : uop) : ustate :=
  match o with
  | UChain o => mkU (cstep (u_c u) o) (u_g u)
  | UParams sender y => default u (msg_update u sender y)
  end.
Fixpoint urun (u : ustate) (ops : list uop) : ustate := match ops with [] => u | o :: t => urun (ustep u o) t end.
(** What the types guarantee: numbers are uint64 (decimals and ids uint32); the upload timeout
    is below 2^62, as in [cop_ok]. *)
Definition payload_ok (y : payload) : Prop :=
  match y with
  | YDelegation y => opt_u64 (dy_unbonding y) /\ opt_u64 (dy_cooldown y) /\ opt_u64 (dy_maxredel y)
  | YStakers y => opt_u64 (sy_ctime y) /\ opt_u64 (sy_ltime y)
  | YFunders y => opt_u64 (fy_multiple y) /\ (forall l, fy_list y = Some l -> Forall (fun e => opt_u64 (wy_decimals e)) l)
  | YPool _ => True
  | YBundles y => match by_timeout y with Some t => t < two62 | None => True end /\ opt_u64 (by_maxpoints y)
  | YGlobal y => forall l, gy_adj y = Some l -> Forall (fun e => opt_u64 (ey_value e)) l
  end.
Definition uop_ok (u : ustate) (o : uop) : Prop :=
  match o with
  | UChain (CParamsD _ _ | CParamsS _ _ _ | CParamsF _ _ | CParamsP _ _ | CParamsB _ _ | CParamsG _ _) => False
  | UChain o => cop_ok (u_c u) o
  | UParams _ y => payload_ok y
  end.
Fixpoint uops_ok (u : ustate) (ops : list uop) : Prop :=
  match ops with [] => True | o :: t => uop_ok u o /\ uops_ok (ustep u o) t end.
