(** * x/funders: fundings, charging, slots (model only, no proofs).

    Modelled: x/funders/keeper/logic_funders.go, msg_server_create_funder.go,
    msg_server_fund_pool.go, msg_server_defund_pool.go, getters_funding_state.go
    (GetActiveFundings), x/funders/types/funders.go, the parameters.

    Simplifications used everywhere in this file:
    - A Go panic inside a message is the error result (the SDK recovers it and rolls
      the transaction back). Panics of LegacyDec beyond 315 bits are not modelled.
    - The two stores of fundings (by funder, by pool) always get the same value
      (getters_funding.go 160-175) and are one map.
    - Moniker, website etc. of a funder are not modelled. *)
From Verif Require Import Base.

(** ** Coins operations of the SDK used only here *)

(** Coins.DenomsSubsetOf. *)
Definition denoms_subset (a b : coins) : bool :=
  (size a <=? size b)%nat && forallb (fun p => negb (amt b (fst p) =? 0)) (map_to_list a).
(** Coins.IsAnyGT. *)
Definition any_gt (a b : coins) : bool :=
  negb (cempty b)
  && existsb (fun p => (snd p >? amt b (fst p)) && negb (amt b (fst p) =? 0)) (map_to_list a).
(** Coins restricted by a test on the denom: the loops "if found { r = r.Add(coin) }". *)
Definition cfilter (f : N -> bool) (c : coins) : coins := filter (fun p => f (fst p) = true) c.
(** Coins.Find, first result. *)
Definition has_denom (c : coins) (x : N) : bool := bool_decide (is_Some (c !! x)).

(** ** Parameters *)

(** proto kyve/funders/v1beta1/params.proto: WhitelistCoinEntry. *)
Record wentry := mkW {
  w_denom : N; w_decimals : Z; w_min : Z; w_minpb : Z; w_weight : Z
}.
(** Params; the whitelist is a list that may name a denom twice. *)
Record fparams := mkFP { fp_list : list wentry; fp_multiple : Z }.

(** types/params.go 44-79 Validate, except that KYVE is listed: the handler applies the
    payload to the current parameters while it was validated on the defaults
    (msgs.go, msg_server_update_params.go 22-26), so that check can be bypassed. *)
Definition wentry_ok (e : wentry) : Prop := 0 <= w_decimals e /\ 0 <= w_min e /\ 0 <= w_minpb e /\ 0 <= w_weight e.
Definition fparams_ok (p : fparams) : Prop :=
  Forall wentry_ok (fp_list p) /\ 0 <= fp_multiple p < two64.

(** logic_funders.go 47-56 GetCoinWhitelistMap: the last entry of a denom wins. *)
Definition wl_find (l : list wentry) (x : N) : option wentry :=
  fold_left (fun acc e => if (w_denom e =? x)%N then Some e else acc) l None.
Definition listed (l : list wentry) (x : N) : bool :=
  match wl_find l x with Some _ => true | None => false end.

(** ** Fundings *)

(** types/funders.pb.go Funding; address and pool are the key. *)
Record funding := mkFd { fd_amounts : coins; fd_apb : coins; fd_total : coins }.

(** types/funders.go 14: one summand; [None] is the panic of TruncateInt64. *)
Definition score_one (e : wentry) (a : Z) : option Z :=
  let q := trunc_int (dec_quo (dec_mul_int (w_weight e) a) (dec_of_int (10 ^ w_decimals e))) in
  if (- two63 <=? q) && (q <? two63) then Some (w64 q) else None.
(** types/funders.go 8-19 GetScore; uint64 addition wraps. *)
Definition score (l : list wentry) (c : coins) : option Z :=
  foldr (fun p acc =>
    match acc, wl_find l (fst p) with
    | None, _ => None
    | Some z, None => Some z
    | Some z, Some e => match score_one e (snd p) with Some q => Some (u64_add z q) | None => None end
    end) (Some 0) (map_to_list c).

(** types/funders.go 23-33 CleanAmountsPerBundle. *)
Definition clean_apb (f : funding) : funding :=
  mkFd (fd_amounts f) (cfilter (has_denom (fd_amounts f)) (fd_apb f)) (fd_total f).

(** types/funders.go 35-49 ChargeOneBundle. Sub cannot panic: the payout is at most the minimum. *)
Definition charge_one (l : list wentry) (f : funding) : funding * coins :=
  let chargable := cmin (fd_amounts f) (fd_apb f) in
  let pay := cfilter (listed l) chargable in
  (clean_apb (mkFd (csub (fd_amounts f) pay) (fd_apb f) (cadd (fd_total f) pay)), pay).

(** types/funders.go 60-68 SetInactive: the first occurrence is overwritten by the last element. *)
Fixpoint index_of (a : N) (l : list N) : option nat :=
  match l with
  | [] => None
  | b :: t => if (b =? a)%N then Some O else option_map S (index_of a t)
  end.
Definition set_inactive (l : list N) (a : N) : list N :=
  match index_of a l with
  | None => l
  | Some i => take (length l - 1) (<[i := default a (last l)]> l)
  end.
(** types/funders.go 71-78 SetActive. *)
Definition set_active (l : list N) (a : N) : list N :=
  match index_of a l with Some _ => l | None => l ++ [a] end.

(** ** State *)
Record fstate := mkFS {
  fs_params : fparams;
  fs_funders : gset N;
  fs_fundings : gmap (N * N) funding;   (* (funder, pool) *)
  fs_active : gmap N (list N);          (* FundingState: ActiveFunderAddresses by pool *)
  fs_bank : bank;
  fs_halt : bool                        (* PanicHalt was called *)
}.
Definition fwith_params (st : fstate) x := mkFS x (fs_funders st) (fs_fundings st) (fs_active st) (fs_bank st) (fs_halt st).
Definition fwith_funders (st : fstate) x := mkFS (fs_params st) x (fs_fundings st) (fs_active st) (fs_bank st) (fs_halt st).
Definition fwith_bank (st : fstate) x := mkFS (fs_params st) (fs_funders st) (fs_fundings st) (fs_active st) x (fs_halt st).
Definition fwith_halt (st : fstate) x := mkFS (fs_params st) (fs_funders st) (fs_fundings st) (fs_active st) (fs_bank st) (fs_halt st || x).
(** SetFunding, SetFundingState. *)
Definition set_funding (st : fstate) (a p : N) (f : funding) : fstate :=
  mkFS (fs_params st) (fs_funders st) (<[(a, p) := f]> (fs_fundings st)) (fs_active st) (fs_bank st) (fs_halt st).
Definition set_fstate (st : fstate) (p : N) (l : list N) : fstate :=
  mkFS (fs_params st) (fs_funders st) (fs_fundings st) (<[p := l]> (fs_active st)) (fs_bank st) (fs_halt st).

Definition wl (st : fstate) : list wentry := fp_list (fs_params st).

(** getters_funding_state.go 61-69 GetActiveFundings, with the funder's address. *)
Definition active_fundings (st : fstate) (p : N) (l : list N) : list (N * funding) :=
  omap (fun a => (fun f => (a, f)) <$> fs_fundings st !! (a, p)) l.

(** logic_funders.go 22-32 GetTotalActiveFunding (a missing funding adds nothing). *)
Definition total_active_funding (st : fstate) (p : N) : coins :=
  match fs_active st !! p with
  | None => ∅
  | Some l => fold_left (fun acc af => cadd acc (fd_amounts (snd af))) (active_fundings st p l) ∅
  end.

(** logic_funders.go 81-87: the loop body of ChargeFundersOfPool. *)
Definition charge_step (l : list wentry) (p : N) (acc : fstate * list N * coins) (af : N * funding) :
    fstate * list N * coins :=
  let '(st, act, pays) := acc in
  let '(a, f) := af in
  let '(f', pay) := charge_one l f in
  let act' := if cempty (fd_amounts f') then set_inactive act a else act in
  (set_funding st a p f', act', cadd pays pay).

(** logic_funders.go 64-109 ChargeFundersOfPool; the second component is the payout or the
    error. Writes made before the transfer fails stay in the returned state. *)
Definition charge_funders (st : fstate) (p : N) (recipient : acct) : fstate * option coins :=
  match fs_active st !! p with
  | None => (st, None)
  | Some l =>
      match active_fundings st p l with
      | [] => (st, Some ∅)
      | afs =>
          let '(st1, act, pays) := fold_left (charge_step (wl st) p) afs (st, l, ∅) in
          let st2 := set_fstate st1 p act in
          if cempty pays then (st2, Some pays)
          else match send (fs_bank st2) MFunders recipient pays with
               | Some b => (fwith_bank st2 b, Some pays)
               | None => (st2, None)
               end
      end
  end.

(** logic_funders.go 113-127 GetLowestFunding on a non-empty list: the first with a minimal
    score; [None] if a score panics. *)
Fixpoint lowest_from (l : list wentry) (best : N * funding) (bs : Z) (t : list (N * funding)) :
    option (N * funding * Z) :=
  match t with
  | [] => Some (best, bs)
  | af :: t =>
      match score l (fd_amounts (snd af)) with
      | None => None
      | Some s => if s <? bs then lowest_from l af s t else lowest_from l best bs t
      end
  end.
Definition lowest_funding (l : list wentry) (afs : list (N * funding)) : option (N * funding * Z) :=
  match afs with
  | [] => None
  | af :: t =>
      match score l (fd_amounts (snd af)) with None => None | Some s => lowest_from l af s t end
  end.

(** logic_funders.go 142-145: minimums summed over the entries of a denom. *)
Definition mins (g : wentry -> Z) (l : list wentry) : coins :=
  fold_left (fun acc e => cadd acc (coin (w_denom e) (g e))) l ∅.

(** logic_funders.go 136-184 ensureParamsCompatibility; returns the cleaned funding, [None] is
    an error or a panic (MulInt by a negative int64 on non-empty coins). *)
Definition ensure_params (p : fparams) (f : funding) : option funding :=
  let min_amounts := mins w_min (fp_list p) in
  let min_pb := mins w_minpb (fp_list p) in
  let f := clean_apb f in
  if negb (denoms_subset (fd_amounts f) (fd_apb f)) then None
  else if negb (denoms_subset (fd_amounts f) min_amounts) then None
  else if negb (denoms_subset (fd_apb f) min_pb) then None
  else if any_gt min_amounts (fd_amounts f) then None
  else if any_gt min_pb (fd_apb f) then None
  else if 0 <? fp_multiple p then
    let m := i64 (fp_multiple p) in
    if (m <? 0) && negb (cempty (fd_apb f)) then None
    else if any_gt (cmap (fun a => a * m) (fd_apb f)) (fd_amounts f) then None
    else Some f
  else Some f.

(** types/keys.go 21. *)
Definition MAX_FUNDERS : nat := 50.

(** logic_funders.go 195-238 ensureFreeSlot for the (unsaved) new funding of [a] and the unsaved
    active list; returns the state and the active list. *)
Definition ensure_free_slot (st : fstate) (p a : N) (new : funding) (act : list N) :
    option (fstate * list N) :=
  let afs := active_fundings st p act in
  if (length afs <? MAX_FUNDERS)%nat then Some (st, act)
  else
    match lowest_funding (wl st) afs with
    | None => None
    | Some (b, fb, lowest) =>
        if (b =? a)%N then Some (st, act)
        else
          match score (wl st) (fd_amounts new) with
          | None => None
          | Some s =>
              if s <? lowest then None
              else
                match send (fs_bank st) MFunders (User b) (fd_amounts fb) with
                | None => None
                | Some bk =>
                    let st1 := fwith_bank st bk in
                    Some (set_funding st1 b p (mkFd ∅ ∅ (fd_total fb)), set_inactive act b)
                end
          end
    end.

(** msg_server_create_funder.go 14-43. *)
Definition msg_create_funder (st : fstate) (a : N) : option fstate :=
  if bool_decide (a ∈ fs_funders st) then None
  else Some (fwith_funders st (fs_funders st ∪ {[a]})).

(** msg_server_fund_pool.go 45-49: coins of the old amounts per bundle whose denom is not in
    the message are kept. *)
Definition merge_apb (new old : coins) : coins := cadd new (cfilter (fun x => negb (has_denom new x)) old).

(** msg_server_fund_pool.go 17-96; [pool_exists] is the answer of x/pool. *)
Definition msg_fund (st : fstate) (pool_exists : bool) (a p : N) (amounts apb : coins) : option fstate :=
  if negb (bool_decide (a ∈ fs_funders st)) then None
  else if negb pool_exists then None
  else
    match fs_active st !! p with
    | None => None
    | Some act =>
        let f := match fs_fundings st !! (a, p) with
                 | Some f => mkFd (cadd (fd_amounts f) amounts) (merge_apb apb (fd_apb f)) (fd_total f)
                 | None => mkFd amounts apb ∅
                 end in
        match ensure_params (fs_params st) f with
        | None => None
        | Some f1 =>
            match ensure_free_slot st p a f1 act with
            | None => None
            | Some (st1, act1) =>
                match send (fs_bank st1) (User a) MFunders amounts with
                | None => None
                | Some b => Some (set_fstate (set_funding (fwith_bank st1 b) a p f1) p (set_active act1 a))
                end
            end
        end
    end.

(** msg_server_defund_pool.go 18-68. Without a funding state PanicHalt is called and the
    handler goes on with an empty funding state, whose pool id is 0. *)
Definition msg_defund (st : fstate) (a p : N) (amounts : coins) : option fstate :=
  match fs_fundings st !! (a, p) with
  | None => None
  | Some f =>
      let '(sp, act, missing) := match fs_active st !! p with
                                 | Some l => (p, l, false) | None => (0%N, [], true) end in
      let d := cmin (fd_amounts f) amounts in
      if cempty d then None
      else
        match ensure_params (fs_params st) (mkFd (csub (fd_amounts f) d) (fd_apb f) (fd_total f)) with
        | None => None
        | Some f1 =>
            let act1 := if cempty (fd_amounts f1) then set_inactive act a else act in
            match send (fs_bank st) MFunders (User a) d with
            | None => None
            | Some b => Some (fwith_halt (set_fstate (set_funding (fwith_bank st b) a p f1) sp act1) missing)
            end
        end
  end.

(** ** The machine *)
Inductive fop :=
  | FCreateFunder (a : N)
  | FCreateState (p : N)                        (* CreateFundingState, called by x/pool *)
  | FFund (pool_exists : bool) (a p : N) (amounts apb : coins)
  | FDefund (a p : N) (amounts : coins)
  | FCharge (p : N) (recipient : acct)          (* called by x/bundles *)
  | FParams (p : fparams)
  | FBank (b : bank).                           (* other modules move other money *)

(** Inputs the environment can produce: message_fund_pool.go and message_defund_pool.go
    ValidateBasic; pool ids are fresh (C40); the recipient is another module's account; bank changes of
    other modules take nothing from this module's account. *)
Definition fop_ok (st : fstate) (o : fop) : Prop :=
  match o with
  | FCreateState p => fs_active st !! p = None
  | FFund _ _ _ amounts apb => cpos amounts /\ cpos apb /\ (amounts <> ∅ \/ apb <> ∅)
  | FDefund _ _ amounts => cpos amounts /\ amounts <> ∅
  | FCharge _ recipient => match recipient with MFunders | User _ => False | _ => True end
  | FParams p => fparams_ok p
  | FBank b => forall x, bal (fs_bank st) MFunders x <= bal b MFunders x
  | _ => True
  end.

Definition fstep (st : fstate) (o : fop) : fstate :=
  match o with
  | FCreateFunder a => default st (msg_create_funder st a)
  | FCreateState p => set_fstate st p []
  | FFund ex a p amounts apb => default st (msg_fund st ex a p amounts apb)
  | FDefund a p amounts => default st (msg_defund st a p amounts)
  | FCharge p r => fst (charge_funders st p r)
  | FParams p => fwith_params st p
  | FBank b => fwith_bank st b
  end.

Definition finit (b : bank) (p : fparams) : fstate := mkFS p ∅ ∅ ∅ b false.

(** Runs. *)
Fixpoint frun (st : fstate) (ops : list fop) : fstate :=
  match ops with [] => st | o :: t => frun (fstep st o) t end.
Fixpoint fops_ok (st : fstate) (ops : list fop) : Prop :=
  match ops with [] => True | o :: t => fop_ok st o /\ fops_ok (fstep st o) t end.
