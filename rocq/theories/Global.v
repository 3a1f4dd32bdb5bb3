(** * x/global: fees, surcharges and refunds of a transaction.

    A separate machine: one transaction, from the ante handler through its messages to the post
    handler.  What the messages do is an arbitrary function of the state and the gas left.  The
    decorators of the SDK (v0.50) around those of x/global, x/feegrant and BaseApp.runTx are not
    in /repo (see go.mod); this file states their documented behaviour. *)
From Verif Require Import Base Bundles.

(** A message is of some type; authz's MsgExec carries others, which it runs. *)
Inductive gmsg := Plain (ty : N) | Exec (inner : list gmsg).
(** The type of MsgExec. *)
Definition EXEC : N := 0.
Definition type_of (m : gmsg) : N := match m with Plain t => t | Exec _ => EXEC end.

(** ** x/feegrant (SDK) *)
(** BasicAllowance, PeriodicAllowance, AllowedMsgAllowance. *)
Record basic := mkBasic { ba_limit : option coins; ba_exp : option Z }.
Inductive allowance :=
  | ABasic (b : basic)
  | APeriodic (b : basic) (period : Z) (limit can : coins) (reset : Z)
  | AMsgs (types : list N) (a : allowance).
(** Accept: [None] is an error, [Some None] means the allowance is used up and removed. *)
Definition expired (b : basic) (now : Z) : bool := match ba_exp b with Some e => e <? now | None => false end.
Definition spend (b : basic) (fee : coins) : option (option basic) :=
  match ba_limit b with
  | None => Some (Some b)
  | Some l =>
      if cle fee l then
        let left := csub l fee in Some (if cempty left then None else Some (mkBasic (Some left) (ba_exp b)))
      else None
  end.
Fixpoint accept (a : allowance) (now : Z) (fee : coins) (types : list N) : option (option allowance) :=
  match a with
  | ABasic b =>
      if expired b now then None
      else match spend b fee with None => None | Some r => Some (ABasic <$> r) end
  | APeriodic b period limit can reset =>
      if expired b now then None
      else
        let due := negb (now <? reset) in
        let can1 := if due then match ba_limit b with
                                | Some l => if negb (cle limit l) && negb (cempty l) then l else limit
                                | None => limit
                                end
                    else can in
        let reset1 := if due then (if reset + period <? now then now + period else reset + period) else reset in
        if cle fee can1 then
          match spend b fee with
          | None => None
          | Some r => Some ((fun b' => APeriodic b' period limit (csub can1 fee) reset1) <$> r)
          end
        else None
  | AMsgs l a =>
      if forallb (fun t => existsb (N.eqb t) l) types then
        match accept a now fee types with None => None | Some r => Some (AMsgs l <$> r) end
      else None
  end.

(** ** The state *)
(** x/global/types/params.go 16-23: MinGasPrice, GasAdjustments, GasRefunds (the burn ratio is in Chain.v). *)
Record gparams := mkGP { gp_price : Z; gp_adj : list (N * Z); gp_ref : list (N * Z) }.
(** x/global/types/params.go 31-139 Validate: the price is not negative, an amount is not negative as an int64, a
    fraction is in [0,1]. *)
Definition gparams_valid (p : gparams) : bool :=
  (0 <=? gp_price p) && forallb (fun e => (0 <=? snd e) && (snd e <? two63)) (gp_adj p)
  && forallb (fun e => (0 <=? snd e) && (snd e <=? ONE)) (gp_ref p).
Record gstate := mkGS { gs_bank : bank; gs_grants : gmap (N * N) allowance; gs_par : gparams; gs_time : Z; gs_height : Z }.
Definition gw_bank (s : gstate) (b : bank) : gstate := mkGS b (gs_grants s) (gs_par s) (gs_time s) (gs_height s).
Definition gw_grants (s : gstate) (g : gmap (N * N) allowance) : gstate := mkGS (gs_bank s) g (gs_par s) (gs_time s) (gs_height s).
(** A transaction: its fee, gas limit, fee payer, fee granter, messages; [tx_other] is the gas the
    other ante decorators use, [tx_auth] whether they accept it (signatures, sequence, memo, …),
    [tx_pgas] the gas the post handler uses. *)
Record tx := mkTx { tx_fee : coins; tx_gas : Z; tx_payer : N; tx_granter : option N; tx_msgs : list gmsg; tx_other : Z; tx_auth : bool; tx_pgas : Z }.
Definition tx_types (t : tx) : list N := map type_of (tx_msgs t).

(** x/feegrant keeper.UseGrantedFees (SDK). *)
Definition use_grant (s : gstate) (granter payer : N) (fee : coins) (types : list N) : option gstate :=
  match gs_grants s !! (granter, payer) with
  | None => None
  | Some a =>
      match accept a (gs_time s) fee types with
      | None => None
      | Some None => Some (gw_grants s (delete (granter, payer) (gs_grants s)))
      | Some (Some a') => Some (gw_grants s (<[(granter, payer) := a']> (gs_grants s)))
      end
  end.

(** ** x/global *)
(** x/global/ante.go 69-82 GasAdjustmentDecorator: for every message of the transaction the first
    adjustment of its type. *)
Definition first_of (l : list (N * Z)) (ty : N) : Z := match List.find (fun e => (fst e =? ty)%N) l with Some e => snd e | None => 0 end.
Definition surcharge (p : gparams) (types : list N) : Z := fold_left (fun a ty => a + first_of (gp_adj p) ty) types 0.

(** Coins.IsAnyGTE, Coins.Max (SDK). *)
Definition is_any_gte (a b : coins) : bool := existsb (fun p => (amt b (fst p) <=? snd p) && negb (amt b (fst p) =? 0)) (map_to_list a).
Definition cmax : coins -> coins -> coins := cmerge Z.max.
(** x/global/utils.go 67-71: ceil(price x gas) of one denom; a negative amount makes NewCoin panic, but
    the gas limit is below 2^63 when this runs. A product of more than 315 bits panics, which
    rejects the transaction like a fee nobody can pay. *)
Definition fee_for (price gas : Z) : Z := round_int (dec_ceil (dec_mul price (dec_of_int (i64 gas)))).
(** x/global/utils.go 45-90 BuildTxFeeChecker. [local] are the node's own minimum prices, in CheckTx
    only; NewDecCoins drops a zero price. The bond denom is KYVE. The priority (line 87) only
    orders the mempool. In the first block the SDK's own checker is used (x/global/ante.go 44-47),
    which knows the node's prices only. *)
Definition fee_ok (s : gstate) (local : option coins) (fee : coins) (gas : Z) : bool :=
  let consensus := if (1 <? gs_height s) && negb (gp_price (gs_par s) =? 0) then coin KYVE (fee_for (gp_price (gs_par s)) gas) else ∅ in
  let required := match local with None => consensus | Some l => cmax consensus (cmap (fun p => fee_for p gas) l) end in
  cempty required || is_any_gte fee required.

(** The ante handler (app/ante.go 40-57): the gas meter (SetUpContext), the surcharges,
    ValidateBasic (gas limit below 2^63), the fee (x/global/ante.go 42-52 with the SDK's
    DeductFeeDecorator), the rest. The SDK rejects a gas limit of zero. A rejection discards
    everything, so the gas of all decorators is compared with the limit at once. *)
Definition fee_account (t : tx) : N := match tx_granter t with Some g => g | None => tx_payer t end.
Definition grant_step (s : gstate) (t : tx) : option gstate :=
  match tx_granter t with
  | None => Some s
  | Some g => if (g =? tx_payer t)%N then Some s else use_grant s g (tx_payer t) (tx_fee t) (tx_types t)
  end.
Definition ante (s : gstate) (local : option coins) (t : tx) : option gstate :=
  if negb (surcharge (gs_par s) (tx_types t) + tx_other t <=? tx_gas t) then None
  else if negb ((0 <? tx_gas t) && (tx_gas t <? two63)) then None
  else if negb (fee_ok s local (tx_fee t) (tx_gas t)) then None
  else
    match grant_step s t with
    | None => None
    | Some s1 =>
        match send (gs_bank s1) (User (fee_account t)) MFeeCollector (tx_fee t) with
        | None => None
        | Some b => if tx_auth t then Some (gw_bank s1 b) else None
        end
    end.

(** x/global/post.go 35-83 RefundFeeDecorator with x/global/utils.go 23-39 GetFeeAccount, which uses the grant. *)
Definition refund_coins (s : gstate) (t : tx) : coins :=
  match tx_msgs t with
  | [m] => share_of (tx_fee t) (first_of (gp_ref (gs_par s)) (type_of m))
  | _ => ∅
  end.
Definition post (s : gstate) (t : tx) : option gstate :=
  match tx_msgs t with
  | [m] =>
      if cempty (tx_fee t) then Some s
      else if first_of (gp_ref (gs_par s)) (type_of m) =? 0 then Some s
      else
        match grant_step s t with
        | None => None
        | Some s1 =>
            match send (gs_bank s1) MFeeCollector (User (fee_account t)) (refund_coins s t) with
            | None => None
            | Some b => Some (gw_bank s1 b)
            end
        end
  | _ => Some s
  end.

(** BaseApp.runTx (SDK): the ante handler's changes are kept if it succeeds; those of the
    messages and of the post handler only if both succeed. The messages say how much gas they
    leave. The block's gas limit is not modelled. *)
Inductive result := Rejected | Failed | Done.
Definition deliver (s : gstate) (t : tx) (body : gstate -> Z -> option (gstate * Z)) : result * gstate :=
  match ante s None t with
  | None => (Rejected, s)
  | Some s1 =>
      match body s1 (tx_gas t - (surcharge (gs_par s) (tx_types t) + tx_other t)) with
      | None => (Failed, s1)
      | Some (s2, rest) =>
          if rest <? tx_pgas t then (Failed, s1)
          else match post s2 t with None => (Failed, s1) | Some s3 => (Done, s3) end
      end
  end.
(** CheckTx: only the ante handler, with the node's prices. *)
Definition check_tx (s : gstate) (local : coins) (t : tx) : bool := match ante s (Some local) t with Some _ => true | None => false end.
