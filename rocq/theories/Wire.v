(** * The messages as they arrive, and what is checked before a module sees them (model only, no proofs).

    Modelled: ValidateBasic of every message, in x/bundles/types/message_*.go,
    x/delegation/types/message_*.go, x/funders/types/message_*.go, x/pool/types/msgs.go,
    x/stakers/types/message_*.go, x/team/types/message_*.go (the lines are given at [validate]),
    util/validate.go 9-74, the profiles of stakers and funders
    (x/stakers/keeper/msg_server_update_metadata.go 14-38, getters_staker.go 21-39,
    x/funders/keeper/msg_server_create_funder.go 14-43, msg_server_update_funder.go 13-42), and
    that a payment to something that is no address fails (util/logic_bank.go 32-47).
    ValidateBasic of the parameter updates is in Params.v ([payload_valid]).

    Not modelled: the encoding of transactions, signatures (that the sender of a message is the
    one who signed it), fees. That ValidateBasic runs before the handler is x/baseapp's doing
    (and x/gov's and x/authz's for the messages they carry), which is not in this repository. *)
From Verif Require Import Base Delegation Stakers Funders Team Pool Bundles Chain Global Params.

(** Which strings sdk.AccAddressFromBech32 accepts (the empty string is not one of them), which
    sdk.ValidateDenom accepts, and the order of strings. Nothing else is known about them. *)
Record grammar := mkGr {
  gr_addr : N -> bool;
  gr_empty : gr_addr 0%N = false;
  gr_denom : N -> bool;
  gr_lt : N -> N -> bool;
  gr_irr : forall x, gr_lt x x = false;
  gr_trans : forall x y z, gr_lt x y = true -> gr_lt y z = true -> gr_lt x z = true
}.

(** sdk.Coins on the wire: a list of coins, the amount may be missing. *)
Definition rcoins := list (N * option Z).
Definition coin_valid (gr : grammar) (c : N * option Z) : bool :=
  gr_denom gr (fst c) && match snd c with Some x => 0 <? x | None => false end.
(** cosmos-sdk types/coin.go Coins.Validate: every coin has a valid denom and a positive amount
    (a missing amount panics, which rejects the message), the denoms are strictly increasing. *)
Fixpoint coins_after (gr : grammar) (low : N) (l : rcoins) : bool :=
  match l with
  | [] => true
  | c :: t => coin_valid gr c && gr_lt gr low (fst c) && coins_after gr (fst c) t
  end.
Definition coins_validate (gr : grammar) (l : rcoins) : bool :=
  match l with [] => true | c :: t => coin_valid gr c && coins_after gr (fst c) t end.
Definition is_empty (l : rcoins) : bool := match l with [] => true | _ => false end.
(** What the rest of the model works with. *)
Definition to_coins (l : rcoins) : coins := list_to_map ((fun c => (fst c, default 0 (snd c))) <$> l).

(** util/validate.go 63-74 ValidatePercentage and 9-20 ValidateDecimal; a nil LegacyDec is [None]. *)
Definition percentage (x : option Z) : bool := match x with Some v => (0 <=? v) && (v <=? ONE) | None => false end.
Definition decimal (x : option Z) : bool := match x with Some v => 0 <=? v | None => false end.
(** x/stakers/types/keys.go 65 DefaultCommission, "0.1". *)
Definition DEFAULT_COMMISSION : Z := 100000000000000000.

(** Strings of profiles are lists of bytes. *)
Record sprofile := mkSPr { sp_moniker : list N; sp_website : list N; sp_identity : list N; sp_contact : list N; sp_details : list N }.
Record fprofile := mkFPr { fp_moniker : list N; fp_identity : list N; fp_website : list N; fp_contact : list N; fp_description : list N }.
Definition no_profile : sprofile := mkSPr [] [] [] [] [].
(** encoding/hex DecodeString: pairs of digits 0-9, a-f, A-F; an odd length is an error. *)
Definition hex_digit (c : N) : option N :=
  if ((48 <=? c) && (c <=? 57))%N then Some (c - 48)%N
  else if ((97 <=? c) && (c <=? 102))%N then Some (c - 87)%N
  else if ((65 <=? c) && (c <=? 70))%N then Some (c - 55)%N
  else None.
Fixpoint hex_decode (s : list N) : option (list N) :=
  match s with
  | [] => Some []
  | a :: b :: t =>
      match hex_digit a, hex_digit b, hex_decode t with
      | Some x, Some y, Some r => Some ((16 * x + y)%N :: r)
      | _, _, _ => None
      end
  | _ => None
  end.
Definition identity_valid (s : list N) : bool :=
  match s with [] => true | _ => match hex_decode s with Some b => Nat.eqb (length b) 8 | None => false end end.
Definition short (s : list N) : bool := Nat.leb (length s) 255.

(** The messages. Numbers are uint64 by the type of the field ([typed]). The payload of
    MsgUpdatePool is [None] if it is no JSON object; the weight of a new pool may be missing. *)
Inductive rmsg :=
  (* x/delegation *)
  | RDelegate (creator staker : N) (a : Z)
  | RUndelegate (creator staker : N) (a : Z)
  | RRedelegate (creator from to : N) (a : Z)
  | RWithdraw (creator staker : N)
  (* x/stakers *)
  | RCreateStaker (creator : N) (commission : option Z) (a : Z)
  | RMetadata (creator : N) (x : sprofile)
  | RCommission (creator : N) (commission : option Z)
  | RClaimCommission (creator : N) (x : rcoins)
  | RJoin (creator p valaddress : N) (a : Z)
  | RLeave (creator p : N)
  (* x/funders *)
  | RCreateFunder (creator : N) (x : fprofile)
  | RUpdateFunder (creator : N) (x : fprofile)
  | RFund (creator p : N) (amounts per_bundle : rcoins)
  | RDefund (creator p : N) (amounts : rcoins)
  (* x/team *)
  | RTeamCreate (authority : N) (total start : Z)
  | RTeamClaim (authority : N) (id : nat) (a : Z) (recipient : N)
  | RTeamClawback (authority : N) (id : nat) (t : Z)
  | RTeamRewards (authority : N) (id : nat) (a : Z) (recipient : N)
  | RTeamAuthority (authority : N) (a : Z) (recipient : N)
  (* x/bundles *)
  | RSubmit (m : submit)
  | RVote (creator staker p storage : N) (w : vote)
  | RSkip (creator staker p : N) (from : Z)
  | RClaimRole (creator staker p : N)
  (* x/pool: [ca_weight] of the record is not looked at, the weight stands beside it *)
  | RCreatePool (authority : N) (json : bool) (weight : option Z) (a : create_args)
  | RUpdatePool (authority p : N) (payload : option update_args)
  | REnablePool (authority p : N)
  | RDisablePool (authority p : N)
  | RSchedule (authority runtime version binaries : N) (at_ duration : Z)
  | RCancel (authority runtime : N)
  (* parameters; [None]: the payload does not parse *)
  | RParams (authority : N) (payload : option payload).

Definition with_weight (a : create_args) (w : Z) : create_args :=
  mkCA (ca_runtime a) (ca_endkey a) (ca_interval a) w (ca_mindel a) (ca_maxsize a) (ca_version a) (ca_binaries a) (ca_sp a) (ca_comp a).

(** ValidateBasic. ValidateNumber (util/validate.go 35-46) accepts every uint64. *)
Definition validate (gr : grammar) (m : rmsg) : bool :=
  match m with
  (* x/delegation/types/message_delegate.go 37-48, message_undelegate.go 37-49,
     message_redelegate.go 37-43 (only the creator), message_withdraw_rewards.go 37-49 *)
  | RDelegate c s _ | RUndelegate c s _ | RWithdraw c s => gr_addr gr c && gr_addr gr s
  | RRedelegate c _ _ _ => gr_addr gr c
  (* x/stakers/types/message_create_staker.go 38-55: a missing commission becomes the default *)
  | RCreateStaker c com _ => gr_addr gr c && percentage (Some (default DEFAULT_COMMISSION com))
  (* message_update_metadata.go 39-67 *)
  | RMetadata c x =>
      gr_addr gr c && identity_valid (sp_identity x) && short (sp_website x) && short (sp_moniker x)
      && short (sp_contact x) && short (sp_details x)
  (* message_update_commission.go 38-48, message_claim_commission_rewards.go 37-51,
     message_join_pool.go 38-52, message_leave_pool.go 37-43 *)
  | RCommission c com => gr_addr gr c && percentage com
  | RClaimCommission c x => gr_addr gr c && negb (is_empty x) && coins_validate gr x
  | RJoin c _ v _ => gr_addr gr c && gr_addr gr v
  | RLeave c _ => gr_addr gr c
  (* x/funders/types/message_create_funder.go 33-42, message_update_funder.go 33-42 *)
  | RCreateFunder c x | RUpdateFunder c x => gr_addr gr c && match fp_moniker x with [] => false | _ => true end
  (* message_fund_pool.go 34-56, message_defund_pool.go 34-52 *)
  | RFund c _ x y =>
      gr_addr gr c && negb (is_empty x && is_empty y)
      && (is_empty x || coins_validate gr x) && (is_empty y || coins_validate gr y)
  | RDefund c _ x => gr_addr gr c && negb (is_empty x) && coins_validate gr x
  (* x/team/types/message_create_team_vesting_account.go 37-43, message_claim_unlocked.go 37-43,
     message_clawback.go 37-43, message_claim_account_rewards.go 37-43,
     message_claim_authority_rewards.go 36-42: only the sender *)
  | RTeamCreate c _ _ | RTeamClaim c _ _ _ | RTeamClawback c _ _ | RTeamRewards c _ _ _ | RTeamAuthority c _ _ => gr_addr gr c
  (* x/bundles/types/message_submit_bundle_proposal.go 53-59, message_vote_bundle_proposal.go 47-53,
     message_skip_uploader_role.go 46-52, message_claim_uploader_role.go 45-51 *)
  | RSubmit m => gr_addr gr (sb_creator m)
  | RVote c _ _ _ _ | RSkip c _ _ _ | RClaimRole c _ _ => gr_addr gr c
  (* x/pool/types/msgs.go 32-54 (the numbers: [create_basic]), 78-113 ([update_basic]), 122-128,
     137-143, 152-158, 167-173, 182-198 *)
  | RCreatePool c _ w _ => gr_addr gr c && decimal w
  | RUpdatePool c _ a => gr_addr gr c && match a with Some _ => true | None => false end
  | REnablePool c _ | RDisablePool c _ | RCancel c _ => gr_addr gr c
  | RSchedule c _ _ _ _ _ => gr_addr gr c
  | RParams c y => gr_addr gr c && match y with Some _ => true | None => false end
  end.

(** util/logic_bank.go 39-42: the transfer at the end of a claim from x/team fails if the
    recipient is no address (msg_server_claim_unlocked.go, msg_server_claim_account_rewards.go
    and msg_server_claim_authority_rewards.go do no other check of it). *)
Definition payable_to (gr : grammar) (m : rmsg) : bool :=
  match m with
  | RTeamClaim _ _ _ r | RTeamRewards _ _ _ r | RTeamAuthority _ _ r => gr_addr gr r
  | _ => true
  end.

(** The message as the rest of the model knows it; profiles and parameter updates are apart. *)
Definition decode (m : rmsg) : option cop :=
  match m with
  | RDelegate c s a => Some (CDelegate c s a)
  | RUndelegate c s a => Some (CUndelegate c s a)
  | RRedelegate c s s' a => Some (CRedelegate c s s' a)
  | RWithdraw c s => Some (CWithdraw c s)
  | RCreateStaker c com a => Some (CCreateStaker c (default DEFAULT_COMMISSION com) a)
  | RCommission c com => Some (CUpdateCommission c (default 0 com))
  | RClaimCommission c x => Some (CClaimCommission c (to_coins x))
  | RJoin c p v a => Some (CJoin c p v a)
  | RLeave c p => Some (CLeave c p)
  | RCreateFunder c _ => Some (CCreateFunder c)
  | RFund c p x y => Some (CFund c p (to_coins x) (to_coins y))
  | RDefund c p x => Some (CDefund c p (to_coins x))
  | RTeamCreate c t s => Some (CTeam (TCreate c t s))
  | RTeamClaim c i a r => Some (CTeam (TClaim c i a r))
  | RTeamClawback c i t => Some (CTeam (TClawback c i t))
  | RTeamRewards c i a r => Some (CTeam (TClaimRewards c i a r))
  | RTeamAuthority c a r => Some (CTeam (TClaimAuthority c a r))
  | RSubmit m => Some (CSubmit m)
  | RVote c s p st w => Some (CVote p s c st w)
  | RSkip c s p from => Some (CSkip p s c from)
  | RClaimRole c s p => Some (CClaimRole p s c)
  | RCreatePool c json w a => Some (CCreatePool c json (with_weight a (default 0 w)))
  | RUpdatePool c p a => CUpdatePool c p <$> a
  | REnablePool c p => Some (CEnablePool c p)
  | RDisablePool c p => Some (CDisablePool c p)
  | RSchedule c r v b t d => Some (CSchedule c r v b t d)
  | RCancel c r => Some (CCancel c r)
  | RMetadata _ _ | RUpdateFunder _ _ | RParams _ _ => None
  end.

(** The chain with its parameters (Params.v) and the profiles. *)
Record rstate := mkR { r_u : ustate; r_stakers : gmap N sprofile; r_funders : gmap N fprofile }.
Definition r_c (r : rstate) : chain := u_c (r_u r).
Definition rw_c (r : rstate) (c : chain) : rstate := mkR (mkU c (u_g (r_u r))) (r_stakers r) (r_funders r).
Definition rw_stakers (r : rstate) x : rstate := mkR (r_u r) x (r_funders r).
Definition rw_funders (r : rstate) x : rstate := mkR (r_u r) (r_stakers r) x.

(** The effect of a message, [None] if it is rejected. *)
Definition deliver (gr : grammar) (r : rstate) (m : rmsg) : option rstate :=
  if negb (validate gr m && payable_to gr m) then None
  else match m with
  (* msg_server_update_metadata.go 20-25, getters_staker.go 30-38 *)
  | RMetadata s x => if staker_exists (r_c r) s then Some (rw_stakers r (<[s := x]> (r_stakers r))) else None
  (* msg_server_update_funder.go 16-30 *)
  | RUpdateFunder a x =>
      if bool_decide (a ∈ fs_funders (c_f (r_c r))) then Some (rw_funders r (<[a := x]> (r_funders r))) else None
  | RParams c y => match y with Some y => (fun u => mkR u (r_stakers r) (r_funders r)) <$> msg_update (r_u r) c y | None => None end
  | _ =>
      match decode m with
      | None => None
      | Some o =>
          match cmsg (r_c r) o with
          | None => None
          | Some c =>
              let r' := rw_c r c in
              Some match m with
                   (* msg_server_create_staker.go 31-34: a new staker has no profile *)
                   | RCreateStaker s _ _ => rw_stakers r' (<[s := no_profile]> (r_stakers r))
                   (* msg_server_create_funder.go 22-30 *)
                   | RCreateFunder a x => rw_funders r' (<[a := x]> (r_funders r))
                   | _ => r'
                   end
          end
      end
  end.

(** Everything that happens: messages, blocks, and what other modules do to the bank. *)
Inductive rop := RMsg (m : rmsg) | RBegin (t provision : Z) | REnd | RBank (b : bank).
Definition rstep (gr : grammar) (r : rstate) (o : rop) : rstate :=
  match o with
  | RMsg m => default r (deliver gr r m)
  | RBegin t x => rw_c r (cstep (r_c r) (CBegin t x))
  | REnd => rw_c r (cstep (r_c r) CEnd)
  | RBank b => rw_c r (cstep (r_c r) (CBank b))
  end.
Fixpoint rrun (gr : grammar) (r : rstate) (ops : list rop) : rstate :=
  match ops with [] => r | o :: t => rrun gr (rstep gr r o) t end.

(** What the types of the fields guarantee: uint64. *)
Definition typed (m : rmsg) : Prop :=
  match m with
  | RDelegate _ _ a | RUndelegate _ _ a | RRedelegate _ _ _ a | RCreateStaker _ _ a | RJoin _ _ _ a => u64 a
  | RTeamCreate _ t s => u64 t /\ u64 s
  | RTeamClaim _ _ a _ | RTeamClawback _ _ a | RTeamRewards _ _ a _ | RTeamAuthority _ a _ => u64 a
  | RSubmit m => u64 (sb_data m) /\ u64 (sb_from m) /\ u64 (sb_size m)
  | RSkip _ _ _ f => u64 f
  | RCreatePool _ _ _ a => u64 (ca_interval a) /\ u64 (ca_mindel a) /\ u64 (ca_maxsize a)
  | RUpdatePool _ _ (Some a) => opt_u64 (ua_interval a) /\ opt_u64 (ua_mindel a) /\ opt_u64 (ua_maxsize a)
  | RSchedule _ _ _ _ t d => u64 t /\ u64 d
  | _ => True
  end.
(** What remains to be assumed of the world: what is recorded as delegated stays below 2^63 (by
    C02 it is part of the supply, up to rounding), a pool has less than 2^64 data items,
    governance sets no upload interval and no upload timeout of 2^62 seconds or more. *)
Definition moderate (c : chain) (m : rmsg) : Prop :=
  match m with
  | RUndelegate d s _ => delegation_of (c_d c) s d < two63
  | RRedelegate d s _ _ => delegation_of (c_d c) s d < two63
  | RJoin _ _ _ _ => forall x, power c x < two63
  | RSubmit m => sb_from m + sb_size m < two64
  | RCreatePool _ _ _ a => ca_interval a < two62
  | RUpdatePool _ _ (Some a) => match ua_interval a with Some i => i < two62 | None => True end
  | RParams _ (Some y) => payload_ok y
  | _ => True
  end.
Definition rop_ok (r : rstate) (o : rop) : Prop :=
  match o with
  | RMsg m => typed m /\ moderate (r_c r) m
  | RBegin t x => cop_ok (r_c r) (CBegin t x)
  | REnd => True
  | RBank b => cop_ok (r_c r) (CBank b)
  end.
Fixpoint rops_ok (gr : grammar) (r : rstate) (ops : list rop) : Prop :=
  match ops with [] => True | o :: t => rop_ok r o /\ rops_ok gr (rstep gr r o) t end.
Definition rinit (c : chain) (g : gparams) : rstate := mkR (mkU c g) ∅ ∅.
