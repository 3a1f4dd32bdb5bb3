(** * x/bundles: proposals, votes, tally, payouts, timeouts (model only, no proofs).

    Modelled: x/bundles/keeper/logic_bundles.go, logic_end_block_handle_upload_timeout.go,
    msg_server_submit_bundle_proposal.go, msg_server_vote_bundle_proposal.go,
    msg_server_skip_uploader_role.go, msg_server_claim_uploader_role.go, the stores of
    getters_bundles.go, x/bundles/abci.go (SplitInflation), x/pool/keeper/logic_pool.go
    (ChargeInflationPool), x/query/keeper/helper.go (GetPoolStatus).

    Simplifications used everywhere in this file:
    - The states of the other modules are those of Delegation.v, Stakers.v, Funders.v, Team.v;
      there is one bank, handed to a module when it is called ([d_in], [d_out] and so on).
    - Strings are numbers (0 is ""). Events are left out.
    - A Go panic is a result of its own: in a message it is an error, in a block it halts
      the chain. [PanicHalt] sets [c_halt] and goes on, as in the other files.
    - Decimals are unbounded: the panic of LegacyDec above 315 bits is not modelled. *)
From Verif Require Import Base Delegation Stakers Funders Team RoundRobin Pool.

(** types/bundles.pb.go BundleProposal; the pool id is the key of the store. *)
Record proposal := mkBP {
  bp_storage : N; bp_uploader : N; bp_next : N;
  bp_data : Z;       (* DataSize *)
  bp_size : Z;       (* BundleSize *)
  bp_updated : Z;    (* UpdatedAt *)
  bp_valid : list N; bp_invalid : list N; bp_abstain : list N;
  bp_from : N; bp_to : N; bp_summary : N; bp_hash : N; bp_sp : N; bp_comp : N
}.
(** A proposal without bundle: types.BundleProposal{NextUploader, UpdatedAt}. *)
Definition bp_none (next : N) (updated : Z) : proposal := mkBP 0 0 next 0 0 updated [] [] [] 0 0 0 0 0 0.
(** The value GetBundleProposal returns when there is none. *)
Definition bp_zero : proposal := bp_none 0 0.
Definition with_next (b : proposal) (n : N) (t : Z) : proposal :=
  mkBP (bp_storage b) (bp_uploader b) n (bp_data b) (bp_size b) t (bp_valid b) (bp_invalid b) (bp_abstain b)
    (bp_from b) (bp_to b) (bp_summary b) (bp_hash b) (bp_sp b) (bp_comp b).
Definition with_votes (b : proposal) (v i a : list N) : proposal :=
  mkBP (bp_storage b) (bp_uploader b) (bp_next b) (bp_data b) (bp_size b) (bp_updated b) v i a
    (bp_from b) (bp_to b) (bp_summary b) (bp_hash b) (bp_sp b) (bp_comp b).

(** types/bundles.pb.go FinalizedBundle; pool id and id are the key of the store. *)
Record fbundle := mkFB {
  fb_storage : N; fb_uploader : N; fb_from : Z; fb_to : Z; fb_fromkey : N; fb_tokey : N;
  fb_summary : N; fb_hash : N; fb_height : Z; fb_time : Z; fb_sp : N; fb_comp : N;
  fb_valid : Z; fb_total : Z     (* StakeSecurity *)
}.

(** types/params.go 46-67. *)
Record bparams := mkBPar { b_timeout : Z; b_costs : list (N * Z); b_fee : Z; b_maxpoints : Z }.
Definition bparams_valid (p : bparams) : bool :=
  (0 <? b_timeout p) && forallb (fun x => 0 <=? snd x) (b_costs p) && pct_ok (b_fee p) && (0 <? b_maxpoints p).
(** getters_params.go 24-32. *)
Definition storage_cost (p : bparams) (sp : N) : Z :=
  match List.find (fun x => fst x =? sp)%N (b_costs p) with Some x => snd x | None => 0 end.

Record chain := mkC {
  c_d : dstate; c_s : sstate; c_f : fstate; c_t : tstate;
  c_pools : pstore; c_pp : pparams;
  c_prop : gmap N proposal;            (* bundle proposals by pool *)
  c_fin : gmap (N * N) fbundle;        (* finalized bundles by pool and id *)
  c_idx : gmap (N * Z) N;              (* index: pool and from index -> id (mem store) *)
  c_rr : gmap N (gmap N Z);            (* round robin progress by pool *)
  c_bp : bparams; c_burn : Z;          (* x/global BurnRatio *)
  c_bank : bank; c_time : Z; c_height : Z;
  c_halt : bool;                       (* PanicHalt or a panic in a block *)
  c_bad : bool                         (* a tally failed half way in an end block (line 79-80) *)
}.
Definition cw_d (c : chain) x := mkC x (c_s c) (c_f c) (c_t c) (c_pools c) (c_pp c) (c_prop c) (c_fin c) (c_idx c) (c_rr c) (c_bp c) (c_burn c) (c_bank c) (c_time c) (c_height c) (c_halt c) (c_bad c).
Definition cw_s (c : chain) x := mkC (c_d c) x (c_f c) (c_t c) (c_pools c) (c_pp c) (c_prop c) (c_fin c) (c_idx c) (c_rr c) (c_bp c) (c_burn c) (c_bank c) (c_time c) (c_height c) (c_halt c) (c_bad c).
Definition cw_f (c : chain) x := mkC (c_d c) (c_s c) x (c_t c) (c_pools c) (c_pp c) (c_prop c) (c_fin c) (c_idx c) (c_rr c) (c_bp c) (c_burn c) (c_bank c) (c_time c) (c_height c) (c_halt c) (c_bad c).
Definition cw_t (c : chain) x := mkC (c_d c) (c_s c) (c_f c) x (c_pools c) (c_pp c) (c_prop c) (c_fin c) (c_idx c) (c_rr c) (c_bp c) (c_burn c) (c_bank c) (c_time c) (c_height c) (c_halt c) (c_bad c).
Definition cw_pools (c : chain) x := mkC (c_d c) (c_s c) (c_f c) (c_t c) x (c_pp c) (c_prop c) (c_fin c) (c_idx c) (c_rr c) (c_bp c) (c_burn c) (c_bank c) (c_time c) (c_height c) (c_halt c) (c_bad c).
Definition cw_pp (c : chain) x := mkC (c_d c) (c_s c) (c_f c) (c_t c) (c_pools c) x (c_prop c) (c_fin c) (c_idx c) (c_rr c) (c_bp c) (c_burn c) (c_bank c) (c_time c) (c_height c) (c_halt c) (c_bad c).
Definition cw_prop (c : chain) x := mkC (c_d c) (c_s c) (c_f c) (c_t c) (c_pools c) (c_pp c) x (c_fin c) (c_idx c) (c_rr c) (c_bp c) (c_burn c) (c_bank c) (c_time c) (c_height c) (c_halt c) (c_bad c).
Definition cw_fin (c : chain) x y := mkC (c_d c) (c_s c) (c_f c) (c_t c) (c_pools c) (c_pp c) (c_prop c) x y (c_rr c) (c_bp c) (c_burn c) (c_bank c) (c_time c) (c_height c) (c_halt c) (c_bad c).
Definition cw_rr (c : chain) x := mkC (c_d c) (c_s c) (c_f c) (c_t c) (c_pools c) (c_pp c) (c_prop c) (c_fin c) (c_idx c) x (c_bp c) (c_burn c) (c_bank c) (c_time c) (c_height c) (c_halt c) (c_bad c).
Definition cw_bp (c : chain) x := mkC (c_d c) (c_s c) (c_f c) (c_t c) (c_pools c) (c_pp c) (c_prop c) (c_fin c) (c_idx c) (c_rr c) x (c_burn c) (c_bank c) (c_time c) (c_height c) (c_halt c) (c_bad c).
Definition cw_burn (c : chain) x := mkC (c_d c) (c_s c) (c_f c) (c_t c) (c_pools c) (c_pp c) (c_prop c) (c_fin c) (c_idx c) (c_rr c) (c_bp c) x (c_bank c) (c_time c) (c_height c) (c_halt c) (c_bad c).
Definition cw_bank (c : chain) x := mkC (c_d c) (c_s c) (c_f c) (c_t c) (c_pools c) (c_pp c) (c_prop c) (c_fin c) (c_idx c) (c_rr c) (c_bp c) (c_burn c) x (c_time c) (c_height c) (c_halt c) (c_bad c).
Definition cw_time (c : chain) t h := mkC (c_d c) (c_s c) (c_f c) (c_t c) (c_pools c) (c_pp c) (c_prop c) (c_fin c) (c_idx c) (c_rr c) (c_bp c) (c_burn c) (c_bank c) t h (c_halt c) (c_bad c).
Definition cw_halt (c : chain) := mkC (c_d c) (c_s c) (c_f c) (c_t c) (c_pools c) (c_pp c) (c_prop c) (c_fin c) (c_idx c) (c_rr c) (c_bp c) (c_burn c) (c_bank c) (c_time c) (c_height c) true (c_bad c).
Definition cw_bad (c : chain) := mkC (c_d c) (c_s c) (c_f c) (c_t c) (c_pools c) (c_pp c) (c_prop c) (c_fin c) (c_idx c) (c_rr c) (c_bp c) (c_burn c) (c_bank c) (c_time c) (c_height c) (c_halt c) true.

(** The module states with the current bank, and back. *)
Definition d_in (c : chain) : dstate := with_bank (c_d c) (c_bank c).
Definition d_out (c : chain) (d : dstate) : chain := cw_bank (cw_d c d) (ds_bank d).
Definition s_in (c : chain) : sstate := with_sbank (c_s c) (c_bank c).
Definition s_out (c : chain) (s : sstate) : chain := cw_bank (cw_s c s) (ss_bank s).
Definition f_in (c : chain) : fstate := fwith_bank (c_f c) (c_bank c).
Definition f_out (c : chain) (f : fstate) : chain := cw_bank (cw_f c f) (fs_bank f).
Definition t_in (c : chain) : tstate := twith_bank (c_t c) (c_bank c).
Definition t_out (c : chain) (t : tstate) : chain := cw_bank (cw_t c t) (ts_bank t).

Definition get_pool (c : chain) (p : N) : option pool := ps_pools (c_pools c) !! p.
(** getters_bundles.go GetBundleProposal. *)
Definition get_prop (c : chain) (p : N) : proposal := default bp_zero (c_prop c !! p).
Definition set_prop (c : chain) (p : N) (b : proposal) : chain := cw_prop c (<[p := b]> (c_prop c)).
Definition in_pool (c : chain) (p s : N) : bool :=
  match get_val (c_s c) p s with Some _ => true | None => false end.
Definition members (c : chain) (p : N) : list N := pool_stakers (c_s c) p.
(** delegation exported_functions.go GetDelegationAmount and calculateVotingPower 471-475. *)
Definition power (c : chain) (s : N) : Z := delegation_amount (c_d c) s.

(** delegation/keeper/exported_functions.go 47-59 GetTotalAndHighestDelegationOfPool. *)
Definition total_power (c : chain) (p : N) : Z :=
  fold_left (fun a s => u64_add a (power c s)) (members c p) 0.
Definition highest_power (c : chain) (p : N) : Z :=
  fold_left (fun a s => if a <? power c s then power c s else a) (members c p) 0.

(** logic_bundles.go 18-58 AssertPoolCanRun; [None]: no error. *)
Inductive perr := ENotFound | EUpgrading | EDisabled | EEndKey | EMinDelegation | EVotingPower.
Definition max_delegation (c : chain) (p : N) : Z :=
  w64 (trunc_int (dec_mul_int (pp_maxvp (c_pp c)) (i64 (total_power c p)))).
Definition pool_error (c : chain) (p : N) : option perr :=
  match get_pool c p with
  | None => Some ENotFound
  | Some pl =>
      if (0 <? pn_at (pl_plan pl)) && (pn_at (pl_plan pl) <=? c_time c) then Some EUpgrading
      else if pl_disabled pl then Some EDisabled
      else if negb (pl_endkey pl =? 0)%N && (pl_key pl =? pl_endkey pl)%N then Some EEndKey
      else if total_power c p <? pl_mindel pl then Some EMinDelegation
      else if max_delegation c p <? highest_power c p then Some EVotingPower
      else None
  end.
Definition can_run (c : chain) (p : N) : bool :=
  match pool_error c p with None => true | Some _ => false end.

(** x/query/keeper/helper.go 84-108 GetPoolStatus. *)
Inductive pstatus := StActive | StDisabled | StNoFunds | StMinDelegation | StUpgrading | StVotingPower | StEndKey.
Definition pool_status (c : chain) (p : N) (pl : pool) : pstatus :=
  if (0 <? pn_at (pl_plan pl)) && (pn_at (pl_plan pl) <=? c_time c) then StUpgrading
  else if pl_disabled pl then StDisabled
  else if negb (pl_endkey pl =? 0)%N && (pl_key pl =? pl_endkey pl)%N then StEndKey
  else if total_power c p <? pl_mindel pl then StMinDelegation
  else if max_delegation c p <? highest_power c p then StVotingPower
  else if cempty (total_active_funding (c_f c) p) then StNoFunds
  else StActive.

(** logic_bundles.go 62-98 AssertCanVote. *)
Definition can_vote (c : chain) (p s v storage : N) : bool :=
  let b := get_prop c p in
  can_run c p && authorized (c_s c) p s v && negb (bp_storage b =? 0)%N && (storage =? bp_storage b)%N
  && negb (memb s (bp_valid b)) && negb (memb s (bp_invalid b)).
(** logic_bundles.go 102-132 AssertCanPropose. *)
Definition can_propose (c : chain) (p s v : N) (from : Z) : bool :=
  let b := get_prop c p in
  match get_pool c p with
  | None => false
  | Some pl =>
      can_run c p && authorized (c_s c) p s v && (bp_next b =? s)%N
      && (u64_add (bp_updated b) (pl_interval pl) <=? c_time c)
      && (u64_add (pl_index pl) (bp_size b) =? from)
  end.

(** types/tx.pb.go MsgSubmitBundleProposal. *)
Record submit := mkSub {
  sb_creator : N; sb_staker : N; sb_pool : N; sb_storage : N; sb_data : Z; sb_hash : N;
  sb_from : Z; sb_size : Z; sb_fromkey : N; sb_tokey : N; sb_summary : N
}.
(** logic_bundles.go 136-168 validateSubmitBundleArgs. *)
Definition submit_valid (c : chain) (m : submit) : bool :=
  match get_pool c (sb_pool m) with
  | None => false
  | Some pl =>
      negb (sb_storage m =? 0)%N && (u64_add (pl_index pl) (bp_size (get_prop c (sb_pool m))) =? sb_from m)
      && negb (sb_size m =? 0) && (sb_size m <=? pl_maxsize pl)
      && negb (sb_fromkey m =? 0)%N && negb (sb_tokey m =? 0)%N
  end.

(** logic_bundles.go 172-175 slashDelegatorsAndRemoveStaker. *)
Definition slash_remove (c : chain) (p s : N) (t : slash_type) : chain :=
  let c1 := d_out c (fst (slash_delegators (d_in c) s t)) in
  s_out c1 (leave_pool (s_in c1) s p).
(** logic_bundles.go 178-188 resetPoints. *)
Definition reset_pts (c : chain) (p s : N) : chain := s_out c (fst (reset_points (s_in c) p s)).
(** logic_bundles.go 192-207 addPoint. *)
Definition add_point (c : chain) (p s : N) : chain :=
  let '(s', points) := increment_points (s_in c) p s in
  let c1 := s_out c s' in
  if b_maxpoints (c_bp c1) <=? points then slash_remove c1 p s SlashTimeout else c1.
(** logic_bundles.go 213-234 handleNonVoters. *)
Definition voted (b : proposal) (s : N) : bool := memb s (bp_valid b) || memb s (bp_invalid b) || memb s (bp_abstain b).
Definition handle_non_voters (c : chain) (p : N) : chain :=
  let b := get_prop c p in
  fold_left (fun c s => if voted b s then c else add_point c p s) (members c p) c.

(** logic_bundles.go 238-327 calculatePayouts. [None]: panic. *)
Record reward := mkR { r_total : coins; r_treasury : coins; r_storage : coins; r_commission : coins; r_delegation : coins }.
Definition r_zero : reward := mkR ∅ ∅ ∅ ∅ ∅.
(** sdk.NewDecCoinsFromCoins(c).MulDec(x).TruncateDecimal(). *)
Definition share_of (c : coins) (x : Z) : coins := cmap (fun a => trunc_int (dec_mul (dec_of_int a) x)) c.
(** Lines 284-297: the coins wanted for storage; a denom that is not on the whitelist has a nil
    weight, a negative amount makes NewCoin panic. *)
Fixpoint wanted (l : list wentry) (cost : Z) (ds : list N) : option coins :=
  match ds with
  | [] => Some ∅
  | x :: ds =>
      match wl_find l x with
      | None => None
      | Some e =>
          if w_weight e =? 0 then wanted l cost ds
          else
            let amount := trunc_int (dec_quo (dec_mul cost (dec_of_int (10 ^ w_decimals e))) (w_weight e)) in
            if amount <? 0 then None
            else match wanted l cost ds with None => None | Some w => Some (cadd (coin x amount) w) end
      end
  end.
Definition denoms (c : coins) : list N := map fst (map_to_list c).
Definition calculate_payouts (uploader_exists : bool) (commission : Z) (delegated : Z) (bp : bparams) (l : list wentry)
    (sp : N) (data : Z) (total : coins) : option reward :=
  if negb uploader_exists then Some r_zero
  else if cempty total then Some r_zero
  else
    let treasury := share_of total (b_fee bp) in
    if negb (cle treasury total) then None
    else
      let rest := csub total treasury in
      if cempty rest then Some (mkR total treasury ∅ ∅ ∅)
      else
        let cost := dec_quo_int (dec_mul_int (storage_cost bp sp) (i64 data)) (Z.of_nat (length (denoms rest))) in
        match wanted l cost (denoms rest) with
        | None => None
        | Some w =>
            let storage := cmin rest w in
            if negb (cle storage rest) then None
            else
              let rest2 := csub rest storage in
              if cempty rest2 then Some (mkR total treasury storage ∅ ∅)
              else
                let com := share_of rest2 commission in
                if negb (cle com rest2) then None
                else
                  let rest3 := csub rest2 com in
                  if cempty rest3 then Some (mkR total treasury storage com ∅)
                  else if 0 <? delegated then Some (mkR total treasury storage com rest3)
                  else Some (mkR total treasury storage (cadd com rest3) ∅)
        end.
Definition payouts (c : chain) (p : N) (total : coins) : option reward :=
  let b := get_prop c p in
  let u := bp_uploader b in
  calculate_payouts (bool_decide (is_Some (ss_stakers (c_s c) !! u))) (default 0 (commission_of (c_s c) u)) (power c u)
    (c_bp c) (wl (c_f c)) (bp_sp b) (bp_data b) total.

(** x/pool/keeper/logic_pool.go 37-55 ChargeInflationPool. [None]: panic (Int64, NewInt64Coin,
    TruncateInt64); a pool that is not found is the case [pool_error = Some ENotFound] and does
    not reach this function. *)
Definition inflation_payout (balance rate : Z) : option Z :=
  if two63 <=? balance then None
  else match trunc64 (dec_mul (dec_of_int balance) rate) with None => None | Some q => Some (w64 q) end.
Definition charge_inflation (c : chain) (p : N) : option (chain * Z) :=
  match inflation_payout (bal (c_bank c) (PoolAcc p) KYVE) (pp_rate (c_pp c)) with
  | None => None
  | Some x =>
      if i64 x <? 0 then None
      else match send (c_bank c) (PoolAcc p) MPool (coin KYVE x) with
           | Some b => Some (cw_bank c b, x)
           | None => Some (cw_halt c, x)
           end
  end.

(** logic_bundles.go 510-564 GetVoteDistribution. *)
Inductive vstatus := VUnspecified | VValid | VInvalid | VNoQuorum.
Record votes := mkV { v_valid : Z; v_invalid : Z; v_abstain : Z; v_total : Z; v_status : vstatus }.
Definition list_power (c : chain) (p : N) (l : list N) : Z :=
  fold_left (fun a s => if in_pool c p s then u64_add a (power c s) else a) l 0.
Definition quorum (valid invalid total : Z) : vstatus :=
  if total =? 0 then VNoQuorum
  else if total <? w64 (valid * 2) then VValid
  else if total <=? w64 (invalid * 2) then VInvalid
  else VNoQuorum.
Definition distribution (c : chain) (p : N) : votes :=
  match c_prop c !! p with
  | None => mkV 0 0 0 0 VUnspecified
  | Some b =>
      let v := list_power c p (bp_valid b) in
      let i := list_power c p (bp_invalid b) in
      let a := list_power c p (bp_abstain b) in
      let t := total_power c p in
      mkV v i a t (quorum v i t)
  end.

(** logic_bundles.go 567-655 tallyBundleProposal. [b] is the proposal read before the call. *)
Inductive tally_result :=
  | TrValid (c : chain) (v : votes) (funders : coins) (inflation : Z) (r : reward)
  | TrInvalid (c : chain) (v : votes)
  | TrNoQuorum (c : chain) (v : votes)
  | TrError (c : chain)        (* the state at the return of the error *)
  | TrPanic.
Definition pay_out (c : chain) (u : N) (r : reward) : chain + chain :=
  match send (c_bank c) MPool Treasury (r_treasury r) with
  | None => inr c
  | Some bk =>
      let c1 := cw_bank c bk in
      match increase_commission_rewards (s_in c1) u MPool (cadd (r_commission r) (r_storage r)) with
      | None => inr c1
      | Some s =>
          let c2 := s_out c1 s in
          match payout_rewards (d_in c2) u (r_delegation r) MPool with
          | None => inr c2
          | Some d => inl (d_out c2 d)
          end
      end
  end.
Definition slash_type_of (b : proposal) (s : N) : slash_type := if (s =? bp_uploader b)%N then SlashUpload else SlashVote.
Definition tally (c : chain) (b : proposal) (p : N) : tally_result :=
  let c1 := handle_non_voters c p in
  let v := distribution c1 p in
  match v_status v with
  | VValid =>
      match charge_funders (f_in c1) p MPool with
      | (f, None) => TrError (f_out c1 f)
      | (f, Some fp) =>
          match charge_inflation (f_out c1 f) p with
          | None => TrPanic
          | Some (c2, x) =>
              match payouts c2 p (cadd fp (coin KYVE x)) with
              | None => TrPanic
              | Some r =>
                  match pay_out c2 (bp_uploader b) r with
                  | inr c3 => TrError c3
                  | inl c3 => TrValid (fold_left (fun c s => slash_remove c p s SlashVote) (bp_invalid b) c3) v fp x r
                  end
              end
          end
      end
  | VInvalid => TrInvalid (fold_left (fun c s => slash_remove c p s (slash_type_of b s)) (bp_valid b) c1) v
  | _ => TrNoQuorum c1 v
  end.

(** logic_bundles.go 479-506: the next uploader. *)
Definition pool_powers (c : chain) (p : N) : list (N * Z) := map (fun s => (s, power c s)) (members c p).
Definition rr_of (c : chain) (p : N) : gmap N Z := default ∅ (c_rr c !! p).
Definition choose (c : chain) (p : N) (ex : list N) : N * chain :=
  let '(u, m) := choose_next (pool_powers c p) (rr_of c p) ex in (u, cw_rr c (<[p := m]> (c_rr c))).
Definition choose_from (c : chain) (p : N) (incl : list N) : N * chain :=
  let '(u, m) := choose_next_from (pool_powers c p) (rr_of c p) incl in (u, cw_rr c (<[p := m]> (c_rr c))).

(** logic_bundles.go 332-378 registerBundleProposalFromUploader. *)
Definition register (c : chain) (m : submit) (next : N) : chain :=
  let '(sp, comp) := match get_pool c (sb_pool m) with Some pl => (pl_sp pl, pl_comp pl) | None => (0%N, 0%N) end in
  set_prop c (sb_pool m)
    (mkBP (sb_storage m) (sb_staker m) next (sb_data m) (sb_size m) (c_time c) [sb_staker m] [] []
       (sb_fromkey m) (sb_tokey m) (sb_summary m) (sb_hash m) sp comp).
(** logic_bundles.go 383-437 finalizeCurrentBundleProposal with getters_bundles.go SetFinalizedBundle. *)
Definition finalize (c : chain) (p : N) (v : votes) : chain :=
  match get_pool c p with
  | None => c
  | Some pl =>
      let b := get_prop c p in
      let to := u64_add (pl_index pl) (bp_size b) in
      let fb := mkFB (bp_storage b) (bp_uploader b) (pl_index pl) to (bp_from b) (bp_to b) (bp_summary b) (bp_hash b)
                  (c_height c) (c_time c) (bp_sp b) (bp_comp b) (v_valid v) (v_total v) in
      let c1 := cw_fin c (<[(p, pl_total pl) := fb]> (c_fin c)) (<[(p, pl_index pl) := pl_total pl]> (c_idx c)) in
      cw_pools c1 (increment_bundle (c_pools c1) p to (bp_to b) (bp_summary b))
  end.
(** logic_bundles.go 443-467 dropCurrentBundleProposal. *)
Definition drop (c : chain) (p next : N) : chain := set_prop c p (bp_none next (c_time c)).

(** ** Messages; [None] is an error or a panic: the transaction is rolled back. *)
(** msg_server_submit_bundle_proposal.go 11-65. *)
Definition msg_submit (c : chain) (m : submit) : option chain :=
  let p := sb_pool m in
  if negb (can_propose c p (sb_staker m) (sb_creator m) (sb_from m)) then None
  else if negb (submit_valid c m) then None
  else
    let b := get_prop c p in
    let c1 := reset_pts c p (sb_staker m) in
    if (bp_storage b =? 0)%N then
      let '(next, c2) := choose c1 p [] in Some (register c2 m next)
    else
      match tally c1 b p with
      | TrValid c2 v _ _ _ =>
          let '(next, c3) := choose_from c2 p (bp_valid b) in
          Some (register (finalize c3 p v) m next)
      | TrInvalid c2 _ => Some (drop c2 p (bp_next b))
      | _ => None
      end.

(** types/tx.pb.go VoteType: 1 valid, 2 invalid, 3 abstain, anything else is rejected. *)
Inductive vote := Valid | Invalid | Abstain | OtherVote.
(** util/arrays.go RemoveFromStringArrayStable: the first occurrence. *)
Fixpoint remove_first (a : N) (l : list N) : list N :=
  match l with [] => [] | x :: t => if (x =? a)%N then t else x :: remove_first a t end.
(** msg_server_vote_bundle_proposal.go 14-60. *)
Definition msg_vote (c : chain) (p s creator storage : N) (w : vote) : option chain :=
  if negb (can_vote c p s creator storage) then None
  else
    let b := get_prop c p in
    let abst := memb s (bp_abstain b) in
    let a := if abst then remove_first s (bp_abstain b) else bp_abstain b in
    let b' := match w with
              | Valid => Some (with_votes b (bp_valid b ++ [s]) (bp_invalid b) a)
              | Invalid => Some (with_votes b (bp_valid b) (bp_invalid b ++ [s]) a)
              | Abstain => if abst then None else Some (with_votes b (bp_valid b) (bp_invalid b) (a ++ [s]))
              | OtherVote => None
              end in
    match b' with
    | None => None
    | Some b' => Some (reset_pts (set_prop c p b') p s)
    end.

(** msg_server_skip_uploader_role.go 11-64. *)
Definition msg_skip (c : chain) (p s creator : N) (from : Z) : option chain :=
  if negb (can_propose c p s creator from) then None
  else
    let b := get_prop c p in
    match tally (reset_pts c p s) b p with
    | TrValid c1 v _ _ _ =>
        let '(next, c2) := choose c1 p [s] in
        let c3 := finalize c2 p v in Some (set_prop c3 p (bp_none next (c_time c3)))
    | TrInvalid c1 _ => let '(next, c2) := choose c1 p [s] in Some (drop c2 p next)
    | TrNoQuorum c1 _ => let '(next, c2) := choose c1 p [s] in Some (set_prop c2 p (with_next b next (c_time c2)))
    | _ => None
    end.

(** msg_server_claim_uploader_role.go 16-61. *)
Definition msg_claim_role (c : chain) (p s creator : N) : option chain :=
  if negb (can_run c p) then None
  else if negb (authorized (c_s c) p s creator) then None
  else if negb (bp_next (get_prop c p) =? 0)%N then None
  else Some (set_prop c p (with_next (get_prop c p) s (c_time c))).

(** ** End block: logic_end_block_handle_upload_timeout.go 11-120. [None]: panic. *)
Definition timeout_point (c : chain) (p s : N) : chain := if in_pool c p s then add_point c p s else c.
Definition timeout_pool (c : chain) (p : N) (interval : Z) : option chain :=
  let b := get_prop c p in
  match pool_error c p with
  | Some e =>
      let disabled := match e with EDisabled => true | _ => false end in
      Some (if disabled && negb (bp_storage b =? 0)%N then drop c p 0
            else if negb (bp_next b =? 0)%N then set_prop c p (with_next b 0 (bp_updated b)) else c)
  | None =>
      if c_time c <? u64_add (bp_updated b) interval then Some c
      else
        let noq := match v_status (distribution c p) with VNoQuorum => true | _ => false end in
        if negb (bp_storage b =? 0)%N && noq then
          let '(next, c1) := choose (handle_non_voters c p) p [] in Some (drop c1 p next)
        else if c_time c <? u64_add (u64_add (bp_updated b) interval) (b_timeout (c_bp c)) then Some c
        else if (bp_storage b =? 0)%N then
          let '(next, c1) := choose c p [] in
          Some (timeout_point (set_prop c1 p (with_next b next (c_time c1))) p (bp_next b))
        else
          match tally c b p with
          | TrPanic => None
          | TrError c1 => Some (cw_bad c1)
          | TrValid c1 v _ _ _ =>
              let '(next, c2) := choose_from c1 p (bp_valid b) in
              let c3 := finalize c2 p v in
              Some (timeout_point (set_prop c3 p (bp_none next (c_time c3))) p (bp_next b))
          | TrInvalid c1 _ | TrNoQuorum c1 _ =>
              let '(next, c2) := choose c1 p [] in
              Some (timeout_point (drop c2 p next) p (bp_next b))
          end
  end.
(** The loop runs over the pools read at its start; only the id and the interval are used. *)
Fixpoint timeouts (c : chain) (l : list (N * Z)) : option chain :=
  match l with
  | [] => Some c
  | (p, i) :: l => match timeout_pool c p i with None => None | Some c1 => timeouts c1 l end
  end.
Definition pool_intervals (c : chain) : list (N * Z) :=
  omap (fun p => (fun pl => (p, pl_interval pl)) <$> get_pool c p) (pool_ids (c_pools c)).
(** A panic stops the node: nothing of the block is kept. *)
Definition handle_upload_timeout (c : chain) : chain :=
  match timeouts c (pool_intervals c) with Some c1 => c1 | None => cw_halt c end.

(** ** Begin block: x/bundles/abci.go 17-94 SplitInflation. *)
Definition runnable_weight (c : chain) (p : N) : Z :=
  if can_run c p then match get_pool c p with Some pl => pl_weight pl | None => 0 end else 0.
Definition total_weight (c : chain) : Z := fold_left (fun a p => a + runnable_weight c p) (pool_ids (c_pools c)) 0.
(** Transfer with PanicHalt on failure; [None]: NewInt64Coin panics. *)
Definition give (c : chain) (p : N) (x : Z) : option chain :=
  if i64 x <? 0 then None
  else match send (c_bank c) MFeeCollector (PoolAcc p) (coin KYVE x) with
       | Some b => Some (cw_bank c b)
       | None => Some (cw_halt c)
       end.
Definition pool_share (w total protocol : Z) : option Z :=
  match trunc64 (dec_mul (dec_quo w total) (dec_of_int protocol)) with None => None | Some q => Some (w64 q) end.
(** Lines 58-75: returns what was distributed. *)
Fixpoint split_loop (c : chain) (total protocol distributed : Z) (l : list N) : option (chain * Z) :=
  match l with
  | [] => Some (c, distributed)
  | p :: l =>
      if can_run c p then
        match pool_share (runnable_weight c p) total protocol with
        | None => None
        | Some x =>
            match give c p x with
            | None => None
            | Some c1 => split_loop c1 total protocol (u64_add distributed x) l
            end
        end
      else split_loop c total protocol distributed l
  end.
(** Lines 80-90: the remainder goes to every pool that can NOT run ([err != nil], no break). *)
Fixpoint remainder_loop (c : chain) (x : Z) (l : list N) : option chain :=
  match l with
  | [] => Some c
  | p :: l =>
      if can_run c p then remainder_loop c x l
      else match give c p x with None => None | Some c1 => remainder_loop c1 x l end
  end.
(** Total supply of the base denom (bankKeeper.GetSupply): the sum of all balances. *)
Definition supply (b : bank) : Z := msum (fun _ m => amt m KYVE) b.
(** [provision]: minter.BlockProvision. *)
Definition split_inflation (c : chain) (provision : Z) : option chain :=
  match block_provision (t_in c) provision (supply (c_bank c)) with
  | None => None
  | Some (h, team) =>
      let c0 := if h then cw_halt c else c in
      match trunc64 (dec_mul (dec_of_int (provision - team)) (pp_share (c_pp c))) with
      | None => None
      | Some protocol =>
          if protocol =? 0 then Some c0
          else if total_weight c0 =? 0 then Some c0
          else
            match split_loop c0 (total_weight c0) protocol 0 (pool_ids (c_pools c0)) with
            | None => None
            | Some (c1, distributed) =>
                let remainder := u64_sub (w64 protocol) distributed in
                if 0 <? remainder then remainder_loop c1 remainder (pool_ids (c_pools c1)) else Some c1
            end
      end
  end.

(** getters_bundles.go 291-309 GetFinalizedBundleByIndex: the entry with the largest from index
    not above [index] (the reverse iterator with the exclusive end [index+1], which is 0 and
    hence gives nothing for the largest uint64). *)
Definition idx_below (c : chain) (p : N) (e : Z) : list (Z * N) :=
  omap (fun x : N * Z * N => if (fst (fst x) =? p)%N && (snd (fst x) <? e) then Some (snd (fst x), snd x) else None)
    (map_to_list (c_idx c)).
Definition last_entry (l : list (Z * N)) : option (Z * N) :=
  fold_left (fun acc x => match acc with Some y => if fst y <? fst x then Some x else acc | None => Some x end) l None.
Definition find_by_index (c : chain) (p : N) (index : Z) : option fbundle :=
  match last_entry (idx_below c p (u64_add index 1)) with
  | None => None
  | Some (_, id) =>
      match c_fin c !! (p, id) with
      | None => None
      | Some fb => if (fb_from fb <=? index) && (index <? fb_to fb) then Some fb else None
      end
  end.
