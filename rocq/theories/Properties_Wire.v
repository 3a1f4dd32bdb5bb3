(** * Messages as they arrive, and the profiles: the properties C70 and C71 (statements; the
    proofs are in the Wire* files).

    [rinit (gstart g) gp] is a chain that starts at the genesis [g] with the global parameters
    [gp] and without profiles, [rrun gr r ops] what it becomes by [ops]: messages, blocks and what
    other modules do to the bank. [gr] says which strings are addresses and denoms and how strings
    are ordered. [deliver gr r m] is what [m] does, [None] if it is rejected.
    [wellformed gr m] says per message what must hold of it, [named m] lists the addresses in it
    (WireClaims). *)
From Verif Require Import Base BaseFacts Delegation Stakers Funders Team RoundRobin Pool Bundles Chain ChainLift Global Params ParamsClaims
  IndexInv FundingsFrame Wire WireFrame WireClaims ChainExamples PoolExamples ParamsExamples WireExamples.

(** The checks before a module sees a message pass exactly the well-formed ones: the sender and
    the other addresses that are checked are addresses, shares lie between zero and one, coins are
    positive, known to be denoms and in increasing order, and profiles are within their limits. *)
Theorem C70_checks : forall gr m, validate gr m = true <-> wellformed gr m.
Proof. exact claim_validate. Qed.
(** A message that is not well-formed changes nothing. *)
Theorem C70_rejected : forall gr r m, ~ wellformed gr m -> deliver gr r m = None /\ rstep gr r (RMsg m) = r.
Proof. exact claim_rejected. Qed.
(** Every history of raw messages is a history of the chain of Chain.v whose operations satisfy
    [cops_ok], so that what is proved about all such histories holds. Remaining assumptions
    ([rops_ok]): what is recorded as delegated and the power of stakers stay below 2^63, a pool
    has less than 2^64 items, governance sets no upload interval and no timeout of 2^62 seconds. *)
Theorem C70_history_partial : forall gr g, genesis g -> forall gp, valid_all (params_of (mkU (gstart g) gp)) ->
  forall ops, rops_ok gr (rinit (gstart g) gp) ops ->
  exists cops, cops_ok (gstart g) cops /\ r_c (rrun gr (rinit (gstart g) gp) ops) = crun (gstart g) cops.
Proof. exact claim_history. Qed.
(** Everything stored under an address is stored under one that can be paid: stakers and the
    addresses of their nodes, delegators and whom they delegate to, who waits for the end of an
    unbonding, funders and fundings. *)
Theorem C70_addresses_partial : forall gr g, genesis g -> forall gp, valid_all (params_of (mkU (gstart g) gp)) ->
  forall ops, rops_ok gr (rinit (gstart g) gp) ops ->
  let c := r_c (rrun gr (rinit (gstart g) gp) ops) in
  (forall s, staker_exists c s = true -> gr_addr gr s = true) /\
  (forall p s v, get_val (c_s c) p s = Some v -> gr_addr gr s = true /\ gr_addr gr (vl_addr v) = true) /\
  (forall s d, is_Some (f_delegators (getf (c_d c) s) !! d) -> gr_addr gr d = true /\ gr_addr gr s = true) /\
  (forall i e, ds_queue (c_d c) !! i = Some e -> gr_addr gr (u_delegator e) = true) /\
  (forall a, a ∈ fs_funders (c_f c) -> gr_addr gr a = true) /\
  (forall a p, is_Some (fs_fundings (c_f c) !! (a, p)) -> gr_addr gr a = true).
Proof. exact claim_addresses. Qed.
(** A message that is accepted names only addresses, also where nothing is checked in advance
    (both stakers of a redelegation, the staker in the messages of nodes, who gets the money of
    the team). *)
Theorem C70_named_partial : forall gr g, genesis g -> forall gp, valid_all (params_of (mkU (gstart g) gp)) ->
  forall ops m r', rops_ok gr (rinit (gstart g) gp) ops ->
  deliver gr (rrun gr (rinit (gstart g) gp) ops) m = Some r' ->
  forall a, a ∈ named m -> gr_addr gr a = true.
Proof. exact claim_named. Qed.

(** Exactly the stakers and the funders have a profile; the profiles of stakers are within their
    limits, the name of a funder is not empty. *)
Theorem C71_whose : forall gr g gp ops,
  let r := rrun gr (rinit (gstart g) gp) ops in
  (forall s, is_Some (r_stakers r !! s) <-> staker_exists (r_c r) s = true) /\
  (forall a, is_Some (r_funders r !! a) <-> a ∈ fs_funders (c_f (r_c r))) /\
  (forall s x, r_stakers r !! s = Some x -> sprofile_wf x) /\
  (forall a x, r_funders r !! a = Some x -> fp_moniker x <> []).
Proof. exact claim_profile_of. Qed.
(** After any history the profile is the one in the last accepted message of its owner that sets
    it; that of a staker is empty until then. *)
Theorem C71_last : forall gr g gp ops,
  let r := rrun gr (rinit (gstart g) gp) ops in
  (forall s x, r_stakers r !! s = Some x <-> last_set gr sets_staker (rinit (gstart g) gp) ops s x) /\
  (forall a x, r_funders r !! a = Some x <-> last_set gr sets_funder (rinit (gstart g) gp) ops a x).
Proof. exact claim_profiles. Qed.
(** When the messages that change a profile are accepted, and that they change nothing else. *)
Theorem C71_metadata : forall gr r s x r', deliver gr r (RMetadata s x) = Some r' <->
  gr_addr gr s = true /\ sprofile_wf x /\ staker_exists (r_c r) s = true /\ r' = mkR (r_u r) (<[s := x]> (r_stakers r)) (r_funders r).
Proof. exact claim_metadata. Qed.
Theorem C71_update_funder : forall gr r a x r', deliver gr r (RUpdateFunder a x) = Some r' <->
  gr_addr gr a = true /\ fp_moniker x <> [] /\ a ∈ fs_funders (c_f (r_c r)) /\ r' = mkR (r_u r) (r_stakers r) (<[a := x]> (r_funders r)).
Proof. exact claim_update_funder. Qed.
(** The limits do not hold for funders: any length, and the identity may be anything. *)
Theorem C71_funder_limits_refuted : exists gr g gp ops a x,
  genesis g /\ valid_all (params_of (mkU (gstart g) gp)) /\ rops_ok gr (rinit (gstart g) gp) ops /\
  r_funders (rrun gr (rinit (gstart g) gp) ops) !! a = Some x /\ ((255 < length (fp_moniker x))%nat /\ ~ identity_wf (fp_identity x)).
Proof. exact funder_limits_refuted. Qed.
(** Neither the name nor the identity tells stakers apart. *)
Theorem C71_identity_refuted : exists gr g gp ops s t x,
  genesis g /\ valid_all (params_of (mkU (gstart g) gp)) /\ rops_ok gr (rinit (gstart g) gp) ops /\ s <> t /\ sp_identity x <> [] /\
  r_stakers (rrun gr (rinit (gstart g) gp) ops) !! s = Some x /\ r_stakers (rrun gr (rinit (gstart g) gp) ops) !! t = Some x.
Proof. exact identity_refuted. Qed.

(** ** Concrete cases *)
(** A history with ten rejected messages among twenty-six, and what the chain holds after it. *)
Example C70_case : genesis gen0 /\ valid_all (params_of (mkU (gstart gen0) gp0)) /\ rops_ok gr0 (rinit (gstart gen0) gp0) raw1.
Proof. exact (conj gen0_genesis (conj (proj1 u0_valid) raw1_ok)). Qed.
Example C70_case_end :
  map (fun s => staker_exists (r_c end1) s) [1; 2; 3; 4; 666]%N = [true; true; true; false; false] /\
  map (fun s => r_stakers end1 !! s) [1; 2; 3; 4]%N = [Some prof1; Some prof2; Some no_profile; None] /\
  r_funders end1 !! 4%N = Some fund1 /\ bp_next (get_prop (r_c end1) 0) = 1%N /\
  map (fun s => delegation_of (c_d (r_c end1)) s 5) [1; 2]%N = [4900; 100] /\
  (st_commission <$> ss_stakers (c_s (r_c end1)) !! 2%N) = Some DEFAULT_COMMISSION /\
  ss_ctime (c_s (r_c end1)) = 70.
Proof. exact raw1_end. Qed.
Example C70_named_case : exists r', deliver gr0 end1 (RRedelegate 5 2 3 50) = Some r'.
Proof. exact raw1_redelegate. Qed.
Example C70_rejected_case : ~ wellformed gr0 (RFund 4 0 [(5%N, Some 7); (1%N, Some 7)] []).
Proof. exact raw1_rejected. Qed.
Example C70_C71_next_case :
  map (accepted end1)
    [ RRedelegate 5 2 3 50; RDefund 4 0 [(KYVE, Some 10)]; RMetadata 3 prof1; RUpdateFunder 4 fund1; RUndelegate 5 2 50; RLeave 1 0;
      RRedelegate 5 666 3 50; RSkip 11 666 0 0; RMetadata 4 prof1; RMetadata 3 bad_key; RUpdateFunder 1 fund1; RUndelegate 666 2 50 ] =
    [true; true; true; true; true; true; false; false; false; false; false; false].
Proof. exact raw1_next. Qed.

Print Assumptions C70_checks.
Print Assumptions C70_rejected.
Print Assumptions C70_history_partial.
Print Assumptions C70_addresses_partial.
Print Assumptions C70_named_partial.
Print Assumptions C71_whose.
Print Assumptions C71_last.
Print Assumptions C71_metadata.
Print Assumptions C71_update_funder.
Print Assumptions C71_funder_limits_refuted.
Print Assumptions C71_identity_refuted.
