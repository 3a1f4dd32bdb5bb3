(** * Properties of parameter updates and of the messages of governance: C51, C59. *)
From Verif Require Import Base BaseFacts Delegation Stakers Funders Team RoundRobin Pool Bundles Chain ChainLift Global Params ParamsFrame ParamsClaims.
From Verif Require Import ChainExamples PoolExamples ParamsExamples.

(** ** C51 *)
(** Messages of governance from anyone else are rejected and change nothing. *)
Theorem C51_sender : forall c o sender, governance_only o = Some sender -> sender <> AUTHORITY -> cmsg c o = None /\ cstep c o = c.
Proof. exact claim_sender. Qed.
Theorem C51_sender_params : forall u sender y, sender <> AUTHORITY -> msg_update u sender y = None.
Proof. exact claim_sender_params. Qed.
(** Nothing but an accepted update from governance changes any parameter. *)
Theorem C51_frame : forall u o, uop_ok u o -> params_of (ustep u o) <> params_of u ->
  exists y, o = UParams AUTHORITY y /\ is_Some (msg_update u AUTHORITY y).
Proof. exact claim_frame. Qed.
(** An update changes the fields the payload names; lists element by element, by position. *)
Theorem C51_fields : forall u sender y u', msg_update u sender y = Some u' ->
  sender = AUTHORITY /\ params_after y (params_of u) (params_of u') /\ without_params u' = without_params u.
Proof. exact claim_fields. Qed.
(** Likewise for a pool. *)
Theorem C51_pool : forall c sender id a c', cmsg c (CUpdatePool sender id a) = Some c' ->
  sender = AUTHORITY /\ (exists p q, get_pool c id = Some p /\ get_pool c' id = Some q /\ pool_after a p q) /\
  (forall id', id' <> id -> get_pool c' id' = get_pool c id') /\ ps_count (c_pools c') = ps_count (c_pools c) /\
  cw_pools c' (c_pools c) = c.
Proof. exact claim_pool. Qed.
Example C51_case : uops_ok u0 history /\
  params_of (urun u0 history) =
    mkAll dp0 70 60 (mkFP [mkW KYVE 0 20 1 ONE; mkW ATOM 6 30 3 (2 * ONE)] 5) pp0 (mkBPar 600 [(2%N, 5); (3%N, ONE)] 0 2) ONE
      (mkGP (ONE / 100) [(7%N, 5); (9%N, 6)] [(8%N, ONE / 2)]) /\
  (pl_interval <$> get_pool (u_c (urun u0 history)) 0) = Some 60.
Proof. exact history_case. Qed.
Example C51_pool_case :
  ((fun c => (pl_interval <$> get_pool c 0, pl_maxsize <$> get_pool c 0)) <$> cmsg (after setup) (CUpdatePool AUTHORITY 0 longer)) = Some (Some 90, Some 100) /\
  (pl_interval <$> get_pool (after setup) 0, pl_maxsize <$> get_pool (after setup) 0) = (Some 60, Some 100) /\
  match cmsg (after setup) (CUpdatePool 4 0 longer) with None => true | Some _ => false end = true.
Proof. exact pool_case. Qed.
(** A payload that names a listed coin and none of its numbers changes them. *)
Theorem C51_coin_refuted : exists g gp ops y e e', genesis g /\ gparams_valid gp = true /\ uops_ok (mkU (gstart g) gp) ops /\ payload_ok (YFunders y) /\
  (exists l, fy_list y = Some l /\ In (mkWY (Some (w_denom e)) None None None None) l) /\
  (let u := urun (mkU (gstart g) gp) ops in
   List.filter (fun x => (w_denom x =? w_denom e)%N) (coins_of u) = [e] /\
   List.filter (fun x => (w_denom x =? w_denom e)%N) (coins_of (ustep u (UParams AUTHORITY (YFunders y)))) = [e']) /\
  w_weight e' <> w_weight e /\ w_min e' <> w_min e /\ w_decimals e' <> w_decimals e.
Proof. exact coin_refuted. Qed.

(** ** C59 *)
(** The parameters in force stay valid, except that the whitelist need not list the base denom; and
    every history with updates is a history of the chain, so that what is proved about those holds. *)
Theorem C59_valid_partial : forall ops u, valid_all (params_of u) -> small u -> uops_ok u ops ->
  valid_all (params_of (urun u ops)) /\
  exists cops, cops_ok (u_c u) cops /\ u_c (urun u ops) = crun (u_c u) cops.
Proof. exact claim_valid. Qed.
Example C59_case : valid_all (params_of u0) /\ small u0.
Proof. exact u0_valid. Qed.
Theorem C59_whitelist_refuted : exists g gp ops, genesis g /\ fparams_valid (g0_fp g) = true /\ gparams_valid gp = true /\ uops_ok (mkU (gstart g) gp) ops /\
  fparams_valid (fs_params (c_f (u_c (urun (mkU (gstart g) gp) ops)))) = false /\
  (forall e, In e (fp_list (fs_params (c_f (u_c (urun (mkU (gstart g) gp) ops))))) -> w_denom e <> KYVE).
Proof. exact whitelist_refuted. Qed.
(** The old parameters in the event of an update are not the old parameters. *)
Theorem C59_event_refuted :
  (exists p y, fparams_valid p = true /\ payload_valid (YFunders y) = true /\ fst (funders_event p y) <> p) /\
  (exists p y, bparams_valid p = true /\ payload_valid (YBundles y) = true /\ fst (bundles_event p y) <> p) /\
  (exists p y, gparams_valid p = true /\ payload_valid (YGlobal y) = true /\ fst (global_event p y) <> p).
Proof. exact event_refuted. Qed.

Print Assumptions C51_sender.
Print Assumptions C51_sender_params.
Print Assumptions C51_frame.
Print Assumptions C51_fields.
Print Assumptions C51_pool.
Print Assumptions C51_coin_refuted.
Print Assumptions C59_valid_partial.
Print Assumptions C59_whitelist_refuted.
Print Assumptions C59_event_refuted.
