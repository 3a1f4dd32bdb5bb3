(** * Parameter updates: concrete cases and counterexamples. *)
From Verif Require Import Base BaseFacts Delegation Stakers Funders Team RoundRobin Pool Bundles Chain ChainFrame ChainLift Global Params ParamsFrame ParamsClaims
  ChainExamples PoolExamples.

Definition gp0 : gparams := mkGP (ONE / 100) [(7%N, 1000)] [(8%N, ONE / 2)].
Definition u0 : ustate := mkU (gstart gen0) gp0.
Definition ATOM : N := 5.

Definition opt_u64b (x : option Z) : bool := match x with None => true | Some v => u64b v end.
Definition list_ok {A} (f : A -> bool) (x : option (list A)) : bool := match x with None => true | Some l => forallb f l end.
Definition payload_okb (y : payload) : bool :=
  match y with
  | YDelegation y => opt_u64b (dy_unbonding y) && opt_u64b (dy_cooldown y) && opt_u64b (dy_maxredel y)
  | YStakers y => opt_u64b (sy_ctime y) && opt_u64b (sy_ltime y)
  | YFunders y => opt_u64b (fy_multiple y) && list_ok (fun e => opt_u64b (wy_decimals e)) (fy_list y)
  | YPool _ => true
  | YBundles y => match by_timeout y with Some t => t <? two62 | None => true end && opt_u64b (by_maxpoints y)
  | YGlobal y => list_ok (fun e => opt_u64b (ey_value e)) (gy_adj y)
  end.
Lemma opt_u64b_ok x : opt_u64b x = true -> opt_u64 x.
Proof. destruct x; [apply u64b_ok|done]. Qed.
Lemma list_okb {A} (f : A -> bool) (P : A -> Prop) x : (forall a, f a = true -> P a) -> list_ok f x = true -> forall l, x = Some l -> Forall P l.
Proof. intros H Hx l ->. cbn in Hx. rewrite forallb_forall in Hx. apply List.Forall_forall. auto. Qed.
Lemma payload_okb_ok y : payload_okb y = true -> payload_ok y.
Proof.
  destruct y as [y|y|y|y|y|y]; cbn [payload_okb payload_ok]; rewrite ?andb_true_iff.
  - intros [[? ?] ?]. split_and!; by apply opt_u64b_ok.
  - intros [? ?]. split; by apply opt_u64b_ok.
  - intros [? H]. split; [by apply opt_u64b_ok|]. revert H. apply list_okb. intros. by apply opt_u64b_ok.
  - done.
  - intros [H ?]. split; [destruct (by_timeout y); [lia|done]|by apply opt_u64b_ok].
  - apply list_okb. intros. by apply opt_u64b_ok.
Qed.
Definition uop_okb (u : ustate) (o : uop) : bool :=
  match o with UChain o => negb (updates_params o) && cop_okb (u_c u) o | UParams _ y => payload_okb y end.
Fixpoint uops_okb (u : ustate) (ops : list uop) : bool :=
  match ops with [] => true | o :: t => uop_okb u o && uops_okb (ustep u o) t end.
Lemma uops_okb_ok : forall ops u, uops_okb u ops = true -> uops_ok u ops.
Proof.
  induction ops as [|o t IH]; intros u; cbn [uops_okb uops_ok]; [done|]. rewrite andb_true_iff. intros [H1 H2]. split; [|by apply IH].
  destruct o as [o|s y]; cbn [uop_okb uop_ok] in *; [|by apply payload_okb_ok].
  apply andb_true_iff in H1 as [H0 H1]. apply cop_okb_ok in H1. destruct o; done.
Qed.

Lemma u0_valid : valid_all (params_of u0) /\ small u0.
Proof.
  split; [|split; by vm_compute]. split_and!; try (by vm_compute); try (apply u64b_ok; by vm_compute).
  constructor; [|constructor]. split; [done|]. repeat split; cbn; unfold ONE; lia.
Qed.

(** ** C51, C59: a history with updates in several modules *)
Definition two_coins : payload :=
  YFunders (mkFY (Some [mkWY None None (Some 20) None None; mkWY (Some ATOM) (Some 6) (Some 30) (Some 3) (Some (2 * ONE))]) None).
Definition history : list uop :=
  [ UChain (CBegin 10 0); UChain (CCreatePool AUTHORITY true ca0);
    UParams AUTHORITY two_coins;
    UParams 3 (YStakers (mkSY (Some 1) None));
    UParams AUTHORITY (YStakers (mkSY (Some 70) None));
    UParams AUTHORITY (YDelegation (mkDY None None None (Some (2 * ONE)) None None));
    UParams AUTHORITY (YBundles (mkBY None (Some [mkEY (Some 2%N) None; mkEY (Some 3%N) (Some ONE)]) (Some 0) None));
    UParams AUTHORITY (YBundles (mkBY None (Some [mkEY (Some 2%N) (Some 5); mkEY (Some 3%N) (Some ONE)]) (Some 0) None));
    UParams AUTHORITY (YGlobal (mkGY None (Some ONE) (Some [mkEY (Some 7%N) (Some 5); mkEY (Some 9%N) (Some 6)]) None));
    UChain CEnd ].
(** The update from the wrong sender, the slash above one and the cost that is not given are rejected. *)
Lemma history_case : uops_ok u0 history /\
  params_of (urun u0 history) =
    mkAll dp0 70 60 (mkFP [mkW KYVE 0 20 1 ONE; mkW ATOM 6 30 3 (2 * ONE)] 5) pp0 (mkBPar 600 [(2%N, 5); (3%N, ONE)] 0 2) ONE
      (mkGP (ONE / 100) [(7%N, 5); (9%N, 6)] [(8%N, ONE / 2)]) /\
  (pl_interval <$> get_pool (u_c (urun u0 history)) 0) = Some 60.
Proof. split; [apply uops_okb_ok; vm_compute; reflexivity|]. split; vm_compute; reflexivity. Qed.

(** ** Refutations *)
(** Three accepted updates, after which the whitelist no longer lists the base denom. *)
Definition lose_base : list uop :=
  [ UParams AUTHORITY (YFunders (mkFY (Some [mkWY (Some ATOM) (Some 6) (Some 10) (Some 1) (Some ONE); mkWY (Some KYVE) (Some 6) (Some 10) (Some 1) (Some ONE)]) None));
    UParams AUTHORITY (YFunders (mkFY (Some [mkWY None (Some 6) None None None]) None)) ].
Lemma whitelist_refuted : exists g gp ops, genesis g /\ fparams_valid (g0_fp g) = true /\ gparams_valid gp = true /\ uops_ok (mkU (gstart g) gp) ops /\
  fparams_valid (fs_params (c_f (u_c (urun (mkU (gstart g) gp) ops)))) = false /\
  (forall e, In e (fp_list (fs_params (c_f (u_c (urun (mkU (gstart g) gp) ops))))) -> w_denom e <> KYVE).
Proof.
  exists gen0, gp0, lose_base. split; [exact gen0_genesis|]. split; [by vm_compute|]. split; [by vm_compute|].
  split; [apply uops_okb_ok; by vm_compute|]. split; [by vm_compute|].
  assert (E : fp_list (fs_params (c_f (u_c (urun (mkU (gstart gen0) gp0) lose_base)))) = [mkW ATOM 6 10 1 ONE]) by (by vm_compute).
  rewrite E. intros e [<-|[]]. done.
Qed.
(** The payload names a coin that is listed and none of its numbers, and yet they change. *)
Definition coins_of (u : ustate) : list wentry := fp_list (fs_params (c_f (u_c u))).
Definition swap : fpay :=
  mkFY (Some [mkWY (Some ATOM) None None None None; mkWY (Some KYVE) (Some 0) (Some 20) (Some 1) (Some ONE)]) None.
Lemma coin_refuted : exists g gp ops y e e', genesis g /\ gparams_valid gp = true /\ uops_ok (mkU (gstart g) gp) ops /\ payload_ok (YFunders y) /\
  (exists l, fy_list y = Some l /\ In (mkWY (Some (w_denom e)) None None None None) l) /\
  (let u := urun (mkU (gstart g) gp) ops in
   List.filter (fun x => (w_denom x =? w_denom e)%N) (coins_of u) = [e] /\
   List.filter (fun x => (w_denom x =? w_denom e)%N) (coins_of (ustep u (UParams AUTHORITY (YFunders y)))) = [e']) /\
  w_weight e' <> w_weight e /\ w_min e' <> w_min e /\ w_decimals e' <> w_decimals e.
Proof.
  exists gen0, gp0, [UParams AUTHORITY two_coins], swap, (mkW ATOM 6 30 3 (2 * ONE)), (mkW ATOM 0 20 1 ONE).
  split; [exact gen0_genesis|]. split; [by vm_compute|]. split; [apply uops_okb_ok; by vm_compute|]. split; [apply payload_okb_ok; by vm_compute|].
  split; [eexists; split; [reflexivity|by left]|]. split; [split; vm_compute; reflexivity|]. done.
Qed.
(** The event does not report the parameters before the update. *)
Lemma event_refuted :
  (exists p y, fparams_valid p = true /\ payload_valid (YFunders y) = true /\ fst (funders_event p y) <> p) /\
  (exists p y, bparams_valid p = true /\ payload_valid (YBundles y) = true /\ fst (bundles_event p y) <> p) /\
  (exists p y, gparams_valid p = true /\ payload_valid (YGlobal y) = true /\ fst (global_event p y) <> p).
Proof.
  split_and!.
  - exists fp0, (mkFY (Some [mkWY None None (Some 20) None None]) None). split; [by vm_compute|]. split; [by vm_compute|]. by vm_compute.
  - exists bp0, (mkBY None (Some [mkEY (Some 2%N) (Some 5)]) None None). split; [by vm_compute|]. split; [by vm_compute|]. by vm_compute.
  - exists gp0, (mkGY None None (Some [mkEY (Some 7%N) (Some 5)]) None). split; [by vm_compute|]. split; [by vm_compute|]. by vm_compute.
Qed.
(** A pool is updated: one field named; and from another sender. *)
Definition longer : update_args := mkUA None None (Some 90) None None None None None.
Lemma pool_case :
  ((fun c => (pl_interval <$> get_pool c 0, pl_maxsize <$> get_pool c 0)) <$> cmsg (after setup) (CUpdatePool AUTHORITY 0 longer)) = Some (Some 90, Some 100) /\
  (pl_interval <$> get_pool (after setup) 0, pl_maxsize <$> get_pool (after setup) 0) = (Some 60, Some 100) /\
  match cmsg (after setup) (CUpdatePool 4 0 longer) with None => true | Some _ => false end = true.
Proof. split; [vm_compute; reflexivity|]. split; vm_compute; reflexivity. Qed.
