(** * Parameter updates by payload. *)
From Verif Require Import Base BaseFacts Delegation F1Spec DelegationInv DelegationClaims Stakers Funders FundersInv Team RoundRobin Pool Bundles Chain
  ChainFrame ChainLift Global Params ParamsFrame.

(** ** What is promised *)
(** The sender of a message only governance may send. *)
Definition governance_only (o : cop) : option N :=
  match o with
  | CCreatePool sender _ _ | CUpdatePool sender _ _ | CEnablePool sender _ | CDisablePool sender _ | CSchedule sender _ _ _ _ _ | CCancel sender _
  | CParamsD sender _ | CParamsS sender _ _ | CParamsF sender _ | CParamsP sender _ | CParamsB sender _ | CParamsG sender _ => Some sender
  | _ => None
  end.
(** A field after an update: what the payload says, or as before. *)
Definition field {A} (named : option A) (before after : A) : Prop :=
  match named with Some v => after = v | None => after = before end.
(** A list after an update. If the payload names it, it has the length of the payload, and [R] holds
    between every element of the payload, the element that was at its position before ([None]: there
    was none) and the element that is there now. *)
Definition list_field {A P} (R : P -> option A -> A -> Prop) (named : option (list P)) (before after : list A) : Prop :=
  match named with
  | None => after = before
  | Some l => length after = length l /\ forall i y e, l !! i = Some y -> after !! i = Some e -> R y (before !! i) e
  end.
Definition entry_after (y : epay) (b : option (N * Z)) (e : N * Z) : Prop :=
  field (ey_key y) (from_option fst 0%N b) (fst e) /\ field (ey_value y) (from_option snd 0 b) (snd e).
Definition whitelist_after (y : wpay) (b : option wentry) (e : wentry) : Prop :=
  field (wy_denom y) (from_option w_denom 0%N b) (w_denom e) /\ field (wy_decimals y) (from_option w_decimals 0 b) (w_decimals e) /\
  field (wy_min y) (from_option w_min 0 b) (w_min e) /\ field (wy_minpb y) (from_option w_minpb 0 b) (w_minpb e) /\
  field (wy_weight y) (from_option w_weight 0 b) (w_weight e).
(** The parameters of the modules. *)
Record all_params := mkAll { al_d : dparams; al_ctime : Z; al_ltime : Z; al_f : fparams; al_p : pparams; al_b : bparams; al_burn : Z; al_g : gparams }.
Definition params_of (u : ustate) : all_params :=
  let c := u_c u in mkAll (ds_params (c_d c)) (ss_ctime (c_s c)) (ss_ltime (c_s c)) (fs_params (c_f c)) (c_pp c) (c_bp c) (c_burn c) (u_g u).
(** Everything of the chain but the parameters. *)
Definition without_params (u : ustate) : chain :=
  let c := u_c u in
  cw_burn (cw_bp (cw_pp (cw_f (cw_s (cw_d c (with_params (c_d c) ddefault)) (with_sparams (c_s c) 0 0)) (fwith_params (c_f c) fdefault)) pdefault) bdefault) 0.
Definition params_after (y : payload) (a b : all_params) : Prop :=
  match y with
  | YDelegation y =>
      field (dy_unbonding y) (p_unbonding (al_d a)) (p_unbonding (al_d b)) /\ field (dy_cooldown y) (p_cooldown (al_d a)) (p_cooldown (al_d b)) /\
      field (dy_maxredel y) (p_maxredel (al_d a)) (p_maxredel (al_d b)) /\ field (dy_vote y) (p_vote (al_d a)) (p_vote (al_d b)) /\
      field (dy_upload y) (p_upload (al_d a)) (p_upload (al_d b)) /\ field (dy_timeout y) (p_timeout (al_d a)) (p_timeout (al_d b)) /\
      b = mkAll (al_d b) (al_ctime a) (al_ltime a) (al_f a) (al_p a) (al_b a) (al_burn a) (al_g a)
  | YStakers y =>
      field (sy_ctime y) (al_ctime a) (al_ctime b) /\ field (sy_ltime y) (al_ltime a) (al_ltime b) /\
      b = mkAll (al_d a) (al_ctime b) (al_ltime b) (al_f a) (al_p a) (al_b a) (al_burn a) (al_g a)
  | YFunders y =>
      list_field whitelist_after (fy_list y) (fp_list (al_f a)) (fp_list (al_f b)) /\ field (fy_multiple y) (fp_multiple (al_f a)) (fp_multiple (al_f b)) /\
      b = mkAll (al_d a) (al_ctime a) (al_ltime a) (al_f b) (al_p a) (al_b a) (al_burn a) (al_g a)
  | YPool y =>
      field (py_share y) (pp_share (al_p a)) (pp_share (al_p b)) /\ field (py_rate y) (pp_rate (al_p a)) (pp_rate (al_p b)) /\
      field (py_maxvp y) (pp_maxvp (al_p a)) (pp_maxvp (al_p b)) /\
      b = mkAll (al_d a) (al_ctime a) (al_ltime a) (al_f a) (al_p b) (al_b a) (al_burn a) (al_g a)
  | YBundles y =>
      field (by_timeout y) (b_timeout (al_b a)) (b_timeout (al_b b)) /\ list_field entry_after (by_costs y) (b_costs (al_b a)) (b_costs (al_b b)) /\
      field (by_fee y) (b_fee (al_b a)) (b_fee (al_b b)) /\ field (by_maxpoints y) (b_maxpoints (al_b a)) (b_maxpoints (al_b b)) /\
      b = mkAll (al_d a) (al_ctime a) (al_ltime a) (al_f a) (al_p a) (al_b b) (al_burn a) (al_g a)
  | YGlobal y =>
      field (gy_price y) (gp_price (al_g a)) (gp_price (al_g b)) /\ field (gy_burn y) (al_burn a) (al_burn b) /\
      list_field entry_after (gy_adj y) (gp_adj (al_g a)) (gp_adj (al_g b)) /\ list_field entry_after (gy_ref y) (gp_ref (al_g a)) (gp_ref (al_g b)) /\
      b = mkAll (al_d a) (al_ctime a) (al_ltime a) (al_f a) (al_p a) (al_b a) (al_burn b) (al_g b)
  end.

(** ** Only governance *)
Lemma claim_sender c o sender : governance_only o = Some sender -> sender <> AUTHORITY -> cmsg c o = None /\ cstep c o = c.
Proof.
  intros Ho Hs. assert (E : (sender =? AUTHORITY)%N = false) by (by apply N.eqb_neq).
  assert (H : cmsg c o = None); [|split; [done|unfold cstep; by rewrite H]].
  destruct o; try done; cbn [governance_only] in Ho; injection Ho as ->; cbn [cmsg]; rewrite ?E; try done.
  - unfold chain_create_pool, msg_create_pool. rewrite E. by destruct (create_basic _).
  - unfold msg_update_pool. rewrite E. by destruct (update_basic _).
  - unfold msg_enable_pool. by rewrite E.
  - unfold chain_disable_pool, disable_record. by rewrite E.
  - unfold msg_schedule. by rewrite E.
  - unfold msg_cancel. by rewrite E.
Qed.
Lemma claim_sender_params u sender y : sender <> AUTHORITY -> msg_update u sender y = None.
Proof. intros Hs. unfold msg_update. rewrite (proj2 (N.eqb_neq _ _) Hs). cbn. by destruct (negb _). Qed.

(** ** Only what is named *)
Lemma field_default {A} (x : option A) (a : A) : field x a (default a x).
Proof. by destruct x. Qed.
Lemma merge_length {E P} (fresh : E) (upd : E -> P -> E) new : forall old, length (merge_list fresh upd old new) = length new.
Proof. induction new as [|y t IH]; intros old; cbn; [done|]. by rewrite IH. Qed.
Lemma merge_at {E P} (fresh : E) (upd : E -> P -> E) new : forall old i y e, new !! i = Some y -> merge_list fresh upd old new !! i = Some e ->
  e = upd (default fresh (old !! i)) y.
Proof.
  induction new as [|y0 t IH]; intros old i y e Hi He; [done|]. destruct i as [|i]; cbn in *.
  - injection Hi as ->. injection He as <-. by destruct old.
  - rewrite (IH _ _ _ _ Hi He). by destruct old; cbn; rewrite ?lookup_nil.
Qed.
(** Loaded, merged and stored. *)
Lemma list_after {A E P} (fresh : E) (upd : E -> P -> E) (load : A -> E) (store : E -> A) (R : P -> option A -> A -> Prop) (old : list A) new :
  (forall a, store (load a) = a) -> (forall y b, R y b (store (upd (default fresh (load <$> b)) y))) ->
  list_field R new old (map store (merge_opt fresh upd (map load old) new)).
Proof.
  intros Hl HR. destruct new as [l|]; cbn.
  - split; [by rewrite map_length, merge_length|]. intros i y e Hi He.
    apply (list_lookup_fmap_inv store) in He as (r & -> & Hr). rewrite (merge_at _ _ _ _ _ _ _ Hi Hr).
    change (map load old) with (load <$> old). rewrite list_lookup_fmap. apply HR.
  - rewrite map_map. rewrite <- (map_id old) at 2. apply map_ext. done.
Qed.
Lemma list_after_plain {A P} (fresh : A) (upd : A -> P -> A) (R : P -> option A -> A -> Prop) (old : list A) new :
  (forall y b, R y b (upd (default fresh b) y)) -> list_field R new old (merge_opt fresh upd old new).
Proof.
  intros HR. destruct new as [l|]; cbn; [|done]. split; [apply merge_length|]. intros i y e Hi He. rewrite (merge_at _ _ _ _ _ _ _ Hi He). apply HR.
Qed.
Lemma or_nil_field x b y : or_zero x = b -> field y b (or_zero (or_nil x y)).
Proof. intros <-. by destruct y. Qed.
Lemma entry_merge y b : entry_after y b (estore (emerge (default (0%N, None) (eload <$> b)) y)).
Proof. split; cbn; [|apply or_nil_field]; destruct b as [[k v]|]; cbn; try done; apply field_default. Qed.
Lemma adj_merge y b : entry_after y b (amerge (default (0%N, 0) b) y).
Proof. destruct b as [[k v]|]; split; cbn; apply field_default. Qed.
Lemma whitelist_merge y b : whitelist_after y b (wstore (wmerge (default wr_fresh (wload <$> b)) y)).
Proof. destruct b as [e|]; split_and!; cbn; try apply field_default; by apply or_nil_field. Qed.

Lemma claim_fields u sender y u' : msg_update u sender y = Some u' ->
  sender = AUTHORITY /\ params_after y (params_of u) (params_of u') /\ without_params u' = without_params u.
Proof.
  unfold msg_update. destruct (negb (payload_valid y)); [done|]. destruct (N.eqb_spec sender AUTHORITY) as [->|]; [|done]. cbn [negb]. cbv zeta.
  intros [= <-]. split; [done|].
  destruct y as [y|y|y|y|y|y]; (split; [|done]); cbn [params_after]; split_and!; try apply field_default; try done.
  - apply (list_after wr_fresh wmerge wload wstore); [by intros []|apply whitelist_merge].
  - apply (list_after (0%N, None) emerge eload estore); [by intros []|apply entry_merge].
  - apply list_after_plain, adj_merge.
  - apply (list_after (0%N, None) emerge eload estore); [by intros []|apply entry_merge].
Qed.

(** ** Valid parameters *)
(** What Validate of the modules checks, for the parameters in force. For x/funders: every coin of the
    whitelist, and that there is one; that KYVE is among them is what fails. *)
Definition valid_all (a : all_params) : Prop :=
  dparams_valid (al_d a) = true /\ u64 (al_ctime a) /\ u64 (al_ltime a) /\
  (fp_list (al_f a) <> [] /\ Forall (fun e => w_denom e <> 0%N /\ wentry_ok e) (fp_list (al_f a)) /\ u64 (fp_multiple (al_f a))) /\
  pparams_valid (al_p a) = true /\ bparams_valid (al_b a) = true /\ pct_ok (al_burn a) = true /\ gparams_valid (al_g a) = true.

(** *** Merging keeps validity. *)
Lemma merge_forall {E P} (I J : E -> Prop) (Q : P -> Prop) (fresh : E) (upd : E -> P -> E) :
  (forall e y, I e -> Q y -> J (upd e y)) -> I fresh -> forall new old, Forall Q new -> Forall I old -> Forall J (merge_list fresh upd old new).
Proof.
  intros Hs Hf new. induction new as [|y t IH]; intros old Hq Hi; cbn; [constructor|].
  inversion Hq; subst. constructor; [apply Hs; [|done]|apply IH; [done|]]; destruct old; inversion Hi; done.
Qed.
Lemma merge_named {E P} (V : E -> Prop) (Q : P -> Prop) (fresh : E) (upd : E -> P -> E) :
  (forall e y, V (upd e y) -> Q y) -> forall new old, Forall V (merge_list fresh upd old new) -> Forall Q new.
Proof.
  intros Hs new. induction new as [|y t IH]; intros old Hv; cbn in *; [constructor|]. inversion Hv; subst. constructor; eauto.
Qed.
Lemma default_ok (I : Z -> bool) x a b : I a = true -> I (default b x) = true -> I (default a x) = true.
Proof. by destruct x. Qed.
Lemma dmerge_valid p y : dparams_valid p = true -> dparams_valid (dmerge ddefault y) = true -> dparams_valid (dmerge p y) = true.
Proof.
  unfold dparams_valid. rewrite !andb_true_iff. cbn [dmerge p_vote p_upload p_timeout p_unbonding p_cooldown p_maxredel].
  intros ((((((((H1 & H2) & H3) & H4) & H5) & H6) & H7) & H8) & H9) ((((((((K1 & K2) & K3) & K4) & K5) & K6) & K7) & K8) & K9).
  destruct H7, H8, H9, K7, K8, K9. repeat split;
    (eapply (default_ok (fun v => 0 <=? v)) || eapply (default_ok (fun v => v <=? ONE)) || eapply (default_ok (fun v => v <? two64))); eassumption.
Qed.
Lemma pmerge_valid p y : pparams_valid p = true -> pparams_valid (pmerge pdefault y) = true -> pparams_valid (pmerge p y) = true.
Proof.
  unfold pparams_valid. rewrite !andb_true_iff. cbn [pmerge pp_share pp_rate pp_maxvp].
  intros ((H1 & H2) & H3) ((K1 & K2) & K3). split_and!; eapply (default_ok pct_ok); eassumption.
Qed.

Definition nn_raw (e : eraw) : Prop := 0 <= or_zero (snd e).
Definition nn_pay (y : epay) : Prop := match ey_value y with Some v => 0 <= v | None => True end.
Lemma not_negative_named x y : not_negative (or_nil x y) = true -> match y with Some v => 0 <= v | None => True end.
Proof. destruct y; cbn; [lia|done]. Qed.
Lemma entries_nn (old : list (N * Z)) new new0 : Forall (fun e => 0 <= snd e) old ->
  forallb (fun e => not_negative (snd e)) (merge_opt (0%N, None) emerge new0 new) = true -> Forall (fun e => 0 <= snd e) (map estore (merge_opt (0%N, None) emerge (map eload old) new)).
Proof.
  intros Ho Hv. apply List.Forall_map. destruct new as [l|]; cbn [merge_opt] in *.
  - apply (merge_forall nn_raw nn_raw nn_pay).
    + intros [k v] [k' v'] He Hq. unfold nn_raw, nn_pay in *. cbn in *. by destruct v'.
    + unfold nn_raw. cbn. lia.
    + eapply (merge_named (fun e => not_negative (snd e) = true)); [|apply List.Forall_forall; intros e He; revert e He; apply List.forallb_forall; exact Hv].
      intros e y. cbn. apply not_negative_named.
    + apply List.Forall_map. eapply Forall_impl; [exact Ho|]. done.
  - apply List.Forall_map. eapply Forall_impl; [exact Ho|]. done.
Qed.
Lemma forallb_Forall {A} (f : A -> bool) (P : A -> Prop) l : (forall x, f x = true <-> P x) -> forallb f l = true <-> Forall P l.
Proof. intros H. rewrite forallb_forall, List.Forall_forall. by setoid_rewrite H. Qed.
Lemma bmerge_valid p y : bparams_valid p = true -> bpay_valid y = true -> bparams_valid (bmerge p y) = true.
Proof.
  unfold bpay_valid, bparams_valid. rewrite !andb_true_iff. cbn [bmerge b_timeout b_costs b_fee b_maxpoints].
  intros (((H1 & H2) & H3) & H4) (Hr & (((K1 & K2) & K3) & K4)). split_and!.
  - by eapply (default_ok (fun v => 0 <? v)).
  - eapply (forallb_Forall _ (fun e => 0 <= snd e)); [intros; apply Z.leb_le|].
    apply (entries_nn _ _ (map eload (b_costs bdefault))); [|done].
    eapply (forallb_Forall (fun e => 0 <=? snd e)); [intros; apply Z.leb_le|done].
  - by eapply (default_ok pct_ok).
  - by eapply (default_ok (fun v => 0 <? v)).
Qed.
Lemma gmerge_valid p y : gparams_valid p = true -> gpay_valid y = true -> gparams_valid (gmerge p y) = true.
Proof.
  unfold gpay_valid, gparams_valid. rewrite !andb_true_iff. cbn [gmerge gp_price gp_adj gp_ref].
  intros ((H1 & H2) & H3) ((Hr & ((K1 & K2) & K3)) & _).
  assert (Ha : forall e : N * Z, (0 <=? snd e) && (snd e <? two63) = true <-> 0 <= snd e < two63) by (intros; lia).
  assert (Hf : forall e : N * Z, (0 <=? snd e) && (snd e <=? ONE) = true <-> 0 <= snd e <= ONE) by (intros; lia).
  apply (forallb_Forall _ _ _ Ha) in H2, K2. apply (forallb_Forall _ _ _ Hf) in H3, K3.
  split_and!; [|apply (forallb_Forall _ _ _ Ha)|apply (forallb_Forall _ _ _ Hf)].
  - by eapply (default_ok (fun v => 0 <=? v)).
  - destruct (gy_adj y) as [l|]; cbn [merge_opt] in *; [|done].
    apply (merge_forall (fun e => 0 <= snd e < two63) _ (fun y => match ey_value y with Some v => 0 <= v < two63 | None => True end)); [|cbn; unfold two63; lia| |done].
    + intros [k v] [k' [v'|]]; done.
    + eapply merge_named; [|exact K2]. intros [k v] [k' [v'|]]; done.
  - unfold gmerge_ref in *. destruct (gy_ref y) as [l|]; cbn [merge_opt] in *.
    + apply List.Forall_map. apply (merge_forall (fun e => 0 <= or_zero (snd e) <= ONE) (fun e => 0 <= or_zero (snd e) <= ONE) (fun y => match ey_value y with Some v => 0 <= v <= ONE | None => True end)).
      * intros [k v] [k' [v'|]]; done.
      * cbn. unfold ONE. lia.
      * apply List.Forall_map in K3. eapply merge_named; [|exact K3]. intros [k v] [k' [v'|]]; done.
      * by apply List.Forall_map.
    + apply List.Forall_map, List.Forall_map. done.
Qed.

Definition wentry_valid (e : wentry) : Prop := w_denom e <> 0%N /\ wentry_ok e.
Definition wpay_ok (y : wpay) : Prop :=
  opt_u64 (wy_decimals y) /\ match wy_min y with Some v => 0 <= v | None => True end /\ match wy_minpb y with Some v => 0 <= v | None => True end /\
  match wy_weight y with Some v => 0 <= v | None => True end /\ wy_denom y <> Some 0%N.
Definition wr_ok (e : wraw) : Prop := 0 <= wr_decimals e /\ 0 <= or_zero (wr_min e) /\ 0 <= or_zero (wr_minpb e) /\ 0 <= or_zero (wr_weight e).
Lemma wmerge_ok e y : wr_ok e -> wpay_ok y -> wr_ok (wmerge e y).
Proof.
  unfold wr_ok, wpay_ok, opt_u64, u64. destruct e as [d c x1 x2 x3], y as [d' c' y1 y2 y3]. cbn.
  intros (? & ? & ? & ?) (? & ? & ? & ? & ?). split_and!; [destruct c'|destruct y1|destruct y2|destruct y3]; cbn; try done; lia.
Qed.
Lemma wraw_named e y : wraw_valid (wmerge e y) = true -> opt_u64 (wy_decimals y) -> wpay_ok y.
Proof.
  unfold wraw_valid, wpay_ok. rewrite !andb_true_iff. cbn [wmerge wr_denom wr_min wr_minpb wr_weight]. intros (((Hd & H1) & H2) & H3) Hu.
  split_and!; [done|by eapply not_negative_named..|]. destruct (wy_denom y) as [d|]; [|done]. cbn in Hd. intros [= ->]. done.
Qed.
Lemma fmerge_valid p y : payload_ok (YFunders y) -> fraw_valid (fmerge_raw fdefault y) = true ->
  fp_list p <> [] /\ Forall wentry_valid (fp_list p) /\ u64 (fp_multiple p) ->
  fp_list (fmerge p y) <> [] /\ Forall wentry_valid (fp_list (fmerge p y)) /\ u64 (fp_multiple (fmerge p y)).
Proof.
  intros [Hm Hl] Hv (H1 & H2 & H3). cbn [fmerge fp_list fp_multiple].
  split_and!; [| |destruct (fy_multiple y); done].
  - unfold fmerge_raw in *. destruct (fy_list y) as [[|y0 t]|]; cbn [merge_opt] in *; [done|done|]. by destruct (fp_list p).
  - unfold fraw_valid in Hv. apply andb_true_iff in Hv as [Hv _]. unfold fmerge_raw in *.
    destruct (fy_list y) as [l|]; cbn [merge_opt] in *.
    2: { apply List.Forall_map, List.Forall_map. eapply Forall_impl; [exact H2|]. by intros []. }
    specialize (Hl _ eq_refl). apply List.Forall_map.
    assert (Hall : Forall (fun e => wr_denom e <> 0%N /\ wr_ok e) (merge_list wr_fresh wmerge (map wload (fp_list p)) l)); [|exact Hall].
    destruct (fp_list p) as [|e0 r]; [done|]. destruct l as [|y0 t]; [constructor|].
    cbn [fdefault fp_list map merge_list forallb] in *. apply andb_true_iff in Hv as [Hv0 Hv].
    inversion H2 as [|? ? [Hd He] Hr]; subst. inversion Hl as [|? ? Hu Ht]; subst.
    constructor.
    + split; [|apply wmerge_ok; [done|by eapply wraw_named]].
      apply wraw_named in Hv0; [|done]. destruct Hv0 as (_ & _ & _ & _ & Hn). cbn. destruct (wy_denom y0) as [d|]; [|done]. cbn. congruence.
    + clear -Hr Hv Ht. apply (merge_forall wr_ok _ (fun y => wpay_ok y /\ exists d, wy_denom y = Some d)).
      * intros e y He [Hy [d Hd]]. split; [|by apply wmerge_ok]. cbn. rewrite Hd. cbn. destruct Hy as (_ & _ & _ & _ & Hn). congruence.
      * split_and!; cbn; lia.
      * revert Hv Ht. clear. induction t as [|y t IH]; intros Hv Ht; [constructor|]. cbn [merge_list forallb] in Hv.
        apply andb_true_iff in Hv as [Hv0 Hv]. inversion Ht; subst. constructor; [|by apply IH].
        pose proof (wraw_named _ _ Hv0) as Hw. specialize (Hw ltac:(done)). split; [done|].
        unfold wraw_valid in Hv0. rewrite !andb_true_iff in Hv0. destruct Hv0 as (((Hd & _) & _) & _). cbn in Hd.
        destruct (wy_denom y) as [d|]; [by exists d|done].
      * apply List.Forall_map. eapply Forall_impl; [exact Hr|]. intros e [_ He]. exact He.
Qed.

(** ** Runs with payloads are runs of the chain *)
Lemma params_of_frame c gp o : updates_params o = false -> params_of (mkU (cstep c o) gp) = params_of (mkU c gp).
Proof.
  intros Ho. pose proof (params_frame c o Ho) as H. unfold cpar in H. injection H as H1 H2 H3 H4 H5 H6 H7.
  unfold params_of. cbn [u_c u_g]. by rewrite H1, H2, H3, H4, H5, H6, H7.
Qed.
Lemma chain_op_plain u o : uop_ok u (UChain o) -> updates_params o = false /\ cop_ok (u_c u) o.
Proof. destruct o; done. Qed.
(** Only an update by governance changes a parameter. *)
Lemma claim_frame u o : uop_ok u o -> params_of (ustep u o) <> params_of u ->
  exists y, o = UParams AUTHORITY y /\ is_Some (msg_update u AUTHORITY y).
Proof.
  intros Hok Hne. destruct u as [c gp], o as [o|sender y]; cbn [ustep u_c u_g] in *.
  - apply chain_op_plain in Hok as [Ho _]. exfalso. apply Hne. by apply params_of_frame.
  - destruct (msg_update (mkU c gp) sender y) as [u'|] eqn:E; [|done].
    destruct (claim_fields _ _ _ _ E) as [-> _]. exists y. split; [done|]. rewrite E. by eexists.
Qed.

(** The operation of the chain that an update amounts to. *)
Definition cop_of (c : chain) (sender : N) (y : payload) : cop :=
  match y with
  | YDelegation y => CParamsD sender (dmerge (ds_params (c_d c)) y)
  | YStakers y => CParamsS sender (default (ss_ctime (c_s c)) (sy_ctime y)) (default (ss_ltime (c_s c)) (sy_ltime y))
  | YFunders y => CParamsF sender (fmerge (fs_params (c_f c)) y)
  | YPool y => CParamsP sender (pmerge (c_pp c) y)
  | YBundles y => CParamsB sender (bmerge (c_bp c) y)
  | YGlobal y => CParamsG sender (burn_merge (c_burn c) y)
  end.
(** The bounds on x/bundles that the histories of the chain are about. *)
Definition small (u : ustate) : Prop := b_timeout (c_bp (u_c u)) < two62 /\ b_maxpoints (c_bp (u_c u)) < two64.
Lemma update_step u sender y u' : valid_all (params_of u) -> small u -> payload_ok y -> msg_update u sender y = Some u' ->
  cop_ok (u_c u) (cop_of (u_c u) sender y) /\ u_c u' = cstep (u_c u) (cop_of (u_c u) sender y) /\ valid_all (params_of u') /\ small u'.
Proof.
  destruct u as [c gp]. intros (V1 & V2 & V3 & V4 & V5 & V6 & V7 & V8) [S1 S2] Hy. unfold msg_update. cbn [u_c u_g].
  destruct (payload_valid y) eqn:Ev; [|done]. destruct (N.eqb_spec sender AUTHORITY) as [->|]; [|done]. cbn [negb]. cbv zeta.
  intros [= <-]. cbn [params_of al_d al_ctime al_ltime al_f al_p al_b al_burn al_g u_c u_g] in *.
  destruct y as [y|y|y|y|y|y]; cbn [payload_valid cop_of cop_ok] in *.
  - pose proof (dmerge_valid _ _ V1 Ev). done.
  - destruct Hy as [Hy1 Hy2]. assert (u64 (default (ss_ctime (c_s c)) (sy_ctime y))) by (by destruct (sy_ctime y)).
    assert (u64 (default (ss_ltime (c_s c)) (sy_ltime y))) by (by destruct (sy_ltime y)). done.
  - pose proof (fmerge_valid _ _ Hy Ev V4) as (F1 & F2 & F3). split_and!; try done.
    split; [|done]. eapply Forall_impl; [exact F2|]. by intros e [_ ?].
  - pose proof (pmerge_valid _ _ V5 Ev). done.
  - pose proof (bmerge_valid _ _ V6 Ev) as Hb. destruct Hy as [Hy1 Hy2].
    assert (b_timeout (bmerge (c_bp c) y) < two62) by (cbn; by destruct (by_timeout y)).
    assert (b_maxpoints (bmerge (c_bp c) y) < two64) by (cbn; destruct (by_maxpoints y); cbn in *; unfold u64 in *; lia). done.
  - pose proof (gmerge_valid _ _ V8 Ev) as Hb.
    assert (pct_ok (burn_merge (c_burn c) y) = true).
    { unfold gpay_valid in Ev. rewrite !andb_true_iff in Ev. destruct Ev as [_ Ev]. unfold burn_merge in *. by destruct (gy_burn y). }
    done.
Qed.
Lemma claim_valid ops : forall u, valid_all (params_of u) -> small u -> uops_ok u ops ->
  valid_all (params_of (urun u ops)) /\
  exists cops, cops_ok (u_c u) cops /\ u_c (urun u ops) = crun (u_c u) cops.
Proof.
  induction ops as [|o t IH]; intros u Hv Hs; [intros _; split; [done|by exists []]|]. intros [Ho Ht]. cbn [urun].
  destruct o as [o|sender y].
  - apply chain_op_plain in Ho as [Ho Hc]. destruct u as [c gp]. cbn [ustep u_c u_g] in *.
    pose proof (params_of_frame c gp o Ho) as E. destruct (IH (mkU (cstep c o) gp)) as [H1 (cops & H2 & H3)].
    + by rewrite E.
    + unfold params_of in E. injection E as _ _ _ _ _ E _. unfold small. cbn [u_c]. by rewrite E.
    + done.
    + split; [done|]. exists (o :: cops). cbn [cops_ok crun]. auto.
  - cbn [ustep uop_ok] in *. destruct (msg_update u sender y) as [u'|] eqn:E; [|exact (IH u Hv Hs Ht)].
    change (default u (Some u')) with u' in *. destruct (update_step _ _ _ _ Hv Hs Ho E) as (H1 & H2 & H3 & H4).
    destruct (IH u' H3 H4 Ht) as [H5 (cops & H6 & H7)]. split; [done|]. rewrite H2 in H6, H7.
    exists (cop_of (u_c u) sender y :: cops). cbn [cops_ok crun]. auto.
Qed.

(** ** Pools *)
(** MsgUpdatePool: the named fields of the pool, and nothing else. *)
Definition pool_after (a : update_args) (p q : pool) : Prop :=
  field (ua_runtime a) (pl_runtime p) (pl_runtime q) /\ field (ua_endkey a) (pl_endkey p) (pl_endkey q) /\
  field (ua_interval a) (pl_interval p) (pl_interval q) /\ field (ua_weight a) (pl_weight p) (pl_weight q) /\
  field (ua_mindel a) (pl_mindel p) (pl_mindel q) /\ field (ua_maxsize a) (pl_maxsize p) (pl_maxsize q) /\
  field (ua_sp a) (pl_sp p) (pl_sp q) /\ field (ua_comp a) (pl_comp p) (pl_comp q) /\
  pl_disabled q = pl_disabled p /\ pl_version q = pl_version p /\ pl_binaries q = pl_binaries p /\ pl_last q = pl_last p /\ pl_plan q = pl_plan p /\
  pl_index q = pl_index p /\ pl_total q = pl_total p /\ pl_key q = pl_key p /\ pl_summary q = pl_summary p.
Lemma claim_pool c sender id a c' : cmsg c (CUpdatePool sender id a) = Some c' ->
  sender = AUTHORITY /\ (exists p q, get_pool c id = Some p /\ get_pool c' id = Some q /\ pool_after a p q) /\
  (forall id', id' <> id -> get_pool c' id' = get_pool c id') /\ ps_count (c_pools c') = ps_count (c_pools c) /\
  cw_pools c' (c_pools c) = c.
Proof.
  cbn [cmsg]. unfold msg_update_pool. destruct (negb (update_basic a)); [done|]. destruct (N.eqb_spec sender AUTHORITY) as [->|]; [|done]. cbn [negb].
  destruct (ps_pools (c_pools c) !! id) as [p|] eqn:Ep; [|done]. intros [= <-]. split; [done|]. split_and!.
  - exists p, (apply_update p a). split; [done|]. split; [unfold get_pool; cbn; by rewrite lookup_insert|].
    unfold pool_after. cbn. split_and!; try apply field_default; done.
  - intros id' Hne. unfold get_pool. cbn. by rewrite lookup_insert_ne.
  - done.
  - by destruct c.
Qed.
