(** * The upgrade to version 1.5.0: what it keeps (proofs for C67). *)
From Verif Require Import Base BaseFacts FundersClaims Delegation Stakers Funders Team RoundRobin Pool Bundles Chain ChainFrame ChainLift Migrate.

(** ** What the records say *)
(** Coins that are [x] of the base denom and nothing else. *)
Definition just_kyve (c : coins) (x : Z) : Prop := cpos c /\ amt c KYVE = x /\ forall d, d <> KYVE -> amt c d = 0.
(** Two stores with the same keys and related records. *)
Definition same_keys {K} `{Countable K} {A B} (R : A -> B -> Prop) (m : gmap K A) (m' : gmap K B) : Prop :=
  forall k, match m !! k, m' !! k with Some x, Some y => R x y | None, None => True | _, _ => False end.
Definition funding_as (x : ofunding) (y : funding) : Prop :=
  just_kyve (fd_amounts y) (of_amount x) /\ just_kyve (fd_apb y) (of_apb x) /\ just_kyve (fd_total y) (of_total x).
Definition data_as (x : oddata) (y : ddata) : Prop :=
  just_kyve (dd_rewards y) (od_rewards x) /\ dd_total y = od_total x /\ dd_latest y = od_latest x /\ dd_count y = od_count x /\ dd_undel y = od_undel x.
Definition f1_as (x : of1) (y : f1) : Prop :=
  match o1_data x, f_data y with Some d, Some d' => data_as d d' | None, None => True | _, _ => False end /\
  same_keys (fun v c => just_kyve c v) (o1_entries x) (f_entries y) /\
  f_slashes y = o1_slashes x /\ f_delegators y = o1_delegators x /\ f_halt y = o1_halt x.
Definition staker_as (x : ostaker) (y : staker) : Prop := st_commission y = os_commission x /\ just_kyve (st_rewards y) (os_rewards x).
(** Everything but the weight and the plan. *)
Definition pool_as (x : opool) (y : pool) : Prop :=
  pl_runtime y = op_runtime x /\ pl_endkey y = op_endkey x /\ pl_interval y = op_interval x /\ pl_mindel y = op_mindel x /\
  pl_maxsize y = op_maxsize x /\ pl_disabled y = op_disabled x /\ pl_version y = op_version x /\ pl_binaries y = op_binaries x /\
  pl_last y = op_last x /\ pl_sp y = op_sp x /\ pl_comp y = op_comp x /\ pl_index y = op_index x /\ pl_total y = op_total x /\
  pl_key y = op_key x /\ pl_summary y = op_summary x.

(** Every uint64 that becomes a coin, and every decimal that becomes one, can. *)
Definition fits (x : Z) : Prop := x < two63.
Definition can_migrate (o : old) : Prop :=
  (forall k f, ol_fundings o !! k = Some f -> fits (of_amount f) /\ fits (of_apb f) /\ fits (of_total f)) /\
  (forall s f, ol_f1 o !! s = Some f -> (forall d, o1_data f = Some d -> fits (od_rewards d)) /\ (forall k v, o1_entries f !! k = Some v -> 0 <= v)) /\
  (forall s x, ol_stakers o !! s = Some x -> fits (os_rewards x)).
(** The fields of type uint64. *)
Definition typed (o : old) : Prop :=
  (forall k f, ol_fundings o !! k = Some f -> u64 (of_amount f) /\ u64 (of_apb f) /\ u64 (of_total f)) /\
  (forall s f d, ol_f1 o !! s = Some f -> o1_data f = Some d -> u64 (od_rewards d)) /\
  (forall s x, ol_stakers o !! s = Some x -> u64 (os_rewards x)).

(** ** Single records *)
Lemma just_kyve_coin x : 0 <= x -> just_kyve (coin KYVE x) x.
Proof.
  intros Hx. split; [|split].
  - intros d y. unfold coin, nz. destruct (Z.eq_dec x 0) as [->|Hn]; [simpl; by rewrite lookup_empty|].
    destruct (x =? 0) eqn:E; [apply Z.eqb_eq in E; lia|]. intros [<- <-]%lookup_singleton_Some. lia.
  - rewrite amt_coin. by destruct (decide _).
  - intros d Hd. rewrite amt_coin. destruct (decide _); [congruence|done].
Qed.
Lemma just_kyve_eq c c' x : just_kyve c x -> just_kyve c' x -> c = c'.
Proof.
  intros (H1 & H2 & H3) (H4 & H5 & H6). apply coins_ext; [by apply cpos_cnz|by apply cpos_cnz|].
  intros d. destruct (decide (d = KYVE)) as [->|Hd]; [congruence|]. by rewrite H3, H6.
Qed.
Lemma coin1_some x : u64 x -> is_Some (coin1 x) <-> fits x.
Proof.
  unfold u64, coin1, fits, i64. intros Hx. split.
  - destruct (x <? two63) eqn:E; [apply Z.ltb_lt in E; lia|]. intros [c Hc].
    assert (x - two64 <? 0 = true) as H0 by (apply Z.ltb_lt; unfold two64 in *; lia). rewrite H0 in Hc. done.
  - intros H. destruct (x <? two63) eqn:E; [|apply Z.ltb_ge in E; lia].
    assert (x <? 0 = false) as -> by (apply Z.ltb_ge; lia). by eexists.
Qed.
Lemma coin1_as x c : u64 x -> coin1 x = Some c -> just_kyve c x.
Proof.
  intros Hx H. assert (Hf : fits x). { apply coin1_some; [done|]. by eexists. }
  unfold coin1, i64, fits in *. destruct (x <? two63) eqn:E; [|apply Z.ltb_ge in E; lia].
  destruct (x <? 0) eqn:E2; [done|]. injection H as <-. apply just_kyve_coin. by apply Z.ltb_ge in E2.
Qed.
Lemma dec1_some v : is_Some (dec1 v) <-> 0 <= v.
Proof.
  unfold dec1. split.
  - intros [c H]. destruct (v <? 0) eqn:E; [done|]. by apply Z.ltb_ge in E.
  - intros H. destruct (v <? 0) eqn:E; [apply Z.ltb_lt in E; lia|]. by eexists.
Qed.
Lemma dec1_as v c : dec1 v = Some c -> just_kyve c v.
Proof.
  intros H. assert (0 <= v) by (apply dec1_some; by eexists). unfold dec1 in H. destruct (v <? 0); [done|].
  injection H as <-. by apply just_kyve_coin.
Qed.

Section stores.
Context {K : Type} `{Countable K} {A B : Type}.
Implicit Types (h : A -> option B).
Lemma migrate_all_some h (m : gmap K A) : is_Some (migrate_all h m) <-> forall k x, m !! k = Some x -> is_Some (h x).
Proof.
  unfold migrate_all. split.
  - intros [m' Hm] k x Hk. destruct (forallb _ _) eqn:E; [|done]. rewrite forallb_forall in E.
    specialize (E (k, x)). simpl in E. destruct (h x); [by eexists|]. discriminate E. by apply elem_of_list_In, elem_of_map_to_list.
  - intros Hall. assert (forallb (fun x => some_ (h (snd x))) (map_to_list m) = true) as ->; [|by eexists].
    apply forallb_forall. intros [k x] Hin. apply elem_of_list_In, elem_of_map_to_list in Hin.
    destruct (Hall k x Hin) as [y Hy]. simpl. by rewrite Hy.
Qed.
Lemma migrate_all_lookup h (m : gmap K A) (m' : gmap K B) : migrate_all h m = Some m' -> forall k, m' !! k = m !! k ≫= h.
Proof. unfold migrate_all. destruct (forallb _ _); [|done]. intros [= <-] k. by rewrite lookup_omap. Qed.
Lemma migrate_all_as (R : A -> B -> Prop) h (m : gmap K A) (m' : gmap K B) : migrate_all h m = Some m' ->
  (forall k x y, m !! k = Some x -> h x = Some y -> R x y) -> same_keys R m m'.
Proof.
  intros Hm HR k. pose proof (migrate_all_lookup h m m' Hm k) as E.
  assert (Hs : is_Some (migrate_all h m)) by (by eexists).
  destruct (m !! k) as [x|] eqn:Ek; simpl in E.
  - destruct (proj1 (migrate_all_some h m) Hs k x Ek) as [y Hy]. rewrite E, Hy. eauto.
  - by rewrite E.
Qed.
Lemma same_keys_eq (R : A -> B -> Prop) (m : gmap K A) (m1 m2 : gmap K B) :
  (forall k x y y', m !! k = Some x -> R x y -> R x y' -> y = y') -> same_keys R m m1 -> same_keys R m m2 -> m1 = m2.
Proof.
  intros HR H1 H2. apply map_eq. intros k. specialize (H1 k). specialize (H2 k).
  destruct (m !! k) as [x|] eqn:E, (m1 !! k) as [y|], (m2 !! k) as [y'|]; try done. f_equal. eauto.
Qed.
End stores.

Lemma new_funding_some f : u64 (of_amount f) /\ u64 (of_apb f) /\ u64 (of_total f) ->
  is_Some (new_funding f) <-> fits (of_amount f) /\ fits (of_apb f) /\ fits (of_total f).
Proof.
  intros (U1 & U2 & U3). rewrite <- (coin1_some _ U1), <- (coin1_some _ U2), <- (coin1_some _ U3). unfold new_funding. split.
  - intros [y H]. destruct (coin1 (of_amount f)), (coin1 (of_apb f)), (coin1 (of_total f)); try done; eauto 10.
  - intros ([? ->] & [? ->] & [? ->]). eauto.
Qed.
Lemma new_funding_as f y : u64 (of_amount f) /\ u64 (of_apb f) /\ u64 (of_total f) -> new_funding f = Some y -> funding_as f y.
Proof.
  intros (U1 & U2 & U3). unfold new_funding. destruct (coin1 (of_amount f)) eqn:E1, (coin1 (of_apb f)) eqn:E2, (coin1 (of_total f)) eqn:E3; try done.
  intros [= <-]. split; [|split]; simpl; by apply coin1_as.
Qed.
Lemma new_staker_some x : u64 (os_rewards x) -> is_Some (new_staker x) <-> fits (os_rewards x).
Proof.
  intros U. rewrite <- (coin1_some _ U). unfold new_staker. split.
  - intros [y H]. destruct (coin1 _); [eauto|done].
  - intros [? ->]. eauto.
Qed.
Lemma new_staker_as x y : u64 (os_rewards x) -> new_staker x = Some y -> staker_as x y.
Proof. intros U. unfold new_staker. destruct (coin1 _) eqn:E; [|done]. intros [= <-]. split; [done|]. by apply coin1_as. Qed.
Lemma new_data_some d : u64 (od_rewards d) -> is_Some (new_data d) <-> fits (od_rewards d).
Proof.
  intros U. rewrite <- (coin1_some _ U). unfold new_data. split.
  - intros [y H]. destruct (coin1 _); [eauto|done].
  - intros [? ->]. eauto.
Qed.
Lemma new_f1_some f : (forall d, o1_data f = Some d -> u64 (od_rewards d)) ->
  is_Some (new_f1 f) <-> (forall d, o1_data f = Some d -> fits (od_rewards d)) /\ (forall k v, o1_entries f !! k = Some v -> 0 <= v).
Proof.
  intros U. assert (He : (forall k v, o1_entries f !! k = Some v -> 0 <= v) <-> is_Some (migrate_all dec1 (o1_entries f))).
  { rewrite migrate_all_some. split; intros H k v Hk; [apply dec1_some|apply dec1_some]; eauto. }
  rewrite He. unfold new_f1. split.
  - intros [y H]. destruct (migrate_all _ _); [|done]. split; [|eauto]. intros d Hd. rewrite Hd in H.
    apply new_data_some; [eauto|]. destruct (new_data d); [eauto|done].
  - intros [Hd [e ->]]. destruct (o1_data f) as [d|]; [|eauto].
    destruct (proj2 (new_data_some d (U d eq_refl)) (Hd d eq_refl)) as [y ->]. eauto.
Qed.
Lemma new_f1_as f y : (forall d, o1_data f = Some d -> u64 (od_rewards d)) -> new_f1 f = Some y -> f1_as f y.
Proof.
  intros U. unfold new_f1. destruct (migrate_all _ _) as [e|] eqn:Ee; [|done].
  assert (He : same_keys (fun v c => just_kyve c v) (o1_entries f) e).
  { eapply migrate_all_as; [exact Ee|]. intros k v c _. apply dec1_as. }
  destruct (o1_data f) as [d|] eqn:Ed.
  - unfold new_data. destruct (coin1 _) eqn:E1; [|done]. intros [= <-]. unfold f1_as. rewrite Ed. simpl.
    split; [|done]. split; [|done]. simpl. apply coin1_as; eauto.
  - intros [= <-]. unfold f1_as. rewrite Ed. done.
Qed.

(** ** When the upgrade runs *)
Lemma claim_runs a b us now o : typed o -> is_Some (upgrade a b us now o) <-> can_migrate o.
Proof.
  intros (U1 & U2 & U3).
  assert (H1 : is_Some (migrate_all new_funding (ol_fundings o)) <->
    forall k f, ol_fundings o !! k = Some f -> fits (of_amount f) /\ fits (of_apb f) /\ fits (of_total f)).
  { rewrite migrate_all_some. split; intros H k f Hk; apply (new_funding_some f (U1 k f Hk)); eauto. }
  assert (H2 : is_Some (migrate_all new_f1 (ol_f1 o)) <->
    forall s f, ol_f1 o !! s = Some f -> (forall d, o1_data f = Some d -> fits (od_rewards d)) /\ (forall k v, o1_entries f !! k = Some v -> 0 <= v)).
  { rewrite migrate_all_some. split; intros H k f Hk; apply (new_f1_some f (fun d => U2 k f d Hk)); eauto. }
  assert (H3 : is_Some (migrate_all new_staker (ol_stakers o)) <-> forall s x, ol_stakers o !! s = Some x -> fits (os_rewards x)).
  { rewrite migrate_all_some. split; intros H k f Hk; apply (new_staker_some f (U3 k f Hk)); eauto. }
  unfold can_migrate, upgrade. rewrite <- H1, <- H2, <- H3. split.
  - intros [c H]. destruct (migrate_all _ _), (migrate_all _ _), (migrate_all _ _); try done; eauto 10.
  - intros ([? ->] & [? ->] & [? ->]). eauto.
Qed.

(** ** What it keeps *)
(** The plan stays, except that a pool without one is to be upgraded at once to the first listed version of its runtime. *)
Definition planned (now : Z) (us : list (N * N * N)) (x : opool) (y : pool) : Prop :=
  pl_plan y = match List.find (fun u => (fst (fst u) =? op_runtime x)%N) us with
              | Some u => if decide (pn_at (op_plan x) = 0) then mkPlan (snd (fst u)) (snd u) now 600 else op_plan x
              | None => op_plan x
              end.
Lemma runtimes_lookup now us (m : gmap N pool) k :
  upgrade_runtimes now us m !! k = (fun p => fold_left (fun p u => runtime_one now u p) us p) <$> m !! k.
Proof.
  unfold upgrade_runtimes. revert m. induction us as [|u us IH]; intros m; simpl; [by destruct (m !! k)|].
  rewrite IH, lookup_fmap. by destruct (m !! k).
Qed.
Lemma runtime_one_keeps now u p : exists x, runtime_one now u p = with_plan p x.
Proof.
  unfold runtime_one. destruct (negb _); [exists (pl_plan p); by destruct p|]. destruct (negb _); [exists (pl_plan p); by destruct p|eauto].
Qed.
Lemma runtimes_keep now us p : exists x, fold_left (fun p u => runtime_one now u p) us p = with_plan p x.
Proof.
  revert p. induction us as [|u us IH]; intros p; simpl; [exists (pl_plan p); by destruct p|].
  destruct (runtime_one_keeps now u p) as [x ->]. destruct (IH (with_plan p x)) as [y ->]. exists y. by destruct p.
Qed.
Lemma runtimes_planned now us p : pn_at (pl_plan p) <> 0 -> fold_left (fun p u => runtime_one now u p) us p = p.
Proof.
  intros Hp. induction us as [|u us IH]; simpl; [done|]. assert (runtime_one now u p = p) as ->; [|done].
  unfold runtime_one. destruct (negb (_ =? _)%N); [done|]. by rewrite (proj2 (Z.eqb_neq _ _) Hp).
Qed.
Lemma runtimes_plan now us p : 0 < now -> pn_at (pl_plan p) = 0 ->
  pl_plan (fold_left (fun p u => runtime_one now u p) us p) =
    match List.find (fun u => (fst (fst u) =? pl_runtime p)%N) us with Some u => mkPlan (snd (fst u)) (snd u) now 600 | None => pl_plan p end.
Proof.
  intros Hn H0. induction us as [|u us IH]; simpl; [done|]. rewrite N.eqb_sym.
  unfold runtime_one at 2. destruct (pl_runtime p =? fst (fst u))%N eqn:E; simpl.
  - rewrite H0. simpl. rewrite runtimes_planned; [done|]. simpl. lia.
  - exact IH.
Qed.
Lemma new_pool_planned now us x : 0 < now -> planned now us x (fold_left (fun p u => runtime_one now u p) us (new_record x)).
Proof.
  intros Hn. unfold planned. destruct (decide (pn_at (op_plan x) = 0)) as [H|H].
  - pose proof (runtimes_plan now us (new_record x) Hn H) as E. simpl in E. by destruct (List.find _ us).
  - rewrite runtimes_planned by done. by destruct (List.find _ us).
Qed.

Lemma claim_keeps a b us now o c : typed o -> 0 < now -> upgrade a b us now o = Some c ->
  let r := ol_rest o in
  same_keys funding_as (ol_fundings o) (fs_fundings (c_f c)) /\
  same_keys f1_as (ol_f1 o) (ds_f1 (c_d c)) /\
  same_keys staker_as (ol_stakers o) (ss_stakers (c_s c)) /\
  same_keys (fun x y => pool_as x y /\ pl_weight y = ONE /\ planned now us x y) (ol_pools o) (ps_pools (c_pools c)) /\
  c_bank c = c_bank r /\
  c_d c = with_f1 (c_d r) (ds_f1 (c_d c)) /\ c_s c = with_stakers (c_s r) (ss_stakers (c_s c)) /\ c_t c = c_t r /\
  fs_funders (c_f c) = fs_funders (c_f r) /\ fs_active (c_f c) = fs_active (c_f r) /\ ps_count (c_pools c) = ps_count (c_pools r) /\
  c_prop c = c_prop r /\ c_fin c = c_fin r /\ c_idx c = c_idx r /\ c_rr c = c_rr r /\ c_burn c = c_burn r /\
  c_time c = c_time r /\ c_height c = c_height r.
Proof.
  intros (U1 & U2 & U3) Hn H. unfold upgrade in H.
  destruct (migrate_all new_funding _) as [fs|] eqn:E1; [|done]. destruct (migrate_all new_f1 _) as [f1s|] eqn:E2; [|done].
  destruct (migrate_all new_staker _) as [ss|] eqn:E3; [|done]. injection H as <-. cbn.
  split; [|split; [|split; [|split]]].
  - eapply migrate_all_as; [exact E1|]. intros k x y Hk. apply new_funding_as. eauto.
  - eapply migrate_all_as; [exact E2|]. intros k x y Hk. apply new_f1_as. eauto.
  - eapply migrate_all_as; [exact E3|]. intros k x y Hk. apply new_staker_as. eauto.
  - intros k. rewrite runtimes_lookup, lookup_fmap. destruct (ol_pools o !! k) as [x|]; simpl; [|done].
    split; [|split; [|by apply new_pool_planned]]; destruct (runtimes_keep now us (new_record x)) as [y ->]; [|done].
    repeat split.
  - tauto.
Qed.

(** ** The upgrade as messages of the governance module *)
(** The old records and the rest are the state [c] of the chain that has seen no other coin. *)
Definition old_form (o : old) (c : chain) : Prop :=
  let r := ol_rest o in
  same_keys funding_as (ol_fundings o) (fs_fundings (c_f c)) /\
  same_keys f1_as (ol_f1 o) (ds_f1 (c_d c)) /\
  same_keys staker_as (ol_stakers o) (ss_stakers (c_s c)) /\
  same_keys (fun x y => pool_as x y /\ pl_plan y = op_plan x) (ol_pools o) (ps_pools (c_pools c)) /\
  c_d c = with_f1 (c_d r) (ds_f1 (c_d c)) /\ c_s c = with_stakers (c_s r) (ss_stakers (c_s c)) /\
  c_f c = mkFS (fs_params (c_f c)) (fs_funders (c_f r)) (fs_fundings (c_f c)) (fs_active (c_f r)) (fs_bank (c_f r)) (fs_halt (c_f r)) /\
  c_t c = c_t r /\ ps_count (c_pools c) = ps_count (c_pools r) /\
  c_prop c = c_prop r /\ c_fin c = c_fin r /\ c_idx c = c_idx r /\ c_rr c = c_rr r /\ c_burn c = c_burn r /\
  c_bank c = c_bank r /\ c_time c = c_time r /\ c_height c = c_height r /\ c_halt c = c_halt r /\ c_bad c = c_bad r.
Definition weight_one : update_args := mkUA None None None (Some ONE) None None None None.
Definition upgrade_messages (a b : N) (us : list (N * N * N)) (now : Z) (o : old) : list cop :=
  [CParamsF AUTHORITY (new_fparams a b (ol_fparams o)); CParamsB AUTHORITY (new_bparams (ol_bparams o)); CParamsP AUTHORITY (new_pparams (ol_pparams o))]
  ++ map (fun p => CUpdatePool AUTHORITY p weight_one) (map fst (map_to_list (ol_pools o)))
  ++ map (fun u => CSchedule AUTHORITY (fst (fst u)) (snd (fst u)) (snd u) now 600) us.

Lemma data_as_eq d y y' : data_as d y -> data_as d y' -> y = y'.
Proof. intros (H1 & H2 & H3 & H4 & H5) (K1 & K2 & K3 & K4 & K5). destruct y, y'; simpl in *. subst. f_equal. by eapply just_kyve_eq. Qed.
Lemma f1_as_eq x y y' : f1_as x y -> f1_as x y' -> y = y'.
Proof.
  intros (H1 & H2 & H3 & H4 & H5) (K1 & K2 & K3 & K4 & K5). destruct y as [yd ye ys yl yh], y' as [yd' ye' ys' yl' yh']; simpl in *. subst.
  f_equal.
  - destruct (o1_data x), yd, yd'; try done. f_equal. by eapply data_as_eq.
  - eapply (same_keys_eq (fun v c => just_kyve c v)); [|exact H2|exact K2]. intros k v c c' _. apply just_kyve_eq.
Qed.
Lemma funding_as_eq x y y' : funding_as x y -> funding_as x y' -> y = y'.
Proof. intros (H1 & H2 & H3) (K1 & K2 & K3). destruct y, y'; simpl in *. f_equal; by eapply just_kyve_eq. Qed.
Lemma staker_as_eq x y y' : staker_as x y -> staker_as x y' -> y = y'.
Proof. intros (H1 & H2) (K1 & K2). destruct y, y'; simpl in *. subst. f_equal; by eapply just_kyve_eq. Qed.

(** The weights: one message per pool. *)
Definition reweigh (p : pool) : pool := apply_update p weight_one.
Lemma run_weights ids : forall c, NoDup ids -> (forall k, In k ids -> is_Some (ps_pools (c_pools c) !! k)) ->
  crun c (map (fun p => CUpdatePool AUTHORITY p weight_one) ids) =
  cw_pools c (mkPS (map_imap (fun k p => Some (if bool_decide (k ∈ ids) then reweigh p else p)) (ps_pools (c_pools c))) (ps_count (c_pools c))).
Proof.
  induction ids as [|i ids IH]; intros c Hnd Hin; simpl.
  - replace (map_imap _ _) with (ps_pools (c_pools c)); [by destruct c as [? ? ? ? [? ?]]|].
    apply map_eq. intros k. rewrite map_lookup_imap. destruct (ps_pools (c_pools c) !! k); [|done]. done.
  - apply NoDup_cons in Hnd as [Hni Hnd]. destruct (Hin i (or_introl eq_refl)) as [p Hp].
    assert (Hs : cstep c (CUpdatePool AUTHORITY i weight_one) = cw_pools c (mkPS (<[i := reweigh p]> (ps_pools (c_pools c))) (ps_count (c_pools c)))).
    { unfold cstep, cmsg, msg_update_pool. rewrite Hp. reflexivity. }
    rewrite Hs, IH; [|done|].
    + cbn. f_equal. f_equal. apply map_eq. intros k. rewrite !map_lookup_imap. destruct (decide (i = k)) as [->|Hk].
      * rewrite lookup_insert, Hp. simpl. rewrite bool_decide_eq_false_2 by done. by rewrite bool_decide_eq_true_2 by left.
      * rewrite lookup_insert_ne by done. destruct (ps_pools (c_pools c) !! k); [|done]. simpl. f_equal.
        destruct (decide (k ∈ ids)).
        -- rewrite bool_decide_eq_true_2 by done. by rewrite bool_decide_eq_true_2 by (by right).
        -- rewrite bool_decide_eq_false_2 by done. rewrite bool_decide_eq_false_2; [done|]. rewrite elem_of_cons. naive_solver.
    + intros k Hk. cbn. destruct (decide (i = k)) as [->|Hik]; [rewrite lookup_insert; eauto|]. rewrite lookup_insert_ne by done. apply Hin. by right.
Qed.
Lemma run_schedule us : forall c now, c_time c <= now -> Forall (fun u => snd (fst u) <> 0%N /\ snd u <> 0%N) us ->
  crun c (map (fun u => CSchedule AUTHORITY (fst (fst u)) (snd (fst u)) (snd u) now 600) us) =
  cw_pools c (mkPS (upgrade_runtimes now us (ps_pools (c_pools c))) (ps_count (c_pools c))).
Proof.
  induction us as [|u us IH]; intros c now Ht Hus; simpl; [by destruct c as [? ? ? ? [? ?]]|].
  apply Forall_cons in Hus as [[H1 H2] Hus].
  assert (Hs : cstep c (CSchedule AUTHORITY (fst (fst u)) (snd (fst u)) (snd u) now 600) =
    cw_pools c (mkPS (runtime_one now u <$> ps_pools (c_pools c)) (ps_count (c_pools c)))).
  { unfold cstep, cmsg, msg_schedule. rewrite N.eqb_refl. simpl. rewrite (proj2 (N.eqb_neq _ _) H1), (proj2 (N.eqb_neq _ _) H2). simpl.
    assert (now <? c_time c = false) as -> by (apply Z.ltb_ge; lia). reflexivity. }
  rewrite Hs, IH; [done|done|done].
Qed.
Lemma crun_split ops ops' : forall c, crun c (ops ++ ops') = crun (crun c ops) ops'.
Proof. induction ops as [|o ops IH]; intros c; simpl; auto. Qed.
Lemma claim_messages a b us now o c : typed o -> can_migrate o -> old_form o c -> c_time c <= now -> 0 < now ->
  Forall (fun u => snd (fst u) <> 0%N /\ snd u <> 0%N) us ->
  upgrade a b us now o = Some (crun c (upgrade_messages a b us now o)).
Proof.
  intros HT HC HO Ht Hn Hus. destruct (proj2 (claim_runs a b us now o HT) HC) as [c' Hc']. rewrite Hc'. f_equal.
  pose proof (claim_keeps a b us now o c' HT Hn Hc') as (K1 & K2 & K3 & _).
  destruct HO as (O1 & O2 & O3 & O4 & Od & Os & Of & Ot & Oc & Oprop & Ofin & Oidx & Orr & Oburn & Obank & Otime & Oheight & Ohalt & Obad).
  assert (Ef : fs_fundings (c_f c') = fs_fundings (c_f c)).
  { eapply (same_keys_eq funding_as); [|exact K1|exact O1]. intros; by eapply funding_as_eq. }
  assert (Ed : ds_f1 (c_d c') = ds_f1 (c_d c)).
  { eapply (same_keys_eq f1_as); [|exact K2|exact O2]. intros; by eapply f1_as_eq. }
  assert (Es : ss_stakers (c_s c') = ss_stakers (c_s c)).
  { eapply (same_keys_eq staker_as); [|exact K3|exact O3]. intros; by eapply staker_as_eq. }
  unfold upgrade_messages. rewrite crun_split.
  set (c1 := crun c [_; _; _]). rewrite crun_split, run_weights; cycle 1.
  { apply NoDup_fst_map_to_list. }
  { intros k Hk. apply in_map_iff in Hk as [[k' x] [Hk' Hk]]. simpl in Hk'. subst. apply elem_of_list_In, elem_of_map_to_list in Hk.
    change (is_Some (ps_pools (c_pools c) !! k)). specialize (O4 k). rewrite Hk in O4. destruct (ps_pools (c_pools c) !! k); [eauto|done]. }
  rewrite run_schedule by done.
  assert (Hp : map_imap (fun k p => Some (if bool_decide (k ∈ map fst (map_to_list (ol_pools o))) then reweigh p else p)) (ps_pools (c_pools c))
     = new_record <$> ol_pools o).
  { apply map_eq. intros k. rewrite map_lookup_imap, lookup_fmap. specialize (O4 k).
    destruct (ol_pools o !! k) as [x|] eqn:Ex, (ps_pools (c_pools c) !! k) as [y|]; try done. simpl. f_equal.
    rewrite bool_decide_eq_true_2 by (apply elem_of_list_fmap; exists (k, x); split; [done|by apply elem_of_map_to_list]).
    destruct O4 as [(? & ? & ? & ? & ? & ? & ? & ? & ? & ? & ? & ? & ? & ? & ?) ?]. unfold reweigh, apply_update, new_record. simpl. by f_equal. }
  change (ps_pools (c_pools c1)) with (ps_pools (c_pools c)). change (ps_count (c_pools c1)) with (ps_count (c_pools c)). rewrite Hp.
  unfold upgrade in Hc'. destruct (migrate_all new_funding _) as [fs|] eqn:E1; [|done]. destruct (migrate_all new_f1 _) as [f1s|] eqn:E2; [|done].
  destruct (migrate_all new_staker _) as [ss|] eqn:E3; [|done]. injection Hc' as <-. cbn in Ef, Ed, Es. subst fs f1s ss.
  unfold c1. cbn -[new_fparams new_bparams new_pparams upgrade_runtimes]. unfold cw_pools, cw_pp, cw_bp, cw_f. cbn -[new_fparams new_bparams new_pparams upgrade_runtimes].
  unfold fwith_params. f_equal; try congruence.
  rewrite Of. reflexivity.
Qed.
(** They are messages the theorems about histories allow. *)
Definition oparams_ok (o : old) : Prop :=
  0 <= ofp_min (ol_fparams o) /\ 0 <= ofp_minpb (ol_fparams o) /\ 0 <= ofp_multiple (ol_fparams o) < two64 /\
  0 < ob_timeout (ol_bparams o) < two62 /\ pct_ok (ob_fee (ol_bparams o)) = true /\ 0 < ob_maxpoints (ol_bparams o) < two64 /\
  pct_ok (opp_share (ol_pparams o)) = true /\ pct_ok (opp_rate (ol_pparams o)) = true.
Lemma cops_ok_all ops : forall c, (forall o, In o ops -> forall c', cop_ok c' o) -> cops_ok c ops.
Proof. induction ops as [|o ops IH]; intros c H; simpl; [done|]. split; [apply H; by left|]. apply IH. intros o' Ho. apply H. by right. Qed.
Lemma messages_ok a b us now o c : oparams_ok o -> 0 < now < two64 -> cops_ok c (upgrade_messages a b us now o).
Proof.
  intros (P1 & P2 & P3 & P4 & P5 & P6 & P7 & P8) Hn. apply cops_ok_all. intros x Hx c'. unfold upgrade_messages in Hx.
  apply in_app_or in Hx as [Hx|Hx]; [|apply in_app_or in Hx as [Hx|Hx]].
  - destruct Hx as [<-|[<-|[<-|[]]]]; simpl.
    + split; [|done]. repeat constructor; simpl; lia.
    + unfold bparams_valid. simpl. rewrite P5. split; [|lia]. rewrite !andb_true_iff. repeat split; first [done|apply Z.ltb_lt; lia].
    + unfold pparams_valid. simpl. rewrite P7, P8. reflexivity.
  - apply in_map_iff in Hx as [p [<- _]]. done.
  - apply in_map_iff in Hx as [u [<- _]]. simpl. unfold u64, two64 in *. lia.
Qed.
Lemma claim_reached a b us now o g ops : let c := crun (gstart g) ops in
  cops_ok (gstart g) ops -> typed o -> can_migrate o -> old_form o c -> oparams_ok o -> c_time c <= now -> 0 < now < two64 ->
  Forall (fun u => snd (fst u) <> 0%N /\ snd u <> 0%N) us ->
  exists ops', upgrade a b us now o = Some (crun (gstart g) (ops ++ ops')) /\ cops_ok (gstart g) (ops ++ ops').
Proof.
  intros c Hok HT HC HO HP Ht Hn Hus. exists (upgrade_messages a b us now o). rewrite crun_split. split.
  - by apply claim_messages; [..|lia|].
  - apply cops_ok_app. split; [done|]. by apply messages_ok.
Qed.

(** ** The old form of a state that has seen no other coin *)
Definition just_kyveb (c : coins) : bool := forallb (fun x => (fst x =? KYVE)%N && (0 <? snd x)) (map_to_list c).
Lemma just_kyveb_ok c : just_kyveb c = true -> just_kyve c (amt c KYVE).
Proof.
  unfold just_kyveb. rewrite forallb_forall. intros H.
  assert (H' : forall d x, c !! d = Some x -> d = KYVE /\ 0 < x).
  { intros d x Hd. specialize (H (d, x)). simpl in H. rewrite andb_true_iff, N.eqb_eq, Z.ltb_lt in H. apply H. by apply elem_of_list_In, elem_of_map_to_list. }
  split; [|split]; [intros d x Hd; by apply (H' d)|done|].
  intros d Hd. unfold amt. destruct (c !! d) as [x|] eqn:E; [|done]. by destruct (H' d x E).
Qed.
Definition old_of (fp : ofparams) (bp : obparams) (pp : opparams) (c : chain) : old :=
  mkOld fp ((fun f => mkOF (amt (fd_amounts f) KYVE) (amt (fd_apb f) KYVE) (amt (fd_total f) KYVE)) <$> fs_fundings (c_f c))
    ((fun f => mkOF1 ((fun d => mkODD (amt (dd_rewards d) KYVE) (dd_total d) (dd_latest d) (dd_count d) (dd_undel d)) <$> f_data f)
       ((fun e => amt e KYVE) <$> f_entries f) (f_slashes f) (f_delegators f) (f_halt f)) <$> ds_f1 (c_d c))
    ((fun s => mkOSt (st_commission s) (amt (st_rewards s) KYVE)) <$> ss_stakers (c_s c)) bp pp
    ((fun p => mkOPool (pl_runtime p) (pl_endkey p) (pl_interval p) (pl_weight p) (pl_mindel p) (pl_maxsize p) (pl_disabled p)
      (pl_version p) (pl_binaries p) (pl_last p) (pl_plan p) (pl_sp p) (pl_comp p) (pl_index p) (pl_total p) (pl_key p) (pl_summary p)) <$> ps_pools (c_pools c)) c.
Definition all_in {K} `{Countable K} {A} (f : A -> bool) (m : gmap K A) : bool := forallb (fun x => f (snd x)) (map_to_list m).
Lemma all_in_ok {K} `{Countable K} {A} (f : A -> bool) (m : gmap K A) : all_in f m = true -> forall k x, m !! k = Some x -> f x = true.
Proof. unfold all_in. rewrite forallb_forall. intros Hf k x Hk. apply (Hf (k, x)). by apply elem_of_list_In, elem_of_map_to_list. Qed.
Definition kyve_chain (c : chain) : bool :=
  all_in (fun f => just_kyveb (fd_amounts f) && just_kyveb (fd_apb f) && just_kyveb (fd_total f)) (fs_fundings (c_f c)) &&
  all_in (fun f => match f_data f with Some d => just_kyveb (dd_rewards d) | None => true end && all_in just_kyveb (f_entries f)) (ds_f1 (c_d c)) &&
  all_in (fun s => just_kyveb (st_rewards s)) (ss_stakers (c_s c)).
Lemma old_of_form fp bp pp c : kyve_chain c = true -> old_form (old_of fp bp pp c) c.
Proof.
  unfold kyve_chain. rewrite !andb_true_iff. intros [[H1 H2] H3]. unfold old_form, old_of. cbn.
  split; [|split; [|split; [|split]]].
  - intros k. rewrite lookup_fmap. destruct (fs_fundings (c_f c) !! k) as [f|] eqn:E; simpl; [|done].
    apply (all_in_ok _ _ H1) in E. rewrite !andb_true_iff in E. destruct E as [[E1 E2] E3]. split; [|split]; by apply just_kyveb_ok.
  - intros k. rewrite lookup_fmap. destruct (ds_f1 (c_d c) !! k) as [f|] eqn:E; simpl; [|done].
    apply (all_in_ok _ _ H2) in E. rewrite andb_true_iff in E. destruct E as [E1 E2]. split; [|split; [|done]]; simpl.
    + destruct (f_data f); simpl; [|done]. split; [by apply just_kyveb_ok|done].
    + intros k'. rewrite lookup_fmap. destruct (f_entries f !! k') eqn:E; simpl; [|done]. apply just_kyveb_ok. by apply (all_in_ok _ _ E2) in E.
  - intros k. rewrite lookup_fmap. destruct (ss_stakers (c_s c) !! k) as [f|] eqn:E; simpl; [|done].
    apply (all_in_ok _ _ H3) in E. split; [done|]. by apply just_kyveb_ok.
  - intros k. rewrite lookup_fmap. destruct (ps_pools (c_pools c) !! k) as [f|] eqn:E; simpl; [|done]. split; [|done]. repeat split.
  - destruct (c_d c), (c_s c), (c_f c). repeat split.
Qed.

(** ** The rules after the upgrade *)
(** What a funding of the base denom has to meet is what it had to meet before; the protocol's share of
    the inflation, the rate of the inflation pools, the timeout, the fee and the points stay. *)
Lemma claim_rules a b us now o c : upgrade a b us now o = Some c -> a <> KYVE -> b <> KYVE ->
  let f := ol_fparams o in let p := ol_pparams o in let q := ol_bparams o in
  (forall x y, FundersClaims.meets (fs_params (c_f c)) KYVE x y <-> 0 < y /\ ofp_min f <= x /\ ofp_minpb f <= y /\ ofp_multiple f * y <= x) /\
  pp_share (c_pp c) = opp_share p /\ pp_rate (c_pp c) = opp_rate p /\
  b_timeout (c_bp c) = ob_timeout q /\ b_fee (c_bp c) = ob_fee q /\ b_maxpoints (c_bp c) = ob_maxpoints q.
Proof.
  intros H Ha Hb. unfold upgrade in H. destruct (migrate_all new_funding _) as [fs|]; [|done]. destruct (migrate_all new_f1 _) as [f1s|]; [|done].
  destruct (migrate_all new_staker _) as [ss|]; [|done]. injection H as <-. cbv zeta. split; [|repeat split]. intros x y. unfold FundersClaims.meets, new_fparams.
  cbn [c_f fs_params fp_multiple fp_list In]. split.
  - intros (H0 & H1 & _ & H2). destruct (H2 _ (or_introl eq_refl) eq_refl) as [H3 H4]. cbn in H3, H4. done.
  - intros (H0 & H1 & H2 & H3). split; [done|]. split; [done|]. split; [eexists; split; [by left|done]|].
    intros e [<-|[<-|[<-|[]]]] He; cbn in *; done.
Qed.
