(** * What single events say (C76), continued: the contents of the events of plain messages. *)
From Verif Require Import Base BaseFacts Delegation Stakers Funders Team TeamInv TeamClaims RoundRobin Pool Bundles Chain ChainFrame ChainLift Walk ArchiveInv PaySafe PayFlow
  TeamRun FundersInv FundingsFrame PoolClaims TallyClaims SplitClaims Events EventWalk EventFollow EventStakers EventCommission EventMeaning.

(** An upgrade is has_plan. *)
Definition has_plan (pl : pool) : Prop := pn_at (pl_plan pl) <> 0.
(** [f] says which pools an event lists, [f'] what they look like after; the others stay as they are. *)
Definition pools_of (c c' : chain) (l : list N) (sel : pool -> Prop) (changed : pool -> pool -> Prop) : Prop :=
  NoDup l /\ (forall p, p ∈ l <-> exists pl, get_pool c p = Some pl /\ sel pl) /\
  (forall p, p ∈ l -> exists pl pl', get_pool c p = Some pl /\ get_pool c' p = Some pl' /\ changed pl pl') /\
  (forall p, p ∉ l -> get_pool c' p = get_pool c p).
(** The time a team member has served and what of the allocation is theirs then. *)
Definition served (start clawback : Z) : Z := if decide (0 < clawback < start + VESTING) then clawback - start else VESTING.
Definition kept (total d : Z) : Z := if decide (d < CLIFF) then 0 else if decide (d < VESTING) then total * d / VESTING else total.

Definition reports (c c' : chain) (l : list event) (x : event) : Prop :=
  match x with
  | EvScheduled r v b t d ids =>
      pools_of c c' ids (fun pl => pl_runtime pl = r /\ ~ has_plan pl)
        (fun pl pl' => pl' = with_plan pl (mkPlan v b (Z.max t (c_time c)) d))
  | EvCancelled r ids =>
      pools_of c c' ids (fun pl => pl_runtime pl = r /\ has_plan pl) (fun pl pl' => pl' = with_plan pl no_plan)
  | EvTeamClawback _ id t lost => exists a,
      ts_accounts (c_t c) !! id = Some a /\
      ts_accounts (c_t c') !! id = Some (mkVA (va_total a) (va_start a) t (va_claimed a) (va_last a) (va_rewards a) (va_rclaimed a)) /\
      (0 <= va_total a < two63 -> 0 <= va_start a -> va_start a + VESTING < two64 -> lost = va_total a - kept (va_total a) (served (va_start a) t))
  | EvClaimedRole p i s => next_of c p = 0%N /\ next_of c' p = s /\ i = TallyClaims.finalized c p
  | EvCreateStaker s a com => commission_at c s = None /\ commission_at c' s = Some com /\ EvDelegate s s a ∈ l
  | EvFund p a x y => exists f, fs_fundings (c_f c') !! (a, p) = Some f /\
      forall d, amt (fd_amounts f) d <> 0 -> amt (fd_apb f) d = match y !! d with Some n => n | None => match fs_fundings (c_f c) !! (a, p) with Some f0 => amt (fd_apb f0) d | None => 0 end end
  | EvSkipped p _ s _ => s = next_of c p
  | EvCreateFunder a => a ∉ fs_funders (c_f c) /\ a ∈ fs_funders (c_f c')
  | _ => True
  end.

Lemma pools_with_in f s p : p ∈ pools_with f s <-> exists pl, ps_pools s !! p = Some pl /\ f pl = true.
Proof.
  unfold pools_with. rewrite elem_of_list_In, filter_In, <- elem_of_list_In, pool_ids_in. destruct (ps_pools s !! p) as [pl|].
  - split; [intros [_ H]; eauto|]. intros (x & [= <-] & H). split; [by eexists|done].
  - split; [by intros [[? ?] _]|by intros (? & ? & _)].
Qed.
Lemma pools_with_nodup f s : NoDup (pools_with f s).
Proof.
  unfold pools_with. apply NoDup_ListNoDup, List.NoDup_filter, NoDup_ListNoDup. unfold pool_ids. rewrite merge_sort_Permutation. apply NoDup_fst_map_to_list.
Qed.
Lemma tell_pools c ps h (sel : pool -> bool) (changed : pool -> pool -> Prop) (pick : pool -> Prop) : ps_pools ps = h <$> ps_pools (c_pools c) -> (forall pl, sel pl = true <-> pick pl) ->
  (forall pl, sel pl = true -> changed pl (h pl)) -> (forall pl, sel pl = false -> h pl = pl) ->
  pools_of c (cw_pools c ps) (pools_with sel (c_pools c)) pick changed.
Proof.
  intros Hp Hs H1 H2. split; [apply pools_with_nodup|]. split; [|split].
  - intros p. rewrite pools_with_in. unfold get_pool. split; intros (pl & E & H); exists pl; (split; [done|by apply Hs]).
  - intros p. rewrite pools_with_in. intros (pl & E & H). exists pl, (h pl). unfold get_pool. cbn. rewrite Hp, lookup_fmap, E. split; [done|]. split; [done|]. by apply H1.
  - intros p. rewrite pools_with_in. intros H. unfold get_pool. cbn. rewrite Hp, lookup_fmap. destruct (ps_pools (c_pools c) !! p) as [pl|] eqn:E; [|done]. cbn. rewrite H2; [done|].
    destruct (sel pl) eqn:Es; [|done]. destruct H. eauto.
Qed.
Lemma tell_schedule c sender r v b t d c' : cmsg c (CSchedule sender r v b t d) = Some c' -> reports c c' [] (EvScheduled r v b t d (pools_with (schedulable r) (c_pools c))).
Proof.
  cbn [cmsg reports]. unfold msg_schedule. destruct (negb _); [done|]. destruct (_ || _); [done|]. intros [= <-].
  eapply (tell_pools c _ (schedule_one r v b (if t <? c_time c then c_time c else t) d)); [done|..]; intros pl; unfold schedulable, has_plan, schedule_one.
  - rewrite andb_true_iff, N.eqb_eq, Z.eqb_eq. split; intros [? ?]; (split; [done|lia]).
  - rewrite andb_true_iff. intros [-> ->]. cbn. f_equal. f_equal. destruct (Z.ltb_spec t (c_time c)); lia.
  - destruct (_ =? _)%N; cbn; [|done]. by intros ->.
Qed.
Lemma tell_cancel c sender r c' : cmsg c (CCancel sender r) = Some c' -> reports c c' [] (EvCancelled r (pools_with (cancellable r) (c_pools c))).
Proof.
  cbn [cmsg reports]. unfold msg_cancel. destruct (negb _); [done|]. intros [= <-].
  eapply (tell_pools c _ (cancel_one r)); [done|..]; intros pl; unfold cancellable, has_plan, cancel_one.
  - rewrite andb_true_iff, N.eqb_eq, negb_true_iff, Z.eqb_neq. done.
  - rewrite andb_true_iff, negb_true_iff. by intros [-> ->].
  - destruct (_ =? _)%N; cbn; [|done]. rewrite negb_false_iff. by intros ->.
Qed.
Lemma tell_clawback c s id t c' : cmsg c (CTeam (TClawback s id t)) = Some c' -> forall x, x ∈ ev_team (t_in c) (TClawback s id t) -> reports c c' [] x.
Proof.
  cbn [cmsg ev_team]. unfold msg_clawback. destruct (negb _); [done|]. destruct (ts_accounts (t_in c) !! id) as [a|] eqn:Ea; [|done].
  destruct (_ && _) eqn:E1; [done|]. destruct (_ && _) eqn:E2 in |- *; [done|]. intros [= <-] x Hx. apply elem_of_list_singleton in Hx as ->. cbn [reports]. exists a. split; [done|].
  set (a' := mkVA _ _ _ _ _ _ _). split; [cbn; apply list_lookup_insert, lookup_lt_is_Some; by eexists|]. intros HT H0 HS.
  assert (HV : 0 < CLIFF < VESTING /\ VESTING <= ONE) by (by vm_compute).
  assert (Ht : t <= 0 \/ va_start a <= t). { apply andb_false_iff in E1 as [E1|E1]; lia. }
  assert (Em : vesting_max a' = kept (va_total a) (served (va_start a) t)).
  { unfold vesting_max, vested. cbn [va_start va_clawback va_total a']. unfold u64_add. rewrite w64_small by lia. rewrite (proj2 (Z.ltb_lt (va_start a) _)) by lia.
    replace (va_start a + VESTING - va_start a) with VESTING by lia.
    assert (Ed : (if (0 <? t) && (t <? va_start a + VESTING) then u64_sub t (va_start a) else VESTING) = served (va_start a) t).
    { unfold served. destruct (Z.ltb_spec 0 t), (Z.ltb_spec t (va_start a + VESTING)); cbn [andb]; [rewrite decide_True by lia; apply u64_sub_le; lia|rewrite decide_False by lia; done..]. }
    rewrite Ed. assert (0 <= served (va_start a) t <= VESTING) by (unfold served; destruct (decide _); lia). unfold kept.
    destruct (Z.ltb_spec (served (va_start a) t) CLIFF); [by rewrite decide_True|]. rewrite decide_False by lia.
    destruct (Z.ltb_spec (served (va_start a) t) VESTING); [rewrite decide_True by lia; apply prorate_floor; lia|by rewrite decide_False by lia]. }
  rewrite Em. change (va_total a') with (va_total a). apply u64_sub_le.
  unfold kept, served. destruct (decide _); destruct (decide _); try lia; destruct (decide _); try lia; apply Z.div_le_upper_bound; nia.
Qed.
Lemma tell_role c p s v c' : cmsg c (CClaimRole p s v) = Some c' -> reports c c' [] (EvClaimedRole p (total_of c p) s).
Proof.
  cbn [cmsg reports]. unfold msg_claim_role. destruct (negb _); [done|]. destruct (negb _); [done|]. destruct (N.eqb_spec (bp_next (get_prop c p)) 0) as [E|E]; [|done]. intros [= <-].
  split; [done|]. split; [|apply total_fin]. unfold next_of. by rewrite prop_set.
Qed.

Lemma amt_some (y : coins) d n : y !! d = Some n -> amt y d = n. Proof. unfold amt. by intros ->. Qed.
Lemma amt_none (y : coins) d : y !! d = None -> amt y d = 0. Proof. unfold amt. by intros ->. Qed.
Lemma tell_fund c a p x y c' : cmsg c (CFund a p x y) = Some c' -> reports c c' [] (EvFund p a x y).
Proof.
  cbn [cmsg reports]. unfold msg_fund. destruct (negb _); [done|]. destruct (negb _); [done|]. destruct (fs_active (f_in c) !! p) as [act|]; [|done]. cbv zeta.
  set (f := match fs_fundings (f_in c) !! (a, p) with Some _ => _ | None => _ end). destruct (ensure_params _ _) as [f1|] eqn:Ep; [|done].
  assert (E1 : f1 = clean_apb f). { revert Ep. unfold ensure_params. cbv zeta. repeat (destruct (negb _); [done|]). repeat (destruct (any_gt _ _); [done|]). destruct (0 <? _); [|by intros [= <-]]. destruct (_ && _); [done|]. destruct (any_gt _ _); [done|]. by intros [= <-]. }
  destruct (ensure_free_slot _ _ _ _ _) as [[st1 act1]|]; [|done]. destruct (send _ _ _ _) as [bk|]; [|done]. intros [= <-]. exists f1. split; [cbn; by rewrite lookup_insert|].
  intros d. subst f1. unfold clean_apb. cbn [fd_amounts fd_apb]. intros Hd. rewrite amt_cfilter. unfold has_denom. rewrite bool_decide_true by (unfold amt in Hd; destruct (fd_amounts f !! d); [by eexists|done]).
  unfold f. change (fs_fundings (c_f c)) with (fs_fundings (f_in c)). destruct (fs_fundings (f_in c) !! (a, p)) as [f0|]; cbn [fd_apb].
  - unfold merge_apb. rewrite amt_cadd, amt_cfilter. unfold has_denom. destruct (y !! d) as [n|] eqn:Ey.
    + rewrite (amt_some _ _ _ Ey). rewrite bool_decide_true by (by eexists). cbn. lia.
    + rewrite (amt_none _ _ Ey). rewrite bool_decide_false by (by intros [? ?]). cbn. lia.
  - destruct (y !! d) as [n|] eqn:Ey; [by apply amt_some|by apply amt_none].
Qed.
Lemma tell_staker c s com a c' : cmsg c (CCreateStaker s com a) = Some c' -> reports c c' (emitted c (CCreateStaker s com a)) (EvCreateStaker s a com).
Proof.
  cbn [cmsg reports emitted]. unfold chain_create_staker. destruct (msg_delegate _ _ _ _ _) as [d|]; [|done]. unfold msg_create_staker. destruct (ss_stakers (c_s c) !! s) eqn:Es; [done|]. intros [= <-].
  unfold commission_at. rewrite Es. split; [done|]. split; [cbn; by rewrite lookup_insert|]. unfold ev_msg_delegate. rewrite !elem_of_app. left. right. by left.
Qed.
Definition skips (x : event) : Prop := match x with EvSkipped _ _ _ _ => True | _ => False end.
Lemma tell_skip c p s v from c' : cmsg c (CSkip p s v from) = Some c' -> forall l x, x ∈ emitted c (CSkip p s v from) -> reports c c' l x.
Proof.
  intros Hm. assert (Hs : next_of c p = s).
  { revert Hm. cbn [cmsg]. unfold msg_skip. destruct (can_propose c p s v from) eqn:E; [|done]. intros _. revert E. unfold can_propose. destruct (get_pool c p); [|done]. rewrite !andb_true_iff, N.eqb_eq. tauto. }
  intros l x. cbn [emitted]. unfold ev_skip. cbv zeta. set (c1 := reset_pts _ _ _).
  assert (HP : forall l', Forall (fun x => forall r, reports c c' r x) l' -> x ∈ l' -> reports c c' l x). { intros l' HF Hin. rewrite Forall_forall in HF. by apply HF. }
  apply HP. apply Forall_app. split; [unfold ev_reset; destruct (0 <? _); by repeat constructor|]. apply Forall_app. split; [by apply sh_tally|].
  destruct (tally _ _ _); try constructor; destruct (choose _ _ _).
  - by repeat constructor.
  - by repeat constructor.
  - by repeat constructor.
Qed.
(** A skip that is accepted publishes that the uploader skipped. *)
Lemma skip_tells c p s v from c' : cmsg c (CSkip p s v from) = Some c' -> exists i n, EvSkipped p i s n ∈ emitted c (CSkip p s v from).
Proof.
  cbn [cmsg emitted]. unfold msg_skip, ev_skip. destruct (negb _); [done|]. cbv zeta. set (c1 := reset_pts _ _ _).
  destruct (tally c1 (get_prop c p) p) as [c2 w fp x0 r|c2 w|c2 w|c2|]; try done; destruct (choose _ _ _) as [n c3]; intros _; do 2 eexists; rewrite !elem_of_app, ?elem_of_list_singleton; eauto 6.
Qed.
(** Events of which [reports] says something come from the message of their name only. *)
Definition unreported (x : event) : Prop :=
  match x with EvScheduled _ _ _ _ _ _ | EvCancelled _ _ | EvTeamClawback _ _ _ _ | EvClaimedRole _ _ _ | EvCreateStaker _ _ _ | EvFund _ _ _ _ | EvSkipped _ _ _ _ | EvCreateFunder _ => False | _ => True end.
Lemma unreported_reports c c' l x : unreported x -> reports c c' l x. Proof. by destruct x. Qed.
Lemma u_reset c p s : Forall unreported (ev_reset c p s). Proof. unfold ev_reset. destruct (_ <? _); by repeat constructor. Qed.
Lemma u_tally c b p : Forall unreported (ev_tally c b p). Proof. by apply sh_tally. Qed.
Lemma u_register c m : Forall unreported (ev_register c m). Proof. unfold ev_register. destruct (get_pool _ _); by repeat constructor. Qed.
Lemma u_non c p : Forall unreported (ev_non_voters c p).
Proof. pose proof (u_tally c (get_prop c p) p) as H. unfold ev_tally in H. by apply Forall_app in H as [H _]. Qed.
Lemma u_late c p s : Forall unreported (ev_timeout_point c p s).
Proof.
  unfold ev_timeout_point. destruct (in_pool c p s); [|constructor]. unfold ev_add_point. destruct (increment_points _ _ _) as [s' n]. constructor; [done|]. cbv zeta.
  destruct (_ <=? _); [|constructor]. apply Forall_app. split; [by apply sh_slash|by repeat constructor].
Qed.
Lemma u_submit c m : Forall unreported (ev_submit c m).
Proof.
  unfold ev_submit. cbv zeta. apply Forall_app. split; [apply u_reset|]. destruct (_ =? 0)%N; [apply u_register|]. apply Forall_app. split; [apply u_tally|].
  destruct (tally _ _ _); try constructor; try done. destruct (choose_from _ _ _). apply Forall_app. split; [by repeat constructor|apply u_register].
Qed.
Lemma u_turns l c : Forall unreported (ev_timeouts c l).
Proof.
  revert c. induction l as [|[p i] l IH]; intros c; cbn [ev_timeouts]; [constructor|]. apply Forall_app. split; [|destruct (timeout_pool c p i); [apply IH|constructor]].
  unfold ev_timeout_pool. cbv zeta. destruct (pool_error c p). { destruct (_ && _); by repeat constructor. }
  destruct (_ <? _); [constructor|]. destruct (_ && _). { apply Forall_app. split; [apply u_non|by repeat constructor]. }
  destruct (_ <? _); [constructor|]. destruct (_ =? 0)%N; [destruct (choose _ _ _); apply u_late|]. apply Forall_app. split; [apply u_tally|].
  destruct (tally _ _ _); try constructor; [destruct (choose_from _ _ _)|destruct (choose _ _ _)..]; (apply Forall_app; split; [by repeat constructor|apply u_late]).
Qed.
Section steps.
  Context (g : gen) (Hg : genesis g).
  Lemma tell_events ops o : cops_ok (gstart g) ops -> let c := crun (gstart g) ops in forall x, x ∈ events c o -> reports c (cstep c o) (events c o) x.
  Proof.
    intros _ c x. unfold events, cstep. generalize c. clear c. intros c. destruct (cmsg c o) as [c'|] eqn:Hm; [|by intros ?%elem_of_nil]. change (default c (Some c')) with c'. intros Hx.
    assert (HU : Forall unreported (emitted c o) -> reports c c' (emitted c o) x). { intros H. rewrite Forall_forall in H. by apply unreported_reports, H. }
    assert (HA : forall l y, unreported y \/ reports c c' [] y -> match y with EvCreateStaker _ _ _ => False | _ => True end -> reports c c' l y). { intros l y [H|H]; [by intros _; apply unreported_reports|]. by destruct y. }
    destruct o; try (apply HU; cbn [emitted]; shape; fail); try (apply HU; cbn [emitted]; by repeat constructor).
    all: cbn [emitted] in *.
    - apply elem_of_app in Hx as [Hx|Hx]; [|apply elem_of_list_singleton in Hx as ->; by apply tell_staker]. apply unreported_reports.
      assert (H : Forall unreported (ev_msg_delegate (d_in c) s s a)) by shape. rewrite Forall_forall in H. by apply H.
    - apply elem_of_list_singleton in Hx as ->. cbn [cmsg reports] in *. unfold msg_create_funder in Hm. destruct (bool_decide _) eqn:Eb; [done|]. apply bool_decide_eq_false in Eb. injection Hm as <-.
      split; [done|]. cbn. set_solver.
    - unfold ev_fund in Hx. apply elem_of_app in Hx as [Hx|Hx]; [|apply elem_of_list_singleton in Hx as ->; by apply (tell_fund _ _ _ _ _ _ Hm)]. apply unreported_reports.
      assert (H : Forall unreported (ev_free_slot (f_in c) p a (default [] (fs_active (f_in c) !! p)))) by by apply sh_free_slot. rewrite Forall_forall in H. by apply H.
    - destruct o; try (apply HU; by repeat constructor). pose proof (tell_clawback _ _ _ _ _ Hm x Hx) as H. apply HA; [by right|]. cbn [ev_team] in Hx. destruct (ts_accounts _ !! id); [|by apply elem_of_nil in Hx]. by apply elem_of_list_singleton in Hx as ->.
    - apply HU. apply u_submit.
    - apply HU. unfold ev_vote. apply Forall_app. split; [|by repeat constructor]. apply u_reset.
    - by eapply tell_skip.
    - apply elem_of_list_singleton in Hx as ->. by apply (tell_role _ _ _ _ _ Hm).
    - apply elem_of_list_singleton in Hx as ->. by apply (tell_schedule _ _ _ _ _ _ _ _ Hm).
    - apply elem_of_list_singleton in Hx as ->. by apply (tell_cancel _ _ _ _ Hm).
    - apply HU. unfold ev_handle_timeout. destruct (timeouts _ _); [|constructor]. apply u_turns.
  Qed.
  Lemma funder_events ops o a : cops_ok (gstart g) ops -> let c := crun (gstart g) ops in
    EvCreateFunder a ∈ events c o <-> a ∉ fs_funders (c_f c) /\ a ∈ fs_funders (c_f (cstep c o)).
  Proof.
    intros Hok c. split; [intros H; apply (tell_events ops o Hok _ H)|]. intros [H1 H2]. pose proof (registered_run [o] c a) as H. cbn [crun registered] in H.
    apply H in H2 as [H2|[[-> [c' Hm]]|[]]]; [done|]. unfold events. rewrite Hm. cbn [emitted]. by left.
  Qed.
  Lemma skip_events ops p s v from : cops_ok (gstart g) ops -> let c := crun (gstart g) ops in is_Some (cmsg c (CSkip p s v from)) ->
    exists i n, EvSkipped p i s n ∈ events c (CSkip p s v from).
  Proof. intros _ c [c' Hm]. unfold events. rewrite Hm. by eapply skip_tells. Qed.
End steps.
