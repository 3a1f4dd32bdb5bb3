(** * Following proposals, votes, the archive and the progress of every pool. *)
From Verif Require Import Base BaseFacts Delegation Stakers StakersInv Funders Team RoundRobin Pool PoolFrame Bundles Chain ChainFrame ChainLift Walk ArchiveInv PaySafe PayFlow Events EventWalk EventFollow EventStakers.

(** ** What a follower keeps *)
Record pending := mkPd {
  pd_storage : N; pd_uploader : N; pd_data : Z; pd_from : Z; pd_size : Z; pd_fromkey : N; pd_tokey : N; pd_summary : N; pd_hash : N; pd_sp : N; pd_comp : N;
  pd_valid : list N; pd_invalid : list N; pd_abstain : list N
}.
Record archived := mkAr {
  ar_storage : N; ar_uploader : N; ar_from : Z; ar_to : Z; ar_fromkey : N; ar_tokey : N; ar_sum : N; ar_hash : N; ar_time : Z; ar_sp : N; ar_comp : N; ar_valid : Z; ar_total : Z
}.
Record bview := mkBV { bv_pending : N -> option pending; bv_archive : N -> N -> option archived; bv_progress : N -> option (Z * N * N * N) }.
Definition at_pool {A} (f : N -> A) (p : N) (x : A) : N -> A := fun q => if (q =? p)%N then x else f q.
Definition cast (x : pending) (s : N) (w : vote) : pending :=
  let others := List.filter (fun t => negb (t =? s)%N) (pd_abstain x) in
  let '(v, i, a) := match w with
    | Valid => (pd_valid x ++ [s], pd_invalid x, others) | Invalid => (pd_valid x, pd_invalid x ++ [s], others)
    | Abstain => (pd_valid x, pd_invalid x, others ++ [s]) | OtherVote => (pd_valid x, pd_invalid x, others) end in
  mkPd (pd_storage x) (pd_uploader x) (pd_data x) (pd_from x) (pd_size x) (pd_fromkey x) (pd_tokey x) (pd_summary x) (pd_hash x) (pd_sp x) (pd_comp x) v i a.
Definition see_bundle (v : bview) (e : event) : bview :=
  match e with
  | EvProposed e => mkBV (at_pool (bv_pending v) (ep_pool e) (Some (mkPd (ep_storage e) (ep_uploader e) (ep_data e) (ep_from e) (ep_size e) (ep_fromkey e) (ep_tokey e)
      (ep_summary e) (ep_hash e) (ep_sp e) (ep_comp e) [] [] []))) (bv_archive v) (bv_progress v)
  | EvVote p s _ w => mkBV (at_pool (bv_pending v) p (match bv_pending v p with Some x => Some (cast x s w) | None => None end)) (bv_archive v) (bv_progress v)
  | EvFinalized f =>
      let p := ef_pool f in
      match ef_status f, bv_pending v p with
      | Judged VValid, Some x =>
          mkBV (at_pool (bv_pending v) p None)
            (at_pool (bv_archive v) p (at_pool (bv_archive v p) (ef_id f) (Some (mkAr (pd_storage x) (pd_uploader x) (pd_from x) (pd_from x + pd_size x)
               (pd_fromkey x) (pd_tokey x) (pd_summary x) (pd_hash x) (ef_time f) (pd_sp x) (pd_comp x) (ef_valid f) (ef_total f)))))
            (at_pool (bv_progress v) p (Some (pd_from x + pd_size x, (ef_id f + 1)%N, pd_tokey x, pd_summary x)))
      | _, _ => mkBV (at_pool (bv_pending v) p None) (bv_archive v) (bv_progress v)
      end
  | EvCreatePool p _ => mkBV (bv_pending v) (bv_archive v) (at_pool (bv_progress v) p (Some (0, 0%N, 0%N, 0%N)))
  | _ => v
  end.
Definition bview0 : bview := mkBV (fun _ => None) (fun _ _ => None) (fun _ => None).

(** ** What is stored *)
Definition pending_of (c : chain) (p : N) : option pending :=
  let b := get_prop c p in
  if (bp_storage b =? 0)%N then None
  else Some (mkPd (bp_storage b) (bp_uploader b) (bp_data b) (index_at c p) (bp_size b) (bp_from b) (bp_to b) (bp_summary b) (bp_hash b) (bp_sp b) (bp_comp b)
         (bp_valid b) (bp_invalid b) (bp_abstain b)).
Definition archived_of (c : chain) (p i : N) : option archived :=
  match c_fin c !! (p, i) with
  | Some f => Some (mkAr (fb_storage f) (fb_uploader f) (fb_from f) (fb_to f) (fb_fromkey f) (fb_tokey f) (fb_summary f) (fb_hash f) (fb_time f) (fb_sp f) (fb_comp f) (fb_valid f) (fb_total f))
  | None => None
  end.
Definition progress_of (c : chain) (p : N) : option (Z * N * N * N) :=
  match get_pool c p with Some x => Some (pl_index x, pl_total x, pl_key x, pl_summary x) | None => None end.

Lemma at_pool_eq {A} (f : N -> A) p x q : at_pool f p x q = if decide (q = p) then x else f q.
Proof. unfold at_pool. destruct (N.eqb_spec q p); by case_decide. Qed.
Lemma remove_filter s l : NoDup l -> remove_first s l = List.filter (fun t => negb (t =? s)%N) l.
Proof.
  induction 1 as [|x l Hx _ IH]; cbn [remove_first List.filter]; [done|]. destruct (N.eqb_spec x s) as [->|Hn]; cbn [negb]; [|by rewrite IH].
  symmetry. clear IH. induction l as [|y l IH]; cbn [List.filter]; [done|]. destruct (N.eqb_spec y s) as [->|]; [exfalso; apply Hx; apply elem_of_list_here|].
  cbn [negb]. f_equal. apply IH. intros H. apply Hx. by apply elem_of_list_further.
Qed.
Lemma filter_absent s l : s ∉ l -> List.filter (fun t => negb (t =? s)%N) l = l.
Proof.
  induction l as [|x l IH]; intros H; cbn [List.filter]; [done|]. destruct (N.eqb_spec x s) as [->|]; [exfalso; apply H; apply elem_of_list_here|]. cbn [negb]. f_equal. apply IH.
  intros H'. apply H. by apply elem_of_list_further.
Qed.

(** ** Steps that leave pending bundles, archive and progress alone *)
Definition same_prog (s s' : pstore) : Prop :=
  forall p, match ps_pools s !! p, ps_pools s' !! p with
            | Some a, Some b => (pl_index b, pl_total b, pl_key b, pl_summary b) = (pl_index a, pl_total a, pl_key a, pl_summary a)
            | None, None => True | _, _ => False end.
Lemma sp_refl s : same_prog s s. Proof. intros p. by destruct (ps_pools s !! p). Qed.
Lemma sp_fmap s (f : pool -> pool) : (forall p, (pl_index (f p), pl_total (f p), pl_key (f p), pl_summary (f p)) = (pl_index p, pl_total p, pl_key p, pl_summary p)) ->
  same_prog s (mkPS (f <$> ps_pools s) (ps_count s)).
Proof. intros Hf p. cbn [ps_pools]. rewrite lookup_fmap. destruct (ps_pools s !! p); cbn; auto. Qed.
Lemma sp_set s i a b : ps_pools s !! i = Some a -> (pl_index b, pl_total b, pl_key b, pl_summary b) = (pl_index a, pl_total a, pl_key a, pl_summary a) -> same_prog s (set_pool s i b).
Proof. intros H H1 p. cbn [ps_pools set_pool]. destruct (decide (p = i)) as [->|Hn]; [by rewrite H, lookup_insert|]. rewrite lookup_insert_ne by done. by destruct (ps_pools s !! p). Qed.
Lemma sp_update s sender i a s' : msg_update_pool s sender i a = Some s' -> same_prog s s'.
Proof. unfold msg_update_pool. destruct (negb _); [done|]. destruct (negb _); [done|]. destruct (ps_pools s !! i) eqn:E; [|done]. intros [= <-]. by eapply sp_set. Qed.
Lemma sp_enable s sender i s' : msg_enable_pool s sender i = Some s' -> same_prog s s'.
Proof. unfold msg_enable_pool. destruct (negb _); [done|]. destruct (ps_pools s !! i) eqn:E; [|done]. destruct (pl_disabled _); [|done]. intros [= <-]. by eapply sp_set. Qed.
Lemma sp_disable s sender i s' : disable_record s sender i = Some s' -> same_prog s s'.
Proof. unfold disable_record. destruct (negb _); [done|]. destruct (ps_pools s !! i) eqn:E; [|done]. destruct (pl_disabled _); [done|]. intros [= <-]. by eapply sp_set. Qed.
Lemma sp_schedule s now sender r v b t d s' : msg_schedule s now sender r v b t d = Some s' -> same_prog s s'.
Proof.
  unfold msg_schedule. destruct (negb _); [done|]. destruct (_ || _); [done|]. intros [= <-]. apply sp_fmap. intros p. unfold schedule_one. destruct (negb _); [done|]. by destruct (negb _).
Qed.
Lemma sp_cancel s sender r s' : msg_cancel s sender r = Some s' -> same_prog s s'.
Proof. unfold msg_cancel. destruct (negb _); [done|]. intros [= <-]. apply sp_fmap. intros p. unfold cancel_one. destruct (negb _); [done|]. by destruct (_ =? 0). Qed.
Lemma sp_upgrades s now : same_prog s (handle_upgrades s now).
Proof. apply sp_fmap. intros p. unfold upgrade_one. destruct (_ && _); [|done]. destruct (_ || _); by destruct (_ <=? now). Qed.

Section bundles.
  Context (g : gen) (Hg : genesis g).
  Definition bundles_ok (c : chain) (v : bview) : Prop :=
    (forall p, bv_pending v p = pending_of c p) /\ (forall p i, bv_archive v p i = archived_of c p i) /\ (forall p, bv_progress v p = progress_of c p).
  Local Notation E := (E see_bundle bundles_ok).
  Definition same_b (c c' : chain) : Prop :=
    (forall p, pending_of c' p = pending_of c p) /\ (forall p i, archived_of c' p i = archived_of c p i) /\ (forall p, progress_of c' p = progress_of c p).
  Lemma bun_same c c' : same_b c c' -> E c [] c'.
  Proof. intros (H1 & H2 & H3) v (V1 & V2 & V3). split; [|split]; intros; cbn [fold_left]; rewrite ?H1, ?H2, ?H3; auto. Qed.
  Lemma bun_keep c c' : c_prop c' = c_prop c -> c_fin c' = c_fin c -> same_prog (c_pools c) (c_pools c') -> same_b c c'.
  Proof.
    intros H1 H2 H3. assert (Hi : forall p, index_at c' p = index_at c p).
    { intros p. unfold index_at, get_pool. specialize (H3 p). destruct (ps_pools (c_pools c) !! p), (ps_pools (c_pools c') !! p); try done. by injection H3. }
    split; [|split].
    - intros p. unfold pending_of, get_prop. by rewrite H1, Hi.
    - intros p i. unfold archived_of. by rewrite H2.
    - intros p. unfold progress_of, get_pool. specialize (H3 p). destruct (ps_pools (c_pools c) !! p), (ps_pools (c_pools c') !! p); try done. by f_equal.
  Qed.
  Lemma bun_frame c c' : bpart c' = bpart c -> same_b c c'.
  Proof. intros H. apply bpart_eq in H as (H1 & _ & H2 & H3 & _). apply bun_keep; [done|done|]. rewrite H1. apply sp_refl. Qed.
  Lemma pending_set c p b q : pending_of (set_prop c p b) q = if decide (q = p) then
      (if (bp_storage b =? 0)%N then None else Some (mkPd (bp_storage b) (bp_uploader b) (bp_data b) (index_at c p) (bp_size b) (bp_from b) (bp_to b) (bp_summary b) (bp_hash b) (bp_sp b) (bp_comp b)
         (bp_valid b) (bp_invalid b) (bp_abstain b))) else pending_of c q.
  Proof.
    unfold pending_of, get_prop, set_prop. cbn [c_prop cw_prop]. case_decide as D; [subst q; rewrite lookup_insert; done|]. rewrite lookup_insert_ne by done. done.
  Qed.
  Lemma bun_reset c p s : E c (ev_reset c p s) (reset_pts c p s).
  Proof. apply E_quiet; [unfold ev_reset; destruct (0 <? _); by repeat constructor|]. apply bun_same, bun_frame, b_reset. Qed.
  Lemma sh_non (P : event -> Prop) c p : (forall s a t, P (EvSlash p s a t)) -> (forall s, P (EvLeave p s)) -> (forall s n, P (EvPoint p s n)) -> Forall P (ev_non_voters c p).
  Proof.
    intros H1 H2 H3. apply sh_fold. intros c0 s. destruct (voted (get_prop c p) s); [constructor|]. unfold ev_add_point. destruct (increment_points _ _ _). constructor; [done|].
    destruct (_ <=? _); [|constructor]. apply Forall_app. split; [by apply sh_slash|by repeat constructor].
  Qed.
  Lemma bun_non c p : E c (ev_non_voters c p) (handle_non_voters c p).
  Proof. apply E_quiet; [by apply sh_non|]. apply bun_same, bun_frame, b_non_voters. Qed.
  Lemma bun_tpoint c p s : E c (ev_timeout_point c p s) (timeout_point c p s).
  Proof.
    apply E_quiet; [|apply bun_same, bun_frame, b_timeout_point]. unfold ev_timeout_point. destruct (in_pool c p s); [|constructor]. unfold ev_add_point. destruct (increment_points _ _ _). constructor; [done|].
    destruct (_ <=? _); [|constructor]. apply Forall_app. split; [by apply sh_slash|by repeat constructor].
  Qed.
  Lemma bun_next c p n t : E c [] (set_prop c p (with_next (get_prop c p) n t)).
  Proof.
    apply bun_same. split; [|done]. intros q. rewrite pending_set. case_decide as D; [subst q|done]. done.
  Qed.
  Lemma bun_drop c p v s n : s <> Judged VValid -> E c (ev_drop c p v s) (drop c p n).
  Proof.
    intros Hs w (V1 & V2 & V3). unfold ev_drop, drop. cbn [fold_left see_bundle ef_status ef_pool].
    assert (Hw : (match s, bv_pending w p with Judged VValid, Some x => mkBV (at_pool (bv_pending w) p None)
            (at_pool (bv_archive w) p (at_pool (bv_archive w p) (total_of c p) (Some (mkAr (pd_storage x) (pd_uploader x) (pd_from x) (pd_from x + pd_size x)
               (pd_fromkey x) (pd_tokey x) (pd_summary x) (pd_hash x) (c_time c) (pd_sp x) (pd_comp x) (v_valid v) (v_total v)))))
            (at_pool (bv_progress w) p (Some (pd_from x + pd_size x, (total_of c p + 1)%N, pd_tokey x, pd_summary x)))
       | _, _ => mkBV (at_pool (bv_pending w) p None) (bv_archive w) (bv_progress w) end) = mkBV (at_pool (bv_pending w) p None) (bv_archive w) (bv_progress w)).
    { destruct s as [[]|]; done. }
    cbv zeta. cbn [ef_id ef_time ef_valid ef_total]. rewrite Hw. split; [|done]. intros q. cbn [bv_pending]. rewrite at_pool_eq, pending_set. case_decide; [done|]. apply V1.
  Qed.
  Lemma bun_register c m n : is_Some (get_pool c (sb_pool m)) -> bp_storage (get_prop c (sb_pool m)) = 0%N -> sb_storage m <> 0%N -> E c (ev_register c m) (register c m n).
  Proof.
    intros [pl Hpl] _ Hs w (V1 & V2 & V3). unfold ev_register, register. rewrite Hpl. cbn [fold_left see_bundle ep_pool ep_storage ep_uploader ep_data ep_from ep_size ep_fromkey ep_tokey ep_summary ep_hash ep_sp ep_comp bv_pending bv_archive bv_progress].
    split; [|done]. intros q. cbn [bv_pending]. rewrite !at_pool_eq, (decide_True (P := sb_pool m = sb_pool m)) by done. rewrite pending_set. case_decide; [subst q|by apply V1].
    cbn [bp_storage]. apply N.eqb_neq in Hs. rewrite Hs. done.
  Qed.
  Lemma bun_tally_frame c p c' v : (tally c (get_prop c p) p = TrInvalid c' v \/ tally c (get_prop c p) p = TrNoQuorum c' v) -> E c (ev_tally c (get_prop c p) p) c'.
  Proof.
    intros H. apply E_quiet; [shape|]. apply bun_same, bun_frame. pose proof (b_tally c (get_prop c p) p) as Hb. destruct H as [H|H]; by rewrite H in Hb.
  Qed.
  Lemma bun_valid c p c' v fp x r y n t : R g c -> is_Some (get_pool c p) -> tally c (get_prop c p) p = TrValid c' v fp x r ->
      E c (ev_tally c (get_prop c p) p ++ ev_finalize (cw_rr c' y) p v fp x r n) (set_prop (finalize (cw_rr c' y) p v) p (bp_none n t)).
  Proof.
    intros (HG & HA & HU) [pl Hpl] Ht. pose proof (tally_status c (get_prop c p) p) as Hvs. rewrite Ht in Hvs. pose proof (tally_valid_full _ _ _ _ _ _ _ _ HA Ht) as Hz.
    pose proof (b_tally c (get_prop c p) p) as Hbt. rewrite Ht in Hbt. destruct (get_prop_room c p pl HA Hpl) as [R1 R2].
    eapply E_trans; [apply (E_quiet _ _ c _ (cw_rr c' y)); [shape|apply bun_same, bun_frame; exact Hbt]|].
    assert (Hgp : get_prop (cw_rr c' y) p = get_prop c p) by (exact (get_prop_b c c' p Hbt)).
    assert (Hgl : get_pool (cw_rr c' y) p = Some pl) by (rewrite <- Hpl; exact (get_pool_b c c' p Hbt)).
    set (c2 := cw_rr c' y) in *. clearbody c2. intros w (V1 & V2 & V3). unfold ev_finalize. cbn [fold_left see_bundle ef_status ef_pool ef_id ef_time ef_valid ef_total].
    rewrite Hvs, (V1 p). unfold pending_of. rewrite Hgp. apply N.eqb_neq in Hz. rewrite Hz. cbv zeta.
    assert (Hto : u64_add (pl_index pl) (bp_size (get_prop c p)) = pl_index pl + bp_size (get_prop c p)).
    { unfold u64_add, w64. apply Z.mod_small. split; [|done]. pose proof (get_prop_ok c p HA) as [(_ & Hsz & _)|(_ & Hsz & _)]; lia. }
    assert (Hi : index_at c2 p = pl_index pl) by (unfold index_at; by rewrite Hgl).
    assert (Htt : total_of c2 p = pl_total pl) by (unfold total_of; by rewrite Hgl).
    rewrite Hi, Htt. set (c3 := finalize c2 p v).
    assert (Hc3 : c3 = cw_pools (cw_fin c2 (<[(p, pl_total pl) := mkFB (bp_storage (get_prop c p)) (bp_uploader (get_prop c p)) (pl_index pl) (pl_index pl + bp_size (get_prop c p)) (bp_from (get_prop c p)) (bp_to (get_prop c p)) (bp_summary (get_prop c p)) (bp_hash (get_prop c p))
         (c_height c2) (c_time c2) (bp_sp (get_prop c p)) (bp_comp (get_prop c p)) (v_valid v) (v_total v)]> (c_fin c2)) (<[(p, pl_index pl) := pl_total pl]> (c_idx c2)))
         (set_pool (c_pools c2) p (with_progress pl (pl_index pl + bp_size (get_prop c p)) (pl_total pl + 1) (bp_to (get_prop c p)) (bp_summary (get_prop c p))))).
    { unfold c3, finalize. rewrite Hgl, Hgp, Hto. cbv zeta. f_equal. unfold increment_bundle. change (ps_pools (c_pools (cw_fin c2 ?a ?b)) !! p) with (get_pool c2 p). rewrite Hgl. done. }
    clearbody c3. set (b := get_prop c p) in *. split; [|split].
    - intros q. cbn [bv_pending]. rewrite at_pool_eq, pending_set. case_decide as D; [done|]. rewrite V1. subst c3. unfold pending_of, index_at, get_prop, get_pool.
      cbn [c_prop c_pools cw_pools cw_fin set_pool ps_pools]. by rewrite lookup_insert_ne by done.
    - intros q i. cbn [bv_archive]. unfold archived_of. subst c3. change (c_fin (set_prop (cw_pools (cw_fin c2 ?a ?b) ?d) p ?e)) with a. rewrite at_pool_eq.
      destruct (decide (q = p)) as [->|Hn]; [|rewrite lookup_insert_ne by congruence; apply V2]. rewrite at_pool_eq.
      destruct (decide (i = pl_total pl)) as [->|Hn]; [by rewrite lookup_insert|]. rewrite lookup_insert_ne by congruence. apply V2.
    - intros q. cbn [bv_progress]. unfold progress_of. subst c3. change (get_pool (set_prop (cw_pools ?a (set_pool ?d p ?f)) p ?e) q) with (<[p := f]> (ps_pools d) !! q). rewrite at_pool_eq.
      destruct (decide (q = p)) as [->|Hn]; [by rewrite lookup_insert|]. rewrite lookup_insert_ne by congruence. apply V3.
  Qed.
  Lemma bun_vote c p s v st w c' : R g c -> msg_vote c p s v st w = Some c' -> E c (ev_vote c p s st w) c'.
  Proof.
    intros (_ & HA & _). unfold msg_vote, ev_vote. destruct (can_vote c p s v st) eqn:Ec; [|done]. cbn [negb]. cbv zeta.
    unfold can_vote in Ec. rewrite !andb_true_iff, !negb_true_iff in Ec. destruct Ec as [[[[[_ _] Hs] _] Hv] Hi]. apply N.eqb_neq in Hs.
    assert (Hnd : NoDup (bp_abstain (get_prop c p))).
    { pose proof (get_prop_ok c p HA) as [(Hz & _)|(_ & _ & _ & _ & Hnd)]; [done|]. unfold voters in Hnd. apply NoDup_app in Hnd as (_ & _ & Hnd). by apply NoDup_app in Hnd as (_ & _ & Hnd). }
    set (b := get_prop c p) in *. set (a := if memb s (bp_abstain b) then _ else _).
    assert (Ha : a = List.filter (fun t => negb (t =? s)%N) (bp_abstain b)).
    { unfold a. destruct (memb s (bp_abstain b)) eqn:Em; [by apply remove_filter|]. symmetry. apply filter_absent. by apply memb_false. }
    clearbody a. intros H.
    assert (Hb : exists b', c' = reset_pts (set_prop c p b') p s /\ bp_storage b' <> 0%N /\
      mkPd (bp_storage b') (bp_uploader b') (bp_data b') (index_at c p) (bp_size b') (bp_from b') (bp_to b') (bp_summary b') (bp_hash b') (bp_sp b') (bp_comp b') (bp_valid b') (bp_invalid b') (bp_abstain b') =
      cast (mkPd (bp_storage b) (bp_uploader b) (bp_data b) (index_at c p) (bp_size b) (bp_from b) (bp_to b) (bp_summary b) (bp_hash b) (bp_sp b) (bp_comp b) (bp_valid b) (bp_invalid b) (bp_abstain b)) s w).
    { destruct w; [| |destruct (memb s (bp_abstain b)); [done|]|done]; injection H as <-; eexists; (split; [reflexivity|]); (split; [exact Hs|]); unfold cast; cbn; by rewrite Ha. }
    destruct Hb as (b' & -> & Hb1 & Hb2). rewrite <- (app_nil_r [EvVote p s st w]).
    change (ev_reset c p s) with (ev_reset (set_prop c p b') p s).
    assert (Hq : Forall (quiet see_bundle) (ev_reset (set_prop c p b') p s)) by (unfold ev_reset; destruct (0 <? _); by repeat constructor).
    assert (HE : E c [EvVote p s st w] (set_prop c p b')).
    { intros x (V1 & V2 & V3). cbn [fold_left see_bundle]. split; [|done]. intros q. cbn [bv_pending]. rewrite at_pool_eq, pending_set. case_decide as D; [subst q|apply V1].
      apply N.eqb_neq in Hb1. rewrite Hb1, Hb2, V1. unfold pending_of. fold b. apply N.eqb_neq in Hs. by rewrite Hs. }
    intros x Hx. rewrite fold_left_app, (quiet_all _ _ x Hq), fold_left_app. cbn [fold_left]. apply (bun_same _ _ (bun_frame _ _ (b_reset (set_prop c p b') p s))). by apply HE.
  Qed.
  Lemma bun_begin c t pr : same_b c (begin_block c t pr).
  Proof.
    unfold begin_block. set (c0 := cw_time _ _ _). set (c1 := t_out c0 _). set (c2 := match split_inflation c1 pr with Some x => x | None => cw_halt c1 end).
    assert (H2 : bpart c2 = bpart c1). { unfold c2. destruct (split_inflation c1 pr) eqn:Es; [by apply b_split in Es|done]. }
    apply bpart_eq in H2 as (H1 & _ & H2 & H3 & _). apply bun_keep; [exact H2|exact H3|]. cbv zeta. change (c_pools (s_out (d_out c2 ?x) ?y)) with (c_pools c2). rewrite H1. apply sp_refl.
  Qed.
  Lemma bun_disable c sender p c' : chain_disable_pool c sender p = Some c' -> same_b c c'.
  Proof.
    unfold chain_disable_pool. destruct (disable_record _ _ _) as [ps|] eqn:Ed; [|done]. cbv zeta.
    pose proof (b_leave_all (cw_pools c ps) (members (cw_pools c ps) p) p) as Hb. set (c2 := fold_left _ _ _) in *. intros H.
    assert (Hc : bpart c' = bpart c2).
    { revert H. clearbody c2. clear. destruct (two64 <=? _); [done|]. destruct (0 <? _); [|by intros [= <-]]. destruct (i64 _ <? 0); [done|]. destruct (send _ _ _ _); [|done]. by intros [= <-]. }
    rewrite Hb in Hc. apply bpart_eq in Hc as (H1 & _ & H2 & H3 & _). apply bun_keep; [exact H2|exact H3|]. rewrite H1. by eapply sp_disable.
  Qed.
  Local Ltac still := apply E_quiet; [shape|first [by apply bun_same, bun_frame|apply bun_same, bun_keep; [done|done|apply sp_refl]]].
  Local Ltac walk L := eapply L; eauto using (E_refl see_bundle bundles_ok), (E_trans see_bundle bundles_ok), bun_reset, bun_non, bun_tpoint, bun_next, bun_drop, bun_register, bun_valid.
  Lemma bun_step c o c' : R g c -> cop_ok c o -> cmsg c o = Some c' -> E c (emitted c o) c'.
  Proof.
    intros HR Hok Hm.
    assert (Hrr : forall c x, E c [] (cw_rr c x)) by (intros; by apply bun_same, bun_frame).
    assert (Hbad : forall c, E c [] (cw_bad c)) by (intros; by apply bun_same, bun_frame).
    assert (Hskip : forall c p i s n, E c [EvSkipped p i s n] c) by (intros; apply E_quiet; [by repeat constructor|apply E_refl]).
    assert (Hinv : forall c p c' v, R g c -> tally c (get_prop c p) p = TrInvalid c' v -> E c (ev_tally c (get_prop c p) p) c') by (intros; eapply bun_tally_frame; eauto).
    assert (Hnoq : forall c p c' v, R g c -> tally c (get_prop c p) p = TrNoQuorum c' v -> E c (ev_tally c (get_prop c p) p) c') by (intros; eapply bun_tally_frame; eauto).
    destruct o; cbn [cmsg emitted] in *; try (one_of Hm; still); try (param Hm; still).
    - unfold chain_create_staker in Hm. destruct (msg_delegate _ _ _ _ _); [|done]. destruct (msg_create_staker _ _ _ _) as [st|] eqn:Es; [|done]. injection Hm as <-. still.
    - by walk (e_submit g E).
    - by eapply bun_vote.
    - by walk (e_skip g E).
    - unfold msg_claim_role in Hm. destruct (negb _); [done|]. destruct (negb _); [done|]. destruct (negb _); [done|]. injection Hm as <-.
      apply E_quiet; [by repeat constructor|]. apply bun_next.
    - unfold chain_create_pool in Hm. destruct (msg_create_pool _ _ _ _ _) as [ps|] eqn:Ep; [|done]. injection Hm as <-.
      unfold msg_create_pool in Ep. destruct (negb _); [done|]. destruct (negb _); [done|]. destruct (negb _); [done|]. injection Ep as <-.
      destruct HR as (_ & HA & _). set (n := ps_count (c_pools c)) in *.
      assert (Hn : get_pool c n = None). { destruct (get_pool c n) eqn:Eg; [|done]. exfalso. assert (n < n)%N by (apply (ai_pools _ HA); rewrite Eg; by eexists). lia. }
      destruct (ai_none _ HA _ Hn) as (Np & _).
      intros v (V1 & V2 & V3). cbn [fold_left see_bundle]. split; [|split].
      + intros q. cbn [bv_pending]. rewrite V1. unfold pending_of, index_at, get_prop, get_pool. cbn [c_prop c_pools cw_f cw_pools append_pool ps_pools]. fold n.
        destruct (decide (q = n)) as [->|Hq]; [by rewrite Np|by rewrite lookup_insert_ne by done].
      + intros q i. cbn [bv_archive]. apply V2.
      + intros q. cbn [bv_progress]. rewrite at_pool_eq, V3. unfold progress_of, get_pool. cbn [c_pools cw_f cw_pools append_pool ps_pools]. fold n.
        destruct (decide (q = n)) as [->|Hq]; [by rewrite lookup_insert|by rewrite lookup_insert_ne by done].
    - one_of Hm. apply E_quiet; [shape|]. apply bun_same, bun_keep; [done|done|]. by eapply sp_update.
    - one_of Hm. apply E_quiet; [shape|]. apply bun_same, bun_keep; [done|done|]. by eapply sp_enable.
    - apply E_quiet; [shape|]. apply bun_same. by eapply bun_disable.
    - one_of Hm. apply E_quiet; [shape|]. apply bun_same, bun_keep; [done|done|]. by eapply sp_schedule.
    - one_of Hm. apply E_quiet; [shape|]. apply bun_same, bun_keep; [done|done|]. by eapply sp_cancel.
    - injection Hm as <-. apply E_quiet; [shape|]. apply bun_same, bun_begin.
    - injection Hm as <-. walk (e_end g Hg E).
      + apply bun_same, bun_keep; [done|done|]. apply sp_upgrades.
      + intros; by apply bun_same, bun_frame.
    - injection Hm as <-. still.
  Qed.
  Lemma follow_bundles ops : cops_ok (gstart g) ops -> let v := fold_left see_bundle (elog (gstart g) ops) bview0 in let c := crun (gstart g) ops in
    (forall p, bv_pending v p = pending_of c p) /\ (forall p i, bv_archive v p i = archived_of c p i) /\ (forall p, bv_progress v p = progress_of c p).
  Proof. intros Hok. apply (follow_run g Hg see_bundle bundles_ok); [|exact bun_step|done]. split; [|split]; intros; try done. Qed.
End bundles.
