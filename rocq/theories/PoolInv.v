(** * Bounds of pools and proposals; disabled pools are empty. *)
From Verif Require Import Base BaseFacts Delegation Stakers StakersInv Funders Team RoundRobin Pool Bundles Chain ChainFrame ArchiveInv PoolFrame.

Definition plan_ok (x : plan) : Prop := 0 <= pn_at x < two64 /\ 0 <= pn_duration x < two64.
Definition pool_ok (p : pool) : Prop :=
  0 <= pl_interval p < two62 /\ 0 <= pl_weight p /\ u64 (pl_mindel p) /\ u64 (pl_maxsize p) /\ plan_ok (pl_plan p).
Record BInv (c : chain) : Prop := mkBInv {
  bi_time : 0 <= c_time c < two62;
  bi_upd : forall p, 0 <= bp_updated (get_prop c p) <= c_time c;
  bi_pool : forall p pl, get_pool c p = Some pl -> pool_ok pl;
  bi_empty : forall p pl s, get_pool c p = Some pl -> pl_disabled pl = true -> in_pool c p s = false
}.

(** ** The dates of proposals *)
Section dates.
Context (T : Z).
Definition ub (c : chain) : Prop := c_time c = T /\ 0 <= T /\ forall p, 0 <= bp_updated (get_prop c p) <= T.
Lemma ub_b c c' : bpart c' = bpart c -> ub c -> ub c'.
Proof.
  intros H (H0 & H1 & H2). assert (Et : c_time c' = c_time c) by (apply bpart_eq in H; apply H).
  split; [by rewrite Et|]. split; [done|]. intros p. rewrite (get_prop_b c c') by done. apply H2.
Qed.
Lemma ub_set c p b : ub c -> 0 <= bp_updated b <= T -> ub (set_prop c p b).
Proof.
  intros (H0 & H1 & H2) H. split; [done|]. split; [done|]. intros q. unfold get_prop. cbn [c_prop c_time set_prop cw_prop].
  destruct (decide (q = p)) as [->|Hne]; [by rewrite lookup_insert|]. rewrite lookup_insert_ne by done. apply H2.
Qed.
Lemma ub_now c p b : ub c -> bp_updated b = c_time c -> ub (set_prop c p b).
Proof. intros H E. apply ub_set; [done|]. rewrite E. destruct H as (? & ? & _). lia. Qed.
Lemma ub_keep c p b : ub c -> bp_updated b = bp_updated (get_prop c p) -> ub (set_prop c p b).
Proof. intros H E. apply ub_set; [done|]. rewrite E. apply H. Qed.
Lemma ub_finalize c p v : ub c -> ub (finalize c p v).
Proof. unfold finalize. destruct (get_pool c p); done. Qed.
Lemma time_finalize c p v : c_time (finalize c p v) = c_time c.
Proof. unfold finalize. by destruct (get_pool c p). Qed.
Lemma ub_register c m n : ub c -> ub (register c m n).
Proof. intros H. unfold register. destruct (get_pool c (sb_pool m)); by apply ub_now. Qed.
Lemma ub_submit c m c' : ub c -> msg_submit c m = Some c' -> ub c'.
Proof.
  intros HI. unfold msg_submit. destruct (can_propose _ _ _ _ _); simpl; [|done]. destruct (submit_valid c m); simpl; [|done].
  set (p := sb_pool m). set (b := get_prop c p). set (c1 := reset_pts c p (sb_staker m)).
  assert (H1 : ub c1) by done.
  destruct (bp_storage b =? 0)%N.
  - pose proof (b_choose c1 p []) as Hc. destruct (choose c1 p []) as [n c2]. simpl in Hc. intros [= <-].
    apply ub_register. by apply (ub_b c1).
  - pose proof (b_tally c1 b p) as Ht. destruct (tally c1 b p) as [c2 v f x r|c2 v|c2 v|c2|]; try done.
    + pose proof (b_choose_from c2 p (bp_valid b)) as Hc. destruct (choose_from _ _ _) as [n c3]. simpl in Hc. intros [= <-].
      apply ub_register, ub_finalize, (ub_b c2), (ub_b c1); done.
    + intros [= <-]. apply ub_now; [by apply (ub_b c1)|done].
Qed.
Lemma ub_vote c p s v st w c' : ub c -> msg_vote c p s v st w = Some c' -> ub c'.
Proof.
  intros HI. unfold msg_vote. destruct (can_vote _ _ _ _ _); simpl; [|done].
  match goal with |- match ?x with Some _ => _ | None => _ end = _ -> _ => destruct x as [b'|] eqn:E end; [|done].
  intros [= <-]. apply (ub_b (set_prop c p b')); [done|]. apply ub_keep; [done|].
  destruct w; [by injection E as <-..| |done]. destruct (memb _ _); [done|]. by injection E as <-.
Qed.
Lemma ub_skip c p s v from c' : ub c -> msg_skip c p s v from = Some c' -> ub c'.
Proof.
  intros HI. unfold msg_skip. destruct (can_propose _ _ _ _ _); simpl; [|done]. set (b := get_prop c p). set (c0 := reset_pts c p s).
  assert (H0 : ub c0) by done.
  pose proof (b_tally c0 b p) as Ht. destruct (tally c0 b p) as [c1 vv f x r|c1 vv|c1 vv|c1|]; try done; 
    pose proof (b_choose c1 p [s]) as Hc; destruct (choose c1 p [s]) as [n c2]; simpl in Hc; intros [= <-];
    assert (H2 : ub c2) by (apply (ub_b c1), (ub_b c0); done).
  - apply ub_now; [by apply ub_finalize|done].
  - by apply ub_now.
  - by apply ub_now.
Qed.
Lemma ub_claim_role c p s v c' : ub c -> msg_claim_role c p s v = Some c' -> ub c'.
Proof.
  intros HI. unfold msg_claim_role. destruct (can_run c p); simpl; [|done]. destruct (authorized _ _ _ _); simpl; [|done].
  destruct (_ =? 0)%N; simpl; [|done]. intros [= <-]. by apply ub_now.
Qed.
Lemma ub_timeout_pool c p i c' : ub c -> timeout_pool c p i = Some c' -> ub c'.
Proof.
  intros HI. unfold timeout_pool. set (b := get_prop c p). destruct (pool_error c p) as [e|].
  - intros [= <-]. destruct (_ && _); [by apply ub_now|]. destruct (negb _); [by apply ub_keep|done].
  - destruct (_ <? _); [by intros [= <-]|]. destruct (_ && _).
    + pose proof (b_choose (handle_non_voters c p) p []) as Hc. destruct (choose _ _ _) as [n c1]. simpl in Hc. intros [= <-].
      apply ub_now; [|done]. apply (ub_b (handle_non_voters c p)); [done|]. apply (ub_b c); [apply b_non_voters|done].
    + destruct (_ <? _); [by intros [= <-]|].
      assert (Hpt : forall x s, ub x -> ub (timeout_point x p s)) by (intros x s; apply ub_b, b_timeout_point).
      destruct (_ =? 0)%N.
      * pose proof (b_choose c p []) as Hc. destruct (choose _ _ _) as [n c1]. simpl in Hc. intros [= <-].
        apply Hpt. apply ub_now; [|done]. by apply (ub_b c).
      * pose proof (b_tally c b p) as Ht. destruct (tally c b p) as [c1 vv f x r|c1 vv|c1 vv|c1|]; try done.
        -- pose proof (b_choose_from c1 p (bp_valid b)) as Hc. destruct (choose_from _ _ _) as [n c2]. simpl in Hc. intros [= <-].
           apply Hpt, ub_now; [|done]. by apply ub_finalize, (ub_b c1), (ub_b c).
        -- pose proof (b_choose c1 p []) as Hc. destruct (choose _ _ _) as [n c2]. simpl in Hc. intros [= <-].
           apply Hpt, ub_now; [|done]. by apply (ub_b c1), (ub_b c).
        -- pose proof (b_choose c1 p []) as Hc. destruct (choose _ _ _) as [n c2]. simpl in Hc. intros [= <-].
           apply Hpt, ub_now; [|done]. by apply (ub_b c1), (ub_b c).
        -- intros [= <-]. by apply (ub_b c).
Qed.
Lemma ub_timeouts l c c' : ub c -> timeouts c l = Some c' -> ub c'.
Proof.
  revert c. induction l as [|[p i] l IH]; intros c HI; simpl; [by intros [= <-]|].
  destruct (timeout_pool c p i) eqn:E; [|done]. apply IH. by eapply ub_timeout_pool.
Qed.
Lemma ub_end c : ub c -> ub (end_block c).
Proof.
  intros HI. unfold end_block, handle_upload_timeout. set (c1 := cw_pools _ _).
  eapply ub_b; [apply b_burn_fees|]. assert (H1 : ub c1) by done.
  destruct (timeouts _ _) eqn:E; [|done]. by eapply ub_timeouts.
Qed.
Lemma ub_step c o : ub c -> cop_ok c o -> match o with CBegin _ _ => False | _ => True end -> ub (cstep c o).
Proof.
  intros HI Hok Hno. unfold cstep. destruct (cmsg c o) as [c'|] eqn:E; simpl; [|done].
  destruct o; try done; simpl in E;
    try (match type of E with ?f <$> ?x = _ => destruct x; [injection E as <-; done|done] end);
    try (match type of E with (if ?x then _ else _) = _ => destruct x; [injection E as <-; done|done] end).
  - unfold chain_create_staker in E. destruct (msg_delegate _ _ _ _ _); [|done]. destruct (msg_create_staker _ _ _ _); [|done].
    by injection E as <-.
  - by eapply ub_submit.
  - by eapply ub_vote.
  - by eapply ub_skip.
  - by eapply ub_claim_role.
  - unfold chain_create_pool in E. destruct (msg_create_pool _ _ _ _ _); [|done]. by injection E as <-.
  - unfold chain_disable_pool in E. destruct (disable_record _ _ _) as [ps|]; [|done]. set (c1 := cw_pools c ps) in E.
    pose proof (b_leave_all c1 (members c1 p) p) as Hb. set (c2 := fold_left _ _ _) in *. clearbody c2.
    assert (H2 : ub c2) by (by apply (ub_b c1)).
    destruct (two64 <=? _); [done|]. destruct (0 <? _); [|by injection E as <-]. destruct (i64 _ <? 0); [done|].
    destruct (send _ _ _ _); [|done]. by injection E as <-.
  - injection E as <-. by apply ub_end.
  - by injection E as <-.
Qed.
End dates.
Lemma begin_parts c t pr : c_prop (begin_block c t pr) = c_prop c /\ c_time (begin_block c t pr) = t /\ c_pools (begin_block c t pr) = c_pools c
  /\ c_fin (begin_block c t pr) = c_fin c /\ c_bp (begin_block c t pr) = c_bp c /\ c_pp (begin_block c t pr) = c_pp c /\ c_burn (begin_block c t pr) = c_burn c.
Proof.
  unfold begin_block. set (c0 := cw_time _ _ _). set (c1 := t_out c0 _).
  set (c2 := match split_inflation c1 pr with Some x => x | None => cw_halt c1 end).
  assert (Hb : bpart c2 = bpart c1). { unfold c2. destruct (split_inflation c1 pr) eqn:E; [by apply b_split in E|done]. }
  apply bpart_eq in Hb as (H1 & H2 & H3 & H4 & H5 & H6 & H7 & H8 & H9). clearbody c2.
  cbn [c_prop c_time c_pools c_fin c_bp c_pp c_burn s_out d_out cw_bank cw_s cw_d].
  rewrite H1, H2, H3, H4, H6, H7, H8. done.
Qed.

(** The time of the state after a step. *)
Definition time_after (c : chain) (o : cop) : Z := match o with CBegin t _ => t | _ => c_time c end.
Lemma dates_step c o : ub (c_time c) c -> cop_ok c o -> ub (time_after c o) (cstep c o).
Proof.
  intros HI Hok. assert (Hn : match o with CBegin _ _ => False | _ => True end -> ub (time_after c o) (cstep c o)).
  { intros Hd. replace (time_after c o) with (c_time c) by (by destruct o). by apply ub_step. }
  destruct o as [| | | | | | | | | | | | | | | | | | | | | | | | | | | | |t pr| |]; try (by apply Hn). clear Hn. destruct Hok as [Ht _]. cbn.
  destruct (begin_parts c t pr) as (E1 & E2 & _). destruct HI as (_ & H0 & H). split; [done|]. split; [lia|].
  intros p. unfold get_prop. rewrite E1. specialize (H p). unfold get_prop in H. lia.
Qed.

(** ** Pool records *)
Lemma admin_ok a b : admin a = admin b -> pool_ok a -> pool_ok b.
Proof.
  unfold admin, pool_ok. intros H. injection H as _ _ <- <- <- <- _ _ _ _ <- _ _. done.
Qed.
Lemma akeep_ok c c' : akeep c c' -> (forall p pl, get_pool c p = Some pl -> pool_ok pl) -> forall p pl, get_pool c' p = Some pl -> pool_ok pl.
Proof.
  intros [_ H] Hok p pl E. specialize (H p). rewrite E in H. destruct (get_pool c p) as [x|] eqn:Ex; [|done].
  simpl in H. eapply admin_ok; [|by eapply Hok]. unfold admin in *. congruence.
Qed.
Lemma fmap_ok (f : pool -> pool) (s : pstore) : (forall p, pool_ok p -> pool_ok (f p)) ->
  (forall p pl, ps_pools s !! p = Some pl -> pool_ok pl) -> forall p pl, (f <$> ps_pools s) !! p = Some pl -> pool_ok pl.
Proof.
  intros Hf Hok p pl. rewrite lookup_fmap. destruct (ps_pools s !! p) as [x|] eqn:E; [|done]. intros [= <-]. apply Hf. by eapply Hok.
Qed.
Lemma no_plan_ok : plan_ok no_plan. Proof. unfold plan_ok, no_plan, two64. simpl. lia. Qed.
Lemma upgrade_ok now p : pool_ok p -> pool_ok (upgrade_one now p).
Proof.
  intros (H1 & H2 & H3 & H4 & H5). unfold upgrade_one. destruct (_ && _); [|done].
  destruct (_ || _); destruct (_ <=? now); repeat (split; [done|]); try done; apply no_plan_ok.
Qed.
Lemma pools_step c o : AInv c -> 0 <= c_time c < two62 -> cop_ok c o ->
  (forall p pl, get_pool c p = Some pl -> pool_ok pl) -> forall p pl, get_pool (cstep c o) p = Some pl -> pool_ok pl.
Proof.
  intros HA Ht Hok Hp. destruct (pool_admin o) eqn:Ho; [|by eapply akeep_ok; [apply akeep_step|]].
  unfold cstep. destruct (cmsg c o) as [c'|] eqn:E; simpl; [|done]. destruct o; try done; simpl in E.
  - unfold chain_create_pool in E. destruct (msg_create_pool _ _ _ _ _) as [ps|] eqn:Em; [|done]. injection E as <-.
    unfold msg_create_pool in Em. destruct (create_basic a) eqn:Ea; simpl in Em; [|done]. destruct (_ =? _)%N; simpl in Em; [|done].
    destruct json; simpl in Em; [|done]. injection Em as <-. intros p pl. unfold get_pool. cbn. destruct (decide (p = ps_count (c_pools c))) as [->|Hne].
    + rewrite lookup_insert. intros [= <-]. destruct Hok as (? & ? & ?). unfold create_basic in Ea. rewrite !andb_true_iff in Ea.
      unfold pool_ok. cbn. repeat (split; [first [done|lia]|]). apply no_plan_ok.
    + rewrite lookup_insert_ne by done. apply Hp.
  - destruct (msg_update_pool _ _ _ _) as [ps|] eqn:Em; [|done]. injection E as <-.
    unfold msg_update_pool in Em. destruct (update_basic a) eqn:Ea; simpl in Em; [|done]. destruct (_ =? _)%N; simpl in Em; [|done].
    destruct (ps_pools (c_pools c) !! p) as [x|] eqn:Ex; [|done]. injection Em as <-. intros q pl. unfold get_pool. cbn.
    destruct (decide (q = p)) as [->|Hne]; [|rewrite lookup_insert_ne by done; apply Hp]. rewrite lookup_insert. intros [= <-].
    destruct Hok as (Hi & Hm & Hs). unfold update_basic in Ea. rewrite !andb_true_iff in Ea. destruct Ea as [[Ei Ew] Es].
    destruct (Hp _ _ Ex) as (P1 & P2 & P3 & P4 & P5). unfold pool_ok. cbn.
    destruct (ua_interval a), (ua_weight a), (ua_mindel a), (ua_maxsize a); simpl in *; repeat (split; [first [done|lia]|]); done.
  - destruct (msg_enable_pool _ _ _) as [ps|] eqn:Em; [|done]. injection E as <-. unfold msg_enable_pool in Em.
    destruct (_ =? _)%N; simpl in Em; [|done]. destruct (ps_pools (c_pools c) !! p) as [x|] eqn:Ex; [|done]. destruct (pl_disabled x); [|done].
    injection Em as <-. intros q pl. unfold get_pool. cbn.
    destruct (decide (q = p)) as [->|Hne]; [|rewrite lookup_insert_ne by done; apply Hp]. rewrite lookup_insert. intros [= <-].
    exact (Hp _ _ Ex).
  - unfold chain_disable_pool in E. destruct (disable_record _ _ _) as [ps|] eqn:Em; [|done].
    assert (Hps : forall q pl, ps_pools ps !! q = Some pl -> pool_ok pl).
    { unfold disable_record in Em. destruct (_ =? _)%N; simpl in Em; [|done]. destruct (ps_pools (c_pools c) !! p) as [x|] eqn:Ex; [|done].
      destruct (pl_disabled x); [done|]. injection Em as <-. intros q pl. cbn.
      destruct (decide (q = p)) as [->|Hne]; [|rewrite lookup_insert_ne by done; apply Hp]. rewrite lookup_insert. intros [= <-]. exact (Hp _ _ Ex). }
    set (c1 := cw_pools c ps) in E. pose proof (b_leave_all c1 (members c1 p) p) as Hb. set (c2 := fold_left _ _ _) in *. clearbody c2.
    assert (H2 : c_pools c2 = ps) by (apply bpart_eq in Hb as [-> _]; done).
    assert (H' : c_pools c' = ps).
    { destruct (two64 <=? _); [done|]. destruct (0 <? _); [|by injection E as <-]. destruct (i64 _ <? 0); [done|].
      destruct (send _ _ _ _); [|done]. by injection E as <-. }
    unfold get_pool. rewrite H'. exact Hps.
  - destruct (msg_schedule _ _ _ _ _ _ _ _) as [ps|] eqn:Em; [|done]. injection E as <-. unfold msg_schedule in Em.
    destruct (_ =? AUTHORITY)%N; simpl in Em; [|done]. destruct (_ || _); [done|]. injection Em as <-. unfold get_pool. cbn.
    apply fmap_ok; [|exact Hp]. intros p Hpo. unfold schedule_one. destruct (negb _); [done|]. destruct (negb _); [done|].
    destruct Hpo as (P1 & P2 & P3 & P4 & P5). destruct Hok as [Ha Hd]. unfold u64 in *. repeat (split; [done|]). unfold plan_ok. cbn.
    unfold two62, two64 in *. destruct (_ <? _); lia.
  - destruct (msg_cancel _ _ _) as [ps|] eqn:Em; [|done]. injection E as <-. unfold msg_cancel in Em.
    destruct (_ =? AUTHORITY)%N; simpl in Em; [|done]. injection Em as <-. unfold get_pool. cbn.
    apply fmap_ok; [|exact Hp]. intros p Hpo. unfold cancel_one. destruct (negb _); [done|]. destruct (_ =? 0); [done|].
    destruct Hpo as (P1 & P2 & P3 & P4 & P5). repeat (split; [done|]). apply no_plan_ok.
  - injection E as <-. eapply akeep_ok; [apply akeep_end|]. unfold get_pool. cbn. apply fmap_ok; [|exact Hp].
    intros p. apply upgrade_ok.
Qed.

(** ** Disabled pools *)
(** How a step changes the disabled flag. *)
Lemma disabled_step c o p pl' : AInv c -> get_pool (cstep c o) p = Some pl' -> pl_disabled pl' = true ->
  (exists pl, get_pool c p = Some pl /\ pl_disabled pl = true) \/
  (exists sender, o = CDisablePool sender p /\ chain_disable_pool c sender p = Some (cstep c o)).
Proof.
  intros HA Hg Hd.
  assert (Hak : akeep c (cstep c o) -> exists pl, get_pool c p = Some pl /\ pl_disabled pl = true).
  { intros [_ H]. specialize (H p). rewrite Hg in H. destruct (get_pool c p) as [x|]; [|done]. exists x. split; [done|].
    unfold admin in H. simpl in H. congruence. }
  destruct (pool_admin o) eqn:Ho; [|left; by apply Hak, akeep_step].
  unfold cstep in *. destruct (cmsg c o) as [c'|] eqn:E; simpl in *; [|left; eauto]. destruct o; try done; simpl in E.
  - left. unfold chain_create_pool in E. destruct (msg_create_pool _ _ _ _ _) as [ps|] eqn:Em; [|done]. injection E as <-.
    unfold msg_create_pool in Em. destruct (create_basic a) eqn:Ea; simpl in Em; [|done]. destruct (_ =? _)%N; simpl in Em; [|done].
    destruct json; simpl in Em; [|done]. injection Em as <-. unfold get_pool in Hg. cbn in Hg. destruct (decide (p = ps_count (c_pools c))) as [->|Hne].
    + rewrite lookup_insert in Hg. by injection Hg as <-.
    + rewrite lookup_insert_ne in Hg by done. eauto.
  - left. destruct (msg_update_pool _ _ _ _) as [ps|] eqn:Em; [|done]. injection E as <-.
    unfold msg_update_pool in Em. destruct (update_basic a) eqn:Ea; simpl in Em; [|done]. destruct (_ =? _)%N; simpl in Em; [|done].
    destruct (ps_pools (c_pools c) !! p0) as [x|] eqn:Ex; [|done]. injection Em as <-. unfold get_pool in Hg. cbn in Hg.
    destruct (decide (p = p0)) as [->|Hne]; [|rewrite lookup_insert_ne in Hg by done; eauto]. rewrite lookup_insert in Hg. injection Hg as <-.
    eauto.
  - left. destruct (msg_enable_pool _ _ _) as [ps|] eqn:Em; [|done]. injection E as <-. unfold msg_enable_pool in Em.
    destruct (_ =? _)%N; simpl in Em; [|done]. destruct (ps_pools (c_pools c) !! p0) as [x|] eqn:Ex; [|done]. destruct (pl_disabled x); [|done].
    injection Em as <-. unfold get_pool in Hg. cbn in Hg.
    destruct (decide (p = p0)) as [->|Hne]; [|rewrite lookup_insert_ne in Hg by done; eauto]. rewrite lookup_insert in Hg. by injection Hg as <-.
  - destruct (decide (p = p0)) as [->|Hne]; [right; eauto|]. left.
    unfold chain_disable_pool in E. destruct (disable_record _ _ _) as [ps|] eqn:Em; [|done].
    set (c1 := cw_pools c ps) in E. pose proof (b_leave_all c1 (members c1 p0) p0) as Hb. set (c2 := fold_left _ _ _) in *. clearbody c2.
    assert (H2 : c_pools c2 = ps) by (apply bpart_eq in Hb as [-> _]; done).
    assert (H' : c_pools c' = ps).
    { destruct (two64 <=? _); [done|]. destruct (0 <? _); [|by injection E as <-]. destruct (i64 _ <? 0); [done|].
      destruct (send _ _ _ _); [|done]. by injection E as <-. }
    unfold get_pool in Hg. rewrite H' in Hg. unfold disable_record in Em. destruct (_ =? _)%N; simpl in Em; [|done]. destruct (ps_pools (c_pools c) !! p0) as [x|] eqn:Ex; [|done].
      destruct (pl_disabled x); [done|]. injection Em as <-. cbn in Hg. rewrite lookup_insert_ne in Hg by done. eauto.
  - left. destruct (msg_schedule _ _ _ _ _ _ _ _) as [ps|] eqn:Em; [|done]. injection E as <-. unfold msg_schedule in Em.
    destruct (_ =? AUTHORITY)%N; simpl in Em; [|done]. destruct (_ || _); [done|]. injection Em as <-. unfold get_pool in Hg. cbn in Hg.
    rewrite lookup_fmap in Hg. unfold get_pool. destruct (ps_pools (c_pools c) !! p) as [x|] eqn:Ex; [|done]. injection Hg as <-. exists x. split; [done|].
    unfold schedule_one in Hd. destruct (negb _); [done|]. by destruct (negb _).
  - left. destruct (msg_cancel _ _ _) as [ps|] eqn:Em; [|done]. injection E as <-. unfold msg_cancel in Em.
    destruct (_ =? AUTHORITY)%N; simpl in Em; [|done]. injection Em as <-. unfold get_pool in Hg. cbn in Hg.
    rewrite lookup_fmap in Hg. unfold get_pool. destruct (ps_pools (c_pools c) !! p) as [x|] eqn:Ex; [|done]. injection Hg as <-. exists x. split; [done|].
    unfold cancel_one in Hd. destruct (negb _); [done|]. by destruct (_ =? 0).
  - left. injection E as <-. pose proof (akeep_end c) as [_ H]. specialize (H p). rewrite Hg in H. unfold get_pool at 1 in H. cbn in H.
    rewrite lookup_fmap in H. unfold get_pool. destruct (ps_pools (c_pools c) !! p) as [x|] eqn:Ex; [|done]. exists x. split; [done|].
    simpl in H. assert (Hx : pl_disabled (upgrade_one (c_time c) x) = true) by (unfold admin in H; congruence).
    unfold upgrade_one in Hx. destruct (_ && _); [|done]. destruct (_ || _); by destruct (_ <=? _).
Qed.
(** Disabling removes everybody. *)
Lemma leave_all_gone l c p s : in_pool (fold_left (fun c s => s_out c (leave_pool (s_in c) s p)) l c) p s = in_pool c p s && negb (memb s l).
Proof.
  revert c. induction l as [|x l IH]; intros c; simpl; [by rewrite andb_true_r|]. rewrite IH.
  assert (E : in_pool (s_out c (leave_pool (s_in c) x p)) p s = in_pool c p s && negb (s =? x)%N).
  { unfold in_pool. cbn. rewrite get_leave. change (get_val (s_in c) p s) with (get_val (c_s c) p s).
    destruct (decide _) as [[_ ->]|Hn]; [by rewrite N.eqb_refl, andb_false_r|].
    assert ((s =? x)%N = false) as -> by (apply N.eqb_neq; intros ->; by apply Hn). by rewrite andb_true_r. }
  rewrite E. unfold memb. simpl. rewrite negb_orb, <- andb_assoc. f_equal. by rewrite N.eqb_sym.
Qed.
Lemma members_in c p s : s ∈ members c p <-> in_pool c p s = true.
Proof.
  unfold members. rewrite elem_pool_stakers. unfold in_pool. destruct (get_val (c_s c) p s) as [v|]; split; try done; eauto. by intros [? ?].
Qed.
Lemma disable_empties c sender p c' s : chain_disable_pool c sender p = Some c' -> in_pool c' p s = false.
Proof.
  unfold chain_disable_pool. destruct (disable_record _ _ _) as [ps|]; [|done]. set (c1 := cw_pools c ps).
  pose proof (leave_all_gone (members c1 p) c1 p s) as Hl. set (c2 := fold_left _ _ _) in *. clearbody c2.
  assert (H2 : in_pool c2 p s = false).
  { rewrite Hl. destruct (in_pool c1 p s) eqn:E; [|done]. apply members_in, memb_spec in E. by rewrite E. }
  destruct (two64 <=? _); [done|]. destruct (0 <? _); [|by intros [= <-]]. destruct (i64 _ <? 0); [done|].
  destruct (send _ _ _ _); [|done]. by intros [= <-].
Qed.

Lemma BInv_step c o : AInv c -> BInv c -> cop_ok c o -> BInv (cstep c o).
Proof.
  intros HA [Ht Hu Hp He] Hok. pose proof (dates_step c o) as Hd.
  destruct Hd as (D1 & D2 & D3); [split; [done|split; [lia|done]]|done|].
  split.
  - rewrite D1. split; [done|]. destruct o; simpl; try lia. destruct Hok. lia.
  - rewrite D1. done.
  - by apply pools_step.
  - intros p pl' s Hg Hdis. destruct (disabled_step c o p pl' HA Hg Hdis) as [(pl & Hpl & Hd)|(sender & -> & E)].
    + destruct (in_pool (cstep c o) p s) eqn:Em; [|done]. apply member_step in Em as [Em|(v & a & -> & Hf)].
      * rewrite (He _ _ s Hpl Hd) in Em. done.
      * rewrite Hpl in Hf. simpl in Hf. congruence.
    + by eapply disable_empties.
Qed.
Lemma BInv_init b t dp ct lt fp pp bp br : 0 <= t < two62 -> BInv (cinit b t dp ct lt fp pp bp br).
Proof. intros Ht. split; try done. intros p. unfold get_prop. cbn. rewrite lookup_empty. cbn. lia. Qed.
Lemma BInv_run c ops : AInv c -> BInv c -> cops_ok c ops -> BInv (crun c ops).
Proof.
  intros HA HB Hok. cut (AInv (crun c ops) /\ BInv (crun c ops)); [by intros []|].
  apply (crun_inv (fun c => AInv c /\ BInv c)); [|done..]. intros x o [H1 H2] Ho. split; [by apply chain_step|by apply BInv_step].
Qed.
