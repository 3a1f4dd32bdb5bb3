(** * Who changes the pool records, and who enters a pool. *)
From Verif Require Import Base BaseFacts Delegation Stakers StakersInv StakersClaims Funders Team RoundRobin Pool Bundles Chain ChainFrame ArchiveInv.

(** ** Pool records without their progress *)
Definition admin (p : pool) :=
  (pl_runtime p, pl_endkey p, pl_interval p, pl_weight p, pl_mindel p, pl_maxsize p, pl_disabled p,
   (pl_version p, pl_binaries p, pl_last p, pl_plan p), (pl_sp p, pl_comp p)).
Definition akeep (c c' : chain) : Prop :=
  ps_count (c_pools c') = ps_count (c_pools c) /\ forall p, admin <$> get_pool c' p = admin <$> get_pool c p.
Lemma akeep_refl c : akeep c c. Proof. done. Qed.
Lemma akeep_trans a b c : akeep a b -> akeep b c -> akeep a c.
Proof. intros [H1 H2] [H3 H4]. split; [congruence|]. intros p. by rewrite H4, H2. Qed.
Lemma akeep_pools c c' : c_pools c' = c_pools c -> akeep c c'.
Proof. intros H. split; [by rewrite H|]. intros p. unfold get_pool. by rewrite H. Qed.
Lemma akeep_b c c' : bpart c' = bpart c -> akeep c c'.
Proof. intros H. apply bpart_eq in H as [H _]. by apply akeep_pools. Qed.
Lemma akeep_finalize c p v : akeep c (finalize c p v).
Proof.
  destruct (get_pool c p) as [pl|] eqn:E; [|unfold finalize; by rewrite E].
  destruct (finalize_eq c p v pl E) as (fb & _ & _ & _ & _ & _ & _ & Hc & Hg). split; [done|].
  intros q. rewrite Hg. destruct (decide (q = p)) as [->|]; [by rewrite E|done].
Qed.
Lemma akeep_prop c p b : akeep c (set_prop c p b). Proof. by apply akeep_pools. Qed.
Lemma akeep_register c m n : akeep c (register c m n).
Proof. apply akeep_pools. unfold register. by destruct (get_pool c (sb_pool m)). Qed.
Lemma akeep_choose c p ex : akeep c (snd (choose c p ex)). Proof. apply akeep_b, b_choose. Qed.
Lemma akeep_choose_from c p ex : akeep c (snd (choose_from c p ex)). Proof. apply akeep_b, b_choose_from. Qed.
Lemma akeep_get c c' p pl : akeep c c' -> get_pool c p = Some pl -> exists pl', get_pool c' p = Some pl' /\ admin pl' = admin pl.
Proof.
  intros [_ H] E. specialize (H p). rewrite E in H. destruct (get_pool c' p) as [x|]; simpl in H; [|done].
  injection H as H. exists x. split; [done|]. unfold admin. congruence.
Qed.

Lemma akeep_submit c m c' : msg_submit c m = Some c' -> akeep c c'.
Proof.
  unfold msg_submit. destruct (can_propose _ _ _ _ _); simpl; [|done]. destruct (submit_valid c m); simpl; [|done].
  set (p := sb_pool m). set (b := get_prop c p). set (c1 := reset_pts c p (sb_staker m)).
  assert (H1 : akeep c c1) by (by apply akeep_b).
  destruct (bp_storage b =? 0)%N.
  - pose proof (akeep_choose c1 p []) as Hc. destruct (choose c1 p []) as [n c2]. simpl in Hc. intros [= <-].
    eapply akeep_trans; [exact H1|]. eapply akeep_trans; [exact Hc|]. apply akeep_register.
  - pose proof (b_tally c1 b p) as Ht. destruct (tally c1 b p) as [c2 v f x r|c2 v|c2 v|c2|]; try done.
    + pose proof (akeep_choose_from c2 p (bp_valid b)) as Hc. destruct (choose_from _ _ _) as [n c3]. simpl in Hc. intros [= <-].
      apply akeep_b in Ht. eapply akeep_trans; [exact H1|]. eapply akeep_trans; [exact Ht|]. eapply akeep_trans; [exact Hc|].
      eapply akeep_trans; [apply akeep_finalize|apply akeep_register].
    + intros [= <-]. apply akeep_b in Ht. eapply akeep_trans; [exact H1|]. eapply akeep_trans; [exact Ht|]. apply akeep_prop.
Qed.
Lemma akeep_vote c p s v st w c' : msg_vote c p s v st w = Some c' -> akeep c c'.
Proof.
  unfold msg_vote. destruct (can_vote _ _ _ _ _); simpl; [|done].
  match goal with |- match ?x with Some _ => _ | None => _ end = _ -> _ => destruct x as [b'|] end; [|done].
  intros [= <-]. by apply akeep_pools.
Qed.
Lemma akeep_skip c p s v from c' : msg_skip c p s v from = Some c' -> akeep c c'.
Proof.
  unfold msg_skip. destruct (can_propose _ _ _ _ _); simpl; [|done]. set (b := get_prop c p). set (c0 := reset_pts c p s).
  assert (H0 : akeep c c0) by (by apply akeep_b).
  pose proof (b_tally c0 b p) as Ht. destruct (tally c0 b p) as [c1 vv f x r|c1 vv|c1 vv|c1|]; try done; apply akeep_b in Ht;
    pose proof (akeep_choose c1 p [s]) as Hc; destruct (choose c1 p [s]) as [n c2]; simpl in Hc; intros [= <-];
    (eapply akeep_trans; [exact H0|]; eapply akeep_trans; [exact Ht|]; eapply akeep_trans; [exact Hc|]); try apply akeep_prop.
  eapply akeep_trans; [apply akeep_finalize|apply akeep_prop].
Qed.
Lemma akeep_claim_role c p s v c' : msg_claim_role c p s v = Some c' -> akeep c c'.
Proof.
  unfold msg_claim_role. destruct (can_run c p); simpl; [|done]. destruct (authorized _ _ _ _); simpl; [|done].
  destruct (_ =? 0)%N; simpl; [|done]. intros [= <-]. apply akeep_prop.
Qed.
Lemma akeep_timeout_pool c p i c' : timeout_pool c p i = Some c' -> akeep c c'.
Proof.
  unfold timeout_pool. set (b := get_prop c p). destruct (pool_error c p) as [e|].
  - intros [= <-]. destruct (_ && _); [apply akeep_prop|]. destruct (negb _); [apply akeep_prop|done].
  - destruct (_ <? _); [by intros [= <-]|]. destruct (_ && _).
    + pose proof (akeep_choose (handle_non_voters c p) p []) as Hc. destruct (choose _ _ _) as [n c1]. simpl in Hc. intros [= <-].
      eapply akeep_trans; [apply (akeep_b c (handle_non_voters c p)), b_non_voters|]. eapply akeep_trans; [exact Hc|]. apply akeep_prop.
    + destruct (_ <? _); [by intros [= <-]|].
      assert (Hpt : forall x s, akeep x (timeout_point x p s)) by (intros; apply akeep_b, b_timeout_point).
      destruct (_ =? 0)%N.
      * pose proof (akeep_choose c p []) as Hc. destruct (choose _ _ _) as [n c1]. simpl in Hc. intros [= <-].
        eapply akeep_trans; [exact Hc|]. eapply akeep_trans; [|apply Hpt]. apply akeep_prop.
      * pose proof (b_tally c b p) as Ht. destruct (tally c b p) as [c1 vv f x r|c1 vv|c1 vv|c1|]; try done; apply akeep_b in Ht.
        -- pose proof (akeep_choose_from c1 p (bp_valid b)) as Hc. destruct (choose_from _ _ _) as [n c2]. simpl in Hc. intros [= <-].
           eapply akeep_trans; [exact Ht|]. eapply akeep_trans; [exact Hc|]. eapply akeep_trans; [|apply Hpt].
           eapply akeep_trans; [apply akeep_finalize|apply akeep_prop].
        -- pose proof (akeep_choose c1 p []) as Hc. destruct (choose _ _ _) as [n c2]. simpl in Hc. intros [= <-].
           eapply akeep_trans; [exact Ht|]. eapply akeep_trans; [exact Hc|]. eapply akeep_trans; [|apply Hpt]. apply akeep_prop.
        -- pose proof (akeep_choose c1 p []) as Hc. destruct (choose _ _ _) as [n c2]. simpl in Hc. intros [= <-].
           eapply akeep_trans; [exact Ht|]. eapply akeep_trans; [exact Hc|]. eapply akeep_trans; [|apply Hpt]. apply akeep_prop.
        -- intros [= <-]. done.
Qed.
Lemma akeep_timeouts l c c' : timeouts c l = Some c' -> akeep c c'.
Proof.
  revert c. induction l as [|[p i] l IH]; intros c; simpl; [by intros [= <-]|].
  destruct (timeout_pool c p i) eqn:E; [|done]. intros H. eapply akeep_trans; [by eapply akeep_timeout_pool|by apply IH].
Qed.
Lemma akeep_handle_timeout c : akeep c (handle_upload_timeout c).
Proof. unfold handle_upload_timeout. destruct (timeouts _ _) eqn:E; [by eapply akeep_timeouts|done]. Qed.
Lemma akeep_begin c t pr : akeep c (begin_block c t pr).
Proof.
  unfold begin_block. set (c0 := cw_time _ _ _). set (c1 := t_out c0 _).
  set (c2 := match split_inflation c1 pr with Some x => x | None => cw_halt c1 end).
  assert (Hb : bpart c2 = bpart c1). { unfold c2. destruct (split_inflation c1 pr) eqn:E; [by apply b_split in E|done]. }
  apply akeep_pools. apply bpart_eq in Hb as [Hb _]. change (c_pools c2 = c_pools c). by rewrite Hb.
Qed.
Lemma akeep_end c : akeep (cw_pools c (handle_upgrades (c_pools c) (c_time c))) (end_block c).
Proof.
  unfold end_block. eapply akeep_trans; [apply akeep_handle_timeout|]. apply akeep_b, b_burn_fees.
Qed.
(** Messages and blocks that do not concern the administration of pools. *)
Definition pool_admin (o : cop) : bool :=
  match o with CCreatePool _ _ _ | CUpdatePool _ _ _ | CEnablePool _ _ | CDisablePool _ _ | CSchedule _ _ _ _ _ _ | CCancel _ _ | CEnd => true | _ => false end.
Lemma akeep_step c o : pool_admin o = false -> akeep c (cstep c o).
Proof.
  intros Ho. unfold cstep. destruct (cmsg c o) as [c'|] eqn:E; simpl; [|done].
  destruct o; try done; simpl in E;
    try (apply akeep_b; match type of E with ?f <$> ?x = _ => destruct x; [injection E as <-; done|done] end);
    try (apply akeep_pools; match type of E with (if ?x then _ else _) = _ => destruct x; [injection E as <-; done|done] end).
  - unfold chain_create_staker in E. destruct (msg_delegate _ _ _ _ _); [|done]. destruct (msg_create_staker _ _ _ _); [|done].
    injection E as <-. by apply akeep_b.
  - by eapply akeep_submit.
  - by eapply akeep_vote.
  - by eapply akeep_skip.
  - by eapply akeep_claim_role.
  - injection E as <-. apply akeep_begin.
  - injection E as <-. by apply akeep_b.
Qed.

(** ** Membership only shrinks, except by joining *)
Definition shrinks (c c' : chain) : Prop := forall p s, in_pool c' p s = true -> in_pool c p s = true.
Lemma shrinks_refl c : shrinks c c. Proof. by intros p s. Qed.
Lemma shrinks_trans a b c : shrinks a b -> shrinks b c -> shrinks a c.
Proof. intros H1 H2 p s H. by apply H1, H2. Qed.
Lemma shrinks_val c c' : ss_val (c_s c') = ss_val (c_s c) -> shrinks c c'.
Proof. intros H p s. unfold in_pool, get_val, vals_of. by rewrite H. Qed.
Lemma shrinks_m c c' : mpart c' = mpart c -> shrinks c c'.
Proof. intros H. apply mpart_eq in H as (_ & H & _). apply shrinks_val. by rewrite H. Qed.
Definition svshrinks (st st' : sstate) : Prop := forall p s, is_Some (get_val st' p s) -> is_Some (get_val st p s).
Lemma shrinks_sv c c' : svshrinks (c_s c) (c_s c') -> shrinks c c'.
Proof.
  intros H p s. unfold in_pool. specialize (H p s). destruct (get_val (c_s c') p s) as [v|]; [|done].
  intros _. destruct H as [x ->]; [by eexists|done].
Qed.
Lemma sv_leave st s p : svshrinks st (leave_pool st s p).
Proof. intros p' s'. rewrite get_leave. destruct (decide _); [by intros []|done]. Qed.
Lemma sv_set st p s v v' : get_val st p s = Some v -> svshrinks st (set_val st p s v').
Proof. intros E p' s'. rewrite get_set_val. destruct (decide _) as [[<- <-]|]; [by rewrite E|done]. Qed.
Lemma sv_refl st : svshrinks st st. Proof. by intros p s. Qed.
Lemma sv_trans a b c : svshrinks a b -> svshrinks b c -> svshrinks a c.
Proof. intros H1 H2 p s H. by apply H1, H2. Qed.
Lemma sv_val st st' : ss_val st' = ss_val st -> svshrinks st st'.
Proof. intros H p s. unfold get_val, vals_of. by rewrite H. Qed.
Lemma sv_increment st p s : svshrinks st (fst (increment_points st p s)).
Proof. unfold increment_points. destruct (get_val st p s) eqn:E; simpl; [by eapply sv_set|apply sv_refl]. Qed.
Lemma sv_reset st p s : svshrinks st (fst (reset_points st p s)).
Proof. unfold reset_points. destruct (get_val st p s) eqn:E; simpl; [by eapply sv_set|apply sv_refl]. Qed.
Lemma sv_pl st i st1 : process_lentry st i = Some st1 -> svshrinks st st1.
Proof.
  unfold process_lentry. destruct (ss_lentries st !! i) as [e|]; [|intros [= <-]; apply sv_refl]. destruct (_ <=? _); [|done]. intros [= <-].
  eapply sv_trans; [|apply sv_leave]. by apply sv_val.
Qed.
Lemma sv_pc st i st1 : process_centry st i = Some st1 -> svshrinks st st1.
Proof.
  unfold process_centry. destruct (ss_centries st !! i) as [e|]; [|intros [= <-]; apply sv_refl]. destruct (_ <=? _); [|done]. intros [= <-].
  apply sv_val. by destruct (ss_stakers _ !! _).
Qed.
Lemma sv_begin st : svshrinks st (stakers_begin st).
Proof.
  assert (H1 : svshrinks st (process_commissions st)).
  { unfold process_commissions.
    pose proof (queue_loop_inv process_centry (svshrinks st) (ss_chigh st) (S (N.to_nat (ss_chigh st - ss_clow st))) st (ss_clow st)
      (fun st' i st1 H E => sv_trans _ _ _ H (sv_pc _ _ _ E)) (sv_refl st)) as H.
    destruct (queue_loop _ _ _ _ _) as [st1 low]. simpl in H. eapply sv_trans; [exact H|]. by apply sv_val. }
  unfold stakers_begin. set (s1 := process_commissions st) in *. clearbody s1. eapply sv_trans; [exact H1|].
  unfold process_leaves.
  pose proof (queue_loop_inv process_lentry (svshrinks s1) (ss_lhigh s1) (S (N.to_nat (ss_lhigh s1 - ss_llow s1))) s1 (ss_llow s1)
      (fun st' i st1 H E => sv_trans _ _ _ H (sv_pl _ _ _ E)) (sv_refl s1)) as H.
  destruct (queue_loop _ _ _ _ _) as [st1 low]. simpl in H. eapply sv_trans; [exact H|]. by apply sv_val.
Qed.

Lemma sh_slash_remove c p s t : shrinks c (slash_remove c p s t).
Proof. apply shrinks_sv. unfold slash_remove. cbn. eapply sv_trans; [|apply sv_leave]. by apply sv_val. Qed.
Lemma sh_reset c p s : shrinks c (reset_pts c p s).
Proof. apply shrinks_sv. unfold reset_pts. cbn. eapply sv_trans; [|apply sv_reset]. by apply sv_val. Qed.
Lemma sh_add_point c p s : shrinks c (add_point c p s).
Proof.
  unfold add_point. pose proof (sv_increment (s_in c) p s) as H. destruct (increment_points _ _ _) as [s' n]. simpl in H.
  assert (H1 : shrinks c (s_out c s')) by (apply shrinks_sv; cbn; eapply sv_trans; [|exact H]; by apply sv_val).
  destruct (_ <=? _); [|done]. eapply shrinks_trans; [exact H1|apply sh_slash_remove].
Qed.
Lemma sh_fold {A} (f : chain -> A -> chain) l c : (forall c x, shrinks c (f c x)) -> shrinks c (fold_left f l c).
Proof. intros H. revert c. induction l as [|x l IH]; intros c; simpl; [apply shrinks_refl|]. eapply shrinks_trans; [apply H|apply IH]. Qed.
Lemma sh_non_voters c p : shrinks c (handle_non_voters c p).
Proof. apply sh_fold. intros x s. destruct (voted _ _); [apply shrinks_refl|apply sh_add_point]. Qed.
Lemma val_icr st s a x st' : increase_commission_rewards st s a x = Some st' -> ss_val st' = ss_val st.
Proof.
  unfold increase_commission_rewards. destruct (cempty x); [by intros [= <-]|]. destruct (ss_stakers st !! s); [|done].
  destruct (send _ _ _ _); [|done]. by intros [= <-].
Qed.
Lemma val_pay_out c u r : match pay_out c u r with inl c' | inr c' => ss_val (c_s c') = ss_val (c_s c) end.
Proof.
  unfold pay_out. destruct (send _ _ _ _); [|done].
  destruct (increase_commission_rewards _ _ _ _) eqn:E; [|done]. apply val_icr in E.
  by destruct (payout_rewards _ _ _ _).
Qed.
Lemma val_charge_inflation c p c' x : charge_inflation c p = Some (c', x) -> c_s c' = c_s c.
Proof.
  unfold charge_inflation. destruct (inflation_payout _ _); [|done]. destruct (i64 _ <? 0); [done|].
  by destruct (send _ _ _ _); intros [= <- <-].
Qed.
Lemma sh_tally c b p :
  match tally c b p with
  | TrValid c' _ _ _ _ | TrInvalid c' _ | TrNoQuorum c' _ | TrError c' => shrinks c c'
  | TrPanic => True
  end.
Proof.
  unfold tally. pose proof (sh_non_voters c p) as Hn. set (c1 := handle_non_voters c p) in *.
  destruct (v_status _); try done.
  - destruct (charge_funders _ _ _) as [f [fp|]]; [|done].
    destruct (charge_inflation _ _) as [[c2 x]|] eqn:Ei; [|done]. apply val_charge_inflation in Ei.
    destruct (payouts _ _ _) as [r|]; [|done].
    pose proof (val_pay_out c2 (bp_uploader b) r) as Hp.
    destruct (pay_out _ _ _) as [c3|c3].
    + eapply shrinks_trans; [exact Hn|]. eapply shrinks_trans; [|apply sh_fold; intros; apply sh_slash_remove].
      apply shrinks_val. rewrite Hp, Ei. done.
    + eapply shrinks_trans; [exact Hn|]. apply shrinks_val. rewrite Hp, Ei. done.
  - eapply shrinks_trans; [exact Hn|]. apply sh_fold; intros; apply sh_slash_remove.
Qed.
Lemma sh_choose c p ex : shrinks c (snd (choose c p ex)). Proof. apply shrinks_m, m_choose. Qed.
Lemma sh_choose_from c p ex : shrinks c (snd (choose_from c p ex)). Proof. apply shrinks_m, m_choose_from. Qed.
Lemma sh_prop c p b : shrinks c (set_prop c p b). Proof. by apply shrinks_m. Qed.
Lemma sh_finalize c p v : shrinks c (finalize c p v). Proof. apply shrinks_m, m_finalize. Qed.
Lemma sh_register c m n : shrinks c (register c m n).
Proof. apply shrinks_m. unfold register. by destruct (get_pool c (sb_pool m)). Qed.
Lemma sh_submit c m c' : msg_submit c m = Some c' -> shrinks c c'.
Proof.
  unfold msg_submit. destruct (can_propose _ _ _ _ _); simpl; [|done]. destruct (submit_valid c m); simpl; [|done].
  set (p := sb_pool m). set (b := get_prop c p). set (c1 := reset_pts c p (sb_staker m)).
  assert (H1 : shrinks c c1) by apply sh_reset.
  destruct (bp_storage b =? 0)%N.
  - pose proof (sh_choose c1 p []) as Hc. destruct (choose c1 p []) as [n c2]. simpl in Hc. intros [= <-].
    eapply shrinks_trans; [exact H1|]. eapply shrinks_trans; [exact Hc|]. apply sh_register.
  - pose proof (sh_tally c1 b p) as Ht. destruct (tally c1 b p) as [c2 v f x r|c2 v|c2 v|c2|]; try done.
    + pose proof (sh_choose_from c2 p (bp_valid b)) as Hc. destruct (choose_from _ _ _) as [n c3]. simpl in Hc. intros [= <-].
      eapply shrinks_trans; [exact H1|]. eapply shrinks_trans; [exact Ht|]. eapply shrinks_trans; [exact Hc|].
      eapply shrinks_trans; [apply sh_finalize|apply sh_register].
    + intros [= <-]. eapply shrinks_trans; [exact H1|]. eapply shrinks_trans; [exact Ht|]. apply sh_prop.
Qed.
Lemma sh_vote c p s v st w c' : msg_vote c p s v st w = Some c' -> shrinks c c'.
Proof.
  unfold msg_vote. destruct (can_vote _ _ _ _ _); simpl; [|done].
  match goal with |- match ?x with Some _ => _ | None => _ end = _ -> _ => destruct x as [b'|] end; [|done].
  intros [= <-]. eapply shrinks_trans; [|apply sh_reset]. apply sh_prop.
Qed.
Lemma sh_skip c p s v from c' : msg_skip c p s v from = Some c' -> shrinks c c'.
Proof.
  unfold msg_skip. destruct (can_propose _ _ _ _ _); simpl; [|done]. set (b := get_prop c p). set (c0 := reset_pts c p s).
  assert (H0 : shrinks c c0) by apply sh_reset.
  pose proof (sh_tally c0 b p) as Ht. destruct (tally c0 b p) as [c1 vv f x r|c1 vv|c1 vv|c1|]; try done;
    pose proof (sh_choose c1 p [s]) as Hc; destruct (choose c1 p [s]) as [n c2]; simpl in Hc; intros [= <-];
    (eapply shrinks_trans; [exact H0|]; eapply shrinks_trans; [exact Ht|]; eapply shrinks_trans; [exact Hc|]); try apply sh_prop.
  eapply shrinks_trans; [apply sh_finalize|apply sh_prop].
Qed.
Lemma sh_timeout_pool c p i c' : timeout_pool c p i = Some c' -> shrinks c c'.
Proof.
  unfold timeout_pool. set (b := get_prop c p). destruct (pool_error c p) as [e|].
  - intros [= <-]. destruct (_ && _); [apply sh_prop|]. destruct (negb _); [apply sh_prop|apply shrinks_refl].
  - destruct (_ <? _); [intros [= <-]; apply shrinks_refl|]. destruct (_ && _).
    + pose proof (sh_choose (handle_non_voters c p) p []) as Hc. destruct (choose _ _ _) as [n c1]. simpl in Hc. intros [= <-].
      eapply shrinks_trans; [apply (sh_non_voters c p)|]. eapply shrinks_trans; [exact Hc|]. apply sh_prop.
    + destruct (_ <? _); [intros [= <-]; apply shrinks_refl|].
      assert (Hpt : forall x s, shrinks x (timeout_point x p s)).
      { intros x s. unfold timeout_point. destruct (in_pool x p s); [apply sh_add_point|apply shrinks_refl]. }
      destruct (_ =? 0)%N.
      * pose proof (sh_choose c p []) as Hc. destruct (choose _ _ _) as [n c1]. simpl in Hc. intros [= <-].
        eapply shrinks_trans; [exact Hc|]. eapply shrinks_trans; [|apply Hpt]. apply sh_prop.
      * pose proof (sh_tally c b p) as Ht. destruct (tally c b p) as [c1 vv f x r|c1 vv|c1 vv|c1|]; try done.
        -- pose proof (sh_choose_from c1 p (bp_valid b)) as Hc. destruct (choose_from _ _ _) as [n c2]. simpl in Hc. intros [= <-].
           eapply shrinks_trans; [exact Ht|]. eapply shrinks_trans; [exact Hc|]. eapply shrinks_trans; [|apply Hpt].
           eapply shrinks_trans; [apply sh_finalize|apply sh_prop].
        -- pose proof (sh_choose c1 p []) as Hc. destruct (choose _ _ _) as [n c2]. simpl in Hc. intros [= <-].
           eapply shrinks_trans; [exact Ht|]. eapply shrinks_trans; [exact Hc|]. eapply shrinks_trans; [|apply Hpt]. apply sh_prop.
        -- pose proof (sh_choose c1 p []) as Hc. destruct (choose _ _ _) as [n c2]. simpl in Hc. intros [= <-].
           eapply shrinks_trans; [exact Ht|]. eapply shrinks_trans; [exact Hc|]. eapply shrinks_trans; [|apply Hpt]. apply sh_prop.
        -- intros [= <-]. done.
Qed.
Lemma sh_timeouts l c c' : timeouts c l = Some c' -> shrinks c c'.
Proof.
  revert c. induction l as [|[p i] l IH]; intros c; simpl; [intros [= <-]; apply shrinks_refl|].
  destruct (timeout_pool c p i) eqn:E; [|done]. intros H. eapply shrinks_trans; [by eapply sh_timeout_pool|by apply IH].
Qed.
Lemma s_give c p x c' : give c p x = Some c' -> c_s c' = c_s c.
Proof. unfold give. destruct (i64 x <? 0); [done|]. by destruct (send _ _ _ _); intros [= <-]. Qed.
Lemma s_split_loop l c t pr d c' d' : split_loop c t pr d l = Some (c', d') -> c_s c' = c_s c.
Proof.
  revert c d. induction l as [|p l IH]; intros c d; simpl; [by intros [= <- <-]|].
  destruct (can_run c p); [|apply IH]. destruct (pool_share _ _ _) as [x|]; [|done].
  destruct (give c p x) as [c1|] eqn:Eg; [|done]. apply s_give in Eg. intros H. apply IH in H. congruence.
Qed.
Lemma s_remainder_loop l c x c' : remainder_loop c x l = Some c' -> c_s c' = c_s c.
Proof.
  revert c. induction l as [|p l IH]; intros c; simpl; [by intros [= <-]|].
  destruct (can_run c p); [apply IH|].
  destruct (give c p x) as [c1|] eqn:Eg; [|done]. apply s_give in Eg. intros H. apply IH in H. congruence.
Qed.
Lemma s_split c pr c' : split_inflation c pr = Some c' -> c_s c' = c_s c.
Proof.
  unfold split_inflation. destruct (block_provision _ _ _) as [[h team]|]; [|done].
  destruct (trunc64 _) as [protocol|]; [|done].
  set (c0 := if h then cw_halt c else c). assert (Hc0 : c_s c0 = c_s c) by (unfold c0; by destruct h).
  destruct (protocol =? 0); [by intros [= <-]|]. destruct (total_weight c0 =? 0); [by intros [= <-]|].
  destruct (split_loop _ _ _ _ _) as [[c1 d]|] eqn:Es; [|done]. apply s_split_loop in Es.
  destruct (0 <? _).
  - intros H. apply s_remainder_loop in H. congruence.
  - intros [= <-]. congruence.
Qed.
Lemma s_burn_fees c : c_s (burn_fees c) = c_s c.
Proof.
  unfold burn_fees. destruct (c_height c =? 1); [done|]. destruct (c_burn c =? 0); [done|].
  by destruct (burn _ _ _).
Qed.
Lemma sh_begin c t pr : shrinks c (begin_block c t pr).
Proof.
  unfold begin_block. set (c0 := cw_time _ _ _). set (c1 := t_out c0 _).
  set (c2 := match split_inflation c1 pr with Some x => x | None => cw_halt c1 end).
  assert (Hb : c_s c2 = c_s c). { unfold c2. destruct (split_inflation c1 pr) eqn:E; [by apply s_split in E|done]. }
  clearbody c2. apply shrinks_sv. cbn [c_s s_out cw_bank cw_s d_out cw_d].
  eapply sv_trans; [|apply sv_begin]. apply sv_val. cbn. by rewrite Hb.
Qed.
Lemma sh_end c : shrinks c (end_block c).
Proof.
  unfold end_block, handle_upload_timeout. set (c1 := cw_pools _ _).
  eapply shrinks_trans; [|apply shrinks_val; by rewrite s_burn_fees].
  assert (H1 : shrinks c c1) by (by apply shrinks_m).
  destruct (timeouts _ _) eqn:E; [|done]. eapply shrinks_trans; [exact H1|]. by eapply sh_timeouts.
Qed.
Lemma sh_disable c sender p c' : chain_disable_pool c sender p = Some c' -> shrinks c c'.
Proof.
  unfold chain_disable_pool. destruct (disable_record _ _ _) as [ps|]; [|done]. set (c1 := cw_pools c ps).
  assert (H : shrinks c (fold_left (fun c s => s_out c (leave_pool (s_in c) s p)) (members c1 p) c1)).
  { eapply shrinks_trans; [|apply sh_fold].
    - by apply shrinks_m.
    - intros x s. apply shrinks_sv. cbn. eapply sv_trans; [|apply sv_leave]. by apply sv_val. }
  set (c2 := fold_left _ _ _) in *. destruct (two64 <=? _); [done|]. destruct (0 <? _); [|by intros [= <-]]. destruct (i64 _ <? 0); [done|].
  destruct (send _ _ _ _); [|done]. intros [= <-]. exact H.
Qed.
(** Whoever is in a pool after a step was in it before, or has just joined an enabled pool. *)
Lemma member_step c o p s : in_pool (cstep c o) p s = true -> in_pool c p s = true \/
  exists v a, o = CJoin s p v a /\ pl_disabled <$> get_pool c p = Some false.
Proof.
  unfold cstep. destruct (cmsg c o) as [c'|] eqn:E; simpl; [|by left].
  destruct o; simpl in E;
    try (match type of E with ?f <$> ?x = _ => destruct x eqn:Ex; [injection E as <-|done] end);
    try (match type of E with (if ?x then _ else _) = _ => destruct x; [injection E as <-|done] end);
    intros H; try (left; apply (shrinks_val c _ eq_refl) in H; exact H).
  - left. unfold chain_create_staker in E. destruct (msg_delegate _ _ _ _ _); [|done]. destruct (msg_create_staker _ _ _ _) eqn:Es; [|done].
    injection E as <-. unfold msg_create_staker in Es. destruct (ss_stakers _ !! _); [done|]. injection Es as <-. exact H.
  - left. unfold msg_update_commission in Ex. destruct (ss_stakers (s_in c) !! s0); [|done]. injection Ex as <-.
    unfold order_commission in H. destruct (ss_cindex _ !! _) as [i|]; [|exact H]. by destruct (ss_centries _ !! i).
  - left. unfold msg_claim_commission in Ex. destruct (ss_stakers (s_in c) !! s0); [|done]. destruct (negb _); [done|].
    destruct (send _ _ _ _); [|done]. injection Ex as <-. exact H.
  - apply join_inv in Ex as (Hpool & _ & _ & _ & st1 & b & Es & _ & _ & _ & ->).
    apply ensure_frame in Es as (l & Hst1).
    assert (Hs1 : svshrinks (s_in c) st1) by (destruct Hst1 as [->| ->]; [apply sv_refl|apply sv_leave]).
    change (in_pool (s_out c (with_sbank (add_val st1 p0 s0 v) b)) p s) with
      (match get_val (add_val st1 p0 s0 v) p s with Some _ => true | None => false end) in H.
    destruct (decide (p0 = p /\ s0 = s)) as [[-> ->]|Hne]; [right; eauto|]. left.
    assert (get_val (add_val st1 p0 s0 v) p s = get_val st1 p s) as Hg.
    { unfold add_val. destruct (ss_stakers st1 !! s0); [|done]. destruct (get_val st1 p0 s0); [done|].
      change (get_val (with_counts ?x ?y ?z) p s) with (get_val x p s). rewrite get_set_val. by rewrite decide_False. }
    rewrite Hg in H. specialize (Hs1 p s). destruct (get_val st1 p s); [|done].
    destruct Hs1 as [x Hx]; [by eexists|]. change (get_val (s_in c) p s) with (get_val (c_s c) p s) in Hx. unfold in_pool. by rewrite Hx.
  - left. revert H. apply shrinks_sv. cbn. unfold msg_leave in Ex. destruct (get_val _ _ _) eqn:Ev; [|done].
    destruct (bool_decide _); [done|]. injection Ex as <-. eapply sv_trans; [|by apply sv_val].
    eapply sv_trans; [|by eapply (sv_set (s_in c))]. by apply sv_val.
  - left. by apply (sh_submit _ _ _ E).
  - left. by apply (sh_vote _ _ _ _ _ _ _ E).
  - left. by apply (sh_skip _ _ _ _ _ _ E).
  - left. revert H. apply shrinks_m. unfold msg_claim_role in E. destruct (can_run c _); simpl in E; [|done]. destruct (authorized _ _ _ _); simpl in E; [|done].
    destruct (_ =? 0)%N; simpl in E; [|done]. by injection E as <-.
  - left. unfold chain_create_pool in E. destruct (msg_create_pool _ _ _ _ _); [|done]. by injection E as <-.
  - left. by apply (sh_disable _ _ _ _ E).
  - left. injection E as <-. by apply (sh_begin _ _ _ _ _ H).
  - left. injection E as <-. by apply (sh_end _ _ _ H).
  - left. by injection E as <-.
Qed.
