(** * Points: which messages change them, and that they never wrap (C24). *)
From Verif Require Import Base BaseFacts Delegation Stakers StakersInv StakersClaims StakersRun Funders Team RoundRobin RoundRobinClaims Pool Bundles Chain ChainFrame ArchiveInv
  BankMoves ChainLift PoolFrame PoolInv PayoutClaims PoolClaims TallyFacts VoteClaims StepCases PaySafe.

(** ** Membership records kept *)
(** Whoever is a member in [st'] was one in [st], with the same points and valaddress. *)
Definition keeps (st st' : sstate) : Prop := forall p s v', get_val st' p s = Some v' ->
  exists v, get_val st p s = Some v /\ vl_points v' = vl_points v /\ vl_addr v' = vl_addr v.
Lemma keeps_refl st : keeps st st. Proof. intros p s v H. eauto. Qed.
Lemma keeps_trans a b c : keeps a b -> keeps b c -> keeps a c.
Proof. intros H1 H2 p s v H. destruct (H2 _ _ _ H) as (x & Hx & -> & ->). by apply H1. Qed.
Lemma keeps_val st st' : ss_val st' = ss_val st -> keeps st st'.
Proof. intros H p s v. unfold get_val, vals_of. rewrite H. eauto. Qed.
Lemma keeps_leave st s p : keeps st (leave_pool st s p).
Proof. intros p' s' v'. rewrite get_leave. destruct (decide _); [done|]. eauto. Qed.
Lemma keeps_set st p s v v' : get_val st p s = Some v -> vl_points v' = vl_points v -> vl_addr v' = vl_addr v -> keeps st (set_val st p s v').
Proof. intros E H1 H2 p' s' x. rewrite get_set_val. destruct (decide _) as [[<- <-]|]; [|by eauto]. intros [= <-]. eauto. Qed.
Lemma keeps_pl st i st1 : process_lentry st i = Some st1 -> keeps st st1.
Proof.
  unfold process_lentry. destruct (ss_lentries st !! i) as [e|]; [|intros [= <-]; apply keeps_refl]. destruct (_ <=? _); [|done]. intros [= <-].
  eapply keeps_trans; [|apply keeps_leave]. by apply keeps_val.
Qed.
Lemma keeps_pc st i st1 : process_centry st i = Some st1 -> keeps st st1.
Proof.
  unfold process_centry. destruct (ss_centries st !! i) as [e|]; [|intros [= <-]; apply keeps_refl]. destruct (_ <=? _); [|done]. intros [= <-].
  apply keeps_val. by destruct (ss_stakers _ !! _).
Qed.
Lemma keeps_begin st : keeps st (stakers_begin st).
Proof.
  assert (H1 : keeps st (process_commissions st)).
  { unfold process_commissions.
    pose proof (queue_loop_inv process_centry (keeps st) (ss_chigh st) (S (N.to_nat (ss_chigh st - ss_clow st))) st (ss_clow st)
      (fun st' i st1 H E => keeps_trans _ _ _ H (keeps_pc _ _ _ E)) (keeps_refl st)) as H.
    destruct (queue_loop _ _ _ _ _) as [st1 low]. simpl in H. eapply keeps_trans; [exact H|]. by apply keeps_val. }
  unfold stakers_begin. set (s1 := process_commissions st) in *. clearbody s1. eapply keeps_trans; [exact H1|].
  unfold process_leaves.
  pose proof (queue_loop_inv process_lentry (keeps s1) (ss_lhigh s1) (S (N.to_nat (ss_lhigh s1 - ss_llow s1))) s1 (ss_llow s1)
      (fun st' i st1 H E => keeps_trans _ _ _ H (keeps_pl _ _ _ E)) (keeps_refl s1)) as H.
  destruct (queue_loop _ _ _ _ _) as [st1 low]. simpl in H. eapply keeps_trans; [exact H|]. by apply keeps_val.
Qed.
Lemma keeps_fold {A} (f : chain -> A -> chain) l c : (forall c x, keeps (c_s c) (c_s (f c x))) -> keeps (c_s c) (c_s (fold_left f l c)).
Proof. intros H. revert c. induction l as [|x l IH]; intros c; simpl; [apply keeps_refl|]. eapply keeps_trans; [apply H|apply IH]. Qed.
Lemma keeps_begin_block c t pr : keeps (c_s c) (c_s (begin_block c t pr)).
Proof.
  unfold begin_block. set (c0 := cw_time _ _ _). set (c1 := t_out c0 _).
  set (c2 := match split_inflation c1 pr with Some x => x | None => cw_halt c1 end).
  assert (Hb : c_s c2 = c_s c). { unfold c2. destruct (split_inflation c1 pr) eqn:E; [by apply s_split in E|done]. }
  clearbody c2. cbn [c_s s_out cw_bank cw_s d_out cw_d].
  eapply keeps_trans; [|apply keeps_begin]. apply keeps_val. cbn. by rewrite Hb.
Qed.
Lemma keeps_disable c sender p c' : chain_disable_pool c sender p = Some c' -> keeps (c_s c) (c_s c').
Proof.
  unfold chain_disable_pool. destruct (disable_record _ _ _) as [ps|]; [|done]. set (c1 := cw_pools c ps).
  assert (H : keeps (c_s c) (c_s (fold_left (fun c s => s_out c (leave_pool (s_in c) s p)) (members c1 p) c1))).
  { eapply keeps_trans; [|apply keeps_fold].
    - by apply keeps_val.
    - intros x s. cbn. eapply keeps_trans; [|apply keeps_leave]. by apply keeps_val. }
  set (c2 := fold_left _ _ _) in *. destruct (two64 <=? _); [done|]. destruct (0 <? _); [|by intros [= <-]]. destruct (i64 _ <? 0); [done|].
  destruct (send _ _ _ _); [|done]. intros [= <-]. exact H.
Qed.
(** What can touch points: votes, submissions, skips, and the end of a block. *)
Definition bundle_op (o : cop) : bool := match o with CSubmit _ | CVote _ _ _ _ _ | CSkip _ _ _ _ | CEnd => true | _ => false end.
Lemma points_step c o p s v : bundle_op o = false -> get_val (c_s (cstep c o)) p s = Some v ->
  (exists v0, get_val (c_s c) p s = Some v0 /\ vl_points v = vl_points v0 /\ vl_addr v = vl_addr v0) \/
  (get_val (c_s c) p s = None /\ vl_points v = 0 /\ exists w a, o = CJoin s p w a).
Proof.
  intros Ho. unfold cstep. destruct (cmsg c o) as [c'|] eqn:E; simpl; [|by eauto].
  assert (Hk : keeps (c_s c) (c_s c') -> get_val (c_s c') p s = Some v ->
    (exists v0, get_val (c_s c) p s = Some v0 /\ vl_points v = vl_points v0 /\ vl_addr v = vl_addr v0) \/
  (get_val (c_s c) p s = None /\ vl_points v = 0 /\ exists w a, o = CJoin s p w a)) by (intros H1 H2; left; by apply H1).
  destruct o; try done; simpl in E;
    try (match type of E with ?f <$> ?x = _ => destruct x eqn:Ex; [injection E as <-|done] end);
    try (match type of E with (if ?x then _ else _) = _ => destruct x; [injection E as <-|done] end);
    try (apply Hk; by apply keeps_val).
  - apply Hk. unfold chain_create_staker in E. destruct (msg_delegate _ _ _ _ _); [|done]. destruct (msg_create_staker _ _ _ _) eqn:Es; [|done].
    injection E as <-. unfold msg_create_staker in Es. destruct (ss_stakers _ !! _); [done|]. injection Es as <-. by apply keeps_val.
  - apply Hk. unfold msg_update_commission in Ex. destruct (ss_stakers (s_in c) !! s0); [|done]. injection Ex as <-.
    apply keeps_val. unfold order_commission. destruct (ss_cindex _ !! _) as [i|]; [|done]. by destruct (ss_centries _ !! i).
  - apply Hk. unfold msg_claim_commission in Ex. destruct (ss_stakers (s_in c) !! s0); [|done]. destruct (negb _); [done|].
    destruct (send _ _ _ _); [|done]. injection Ex as <-. by apply keeps_val.
  - clear Hk. pose proof Ex as Ej. apply join_inv in Ex as (Hpool & _ & _ & _ & st1 & b & Es & _ & _ & _ & ->).
    apply ensure_frame in Es as (l & Hst1).
    assert (Hs1 : keeps (s_in c) st1) by (destruct Hst1 as [->| ->]; [apply keeps_refl|apply keeps_leave]).
    change (get_val (c_s (s_out c (with_sbank (add_val st1 p0 s0 v0) b))) p s) with (get_val (add_val st1 p0 s0 v0) p s).
    unfold add_val. destruct (ss_stakers st1 !! s0); [|intros H; left; by apply Hs1]. destruct (get_val st1 p0 s0); [intros H; left; by apply Hs1|].
    change (get_val (with_counts ?x ?y ?z) p s) with (get_val x p s). rewrite get_set_val. destruct (decide _) as [[-> ->]|]; [|intros H; left; by apply Hs1].
    intros [= <-]. right. split; [|by eauto]. unfold msg_join in Ej. destruct (_ <$> _) as [[]|]; try done. destruct (ss_stakers (s_in c) !! s); [|done].
    destruct (_ =? _)%N; [done|]. change (get_val (c_s c) p s) with (get_val (s_in c) p s). by destruct (get_val (s_in c) p s).
  - apply Hk. cbn. unfold msg_leave in Ex. destruct (get_val _ _ _) eqn:Ev; [|done].
    destruct (bool_decide _); [done|]. injection Ex as <-. eapply keeps_trans; [|by apply keeps_val].
    eapply keeps_trans; [|by eapply (keeps_set (s_in c))]. by apply keeps_val.
  - apply Hk. apply keeps_val. unfold msg_claim_role in E. destruct (can_run c _); simpl in E; [|done]. destruct (authorized _ _ _ _); simpl in E; [|done].
    destruct (_ =? 0)%N; simpl in E; [|done]. by injection E as <-.
  - apply Hk. unfold chain_create_pool in E. destruct (msg_create_pool _ _ _ _ _); [|done]. injection E as <-. by apply keeps_val.
  - apply Hk. by apply (keeps_disable _ _ _ _ E).
  - apply Hk. injection E as <-. apply keeps_begin_block.
  - apply Hk. injection E as <-. by apply keeps_val.
Qed.

(** ** Slashes recorded *)
Definition calm (d d' : dstate) : Prop := forall s, f_slashes (getf d' s) = f_slashes (getf d s).
Lemma calm_refl d : calm d d. Proof. done. Qed.
Lemma calm_trans a b c : calm a b -> calm b c -> calm a c. Proof. intros H1 H2 s. by rewrite H2. Qed.
Lemma calm_f1 d d' : ds_f1 d' = ds_f1 d -> calm d d'. Proof. intros H s. unfold getf. by rewrite H. Qed.
Lemma calm_setf d s f : f_slashes f = f_slashes (getf d s) -> calm d (setf d s f).
Proof.
  intros H x. unfold getf at 1, setf. cbn. destruct (decide (x = s)) as [->|]; [by rewrite lookup_insert|]. by rewrite lookup_insert_ne.
Qed.
Lemma sl_start f dd : f_slashes (fst (f1_start_new_period f dd)) = f_slashes f.
Proof. unfold f1_start_new_period. destruct (dd_undel dd); [|done]. by destruct (f_entries f !! _). Qed.
Lemma sl_create f d a : f_slashes (f1_create f d a) = f_slashes f.
Proof.
  unfold f1_create. destruct (a =? 0); [done|]. pose proof (sl_start f (get_dd f)) as H.
  destruct (f1_start_new_period _ _) as [f1 dd1]. exact H.
Qed.
Lemma sl_remove f d : f_slashes (fst (f1_remove f d)) = f_slashes f.
Proof.
  unfold f1_remove. destruct (f_delegators f !! d) as [dl|]; [|done]. set (f0 := panic_if _ f).
  pose proof (sl_start f0 (get_dd f0)) as H. destruct (f1_start_new_period _ _) as [f1 dd1]. cbn in *.
  by destruct (_ =? 0).
Qed.
Lemma sl_withdraw f d : f_slashes (fst (f1_withdraw f d)) = f_slashes f.
Proof.
  unfold f1_withdraw. destruct (f_delegators f !! d) as [dl|]; [|done]. set (f0 := panic_if _ f).
  pose proof (sl_start f0 (get_dd f0)) as H. destruct (f1_start_new_period _ _) as [f1 dd1]. cbn in H.
  destruct (f1_sum_rewards _ _) as [r bad]. exact H.
Qed.
Lemma calm_pay d x c d' : pay_user d x c = Some d' -> calm d d'.
Proof. unfold pay_user. destruct (send _ _ _ _); [|done]. intros [= <-]. by apply calm_f1. Qed.
Lemma calm_withdrawal d s x : calm d (fst (perform_withdrawal d s x)).
Proof.
  unfold perform_withdrawal. pose proof (sl_withdraw (getf d s) x) as H. destruct (f1_withdraw _ _) as [f r]. cbn in H.
  set (d1 := if bool_decide _ then _ else _). assert (H1 : calm d d1) by (unfold d1; case_bool_decide; [by apply calm_setf|done]).
  destruct (pay_user d1 x r) eqn:E; [|done]. cbn. eapply calm_trans; [exact H1|]. by eapply calm_pay.
Qed.
Lemma calm_delegation d s x a : calm d (perform_delegation d s x a).
Proof.
  unfold perform_delegation. set (d0 := remove_index d s). assert (H0 : calm d d0) by (by apply calm_f1). clearbody d0.
  eapply calm_trans; [|by apply calm_f1]. eapply calm_trans; [exact H0|].
  case_bool_decide; [|apply calm_setf, sl_create].
  pose proof (calm_withdrawal d0 s x) as Hw. destruct (perform_withdrawal d0 s x) as [sw err]. cbn in Hw.
  set (sw1 := with_halt sw _). assert (H1 : calm d0 sw1) by (eapply calm_trans; [exact Hw|by apply calm_f1]). clearbody sw1.
  pose proof (sl_remove (getf sw1 s) x) as Hr. destruct (f1_remove _ _) as [f und]. cbn in Hr.
  eapply calm_trans; [exact H1|]. eapply calm_trans; [by apply calm_setf|]. apply calm_setf, sl_create.
Qed.
Lemma calm_undelegation d s x a : calm d (fst (perform_undelegation d s x a)).
Proof.
  unfold perform_undelegation. set (d0 := remove_index d s). assert (H0 : calm d d0) by (by apply calm_f1). clearbody d0.
  pose proof (calm_withdrawal d0 s x) as Hw. destruct (perform_withdrawal d0 s x) as [sw err]. cbn in Hw.
  set (sw1 := with_halt sw _). assert (H1 : calm d0 sw1) by (eapply calm_trans; [exact Hw|by apply calm_f1]). clearbody sw1.
  pose proof (sl_remove (getf sw1 s) x) as Hr. destruct (f1_remove _ _) as [f und]. cbn in Hr. cbn [fst].
  eapply calm_trans; [|by apply calm_f1]. eapply calm_trans; [exact H0|]. eapply calm_trans; [exact H1|].
  assert (H2 : calm sw1 (setf sw1 s f)) by (by apply calm_setf).
  destruct (und >? a); [|exact H2]. eapply calm_trans; [exact H2|]. apply calm_setf, sl_create.
Qed.
Lemma calm_one d l e : calm d (fst (process_one d l e)).
Proof.
  unfold process_one. pose proof (calm_undelegation d (u_staker e) (u_delegator e) (u_amount e)) as H.
  destruct (perform_undelegation _ _ _ _) as [d1 paid]. cbn in H. cbn [fst]. eapply calm_trans; [exact H|].
  destruct (pay_user _ _ _) eqn:E; [|by apply calm_f1]. eapply calm_trans; [by eapply calm_pay|by apply calm_f1].
Qed.
Lemma calm_loop n d l : calm d (fst (fst (process_loop n d l))).
Proof.
  revert d l. induction n as [|n IH]; intros d l; simpl; [done|]. destruct (ds_queue d !! _) as [e|].
  - destruct (Delegation.due d e); [|done]. pose proof (calm_one d l e) as H. destruct (process_one d l e) as [d1 paid]. cbn in H.
    specialize (IH d1 (l + 1)%N). destruct (process_loop n d1 _) as [[d2 l'] out]. cbn in *. by eapply calm_trans.
  - destruct (_ <? _)%N; [apply IH|done].
Qed.
Lemma calm_queue d : calm d (fst (process_queue d)).
Proof.
  unfold process_queue. pose proof (calm_loop (queue_fuel d) d (ds_low d)) as H. destruct (process_loop _ _ _) as [[d1 l] out]. cbn in *.
  eapply calm_trans; [exact H|by apply calm_f1].
Qed.
Lemma calm_delegate d e x s a d' : msg_delegate d e x s a = Some d' -> calm d d'.
Proof.
  unfold msg_delegate. destruct (negb e); [done|]. destruct (send _ _ _ _); [|done]. intros [= <-].
  eapply calm_trans; [apply calm_delegation|by apply calm_f1].
Qed.
Lemma calm_redelegate d e1 e2 x from to a d' : msg_redelegate d e1 e2 x from to a = Some d' -> calm d d'.
Proof.
  unfold msg_redelegate. repeat (destruct (negb _); [done|]). destruct (_ >? _); [done|]. destruct (consume_spell _ _ _) as [l|]; [|done].
  set (d1 := with_cool d _). assert (H1 : calm d d1) by (by apply calm_f1). clearbody d1.
  pose proof (calm_undelegation d1 from x a) as H. destruct (perform_undelegation _ _ _ _) as [d2 act]. cbn in H.
  destruct (negb _); [done|]. intros [= <-]. eapply calm_trans; [exact H1|]. eapply calm_trans; [exact H|]. apply calm_delegation.
Qed.
(** No message slashes, except submissions and skips (which may tally a bundle). *)
Definition tally_op (o : cop) : bool := match o with CSubmit _ | CSkip _ _ _ _ | CEnd => true | _ => false end.
Lemma d_split_loop l c t pr d c' d' : split_loop c t pr d l = Some (c', d') -> c_d c' = c_d c.
Proof.
  revert c d. induction l as [|p l IH]; intros c d; simpl; [by intros [= <- <-]|].
  destruct (can_run c p); [|apply IH]. destruct (pool_share _ _ _) as [x|]; [|done].
  destruct (give c p x) as [c1|] eqn:Eg; [|done]. intros H. apply IH in H. rewrite H.
  unfold give in Eg. destruct (i64 x <? 0); [done|]. by destruct (send _ _ _ _); injection Eg as <-.
Qed.
Lemma d_remainder_loop l c x c' : remainder_loop c x l = Some c' -> c_d c' = c_d c.
Proof.
  revert c. induction l as [|p l IH]; intros c; simpl; [by intros [= <-]|].
  destruct (can_run c p); [apply IH|].
  destruct (give c p x) as [c1|] eqn:Eg; [|done]. intros H. apply IH in H. rewrite H.
  unfold give in Eg. destruct (i64 x <? 0); [done|]. by destruct (send _ _ _ _); injection Eg as <-.
Qed.
Lemma d_split c pr c' : split_inflation c pr = Some c' -> c_d c' = c_d c.
Proof.
  unfold split_inflation. destruct (block_provision _ _ _) as [[h team]|]; [|done].
  destruct (trunc64 _) as [protocol|]; [|done].
  set (c0 := if h then cw_halt c else c). assert (Hc0 : c_d c0 = c_d c) by (unfold c0; by destruct h).
  destruct (protocol =? 0); [by intros [= <-]|]. destruct (total_weight c0 =? 0); [by intros [= <-]|].
  destruct (split_loop _ _ _ _ _) as [[c1 d]|] eqn:Es; [|done]. apply d_split_loop in Es.
  destruct (0 <? _).
  - intros H. apply d_remainder_loop in H. congruence.
  - intros [= <-]. congruence.
Qed.
Lemma calm_begin_block c t pr : calm (c_d c) (c_d (begin_block c t pr)).
Proof.
  unfold begin_block. set (c0 := cw_time _ _ _). set (c1 := t_out c0 _).
  set (c2 := match split_inflation c1 pr with Some x => x | None => cw_halt c1 end).
  assert (Hb : c_d c2 = c_d c). { unfold c2. destruct (split_inflation c1 pr) eqn:E; [by apply d_split in E|done]. }
  clearbody c2. cbn [c_d s_out cw_bank cw_s d_out cw_d].
  eapply calm_trans; [|eapply calm_trans; [apply calm_queue|by apply calm_f1]]. apply calm_f1. cbn. by rewrite Hb.
Qed.
Lemma slashes_step c o : tally_op o = false -> calm (c_d c) (c_d (cstep c o)).
Proof.
  intros Ho. unfold cstep. destruct (cmsg c o) as [c'|] eqn:E; simpl; [|done].
  destruct o; try done; simpl in E;
    try (match type of E with ?f <$> ?x = _ => destruct x eqn:Ex; [injection E as <-|done] end);
    try (match type of E with (if ?x then _ else _) = _ => destruct x; [injection E as <-|done] end);
    try (by apply calm_f1).
  - apply calm_delegate in Ex. intros x. cbn. rewrite (Ex x). done.
  - unfold msg_undelegate in Ex. destruct (_ >? _); [done|]. injection Ex as <-. by apply calm_f1.
  - apply calm_redelegate in Ex. intros x. cbn. rewrite (Ex x). done.
  - unfold msg_withdraw in Ex. destruct (negb _); [done|]. pose proof (calm_withdrawal (d_in c) s d) as H.
    destruct (perform_withdrawal _ _ _) as [d1 [r|]]; [|done]. injection Ex as <-. exact H.
  - unfold chain_create_staker in E. destruct (msg_delegate _ _ _ _ _) eqn:Ed; [|done]. destruct (msg_create_staker _ _ _ _) eqn:Es; [|done].
    injection E as <-. apply calm_delegate in Ed. exact Ed.
  - unfold msg_vote in E. destruct (negb _); [done|]. cbv zeta in E.
    match type of E with match ?x with Some _ => _ | None => _ end = _ => destruct x as [b'|] end; [|done]. by injection E as <-.
  - unfold msg_claim_role in E. destruct (can_run c _); simpl in E; [|done]. destruct (authorized _ _ _ _); simpl in E; [|done].
    destruct (_ =? 0)%N; simpl in E; [|done]. by injection E as <-.
  - unfold chain_create_pool in E. destruct (msg_create_pool _ _ _ _ _); [|done]. injection E as <-. by apply calm_f1.
  - unfold chain_disable_pool in E. destruct (disable_record _ _ _) as [ps|]; [|done].
    assert (H : forall l x, c_d (fold_left (fun c s => s_out c (leave_pool (s_in c) s p)) l x) = c_d x).
    { induction l as [|y l IH]; intros x; simpl; [done|]. by rewrite IH. }
    specialize (H (members (cw_pools c ps) p) (cw_pools c ps)). set (c2 := fold_left _ _ _) in *. clearbody c2.
    assert (Hc : c_d c' = c_d c2).
    { destruct (two64 <=? _); [done|]. destruct (0 <? _); [|by injection E as <-]. destruct (i64 _ <? 0); [done|].
      destruct (send _ _ _ _); [|done]. by injection E as <-. }
    rewrite Hc, H. done.
  - injection E as <-. apply calm_begin_block.
  - injection E as <-. done.
Qed.

(** ** Points never wrap *)
Definition points_ok (c : chain) : Prop := forall p s v, get_val (c_s c) p s = Some v -> 0 <= vl_points v < two64 - 1.
Definition obs_ok (o : obs) : Prop := match fst o with Some v => 0 <= vl_points v < two64 - 1 | None => True end.

Section T.
Context (g : gen) (Hg : genesis g).

Lemma ok_took c p m s : points_ok c -> obs_ok (took c p m s).
Proof.
  intros H. unfold took, obs_ok, ob. specialize (H p s). destruct (decide _); cbn [fst]; destruct (get_val _ _ _); cbn; try done. by apply H.
Qed.
Lemma ok_ob c p s : points_ok c -> obs_ok (ob c p s).
Proof. intros H. unfold obs_ok, ob. cbn. specialize (H p s). destruct (get_val _ _ _); [by apply H|done]. Qed.
Lemma ok_miss c o : G g c -> obs_ok o -> obs_ok (one_miss c o).
Proof.
  intros HG. unfold one_miss, miss, obs_ok. pose proof (g_par _ _ HG) as Hp. unfold params_ok in Hp.
  assert (Hm : b_maxpoints (c_bp c) < two64) by tauto.
  destruct (fst o) as [v|] eqn:E; [|by rewrite E]. intros Hv. rewrite u64_add_id by lia.
  destruct (Z.leb_spec (b_maxpoints (c_bp c)) (vl_points v + 1)); cbn; [done|]. lia.
Qed.
Lemma ok_lose c p s o : G g c -> obs_ok o -> obs_ok (lose c p s o).
Proof. intros HG H. unfold lose. destruct (decide _); [by apply ok_miss|done]. Qed.
Lemma ok_valid c p s o : obs_ok o -> obs_ok (when_valid c p s o).
Proof. intros H. unfold when_valid. by destruct (decide _). Qed.
Lemma ok_invalid c p s o : obs_ok o -> obs_ok (when_invalid c p s o).
Proof. intros H. unfold when_invalid. by destruct (decide (s ∈ bp_valid _)). Qed.
Lemma ok_late c n s o : G g c -> obs_ok o -> obs_ok (late c n s o).
Proof. intros HG H. unfold late. destruct (decide _); [by apply ok_miss|done]. Qed.
Lemma ok_post c c' p o b fin : points_ok c -> post c c' p o b fin -> (forall s, obs_ok (o s)) -> points_ok c'.
Proof.
  intros Hc HP Ho q s v E. destruct (decide (q = p)) as [->|Hne].
  - specialize (Ho s). rewrite <- (po_ob _ _ _ _ _ _ HP) in Ho. unfold obs_ok, ob in Ho. cbn in Ho. by rewrite E in Ho.
  - rewrite (po_others _ _ _ _ _ _ HP) in E by done. by eapply Hc.
Qed.

(** The proposal record exists for whoever may skip. *)
Lemma skip_prop c p s v from c' : G g c -> cmsg c (CSkip p s v from) = Some c' -> is_Some (c_prop c !! p).
Proof.
  intros HG. cbn [cmsg]. unfold msg_skip. destruct (can_propose c p s v from) eqn:E; [|done]. intros _. revert E.
  unfold can_propose. destruct (get_pool c p); [|done]. rewrite !andb_true_iff. intros ((((_ & H1) & H2) & _) & _).
  unfold authorized in H1. destruct (get_val (c_s c) p s) as [x|] eqn:Ev; [|done].
  destruct (g_s _ _ HG) as (ops & Hok & E). assert (HM : MI (s_in c)) by (rewrite E; by apply MI_run, MI_init).
  destruct (mi_known _ HM p s x Ev) as (_ & Hs & _). apply N.eqb_eq in H2.
  unfold get_prop in H2. destruct (c_prop c !! p); [eauto|]. cbn in H2. congruence.
Qed.

Lemma ok_timeout c p i c' : G g c -> AInv c -> is_Some (get_pool c p) -> points_ok c -> timeout_pool c p i = Some c' -> points_ok c'.
Proof.
  intros HG HA Hpl HP E. pose proof (timeout_cases g Hg c p i c' HG HA E) as H. cbv zeta in H.
  destruct H as [(_ & b' & H & _)|[(_ & -> & _)|[(_ & _ & _ & _ & n & _ & H)|[(_ & _ & _ & n & _ & H)|[(_ & _ & _ & _ & n & v & _ & H)|(c1 & Ht & ->)]]]]].
  - eapply ok_post; [done|exact H|]. intros s. by apply ok_ob.
  - done.
  - eapply ok_post; [done|exact H|]. intros s. cbn. by apply ok_lose, ok_ob.
  - eapply ok_post; [done|exact H|]. intros s. cbn. by apply ok_late, ok_ob.
  - destruct H as [(_ & _ & H)|[(_ & _ & H)|(_ & _ & _ & H)]]; (eapply ok_post; [done|exact H|]); intros s; cbn.
    + by apply ok_late, ok_valid, ok_lose, ok_ob.
    + by apply ok_late, ok_invalid, ok_lose, ok_ob.
    + by apply ok_late, ok_lose, ok_ob.
  - by destruct (tally_safe g Hg c p HG HA Hpl c1).
Qed.
Lemma ok_timeouts l c c' : G g c -> AInv c -> (forall p i, (p, i) ∈ l -> is_Some (get_pool c p)) -> points_ok c -> timeouts c l = Some c' -> points_ok c'.
Proof.
  revert c. induction l as [|[p i] l IH]; intros c HG HA Hl HP; simpl; [by intros [= <-]|].
  destruct (timeout_pool c p i) as [c1|] eqn:E; [|done].
  assert (Hpl : is_Some (get_pool c p)) by (eapply Hl; by left).
  destruct (agood_timeout _ _ _ _ HA Hpl E) as [HA1 Hg1]. apply IH.
  - by eapply G_timeout_pool.
  - done.
  - intros q j Hq. eapply some_get; [exact (agood_timeout _ _ _ _ HA Hpl E)|]. eapply Hl. by right.
  - by eapply ok_timeout.
Qed.
Lemma points_ok_ext c c' : c_s c' = c_s c -> points_ok c -> points_ok c'.
Proof. unfold points_ok. by intros ->. Qed.
Lemma points_ok_step c o : G g c -> AInv c -> cop_ok c o -> points_ok c -> points_ok (cstep c o).
Proof.
  intros HG HA Hok HP. destruct (bundle_op o) eqn:Eb.
  - unfold cstep. destruct (cmsg c o) as [c'|] eqn:E; simpl; [|done]. destruct o; try done.
    + pose proof (submit_cases g Hg c m c' HG HA E) as H. cbv zeta in H.
      destruct H as [(_ & n & b' & _ & _ & H)|[(_ & n & b' & v & _ & _ & _ & _ & H)|(_ & v & _ & _ & H)]]; (eapply ok_post; [done|exact H|]); intros s; cbn.
      * by apply ok_took.
      * by apply ok_valid, ok_lose, ok_took.
      * by apply ok_invalid, ok_lose, ok_took.
    + destruct (vote_cases g c p s creator storage w c' HG HA E) as (b' & H & _). eapply ok_post; [done|exact H|]. intros x. by apply ok_took.
    + pose proof (skip_cases g Hg c p s creator from c' HG HA (skip_prop _ _ _ _ _ _ HG E) E) as H. cbv zeta in H.
      destruct H as [(n & v' & _ & _ & _ & H)|[(n & v' & _ & _ & _ & H)|(n & v' & _ & _ & _ & _ & H)]]; (eapply ok_post; [done|exact H|]); intros x; cbn.
      * by apply ok_valid, ok_lose, ok_took.
      * by apply ok_invalid, ok_lose, ok_took.
      * by apply ok_lose, ok_took.
    + injection E as <-. unfold end_block. eapply points_ok_ext; [apply s_burn_fees|]. unfold handle_upload_timeout.
      set (c1 := cw_pools c _). assert (HG1 : G g c1) by (by apply G_upgrades).
      assert (HA1 : AInv c1).
      { apply (agood_keep c); try done. apply keep_upgrades. }
      destruct (timeouts c1 _) as [c2|] eqn:Et; [|exact HP].
      apply (ok_timeouts (pool_intervals c1) c1 c2 HG1 HA1); [|exact HP|exact Et].
      intros p i Hp. apply pool_intervals_in in Hp as (pl & -> & _). eauto.
  - intros p s v E. destruct (points_step c o p s v Eb E) as [(v0 & H0 & -> & _)|(_ & -> & _)]; [by eapply HP|]. unfold two64. lia.
Qed.
Lemma points_ok_run ops : cops_ok (gstart g) ops -> points_ok (crun (gstart g) ops).
Proof.
  intros H. cut (G g (crun (gstart g) ops) /\ AInv (crun (gstart g) ops) /\ points_ok (crun (gstart g) ops)); [tauto|].
  apply (crun_inv (fun c => G g c /\ AInv c /\ points_ok c)); [|split; [by apply G_init|split; [apply AInv_init|]]|done].
  - intros c o (H1 & H2 & H3) Ho. split; [by apply G_step|]. split; [by apply chain_step|by apply points_ok_step].
  - intros p s v. unfold get_val, vals_of. cbn. by rewrite lookup_empty.
Qed.
End T.
