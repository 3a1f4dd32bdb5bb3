(** * What a finalized bundle pays, over the whole chain (C55): proofs. *)
From Verif Require Import Base BaseFacts Delegation DelegationInv Stakers StakersInv StakersClaims StakersRun Funders FundersInv Team RoundRobin Pool Bundles Chain ChainFrame ArchiveInv
  BankMoves ChainLift PoolFrame PoolInv PayoutClaims TallyFacts VoteClaims StepCases PaySafe PointsInv SplitClaims Walk MoneyFlow.

(** What transfers outside the model have put into an account. *)
Fixpoint from_outside (a : acct) (d : N) (c : chain) (ops : list cop) : Z :=
  match ops with
  | [] => 0
  | o :: t => match o with CBank b => bal b a d - bal (c_bank c) a d | _ => 0 end + from_outside a d (cstep c o) t
  end.

(** ** Stakers stay *)
Definition sd (c c' : chain) : Prop := forall s, is_Some (ss_stakers (c_s c) !! s) -> is_Some (ss_stakers (c_s c') !! s).
Lemma sd_refl c : sd c c. Proof. by intros s. Qed.
Lemma sd_trans a b c : sd a b -> sd b c -> sd a c. Proof. intros H1 H2 s H. by apply H2, H1. Qed.
Lemma sd_eq c c' : ss_stakers (c_s c') = ss_stakers (c_s c) -> sd c c'.
Proof. intros E s. by rewrite E. Qed.
Lemma sd_pay c u r : match pay_out c u r with inl c' | inr c' => sd c c' end.
Proof.
  unfold pay_out. destruct (send _ _ _ _); [|apply sd_refl]. unfold increase_commission_rewards. destruct (cempty _).
  - destruct (payout_rewards _ _ _ _); by apply sd_eq.
  - destruct (ss_stakers _ !! _) as [x|] eqn:E; [|by apply sd_eq]. destruct (send _ _ _ _); [|by apply sd_eq].
    destruct (payout_rewards _ _ _ _); intros s; cbn; (destruct (decide (s = u)) as [->|]; [by rewrite lookup_insert|by rewrite lookup_insert_ne]).
Qed.
Lemma sd_infl c p c' x : charge_inflation c p = Some (c', x) -> sd c c'.
Proof. intros H. apply sd_eq. unfold charge_inflation in H. destruct (inflation_payout _ _); [|done]. destruct (i64 _ <? 0); [done|]. by destruct (send _ _ _ _); injection H as <- <-. Qed.
Lemma sd_leave c s p : sd c (s_out c (leave_pool (s_in c) s p)).
Proof. apply sd_eq. cbn. destruct (leave_frame (s_in c) s p) as [-> _]. done. Qed.
Lemma sd_incr c p s : sd c (s_out c (fst (increment_points (s_in c) p s))).
Proof. apply sd_eq. unfold increment_points. by destruct (get_val _ _ _). Qed.
Lemma sd_reset c p s : sd c (reset_pts c p s).
Proof. apply sd_eq. unfold reset_pts, reset_points. by destruct (get_val _ _ _). Qed.
Lemma sd_final c p v : sd c (finalize c p v).
Proof. apply sd_eq. unfold finalize. by destruct (get_pool c p). Qed.
Ltac walk l := apply (l sd sd_refl sd_trans); try exact sd_pay; try exact sd_infl; try exact sd_leave; try exact sd_incr; try exact sd_reset; try exact sd_final;
  try (intros; by apply sd_eq).
Lemma sd_non_voters c p : sd c (handle_non_voters c p).
Proof. walk k_non_voters. Qed.
Lemma sd_tally c b p :
  match tally c b p with TrValid c' _ _ _ _ | TrInvalid c' _ | TrNoQuorum c' _ | TrError c' => sd c c' | TrPanic => True end.
Proof. walk k_tally. Qed.
Lemma sd_timeout_pool c p i c' : timeout_pool c p i = Some c' -> sd c c'.
Proof. walk k_timeout_pool. Qed.

Lemma sd_step c o : sd c (cstep c o).
Proof.
  unfold cstep. destruct (cmsg c o) as [c'|] eqn:E; [|apply sd_refl]. change (default c (Some c')) with c'.
  destruct o; cbn [cmsg] in E;
    try (match type of E with ?f <$> ?x = _ => destruct x as [y|] eqn:Ex; [injection E as <-|done] end);
    try (match type of E with (if ?x then _ else _) = _ => destruct x; [injection E as <-|done] end);
    try (by apply sd_eq).
  - unfold chain_create_staker in E. destruct (msg_delegate _ _ _ _ _); [|done]. destruct (msg_create_staker _ _ _ _) eqn:Es; [|done].
    injection E as <-. unfold msg_create_staker in Es. destruct (ss_stakers _ !! _) eqn:E1; [done|]. injection Es as <-. intros x Hx. cbn.
    destruct (decide (x = s)) as [->|]; [by rewrite lookup_insert|by rewrite lookup_insert_ne].
  - unfold msg_update_commission in Ex. destruct (ss_stakers (s_in c) !! s); [|done]. injection Ex as <-.
    unfold order_commission. destruct (ss_cindex _ !! _) as [i|]; [|by apply sd_eq]. destruct (ss_centries _ !! i); by apply sd_eq.
  - unfold msg_claim_commission in Ex. destruct (ss_stakers (s_in c) !! s) eqn:E1; [|done]. destruct (negb _); [done|].
    destruct (send _ _ _ _); [|done]. injection Ex as <-. intros x Hx. cbn.
    destruct (decide (x = s)) as [->|]; [by rewrite lookup_insert|by rewrite lookup_insert_ne].
  - unfold msg_join in Ex. destruct (_ <$> _) as [[]|]; try done. destruct (ss_stakers (s_in c) !! s); [|done]. destruct (s =? v)%N; [done|].
    destruct (get_val (s_in c) p s); [done|]. destruct (ensure_slot _ _ p s) as [st1|] eqn:E1; [|done].
    assert (Eb : ss_stakers st1 = ss_stakers (s_in c)).
    { unfold ensure_slot in E1. destruct (_ <=? _); [|congruence]. destruct (_ <? _); [|done]. injection E1 as <-. apply leave_frame. }
    destruct (existsb _ _); [done|]. destruct (existsb _ _); [done|]. destruct (pay_kyve _ _ _ _); [|done]. injection Ex as <-.
    apply sd_eq. cbn. destruct (add_frame st1 s p v) as [-> _]. exact Eb.
  - unfold msg_leave in Ex. destruct (get_val _ _ _); [|done]. destruct (bool_decide _); [done|]. injection Ex as <-. by apply sd_eq.
  - revert E. walk k_submit.
  - revert E. apply (k_vote sd sd_trans); [exact sd_reset|]. intros; by apply sd_eq.
  - revert E. walk k_skip.
  - unfold msg_claim_role in E. repeat (destruct (negb _); [done|]). injection E as <-. by apply sd_eq.
  - unfold chain_create_pool in E. destruct (msg_create_pool _ _ _ _ _); [|done]. injection E as <-. by apply sd_eq.
  - unfold chain_disable_pool in E. destruct (disable_record _ _ _) as [ps|]; [|done]. cbv zeta in E. set (c2 := fold_left _ _ _) in E.
    assert (H2 : sd c c2).
    { unfold c2. apply (sd_trans _ (cw_pools c ps)); [by apply sd_eq|]. apply (k_fold sd sd_refl sd_trans). intros. apply sd_leave. }
    destruct (_ <=? _); [done|]. destruct (0 <? _); [|by injection E as <-]. destruct (i64 _ <? 0); [done|].
    destruct (send _ _ _ _); [|done]. injection E as <-. exact H2.
  - injection E as <-. unfold begin_block. set (c0 := cw_time _ _ _). set (c1 := t_out c0 _).
    set (c2 := match split_inflation c1 provision with Some x => x | None => cw_halt c1 end).
    assert (Hb : c_s c2 = c_s c). { unfold c2. destruct (split_inflation c1 provision) eqn:E; [by apply PoolFrame.s_split in E|done]. }
    clearbody c2. intros s. cbn [c_s s_out cw_bank cw_s d_out cw_d]. rewrite <- Hb.
    change (ss_stakers (c_s c2)) with (ss_stakers (with_stime (s_in (d_out c2 (fst (process_queue (with_time (d_in c2) t))))) t)).
    generalize (with_stime (s_in (d_out c2 (fst (process_queue (with_time (d_in c2) t))))) t) as st.
    intros st Hs. unfold stakers_begin, process_leaves, process_commissions.
    set (P := fun st' : sstate => is_Some (ss_stakers st' !! s)).
    pose proof (queue_loop_inv process_centry P (ss_chigh st) (S (N.to_nat (ss_chigh st - ss_clow st))) st (ss_clow st)) as H1.
    destruct (queue_loop process_centry _ _ _ _) as [st1 low]. cbn [fst] in H1.
    set (st2 := with_cq _ _ _ _ _).
    pose proof (queue_loop_inv process_lentry P (ss_lhigh st2) (S (N.to_nat (ss_lhigh st2 - ss_llow st2))) st2 (ss_llow st2)) as H2.
    destruct (queue_loop process_lentry _ _ _ _) as [st3 low3]. cbn [fst] in H2.
    apply H2; clear H2.
    + intros st' i st'' Hp. unfold process_lentry. destruct (_ !! i) as [e|]; [|by intros [= <-]]. destruct (_ <=? _); [|done]. intros [= <-].
      unfold P. match goal with |- context [leave_pool ?a ?b ?c] => destruct (leave_frame a b c) as [-> _] end. exact Hp.
    + unfold P, st2. cbn [ss_stakers with_cq]. apply H1; [|done].
      intros st' i st'' Hp. unfold process_centry. destruct (_ !! i) as [e|]; [|by intros [= <-]]. destruct (_ <=? _); [|done]. intros [= <-].
      unfold P. 
      destruct (ss_stakers st' !! ce_staker e) eqn:Ee; [|exact Hp]. cbn.
      destruct (decide (s = ce_staker e)) as [->|]; [by rewrite lookup_insert|rewrite lookup_insert_ne by done; exact Hp].
  - injection E as <-. unfold end_block. set (c1 := cw_pools _ _). apply (sd_trans _ c1); [by apply sd_eq|].
    apply (sd_trans _ (handle_upload_timeout c1)); [walk k_handle_timeout|]. apply sd_eq. by rewrite PoolFrame.s_burn_fees.
  - injection E as <-. by apply sd_eq.
Qed.

(** ** The uploader of a proposal is a staker *)
Definition U (c : chain) : Prop := forall p b, c_prop c !! p = Some b -> bp_storage b <> 0%N -> is_Some (ss_stakers (c_s c) !! bp_uploader b).
Lemma U_good c c' : U c -> agood c c' -> sd c c' -> U c'.
Proof.
  intros HU [_ Hr] Hs p b Hb Hz. destruct (rl_prop _ _ Hr _ _ Hb Hz) as (b0 & _ & _ & H0 & Hc & _).
  unfold content in Hc. injection Hc as E1 E2 _ _ _ _ _ _ _ _. rewrite <- E2. apply Hs. eapply HU; [exact H0|]. by rewrite E1.
Qed.
Section reach.
Context (g : gen) (Hg : genesis g).
Lemma known c p s : G g c -> in_pool c p s = true -> is_Some (ss_stakers (c_s c) !! s).
Proof.
  intros HG H. destruct (g_s _ _ HG) as (ops & Hok & E). assert (HM : MI (s_in c)) by (rewrite E; by apply MI_run, MI_init).
  unfold in_pool in H. destruct (get_val (c_s c) p s) as [v|] eqn:Ev; [|done]. by apply (mi_known _ HM p s v).
Qed.
Lemma U_step c o : G g c -> AInv c -> cop_ok c o -> U c -> U (cstep c o).
Proof.
  intros HG HA Hok HU. pose proof (sd_step c o) as Hs. destruct (chain_step c o HA Hok) as [_ [Hgd|(m & -> & Hm & Hn)]]; [by eapply U_good|].
  destruct Hn as (mid & b & pl & plc & Hgd & Ep & _ & _ & _ & _ & _ & _ & Hf & _).
  intros p b' Hb Hz. rewrite Ep in Hb. destruct (decide (p = sb_pool m)) as [->|Hne].
  - rewrite lookup_insert in Hb. injection Hb as <-. unfold from_submit, content in Hf. injection Hf as _ -> _ _ _ _ _ _ _ _.
    apply Hs. unfold msg_submit in Hm. destruct (can_propose _ _ _ _ _) eqn:Ec; [|done]. unfold can_propose in Ec. destruct (get_pool _ _); [|done].
    rewrite !andb_true_iff in Ec. destruct Ec as ((((_ & Ha) & _) & _) & _). unfold authorized in Ha.
    apply (known c (sb_pool m)); [done|]. unfold in_pool. by destruct (get_val _ _ _).
  - rewrite lookup_insert_ne in Hb by done. destruct Hgd as [_ Hr]. destruct (rl_prop _ _ Hr _ _ Hb Hz) as (b0 & _ & _ & H0 & Hc & _).
    unfold content in Hc. injection Hc as E1 E2 _ _ _ _ _ _ _ _. rewrite <- E2. apply Hs. eapply HU; [exact H0|]. by rewrite E1.
Qed.
Definition R (c : chain) : Prop := G g c /\ AInv c /\ U c.
Lemma R_run ops : cops_ok (gstart g) ops -> R (crun (gstart g) ops).
Proof.
  intros Hok. apply (crun_inv R); [| |done].
  - intros c o (H1 & H2 & H3) Ho. split; [by apply G_step|]. split; [by apply chain_step|by apply U_step].
  - split; [by apply G_init|]. split; [apply AInv_init|]. intros p b. cbn. by rewrite lookup_empty.
Qed.
End reach.

(** ** Slashes only *)
(** Nothing but slashes: stake moves to the treasury; no other balance, no funding and no staker's rewards change. *)
Inductive slash_edge : acct -> acct -> Prop := se : slash_edge MDelegation Treasury.
Definition sl (c c' : chain) : Prop := flows slash_edge (c_bank c) (c_bank c') /\ ss_stakers (c_s c') = ss_stakers (c_s c) /\ c_f c' = c_f c.
Lemma sl_refl c : sl c c. Proof. split; [constructor|done]. Qed.
Lemma sl_trans a b c : sl a b -> sl b c -> sl a c.
Proof. intros (H1 & H2 & H3) (E1 & E2 & E3). split; [by eapply flows_trans|]. split; congruence. Qed.
Lemma sl_slash c s t : sl c (d_out c (fst (slash_delegators (d_in c) s t))).
Proof. split; [|done]. apply (df_slash slash_edge (d_in c)). constructor. Qed.
Lemma sl_leave c s p : sl c (s_out c (leave_pool (s_in c) s p)).
Proof. destruct (leave_frame (s_in c) s p) as (H & _). split; [|by split; [cbn; rewrite H|]]. cbn. rewrite sb_leave_pool. constructor. Qed.
Lemma sl_incr c p s : sl c (s_out c (fst (increment_points (s_in c) p s))).
Proof. unfold increment_points. destruct (get_val _ _ _); split; try constructor; done. Qed.
Lemma sl_reset c p s : sl c (reset_pts c p s).
Proof. unfold reset_pts, reset_points. destruct (get_val _ _ _); split; try constructor; done. Qed.
Lemma sl_remove c p s t : sl c (slash_remove c p s t).
Proof. apply (k_slash_remove sl sl_trans sl_slash sl_leave). Qed.
Lemma sl_non_voters c p : sl c (handle_non_voters c p).
Proof. apply (k_non_voters sl sl_refl sl_trans sl_slash sl_leave sl_incr). Qed.
Lemma sl_timeout_point c p s : sl c (timeout_point c p s).
Proof. apply (k_timeout_point sl sl_refl sl_trans sl_slash sl_leave sl_incr). Qed.
Lemma sl_removes c p l (t : N -> slash_type) : sl c (fold_left (fun c s => slash_remove c p s (t s)) l c).
Proof. apply (k_fold sl sl_refl sl_trans). intros. apply sl_remove. Qed.
Lemma sl_eq c c' : c_bank c' = c_bank c -> c_s c' = c_s c -> c_f c' = c_f c -> sl c c'.
Proof. intros H1 H2 H3. split; [rewrite H1; constructor|]. split; congruence. Qed.
Lemma flows_slash b b' d : flows slash_edge b b' ->
  (forall a, a <> MDelegation -> a <> Treasury -> bal b' a d = bal b a d) /\
  bal b' MDelegation d + bal b' Treasury d = bal b MDelegation d + bal b Treasury d /\ bal b Treasury d <= bal b' Treasury d.
Proof.
  intros H. split; [|split].
  - intros a H1 H2. apply (flows_same _ _ _ a d H); intros y Hy; inversion Hy; congruence.
  - induction H as [|b from to x b1 b2 Hr Hs _ IH]; [done|]. rewrite IH. apply send_Some in Hs as [_ Hs]. rewrite !Hs. destruct Hr.
    repeat (case_decide; try congruence). lia.
  - apply (flows_ge _ _ _ Treasury d H). intros y Hy. inversion Hy.
Qed.

(** ** What a finalized bundle pays *)
Definition kx (c : chain) (p d : N) : Z := if (d =? KYVE)%N then bal (c_bank c) (PoolAcc p) KYVE * pp_rate (c_pp c) / ONE else 0.
Definition funds (c : chain) (d : N) : Z := msum (fun _ f => amt (fd_amounts f) d) (fs_fundings (c_f c)).
Definition not_paid (c c' : chain) : Prop :=
  (forall a d, a <> MDelegation -> a <> Treasury -> bal (c_bank c') a d = bal (c_bank c) a d) /\
  (forall d, bal (c_bank c') MDelegation d + bal (c_bank c') Treasury d = bal (c_bank c) MDelegation d + bal (c_bank c) Treasury d) /\
  (forall d, bal (c_bank c) Treasury d <= bal (c_bank c') Treasury d) /\
  (forall d, funds c' d = funds c d) /\ ss_stakers (c_s c') = ss_stakers (c_s c).
Definition bundle_paid (c c' : chain) (p : N) : Prop :=
  let b := get_prop c p in let u := bp_uploader b in
  exists (fp tr st com del : coins) (x : staker), let tot d := amt fp d + kx c p d in
    (cpos fp /\ cpos tr /\ cpos st /\ cpos com /\ cpos del) /\
    (forall d, amt tr d + amt st d + amt com d + amt del d = tot d) /\
    (forall d, amt tr d = tot d * b_fee (c_bp c) / ONE) /\
    (bp_data b < two63 -> forall rest : gmap N Z, (forall d, amt rest d = tot d - amt tr d) -> (forall d, rest !! d <> Some 0) ->
       forall d, storage_part_ok (fp_list (fs_params (c_f c))) (storage_cost (c_bp c) (bp_sp b)) (bp_data b) (Z.of_nat (size rest)) (tot d - amt tr d) (amt st d) d) /\
    (del <> ∅ -> forall d, amt com d = (tot d - amt tr d - amt st d) * st_commission x / ONE) /\
    (forall d, funds c' d = funds c d - amt fp d) /\
    ss_stakers (c_s c) !! u = Some x /\
    (exists x', ss_stakers (c_s c') = <[u := x']> (ss_stakers (c_s c)) /\ st_commission x' = st_commission x /\
       forall d, amt (st_rewards x') d = amt (st_rewards x) d + amt com d + amt st d) /\
    (forall d, bal (c_bank c') MFunders d = bal (c_bank c) MFunders d - amt fp d) /\
    (forall d, bal (c_bank c') (PoolAcc p) d = bal (c_bank c) (PoolAcc p) d - kx c p d) /\
    (forall d, bal (c_bank c') MStakers d = bal (c_bank c) MStakers d + amt com d + amt st d) /\
    (forall d, bal (c_bank c') MDelegation d + bal (c_bank c') Treasury d = bal (c_bank c) MDelegation d + bal (c_bank c) Treasury d + amt del d + amt tr d) /\
    (forall d, bal (c_bank c) Treasury d + amt tr d <= bal (c_bank c') Treasury d) /\
    (forall a d, a <> MFunders -> a <> PoolAcc p -> a <> MStakers -> a <> MDelegation -> a <> Treasury -> bal (c_bank c') a d = bal (c_bank c) a d).

Lemma np_sl c c' : sl c c' -> not_paid c c'.
Proof.
  intros (Hf & Hs & He). split; [intros a d ? ?; by apply (flows_slash _ _ d Hf)|]. split; [intros d; by apply (flows_slash _ _ d Hf)|].
  split; [intros d; by apply (flows_slash _ _ d Hf)|]. split; [|done]. intros d. unfold funds. by rewrite He.
Qed.
Lemma bp_post c c1 c' p : bundle_paid c c1 p -> sl c1 c' -> bundle_paid c c' p.
Proof.
  intros H (Hf & Hs & He). assert (Hb : forall d, _) by (intros d; exact (flows_slash _ _ d Hf)). clear Hf.
  unfold bundle_paid in *. cbv zeta in *. destruct H as (fp & tr & st & com & del & x & H1 & H2 & H3 & H4 & H5 & H6 & H7 & H8 & H9 & H10 & H11 & H12 & H13 & H14).
  exists fp, tr, st, com, del, x. do 5 (split; [assumption|]). split; [intros d; unfold funds; rewrite He; apply H6|]. split; [assumption|]. rewrite Hs. split; [assumption|].
  split; [intros d; rewrite (proj1 (Hb d)) by done; apply H9|]. split; [intros d; rewrite (proj1 (Hb d)) by done; apply H10|].
  split; [intros d; rewrite (proj1 (Hb d)) by done; apply H11|]. split; [intros d; destruct (Hb d) as (_ & -> & _); apply H12|].
  split; [intros d; destruct (Hb d) as (_ & _ & ?); specialize (H13 d); lia|]. intros a d N1 N2 N3 N4 N5. rewrite (proj1 (Hb d)) by done. by apply H14.
Qed.
Lemma bp_pre c c1 c' p : sl c c1 -> bpart c1 = bpart c -> bundle_paid c1 c' p -> bundle_paid c c' p.
Proof.
  intros (Hf & Hs & He) Hp H. assert (Hb : forall d, _) by (intros d; exact (flows_slash _ _ d Hf)). clear Hf.
  assert (Eg : get_prop c1 p = get_prop c p) by (by apply get_prop_b).
  assert (Ek : forall d, kx c1 p d = kx c p d).
  { intros d. unfold kx. rewrite (proj1 (Hb KYVE)) by done. apply bpart_eq in Hp as (_ & -> & _). done. }
  assert (Ebp : c_bp c1 = c_bp c) by (apply bpart_eq in Hp; tauto).
  unfold bundle_paid in *. cbv zeta in *. rewrite Eg, Ebp in H. destruct H as (fp & tr & st & com & del & x & H1 & H2 & H3 & H4 & H5 & H6 & H7 & H8 & H9 & H10 & H11 & H12 & H13 & H14).
  exists fp, tr, st, com, del, x. split; [assumption|]. split; [intros d; rewrite <- Ek; apply H2|]. split; [intros d; rewrite <- Ek; apply H3|].
  split. { intros Hd rest R1 R2 d. rewrite <- He, <- Ek. apply H4; [done| |done]. intros d'. rewrite Ek. apply R1. }
  split; [intros Hne d; rewrite <- Ek; by apply H5|].
  split; [intros d; rewrite (H6 d); unfold funds; by rewrite He|]. rewrite <- Hs. split; [assumption|]. split; [assumption|].
  split; [intros d; rewrite <- (proj1 (Hb d)) by done; apply H9|]. split; [intros d; rewrite <- Ek, <- (proj1 (Hb d)) by done; apply H10|].
  split; [intros d; rewrite <- (proj1 (Hb d)) by done; apply H11|]. split; [intros d; destruct (Hb d) as (_ & <- & _); apply H12|].
  split; [intros d; destruct (Hb d) as (_ & _ & ?); specialize (H13 d); lia|]. intros a d N1 N2 N3 N4 N5. rewrite <- (proj1 (Hb d)) by done. by apply H14.
Qed.

Lemma pay_out_rewards c u r c' x : pay_out c u r = inl c' -> ss_stakers (c_s c) !! u = Some x ->
  c_f c' = c_f c /\ exists x', ss_stakers (c_s c') = <[u := x']> (ss_stakers (c_s c)) /\ st_commission x' = st_commission x /\
    forall d, amt (st_rewards x') d = amt (st_rewards x) d + amt (r_commission r) d + amt (r_storage r) d.
Proof.
  unfold pay_out. destruct (send _ _ _ _) as [bk|]; [|done]. unfold increase_commission_rewards.
  destruct (cempty _) eqn:Ee.
  - destruct (payout_rewards _ _ _ _) as [dd|]; [|done]. intros [= <-] Hx. split; [done|]. exists x. cbn.
    split; [by rewrite insert_id|]. split; [done|]. intros d. apply cempty_spec in Ee. pose proof (amt_cadd (r_commission r) (r_storage r) d) as H. rewrite Ee, amt_empty in H. lia.
  - cbn [s_in ss_stakers]. intros H Hx. change (ss_stakers (s_in (cw_bank c bk)) !! u) with (ss_stakers (c_s c) !! u) in H. rewrite Hx in H.
    destruct (send _ _ _ _) as [bk2|]; [|done]. destruct (payout_rewards _ _ _ _) as [dd|]; [|done]. injection H as <-. split; [done|]. eexists. cbn. split; [done|]. split; [done|].
    intros d. cbn. rewrite !amt_cadd. lia.
Qed.
Lemma tally_eff g c p c' v fp x r : genesis g -> R g c -> is_Some (get_pool c p) -> tally c (get_prop c p) p = TrValid c' v fp x r -> bundle_paid c c' p.
Proof.
  intros Hg (HG & HA & HU) [pl Hpl] Ht. pose proof (tally_valid_full _ _ _ _ _ _ _ _ HA Ht) as Hz.
  assert (Hu : is_Some (ss_stakers (c_s c) !! bp_uploader (get_prop c p))).
  { unfold get_prop in *. destruct (c_prop c !! p) as [b|] eqn:Eb; cbn in *; [by apply (HU p b)|done]. }
  set (b := get_prop c p) in *. unfold tally in Ht. pose proof (G_non_voters g c p HG) as HG1. pose proof (b_non_voters c p) as B1.
  pose proof (sl_non_voters c p) as S1.
  assert (Hpr : get_prop (handle_non_voters c p) p = b) by (by apply get_prop_b).
  assert (Hpl1 : get_pool (handle_non_voters c p) p = Some pl) by (rewrite (get_pool_b c) by done; done).
  assert (HA1 : AInv (handle_non_voters c p)) by (by apply (agood_frame c)).
  assert (Hu1 : is_Some (ss_stakers (c_s (handle_non_voters c p)) !! bp_uploader b)) by (destruct S1 as (_ & -> & _); done).
  apply (bp_pre c (handle_non_voters c p)); [done|done|].
  set (c1 := handle_non_voters c p) in *. clearbody c1.
  destruct (v_status (distribution c1 p)); try done.
  assert (Hst : is_Some (fs_active (f_in c1) !! p)).
  { change (is_Some (fs_active (c_f c1) !! p)). apply (g_link _ _ HG1). apply (ai_pools _ HA1). by rewrite Hpl1. }
  destruct Hst as [l Hl]. pose proof (fi_params _ _ (G_FInv g Hg c1 HG1)) as Hfp.
  destruct (charge_spec _ _ p MPool (G_FInv g Hg c1 HG1) I) as (_ & Hpar & _ & _ & HS). cbv zeta in HS.
  destruct (HS l Hl) as (pays & Hp & Hpos & _ & _ & _ & Hbk & Hsr & _). clear HS.
  pose proof (G_charge_funders g Hg c1 p HG1) as HGf.
  destruct (charge_funders (f_in c1) p MPool) as [f o]. cbn [fst snd] in *. subst o.
  set (cf := f_out c1 f) in *.
  assert (Hbf : forall a x, bal (c_bank cf) a x = bal (c_bank c1) a x + (if decide (a = MPool) then amt pays x else 0) - (if decide (a = MFunders) then amt pays x else 0)) by done.
  assert (Hsf : c_s cf = c_s c1 /\ c_d cf = c_d c1 /\ c_pp cf = c_pp c1 /\ c_bp cf = c_bp c1) by done.
  assert (Hprf : get_prop cf p = b) by done.
  assert (Hff : fs_params (c_f cf) = fs_params (c_f c1) /\ forall d, funds cf d = funds c1 d - amt pays d).
  { split; [exact Hpar|]. intros d. rewrite Hsr. change (sum_rem (f_in c1) d) with (funds c1 d). change (sum_rem f d) with (funds cf d). lia. }
  destruct Hsf as (Es & Ed & Epp & Ebp). destruct Hff as (Efp & Efu). clearbody cf.
  pose proof (g_par _ _ HGf) as (Hbp & _ & Hpp & _).
  assert (Hbb : 0 <= bal (c_bank cf) (PoolAcc p) KYVE < two63).
  { split; [apply (g_nn _ _ HGf)|]. eapply Z.le_lt_trans; [|apply (g_supply _ _ HGf)]. apply supply_ge1. apply (g_nn _ _ HGf). }
  assert (Hra : pct (pp_rate (c_pp cf))). { unfold pparams_valid, pct_ok in Hpp. unfold pct. lia. }
  destruct (claim_charge cf p Hbb Hra) as (c2 & Ec & _ & Hb2).
  cbv zeta in Ec, Hb2. set (y := bal (c_bank cf) (PoolAcc p) KYVE * pp_rate (c_pp cf) / ONE) in *.
  assert (Hy : 0 <= y). { apply Z.div_pos; [|unfold ONE; lia]. apply Z.mul_nonneg_nonneg; [apply (g_nn _ _ HGf)|]. unfold pct in Hra. lia. }
  assert (Eky : forall d, amt (coin KYVE y) d = kx c1 p d).
  { intros d. unfold kx, y. rewrite amt_coin, Epp, Hbf. rewrite !(decide_False (P := PoolAcc p = _)) by done. rewrite Z.add_0_r, Z.sub_0_r.
    destruct (decide (KYVE = d)) as [<-|Hd]; [by rewrite N.eqb_refl|]. destruct (N.eqb_spec d KYVE); [congruence|done]. }
  assert (Hb2' : forall a d, bal (c_bank c2) a d = bal (c_bank cf) a d + (if decide (a = MPool) then kx c1 p d else 0) - (if decide (a = PoolAcc p) then kx c1 p d else 0)).
  { intros a d. rewrite Hb2, <- Eky, amt_coin. destruct (decide (d = KYVE)), (decide (KYVE = d)); try congruence; repeat case_decide; lia. }
  clear Hb2. clearbody y. rewrite Ec in Ht.
  pose proof (G_charge_inflation g cf p c2 y HGf Ec) as HG2. pose proof (b_charge_inflation _ _ _ _ Ec) as B2.
  assert (Hpr2 : get_prop c2 p = b) by (rewrite <- Hprf; by apply get_prop_b).
  assert (Hm2 : c_s c2 = c_s cf /\ c_f c2 = c_f cf). { unfold charge_inflation in Ec. destruct (inflation_payout _ _); [|done]. destruct (i64 _ <? 0); [done|]. by destruct (send _ _ _ _); injection Ec as <- <-. }
  destruct Hm2 as [Es2 Ef2]. assert (Ebp2 : c_bp c2 = c_bp c1) by (apply bpart_eq in B2; rewrite <- Ebp; tauto).
  destruct Hu1 as [sx Hsx]. assert (Hsx2 : ss_stakers (c_s c2) !! bp_uploader b = Some sx) by (rewrite Es2, Es; exact Hsx).
  destruct (payouts c2 p (cadd pays (coin KYVE y))) as [r'|] eqn:Er; [|done].
  unfold payouts in Er. rewrite Hpr2 in Er. pose proof (g_par _ _ HG2) as (Hbp2 & _).
  rewrite bool_decide_eq_true_2 in Er by eauto. unfold commission_of in Er. rewrite Hsx2 in Er. cbn [fmap option_fmap option_map default from_option id] in Er.
  assert (Hcom : pct (st_commission sx)) by apply (cb_now _ (G_CB g _ HG2) _ _ Hsx2).
  assert (Hct : cpos (cadd pays (coin KYVE y))) by (apply cpos_cadd; [done|by apply cpos_coin]).
  assert (Ett : forall d, amt (cadd pays (coin KYVE y)) d = amt pays d + kx c1 p d) by (intros d; by rewrite amt_cadd, Eky).
  destruct (parts _ _ _ _ _ _ _ _ _ Hct (bparams_fee _ Hbp2) Hcom Er) as (P1 & P2 & P3 & P4 & P5 & P6). cbv iota in P5.
  destruct (pay_out_ok c2 (bp_uploader b) r') as (c3 & Ep & Hpd); try done.
  { apply (g_nn _ _ HG2). }
  { intros d. rewrite P5, Ett, Hb2', Hbf. pose proof (g_nn _ _ HG1 MPool d).
    rewrite !(decide_True (P := MPool = MPool)) by done. rewrite (decide_False (P := MPool = MFunders)) by done.
    rewrite (decide_False (P := MPool = PoolAcc p)) by done. lia. }
  { left. eauto. }
  { destruct (Z_lt_le_dec 0 (power c2 (bp_uploader b))); [by left|right; by apply P6]. }
  rewrite Ep in Ht. injection Ht as <- _ _ _ _.
  apply (bp_post _ c3); [|apply (sl_removes c3 p (bp_invalid b) (fun _ => SlashVote))].
  destruct (pay_out_rewards _ _ _ _ _ Ep Hsx2) as (Ef3 & x' & Ex1 & Ex2 & Ex3).
  assert (Hpart2 : (forall d, amt (r_treasury r') d = (amt pays d + kx c1 p d) * b_fee (c_bp c1) / ONE) /\
    (r_delegation r' <> ∅ -> forall d, amt (r_commission r') d = (amt pays d + kx c1 p d - amt (r_treasury r') d - amt (r_storage r') d) * st_commission sx / ONE)).
  { clear - Er Ett Hct Hcom Hbp2 Ebp2 P3 P4 P5. pose proof (bparams_fee _ Hbp2) as Hfee. rewrite Ebp2 in *. set (tot := cadd pays (coin KYVE y)) in *. clearbody tot.
    setoid_rewrite <- Ett. clear Ett. assert (H0 : forall x, 0 <= amt tot x) by (intros; by apply cpos_amt).
    assert (Htr : forall d, amt (share_of tot (b_fee (c_bp c1))) d = amt tot d * b_fee (c_bp c1) / ONE).
    { intros d. rewrite amt_share, trunc_int_div; [done|]. specialize (H0 d). unfold pct in *. nia. }
    unfold calculate_payouts in Er. cbn [negb] in Er. destruct (cempty tot) eqn:E0.
    { injection Er as <-. cbn [r_treasury r_storage r_commission r_delegation r_zero]. apply cempty_spec in E0 as ->. split; [|done]. intros d. rewrite !amt_empty. done. }
    destruct (cle _ tot); cbn [negb] in Er; [|done]. destruct (cempty (csub tot _)); [by injection Er as <-|].
    destruct (wanted _ _ _) as [w|]; [|done]. destruct (cle _ (csub tot _)); cbn [negb] in Er; [|done].
    set (tr := share_of tot _) in *. clearbody tr. set (stg := cmin (csub tot tr) w) in *. clearbody stg.
    assert (Er2 : forall d, amt (csub (csub tot tr) stg) d = amt tot d - amt tr d - amt stg d) by (intros d; rewrite !amt_csub; lia).
    set (r2 := csub (csub tot tr) stg) in *. clearbody r2. destruct (cempty r2); [by injection Er as <-|].
    destruct (cle (share_of r2 _) r2); cbn [negb] in Er; [|done]. destruct (cempty (csub r2 _)); [by injection Er as <-|].
    destruct (0 <? _); injection Er as <-; cbn [r_treasury r_storage r_commission r_delegation r_zero] in *; (split; [done|]); [|done].
    intros _ d. rewrite amt_share, trunc_int_div, Er2; [done|]. specialize (P5 d). unfold sum_parts in P5. cbn [r_treasury r_storage r_commission r_delegation] in P5.
    rewrite Er2. pose proof (cpos_amt _ d P3). pose proof (cpos_amt _ d P4). apply Z.mul_nonneg_nonneg; [|unfold pct in Hcom]; lia. }
  destruct Hpart2 as [Q1 Q2]. unfold bundle_paid. cbv zeta. rewrite Hpr.
  exists pays, (r_treasury r'), (r_storage r'), (r_commission r'), (r_delegation r'), sx.
  assert (Hm : forall a d, bal (c_bank c3) a d = bal (c_bank c1) a d
     + (if decide (a = MPool) then amt pays d + kx c1 p d - (amt pays d + kx c1 p d) else 0)
     - (if decide (a = MFunders) then amt pays d else 0) - (if decide (a = PoolAcc p) then kx c1 p d else 0)
     + (if decide (a = Treasury) then amt (r_treasury r') d else 0)
     + (if decide (a = MStakers) then amt (r_commission r') d + amt (r_storage r') d else 0)
     + (if decide (a = MDelegation) then amt (r_delegation r') d else 0)).
  { intros a d. rewrite (Hpd a d), P5, Ett, Hb2', Hbf. repeat case_decide; lia. }
  split; [done|]. split; [intros d; rewrite <- Ett, <- P5; done|]. split; [exact Q1|]. split.
  { intros Hd rest R1 R2 d. assert (HI : reward_inputs (c_bp c2) (wl (c_f c2)) (st_commission sx) (bp_data b) (cadd pays (coin KYVE y))).
    { split; [done|]. split; [unfold wl; rewrite Ef2, Efp; apply Hfp|]. split; [done|]. split; [|done]. split; [|done].
      assert (Hc : c_prop c1 !! p = Some b). { unfold get_prop in Hpr. destruct (c_prop c1 !! p); cbn in Hpr; [by subst|]. rewrite <- Hpr in Hz. done. }
      destruct (ai_prop _ HA1 p b Hc) as [Hbare|Hfull]; [by destruct Hbare|]. destruct Hfull as (_ & _ & [? _] & _). done. }
    destruct (claim_split _ _ _ _ _ _ _ _ HI Er d) as (_ & _ & _ & _ & _ & _ & _ & H). cbv zeta in H.
    rewrite <- Ett. replace (fs_params (c_f c1)) with (fs_params (c_f c2)) by (by rewrite Ef2). rewrite <- Ebp2. apply (H rest); [|done].
    intros d'. rewrite R1, Q1, Ett, Ebp2. done. }
  split; [exact Q2|]. split; [intros d; unfold funds; rewrite Ef3, Ef2; apply Efu|]. split; [done|].
  split. { exists x'. rewrite Ex1, Es2, Es. done. }
  split; [intros d; rewrite Hm; repeat (case_decide; try congruence); lia|].
  split; [intros d; rewrite Hm; repeat (case_decide; try congruence); lia|].
  split; [intros d; rewrite Hm; repeat (case_decide; try congruence); lia|].
  split; [intros d; rewrite !Hm; repeat (case_decide; try congruence); lia|].
  split; [intros d; rewrite Hm; repeat (case_decide; try congruence); lia|].
  intros a d N1 N2 N3 N4 N5. rewrite Hm. repeat (case_decide; try congruence); lia.
Qed.

(** ** The messages and the end of a block *)
Definition bundles (c : chain) (p : N) : N := match get_pool c p with Some pl => pl_total pl | None => 0%N end.
Definition outcome (c c' : chain) (p : N) : Prop :=
  (bundles c' p = bundles c p /\ not_paid c c') \/ (bundles c' p = (bundles c p + 1)%N /\ bundle_paid c c' p).
Lemma fin_bundles c p v q : is_Some (get_pool c p) -> bundles (finalize c p v) q = (bundles c q + if decide (q = p) then 1 else 0)%N.
Proof.
  intros [pl Hpl]. pose proof (finalize_eq c p v pl Hpl) as (fb0 & _ & _ & _ & _ & _ & _ & _ & E8). specialize (E8 q). unfold bundles. rewrite E8.
  case_decide; [subst; by rewrite Hpl|]. destruct (get_pool c q); lia.
Qed.
Lemma bundles_b c c' q : bpart c' = bpart c -> bundles c' q = bundles c q.
Proof. intros H. unfold bundles. by rewrite (get_pool_b c c' q). Qed.
Lemma sl_m c c' : mpart c' = mpart c -> sl c c'.
Proof. intros H. unfold mpart in H. injection H as H1 H2 H3 H4 H5. by apply sl_eq. Qed.
Section pays.
Context (g : gen) (Hg : genesis g).
Lemma R_sl c c' : R g c -> G g c' -> bpart c' = bpart c -> sl c c' -> R g c'.
Proof.
  intros (HG & HA & HU) HG' Hb (_ & Hs & _). split; [done|]. split; [by apply (agood_frame c)|]. intros p b. rewrite Hs.
  assert (E : c_prop c' = c_prop c) by (apply bpart_eq in Hb; tauto). rewrite E. apply HU.
Qed.
Lemma tally_pays c p : R g c -> is_Some (get_pool c p) ->
  match tally c (get_prop c p) p with TrValid c' _ _ _ _ => bundle_paid c c' p | TrInvalid c' _ | TrNoQuorum c' _ => sl c c' | _ => True end.
Proof.
  intros HR Hpl. destruct (tally c (get_prop c p) p) as [c' v fp x r|c' v|c' v|c'|] eqn:Et; try done.
  - by eapply tally_eff.
  - unfold tally in Et. pose proof (sl_non_voters c p) as Hn. set (c1 := handle_non_voters c p) in *. clearbody c1.
    destruct (v_status _); try done.
    + destruct (charge_funders _ _ _) as [f [fp|]]; [|done]. destruct (charge_inflation _ _) as [[c2 x]|]; [|done].
      destruct (payouts _ _ _) as [r|]; [|done]. by destruct (pay_out _ _ _).
    + injection Et as <- _. eapply sl_trans; [exact Hn|]. apply (sl_removes c1 p _ (slash_type_of (get_prop c p))).
  - unfold tally in Et. pose proof (sl_non_voters c p) as Hn. set (c1 := handle_non_voters c p) in *. clearbody c1.
    destruct (v_status _); try done; try (by injection Et as <- _).
    destruct (charge_funders _ _ _) as [f [fp|]]; [|done]. destruct (charge_inflation _ _) as [[c2 x]|]; [|done].
    destruct (payouts _ _ _) as [r|]; [|done]. by destruct (pay_out _ _ _).
Qed.
Lemma submit_pays c m c' : R g c -> msg_submit c m = Some c' -> outcome c c' (sb_pool m).
Proof.
  intros HR. unfold msg_submit. destruct (can_propose _ _ _ _ _) eqn:Ec; cbn [negb]; [|done]. destruct (submit_valid c m); cbn [negb]; [|done]. cbv zeta.
  set (p := sb_pool m) in *.
  assert (Hpl : is_Some (get_pool c p)). { destruct (get_pool c p) eqn:Ep; [eauto|]. unfold can_propose, can_run, pool_error in Ec. by rewrite Ep in Ec. }
  pose proof (sl_reset c p (sb_staker m)) as S1. pose proof (b_reset c p (sb_staker m)) as B1.
  assert (HR1 : R g (reset_pts c p (sb_staker m))) by (apply (R_sl c); [done|apply G_reset; apply HR|done|done]).
  assert (Hgp : get_prop (reset_pts c p (sb_staker m)) p = get_prop c p) by done. set (c1 := reset_pts _ _ _) in *. clearbody c1.
  destruct (_ =? 0)%N.
  - pose proof (b_choose c1 p []) as Hb. pose proof (m_choose c1 p []) as Hm. destruct (choose c1 p []) as [n c2]. cbn [snd] in *. intros [= <-]. left.
    split.
    + unfold register. destruct (get_pool c2 (sb_pool m)); change (bundles (set_prop ?c ?q ?b) p) with (bundles c p); apply bundles_b; congruence.
    + apply np_sl. eapply sl_trans; [exact S1|]. eapply sl_trans; [by apply sl_m|]. unfold register. destruct (get_pool c2 (sb_pool m)); by apply sl_eq.
  - pose proof (tally_pays c1 p HR1) as Ht. rewrite Hgp in Ht. pose proof (b_tally c1 (get_prop c p) p) as Hbt.
    rewrite (get_pool_b c) in Ht by done. specialize (Ht Hpl).
    destruct (tally c1 (get_prop c p) p) as [c2 v fp x r|c2 v|c2 v|c2|]; try done.
    + pose proof (b_choose_from c2 p (bp_valid (get_prop c p))) as Hb. pose proof (m_choose_from c2 p (bp_valid (get_prop c p))) as Hm.
      destruct (choose_from _ _ _) as [n c3]. cbn [snd] in *. intros [= <-]. right.
      assert (B3 : bpart c3 = bpart c) by congruence. split.
      * assert (E : bundles (register (finalize c3 p v) m n) p = bundles (finalize c3 p v) p) by (unfold register; by destruct (get_pool _ (sb_pool m))).
        rewrite E, fin_bundles by (rewrite (get_pool_b c) by done; done). rewrite decide_True by done. by rewrite (bundles_b c).
      * apply (bp_pre c c1); [done|done|]. apply (bp_post _ c2); [done|]. eapply sl_trans; [by apply sl_m|].
        eapply sl_trans; [apply sl_m, m_finalize|]. unfold register. destruct (get_pool _ (sb_pool m)); by apply sl_eq.
    + intros [= <-]. left. split; [apply (bundles_b c c2); congruence|]. apply np_sl. eapply sl_trans; [exact S1|]. eapply sl_trans; [exact Ht|]. by apply sl_eq.
Qed.
Lemma skip_pays c p s v0 from c' : R g c -> msg_skip c p s v0 from = Some c' -> outcome c c' p.
Proof.
  intros HR. unfold msg_skip. destruct (can_propose _ _ _ _ _) eqn:Ec; cbn [negb]; [|done]. cbv zeta.
  assert (Hpl : is_Some (get_pool c p)). { destruct (get_pool c p) eqn:Ep; [eauto|]. unfold can_propose, can_run, pool_error in Ec. by rewrite Ep in Ec. }
  pose proof (sl_reset c p s) as S1. pose proof (b_reset c p s) as B1.
  assert (HR1 : R g (reset_pts c p s)) by (apply (R_sl c); [done|apply G_reset; apply HR|done|done]).
  assert (Hgp : get_prop (reset_pts c p s) p = get_prop c p) by done. set (c1 := reset_pts _ _ _) in *. clearbody c1.
  pose proof (tally_pays c1 p HR1) as Ht. rewrite Hgp in Ht. pose proof (b_tally c1 (get_prop c p) p) as Hbt.
  rewrite (get_pool_b c) in Ht by done. specialize (Ht Hpl).
  destruct (tally c1 (get_prop c p) p) as [c2 v fp x r|c2 v|c2 v|c2|]; try done;
    (pose proof (b_choose c2 p [s]) as Hb; pose proof (m_choose c2 p [s]) as Hm; destruct (choose c2 p [s]) as [n c3]; cbn [snd] in *; intros [= <-];
     assert (B3 : bpart c3 = bpart c) by congruence).
  - right. split.
    + change (bundles (set_prop ?c ?q ?b) p) with (bundles c p). rewrite fin_bundles by (rewrite (get_pool_b c) by done; done). rewrite decide_True by done. by rewrite (bundles_b c).
    + apply (bp_pre c c1); [done|done|]. apply (bp_post _ c2); [done|]. eapply sl_trans; [by apply sl_m|].
      eapply sl_trans; [apply sl_m, m_finalize|]. by apply sl_eq.
  - left. split; [apply (bundles_b c c3); congruence|]. apply np_sl. eapply sl_trans; [exact S1|]. eapply sl_trans; [exact Ht|]. eapply sl_trans; [by apply sl_m|]. by apply sl_eq.
  - left. split; [apply (bundles_b c c3); congruence|]. apply np_sl. eapply sl_trans; [exact S1|]. eapply sl_trans; [exact Ht|]. eapply sl_trans; [by apply sl_m|]. by apply sl_eq.
Qed.
Lemma timeout_pays c p i c' : R g c -> is_Some (get_pool c p) -> timeout_pool c p i = Some c' -> outcome c c' p /\ (forall q, q <> p -> bundles c' q = bundles c q) /\ c_pp c' = c_pp c.
Proof.
  intros HR Hpl H.
  assert (Hpp : c_pp c' = c_pp c).
  { revert H. apply (k_timeout_pool (fun a b => c_pp b = c_pp a)); try done; try congruence.
    - intros c0 q y x E. apply b_charge_inflation in E. apply bpart_eq in E; tauto.
    - intros c0 u r. pose proof (b_pay_out c0 u r) as Hb. destruct (pay_out c0 u r) as [y|y]; apply bpart_eq in Hb; tauto.
    - intros c0 q v. unfold finalize. by destruct (get_pool c0 q). }
  assert (Hi : outcome c c' p /\ (forall q, q <> p -> bundles c' q = bundles c q)); [|tauto]. clear Hpp. revert H.
  assert (Hsame : forall c2 : chain, sl c c2 -> (forall q, bundles c2 q = bundles c q) -> outcome c c2 p /\ (forall q, q <> p -> bundles c2 q = bundles c q)).
  { intros c2 H1 H2. split; [left; split; [done|by apply np_sl]|]. intros; apply H2. }
  assert (Htp : forall x s, bpart (timeout_point x p s) = bpart x).
  { intros x s. unfold timeout_point. destruct (in_pool x p s); [apply b_add_point|done]. }
  unfold timeout_pool. cbv zeta. destruct (pool_error c p) as [e|].
  { intros [= <-]. apply Hsame; repeat case_match; try apply sl_refl; try (by apply sl_eq); done. }
  destruct (_ <? _); [intros [= <-]; apply Hsame; [apply sl_refl|done]|]. destruct (_ && _).
  { pose proof (b_choose (handle_non_voters c p) p []) as Hb. pose proof (m_choose (handle_non_voters c p) p []) as Hm. destruct (choose _ p []) as [n c1]. cbn [snd] in *.
    intros [= <-]. apply Hsame; [eapply sl_trans; [apply sl_non_voters|]; eapply sl_trans; [by apply sl_m|by apply sl_eq]|].
    intros q. change (bundles (drop c1 p n) q) with (bundles c1 q). apply bundles_b. rewrite Hb. apply b_non_voters. }
  destruct (_ <? _); [intros [= <-]; apply Hsame; [apply sl_refl|done]|]. destruct (_ =? 0)%N.
  { pose proof (b_choose c p []) as Hb. pose proof (m_choose c p []) as Hm. destruct (choose c p []) as [n c1]. cbn [snd] in *.
    intros [= <-]. apply Hsame; [eapply sl_trans; [by apply sl_m|]; eapply sl_trans; [|apply sl_timeout_point]; by apply sl_eq|].
    intros q. rewrite (bundles_b _ _ q (Htp _ _)). change (bundles (set_prop ?c ?q ?b) ?x) with (bundles c x). by apply bundles_b. }
  pose proof (tally_pays c p HR Hpl) as Ht. pose proof (b_tally c (get_prop c p) p) as Hbt. pose proof (tally_safe g Hg c p (proj1 HR) (proj1 (proj2 HR)) Hpl) as Hsafe.
  destruct (tally c (get_prop c p) p) as [c1 v fp x r|c1 v|c1 v|c1|] eqn:Et; try done.
  - pose proof (b_choose_from c1 p (bp_valid (get_prop c p))) as Hb. pose proof (m_choose_from c1 p (bp_valid (get_prop c p))) as Hm.
    destruct (choose_from _ _ _) as [n c2]. cbn [snd] in *. intros [= <-].
    assert (B2 : bpart c2 = bpart c) by congruence.
    assert (Hq : forall q, bundles (timeout_point (set_prop (finalize c2 p v) p (bp_none n (c_time (finalize c2 p v)))) p (bp_next (get_prop c p))) q =
      (bundles c q + if decide (q = p) then 1 else 0)%N).
    { intros q. rewrite (bundles_b _ _ q (Htp _ _)). change (bundles (set_prop ?c ?q ?b) ?x) with (bundles c x).
      rewrite fin_bundles by (rewrite (get_pool_b c) by done; done). by rewrite (bundles_b c). }
    split; [|intros q Hne; rewrite Hq, decide_False by done; lia]. right. split; [rewrite Hq, decide_True by done; done|].
    apply (bp_post _ c1); [done|]. eapply sl_trans; [by apply sl_m|]. eapply sl_trans; [apply sl_m, m_finalize|].
    eapply sl_trans; [|apply sl_timeout_point]. by apply sl_eq.
  - pose proof (b_choose c1 p []) as Hb. pose proof (m_choose c1 p []) as Hm. destruct (choose c1 p []) as [n c2]. cbn [snd] in *.
    intros [= <-]. apply Hsame.
    + eapply sl_trans; [exact Ht|]. eapply sl_trans; [by apply sl_m|]. eapply sl_trans; [|apply sl_timeout_point]. by apply sl_eq.
    + intros q. rewrite (bundles_b _ _ q (Htp _ _)). change (bundles (drop ?c ?q ?b) ?x) with (bundles c x). apply bundles_b. congruence.
  - pose proof (b_choose c1 p []) as Hb. pose proof (m_choose c1 p []) as Hm. destruct (choose c1 p []) as [n c2]. cbn [snd] in *.
    intros [= <-]. apply Hsame.
    + eapply sl_trans; [exact Ht|]. eapply sl_trans; [by apply sl_m|]. eapply sl_trans; [|apply sl_timeout_point]. by apply sl_eq.
    + intros q. rewrite (bundles_b _ _ q (Htp _ _)). change (bundles (drop ?c ?q ?b) ?x) with (bundles c x). apply bundles_b. congruence.
  - by destruct (Hsafe c1).
Qed.
End pays.

(** A pool's account over one step in which bundles are judged. *)
Definition account (c c' : chain) (p : N) : Prop :=
  (bundles c' p = bundles c p /\ forall d, bal (c_bank c') (PoolAcc p) d = bal (c_bank c) (PoolAcc p) d) \/
  (bundles c' p = (bundles c p + 1)%N /\ forall d, bal (c_bank c') (PoolAcc p) d = bal (c_bank c) (PoolAcc p) d - kx c p d).
Lemma outcome_mpool c c' p d : outcome c c' p -> bal (c_bank c') MPool d = bal (c_bank c) MPool d.
Proof.
  intros [[_ H]|[_ H]]; [by apply H|]. unfold bundle_paid in H. cbv zeta in H.
  destruct H as (fp & tr & st & com & del & x & _ & _ & _ & _ & _ & _ & _ & _ & _ & _ & _ & _ & _ & H). by apply H.
Qed.
Lemma outcome_other c c' p q d : outcome c c' p -> q <> p -> bal (c_bank c') (PoolAcc q) d = bal (c_bank c) (PoolAcc q) d.
Proof.
  intros [[_ H]|[_ H]] Hq; [by apply H|]. unfold bundle_paid in H. cbv zeta in H.
  destruct H as (fp & tr & st & com & del & x & _ & _ & _ & _ & _ & _ & _ & _ & _ & _ & _ & _ & _ & H). apply H; congruence.
Qed.
Lemma outcome_own c c' p : outcome c c' p -> account c c' p.
Proof.
  intros [[E H]|[E H]]; [left; split; [done|]; intros d; by apply H|right; split; [done|]]. unfold bundle_paid in H. cbv zeta in H.
  by destruct H as (fp & tr & st & com & del & x & _ & _ & _ & _ & _ & _ & _ & _ & _ & H & _).
Qed.
Section ends.
Context (g : gen) (Hg : genesis g).
Lemma timeouts_pays l c c' : R g c -> NoDup (map fst l) -> (forall p i, (p, i) ∈ l -> is_Some (get_pool c p)) -> timeouts c l = Some c' ->
  (forall d, bal (c_bank c') MPool d = bal (c_bank c) MPool d) /\
  forall p, if decide (p ∈ map fst l) then account c c' p
            else bundles c' p = bundles c p /\ forall d, bal (c_bank c') (PoolAcc p) d = bal (c_bank c) (PoolAcc p) d.
Proof.
  revert c. induction l as [|[p i] l IH]; intros c HR Hnd Hl; cbn [timeouts].
  { intros [= <-]. split; [done|]. intros p. cbn [map]. rewrite decide_False by (intros H; by apply elem_of_nil in H). done. }
  destruct (timeout_pool c p i) as [c1|] eqn:E1; [|done]. intros E2. cbn [map fst] in Hnd. apply NoDup_cons in Hnd as [Hni Hnd].
  assert (Hpl : is_Some (get_pool c p)) by (apply (Hl p i); apply elem_of_list_here).
  destruct (timeout_pays g Hg c p i c1 HR Hpl E1) as (Ho & Hq & Hpp). destruct HR as (HG & HA & HU).
  pose proof (agood_timeout _ _ _ _ HA Hpl E1) as Ha.
  assert (HR1 : R g c1). { split; [by eapply G_timeout_pool|]. split; [apply Ha|]. eapply U_good; [done|exact Ha|by eapply sd_timeout_pool]. }
  destruct (IH c1 HR1 Hnd) as [IHm IHp]; [|done|].
  { intros q j Hin. destruct Ha as [_ Hr]. apply (rl_pools _ _ Hr). apply (Hl q j). by apply elem_of_list_further. }
  split; [intros d; rewrite IHm; by apply (outcome_mpool c c1 p)|]. intros q. specialize (IHp q).
  destruct (decide (q = p)) as [->|Hne].
  - rewrite decide_True by apply elem_of_list_here. rewrite decide_False in IHp by done. destruct IHp as [Eb Ep].
    destruct (outcome_own _ _ _ Ho) as [[E3 E4]|[E3 E4]]; [left|right]; (split; [congruence|]); intros d; by rewrite Ep, E4.
  - assert (Ekx : forall d, kx c1 q d = kx c q d). { intros d. unfold kx. by rewrite Hpp, (outcome_other c c1 p q KYVE). }
    destruct (decide (q ∈ map fst l)) as [Hin|Hin].
    + rewrite decide_True by (by apply elem_of_list_further). destruct IHp as [[E3 E4]|[E3 E4]]; [left|right]; (split; [rewrite E3, Hq by done; done|]); intros d;
        rewrite E4, ?Ekx, (outcome_other c c1 p q d) by done; done.
    + rewrite decide_False by (cbn [map fst]; rewrite elem_of_cons; tauto). destruct IHp as [E3 E4]. split; [rewrite E3; by apply Hq|]. intros d. rewrite E4. by apply (outcome_other c c1 p).
Qed.
Lemma intervals_fst c : map fst (pool_intervals c) = filter (fun p => is_Some (get_pool c p)) (pool_ids (c_pools c)).
Proof.
  unfold pool_intervals. induction (pool_ids (c_pools c)) as [|p l IH]; [done|]. rewrite filter_cons. cbn [omap list_omap].
  destruct (get_pool c p) as [pl|] eqn:E; cbn [fmap option_fmap option_map].
  - rewrite decide_True by eauto. cbn [map fst]. by f_equal.
  - rewrite decide_False by (by intros [? ?]). exact IH.
Qed.
Lemma upgrades_bundles c t p : bundles (cw_pools c (handle_upgrades (c_pools c) t)) p = bundles c p.
Proof.
  unfold bundles, get_pool. cbn. rewrite lookup_fmap. destruct (ps_pools (c_pools c) !! p) as [pl|]; [|done]. cbn. unfold upgrade_one. repeat case_match; done.
Qed.
Lemma R_upgrades c : R g c -> R g (cw_pools c (handle_upgrades (c_pools c) (c_time c))).
Proof.
  intros (HG & HA & HU). split; [by apply G_upgrades|]. split; [|exact HU]. apply (agood_keep c); try done. apply keep_upgrades.
Qed.
Lemma end_pays c : R g c -> (forall d, bal (c_bank (end_block c)) MPool d = bal (c_bank c) MPool d) /\ forall p, account c (end_block c) p.
Proof.
  intros HR. unfold end_block. pose proof (R_upgrades c HR) as HR1. set (c1 := cw_pools c _) in *.
  assert (Hb1 : forall p, bundles c1 p = bundles c p) by (intros; apply upgrades_bundles).
  assert (Hk : forall p d, kx c1 p d = kx c p d) by done. assert (Hbk : c_bank c1 = c_bank c) by done. clearbody c1.
  assert (H2 : (forall d, bal (c_bank (handle_upload_timeout c1)) MPool d = bal (c_bank c1) MPool d) /\ forall p, account c1 (handle_upload_timeout c1) p).
  { unfold handle_upload_timeout. destruct (timeouts c1 (pool_intervals c1)) as [c2|] eqn:E.
    - destruct (timeouts_pays (pool_intervals c1) c1 c2 HR1) as [M P]; [| |exact E|].
      + rewrite intervals_fst. apply NoDup_filter, pool_ids_nodup.
      + intros p i H. apply pool_intervals_in in H. destruct H as (pl & -> & _). by eexists.
      + split; [exact M|]. intros p. specialize (P p). case_decide; [done|]. by left.
    - split; [done|]. intros p. by left. }
  destruct H2 as [M P].
  assert (Hburn : forall a d, a <> MFeeCollector -> bal (c_bank (burn_fees (handle_upload_timeout c1))) a d = bal (c_bank (handle_upload_timeout c1)) a d).
  { intros a d Ha. unfold burn_fees. destruct (_ =? 1); [done|]. destruct (_ =? 0); [done|]. destruct (burn _ _ _) as [b|] eqn:Eb; [|done]. cbn.
    unfold burn in Eb. destruct (cle _ _); [|done]. injection Eb as <-. unfold bal. rewrite bal_of_insert. by rewrite decide_False. }
  split; [intros d; rewrite Hburn, M, Hbk; done|]. intros p. specialize (P p). unfold account in *. 
  assert (Ebb : bundles (burn_fees (handle_upload_timeout c1)) p = bundles (handle_upload_timeout c1) p).
  { unfold burn_fees. destruct (_ =? 1); [done|]. destruct (_ =? 0); [done|]. by destruct (burn _ _ _). }
  rewrite Ebb, <- !Hb1, <- Hbk. destruct P as [[E1 E2]|[E1 E2]]; [left|right]; (split; [done|]); intros d; rewrite Hburn by done; [apply E2|]. rewrite E2. by rewrite Hk.
Qed.
Lemma mpool_step c o d : R g c -> cop_ok c o ->
  bal (c_bank (cstep c o)) MPool d = bal (c_bank c) MPool d + match o with CBank b => bal b MPool d - bal (c_bank c) MPool d | _ => 0 end.
Proof.
  intros HR Hok. assert (Hz : match o with CBank _ => True | _ => bal (c_bank (cstep c o)) MPool d = bal (c_bank c) MPool d end);
    [|destruct o; try (rewrite Hz; lia); cbn [cstep cmsg cw_bank c_bank default]; unfold cstep; cbn; lia].
  destruct (cstep_cases c o) as [->|E]; [by destruct o|]. destruct o; try (eapply (flows_same _ _ _ MPool d);
    [by eapply (msg_flows c); [|exact E]|intros y Hy; inversion Hy|intros y Hy; inversion Hy]; fail).
  - apply (outcome_mpool _ _ (sb_pool m)). by apply (submit_pays g Hg).
  - apply (outcome_mpool _ _ p). by eapply (skip_pays g Hg).
  - change (cstep c (CBegin t provision)) with (begin_block c t provision). pose proof (begin_flows c t provision) as Hf.
    rewrite (flows_same _ _ _ MPool d Hf); [|intros y Hy; inversion Hy|intros y Hy; inversion Hy]. rewrite mint_bal. by rewrite decide_False, Z.add_0_r.
  - by apply end_pays.
  - done.
Qed.
End ends.

(** ** Over all histories *)
Lemma pay_submit g ops m c' : genesis g -> cops_ok (gstart g) ops -> let c := crun (gstart g) ops in
  cmsg c (CSubmit m) = Some c' -> outcome c c' (sb_pool m).
Proof. intros Hg Hok c H. apply (submit_pays g Hg); [by apply R_run|exact H]. Qed.
Lemma pay_skip g ops p s v from c' : genesis g -> cops_ok (gstart g) ops -> let c := crun (gstart g) ops in
  cmsg c (CSkip p s v from) = Some c' -> outcome c c' p.
Proof. intros Hg Hok c H. eapply (skip_pays g Hg); [by apply R_run|exact H]. Qed.
Lemma pay_end g ops p : genesis g -> cops_ok (gstart g) ops -> let c := crun (gstart g) ops in account c (cstep c CEnd) p.
Proof. intros Hg Hok c. by apply (end_pays g Hg), R_run. Qed.
Lemma pay_empty g ops d : genesis g -> cops_ok (gstart g) ops -> bal (c_bank (crun (gstart g) ops)) MPool d = bal (g0_bank g) MPool d + from_outside MPool d (gstart g) ops.
Proof.
  intros Hg. cut (forall c, R g c -> cops_ok c ops -> bal (c_bank (crun c ops)) MPool d = bal (c_bank c) MPool d + from_outside MPool d c ops).
  { intros H Hok. apply H; [|done]. apply (R_run g Hg []). done. }
  induction ops as [|o t IH]; intros c HR Hok; [cbn [crun from_outside]; lia|]. destruct Hok as [Ho Hok]. cbn [crun from_outside].
  rewrite IH; [|destruct HR as (H1 & H2 & H3); split; [by apply G_step|]; split; [by apply chain_step|by apply (U_step g)]|done].
  rewrite (mpool_step g Hg c o d HR Ho). lia.
Qed.
