(** * Every address that is stored was in a message (proofs). *)
From Verif Require Import Base BaseFacts Delegation Stakers Funders Team RoundRobin Pool Bundles Chain ChainFrame StakersInv StakersClaims PoolFrame Walk ChainLift IndexInv.

Section addresses.
  Context (P : N -> Prop).
  (** ** x/delegation *)
  Definition FA (f : f1) : Prop := forall x, is_Some (f_delegators f !! x) -> P x.
  Lemma FA_withdraw f x : FA f -> FA (fst (f1_withdraw f x)).
  Proof.
    intros H. unfold f1_withdraw. destruct (f_delegators f !! x) eqn:E; [|done].
    destruct (f1_start_new_period _ _) as [f' dd'] eqn:Ep. apply period_total in Ep as [_ Ed].
    destruct (f1_sum_rewards _ _) as [r b]. intros y. cbn. rewrite Ed. cbn. intros Hy.
    apply H. destruct (decide (y = x)) as [->|]; [by rewrite E|]. by rewrite lookup_insert_ne in Hy.
  Qed.
  Lemma FA_remove f x : FA f -> FA (fst (f1_remove f x)).
  Proof.
    intros H. unfold f1_remove. destruct (f_delegators f !! x) eqn:E; [|done].
    destruct (f1_start_new_period _ _) as [f' dd'] eqn:Ep. apply period_total in Ep as [_ Ed]. intros y. cbn [fst]. intros Hy. apply H.
    assert (Hy' : is_Some (delete x (f_delegators f') !! y)).
    { revert Hy. cbn. by destruct (_ =? _). }
    rewrite Ed in Hy'. cbn in Hy'. apply lookup_delete_is_Some in Hy' as [_ ?]. done.
  Qed.
  Lemma FA_create f x a : FA f -> P x -> FA (f1_create f x a).
  Proof.
    intros H Hx. unfold f1_create. destruct (a =? 0); [done|]. destruct (f1_start_new_period _ _) as [f' dd'] eqn:Ep.
    apply period_total in Ep as [_ Ed]. intros y. cbn. rewrite Ed. intros Hy.
    destruct (decide (y = x)) as [->|]; [done|]. rewrite lookup_insert_ne in Hy by done. by apply H.
  Qed.
  Lemma FA_slash f r : FA f -> FA (fst (f1_slash f r)).
  Proof.
    intros H. unfold f1_slash. destruct (f1_start_new_period _ _) as [f' dd'] eqn:Ep. apply period_total in Ep as [_ Ed].
    intros y. cbn. rewrite Ed. apply H.
  Qed.

  Definition DA (d : dstate) : Prop :=
    (forall s, FA (getf d s)) /\ (forall i e, ds_queue d !! i = Some e -> P (u_delegator e)).
  Lemma DA_same d d' : DA d -> (forall t, getf d' t = getf d t) -> ds_queue d' = ds_queue d -> DA d'.
  Proof. intros [H1 H2] E1 E2. split; [intros s; rewrite E1; apply H1|]. rewrite E2. exact H2. Qed.
  Lemma DA_setf d s f : DA d -> FA f -> DA (setf d s f).
  Proof. intros [H1 H2] Hf. split; [|exact H2]. intros t. rewrite getf_setf. destruct (decide _); [done|apply H1]. Qed.
  Lemma DA_withdrawal d s x : DA d -> DA (fst (perform_withdrawal d s x)).
  Proof.
    intros [H1 H2]. destruct (withdrawal_get d s x) as (A & B & C & D). split; [|by rewrite D].
    intros t. destruct (decide (t = s)) as [->|Hn]; [rewrite B; by apply FA_withdraw|by rewrite A].
  Qed.
  Lemma DA_delegation d s x a : DA d -> P x -> DA (perform_delegation d s x a).
  Proof.
    intros H Hx. unfold perform_delegation. set (d0 := remove_index d s). assert (H0 : DA d0) by exact H.
    case_bool_decide.
    - pose proof (DA_withdrawal d0 s x H0) as Hw. destruct (perform_withdrawal d0 s x) as [sw err]. cbn [fst] in Hw.
      set (sw' := with_halt sw _). assert (Hw' : DA sw') by exact Hw.
      pose proof (FA_remove _ x (proj1 Hw' s)) as Hr. destruct (f1_remove (getf sw' s) x) as [f und]. cbn [fst] in Hr.
      assert (Hs : DA (setf sw' s f)) by by apply DA_setf.
      assert (G : DA (setf (setf sw' s f) s (f1_create (getf (setf sw' s f) s) x (und + a)))); [|exact G].
      apply DA_setf; [done|]. apply FA_create; [apply Hs|done].
    - assert (G : DA (setf d0 s (f1_create (getf d0 s) x a))); [|exact G]. apply DA_setf; [done|]. apply FA_create; [apply H0|done].
  Qed.
  Lemma DA_undelegation d s x a : DA d -> P x -> DA (fst (perform_undelegation d s x a)).
  Proof.
    intros H Hx. unfold perform_undelegation. set (d0 := remove_index d s). assert (H0 : DA d0) by exact H.
    pose proof (DA_withdrawal d0 s x H0) as Hw. destruct (perform_withdrawal d0 s x) as [sw err]. cbn [fst] in Hw.
    set (sw' := with_halt sw _). assert (Hw' : DA sw') by exact Hw.
    pose proof (FA_remove _ x (proj1 Hw' s)) as Hr. destruct (f1_remove (getf sw' s) x) as [f und]. cbn [fst] in Hr.
    assert (Hs : DA (setf sw' s f)) by by apply DA_setf. cbn [fst].
    destruct (und >? a); [|exact Hs].
    assert (G : DA (setf (setf sw' s f) s (f1_create (getf (setf sw' s f) s) x (u64_sub und a)))); [|exact G].
    apply DA_setf; [done|]. apply FA_create; [apply Hs|done].
  Qed.
  Lemma DA_process_one d low e : DA d -> P (u_delegator e) -> DA (fst (process_one d low e)).
  Proof.
    intros H He. unfold process_one. pose proof (DA_undelegation d (u_staker e) (u_delegator e) (u_amount e) H He) as Hu.
    destruct (perform_undelegation _ _ _ _) as [d1 x]. cbn [fst] in *.
    set (d2 := match pay_user _ _ _ with Some _ => _ | None => _ end).
    assert (H2 : DA d2).
    { unfold d2. destruct (pay_user _ _ _) as [d2'|] eqn:E; [|exact Hu]. apply pay_same in E as (E1 & E2 & E3).
      eapply DA_same; [exact Hu| |done]. intros t. unfold getf. by rewrite E1. }
    destruct H2 as [A B]. split; [exact A|]. cbn. intros i e'. rewrite lookup_delete_Some. intros [_ Hi]. by eapply B.
  Qed.
  Lemma DA_process_loop n : forall d low, DA d -> DA (fst (fst (process_loop n d low))).
  Proof.
    induction n as [|n IH]; intros d low H; [done|]. cbn [process_loop].
    destruct (ds_queue d !! (low + 1)%N) as [e|] eqn:E.
    - destruct (due d e); [|done]. pose proof (DA_process_one d low e H (proj2 H _ _ E)) as Hp.
      destruct (process_one d low e) as [d3 pd]. cbn [fst] in Hp. specialize (IH d3 (low + 1)%N Hp).
      destruct (process_loop n d3 _) as [[d4 l] o]. exact IH.
    - destruct (low <? ds_high d)%N; [by apply IH|done].
  Qed.
  Lemma DA_process d : DA d -> DA (fst (process_queue d)).
  Proof.
    intros H. unfold process_queue. pose proof (DA_process_loop (queue_fuel d) d (ds_low d) H) as Hl.
    destruct (process_loop _ _ _) as [[d1 l] o]. exact Hl.
  Qed.
  Lemma DA_slashed d s t : DA d -> DA (fst (slash_delegators d s t)).
  Proof.
    intros H. unfold slash_delegators. destruct (f_data _); [|done]. cbv zeta.
    pose proof (FA_slash (getf (remove_index d s) s) (slash_fraction (ds_params (remove_index d s)) t) (proj1 H s)) as Hs.
    destruct (f1_slash _ _) as [f x]. cbn [fst] in Hs |- *.
    set (d2 := match send _ _ _ _ with Some _ => _ | None => _ end).
    assert (H2 : DA (setf d s f)) by by apply DA_setf.
    unfold d2. destruct (send _ _ _ _); exact H2.
  Qed.
  Lemma DA_payout d s c a d' : DA d -> payout_rewards d s c a = Some d' -> DA d'.
  Proof.
    intros H. unfold payout_rewards. destruct (cempty c); [by intros [= <-]|]. destruct (f_data _) as [dd|] eqn:E; [|done]. cbv zeta.
    destruct (send _ _ _ _); [|done]. intros [= <-].
    assert (G : DA (setf d s (f1_add_rewards (getf d s) c))); [|exact G]. apply DA_setf; [done|].
    unfold f1_add_rewards. rewrite ?E. intros x Hx. apply (proj1 H s). revert Hx. repeat case_match; done.
  Qed.

  (** ** The whole chain, except x/funders *)
  Definition VA (st : sstate) : Prop := forall p s v, get_val st p s = Some v -> P (vl_addr v).
  Record AD (c : chain) : Prop := mkAD {
    ad_d : DA (c_d c);
    ad_stakers : forall s, is_staker c s -> P s;
    ad_val : VA (c_s c)
  }.
  Definition ak (c c' : chain) : Prop := AD c -> AD c'.
  Lemma ak_refl c : ak c c. Proof. exact (fun H => H). Qed.
  Lemma ak_trans a b c : ak a b -> ak b c -> ak a c. Proof. unfold ak. auto. Qed.
  Lemma ak_eq c c' : c_d c' = c_d c -> ss_stakers (c_s c') = ss_stakers (c_s c) -> ss_val (c_s c') = ss_val (c_s c) -> ak c c'.
  Proof.
    intros E1 E2 E3 [H1 H2 H3]. split; [by rewrite E1|unfold is_staker; by rewrite E2|].
    intros p s v. unfold get_val, vals_of. rewrite E3. apply H3.
  Qed.
  Lemma ak_d c d : (DA (d_in c) -> DA d) -> ak c (d_out c d).
  Proof. intros H [H1 H2 H3]. split; [by apply H|done|done]. Qed.
  Lemma ak_insert c c' s x y : c_d c' = c_d c -> ss_stakers (c_s c) !! s = Some x ->
    ss_stakers (c_s c') = <[s := y]> (ss_stakers (c_s c)) -> ss_val (c_s c') = ss_val (c_s c) -> ak c c'.
  Proof.
    intros E1 Ex E2 E3 [H1 H2 H3]. split; [by rewrite E1| |intros p t v; unfold get_val, vals_of; rewrite E3; apply H3].
    intros t. unfold is_staker. rewrite E2. intros Ht. apply H2. unfold is_staker.
    destruct (decide (t = s)) as [->|]; [by rewrite Ex|by rewrite lookup_insert_ne in Ht].
  Qed.
  Lemma ak_pay c u r : match pay_out c u r with inl c' | inr c' => ak c c' end.
  Proof.
    unfold pay_out. destruct (send _ _ _ _) as [bk|]; [|apply ak_refl].
    pose proof (eq_refl (c_d (cw_bank c bk))) as Eb. destruct (increase_commission_rewards _ _ _ _) as [s'|] eqn:E; [|by apply ak_eq].
    assert (H : ak c (s_out (cw_bank c bk) s')).
    { unfold increase_commission_rewards in E. destruct (cempty _); [injection E as <-; by apply ak_eq|].
      destruct (ss_stakers _ !! _) as [x|] eqn:Ex; [|done]. destruct (send _ _ _ _); [|done]. injection E as <-.
      eapply ak_insert; [done|exact Ex|done|done]. }
    destruct (payout_rewards _ _ _ _) as [d|] eqn:Ep; [|exact H].
    eapply ak_trans; [exact H|]. apply ak_d. intros HJ. by eapply DA_payout.
  Qed.
  Lemma ak_infl c p c' x : charge_inflation c p = Some (c', x) -> ak c c'.
  Proof. intros H. unfold charge_inflation in H. destruct (inflation_payout _ _); [|done]. destruct (i64 _ <? 0); [done|]. destruct (send _ _ _ _); injection H as <- <-; by apply ak_eq. Qed.
  Lemma ak_s c st : (forall s, is_Some (ss_stakers st !! s) -> is_staker c s) -> (VA (c_s c) -> VA st) -> ak c (s_out c st).
  Proof. intros H1 H2 [A B C]. split; [exact A| |exact (H2 C)]. intros s Hs. by apply B, H1. Qed.
  Lemma VA_leave st s p : VA st -> VA (leave_pool st s p).
  Proof. intros H p' s' v. rewrite get_leave. destruct (decide _); [done|]. apply H. Qed.
  Lemma VA_set st p s v : VA st -> P (vl_addr v) -> VA (set_val st p s v).
  Proof. intros H Hv p' s' w. rewrite get_set_val. destruct (decide _); [by intros [= <-]|apply H]. Qed.
  Lemma ak_leave c s p : ak c (s_out c (leave_pool (s_in c) s p)).
  Proof. apply ak_s; [|exact (VA_leave (s_in c) s p)]. intros t. by destruct (leave_frame (s_in c) s p) as [-> _]. Qed.
  Lemma ak_incr c p s : ak c (s_out c (fst (increment_points (s_in c) p s))).
  Proof.
    unfold increment_points. destruct (get_val _ _ _) as [v|] eqn:E; [|by apply ak_eq]. apply ak_s; [done|]. cbn [fst]. intros H.
    apply (VA_set (s_in c)); [exact H|]. cbn. by eapply H.
  Qed.
  Lemma ak_reset c p s : ak c (reset_pts c p s).
  Proof.
    unfold reset_pts, reset_points. destruct (get_val _ _ _) as [v|] eqn:E; [|by apply ak_eq]. apply ak_s; [done|]. cbn [fst]. intros H.
    apply (VA_set (s_in c)); [exact H|]. cbn. by eapply H.
  Qed.
  Lemma ak_final c p v : ak c (finalize c p v).
  Proof. apply ak_eq; unfold finalize; by destruct (get_pool c p). Qed.
  Lemma ak_slash c s t : ak c (d_out c (fst (slash_delegators (d_in c) s t))).
  Proof. apply ak_d. apply DA_slashed. Qed.

  Ltac awalk l := apply (l ak ak_refl ak_trans); try exact ak_pay; try exact ak_infl; try exact ak_leave; try exact ak_incr; try exact ak_reset; try exact ak_final;
    try exact ak_slash; try (intros; by apply ak_eq).

  Lemma ak_stakers_begin c st : (forall s, is_Some (ss_stakers st !! s) <-> is_staker c s) -> ss_val st = ss_val (c_s c) -> ak c (s_out c (stakers_begin st)).
  Proof.
    intros Hst Hv [A B C]. split; [exact A| |].
    - intros s Hs. apply B. destruct (jk_stakers_begin c st Hst) as [_ H]. by apply H.
    - assert (H : VA (stakers_begin st)); [|exact H]. assert (H0 : VA st) by (intros p s v; unfold get_val, vals_of; rewrite Hv; apply C).
      clear -H0. unfold stakers_begin, process_leaves, process_commissions.
      pose proof (queue_loop_inv process_centry VA (ss_chigh st) (S (N.to_nat (ss_chigh st - ss_clow st))) st (ss_clow st)) as H1.
      destruct (queue_loop process_centry _ _ _ _) as [st1 low]. cbn [fst] in H1. set (st2 := with_cq _ _ _ _ _).
      pose proof (queue_loop_inv process_lentry VA (ss_lhigh st2) (S (N.to_nat (ss_lhigh st2 - ss_llow st2))) st2 (ss_llow st2)) as H2.
      destruct (queue_loop process_lentry _ _ _ _) as [st3 low3]. cbn [fst] in H2.
      assert (H3 : VA st3); [|exact H3]. apply H2; clear H2.
      + intros st' i st'' Hp. unfold process_lentry. destruct (_ !! i) as [e|]; [|by intros [= <-]]. destruct (_ <=? _); [|done]. intros [= <-].
        apply VA_leave. exact Hp.
      + assert (H4 : VA st1); [|exact H4]. apply H1; [|done].
        intros st' i st'' Hp. unfold process_centry. destruct (_ !! i) as [e|]; [|by intros [= <-]]. destruct (_ <=? _); [|done]. intros [= <-].
        destruct (ss_stakers _ !! ce_staker e); exact Hp.
  Qed.

  (** The addresses a message brings into the state are good. *)
  Definition brings (o : cop) : Prop :=
    match o with
    | CDelegate d _ _ | CUndelegate d _ _ | CRedelegate d _ _ _ => P d
    | CCreateStaker s _ _ => P s
    | CJoin _ _ v _ => P v
    | CCreateFunder a => P a
    | _ => True
    end.
  Lemma AD_step c o : brings o -> AD c -> AD (cstep c o).
  Proof.
    intros Hb. fold (ak c (cstep c o)). unfold cstep. destruct (cmsg c o) as [c'|] eqn:E; [|apply ak_refl]. change (default c (Some c')) with c'.
    destruct o; cbn [cmsg brings] in E, Hb;
      try (match type of E with ?f <$> ?x = _ => destruct x as [y|] eqn:Ex; [injection E as <-|done] end);
      try (match type of E with (if ?x then _ else _) = _ => destruct x; [injection E as <-|done] end);
      try (by apply ak_eq).
    - apply ak_d. intros H. unfold msg_delegate in Ex. destruct (negb _); [done|]. cbv zeta in Ex. destruct (send _ _ _ _) as [b|]; [|done]. injection Ex as <-.
      exact (DA_delegation (d_in c) s d a H Hb).
    - apply ak_d. intros H. unfold msg_undelegate in Ex. destruct (_ >? _); [done|]. injection Ex as <-.
      destruct H as [A B]. split; [exact A|]. cbn. intros i e Hi.
      destruct (decide (i = ds_high (d_in c) + 1)%N) as [->|]; [cbn in Hi; rewrite lookup_insert in Hi; injection Hi as <-; done|].
      rewrite lookup_insert_ne in Hi by done. by eapply B.
    - apply ak_d. intros H. unfold msg_redelegate in Ex. repeat (destruct (negb _); [done|]). destruct (_ >? _); [done|].
      destruct (consume_spell _ _ _) as [l|]; [|done]. set (d1 := with_cool _ _) in Ex. assert (H1 : DA d1) by exact H.
      pose proof (DA_undelegation d1 from d a H1 Hb) as Hu. destruct (perform_undelegation _ _ _ _) as [d2 act]. cbn [fst] in Hu.
      destruct (negb _); [done|]. injection Ex as <-. by apply DA_delegation.
    - apply ak_d. intros H. unfold msg_withdraw in Ex. destruct (negb _); [done|]. pose proof (DA_withdrawal (d_in c) s d H) as Hw.
      destruct (perform_withdrawal _ _ _) as [d1 [r|]]; [|done]. by injection Ex as <-.
    - unfold chain_create_staker in E. destruct (msg_delegate _ _ _ _ _) as [d|] eqn:Ed; [|done].
      destruct (msg_create_staker _ _ _ _) as [s'|] eqn:Es; [|done]. injection E as <-.
      unfold msg_create_staker in Es. destruct (ss_stakers _ !! _) eqn:E1; [done|]. injection Es as <-.
      unfold msg_delegate in Ed. cbn [negb] in Ed. cbv zeta in Ed. destruct (send _ _ _ _) as [b|]; [|done]. injection Ed as <-.
      intros [A B C]. split; [exact (DA_delegation (d_in c) s s a A Hb)| |exact C].
      intros t. unfold is_staker. cbn. destruct (decide (t = s)) as [->|]; [done|]. rewrite lookup_insert_ne by done. apply B.
    - unfold msg_update_commission in Ex. destruct (ss_stakers (s_in c) !! s); [|done]. injection Ex as <-.
      unfold order_commission. destruct (ss_cindex _ !! _) as [i|]; [|by apply ak_eq]. destruct (ss_centries _ !! i); by apply ak_eq.
    - unfold msg_claim_commission in Ex. destruct (ss_stakers (s_in c) !! s) eqn:E1; [|done]. destruct (negb _); [done|].
      destruct (send _ _ _ _); [|done]. injection Ex as <-. eapply ak_insert; [done|exact E1|done|done].
    - unfold msg_join in Ex. destruct (_ <$> _) as [[]|]; try done. destruct (ss_stakers (s_in c) !! s) eqn:Es; [|done]. destruct (s =? v)%N; [done|].
      destruct (get_val (s_in c) p s) eqn:Ev; [done|]. destruct (ensure_slot _ _ p s) as [st1|] eqn:E1; [|done].
      assert (Eb : ss_stakers st1 = ss_stakers (s_in c) /\ (VA (s_in c) -> VA st1)).
      { unfold ensure_slot in E1. destruct (_ <=? _); [|by injection E1 as <-]. destruct (_ <? _); [|done]. injection E1 as <-.
        split; [apply leave_frame|apply VA_leave]. }
      destruct (existsb _ _); [done|]. destruct (existsb _ _); [done|]. destruct (pay_kyve _ _ _ _); [|done]. injection Ex as <-.
      apply ak_s.
      + intros t. cbn. destruct (add_frame st1 s p v) as [-> _]. by rewrite (proj1 Eb).
      + intros HV. apply (proj2 Eb) in HV. assert (H : VA (add_val st1 p s v)); [|exact H]. unfold add_val.
        destruct (ss_stakers st1 !! s); [|done]. destruct (get_val st1 p s); [done|]. exact (VA_set st1 p s (mkVal v 0 false) HV Hb).
    - unfold msg_leave in Ex. destruct (get_val _ _ _) as [v|] eqn:Ev; [|done]. destruct (bool_decide _); [done|]. injection Ex as <-.
      apply ak_s; [done|]. intros H. assert (H' : VA (set_val (s_in c) p s (mkVal (vl_addr v) (vl_points v) true))); [|exact H'].
      apply VA_set; [exact H|]. cbn. by eapply H.
    - revert E. awalk k_submit.
    - revert E. apply (k_vote ak ak_trans); [exact ak_reset|]. intros; by apply ak_eq.
    - revert E. awalk k_skip.
    - unfold msg_claim_role in E. repeat (destruct (negb _); [done|]). injection E as <-. by apply ak_eq.
    - unfold chain_create_pool in E. destruct (msg_create_pool _ _ _ _ _); [|done]. injection E as <-. by apply ak_eq.
    - unfold chain_disable_pool in E. destruct (disable_record _ _ _) as [ps|]; [|done]. cbv zeta in E. set (c2 := fold_left _ _ _) in E.
      assert (H2 : ak c c2).
      { unfold c2. apply (ak_trans _ (cw_pools c ps)); [by apply ak_eq|]. apply (k_fold ak ak_refl ak_trans). intros. apply ak_leave. }
      destruct (_ <=? _); [done|]. destruct (0 <? _); [|by injection E as <-]. destruct (i64 _ <? 0); [done|].
      destruct (send _ _ _ _); [|done]. injection E as <-. eapply ak_trans; [exact H2|by apply ak_eq].
    - intros [A B C]. by split.
    - injection E as <-. unfold begin_block. set (c0 := cw_time _ _ _). set (c1 := t_out c0 _).
      set (c2 := match split_inflation c1 provision with Some x => x | None => cw_halt c1 end).
      assert (Hc : ak c c2).
      { unfold c2. destruct (split_inflation c1 provision) eqn:E; [|by apply ak_eq]. apply ak_eq.
        - by rewrite (d_split _ _ _ E).
        - by rewrite (PoolFrame.s_split _ _ _ E).
        - by rewrite (PoolFrame.s_split _ _ _ E). }
      eapply ak_trans; [exact Hc|]. eapply ak_trans; [|apply ak_stakers_begin; done].
      apply ak_d. intros H. apply DA_process. exact H.
    - injection E as <-. unfold end_block. set (c1 := cw_pools _ _). apply (ak_trans _ c1); [by apply ak_eq|].
      apply (ak_trans _ (handle_upload_timeout c1)); [awalk k_handle_timeout|].
      apply ak_eq; [by rewrite d_burn_fees|by rewrite PoolFrame.s_burn_fees|by rewrite PoolFrame.s_burn_fees].
    - injection E as <-. by apply ak_eq.
  Qed.
  Lemma AD_init g : AD (gstart g).
  Proof.
    split; cbn.
    - split; [|intros i e; cbn; by rewrite lookup_empty]. intros s x. unfold getf. cbn. rewrite lookup_empty. cbn. rewrite lookup_empty. by intros [? ?].
    - intros s [x Hx]. cbn in Hx. by rewrite lookup_empty in Hx.
    - intros p s v. unfold get_val, vals_of. cbn. by rewrite lookup_empty.
  Qed.
  Lemma AD_run ops : forall c, Forall brings ops -> AD c -> AD (crun c ops).
  Proof. induction ops as [|o t IH]; intros c H HA; [done|]. inversion H; subst. cbn [crun]. apply IH; [done|by apply AD_step]. Qed.
End addresses.

(** ** Who is a staker: those who created one. *)
Definition stk (c c' : chain) : Prop := forall s, is_staker c s <-> is_staker c' s.
Lemma stk_refl c : stk c c. Proof. done. Qed.
Lemma stk_trans a b c : stk a b -> stk b c -> stk a c.
Proof. intros A B s. by rewrite (A s). Qed.
Lemma stk_eq c c' : ss_stakers (c_s c') = ss_stakers (c_s c) -> stk c c'.
Proof. intros E s. unfold is_staker. by rewrite E. Qed.
Lemma stk_pay c u r : match pay_out c u r with inl c' | inr c' => stk c c' end.
Proof. pose proof (jk_pay c u r) as H. destruct (pay_out c u r); exact (proj2 H). Qed.
Lemma stk_infl c p c' x : charge_inflation c p = Some (c', x) -> stk c c'.
Proof. intros H. exact (proj2 (jk_infl c p c' x H)). Qed.
Lemma stk_leave c s p : stk c (s_out c (leave_pool (s_in c) s p)).
Proof. exact (proj2 (jk_leave c s p)). Qed.
Lemma stk_incr c p s : stk c (s_out c (fst (increment_points (s_in c) p s))).
Proof. exact (proj2 (jk_incr c p s)). Qed.
Lemma stk_reset c p s : stk c (reset_pts c p s).
Proof. exact (proj2 (jk_reset c p s)). Qed.
Lemma stk_final c p v : stk c (finalize c p v).
Proof. exact (proj2 (jk_final c p v)). Qed.
Lemma stk_slash c s t : stk c (d_out c (fst (slash_delegators (d_in c) s t))).
Proof. exact (proj2 (jk_slash c s t)). Qed.
Ltac swalk l := apply (l stk stk_refl stk_trans); try exact stk_pay; try exact stk_infl; try exact stk_leave; try exact stk_incr; try exact stk_reset; try exact stk_final;
  try exact stk_slash; try (intros; by apply stk_eq).
Lemma staker_frame c o : (forall s com a, o <> CCreateStaker s com a) -> stk c (cstep c o).
Proof.
  intros Hn. unfold cstep. destruct (cmsg c o) as [c'|] eqn:E; [|done]. change (default c (Some c')) with c'.
  destruct o; cbn [cmsg] in E;
    try (match type of E with ?f <$> ?x = _ => destruct x as [y|] eqn:Ex; [injection E as <-|done] end);
    try (match type of E with (if ?x then _ else _) = _ => destruct x; [injection E as <-|done] end);
    try (by apply stk_eq).
  - by destruct (Hn s commission a).
  - unfold msg_update_commission in Ex. destruct (ss_stakers (s_in c) !! s); [|done]. injection Ex as <-.
    unfold order_commission. destruct (ss_cindex _ !! _) as [i|]; [|by apply stk_eq]. destruct (ss_centries _ !! i); by apply stk_eq.
  - unfold msg_claim_commission in Ex. destruct (ss_stakers (s_in c) !! s) eqn:E1; [|done]. destruct (negb _); [done|].
    destruct (send _ _ _ _); [|done]. injection Ex as <-. refine (proj2 (jk_insert _ _ _ _ _ _ E1 _)); done.
  - unfold msg_join in Ex. destruct (_ <$> _) as [[]|]; try done. destruct (ss_stakers (s_in c) !! s); [|done]. destruct (s =? v)%N; [done|].
    destruct (get_val (s_in c) p s); [done|]. destruct (ensure_slot _ _ p s) as [st1|] eqn:E1; [|done].
    assert (Eb : ss_stakers st1 = ss_stakers (s_in c)).
    { unfold ensure_slot in E1. destruct (_ <=? _); [|congruence]. destruct (_ <? _); [|done]. injection E1 as <-. apply leave_frame. }
    destruct (existsb _ _); [done|]. destruct (existsb _ _); [done|]. destruct (pay_kyve _ _ _ _); [|done]. injection Ex as <-.
    apply stk_eq. cbn. destruct (add_frame st1 s p v) as [-> _]. exact Eb.
  - unfold msg_leave in Ex. destruct (get_val _ _ _); [|done]. destruct (bool_decide _); [done|]. injection Ex as <-. by apply stk_eq.
  - revert E. swalk k_submit.
  - revert E. apply (k_vote stk stk_trans); [exact stk_reset|]. intros; by apply stk_eq.
  - revert E. swalk k_skip.
  - unfold msg_claim_role in E. repeat (destruct (negb _); [done|]). injection E as <-. by apply stk_eq.
  - unfold chain_create_pool in E. destruct (msg_create_pool _ _ _ _ _); [|done]. injection E as <-. by apply stk_eq.
  - unfold chain_disable_pool in E. destruct (disable_record _ _ _) as [ps|]; [|done]. cbv zeta in E. set (c2 := fold_left _ _ _) in E.
    assert (H2 : stk c c2).
    { unfold c2. apply (stk_trans _ (cw_pools c ps)); [by apply stk_eq|]. apply (k_fold stk stk_refl stk_trans). intros. apply stk_leave. }
    destruct (_ <=? _); [done|]. destruct (0 <? _); [|by injection E as <-]. destruct (i64 _ <? 0); [done|].
    destruct (send _ _ _ _); [|done]. injection E as <-. eapply stk_trans; [exact H2|by apply stk_eq].
  - injection E as <-. unfold begin_block. set (c0 := cw_time _ _ _). set (c1 := t_out c0 _).
    set (c2 := match split_inflation c1 provision with Some x => x | None => cw_halt c1 end).
    assert (Hb : stk c c2).
    { unfold c2. destruct (split_inflation c1 provision) eqn:E; [|by apply stk_eq]. apply stk_eq. by rewrite (PoolFrame.s_split _ _ _ E). }
    eapply stk_trans; [exact Hb|]. eapply stk_trans; [|refine (proj2 (jk_stakers_begin _ _ _)); done]. by apply stk_eq.
  - injection E as <-. unfold end_block. set (c1 := cw_pools _ _). apply (stk_trans _ c1); [by apply stk_eq|].
    apply (stk_trans _ (handle_upload_timeout c1)); [swalk k_handle_timeout|]. apply stk_eq. by rewrite PoolFrame.s_burn_fees.
  - injection E as <-. by apply stk_eq.
Qed.
Lemma create_frame c s com a c' : cmsg c (CCreateStaker s com a) = Some c' -> ~ is_staker c s /\ forall t, is_staker c' t <-> is_staker c t \/ t = s.
Proof.
  cbn [cmsg]. unfold chain_create_staker. destruct (msg_delegate _ _ _ _ _) as [d|] eqn:Ed; [|done].
  destruct (msg_create_staker _ _ _ _) as [s'|] eqn:Es; [|done]. intros [= <-].
  unfold msg_create_staker in Es. destruct (ss_stakers _ !! _) eqn:E1; [done|]. injection Es as <-. split.
  - intros [x Hx]. by rewrite E1 in Hx.
  - intros t. unfold is_staker. cbn. destruct (decide (t = s)) as [->|]; [rewrite lookup_insert; split; eauto|].
    rewrite lookup_insert_ne by done. naive_solver.
Qed.
