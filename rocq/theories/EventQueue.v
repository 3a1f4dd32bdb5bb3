(** * Following the events: the queue of unbondings. *)
From Verif Require Import Base BaseFacts Delegation DelegationInv DelegationBank DelegationQueue DelegationClaims Stakers Funders Team RoundRobin Pool Bundles Chain ChainFrame ChainLift Walk ArchiveInv PaySafe PayFlow IndexInv
  Events EventWalk EventFollow EventStakers EventStake.

(** A follower keeps the requests that are open, oldest first: delegator, staker, amount and the
    date of the event. A payout answers the oldest request; the flag goes out if it is for another
    delegator or staker, or for more than was asked for. *)
Definition request : Type := N * N * Z * Z.
Definition see_unbond (v : list request * bool) (e : event) : list request * bool :=
  match e with
  | EvStartUndelegation d s a t => (fst v ++ [(d, s, a, t)], snd v)
  | EvUndelegate d s a =>
      match fst v with
      | [] => ([], false)
      | (d', s', a', _) :: l => (l, snd v && (d =? d')%N && (s =? s')%N && (0 <=? a) && (a <=? a'))
      end
  | _ => v
  end.
(** What is stored: the entries between the two ends of the queue. *)
Definition open_at (c : chain) : list uentry :=
  omap (fun i => ds_queue (c_d c) !! (ds_low (c_d c) + 1 + N.of_nat i)%N) (seq 0 (N.to_nat (ds_high (c_d c) - ds_low (c_d c)))).

Lemma omap_seq {A} (l : list A) : forall f, (forall i x, l !! i = Some x -> f i = Some x) -> omap f (seq 0 (length l)) = l.
Proof.
  induction l as [|x l IH]; intros f H; [done|]. cbn [length seq omap list_omap]. rewrite (H 0%nat x eq_refl). f_equal.
  rewrite <- (IH (fun i => f (S i))) at 2 by (intros i y Hi; by apply (H (S i) y)).
  rewrite <- (seq_shift (length l) 0). generalize (seq 0 (length l)). intros m. induction m as [|y m IHm]; cbn [map omap list_omap]; [done|]. by rewrite IHm.
Qed.
Lemma open_list c l : QRel (d_in c) l -> open_at c = l.
Proof.
  intros HQ. unfold open_at. pose proof (q_len _ _ HQ) as Hl. replace (N.to_nat (ds_high (c_d c) - ds_low (c_d c))) with (length l).
  - apply omap_seq. intros i x Hi. exact (q_in _ _ HQ i x Hi).
  - change (ds_low (c_d c)) with (ds_low (d_in c)). change (ds_high (c_d c)) with (ds_high (d_in c)). lia.
Qed.

Section queue.
  Context (g : gen) (Hg : genesis g).
  (** The time of unbonding, if it is never changed. *)
  Context (U : option Z).
  Definition answers (r : request) (e : uentry) : Prop :=
    let '(d, s, a, t) := r in d = u_delegator e /\ s = u_staker e /\ a = u_amount e /\ match U with Some u => t = u64_add (u_time e) u | None => True end.
  Definition known_time (st : dstate) : Prop := match U with Some u => p_unbonding (ds_params st) = u | None => True end.
  Definition follows (st : dstate) (v : list request * bool) : Prop := known_time st /\ snd v = true /\ exists l, QRel st l /\ Forall2 answers (fst v) l.
  Definition opens (c : chain) (v : list request * bool) : Prop := follows (d_in c) v.
  Local Notation E := (E see_unbond opens).
  Definition same_queue (st st' : dstate) : Prop :=
    ds_queue st' = ds_queue st /\ ds_low st' = ds_low st /\ ds_high st' = ds_high st /\ ds_params st' = ds_params st /\ ds_time st' = ds_time st.
  Definition same_q (c c' : chain) : Prop := same_queue (c_d c) (c_d c').
  Lemma q_same st st' v : same_queue st st' -> follows st v -> follows st' v.
  Proof.
    intros (H1 & H2 & H3 & H4 & H5) (Hu & Hb & l & HQ & Hl). split; [unfold known_time in *; by rewrite H4|]. split; [done|]. exists l. split; [|done].
    eapply QRel_frame; [..|exact HQ]; congruence || lia.
  Qed.
  Lemma q_keep c c' : same_q c c' -> E c [] c'.
  Proof. intros H v Hv. cbn [fold_left]. eapply q_same; [|exact Hv]. exact H. Qed.
  Lemma q_slash_same st s t : same_queue st (fst (slash_delegators st s t)).
  Proof. unfold slash_delegators. destruct (f_data _); [|by split_and!]. destruct (f1_slash _ _). cbn [fst]. by destruct (send _ _ _ _); split_and!. Qed.
  Lemma q_slash c p s t : E c (ev_slash (d_in c) p s t) (d_out c (fst (slash_delegators (d_in c) s t))).
  Proof.
    apply E_quiet; [apply sh_slash; by intros ? ?|]. apply q_keep. exact (q_slash_same (d_in c) s t).
  Qed.
  Lemma q_leave c p s : E c [EvLeave p s] (s_out c (leave_pool (s_in c) s p)).
  Proof. apply E_quiet; [by repeat constructor|]. apply q_keep. by split_and!. Qed.
  Lemma q_incr c p s : E c [EvPoint p s (snd (increment_points (s_in c) p s))] (s_out c (fst (increment_points (s_in c) p s))).
  Proof. apply E_quiet; [by repeat constructor|]. apply q_keep. by split_and!. Qed.
  Lemma q_reset c p s : E c (ev_reset c p s) (reset_pts c p s).
  Proof. apply E_quiet; [unfold ev_reset; destruct (0 <? _); by repeat constructor|]. apply q_keep. by split_and!. Qed.
  Lemma q_infl c p c' x : charge_inflation c p = Some (c', x) -> same_q c c'.
  Proof. intros H. unfold charge_inflation in H. destruct (inflation_payout _ _); [|done]. destruct (_ <? 0); [done|]. destruct (send _ _ _ _); injection H as <- _; by split_and!. Qed.
  Lemma q_pay c u r : match pay_out c u r with inl c' | inr c' => same_q c c' end.
  Proof.
    unfold pay_out. destruct (send _ _ _ _) as [bk|]; [|by split_and!]. destruct (increase_commission_rewards _ _ _ _) as [st|]; [|by split_and!].
    destruct (payout_rewards _ _ _ _) as [d|] eqn:Ep; [|by split_and!]. unfold payout_rewards in Ep. destruct (cempty _); [injection Ep as <-; by split_and!|].
    destruct (f_data _); [|done]. destruct (send _ _ _ _); [|done]. injection Ep as <-. by split_and!.
  Qed.
  Lemma q_final c p v : same_q c (finalize c p v).
  Proof. unfold finalize. destruct (get_pool c p); by split_and!. Qed.

  (** The loop over the queue. *)
  Definition at_low (st : dstate) (low : N) (l : list uentry) : Prop :=
    (low + N.of_nat (length l) = ds_high st)%N /\ (forall i e, l !! i = Some e -> ds_queue st !! (low + 1 + N.of_nat i)%N = Some e) /\
    (forall k, is_Some (ds_queue st !! k) -> (low < k <= ds_high st)%N) /\ Forall (fun e => 0 <= u_amount e) l.
  Lemma q_loop n : forall st low l v, (exists b, Good st b) -> at_low st low l -> snd v = true -> Forall2 answers (fst v) l ->
    exists l', let v' := fold_left see_unbond (ev_process_loop n st low) v in snd v' = true /\ Forall2 answers (fst v') l' /\
      (exists k, l = k ++ l' /\ out_entries (snd (process_loop n st low)) = k).
  Proof.
    induction n as [|n IH]; intros st low l v HG (Hlen & Hin & Hout & Ha) Hb Hl; cbn [ev_process_loop process_loop]; [exists l; cbn; split_and!; [done..|by exists []]|].
    destruct l as [|e l].
    - destruct (ds_queue st !! (low + 1)%N) eqn:Eq; [exfalso; specialize (Hout _ ltac:(by rewrite Eq)); cbn in Hlen; lia|].
      replace (low <? ds_high st)%N with false by (symmetry; apply N.ltb_ge; cbn in Hlen; lia). exists []. cbn. split_and!; [done..|by exists []].
    - pose proof (Hin 0%nat e eq_refl) as H0. replace (low + 1 + N.of_nat 0)%N with (low + 1)%N in H0 by lia. rewrite H0.
      destruct (due st e); [|exists (e :: l); cbn; split_and!; [done..|by exists []]].
      inversion Ha as [|? ? Hae Ha']; subst. pose proof (process_one_frame st low e) as HF. cbv zeta in HF. destruct HF as (Hq & Hlo & Hhi & Hpa & Hti & Hco).
      destruct HG as [b HG]. destruct (Good_process_one st b low e HG Hae) as [HG1 Hp].
      assert (Hpaid : 0 <= snd (process_one st low e) <= u_amount e).
      { split; [|rewrite Hp; lia]. unfold process_one, perform_undelegation. destruct (perform_withdrawal _ _ _) as [sw er]. destruct (f1_remove _ _) as [f y]. cbn [snd].
        apply F1Acct.u64_sub_nonneg. }
      clear Hp. destruct (process_one st low e) as [st3 paid] eqn:E1. cbn [fst snd] in *.
      rewrite fold_left_app, (quiet_all see_unbond (ev_undelegation _ _ _)) by (apply sh_undelegation; by intros ? ? ?). cbn [fold_left].
      destruct v as [[|r v] b0]; [by inversion Hl|]. inversion Hl as [|? ? ? ? Hr Hl']; subst. destruct r as [[[d s] a] t]. cbn [see_unbond fst snd] in *. destruct Hr as (-> & -> & -> & _). subst b0.
      rewrite !N.eqb_refl. replace (0 <=? paid) with true by lia. replace (paid <=? u_amount e) with true by lia. cbn [andb].
      destruct (IH st3 (low + 1)%N l (v, true)) as (l' & H1 & H2 & k & H3 & H4); [by eexists| |done|done|].
      { split_and!; [cbn in Hlen; rewrite Hhi; lia| | |done].
        - intros i f Hi. rewrite Hq. rewrite lookup_delete_ne by lia. specialize (Hin (S i) f Hi). by replace (low + 1 + 1 + N.of_nat i)%N with (low + 1 + N.of_nat (S i))%N by lia.
        - intros k Hk. rewrite Hq in Hk. destruct Hk as [f Hk]. apply lookup_delete_Some in Hk as [Hne Hk]. specialize (Hout k ltac:(by rewrite Hk)). rewrite Hhi. lia. }
      exists l'. destruct (process_loop n st3 (low + 1)) as [[st4 low'] out]. cbn [fst snd] in *. split; [done|]. split; [done|]. exists (e :: k). split; [cbn; by rewrite H3|]. unfold out_entries in *. cbn [map fst snd]. by rewrite H4.
  Qed.
  Lemma q_begin c t pr : R g c -> c_time c <= t -> E c (ev_begin c t pr) (begin_block c t pr).
  Proof.
    intros HR Ht. unfold ev_begin, begin_block. set (c0 := cw_time _ _ _). set (c1 := t_out c0 _). set (c2 := match split_inflation c1 pr with Some x => x | None => cw_halt c1 end).
    assert (H2 : c_d c2 = c_d c). { unfold c2. destruct (split_inflation c1 pr) eqn:Es; [by apply d_split in Es|done]. }
    clearbody c2. cbv zeta. set (c3 := d_out c2 _). intros v Hv. rewrite fold_left_app, (quiet_all see_unbond (ev_stakers_begin _)) by shape.
    destruct (g_times _ _ (proj1 HR)) as (Htd & _). destruct (g_d _ _ (proj1 HR)) as (ops & Hok & Hd & _).
    assert (HG : exists b, Good (with_time (d_in c2) t) b).
    { destruct (Good_run (d0 g) ∅ ops) as [HG _]; [apply Good_init| |exact Hok|].
      - apply Env_init. destruct Hg as (_ & _ & _ & H4 & _). exact H4.
      - rewrite <- Hd in HG. eexists. eapply Good_same_f1; [|exact HG]. cbn. by rewrite H2. }
    destruct Hv as (Hu & Hb & l & HQ & Hl).
    assert (HQ1 : QRel (with_time (d_in c2) t) l).
    { eapply QRel_frame; [..|exact HQ]; cbn; try (by rewrite H2). lia. }
    pose proof (process_queue_spec _ l HQ1) as HP. unfold ev_queue.
    destruct (q_loop (queue_fuel (with_time (d_in c2) t)) (with_time (d_in c2) t) (ds_low (with_time (d_in c2) t)) l v HG) as (l' & K1 & K2 & k & K3 & K4); [|done|done|].
    { split_and!; [apply (q_len _ _ HQ1)|apply (q_in _ _ HQ1)|apply (q_out _ _ HQ1)|]. apply Forall_lookup. intros i e Hi. by apply (q_amt _ _ HQ1 i e). }
    set (st := with_time (d_in c2) t) in *.
    change (opens (s_out c3 ?x) ?w) with (follows (with_bank (fst (process_queue st)) (c_bank (s_out c3 x))) w).
    assert (Ho : snd (process_queue st) = snd (process_loop (queue_fuel st) st (ds_low st))) by (unfold process_queue; by destruct (process_loop _ _ _) as [[??]?]).
    rewrite <- Ho in K4. destruct (process_queue st) as [st' out]. cbn [fst snd] in *. destruct (split_due _ _ l) as [x y] eqn:Es. pose proof (split_due_app _ _ _ _ _ Es) as Ea.
    destruct HP as (P1 & P2 & _ & _ & _ & P6 & _). assert (y = l').
    { rewrite <- K4, P1, Ea in K3. by apply app_inv_head in K3. }
    subst y. apply (q_same st'); [by split_and!|]. split; [unfold known_time in *; rewrite P6; unfold st; cbn; by rewrite H2|]. split; [exact K1|]. exists l'. done.
  Qed.
  Lemma q_disable c sender p c' : chain_disable_pool c sender p = Some c' -> same_q c c'.
  Proof.
    unfold chain_disable_pool. destruct (disable_record _ _ _) as [ps|]; [|done]. cbv zeta.
    set (c1 := cw_pools c ps). set (c2 := fold_left _ _ _).
    assert (H2 : c_d c2 = c_d c).
    { unfold c2. change (c_d c) with (c_d c1). generalize (members c1 p). intros l. clearbody c1. clear. revert c1.
      induction l as [|s l IH]; intros c1; cbn [fold_left]; [done|]. by rewrite IH. }
    unfold same_q. rewrite <- H2. clearbody c2. clear. 
    destruct (two64 <=? _); [done|]. destruct (0 <? _); [|intros [= <-]; by split_and!]. destruct (i64 _ <? 0); [done|]. destruct (send _ _ _ _); [|done]. intros [= <-]. by split_and!.
  Qed.
  Lemma q_delegate st ex d s a st' : msg_delegate st ex d s a = Some st' -> same_queue st st'.
  Proof.
    unfold msg_delegate. destruct (negb ex); [done|]. cbv zeta. destruct (send _ _ _ _); [|done]. intros [= <-].
    destruct (delegation_frame st s d a) as (A & B & C & D & F & _). by split_and!.
  Qed.
  Local Ltac same := by split_and!.
  Local Ltac still := apply E_quiet; [shape|apply q_keep; same].
  Definition keeps_time (o : cop) : Prop := match U, o with Some u, CParamsD _ p => p_unbonding p = u | _, _ => True end.
  Lemma q_step c o c' : R g c -> cop_ok c o -> keeps_time o -> cmsg c o = Some c' -> E c (emitted c o) c'.
  Proof.
    intros HR Hok Hk Hm.
    assert (Lp : forall c p b, same_q c (set_prop c p b)) by (intros; same).
    assert (Lr : forall c x, same_q c (cw_rr c x)) by (intros; same). assert (Lh : forall c, same_q c (cw_halt c)) by (intros; same).
    assert (Lb : forall c b, same_q c (cw_bank c b)) by (intros; same). assert (Lf : forall c f, same_q c (f_out c f)) by (intros; same).
    assert (Lu : forall c, same_q c (cw_pools c (handle_upgrades (c_pools c) (c_time c)))) by (intros; same).
    assert (Hval : forall c p c' v fp x r y n t, R g c -> is_Some (get_pool c p) -> tally c (get_prop c p) p = TrValid c' v fp x r ->
      E c (ev_tally c (get_prop c p) p ++ ev_finalize (cw_rr c' y) p v fp x r n) (set_prop (finalize (cw_rr c' y) p v) p (bp_none n t))).
    { intros. eapply (l_valid see_unbond opens same_q); eauto using q_keep, q_slash, q_leave, q_incr, q_infl, q_final; first [exact q_pay|done]. }
    destruct o; cbn [cmsg emitted] in *; try (one_of Hm; still); try (param Hm; still).
    - one_of Hm. apply E_quiet; [shape|]. apply q_keep. exact (q_delegate _ _ _ _ _ _ Em).
    - one_of Hm. unfold msg_undelegate in Em. destruct (a >? delegation_of (d_in c) s d) eqn:Ea; [done|]. injection Em as <-. intros v (Hu & Hb & l & HQ & Hl). cbn [fold_left see_unbond].
      split; [exact Hu|]. split; [exact Hb|]. exists (l ++ [mkU s d a (ds_time (d_in c))]).
      destruct (QRel_step (d_in c) l (OUndelegate d s a) HQ Hok) as [HQ' _]. cbn [dstep fifo_step or_same] in HQ'. unfold msg_undelegate in HQ'. rewrite Ea in HQ'. cbn [fst] in HQ'.
      split; [exact HQ'|]. cbn [fst]. apply Forall2_app; [done|]. constructor; [|constructor]. cbn. split_and!; [done..|]. unfold known_time in Hu. destruct U as [u|]; [|done]. rewrite <- Hu.
      unfold u64_add, w64. cbn. by rewrite Zplus_mod_idemp_l.
    - one_of Hm. apply E_quiet; [shape|]. apply q_keep. unfold msg_redelegate in Em. destruct (negb _); [done|]. destruct (negb _); [done|]. destruct (negb _); [done|]. destruct (_ >? _); [done|].
      destruct (consume_spell _ _ _) as [l|]; [|done]. cbv zeta in *. set (st1 := with_cool _ _) in *.
      pose proof (undelegation_frame st1 from d a) as Hu. cbv zeta in Hu. destruct (perform_undelegation st1 from d a) as [st2 actual]. cbn [fst snd] in *.
      destruct (negb _); [done|]. injection Em as <-. destruct (delegation_frame st2 to d a) as (A & B & C & D & F & _). destruct Hu as (A1 & B1 & C1 & D1 & F1 & _).
      unfold same_q, same_queue. cbn [d_out cw_bank cw_d c_d]. rewrite A, B, C, D, F, A1, B1, C1, D1, F1. same.
    - one_of Hm. apply E_quiet; [shape|]. unfold msg_withdraw in Em. destruct (negb _); [done|]. pose proof (withdrawal_frame (d_in c) s d) as Hw. cbv zeta in Hw.
      destruct (perform_withdrawal _ _ _) as [st1 [r|]]; [|done]. injection Em as <-. apply q_keep. destruct Hw as (A1 & B1 & C1 & D1 & F1 & _).
      unfold same_q, same_queue. cbn [d_out cw_bank cw_d c_d fst] in *. rewrite A1, B1, C1, D1, F1. same.
    - unfold chain_create_staker in Hm. destruct (msg_delegate _ _ _ _ _) as [d|] eqn:Ed; [|done]. destruct (msg_create_staker _ _ _ _) as [st|] eqn:Es; [|done]. injection Hm as <-.
      apply E_quiet; [shape|]. apply q_keep. exact (q_delegate _ _ _ _ _ _ Ed).
    - eapply (l_submit g see_unbond opens same_q); eauto using q_keep, q_slash, q_leave, q_incr, q_reset; done.
    - eapply (l_vote see_unbond opens same_q); eauto using q_keep, q_reset; done.
    - eapply (l_skip g see_unbond opens same_q); eauto using q_keep, q_slash, q_leave, q_incr, q_reset; done.
    - eapply (l_claim_role see_unbond opens same_q); eauto using q_keep; done.
    - unfold chain_create_pool in Hm. destruct (msg_create_pool _ _ _ _ _); [|done]. injection Hm as <-. still.
    - apply E_quiet; [shape|]. apply q_keep. by eapply q_disable.
    - param Hm. intros v (Hu & Hb & l & HQ & Hl). cbn [fold_left]. split; [unfold known_time, keeps_time in *; by destruct U|]. split; [done|]. exists l. split; [|done].
      by eapply QRel_frame; [..|exact HQ].
    - injection Hm as <-. apply q_begin; [done|]. apply Hok.
    - injection Hm as <-. eapply (l_end g Hg see_unbond opens same_q); eauto using q_keep, q_slash, q_leave, q_incr, q_reset; done.
    - injection Hm as <-. still.
  Qed.
  Lemma q_run ops : match U with Some u => p_unbonding (g0_dp g) = u | None => True end -> cops_ok (gstart g) ops -> Forall keeps_time ops ->
    opens (crun (gstart g) ops) (fold_left see_unbond (elog (gstart g) ops) ([], true)).
  Proof.
    intros H0. induction ops as [|o ops IH] using rev_ind; intros Hok Hk.
    { split; [exact H0|]. split; [done|]. exists []. split; [|constructor]. apply QRel_init. }
    apply cops_ok_snoc in Hok as [Hok Ho]. apply Forall_app in Hk as [Hk Hk1]. inversion Hk1; subst.
    assert (Hlog : forall l c, elog c (l ++ [o]) = elog c l ++ events (crun c l) o).
    { induction l as [|x l IHl]; intros c; cbn [elog crun app]; [by rewrite app_nil_r|]. by rewrite IHl, app_assoc. }
    rewrite Hlog, crun_snoc. set (c := crun (gstart g) ops) in *. assert (HE : E c (events c o) (cstep c o)).
    { unfold events, cstep. destruct (cmsg c o) as [c'|] eqn:Ec; cbn [default]; [|apply E_refl]. apply q_step; [by apply R_run|done|done|done]. }
    rewrite fold_left_app. by apply HE, IH.
  Qed.
End queue.

(** ** The statements *)
Definition asked (r : request) : N * N * Z := let '(d, s, a, _) := r in (d, s, a).
Definition date_of (r : request) : Z := snd r.
Lemma follow_unbondings g : genesis g -> forall ops, cops_ok (gstart g) ops ->
  let v := fold_left see_unbond (elog (gstart g) ops) ([], true) in
  snd v = true /\ map asked (fst v) = map (fun e => (u_delegator e, u_staker e, u_amount e)) (open_at (crun (gstart g) ops)).
Proof.
  intros Hg ops Hok. cbv zeta. destruct (q_run g Hg None ops I Hok) as (_ & Hb & l & HQ & Hl); [by apply Forall_forall|]. split; [exact Hb|].
  rewrite (open_list _ _ HQ). clear HQ Hb. revert Hl. generalize (fst (fold_left see_unbond (elog (gstart g) ops) ([], true))). intros v. induction 1 as [|[[[d s] a] t] e v l H _ IH]; [done|].
  cbn [map asked]. rewrite IH. destruct H as (-> & -> & -> & _). done.
Qed.
Lemma follow_dates g : genesis g -> forall ops, cops_ok (gstart g) ops ->
  (forall s p, CParamsD s p ∈ ops -> p_unbonding p = p_unbonding (g0_dp g)) ->
  map date_of (fst (fold_left see_unbond (elog (gstart g) ops) ([], true))) = map (fun e => u64_add (u_time e) (p_unbonding (g0_dp g))) (open_at (crun (gstart g) ops)).
Proof.
  intros Hg ops Hok Hk. destruct (q_run g Hg (Some (p_unbonding (g0_dp g))) ops eq_refl Hok) as (_ & Hb & l & HQ & Hl).
  { apply Forall_forall. intros o Ho. unfold keeps_time. destruct o; try done. by apply (Hk sender). }
  rewrite (open_list _ _ HQ). clear HQ Hb. revert Hl. generalize (fst (fold_left see_unbond (elog (gstart g) ops) ([], true))). intros v. induction 1 as [|[[[d s] a] t] e v l H _ IH]; [done|].
  cbn [map date_of snd]. rewrite IH. destruct H as (_ & _ & _ & ->). done.
Qed.
