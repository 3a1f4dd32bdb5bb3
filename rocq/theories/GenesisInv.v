(** * What the stores of x/delegation and x/stakers always satisfy and a genesis state must satisfy. *)
From stdpp Require Import sorting.
From Verif Require Import Base BaseFacts Delegation DelegationInv DelegationClaims3 Stakers StakersInv StakersClaims.

(** ** x/delegation, one staker *)
(** [dd]: the delegation data, which may not have been written yet. *)
Record FK (f : f1) (dd : ddata) : Prop := mkFK {
  fk_slash : forall k fr, (k, fr) ∈ f_slashes f -> is_Some (f_entries f !! k) /\ (k <= dd_latest dd)%N;
  fk_sort : StronglySorted N.lt (map fst (f_slashes f));
  fk_k : forall d dl, f_delegators f !! d = Some dl -> (d_k dl <= dd_latest dd)%N /\ forall fr, (d_k dl, fr) ∉ f_slashes f;
  fk_inj : forall d d' dl dl', f_delegators f !! d = Some dl -> f_delegators f !! d' = Some dl' -> d_k dl = d_k dl' -> d = d';
  fk_undel : dd_undel dd = true -> forall fr, (dd_latest dd, fr) ∉ f_slashes f
}.
Definition F1K (f : f1) : Prop := FK f (get_dd f).

Lemma F1K_empty : F1K f1_empty.
Proof.
  split; cbn; intros *; rewrite ?lookup_empty; try done.
  - by intros ?%elem_of_nil.
  - constructor.
Qed.
Lemma period_FK f dd f' dd' : FK f dd -> f1_start_new_period f dd = (f', dd') ->
  f_slashes f' = f_slashes f /\ f_delegators f' = f_delegators f /\ dd_latest dd' = (dd_latest dd + 1)%N /\ dd_undel dd' = false /\
  is_Some (f_entries f' !! dd_latest dd') /\
  (forall k fr, (k, fr) ∈ f_slashes f -> is_Some (f_entries f' !! k) /\ (k < dd_latest dd')%N) /\
  (forall d dl, f_delegators f !! d = Some dl -> (d_k dl < dd_latest dd')%N).
Proof.
  intros [H1 H2 H3 H4 H5]. unfold f1_start_new_period. intros [= <- <-]. cbn [dd_latest dd_undel].
  set (v := cadd _ _). clearbody v. set (fe := set_entries f _).
  assert (Hf : forall k, k <> dd_latest dd -> f_entries (if dd_undel dd then match f_entries f !! dd_latest dd with Some _ => del_entry fe (dd_latest dd) | None => fe end else fe) !! k
                = f_entries fe !! k).
  { intros k Hk. destruct (dd_undel dd); [|done]. destruct (f_entries f !! dd_latest dd); [|done]. cbn. by rewrite lookup_delete_ne. }
  split_and!; try done.
  - destruct (dd_undel dd); [|done]. by destruct (f_entries f !! _).
  - destruct (dd_undel dd); [|done]. by destruct (f_entries f !! _).
  - rewrite Hf by lia. cbn. rewrite lookup_insert. eauto.
  - intros k fr Hk. destruct (H1 k fr Hk) as [He Hl]. split; [|lia]. destruct (decide (k = dd_latest dd)) as [->|Hne].
    + destruct (dd_undel dd) eqn:Eu; [exfalso; by apply (H5 eq_refl fr)|]. cbn. by rewrite lookup_insert_ne by lia.
    + rewrite Hf by done. cbn. by rewrite lookup_insert_ne by lia.
  - intros d dl Hd. destruct (H3 d dl Hd). lia.
Qed.
Lemma F1K_create f d a : F1K f -> F1K (f1_create f d a).
Proof.
  intros HK. unfold f1_create. destruct (a =? 0); [done|]. destruct (f1_start_new_period f (get_dd f)) as [f' dd'] eqn:E.
  destruct (period_FK _ _ _ _ HK E) as (E1 & E2 & E3 & E4 & E5 & E6 & E7). destruct HK as [H1 H2 H3 H4 H5].
  unfold F1K, get_dd. cbn. split; cbn; rewrite ?E1, ?E2; try done.
  - intros k fr Hk. destruct (E6 _ _ Hk). split; [done|lia].
  - intros x dl. destruct (decide (d = x)) as [->|]; [rewrite lookup_insert|rewrite lookup_insert_ne by done].
    + intros [= <-]. cbn. split; [lia|]. intros fr Hk. destruct (E6 _ _ Hk). lia.
    + intros Hx. destruct (H3 _ _ Hx). split; [|done]. pose proof (E7 _ _ Hx). lia.
  - intros x y dl dl'. destruct (decide (d = x)) as [->|]; [rewrite lookup_insert|rewrite lookup_insert_ne by done];
      (destruct (decide (x = y)) as [->|]; [done|]).
    + rewrite lookup_insert_ne by done. intros [= <-] Hy. cbn. pose proof (E7 _ _ Hy). lia.
    + intros Hx. destruct (decide (d = y)) as [->|]; [rewrite lookup_insert|rewrite lookup_insert_ne by done].
      * intros [= <-]. cbn. pose proof (E7 _ _ Hx). lia.
      * intros Hy. by eapply H4.
  - by rewrite E4.
Qed.
Lemma F1K_panic b f : F1K (panic_if b f) <-> F1K f.
Proof. split; intros [? ? ? ? ?]; by split. Qed.
Lemma F1K_remove f d : F1K f -> F1K (fst (f1_remove f d)).
Proof.
  intros HK. unfold f1_remove. destruct (f_delegators f !! d) as [dl|] eqn:Ed; [|done].
  set (f0 := panic_if _ f). assert (HK0 : F1K f0) by by apply F1K_panic.
  assert (Ed0 : f_delegators f0 !! d = Some dl) by done. clearbody f0. clear HK Ed f. rename f0 into f, HK0 into HK, Ed0 into Ed.
  generalize (f1_current f d). intros bal. destruct (f1_start_new_period f (get_dd f)) as [f' dd'] eqn:E.
  destruct (period_FK _ _ _ _ HK E) as (E1 & E2 & E3 & E4 & E5 & E6 & E7). destruct HK as [H1 H2 H3 H4 H5].
  destruct (H3 _ _ Ed) as [Hk1 Hk2].
  match goal with |- F1K (fst (set_data ?x _, _)) => set (f4 := x) end.
  assert (G1 : f_slashes f4 = f_slashes f /\ f_delegators f4 = delete d (f_delegators f)).
  { subst f4. destruct (_ =? 0); cbn; by rewrite E1, E2. }
  assert (G2 : forall k, k <> d_k dl -> k <> dd_latest dd' -> f_entries f4 !! k = f_entries f' !! k).
  { intros k Hk Hk'. subst f4. destruct (_ =? 0); cbn; rewrite ?lookup_delete_ne by done; done. }
  clearbody f4. destruct G1 as [G1 G3]. unfold F1K, get_dd. cbn. split; cbn; rewrite ?G1, ?G3; try done.
  - intros k fr Hk. destruct (E6 _ _ Hk). split; [|lia]. rewrite G2; [done| |lia]. intros ->. by apply (Hk2 fr).
  - intros x dx. rewrite lookup_delete_Some. intros [_ Hx]. destruct (H3 _ _ Hx). split; [|done]. pose proof (E7 _ _ Hx). lia.
  - intros x y dx dy. rewrite !lookup_delete_Some. intros [_ Hx] [_ Hy]. by eapply H4.
  - intros _ fr Hk. destruct (E6 _ _ Hk). lia.
Qed.
Lemma F1K_slash f fr : F1K f -> F1K (fst (f1_slash f fr)).
Proof.
  intros HK. unfold f1_slash. destruct (f1_start_new_period f (get_dd f)) as [f' dd'] eqn:E.
  destruct (period_FK _ _ _ _ HK E) as (E1 & E2 & E3 & E4 & E5 & E6 & E7). destruct HK as [H1 H2 H3 H4 H5].
  assert (Hs : kv_set (dd_latest dd') fr (f_slashes f') = f_slashes f ++ [(dd_latest dd', fr)]).
  { rewrite E1. apply kv_set_append. apply Forall_forall. intros [k x] Hk. by destruct (E6 _ _ Hk). }
  unfold F1K, get_dd. cbn. split; cbn; rewrite ?Hs, ?E2; try done.
  - intros k x. rewrite elem_of_app, elem_of_list_singleton. intros [Hk|[= -> ->]]; [|by split; [|lia]].
    destruct (E6 _ _ Hk). split; [done|lia].
  - rewrite map_app. cbn.
    assert (Hl : forall k, k ∈ map fst (f_slashes f) -> (k < dd_latest dd')%N).
    { intros k. rewrite elem_of_list_fmap. intros ([k' x] & -> & Hk). by destruct (E6 _ _ Hk). }
    revert H2 Hl. generalize (map fst (f_slashes f)). clear. intros l H Hl. induction l as [|a l IH]; cbn; [by repeat constructor|].
    inversion H; subst. constructor; [apply IH; [done|]|].
    + intros k Hk. apply Hl. by right.
    + apply Forall_app. split; [done|]. constructor; [|done]. apply Hl. by left.
  - intros d dl Hd. destruct (H3 _ _ Hd) as [_ Hk]. pose proof (E7 _ _ Hd). split; [lia|].
    intros x. rewrite elem_of_app, elem_of_list_singleton. intros [|[= ? ?]]; [by eapply Hk|lia].
  - by rewrite E4.
Qed.
Lemma F1K_withdraw f d : F1K f -> F1K (fst (f1_withdraw f d)).
Proof.
  intros HK. unfold f1_withdraw. destruct (f_delegators f !! d) as [dl|] eqn:Ed; [|done].
  set (f0 := panic_if _ f). assert (HK0 : F1K f0) by by apply F1K_panic.
  assert (Ed0 : f_delegators f0 !! d = Some dl) by done. clearbody f0. clear HK Ed f. rename f0 into f, HK0 into HK, Ed0 into Ed.
  destruct (f1_start_new_period f (get_dd f)) as [f' dd'] eqn:E.
  destruct (period_FK _ _ _ _ HK E) as (E1 & E2 & E3 & E4 & E5 & E6 & E7). destruct HK as [H1 H2 H3 H4 H5].
  destruct (H3 _ _ Ed) as [Hk1 Hk2]. destruct (f1_sum_rewards _ _) as [r bad].
  match goal with |- F1K (fst (set_delegators ?x _, _)) => set (f4 := x) end. generalize (f1_current f4 d). intros cur.
  assert (G : f_slashes f4 = f_slashes f /\ f_delegators f4 = f_delegators f /\ f_data f4 = Some dd' /\ f_entries f4 = delete (d_k dl) (f_entries f')).
  { subst f4. cbn. by rewrite E1, E2. }
  clearbody f4. destruct G as (G1 & G2 & G3 & G4). unfold F1K, get_dd. cbn. rewrite G3. split; cbn; rewrite ?G1, ?G2, ?G4; try done.
  - intros k fr Hk. destruct (E6 _ _ Hk). split; [|lia]. rewrite lookup_delete_ne; [done|]. intros <-. by apply (Hk2 fr).
  - intros x dx. destruct (decide (d = x)) as [->|]; [rewrite lookup_insert|rewrite lookup_insert_ne by done].
    + intros [= <-]. cbn. split; [lia|]. intros fr Hk. destruct (E6 _ _ Hk). lia.
    + intros Hx. destruct (H3 _ _ Hx). split; [|done]. pose proof (E7 _ _ Hx). lia.
  - intros x y dx dy. destruct (decide (d = x)) as [->|]; [rewrite lookup_insert|rewrite lookup_insert_ne by done];
      (destruct (decide (x = y)) as [->|]; [done|]).
    + rewrite lookup_insert_ne by done. intros [= <-] Hy. cbn. pose proof (E7 _ _ Hy). lia.
    + intros Hx. destruct (decide (d = y)) as [->|]; [rewrite lookup_insert|rewrite lookup_insert_ne by done].
      * intros [= <-]. cbn. pose proof (E7 _ _ Hx). lia.
      * intros Hy. by eapply H4.
  - by rewrite E4.
Qed.
Lemma F1K_rewards f c : F1K f -> F1K (f1_add_rewards f c).
Proof.
  intros [H1 H2 H3 H4 H5]. unfold f1_add_rewards. destruct (f_data f) as [dd|] eqn:E; [|by split].
  unfold get_dd in *. rewrite E in *. by split; cbn.
Qed.

(** ** x/delegation *)
Definition DF (st : dstate) : Prop := forall s, F1K (getf st s).
Lemma getf_set st s f t : getf (setf st s f) t = if decide (s = t) then f else getf st t.
Proof. unfold getf, setf. cbn. destruct (decide (s = t)) as [->|]; [by rewrite lookup_insert|by rewrite lookup_insert_ne]. Qed.
Lemma DF_setf st s f : DF st -> F1K f -> DF (setf st s f).
Proof. intros H Hf t. rewrite getf_set. destruct (decide _); [done|]. apply H. Qed.
Lemma DF_same st st' : DF st -> ds_f1 st' = ds_f1 st -> DF st'.
Proof. intros H E s. unfold getf. rewrite E. apply H. Qed.
Lemma DF_pay st d c st' : DF st -> pay_user st d c = Some st' -> DF st'.
Proof. intros H. unfold pay_user. destruct (send _ _ _ _); [|done]. intros [= <-]. exact H. Qed.
Lemma DF_withdrawal st s d : DF st -> DF (fst (perform_withdrawal st s d)).
Proof.
  intros H. unfold perform_withdrawal. pose proof (F1K_withdraw _ d (H s)) as Hf. destruct (f1_withdraw (getf st s) d) as [f r]. cbn [fst] in Hf.
  set (st1 := if bool_decide _ then _ else _). assert (H1 : DF st1) by (unfold st1; case_bool_decide; [by apply DF_setf|done]).
  destruct (pay_user st1 d r) as [st2|] eqn:E; cbn [fst]; [|done]. by eapply DF_pay.
Qed.
Lemma DF_delegation st s d a : DF st -> DF (perform_delegation st s d a).
Proof.
  intros H. unfold perform_delegation. set (st0 := remove_index st s). assert (H0 : DF st0) by exact H.
  set (st1 := if bool_decide _ then _ else _). cut (DF st1); [done|]. unfold st1. case_bool_decide.
  - pose proof (DF_withdrawal st0 s d H0) as Hw. destruct (perform_withdrawal st0 s d) as [sw err]. cbn [fst] in Hw.
    set (sw' := with_halt sw _). assert (Hw' : DF sw') by exact Hw.
    pose proof (F1K_remove _ d (Hw' s)) as Hr. destruct (f1_remove (getf sw' s) d) as [f und]. cbn [fst] in Hr.
    assert (Hs : DF (setf sw' s f)) by by apply DF_setf. apply DF_setf; [done|]. apply F1K_create. apply Hs.
  - apply DF_setf; [done|]. apply F1K_create. apply H0.
Qed.
Lemma DF_undelegation st s d a : DF st -> DF (fst (perform_undelegation st s d a)).
Proof.
  intros H. unfold perform_undelegation. set (st0 := remove_index st s). assert (H0 : DF st0) by exact H.
  pose proof (DF_withdrawal st0 s d H0) as Hw. destruct (perform_withdrawal st0 s d) as [sw err]. cbn [fst] in Hw.
  set (sw' := with_halt sw _). assert (Hw' : DF sw') by exact Hw.
  pose proof (F1K_remove _ d (Hw' s)) as Hr. destruct (f1_remove (getf sw' s) d) as [f und]. cbn [fst] in Hr.
  assert (Hs : DF (setf sw' s f)) by by apply DF_setf. cbn [fst].
  destruct (und >? a); [|done]. assert (G : DF (setf (setf sw' s f) s (f1_create (getf (setf sw' s f) s) d (u64_sub und a)))); [|exact G].
  apply DF_setf; [done|]. apply F1K_create. apply Hs.
Qed.
(** Those functions leave the queue and the cooldowns alone. *)
Definition dcq (st : dstate) := (ds_queue st, ds_low st, ds_high st, ds_cool st).
Lemma dcq_withdrawal st s d : dcq (fst (perform_withdrawal st s d)) = dcq st.
Proof. unfold perform_withdrawal, pay_user. repeat case_match; simplify_eq; done. Qed.
Lemma dcq_delegation st s d a : dcq (perform_delegation st s d a) = dcq st.
Proof.
  unfold perform_delegation. case_bool_decide; [|done]. pose proof (dcq_withdrawal (remove_index st s) s d) as Hw.
  destruct (perform_withdrawal _ _ _) as [sw err]. cbn [fst] in Hw. destruct (f1_remove _ _) as [f und]. exact Hw.
Qed.
Lemma dcq_undelegation st s d a : dcq (fst (perform_undelegation st s d a)) = dcq st.
Proof.
  unfold perform_undelegation. pose proof (dcq_withdrawal (remove_index st s) s d) as Hw.
  destruct (perform_withdrawal _ _ _) as [sw err]. cbn [fst] in Hw. destruct (f1_remove _ _) as [f und]. cbn [fst].
  destruct (und >? a); exact Hw.
Qed.

Record DK (st : dstate) : Prop := mkDK {
  dk_f : DF st;
  dk_queue : forall i, is_Some (ds_queue st !! i) -> (ds_low st < i <= ds_high st)%N;
  dk_low : (ds_low st <= ds_high st)%N;
  dk_cool : forall a l, ds_cool st !! a = Some l -> StronglySorted Z.lt l
}.
Lemma DK_same st st' : DK st -> DF st' -> dcq st' = dcq st -> DK st'.
Proof. intros [H1 H2 H3 H4] H. unfold dcq. intros [= E1 E2 E3 E4]. split; [done| | |]; rewrite ?E1, ?E2, ?E3, ?E4; done. Qed.

Lemma process_loop_DK fuel : forall st low, DK (with_queue st low (ds_high st) (ds_queue st)) ->
  let r := process_loop fuel st low in
  DK (with_queue (fst (fst r)) (snd (fst r)) (ds_high (fst (fst r))) (ds_queue (fst (fst r)))).
Proof.
  induction fuel as [|fuel IH]; intros st low H; [exact H|]. cbn [process_loop].
  destruct (ds_queue st !! (low + 1)%N) as [e|] eqn:E.
  - destruct (due st e); [|exact H]. destruct (process_one st low e) as [st3 paid] eqn:Ep.
    assert (H3 : DK (with_queue st3 (low + 1) (ds_high st3) (ds_queue st3))).
    { unfold process_one in Ep. assert (H0 : DF st) by exact (dk_f _ H).
      pose proof (DF_undelegation st (u_staker e) (u_delegator e) (u_amount e) H0) as Hu1.
      pose proof (dcq_undelegation st (u_staker e) (u_delegator e) (u_amount e)) as Hu2.
      destruct (perform_undelegation _ _ _ _) as [st1 x]. cbn [fst] in Hu1, Hu2. unfold dcq in Hu2. injection Hu2 as Q1 Q2 Q3 Q4.
      set (st2 := match pay_user _ _ _ with Some _ => _ | None => _ end) in Ep.
      assert (H2 : ds_f1 st2 = ds_f1 st1 /\ ds_queue st2 = ds_queue st1 /\ ds_high st2 = ds_high st1 /\ ds_cool st2 = ds_cool st1).
      { unfold st2, pay_user. by destruct (send _ _ _ _). }
      clearbody st2. destruct H2 as (F1 & F2 & F3 & F4). injection Ep as <- <-.
      destruct (dk_queue _ H (low + 1)%N) as [? Hh]; [cbn; by rewrite E|]. cbn in Hh. split; cbn.
      - intros s. unfold getf. cbn. rewrite F1. apply Hu1.
      - intros i. rewrite F2, F3, Q1, Q3. rewrite lookup_delete_is_Some. intros [Hi Hs].
        destruct (dk_queue _ H i Hs) as [G1 G2]. cbn in G1, G2. lia.
      - rewrite F3, Q3. lia.
      - rewrite F4, Q4. apply (dk_cool _ H). }
    specialize (IH st3 (low + 1)%N H3). destruct (process_loop fuel st3 (low + 1)%N) as [[st4 low'] out]. exact IH.
  - destruct (low <? ds_high st)%N eqn:El; [|exact H]. apply IH. split; cbn; [apply (dk_f _ H)| |lia|apply (dk_cool _ H)].
    intros i Hi. destruct (dk_queue _ H i Hi) as [G1 G2]. cbn in G1, G2. assert (i <> low + 1)%N; [|lia]. intros ->. rewrite E in Hi. by destruct Hi.
Qed.

Lemma drop_sorted now c l : StronglySorted Z.lt l -> StronglySorted Z.lt (drop_expired now c l).
Proof. induction l as [|x l IH]; cbn; [done|]. intros H. inversion H; subst. destruct (_ >? _); [by apply IH|done]. Qed.
Lemma insert_date_elem x l y : y ∈ insert_date x l <-> y = x \/ y ∈ l.
Proof.
  induction l as [|c t IH]; cbn; [set_solver|]. destruct (x <? c); [set_solver|]. destruct (x =? c) eqn:E; [|set_solver].
  apply Z.eqb_eq in E as ->. set_solver.
Qed.
Lemma insert_date_sorted x l : StronglySorted Z.lt l -> StronglySorted Z.lt (insert_date x l).
Proof.
  induction l as [|c t IH]; cbn; intros H; [by repeat constructor|]. inversion H as [|? ? Ht Hc]; subst.
  destruct (x <? c) eqn:E1.
  - constructor; [done|]. constructor; [lia|]. eapply Forall_impl; [exact Hc|]. cbn. lia.
  - destruct (x =? c) eqn:E2; [done|]. constructor; [by apply IH|]. apply Forall_forall. intros y. rewrite insert_date_elem.
    intros [->|Hy]; [lia|]. by eapply Forall_forall in Hc.
Qed.

Lemma DK_step st o : DK st -> DK (dstep st o).
Proof.
  intros H. pose proof (dk_f _ H) as HF. destruct o; cbn [dstep].
  - unfold msg_delegate. destruct (negb _); [done|]. cbv zeta. destruct (send _ _ _ _); [|done].
    apply (DK_same st); [done|exact (DF_delegation st s d amount HF)|exact (dcq_delegation st s d amount)].
  - unfold msg_undelegate. destruct (_ >? _); [done|]. cbn. pose proof (dk_low _ H). split; cbn; [exact HF| |lia|apply (dk_cool _ H)].
    intros i. destruct (decide (i = ds_high st + 1)%N) as [->|Hne]; [lia|].
    rewrite lookup_insert_ne by done. intros Hi. destruct (dk_queue _ H i Hi). lia.
  - unfold msg_redelegate. repeat (destruct (negb _); [done|]). destruct (_ >? _); [done|].
    destruct (consume_spell _ _ _) as [l|] eqn:E; [|done]. set (st1 := with_cool _ _).
    assert (H1 : DK st1).
    { split; cbn; [exact HF|apply (dk_queue _ H)|apply (dk_low _ H)|]. intros a l'.
      destruct (decide (d = a)) as [->|]; [rewrite lookup_insert|rewrite lookup_insert_ne by done; apply (dk_cool _ H)]. intros [= <-].
      unfold consume_spell in E. destruct (_ >=? _); [done|]. destruct (bool_decide _); [done|]. injection E as <-.
      apply insert_date_sorted, drop_sorted. destruct (ds_cool st !! a) eqn:Ea; [by apply (dk_cool _ H) in Ea|constructor]. }
    pose proof (DF_undelegation st1 from d amount (dk_f _ H1)) as U1. pose proof (dcq_undelegation st1 from d amount) as U2.
    destruct (perform_undelegation _ _ _ _) as [st2 actual]. cbn [fst] in U1, U2. destruct (negb _); [done|].
    apply (DK_same st1); [done|exact (DF_delegation st2 to d amount U1)|]. cbn. by rewrite dcq_delegation.
  - unfold msg_withdraw. destruct (negb _); [done|]. pose proof (DF_withdrawal st s d HF) as W1. pose proof (dcq_withdrawal st s d) as W2.
    destruct (perform_withdrawal st s d) as [st1 [r|]]; [|done]. by apply (DK_same st).
  - unfold payout_rewards. destruct (cempty c); [done|]. destruct (f_data _); [|done]. cbv zeta. destruct (send _ _ _ _); [|done].
    apply (DK_same st); [done| |done]. apply (DF_same (setf st s (f1_add_rewards (getf st s) c))); [|done]. apply DF_setf; [done|]. apply F1K_rewards, HF.
  - unfold slash_delegators. destruct (f_data _); [|done]. cbv zeta.
    pose proof (F1K_slash (getf (remove_index st s) s) (slash_fraction (ds_params (remove_index st s)) t) (HF s)) as Hs.
    destruct (f1_slash _ _) as [f x]. cbn [fst] in Hs |- *.
    set (st2 := match send _ _ _ _ with Some _ => _ | None => _ end).
    assert (E : ds_f1 st2 = ds_f1 (setf st s f) /\ dcq st2 = dcq st) by (unfold st2; by destruct (send _ _ _ _)).
    destruct E as [E1 E2]. apply (DK_same st); [done| |done]. apply (DF_same (setf st s f)); [|done]. by apply DF_setf.
  - unfold process_queue. pose proof (process_loop_DK (queue_fuel (with_time st (ds_time st + dt))) (with_time st (ds_time st + dt)) (ds_low st)) as L.
    cbv zeta in L. cbn [ds_low with_time]. destruct (process_loop _ _ _) as [[st1 low] out]. apply L.
    apply (DK_same st); [done|exact HF|done].
  - by apply (DK_same st).
  - by apply (DK_same st).
Qed.
Lemma DK_init b p t : DK (dinit b p t).
Proof.
  split; cbn; [|intros i; rewrite lookup_empty; by intros [? ?]|done|intros a l; by rewrite lookup_empty].
  intros s. unfold getf. cbn. rewrite lookup_empty. apply F1K_empty.
Qed.
Lemma DK_run ops st : DK st -> DK (drun st ops).
Proof. revert st. induction ops as [|o ops IH]; intros st H; [done|]. apply IH. by apply DK_step. Qed.
Lemma dparams_run ops st : ops_ok st ops -> dparams_valid (ds_params st) = true -> dparams_valid (ds_params (drun st ops)) = true.
Proof.
  revert st. induction ops as [|o ops IH]; intros st Hok H; [done|]. destruct Hok as [H1 H2]. apply IH; [done|].
  destruct (match o with OParams p => Some p | _ => None end) as [p|] eqn:E.
  - destruct o; done.
  - assert (Hn : no_params o) by by destruct o. by rewrite (params_kept st o Hn).
Qed.

(** ** x/stakers *)
Record SK (st : sstate) : Prop := mkSK {
  sk_centry : forall i e, ss_centries st !! i = Some e -> (ss_clow st < i <= ss_chigh st)%N /\ ss_cindex st !! ce_staker e = Some i;
  sk_cindex : forall s i, ss_cindex st !! s = Some i -> exists e, ss_centries st !! i = Some e /\ ce_staker e = s;
  sk_clow : (ss_clow st <= ss_chigh st)%N;
  sk_lentry : forall i e, ss_lentries st !! i = Some e -> (ss_llow st < i <= ss_lhigh st)%N /\ (le_staker e, le_pool e) ∈ ss_lindex st;
  sk_lindex : forall s p, (s, p) ∈ ss_lindex st -> exists i e, ss_lentries st !! i = Some e /\ le_staker e = s /\ le_pool e = p;
  sk_luniq : forall i j ei ej, ss_lentries st !! i = Some ei -> ss_lentries st !! j = Some ej ->
    le_staker ei = le_staker ej -> le_pool ei = le_pool ej -> i = j;
  sk_llow : (ss_llow st <= ss_lhigh st)%N;
  (* a member that is leaving has an entry *)
  sk_leaving : forall p s v, get_val st p s = Some v -> vl_leaving v = true -> (s, p) ∈ ss_lindex st
}.
Definition scq (st : sstate) := (ss_centries st, ss_cindex st, ss_clow st, ss_chigh st).
Definition slq (st : sstate) := (ss_lentries st, ss_lindex st, ss_llow st, ss_lhigh st).
Lemma SK_same st st' : SK st -> scq st' = scq st -> slq st' = slq st ->
  (forall p s v, get_val st' p s = Some v -> vl_leaving v = true -> exists v', get_val st p s = Some v' /\ vl_leaving v' = true) -> SK st'.
Proof.
  intros [H1 H2 H3 H4 H5 H6 H7 H8]. unfold scq, slq. intros [= A1 A2 A3 A4] [= B1 B2 B3 B4] HV.
  split; rewrite ?A1, ?A2, ?A3, ?A4, ?B1, ?B2, ?B3, ?B4; try done.
  intros p s v Hv Hl. destruct (HV _ _ _ Hv Hl) as (v' & Hv' & Hl'). by eapply H8.
Qed.
Lemma SK_vals st st' : SK st -> scq st' = scq st -> slq st' = slq st -> ss_val st' = ss_val st -> SK st'.
Proof. intros H E1 E2 E3. apply (SK_same st); try done. intros p s v. unfold get_val, vals_of. rewrite E3. eauto. Qed.
Lemma SK_leave st s p : SK st -> SK (leave_pool st s p).
Proof.
  intros H. destruct (leave_frame st s p) as (E0 & E1 & E2 & E3 & E4 & E5 & E6 & E7 & E8 & _).
  apply (SK_same st); [done|unfold scq; congruence|unfold slq; congruence|].
  intros q t v. rewrite get_leave. destruct (decide _); [done|]. eauto.
Qed.
Lemma SK_set st p s v v' : SK st -> get_val st p s = Some v -> vl_leaving v' = vl_leaving v -> SK (set_val st p s v').
Proof.
  intros H E El. apply (SK_same st); try done. intros q t w. rewrite get_set_val. destruct (decide _) as [[<- <-]|]; [|eauto].
  intros [= <-]. rewrite El. eauto.
Qed.
Lemma SK_add st p s v : SK st -> SK (add_val st p s v).
Proof.
  intros H. unfold add_val. destruct (ss_stakers st !! s); [|done]. destruct (get_val st p s) eqn:E; [done|].
  apply (SK_same st); try done. intros q t w.
  change (get_val (with_counts (set_val st p s (mkVal v 0 false)) ?c ?a) q t) with (get_val (set_val st p s (mkVal v 0 false)) q t).
  rewrite get_set_val. destruct (decide _); [|eauto]. intros [= <-]. done.
Qed.
Lemma SK_remove_centry st i e : SK st -> ss_centries st !! i = Some e -> SK (remove_centry st i e).
Proof.
  intros [H1 H2 H3 H4 H5 H6 H7 H8] E. unfold remove_centry. split; cbn; try done.
  - intros j e' Hj. apply lookup_delete_Some in Hj as [Hne Hj]. destruct (H1 _ _ Hj) as [Hr Hi]. split; [done|].
    rewrite lookup_delete_ne; [done|]. intros He. destruct (H1 _ _ E) as [_ Hi']. rewrite He in Hi'. congruence.
  - intros s j Hj. apply lookup_delete_Some in Hj as [Hne Hj]. destruct (H2 _ _ Hj) as (e' & He' & <-). exists e'. split; [|done].
    rewrite lookup_delete_ne; [done|]. intros <-. congruence.
Qed.
Lemma SK_order st s c : SK st -> SK (order_commission st s c).
Proof.
  intros H. unfold order_commission.
  set (st1 := match ss_cindex st !! s with Some _ => _ | None => _ end).
  assert (H1 : SK st1 /\ ss_cindex st1 !! s = None).
  { unfold st1. destruct (ss_cindex st !! s) as [i|] eqn:E; [|done]. destruct (sk_cindex _ H _ _ E) as (e & He & <-). rewrite He.
    split; [by apply SK_remove_centry|]. cbn. by rewrite lookup_delete. }
  clearbody st1. destruct H1 as [[H1 H2 H3 H4 H5 H6 H7 H8] Hn]. split; cbn; try done.
  - intros i e. destruct (decide (ss_chigh st1 + 1 = i)%N) as [<-|Hne]; [rewrite lookup_insert|rewrite lookup_insert_ne by done].
    + intros [= <-]. cbn. rewrite lookup_insert. split; [lia|done].
    + intros Hi. destruct (H1 _ _ Hi) as [Hr Hx]. split; [lia|]. rewrite lookup_insert_ne; [done|]. intros Hq. congruence.
  - intros t i. destruct (decide (s = t)) as [->|Hne]; [rewrite lookup_insert|rewrite lookup_insert_ne by done].
    + intros [= <-]. rewrite lookup_insert. eauto.
    + intros Hi. destruct (H2 _ _ Hi) as (e & He & <-). exists e. split; [|done]. destruct (H1 _ _ He). rewrite lookup_insert_ne; [done|lia].
  - lia.
Qed.
Lemma SK_ensure st del p s st' : SK st -> ensure_slot st del p s = Some st' -> SK st'.
Proof. intros H E. destruct (ensure_frame _ _ _ _ _ E) as (l & [->| ->]); [done|]. by apply SK_leave. Qed.
Lemma SK_msg_leave st s p st' : SK st -> msg_leave st s p = Some st' -> SK st'.
Proof.
  intros H. unfold msg_leave. destruct (get_val st p s) as [v|] eqn:E; [|done]. cbv zeta.
  case_bool_decide as Hin; [done|]. intros [= <-]. destruct H as [H1 H2 H3 H4 H5 H6 H7 H8]. cbn in Hin. split; cbn; try done.
  - intros i e. destruct (decide (ss_lhigh st + 1 = i)%N) as [<-|Hne]; [rewrite lookup_insert|rewrite lookup_insert_ne by done].
    + intros [= <-]. cbn. split; [lia|set_solver].
    + intros Hi. destruct (H4 _ _ Hi). split; [lia|set_solver].
  - intros t q. rewrite elem_of_union, elem_of_singleton. intros [[= -> ->]|Hx].
    + exists (ss_lhigh st + 1)%N. rewrite lookup_insert. eauto.
    + destruct (H5 _ _ Hx) as (i & e & Hi & Hs). exists i, e. destruct (H4 _ _ Hi). rewrite lookup_insert_ne by lia. done.
  - assert (Hnew : forall i e, ss_lentries st !! i = Some e -> le_staker e = s -> le_pool e = p -> False).
    { intros i e Hi <- <-. by destruct (H4 _ _ Hi). }
    intros i j ei ej. destruct (decide (ss_lhigh st + 1 = i)%N) as [<-|Hi]; [rewrite lookup_insert|rewrite lookup_insert_ne by done];
      (destruct (decide (ss_lhigh st + 1 = j)%N) as [<-|Hj]; [rewrite lookup_insert|rewrite lookup_insert_ne by done]); try done.
    + intros [= <-] Hj'. cbn. intros. exfalso. by eapply Hnew.
    + intros Hi' [= <-]. cbn. intros. exfalso. by eapply Hnew.
    + apply H6.
  - lia.
  - intros q t w. change (get_val (with_lq ?x _ _ _ _) q t) with (get_val x q t). rewrite get_set_val.
    destruct (decide _) as [[<- <-]|]; [set_solver|]. intros Hw Hl. apply H8 in Hw; [set_solver|done].
Qed.

(** The loops over the queues move the lower end. *)
Lemma cloop_SK high fuel : forall st low, high = ss_chigh st -> SK (with_cq st (ss_centries st) (ss_cindex st) low (ss_chigh st)) ->
  let r := queue_loop process_centry high fuel st low in
  SK (with_cq (fst r) (ss_centries (fst r)) (ss_cindex (fst r)) (snd r) (ss_chigh (fst r))).
Proof.
  induction fuel as [|fuel IH]; intros st low Eh H; [exact H|]. cbn [queue_loop].
  destruct (process_centry st (low + 1)%N) as [st1|] eqn:E; [|exact H].
  assert (H1 : ss_chigh st1 = high /\ SK (with_cq st1 (ss_centries st1) (ss_cindex st1) low (ss_chigh st1)) /\ ss_centries st1 !! (low + 1)%N = None).
  { unfold process_centry in E. destruct (ss_centries st !! (low + 1)%N) as [e|] eqn:Ee; [|by injection E as <-].
    destruct (_ <=? _); [|done]. injection E as <-.
    pose proof (SK_remove_centry _ (low + 1)%N e H Ee) as Hr.
    split_and!; [by case_match| |by case_match; apply lookup_delete].
    case_match; apply (SK_vals _ _ Hr); done. }
  destruct H1 as (E1 & H1 & En). destruct (low <? high)%N eqn:El; [|exact H1]. apply IH; [done|].
  destruct H1 as [A1 A2 A3 A4 A5 A6 A7 A8]. cbn in *. split; cbn; try done; [|lia].
  intros i e Hi. destruct (A1 _ _ Hi) as [Hr Hx]. split; [|done]. assert (i <> low + 1)%N; [|lia]. intros ->. congruence.
Qed.
Lemma process_commissions_SK st : SK st -> SK (process_commissions st).
Proof.
  intros H. unfold process_commissions.
  pose proof (cloop_SK (ss_chigh st) (S (N.to_nat (ss_chigh st - ss_clow st))) st (ss_clow st) eq_refl) as L. cbv zeta in L.
  destruct (queue_loop _ _ _ _ _) as [st1 low]. apply L. by apply (SK_vals st).
Qed.
Lemma lloop_SK high fuel : forall st low, high = ss_lhigh st -> SK (with_lq st (ss_lentries st) (ss_lindex st) low (ss_lhigh st)) ->
  let r := queue_loop process_lentry high fuel st low in
  SK (with_lq (fst r) (ss_lentries (fst r)) (ss_lindex (fst r)) (snd r) (ss_lhigh (fst r))).
Proof.
  induction fuel as [|fuel IH]; intros st low Eh H; [exact H|]. cbn [queue_loop].
  destruct (process_lentry st (low + 1)%N) as [st1|] eqn:E; [|exact H].
  assert (H1 : ss_lhigh st1 = high /\ SK (with_lq st1 (ss_lentries st1) (ss_lindex st1) low (ss_lhigh st1)) /\ ss_lentries st1 !! (low + 1)%N = None).
  { unfold process_lentry in E. destruct (ss_lentries st !! (low + 1)%N) as [e|] eqn:Ee; [|by injection E as <-].
    destruct (_ <=? _); [|done]. injection E as <-. set (st2 := with_lq st _ _ _ _).
    destruct (leave_frame st2 (le_staker e) (le_pool e)) as (E0 & E1 & E2 & E3 & E4 & E5 & E6 & E7 & E8 & _).
    rewrite E5, E6, E8. cbn. rewrite lookup_delete. split; [done|]. split; [|done].
    destruct H as [A1 A2 A3 A4 A5 A6 A7 A8]. cbn in *. split; cbn; rewrite ?E1, ?E2, ?E3, ?E4; cbn; try done.
    - intros i e' Hi. apply lookup_delete_Some in Hi as [Hne Hi]. destruct (A4 _ _ Hi) as [Hr Hx]. split; [done|].
      apply elem_of_difference. split; [done|]. rewrite elem_of_singleton. intros [= Hs Hp]. apply Hne. by eapply A6.
    - intros t q. rewrite elem_of_difference, elem_of_singleton. intros [Hx Hne]. destruct (A5 _ _ Hx) as (i & e' & Hi & <- & <-).
      exists i, e'. split; [|done]. rewrite lookup_delete_ne; [done|]. intros <-. apply Hne. congruence.
    - intros i j ei ej Hi Hj. apply lookup_delete_Some in Hi as [_ Hi]. apply lookup_delete_Some in Hj as [_ Hj]. by eapply A6.
    - intros q t w. change (get_val (with_lq ?x _ _ _ _) q t) with (get_val x q t). rewrite get_leave. destruct (decide _) as [|Hne]; [done|].
      change (get_val st2 q t) with (get_val st q t). intros Hw Hl. apply elem_of_difference. split; [by eapply A8|].
      rewrite elem_of_singleton. intros [= -> ->]. by apply Hne. }
  destruct H1 as (E1 & H1 & En). destruct (low <? high)%N eqn:El; [|exact H1]. apply IH; [done|].
  destruct H1 as [A1 A2 A3 A4 A5 A6 A7 A8]. cbn in *. split; cbn; try done; [|lia].
  intros i e Hi. destruct (A4 _ _ Hi) as [Hr Hx]. split; [|done]. assert (i <> low + 1)%N; [|lia]. intros ->. congruence.
Qed.
Lemma process_leaves_SK st : SK st -> SK (process_leaves st).
Proof.
  intros H. unfold process_leaves.
  pose proof (lloop_SK (ss_lhigh st) (S (N.to_nat (ss_lhigh st - ss_llow st))) st (ss_llow st) eq_refl) as L. cbv zeta in L.
  destruct (queue_loop _ _ _ _ _) as [st1 low]. apply L. by apply (SK_vals st).
Qed.
Lemma SK_step st o : SK st -> SK (sstep st o).
Proof.
  intros H. destruct o; cbn [sstep]; try (by apply (SK_vals st)).
  - unfold msg_create_staker. destruct (ss_stakers st !! s); [done|]. destruct delegates; [|done]. by apply (SK_vals st).
  - unfold msg_update_commission. destruct (ss_stakers st !! s); [|done]. by apply SK_order.
  - unfold msg_claim_commission. destruct (ss_stakers st !! s); [|done]. destruct (negb _); [done|]. destruct (send _ _ _ _); [|done]. by apply (SK_vals st).
  - unfold msg_join. destruct pool as [[]|]; try done. destruct (ss_stakers st !! s); [|done]. destruct (_ =? _)%N; [done|].
    destruct (get_val st p s); [done|]. destruct (ensure_slot st del p s) as [st1|] eqn:E; [|done]. destruct (existsb _ _); [done|].
    destruct (existsb _ _); [done|]. cbv zeta. destruct (pay_kyve _ _ _ _); [|done]. apply (SK_vals (add_val st1 p s v)); [|done..].
    apply SK_add. by eapply SK_ensure.
  - destruct (msg_leave st s p) eqn:E; [|done]. by eapply SK_msg_leave.
  - by apply SK_leave.
  - unfold increase_commission_rewards. destruct (cempty _); [done|]. destruct (ss_stakers st !! s); [|done]. destruct (send _ _ _ _); [|done]. by apply (SK_vals st).
  - unfold increment_points. destruct (get_val st p s) eqn:E; [|done]. by eapply SK_set.
  - unfold reset_points. destruct (get_val st p s) eqn:E; [|done]. by eapply SK_set.
  - apply process_leaves_SK, process_commissions_SK. by apply (SK_vals st).
Qed.
Lemma SK_init b t c l : SK (sinit b t c l).
Proof. split; cbn; intros *; rewrite ?lookup_empty; try done. Qed.
Lemma SK_run ops st : SK st -> SK (srun st ops).
Proof. revert st. induction ops as [|o ops IH]; intros st H; [done|]. apply IH. by apply SK_step. Qed.
