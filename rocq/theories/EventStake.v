(** * Following the stake of every staker. *)
From Verif Require Import Base BaseFacts Delegation DelegationInv Stakers StakersInv Funders Team RoundRobin Pool PoolFrame Bundles Chain ChainFrame ChainLift Walk ArchiveInv PaySafe PayFlow IndexInv Events EventWalk EventFollow EventStakers.

(** Delegations in, undelegations and slashes out; a redelegation moves. *)
Definition see_stake (v : N -> Z) (e : event) : N -> Z :=
  match e with
  | EvDelegate _ s a => fun t => v t + (if (t =? s)%N then a else 0)
  | EvUndelegate _ s a => fun t => v t - (if (t =? s)%N then a else 0)
  | EvRedelegate _ from to a => fun t => v t - (if (t =? from)%N then a else 0) + (if (t =? to)%N then a else 0)
  | EvSlash _ s a _ => fun t => v t - (if (t =? s)%N then a else 0)
  | _ => v
  end.

(** ** Equality in uint64 *)
Definition eq64 (a b : Z) : Prop := exists k, a = b + k * two64.
Lemma eq64_refl a : eq64 a a. Proof. exists 0. lia. Qed.
Lemma eq64_w a b : eq64 a b -> w64 a = w64 b.
Proof. intros [k ->]. unfold w64. by rewrite Z.mod_add. Qed.
Lemma u64_sub_eq a b : eq64 (u64_sub a b) (a - b).
Proof. unfold u64_sub. destruct (b <=? a); [apply eq64_refl|]. unfold w64. exists (- ((a - b) / two64)). pose proof (Z.div_mod (a - b) two64 ltac:(done)). lia. Qed.
Lemma eq64_trans a b c : eq64 a b -> eq64 b c -> eq64 a c. Proof. intros [k ->] [l ->]. exists (k + l). lia. Qed.
Lemma eq64_add a b x y : eq64 a b -> eq64 x y -> eq64 (a + x) (b + y). Proof. intros [k ->] [l ->]. exists (k + l). lia. Qed.
Lemma eq64_sub a b x y : eq64 a b -> eq64 x y -> eq64 (a - x) (b - y). Proof. intros [k ->] [l ->]. exists (k - l). lia. Qed.
Lemma eq64_sym a b : eq64 a b -> eq64 b a. Proof. intros [k ->]. exists (- k). lia. Qed.
Lemma eq64_id a b : a = b -> eq64 a b. Proof. intros ->. apply eq64_refl. Qed.

(** ** The total of a staker *)
Lemma total_period f dd : let '(f', dd') := f1_start_new_period f dd in dd_total dd' = dd_total dd /\ f_data f' = f_data f.
Proof. unfold f1_start_new_period. cbv zeta. destruct (dd_undel dd); [|done]. by destruct (f_entries f !! _). Qed.
Lemma total_get f : f1_total f = dd_total (get_dd f). Proof. unfold f1_total, get_dd. by destruct (f_data f). Qed.
Lemma total_withdraw f d : f1_total (fst (f1_withdraw f d)) = f1_total f.
Proof.
  unfold f1_withdraw. destruct (f_delegators f !! d) as [dl|]; [|done]. cbv zeta. set (f0 := panic_if _ f). assert (H0 : f1_total f0 = f1_total f) by done. clearbody f0.
  pose proof (total_period f0 (get_dd f0)) as Hp. destruct (f1_start_new_period f0 (get_dd f0)) as [f2 dd1]. destruct (f1_sum_rewards _ _) as [rw bad].
  cbn [fst]. unfold f1_total at 1. cbn. rewrite (proj1 Hp), <- total_get. done.
Qed.
Lemma total_remove f d : eq64 (f1_total (fst (f1_remove f d))) (f1_total f - snd (f1_remove f d)).
Proof.
  unfold f1_remove. destruct (f_delegators f !! d) as [dl|]; [|cbn [fst snd]; apply eq64_id; lia]. cbv zeta. set (f0 := panic_if _ f). assert (H0 : f1_total f0 = f1_total f) by done. clearbody f0.
  pose proof (total_period f0 (get_dd f0)) as Hp. destruct (f1_start_new_period f0 (get_dd f0)) as [f2 dd1]. cbn [fst snd]. unfold f1_total at 1. cbn [f_data set_data dd_total].
  eapply eq64_trans; [apply u64_sub_eq|]. rewrite (proj1 Hp), <- total_get, H0. apply eq64_refl.
Qed.
Lemma total_create f d a : f1_total (f1_create f d a) = f1_total f + a.
Proof.
  unfold f1_create. destruct (Z.eqb_spec a 0) as [->|]; [lia|]. pose proof (total_period f (get_dd f)) as Hp. destruct (f1_start_new_period f (get_dd f)) as [f2 dd1]. cbv zeta.
  unfold f1_total at 1. cbn [f_data set_delegators set_data dd_total]. by rewrite (proj1 Hp), <- total_get.
Qed.
Lemma total_slash f fr : eq64 (f1_total (fst (f1_slash f fr))) (f1_total f - snd (f1_slash f fr)).
Proof.
  unfold f1_slash. pose proof (total_period f (get_dd f)) as Hp. destruct (f1_start_new_period f (get_dd f)) as [f2 dd1]. cbv zeta. cbn [fst snd]. unfold f1_total at 1. cbn [f_data set_data dd_total].
  eapply eq64_trans; [apply u64_sub_eq|]. rewrite (proj1 Hp), <- total_get. apply eq64_refl.
Qed.

(** ** The totals of the module *)
Definition tot (st : dstate) (s : N) : Z := delegation_amount st s.
Lemma tot_set st s f t : tot (setf st s f) t = if (t =? s)%N then f1_total f else tot st t.
Proof. unfold tot, delegation_amount. rewrite getf_setf. destruct (N.eqb_spec t s) as [->|Hn]; [by rewrite decide_True|by rewrite decide_False by done]. Qed.
Lemma tot_withdrawal st s d t : tot (fst (perform_withdrawal st s d)) t = tot st t.
Proof.
  unfold perform_withdrawal. pose proof (total_withdraw (getf st s) d) as Hw. destruct (f1_withdraw (getf st s) d) as [f rw]. cbn [fst] in Hw.
  set (st1 := if bool_decide _ then _ else _). assert (H1 : tot st1 t = tot st t).
  { unfold st1. destruct (bool_decide _); [|done]. rewrite tot_set. destruct (N.eqb_spec t s) as [->|]; [exact Hw|done]. }
  unfold pay_user. destruct (send _ _ _ _); exact H1.
Qed.
Lemma tot_delegation st s d a t : eq64 (tot (perform_delegation st s d a) t) (tot st t + if (t =? s)%N then a else 0).
Proof.
  unfold perform_delegation. cbv zeta. set (st0 := remove_index st s). change (tot st t) with (tot st0 t). clearbody st0.
  change (tot (set_index ?x s) t) with (tot x t). destruct (bool_decide _).
  - pose proof (tot_withdrawal st0 s d) as Hw. destruct (perform_withdrawal st0 s d) as [sw err]. cbn [fst] in Hw.
    set (sw1 := with_halt sw (failed err)). assert (Hw1 : forall t, tot sw1 t = tot st0 t) by (intros; exact (Hw _)). clearbody sw1.
    pose proof (total_remove (getf sw1 s) d) as Hr. destruct (f1_remove (getf sw1 s) d) as [f und]. cbn [fst snd] in Hr.
    rewrite !tot_set. destruct (N.eqb_spec t s) as [->|]; [|rewrite Hw1, Z.add_0_r; apply eq64_refl].
    rewrite total_create. change (f1_total (getf sw1 s)) with (tot sw1 s) in Hr. rewrite Hw1 in Hr.
    assert (Hg1 : f1_total (getf (setf sw1 s f) s) = f1_total f) by (rewrite getf_setf, decide_True by done; done). rewrite Hg1.
    destruct Hr as [k ->]. exists k. lia.
  - rewrite tot_set. destruct (N.eqb_spec t s) as [->|]; [|rewrite Z.add_0_r; apply eq64_refl]. rewrite total_create. apply eq64_refl.
Qed.
Lemma tot_undelegation st s d a t : let r := perform_undelegation st s d a in eq64 (tot (fst r) t) (tot st t - if (t =? s)%N then snd r else 0).
Proof.
  cbv zeta. unfold perform_undelegation. set (st0 := remove_index st s). change (tot st t) with (tot st0 t). clearbody st0.
  pose proof (tot_withdrawal st0 s d) as Hw. destruct (perform_withdrawal st0 s d) as [sw err]. cbn [fst] in Hw.
  set (sw1 := with_halt sw (failed err)). assert (Hw1 : forall t, tot sw1 t = tot st0 t) by (intros; exact (Hw _)). clearbody sw1.
  pose proof (total_remove (getf sw1 s) d) as Hr. destruct (f1_remove (getf sw1 s) d) as [f und]. cbn [fst snd] in Hr.
  change (f1_total (getf sw1 s)) with (tot sw1 s) in Hr. rewrite Hw1 in Hr. cbn [fst snd]. change (tot (set_index ?x s) t) with (tot x t).
  assert (Hg1 : f1_total (getf (setf sw1 s f) s) = f1_total f) by (rewrite getf_setf, decide_True by done; done).
  pose proof (fun y => u64_sub_eq und y) as Hu. destruct (und >? a).
  - rewrite !tot_set. destruct (N.eqb_spec t s) as [->|]; [|rewrite Hw1, Z.sub_0_r; apply eq64_refl]. rewrite total_create, Hg1.
    destruct (Hu (u64_sub und a)) as [k ->]. destruct Hr as [l ->]. exists (l + k). lia.
  - rewrite !tot_set. destruct (N.eqb_spec t s) as [->|]; [|rewrite Hw1, Z.sub_0_r; apply eq64_refl].
    destruct (Hu 0) as [k ->]. destruct Hr as [l ->]. exists (l + k). lia.
Qed.
Lemma tot_slash st s ty t : let r := slash_delegators st s ty in eq64 (tot (fst r) t) (tot st t - if (t =? s)%N then snd r else 0).
Proof.
  cbv zeta. unfold slash_delegators. destruct (f_data (getf st s)) eqn:Ed; [|cbn [fst snd]; apply eq64_id; destruct (t =? s)%N; lia].
  set (st0 := remove_index st s). change (tot st t) with (tot st0 t). clearbody st0. cbv zeta.
  pose proof (total_slash (getf st0 s) (slash_fraction (ds_params st0) ty)) as Hs. destruct (f1_slash _ _) as [f sl]. cbn [fst snd] in *.
  change (f1_total (getf st0 s)) with (tot st0 s) in Hs. change (tot (set_index ?x s) t) with (tot x t).
  assert (H1 : eq64 (tot (setf st0 s f) t) (tot st0 t - (if (t =? s)%N then sl else 0))).
  { rewrite tot_set. destruct (N.eqb_spec t s) as [->|]; [exact Hs|apply eq64_id; lia]. }
  destruct (send _ _ _ _); exact H1.
Qed.

Section stakes.
  Context (g : gen) (Hg : genesis g).
  Definition stakes (c : chain) (v : N -> Z) : Prop := forall s, eq64 (v s) (power c s).
  Local Notation E := (E see_stake stakes).
  Definition same_pow (c c' : chain) : Prop := forall s, power c' s = power c s.
  Lemma stk_same c c' : same_pow c c' -> E c [] c'.
  Proof. intros H v Hv s. cbn [fold_left]. rewrite H. apply Hv. Qed.
  Lemma stk_leave c p s : E c [EvLeave p s] (s_out c (leave_pool (s_in c) s p)).
  Proof. apply E_quiet; [by repeat constructor|]. by apply stk_same. Qed.
  Lemma stk_incr c p s : E c [EvPoint p s (snd (increment_points (s_in c) p s))] (s_out c (fst (increment_points (s_in c) p s))).
  Proof. apply E_quiet; [by repeat constructor|]. by apply stk_same. Qed.
  Lemma stk_reset c p s : E c (ev_reset c p s) (reset_pts c p s).
  Proof. apply E_quiet; [unfold ev_reset; destruct (0 <? _); by repeat constructor|]. by apply stk_same. Qed.
  Lemma stk_slash c p s t : E c (ev_slash (d_in c) p s t) (d_out c (fst (slash_delegators (d_in c) s t))).
  Proof.
    intros v Hv x. pose proof (tot_slash (d_in c) s t x) as Hs. cbv zeta in Hs. unfold ev_slash.
    change (power (d_out c (fst (slash_delegators (d_in c) s t))) x) with (tot (fst (slash_delegators (d_in c) s t)) x).
    change (tot (d_in c) x) with (power c x) in Hs. destruct (f_data (getf (d_in c) s)) eqn:Ef; cbn [fold_left see_stake].
    - eapply eq64_trans; [|apply eq64_sym, Hs]. apply eq64_sub; [apply Hv|apply eq64_refl].
    - unfold slash_delegators. rewrite Ef. apply Hv.
  Qed.
  Lemma stk_infl c p c' x : charge_inflation c p = Some (c', x) -> same_pow c c'.
  Proof. intros H. unfold charge_inflation in H. destruct (inflation_payout _ _); [|done]. destruct (_ <? 0); [done|]. by destruct (send _ _ _ _); injection H as <- _. Qed.
  Lemma stk_payout st s r payer st' : payout_rewards st s r payer = Some st' -> forall t, tot st' t = tot st t.
  Proof.
    unfold payout_rewards. destruct (cempty _); [by intros [= <-]|]. destruct (f_data (getf st s)) as [dd|] eqn:Ed; [|done]. destruct (send _ _ _ _); [|done]. intros [= <-] t.
    change (tot (with_bank ?a ?b) t) with (tot a t). rewrite tot_set. destruct (N.eqb_spec t s) as [->|]; [|done]. unfold tot, delegation_amount, f1_total, f1_add_rewards. by rewrite Ed.
  Qed.
  Lemma stk_pay c u r : match pay_out c u r with inl c' | inr c' => same_pow c c' end.
  Proof.
    unfold pay_out. destruct (send _ _ _ _) as [bk|]; [|done]. destruct (increase_commission_rewards _ _ _ _) as [st|]; [|done].
    destruct (payout_rewards _ _ _ _) as [d|] eqn:Ep; [|done]. intros t. exact (stk_payout _ _ _ _ _ Ep t).
  Qed.
  Lemma stk_final c p v : same_pow c (finalize c p v).
  Proof. unfold finalize. by destruct (get_pool c p). Qed.
  Lemma stk_loop n st low v : (forall s, eq64 (v s) (tot st s)) -> forall s, eq64 (fold_left see_stake (ev_process_loop n st low) v s) (tot (fst (fst (process_loop n st low))) s).
  Proof.
    revert st low v. induction n as [|n IH]; intros st low v Hv; cbn [ev_process_loop process_loop]; [exact Hv|].
    destruct (ds_queue st !! _) as [e|]; [|destruct (_ <? _)%N; [by apply IH|exact Hv]]. destruct (due st e); [|exact Hv].
    assert (Hp : forall s, eq64 (tot (fst (process_one st low e)) s) (tot st s - if (s =? u_staker e)%N then snd (process_one st low e) else 0)).
    { intros s. unfold process_one. pose proof (tot_undelegation st (u_staker e) (u_delegator e) (u_amount e) s) as H. cbv zeta in H.
      destruct (perform_undelegation st (u_staker e) (u_delegator e) (u_amount e)) as [st1 paid]. cbn [fst snd] in *. destruct (pay_user st1 _ _) as [st2|] eqn:E2; [|exact H].
      unfold pay_user in E2. destruct (send _ _ _ _); [|done]. injection E2 as <-. exact H. }
    destruct (process_one st low e) as [st3 paid]. cbn [fst snd] in Hp.
    specialize (IH st3 (low + 1)%N (see_stake v (EvUndelegate (u_delegator e) (u_staker e) paid))).
    intros s. rewrite fold_left_app, (quiet_all _ (ev_undelegation _ _ _)) by (by apply sh_undelegation). cbn [fold_left]. 
    destruct (process_loop n st3 (low + 1)) as [[st4 low'] out]. cbn [fst snd] in *. apply IH. intros s'. cbn [see_stake].
    eapply eq64_trans; [|apply eq64_sym, Hp]. apply eq64_sub; [apply Hv|apply eq64_refl].
  Qed.
  Lemma stk_begin c t pr : E c (ev_begin c t pr) (begin_block c t pr).
  Proof.
    unfold ev_begin, begin_block. set (c0 := cw_time _ _ _). set (c1 := t_out c0 _). set (c2 := match split_inflation c1 pr with Some x => x | None => cw_halt c1 end).
    assert (H2 : c_d c2 = c_d c). { unfold c2. destruct (split_inflation c1 pr) eqn:Es; [by apply d_split in Es|done]. }
    clearbody c2. cbv zeta. set (c3 := d_out c2 _). intros v Hv. rewrite fold_left_app, (quiet_all _ (ev_stakers_begin _)) by shape.
    set (st := with_time (d_in c2) t) in *. assert (Hv0 : forall s, eq64 (v s) (tot st s)). { intros s. change (tot st s) with (delegation_amount (c_d c2) s). rewrite H2. apply Hv. }
    intros s. pose proof (stk_loop (queue_fuel st) st (ds_low st) v Hv0 s) as Hl. unfold ev_queue. 
    change (power (s_out c3 ?x) s) with (tot (fst (process_queue st)) s). unfold process_queue. destruct (process_loop (queue_fuel st) st (ds_low st)) as [[st1 low] out]. exact Hl.
  Qed.
  Lemma disable_pow c sender p c' : chain_disable_pool c sender p = Some c' -> same_pow c c'.
  Proof.
    unfold chain_disable_pool. destruct (disable_record _ _ _) as [ps|]; [|done]. cbv zeta.
    set (c1 := cw_pools c ps). set (c2 := fold_left _ _ _).
    assert (H2 : c_d c2 = c_d c).
    { unfold c2. change (c_d c) with (c_d c1). generalize (members c1 p). intros l. clearbody c1. clear. revert c1.
      induction l as [|s l IH]; intros c1; cbn [fold_left]; [done|]. by rewrite IH. }
    intros H s. unfold power. rewrite <- H2. f_equal. revert H. clearbody c2. clear.
    destruct (two64 <=? _); [done|]. destruct (0 <? _); [|by intros [= <-]]. destruct (i64 _ <? 0); [done|]. destruct (send _ _ _ _); [|done]. by intros [= <-].
  Qed.
  Local Ltac still := apply E_quiet; [shape|by apply stk_same].
  Lemma stk_delegate c ex d s a st' : msg_delegate (d_in c) ex d s a = Some st' -> forall v, (forall s, eq64 (v s) (power c s)) ->
    forall t, eq64 (fold_left see_stake (ev_msg_delegate (d_in c) d s a) v t) (tot st' t).
  Proof.
    unfold msg_delegate. destruct (negb ex); [done|]. cbv zeta. destruct (send _ _ _ _); [|done]. intros [= <-] v Hv t. unfold ev_msg_delegate.
    rewrite fold_left_app, (quiet_all _ (ev_delegation _ _ _)) by (by apply sh_delegation). cbn [fold_left see_stake].
    change (tot (with_bank ?x ?y) t) with (tot x t). eapply eq64_trans; [|apply eq64_sym, tot_delegation]. apply eq64_add; [apply Hv|apply eq64_refl].
  Qed.
  Lemma stk_step c o c' : R g c -> cop_ok c o -> cmsg c o = Some c' -> E c (emitted c o) c'.
  Proof.
    intros HR Hok Hm.
    assert (Lp : forall c p b, same_pow c (set_prop c p b)) by done.
    assert (Lr : forall c x, same_pow c (cw_rr c x)) by done. assert (Lh : forall c, same_pow c (cw_halt c)) by done.
    assert (Lb : forall c b, same_pow c (cw_bank c b)) by done. assert (Lf : forall c f, same_pow c (f_out c f)) by done.
    assert (Lu : forall c, same_pow c (cw_pools c (handle_upgrades (c_pools c) (c_time c)))) by done.
    assert (Hval : forall c p c' v fp x r y n t, R g c -> is_Some (get_pool c p) -> tally c (get_prop c p) p = TrValid c' v fp x r ->
      E c (ev_tally c (get_prop c p) p ++ ev_finalize (cw_rr c' y) p v fp x r n) (set_prop (finalize (cw_rr c' y) p v) p (bp_none n t))).
    { intros. eapply (l_valid see_stake stakes same_pow); eauto using stk_same, stk_slash, stk_leave, stk_incr, stk_infl, stk_final; first [exact stk_pay|done]. }
    destruct o; cbn [cmsg emitted] in *; try (one_of Hm; still); try (param Hm; still).
    - one_of Hm. intros v Hv t. by eapply stk_delegate.
    - one_of Hm. apply E_quiet; [shape|]. unfold msg_undelegate in Em. destruct (_ >? _); [done|]. injection Em as <-. by apply stk_same.
    - one_of Hm. unfold msg_redelegate in Em. destruct (negb _); [done|]. destruct (negb _); [done|]. destruct (negb _); [done|]. destruct (_ >? _); [done|].
      unfold ev_msg_redelegate. destruct (consume_spell _ _ _) as [l|]; [|done]. cbv zeta in *. set (st1 := with_cool _ _) in *.
      pose proof (fun t => tot_undelegation st1 from d a t) as Hu. cbv zeta in Hu. destruct (perform_undelegation st1 from d a) as [st2 actual]. cbn [fst snd] in *.
      destruct (actual =? a) eqn:Ea; [|done]. apply Z.eqb_eq in Ea. subst actual. cbn [negb] in Em. injection Em as <-. intros v Hv t.
      rewrite !fold_left_app, (quiet_all _ (ev_undelegation _ _ _)), (quiet_all _ (ev_delegation _ _ _)) by (first [by apply sh_undelegation|by apply sh_delegation]).
      cbn [fold_left see_stake]. change (power (d_out c ?x) t) with (tot x t).
      eapply eq64_trans; [|apply eq64_sym, tot_delegation]. apply eq64_add; [|apply eq64_refl]. eapply eq64_trans; [|apply eq64_sym, Hu]. apply eq64_sub; [apply Hv|apply eq64_refl].
    - one_of Hm. apply E_quiet; [shape|]. unfold msg_withdraw in Em. destruct (negb _); [done|]. pose proof (tot_withdrawal (d_in c) s d) as Hw.
      destruct (perform_withdrawal _ _ _) as [st1 [r|]]; [|done]. injection Em as <-. apply stk_same. intros t. exact (Hw t).
    - unfold chain_create_staker in Hm. destruct (msg_delegate _ _ _ _ _) as [d|] eqn:Ed; [|done]. destruct (msg_create_staker _ _ _ _) as [st|] eqn:Es; [|done]. injection Hm as <-.
      intros v Hv t. rewrite fold_left_app. cbn [fold_left see_stake]. exact (stk_delegate c true s s a d Ed v Hv t).
    - eapply (l_submit g see_stake stakes same_pow); eauto using stk_same, stk_slash, stk_leave, stk_incr, stk_reset; done.
    - eapply (l_vote see_stake stakes same_pow); eauto using stk_same, stk_reset; done.
    - eapply (l_skip g see_stake stakes same_pow); eauto using stk_same, stk_slash, stk_leave, stk_incr, stk_reset; done.
    - eapply (l_claim_role see_stake stakes same_pow); eauto using stk_same; done.
    - unfold chain_create_pool in Hm. destruct (msg_create_pool _ _ _ _ _); [|done]. injection Hm as <-. still.
    - apply E_quiet; [shape|]. apply stk_same. by eapply disable_pow.
    - injection Hm as <-. apply stk_begin.
    - injection Hm as <-. eapply (l_end g Hg see_stake stakes same_pow); eauto using stk_same, stk_slash, stk_leave, stk_incr, stk_reset; done.
    - injection Hm as <-. still.
  Qed.
  Lemma follow_stake ops : cops_ok (gstart g) ops -> forall s, w64 (fold_left see_stake (elog (gstart g) ops) (fun _ => 0) s) = w64 (power (crun (gstart g) ops) s).
  Proof.
    intros Hok s. apply eq64_w. apply (follow_run g Hg see_stake stakes); [|exact stk_step|done]. intros t. apply eq64_refl.
  Qed.
End stakes.
