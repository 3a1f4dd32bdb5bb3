(** * Following the chain through its events: what is common to all followers. *)
From Verif Require Import Base BaseFacts Delegation Stakers Funders Team RoundRobin Pool Bundles Chain ChainFrame ChainLift Walk ArchiveInv PaySafe PayFlow Events EventWalk.

(** ** Which events there can be *)
Section shape.
  Context (P : event -> Prop).
  Lemma sh_withdrawal st s d : (forall x, P (EvWithdraw d s x)) -> Forall P (ev_withdrawal st s d).
  Proof. intros H. unfold ev_withdrawal. destruct (perform_withdrawal st s d) as [? [r|]]; auto. Qed.
  Context (P_w : forall d s x, P (EvWithdraw d s x)).
  Lemma sh_delegation st s d : Forall P (ev_delegation st s d).
  Proof. unfold ev_delegation. destruct (bool_decide _); [by apply sh_withdrawal|constructor]. Qed.
  Lemma sh_undelegation st s d : Forall P (ev_undelegation st s d).
  Proof. by apply sh_withdrawal. Qed.
  Lemma sh_queue st : (forall d s a, P (EvUndelegate d s a)) -> Forall P (ev_queue st).
  Proof.
    intros H. unfold ev_queue. generalize (ds_low st). generalize (queue_fuel st). intros n. revert st. induction n as [|n IH]; intros st low; cbn [ev_process_loop]; [constructor|].
    destruct (ds_queue st !! _) as [e|]; [|destruct (_ <? _)%N; [apply IH|constructor]]. destruct (due st e); [|constructor].
    destruct (process_one st low e). apply Forall_app. split; [apply sh_undelegation|]. constructor; auto.
  Qed.
  Lemma sh_queue_loop f ev h n st low : (forall st i, Forall P (ev st i)) -> Forall P (ev_queue_loop f ev h n st low).
  Proof.
    intros H. revert st low. induction n as [|n IH]; intros st low; cbn [ev_queue_loop]; [constructor|]. apply Forall_app. split; [apply H|].
    destruct (f st _); [|constructor]. destruct (_ <? _)%N; [apply IH|constructor].
  Qed.
  Lemma sh_stakers_begin st : (forall s c, P (EvUpdateCommission s c)) -> (forall p s, P (EvLeave p s)) -> Forall P (ev_stakers_begin st).
  Proof.
    intros H1 H2. apply Forall_app. split; apply sh_queue_loop; intros st' i.
    - unfold ev_centry. destruct (ss_centries st' !! i); [|constructor]. destruct (_ <=? _); auto.
    - unfold ev_lentry, ev_leave. destruct (ss_lentries st' !! i); [|constructor]. destruct (_ <=? _); auto.
  Qed.
  Lemma sh_slash st p s t : (forall a, P (EvSlash p s a t)) -> Forall P (ev_slash st p s t).
  Proof. intros H. unfold ev_slash. destruct (f_data _); auto. Qed.
  Lemma sh_charge st p : P (EvOutOfFunds p) -> Forall P (ev_charge st p).
  Proof. intros H. unfold ev_charge. destruct (fs_active st !! p); [|auto]. destruct (active_fundings st p l); [auto|]. destruct (fs_active _ !! p) as [[|]|]; auto. Qed.
  Lemma sh_slot st dl p : (forall s, P (EvLeave p s)) -> Forall P (ev_slot st dl p).
  Proof. intros H. unfold ev_slot, ev_leave. destruct (_ <=? _); auto. Qed.
  Lemma sh_free_slot st p a l : (forall b x, P (EvDefund p b x)) -> Forall P (ev_free_slot st p a l).
  Proof. intros H. unfold ev_free_slot. destruct (_ <? _)%nat; [auto|]. destruct (lowest_funding _ _) as [[[b fb] ?]|]; [|auto]. destruct (_ =? _)%N; auto. Qed.
  Lemma sh_defund st a p x : (forall y, P (EvDefund p a y)) -> Forall P (ev_defund st a p x).
  Proof. intros H. unfold ev_defund. destruct (fs_fundings st !! _); auto. Qed.
  Lemma sh_redelegate st d from to a : P (EvRedelegate d from to a) -> Forall P (ev_msg_redelegate st d from to a).
  Proof.
    intros H. unfold ev_msg_redelegate. destruct (consume_spell _ _ _); [|auto]. apply Forall_app. split; [apply sh_undelegation|]. apply Forall_app. split; [apply sh_delegation|auto].
  Qed.
  Lemma sh_delegate st d s a : P (EvDelegate d s a) -> Forall P (ev_msg_delegate st d s a).
  Proof. intros H. apply Forall_app. split; [apply sh_delegation|auto]. Qed.
  Lemma sh_fund st a p x y : (forall b x, P (EvDefund p b x)) -> P (EvFund p a x y) -> Forall P (ev_fund st a p x y).
  Proof. intros H1 H2. apply Forall_app. split; [by apply sh_free_slot|auto]. Qed.
  Lemma sh_update s p a : (forall r i w m x sp co, P (EvUpdatePool p a r i w m x sp co)) -> Forall P (ev_update_pool s p a).
  Proof. intros H. unfold ev_update_pool. destruct (ps_pools s !! p); auto. Qed.
  Lemma sh_team st o : (forall a i t s, P (EvTeamCreate a i t s)) -> (forall a i x r, P (EvTeamClaim a i x r)) -> (forall a i t x, P (EvTeamClawback a i t x)) ->
    (forall a i x r, P (EvTeamRewards a i x r)) -> (forall a x r, P (EvTeamAuthority a x r)) -> Forall P (ev_team st o).
  Proof. intros. destruct o; cbn [ev_team]; auto. destruct (ts_accounts st !! id); auto. Qed.
  Lemma sh_disable c p : (forall s, P (EvLeave p s)) -> P (EvDisabled p) -> Forall P (ev_disable_pool c p).
  Proof.
    intros H1 H2. apply Forall_app. split; [|auto]. generalize (members c p). intros l. induction l; cbn [flat_map]; [constructor|]. constructor; auto.
  Qed.
  Lemma sh_fold {S A} (step : S -> A -> S) ev l c : (forall c x, Forall P (ev c x)) -> Forall P (ev_fold step ev l c).
  Proof. intros H. revert c. induction l as [|x l IH]; intros c; cbn [ev_fold]; [constructor|]. apply Forall_app. auto. Qed.
  Lemma sh_tally c b p : (forall s a t, P (EvSlash p s a t)) -> (forall s, P (EvLeave p s)) -> (forall s n, P (EvPoint p s n)) -> P (EvOutOfFunds p) -> Forall P (ev_tally c b p).
  Proof.
    intros H1 H2 H3 H4. assert (Hr : forall c s t, Forall P (ev_slash_remove c p s t)).
    { intros. apply Forall_app. split; [by apply sh_slash|by repeat constructor]. }
    apply Forall_app. split.
    - apply sh_fold. intros c0 s. destruct (voted (get_prop c p) s); [by constructor|].
      unfold ev_add_point; destruct (increment_points _ _ _); constructor; [done|]; destruct (_ <=? _); [apply Hr|constructor].
    - destruct (v_status _); try by constructor.
      + apply Forall_app. split; [by apply sh_charge|]. destruct (charge_inflation _ _) as [[c2 x]|]; [|constructor]. destruct (payouts _ _ _); [|constructor].
        destruct (pay_out _ _ _); [|constructor]. by apply sh_fold.
      + by apply sh_fold.
  Qed.
End shape.
Ltac shape := first [by apply sh_delegate|by apply sh_redelegate|by apply sh_withdrawal|by apply sh_fund|by apply sh_defund|by apply sh_update|by apply sh_team|by apply sh_queue
  |by apply sh_stakers_begin|by apply sh_slash|by apply sh_charge|by apply sh_slot|by apply sh_disable|by apply sh_tally|(apply Forall_app; split; shape)|by repeat constructor].

(** ** A follower: its state [V], what it does with an event, and how it agrees with the chain *)
Ltac qs := repeat (apply List.Forall_cons || apply List.Forall_nil); auto.
Section follower.
  Context (g : gen) (Hg : genesis g).
  Context {V : Type} (see : V -> event -> V) (Inv : chain -> V -> Prop).
  Definition E (c : chain) (e : list event) (c' : chain) : Prop := forall v, Inv c v -> Inv c' (fold_left see e v).
  Definition quiet (e : event) : Prop := forall v, see v e = v.
  Lemma E_refl c : E c [] c. Proof. by intros v. Qed.
  Lemma E_trans a e b f c : E a e b -> E b f c -> E a (e ++ f) c.
  Proof. intros H1 H2 v H. rewrite fold_left_app. by apply H2, H1. Qed.
  Lemma quiet_all e v : Forall quiet e -> fold_left see e v = v.
  Proof. intros H. revert v. induction H as [|x l Hx _ IH]; intros v; [done|]. cbn [fold_left]. rewrite Hx. apply IH. Qed.
  Lemma E_quiet c e c' : Forall quiet e -> E c [] c' -> E c e c'.
  Proof. intros Hq H v Hv. rewrite (quiet_all e v Hq). by apply H. Qed.

  Lemma follow_run v0 : Inv (gstart g) v0 ->
    (forall c o c', R g c -> cop_ok c o -> cmsg c o = Some c' -> E c (emitted c o) c') ->
    forall ops, cops_ok (gstart g) ops -> Inv (crun (gstart g) ops) (fold_left see (elog (gstart g) ops) v0).
  Proof.
    intros H0 Hs ops. induction ops as [|o ops IH] using rev_ind; intros Hok; [done|]. apply cops_ok_snoc in Hok as [Hok Ho].
    assert (Hlog : forall l c, elog c (l ++ [o]) = elog c l ++ events (crun c l) o).
    { induction l as [|x l IHl]; intros c; cbn [elog crun app]; [by rewrite app_nil_r|]. by rewrite IHl, app_assoc. }
    rewrite Hlog, crun_snoc. set (c := crun (gstart g) ops) in *. assert (HE : E c (events c o) (cstep c o)).
    { unfold events, cstep. destruct (cmsg c o) as [c'|] eqn:Ec; cbn [default]; [|apply E_refl]. apply Hs; [by apply R_run|done|done]. }
    rewrite fold_left_app. by apply HE, IH.
  Qed.

  (** A follower that does not look at bundles; [L]: what it looks at is the same. *)
  Section local.
    Context (L : chain -> chain -> Prop) (L_E : forall c c', L c c' -> E c [] c').
    Context (L_prop : forall c p b, L c (set_prop c p b)) (L_rr : forall c x, L c (cw_rr c x)) (L_halt : forall c, L c (cw_halt c))
      (L_bank : forall c b, L c (cw_bank c b)) (L_final : forall c p v, L c (finalize c p v))
      (L_fund : forall c f, L c (f_out c f)) (L_infl : forall c p c' x, charge_inflation c p = Some (c', x) -> L c c')
      (L_pay : forall c u r, match pay_out c u r with inl c' | inr c' => L c c' end)
      (L_up : forall c, L c (cw_pools c (handle_upgrades (c_pools c) (c_time c)))).
    Context (Q_out : forall p, quiet (EvOutOfFunds p)) (Q_prop : forall e, quiet (EvProposed e)) (Q_vote : forall p s st w, quiet (EvVote p s st w))
      (Q_drop : forall e, ef_status e <> Judged VValid -> quiet (EvFinalized e)) (Q_skip : forall p i a b, quiet (EvSkipped p i a b)).
    Context (P_slash : forall c p s t, E c (ev_slash (d_in c) p s t) (d_out c (fst (slash_delegators (d_in c) s t))))
      (P_leave : forall c p s, E c [EvLeave p s] (s_out c (leave_pool (s_in c) s p)))
      (P_incr : forall c p s, E c [EvPoint p s (snd (increment_points (s_in c) p s))] (s_out c (fst (increment_points (s_in c) p s))))
      (P_reset : forall c p s, E c (ev_reset c p s) (reset_pts c p s)).
    Lemma l_drop c p v s n : s <> Judged VValid -> E c (ev_drop c p v s) (drop c p n).
    Proof. intros H. apply E_quiet; [qs|]. apply L_E. apply L_prop. Qed.
    Lemma l_register c m n : E c (ev_register c m) (register c m n).
    Proof.
      unfold ev_register, register. destruct (get_pool c (sb_pool m)); (apply E_quiet; [qs|apply L_E, L_prop]).
    Qed.
    Lemma l_charge c p : E c (ev_charge (f_in c) p) (f_out c (fst (charge_funders (f_in c) p MPool))).
    Proof. apply E_quiet; [by apply sh_charge|apply L_E; auto]. Qed.
    Lemma l_pay c u r : match pay_out c u r with inl c' | inr c' => E c [] c' end.
    Proof. pose proof (L_pay c u r). destruct (pay_out c u r); apply L_E; auto. Qed.
    Lemma l_valid (Q_fin : forall e, quiet (EvFinalized e)) c p c' v fp x r y n t : tally c (get_prop c p) p = TrValid c' v fp x r ->
      E c (ev_tally c (get_prop c p) p ++ ev_finalize (cw_rr c' y) p v fp x r n) (set_prop (finalize (cw_rr c' y) p v) p (bp_none n t)).
    Proof.
      intros Et. eapply E_trans; [eapply (e_valid E E_refl E_trans P_slash P_leave P_incr l_charge); [|exact l_pay|exact Et]; eauto|].
      apply E_quiet; [qs|]. apply (E_trans _ [] (cw_rr c' y) []); [apply L_E; auto|].
      apply (E_trans _ [] (finalize (cw_rr c' y) p v) []); [apply L_E; auto|]. apply L_E; auto.
    Qed.
    Context (H_valid : forall c p c' v fp x r y n t, R g c -> is_Some (get_pool c p) -> tally c (get_prop c p) p = TrValid c' v fp x r ->
      E c (ev_tally c (get_prop c p) p ++ ev_finalize (cw_rr c' y) p v fp x r n) (set_prop (finalize (cw_rr c' y) p v) p (bp_none n t))).
    Local Ltac parts := first [exact E_refl|exact E_trans|exact P_slash|exact P_leave|exact P_incr|exact P_reset|(intros; apply L_E; auto; eauto)|(intros; by apply l_drop)|(intros; apply l_register)
      |exact H_valid
      |(intros; apply E_quiet; [qs|apply E_refl])
      |(intros; by apply (e_non_voters E E_refl E_trans P_slash P_leave P_incr))
      |(intros; by apply (e_timeout_point E E_refl E_trans P_slash P_leave P_incr))
      |(intros; by eapply (e_invalid E E_refl E_trans P_slash P_leave P_incr))
      |(intros; by eapply (e_noq E E_refl E_trans P_slash P_leave P_incr))].
    Lemma l_submit c m c' : R g c -> msg_submit c m = Some c' -> E c (ev_submit c m) c'.
    Proof. intros HR H. eapply (e_submit g E); try parts; eauto. Qed.
    Lemma l_skip c p s v from c' : R g c -> msg_skip c p s v from = Some c' -> E c (ev_skip c p s) c'.
    Proof. intros HR H. eapply (e_skip g E); try parts; eauto. Qed.
    Lemma l_end c : R g c -> E c (emitted c CEnd) (end_block c).
    Proof. intros HR. eapply (e_end g Hg E); try parts; eauto. Qed.
    Lemma l_vote c p s v st w c' : msg_vote c p s v st w = Some c' -> E c (ev_vote c p s st w) c'.
    Proof.
      unfold msg_vote, ev_vote. destruct (negb _); [done|]. cbv zeta. destruct (match w with Valid => _ | _ => _ end) as [b|]; [|done]. intros [= <-].
      apply (E_trans c [] (set_prop c p b)); [apply L_E; auto|]. eapply E_trans; [exact (P_reset (set_prop c p b) p s)|].
      apply E_quiet; [qs|apply E_refl].
    Qed.
    Lemma l_claim_role c p s v c' i : (forall p i s, quiet (EvClaimedRole p i s)) -> msg_claim_role c p s v = Some c' -> E c [EvClaimedRole p i s] c'.
    Proof.
      intros Hq. unfold msg_claim_role. destruct (negb _); [done|]. destruct (negb _); [done|]. destruct (negb _); [done|]. intros [= <-].
      apply E_quiet; [qs|apply L_E; auto].
    Qed.
  End local.
End follower.
