(** * Relations between states and events that every step of x/bundles respects. *)
From Verif Require Import Base BaseFacts Delegation Stakers Funders Team RoundRobin Pool Bundles Chain ChainFrame ChainLift Walk ArchiveInv PaySafe PayFlow Events.

Section walk.
  Context (g : gen) (Hg : genesis g).
  Context (E : chain -> list event -> chain -> Prop).
  Context (E_refl : forall c, E c [] c) (E_trans : forall a e b f c, E a e b -> E b f c -> E a (e ++ f) c).

  (** ** The messages, from the parts that touch the proposal *)
  Section messages.
    Context (H_reset : forall c p s, E c (ev_reset c p s) (reset_pts c p s))
      (H_non : forall c p, E c (ev_non_voters c p) (handle_non_voters c p))
      (H_tpoint : forall c p s, E c (ev_timeout_point c p s) (timeout_point c p s))
      (H_rr : forall c x, E c [] (cw_rr c x))
      (H_next : forall c p n t, E c [] (set_prop c p (with_next (get_prop c p) n t)))
      (H_drop : forall c p v s n, s <> Judged VValid -> E c (ev_drop c p v s) (drop c p n))
      (H_register : forall c m n, is_Some (get_pool c (sb_pool m)) -> bp_storage (get_prop c (sb_pool m)) = 0%N -> sb_storage m <> 0%N -> E c (ev_register c m) (register c m n))
      (H_skip : forall c p i s n, E c [EvSkipped p i s n] c)
      (H_invalid : forall c p c' v, R g c -> tally c (get_prop c p) p = TrInvalid c' v -> E c (ev_tally c (get_prop c p) p) c')
      (H_noq : forall c p c' v, R g c -> tally c (get_prop c p) p = TrNoQuorum c' v -> E c (ev_tally c (get_prop c p) p) c')
      (H_valid : forall c p c' v fp x r y n t, R g c -> is_Some (get_pool c p) -> tally c (get_prop c p) p = TrValid c' v fp x r ->
        E c (ev_tally c (get_prop c p) p ++ ev_finalize (cw_rr c' y) p v fp x r n) (set_prop (finalize (cw_rr c' y) p v) p (bp_none n t)))
      (H_bad : forall c, E c [] (cw_bad c)).

    Lemma e_eq c e e' c' : e = e' -> E c e c' -> E c e' c'. Proof. by intros ->. Qed.
    Lemma e_nil a e b c : E a e b -> E b [] c -> E a e c.
    Proof. intros H1 H2. eapply e_eq; [|eapply E_trans; [exact H1|exact H2]]. apply app_nil_r. Qed.
    Lemma e_pre a b f c : E a [] b -> E b f c -> E a f c.
    Proof. intros H1 H2. exact (E_trans _ _ _ _ _ H1 H2). Qed.
    Lemma e_choose c p ex : E c [] (snd (choose c p ex)).
    Proof. unfold choose. destruct (choose_next _ _ _). apply H_rr. Qed.
    Lemma tally_status c b p :
      match tally c b p with
      | TrValid _ v _ _ _ => v_status v = VValid | TrInvalid _ v => v_status v = VInvalid
      | TrNoQuorum _ v => v_status v <> VValid | _ => True end.
    Proof.
      unfold tally. destruct (v_status _) eqn:Es; try done; try congruence.
      destruct (charge_funders _ _ _) as [f [fp|]]; [|done]. destruct (charge_inflation _ _) as [[c2 x]|]; [|done].
      destruct (payouts _ _ _) as [r|]; [|done]. by destruct (pay_out _ _ _).
    Qed.
    Lemma register_again c m n p b : p = sb_pool m -> register c m n = register (set_prop c p b) m n.
    Proof.
      intros ->. unfold register. change (get_pool (set_prop c (sb_pool m) b) (sb_pool m)) with (get_pool c (sb_pool m)).
      destruct (get_pool c (sb_pool m)); unfold set_prop; cbn; by rewrite insert_insert.
    Qed.
    Lemma R_reset c p s : R g c -> R g (reset_pts c p s).
    Proof. intros HR. apply (R_sl g c); [done|apply G_reset; apply HR|apply b_reset|apply sl_reset]. Qed.
    Lemma proposer_pool c p s v from : can_propose c p s v from = true -> is_Some (get_pool c p).
    Proof. intros Ec. destruct (get_pool c p) eqn:Ep; [eauto|]. unfold can_propose, can_run, pool_error in Ec. by rewrite Ep in Ec. Qed.

    Lemma e_submit c m c' : R g c -> msg_submit c m = Some c' -> E c (ev_submit c m) c'.
    Proof.
      intros HR. unfold msg_submit, ev_submit. destruct (can_propose _ _ _ _ _) eqn:Ec; cbn [negb]; [|done].
      destruct (submit_valid c m) eqn:Ev; cbn [negb]; [|done]. cbv zeta. apply proposer_pool in Ec. set (p := sb_pool m) in *.
      assert (Hst : sb_storage m <> 0%N).
      { unfold submit_valid in Ev. destruct (get_pool c (sb_pool m)); [|done]. intros H0. by rewrite H0 in Ev. }
      pose proof (H_reset c p (sb_staker m)) as Hr. pose proof (R_reset c p (sb_staker m) HR) as HR1. pose proof (b_reset c p (sb_staker m)) as B1.
      assert (Hgp : get_prop (reset_pts c p (sb_staker m)) p = get_prop c p) by done.
      assert (Hp1 : is_Some (get_pool (reset_pts c p (sb_staker m)) p)) by done. set (c1 := reset_pts _ _ _) in *. clearbody c1.
      destruct (bp_storage (get_prop c p) =? 0)%N eqn:Es.
      - apply N.eqb_eq in Es. pose proof (e_choose c1 p []) as Hc. pose proof (b_choose c1 p []) as Hb. destruct (choose c1 p []) as [n c2]. cbn [snd] in *. intros [= <-].
        eapply E_trans; [exact Hr|]. eapply e_pre; [exact Hc|]. apply H_register; [| |done].
        + fold p. by rewrite (get_pool_b c1).
        + fold p. rewrite (get_prop_b c1) by done. by rewrite Hgp.
      - pose proof (tally_status c1 (get_prop c p) p) as Hts. pose proof (b_tally c1 (get_prop c p) p) as Hbt.
        pose proof (H_valid c1 p) as Hv. pose proof (H_invalid c1 p) as Hi. rewrite Hgp in Hv, Hi.
        destruct (tally c1 (get_prop c p) p) as [c2 v fp x r|c2 v|c2 v|c2|] eqn:Et; try done.
        + unfold choose_from. destruct (choose_next_from _ _ _) as [n y]. intros [= <-].
          specialize (Hv c2 v fp x r (<[p:=y]> (c_rr c2)) n 0 HR1 Hp1 eq_refl).
          eapply E_trans; [exact Hr|]. rewrite (app_assoc (ev_tally _ _ _)). eapply e_eq; [|eapply E_trans; [exact Hv|]].
          * f_equal.
          * rewrite (register_again _ m n p (bp_none n 0)) by done.
            change (ev_register (finalize (cw_rr c2 (<[p:=y]> (c_rr c2))) p v) m)
              with (ev_register (set_prop (finalize (cw_rr c2 (<[p:=y]> (c_rr c2))) p v) p (bp_none n 0)) m).
            apply H_register; [| |done].
            -- fold p. change (get_pool (set_prop ?a ?b ?d) p) with (get_pool a p).
               set (c3 := cw_rr c2 (<[p:=y]> (c_rr c2))). assert (Hp3 : is_Some (get_pool c3 p)). { change (get_pool c3 p) with (get_pool c2 p). by rewrite (get_pool_b c1). }
               destruct Hp3 as [pl Hpl]. pose proof (finalize_eq c3 p v pl Hpl) as (fb0 & _ & _ & _ & _ & _ & _ & _ & E8). specialize (E8 p).
               rewrite E8, decide_True by done. eauto.
            -- fold p. unfold get_prop, set_prop. cbn. by rewrite lookup_insert.
        + intros [= <-]. eapply E_trans; [exact Hr|]. eapply E_trans; [by eapply Hi|]. apply H_drop. congruence.
    Qed.
    Lemma e_skip c p s v from c' : R g c -> msg_skip c p s v from = Some c' -> E c (ev_skip c p s) c'.
    Proof.
      intros HR. unfold msg_skip, ev_skip. destruct (can_propose _ _ _ _ _) eqn:Ec; cbn [negb]; [|done]. cbv zeta. apply proposer_pool in Ec.
      pose proof (H_reset c p s) as Hr. pose proof (R_reset c p s HR) as HR1.
      assert (Hgp : get_prop (reset_pts c p s) p = get_prop c p) by done.
      assert (Hp1 : is_Some (get_pool (reset_pts c p s) p)) by done. set (c1 := reset_pts _ _ _) in *. clearbody c1.
      pose proof (tally_status c1 (get_prop c p) p) as Hts. pose proof (b_tally c1 (get_prop c p) p) as Hbt.
      pose proof (H_valid c1 p) as Hv. pose proof (H_invalid c1 p) as Hi. pose proof (H_noq c1 p) as Hn. rewrite Hgp in Hv, Hi, Hn.
      destruct (tally c1 (get_prop c p) p) as [c2 w fp x r|c2 w|c2 w|c2|] eqn:Et; try done; unfold choose; destruct (choose_next _ _ _) as [n y]; intros [= <-];
        (eapply E_trans; [exact Hr|]).
      - rewrite (app_assoc (ev_tally _ _ _)). eapply E_trans; [by eapply Hv|]. apply H_skip.
      - eapply E_trans; [by eapply Hi|]. eapply e_pre; [apply H_rr|]. eapply E_trans; [by apply H_drop; congruence|]. apply H_skip.
      - eapply E_trans; [by eapply Hn|]. eapply e_pre; [apply H_rr|]. eapply e_pre; [|apply H_skip].
        rewrite <- Hgp, <- (get_prop_b c1 c2 p) by done. apply (H_next (cw_rr c2 (<[p:=y]> (c_rr c2))) p).
    Qed.
    Lemma e_timeout_pool c p i c' : R g c -> is_Some (get_pool c p) -> timeout_pool c p i = Some c' -> E c (ev_timeout_pool c p i) c'.
    Proof.
      intros HR Hpl. unfold timeout_pool, ev_timeout_pool. cbv zeta. destruct (pool_error c p) as [e|].
      { intros [= <-]. destruct (_ && _); [by apply H_drop|]. destruct (negb _); [apply H_next|apply E_refl]. }
      destruct (_ <? _); [intros [= <-]; apply E_refl|]. destruct (_ && _) eqn:Eq.
      { unfold choose. destruct (choose_next _ _ _) as [n y]. intros [= <-]. eapply E_trans; [apply H_non|]. cbn [snd]. eapply e_pre; [apply H_rr|].
        apply H_drop. apply andb_true_iff in Eq as [_ Eq]. by destruct (v_status _). }
      destruct (_ <? _); [intros [= <-]; apply E_refl|]. destruct (_ =? 0)%N.
      { unfold choose. destruct (choose_next _ _ _) as [n y]. intros [= <-]. eapply e_pre; [apply (H_rr c (<[p:=y]> (c_rr c)))|].
        eapply e_pre; [|apply H_tpoint]. apply (H_next (cw_rr c (<[p:=y]> (c_rr c))) p). }
      pose proof (tally_status c (get_prop c p) p) as Hts. pose proof (b_tally c (get_prop c p) p) as Hbt.
      pose proof (H_valid c p) as Hv. pose proof (H_invalid c p) as Hi. pose proof (H_noq c p) as Hn.
      pose proof (tally_safe g Hg c p (proj1 HR) (proj1 (proj2 HR)) Hpl) as Hsafe.
      destruct (tally c (get_prop c p) p) as [c2 w fp x r|c2 w|c2 w|c2|] eqn:Et; try done.
      - unfold choose_from. destruct (choose_next_from _ _ _) as [n y]. intros [= <-].
        rewrite (app_assoc (ev_tally _ _ _)). eapply E_trans; [by eapply Hv|]. apply H_tpoint.
      - unfold choose. destruct (choose_next _ _ _) as [n y]. intros [= <-].
        eapply E_trans; [by eapply Hi|]. eapply e_pre; [apply H_rr|]. eapply E_trans; [by apply H_drop; congruence|]. apply H_tpoint.
      - unfold choose. destruct (choose_next _ _ _) as [n y]. intros [= <-].
        eapply E_trans; [by eapply Hn|]. eapply e_pre; [apply H_rr|]. eapply E_trans; [by apply H_drop; congruence|]. apply H_tpoint.
      - by destruct (Hsafe c2).
    Qed.
    Lemma e_timeouts l c c' : R g c -> (forall p i, (p, i) ∈ l -> is_Some (get_pool c p)) -> timeouts c l = Some c' -> E c (ev_timeouts c l) c'.
    Proof.
      revert c. induction l as [|[p i] l IH]; intros c HR Hl; cbn [timeouts ev_timeouts]; [intros [= <-]; apply E_refl|].
      destruct (timeout_pool c p i) as [c1|] eqn:E1; [|done]. intros E2.
      assert (Hpl : is_Some (get_pool c p)) by (apply (Hl p i); apply elem_of_list_here).
      eapply E_trans; [by apply e_timeout_pool|]. destruct HR as (HG & HA & HU). pose proof (agood_timeout _ _ _ _ HA Hpl E1) as Ha.
      apply IH; [| |done].
      - split; [by eapply G_timeout_pool|]. split; [apply Ha|]. eapply U_good; [done|exact Ha|by eapply sd_timeout_pool].
      - intros q j Hin. destruct Ha as [_ Hr]. apply (rl_pools _ _ Hr). apply (Hl q j). by apply elem_of_list_further.
    Qed.
    Lemma e_end c : R g c -> E c [] (cw_pools c (handle_upgrades (c_pools c) (c_time c))) ->
      (forall c, E c [] (cw_halt c)) -> (forall c b, E c [] (cw_bank c b)) ->
      E c (emitted c CEnd) (end_block c).
    Proof.
      intros HR H_up H_halt H_bank. pose proof (R_upgrades g c HR) as HR1. unfold end_block. cbn [emitted]. set (c1 := cw_pools c _) in *. clearbody c1.
      assert (H2 : E c1 (ev_handle_timeout c1) (handle_upload_timeout c1)).
      { unfold handle_upload_timeout, ev_handle_timeout. destruct (timeouts c1 (pool_intervals c1)) as [c2|] eqn:E2; [|apply H_halt].
        apply e_timeouts; [done| |done]. intros p i H. apply pool_intervals_in in H. destruct H as (pl & -> & _). by eexists. }
      eapply e_pre; [exact H_up|]. eapply e_nil; [exact H2|]. unfold burn_fees. destruct (_ =? 1); [apply E_refl|]. destruct (_ =? 0); [apply E_refl|].
      destruct (burn _ _ _); [apply H_bank|apply H_halt].
    Qed.
  End messages.

  (** ** The parts, from single steps *)
  Section parts.
    Context (P_slash : forall c p s t, E c (ev_slash (d_in c) p s t) (d_out c (fst (slash_delegators (d_in c) s t))))
      (P_leave : forall c p s, E c [EvLeave p s] (s_out c (leave_pool (s_in c) s p)))
      (P_incr : forall c p s, E c [EvPoint p s (snd (increment_points (s_in c) p s))] (s_out c (fst (increment_points (s_in c) p s)))).
    Lemma e_slash_remove c p s t : E c (ev_slash_remove c p s t) (slash_remove c p s t).
    Proof. unfold slash_remove, ev_slash_remove. eapply E_trans; [apply P_slash|apply P_leave]. Qed.
    Lemma e_add_point c p s : E c (ev_add_point c p s) (add_point c p s).
    Proof.
      unfold add_point, ev_add_point. pose proof (P_incr c p s) as H. destruct (increment_points _ _ _) as [s' n]. cbn [fst snd] in H. cbv zeta.
      destruct (_ <=? _); [|done]. change (EvPoint p s n :: ?l) with ([EvPoint p s n] ++ l). eapply E_trans; [exact H|apply e_slash_remove].
    Qed.
    Lemma e_fold {A} (f : chain -> A -> chain) ev (l : list A) c : (forall c x, E c (ev c x) (f c x)) -> E c (ev_fold f ev l c) (fold_left f l c).
    Proof. intros Hf. revert c. induction l as [|x l IH]; intros c; cbn [ev_fold fold_left]; [apply E_refl|]. eapply E_trans; [apply Hf|apply IH]. Qed.
    Lemma e_non_voters c p : E c (ev_non_voters c p) (handle_non_voters c p).
    Proof.
      unfold ev_non_voters, handle_non_voters. apply (e_fold (fun c s => if voted (get_prop _ p) s then c else add_point c p s)).
      intros c' s. destruct (voted _ _); [apply E_refl|apply e_add_point].
    Qed.
    Lemma e_timeout_point c p s : E c (ev_timeout_point c p s) (timeout_point c p s).
    Proof. unfold ev_timeout_point, timeout_point. destruct (in_pool c p s); [apply e_add_point|apply E_refl]. Qed.
    Lemma e_removes c p (f : N -> slash_type) l :
      E c (ev_fold (fun c s => slash_remove c p s (f s)) (fun c s => ev_slash_remove c p s (f s)) l c) (fold_left (fun c s => slash_remove c p s (f s)) l c).
    Proof. apply (e_fold (fun c s => slash_remove c p s (f s))). intros. apply e_slash_remove. Qed.
    Lemma e_invalid c b p c' v : tally c b p = TrInvalid c' v -> E c (ev_tally c b p) c'.
    Proof.
      unfold tally, ev_tally. pose proof (e_non_voters c p) as Hn. set (c1 := handle_non_voters c p) in *. cbv zeta. destruct (v_status _); try done.
      - destruct (charge_funders _ _ _) as [f [fp|]]; [|done]. destruct (charge_inflation _ _) as [[c2 x]|]; [|done].
        destruct (payouts _ _ _) as [r|]; [|done]. by destruct (pay_out _ _ _).
      - intros [= <- _]. eapply E_trans; [exact Hn|]. apply (e_removes c1 p (slash_type_of b)).
    Qed.
    Lemma e_noq c b p c' v : tally c b p = TrNoQuorum c' v -> E c (ev_tally c b p) c'.
    Proof.
      unfold tally, ev_tally. pose proof (e_non_voters c p) as Hn. set (c1 := handle_non_voters c p) in *. cbv zeta. destruct (v_status _); try done.
      - intros [= <- _]. by rewrite app_nil_r.
      - destruct (charge_funders _ _ _) as [f [fp|]]; [|done]. destruct (charge_inflation _ _) as [[c2 x]|]; [|done].
        destruct (payouts _ _ _) as [r|]; [|done]. by destruct (pay_out _ _ _).
      - intros [= <- _]. by rewrite app_nil_r.
    Qed.
    (** A valid bundle, when the payments are no matter. *)
    Context (P_charge : forall c p, E c (ev_charge (f_in c) p) (f_out c (fst (charge_funders (f_in c) p MPool))))
      (P_infl : forall c p c' x, charge_inflation c p = Some (c', x) -> E c [] c')
      (P_pay : forall c u r, match pay_out c u r with inl c' | inr c' => E c [] c' end).
    Lemma e_valid c b p c' v fp x r : tally c b p = TrValid c' v fp x r -> E c (ev_tally c b p) c'.
    Proof.
      unfold tally, ev_tally. pose proof (e_non_voters c p) as Hn. set (c1 := handle_non_voters c p) in *. cbv zeta. destruct (v_status _); try done.
      pose proof (P_charge c1 p) as Hc. destruct (charge_funders _ _ _) as [f [fp0|]]; [|done]. cbn [fst snd default] in *. change (default ∅ (Some fp0)) with fp0.
      destruct (charge_inflation _ _) as [[c2 x0]|] eqn:Ei; [|done]. apply P_infl in Ei.
      destruct (payouts _ _ _) as [r0|]; [|done]. pose proof (P_pay c2 (bp_uploader b) r0) as Hp. destruct (pay_out _ _ _) as [c3|c3]; [|done].
      intros [= <- _ _ _ _]. eapply E_trans; [exact Hn|]. eapply E_trans; [exact Hc|]. eapply (E_trans _ []); [exact Ei|]. eapply (E_trans _ []); [exact Hp|].
      apply (e_removes c3 p (fun _ => SlashVote)).
    Qed.
  End parts.
End walk.
