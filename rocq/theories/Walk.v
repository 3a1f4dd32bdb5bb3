(** * Relations between chain states that every step of x/bundles respects. *)
From Verif Require Import Base BaseFacts Delegation Stakers Funders Team RoundRobin Pool Bundles Chain ChainFrame.

Section walk.
  Context (K : chain -> chain -> Prop).
  Context (K_refl : forall c, K c c) (K_trans : forall a b c, K a b -> K b c -> K a c).
  Context (K_slash : forall c s t, K c (d_out c (fst (slash_delegators (d_in c) s t))))
    (K_leave : forall c s p, K c (s_out c (leave_pool (s_in c) s p)))
    (K_incr : forall c p s, K c (s_out c (fst (increment_points (s_in c) p s))))
    (K_reset : forall c p s, K c (reset_pts c p s))
    (K_fund : forall c p, K c (f_out c (fst (charge_funders (f_in c) p MPool))))
    (K_infl : forall c p c' x, charge_inflation c p = Some (c', x) -> K c c')
    (K_pay : forall c u r, match pay_out c u r with inl c' | inr c' => K c c' end)
    (K_prop : forall c p b, K c (set_prop c p b))
    (K_rr : forall c x, K c (cw_rr c x))
    (K_halt : forall c, K c (cw_halt c)) (K_bad : forall c, K c (cw_bad c))
    (K_final : forall c p v, K c (finalize c p v)).

  Lemma k_slash_remove c p s t : K c (slash_remove c p s t).
  Proof. unfold slash_remove. cbv zeta. eapply K_trans; [apply K_slash|apply K_leave]. Qed.
  Lemma k_add_point c p s : K c (add_point c p s).
  Proof.
    unfold add_point. pose proof (K_incr c p s) as H. destruct (increment_points _ _ _) as [s' n]. cbn [fst] in H.
    destruct (_ <=? _); [|done]. eapply K_trans; [exact H|apply k_slash_remove].
  Qed.
  Lemma k_fold {A} (f : chain -> A -> chain) l c : (forall c x, K c (f c x)) -> K c (fold_left f l c).
  Proof. intros Hf. revert c. induction l as [|x l IH]; intros c; simpl; [apply K_refl|]. eapply K_trans; [apply Hf|apply IH]. Qed.
  Lemma k_non_voters c p : K c (handle_non_voters c p).
  Proof. unfold handle_non_voters. apply k_fold. intros c' s. destruct (voted _ _); [apply K_refl|apply k_add_point]. Qed.
  Lemma k_tally c b p :
    match tally c b p with TrValid c' _ _ _ _ | TrInvalid c' _ | TrNoQuorum c' _ | TrError c' => K c c' | TrPanic => True end.
  Proof.
    unfold tally. pose proof (k_non_voters c p) as Hn. set (c1 := handle_non_voters c p) in *.
    destruct (v_status _); try done.
    - pose proof (K_fund c1 p) as Hf. destruct (charge_funders _ _ _) as [f [fp|]]; cbn [fst] in Hf; [|by eapply K_trans].
      destruct (charge_inflation _ _) as [[c2 x]|] eqn:Ei; [|done]. apply K_infl in Ei.
      assert (H2 : K c c2) by (eapply K_trans; [exact Hn|]; eapply K_trans; [exact Hf|exact Ei]).
      destruct (payouts _ _ _) as [r|]; [|done]. pose proof (K_pay c2 (bp_uploader b) r) as Hp.
      destruct (pay_out _ _ _) as [c3|c3]; [|by eapply K_trans]. eapply K_trans; [by eapply K_trans|]. apply k_fold. intros. apply k_slash_remove.
    - eapply K_trans; [exact Hn|]. apply k_fold. intros. apply k_slash_remove.
  Qed.
  Lemma k_choose c p ex : K c (snd (choose c p ex)).
  Proof. unfold choose. destruct (choose_next _ _ _). apply K_rr. Qed.
  Lemma k_choose_from c p l : K c (snd (choose_from c p l)).
  Proof. unfold choose_from. destruct (choose_next_from _ _ _). apply K_rr. Qed.
  Lemma k_register c m n : K c (register c m n).
  Proof. unfold register. destruct (get_pool c (sb_pool m)); apply K_prop. Qed.
  Lemma k_submit c m c' : msg_submit c m = Some c' -> K c c'.
  Proof.
    unfold msg_submit. destruct (negb _); [done|]. destruct (negb _); [done|].
    pose proof (K_reset c (sb_pool m) (sb_staker m)) as Hr. set (c1 := reset_pts _ _ _) in *.
    destruct (_ =? 0)%N.
    - pose proof (k_choose c1 (sb_pool m) []) as Hc. destruct (choose _ _ _) as [n c2]. intros [= <-].
      eapply K_trans; [exact Hr|]. eapply K_trans; [exact Hc|]. apply k_register.
    - pose proof (k_tally c1 (get_prop c (sb_pool m)) (sb_pool m)) as Ht. destruct (tally _ _ _) as [c2 v ? ? ?|c2 v| | |]; try done.
      + pose proof (k_choose_from c2 (sb_pool m) (bp_valid (get_prop c (sb_pool m)))) as Hc.
        destruct (choose_from _ _ _) as [n c3]. intros [= <-]. eapply K_trans; [exact Hr|]. eapply K_trans; [exact Ht|].
        eapply K_trans; [exact Hc|]. eapply K_trans; [apply K_final|apply k_register].
      + intros [= <-]. eapply K_trans; [exact Hr|]. eapply K_trans; [exact Ht|]. apply K_prop.
  Qed.
  Lemma k_vote c p s v st w c' : msg_vote c p s v st w = Some c' -> K c c'.
  Proof.
    unfold msg_vote. destruct (negb _); [done|]. cbv zeta.
    destruct (match w with Valid => _ | _ => _ end); [|done]. intros [= <-]. eapply K_trans; [apply K_prop|apply K_reset].
  Qed.
  Lemma k_skip c p s v from c' : msg_skip c p s v from = Some c' -> K c c'.
  Proof.
    unfold msg_skip. destruct (negb _); [done|]. cbv zeta. pose proof (K_reset c p s) as Hr.
    pose proof (k_tally (reset_pts c p s) (get_prop c p) p) as Ht.
    destruct (tally _ _ _) as [c1 w ? ? ?|c1 w|c1 w| |]; try done;
      pose proof (k_choose c1 p [s]) as Hc; destruct (choose _ _ _) as [n c2]; cbn [snd] in Hc; intros [= <-];
      eapply K_trans; [exact Hr| |exact Hr| |exact Hr|]; (eapply K_trans; [exact Ht|]); (eapply K_trans; [exact Hc|]).
    - eapply K_trans; [apply K_final|apply K_prop].
    - apply K_prop.
    - apply K_prop.
  Qed.
  Lemma k_timeout_point c p s : K c (timeout_point c p s).
  Proof. unfold timeout_point. destruct (in_pool c p s); [apply k_add_point|apply K_refl]. Qed.
  Lemma k_timeout_pool c p i c' : timeout_pool c p i = Some c' -> K c c'.
  Proof.
    unfold timeout_pool. destruct (pool_error c p) as [e|].
    { intros [= <-]. destruct (_ && _); [apply K_prop|]. destruct (negb _); [apply K_prop|apply K_refl]. }
    destruct (_ <? _); [intros [= <-]; apply K_refl|]. destruct (_ && _).
    { pose proof (k_choose (handle_non_voters c p) p []) as Hc. destruct (choose _ _ _) as [n c1].
      intros [= <-]. eapply K_trans; [apply (k_non_voters c p)|]. eapply K_trans; [exact Hc|]. apply K_prop. }
    destruct (_ <? _); [intros [= <-]; apply K_refl|]. destruct (_ =? 0)%N.
    { pose proof (k_choose c p []) as Hc. destruct (choose _ _ _) as [n c1]. intros [= <-].
      eapply K_trans; [exact Hc|]. eapply K_trans; [|apply k_timeout_point]. apply K_prop. }
    pose proof (k_tally c (get_prop c p) p) as Ht. destruct (tally _ _ _) as [c1 w ? ? ?|c1 w|c1 w|c1|]; try done.
    - pose proof (k_choose_from c1 p (bp_valid (get_prop c p))) as Hc. destruct (choose_from _ _ _) as [n c2].
      intros [= <-]. eapply K_trans; [exact Ht|]. eapply K_trans; [exact Hc|]. eapply K_trans; [|apply k_timeout_point].
      eapply K_trans; [apply K_final|apply K_prop].
    - pose proof (k_choose c1 p []) as Hc. destruct (choose _ _ _) as [n c2]. intros [= <-].
      eapply K_trans; [exact Ht|]. eapply K_trans; [exact Hc|]. eapply K_trans; [|apply k_timeout_point]. apply K_prop.
    - pose proof (k_choose c1 p []) as Hc. destruct (choose _ _ _) as [n c2]. intros [= <-].
      eapply K_trans; [exact Ht|]. eapply K_trans; [exact Hc|]. eapply K_trans; [|apply k_timeout_point]. apply K_prop.
    - intros [= <-]. eapply K_trans; [exact Ht|apply K_bad].
  Qed.
  Lemma k_timeouts l c c' : timeouts c l = Some c' -> K c c'.
  Proof.
    revert c. induction l as [|[p i] l IH]; intros c; simpl; [intros [= <-]; apply K_refl|].
    destruct (timeout_pool c p i) as [c1|] eqn:E; [|done]. intros H. eapply K_trans; [by eapply k_timeout_pool|by apply IH].
  Qed.
  Lemma k_handle_timeout c : K c (handle_upload_timeout c).
  Proof. unfold handle_upload_timeout. destruct (timeouts _ _) eqn:E; [by eapply k_timeouts|apply K_halt]. Qed.
End walk.
