(** * Following what the funders of every pool have left. *)
From Verif Require Import Base BaseFacts Delegation Stakers StakersInv Funders FundersInv FundersRun FundingsFrame Team RoundRobin Pool PoolFrame Bundles Chain ChainFrame ChainLift Walk ArchiveInv PaySafe PayFlow Events EventWalk EventFollow EventStakers EventTally.
From Verif Require SplitClaims.

(** ** What a follower keeps: an amount for every pool and denom, and whether a defunding with nothing in it was seen *)
Definition plus_at (f : N -> N -> Z) (p : N) (x : coins) (k : Z) : N -> N -> Z := fun q d => f q d + if (q =? p)%N then k * amt x d else 0.
Definition see_fund (v : N -> N -> Z) (e : event) : N -> N -> Z :=
  match e with
  | EvFund p _ amounts _ => plus_at v p amounts 1
  | EvDefund p _ amounts => plus_at v p amounts (-1)
  | EvFinalized f => match ef_status f with Judged VValid => plus_at v (ef_pool f) (ef_funders f) (-1) | _ => v end
  | _ => v
  end.
Definition nothing_named (e : event) : bool := match e with EvDefund _ _ amounts => cempty amounts | _ => false end.
(** Both together. *)
Definition see_both (v : (N -> N -> Z) * bool) (e : event) : (N -> N -> Z) * bool :=
  match e with
  | EvFund p _ amounts _ => (plus_at (fst v) p amounts 1, snd v)
  | EvDefund p _ amounts => (plus_at (fst v) p amounts (-1), snd v || cempty amounts)
  | EvFinalized f => match ef_status f with Judged VValid => (plus_at (fst v) (ef_pool f) (ef_funders f) (-1), snd v) | _ => v end
  | _ => v
  end.
Lemma see_both_one v e : see_both v e = (see_fund (fst v) e, snd v || nothing_named e).
Proof. destruct v as [a b]. destruct e; cbn; rewrite ?orb_false_r; try done. by destruct (ef_status e) as [[]|]. Qed.
Lemma see_both_split l v : fold_left see_both l v = (fold_left see_fund l (fst v), snd v || existsb nothing_named l).
Proof.
  revert v. induction l as [|e l IH]; intros [a b]; cbn [fold_left existsb fst snd]; [by rewrite orb_false_r|]. rewrite IH, see_both_one. cbn [fst snd]. by rewrite orb_assoc.
Qed.

Definition left_in (st : fstate) (p d : N) : Z := msum (fun k f => if (snd k =? p)%N then amt (fd_amounts f) d else 0) (fs_fundings st).
Lemma left_set st a p f q d : left_in (set_funding st a p f) q d =
  left_in st q d + if (q =? p)%N then amt (fd_amounts f) d - match fs_fundings st !! (a, p) with Some g => amt (fd_amounts g) d | None => 0 end else 0.
Proof.
  unfold left_in, set_funding. cbn [fs_fundings]. rewrite msum_insert. cbn [snd]. rewrite (N.eqb_sym p q). destruct (q =? p)%N; destruct (fs_fundings st !! (a, p)); lia.
Qed.
Lemma clean_of p f f1 : ensure_params p f = Some f1 -> fd_amounts f1 = fd_amounts f.
Proof.
  unfold ensure_params. cbv zeta. repeat (destruct (negb _); [done|]). repeat (destruct (any_gt _ _); [done|]). destruct (0 <? _); [|by intros [= <-]].
  destruct (_ && _); [done|]. destruct (any_gt _ _); [done|]. by intros [= <-].
Qed.
Lemma left_slot base st p a new act st1 act1 : FInv base st -> fs_active st !! p = Some act -> ensure_free_slot st p a new act = Some (st1, act1) ->
  (forall q d, left_in st1 q d <= left_in st q d) /\ fs_fundings st1 !! (a, p) = fs_fundings st !! (a, p) /\
  (ev_free_slot st p a act = [] /\ (forall q d, left_in st1 q d = left_in st q d) \/ exists b, ev_free_slot st p a act = [EvDefund p b ∅]).
Proof.
  intros HI Hact. unfold ensure_free_slot, ev_free_slot. cbv zeta. destruct (_ <? _)%nat; [intros [= <- <-]; split; [lia|]; split; [done|]; by left|].
  destruct (lowest_funding (wl st) (active_fundings st p act)) as [[[b fb] s0]|] eqn:El; [|done]. pose proof (lowest_spec _ _ _ _ _ El) as (Hb & _). apply active_fundings_elem in Hb as [_ Hb].
  destruct (N.eqb_spec b a) as [->|Hn]; [intros [= <- <-]; split; [lia|]; split; [done|]; by left|]. destruct (score _ _); [|done]. destruct (_ <? _); [done|]. destruct (send _ _ _ _) as [bk|]; [|done]. intros [= <- <-].
  split; [|split; [|by right; exists b]].
  - intros q d. rewrite left_set. change (left_in (fwith_bank st bk) q d) with (left_in st q d). change (fs_fundings (fwith_bank st bk)) with (fs_fundings st). rewrite Hb. cbn [fd_amounts].
    rewrite amt_empty. destruct (q =? p)%N; [|lia]. pose proof (fi_pos _ _ HI _ _ Hb) as [Hp _]. pose proof (cpos_amt _ d Hp). lia.
  - cbn [fs_fundings set_funding fwith_bank]. by rewrite lookup_insert_ne by congruence.
Qed.

Lemma split_f c pr c' : split_inflation c pr = Some c' -> c_f c' = c_f c.
Proof.
  assert (Hg : forall c p x c', give c p x = Some c' -> c_f c' = c_f c).
  { intros c0 p x c0'. unfold give. destruct (i64 x <? 0); [done|]. by destruct (send _ _ _ _); intros [= <-]. }
  assert (Hs : forall l c t pr d c' d', split_loop c t pr d l = Some (c', d') -> c_f c' = c_f c).
  { induction l as [|p l IH]; intros c0 t pr0 d c0' d'; simpl; [by intros [= <- <-]|].
    destruct (can_run c0 p); [|apply IH]. destruct (pool_share _ _ _) as [x|]; [|done].
    destruct (give c0 p x) as [c1|] eqn:Eg; [|done]. apply Hg in Eg. intros H. apply IH in H. congruence. }
  assert (Hr : forall l c x c', remainder_loop c x l = Some c' -> c_f c' = c_f c).
  { induction l as [|p l IH]; intros c0 x c0'; simpl; [by intros [= <-]|].
    destruct (can_run c0 p); [apply IH|].
    destruct (give c0 p x) as [c1|] eqn:Eg; [|done]. apply Hg in Eg. intros H. apply IH in H. congruence. }
  unfold split_inflation. destruct (block_provision _ _ _) as [[h team]|]; [|done].
  destruct (trunc64 _) as [protocol|]; [|done].
  set (c0 := if h then cw_halt c else c). assert (Hc0 : c_f c0 = c_f c) by (unfold c0; by destruct h).
  destruct (protocol =? 0); [by intros [= <-]|]. destruct (total_weight c0 =? 0); [by intros [= <-]|].
  destruct (split_loop _ _ _ _ _) as [[c1 d]|] eqn:Es; [|done]. apply Hs in Es.
  destruct (0 <? _).
  - intros H. apply Hr in H. congruence.
  - intros [= <-]. congruence.
Qed.

Section funds.
  Context (g : gen) (Hg : genesis g).
  Definition funds_ok (c : chain) (v : (N -> N -> Z) * bool) : Prop := forall p d, pool_funds c p d <= fst v p d /\ (snd v = false -> fst v p d = pool_funds c p d).
  Local Notation E := (E see_both funds_ok).
  Definition same_f (c c' : chain) : Prop := fs_fundings (c_f c') = fs_fundings (c_f c).
  Lemma fu_same c c' : same_f c c' -> E c [] c'.
  Proof. intros H v Hv p d. cbn [fold_left]. rewrite (pool_funds_eq c c' H). apply Hv. Qed.
  Lemma fu_fund c ex a p x y st' : R g c -> cpos x -> msg_fund (f_in c) ex a p x y = Some st' -> E c (ev_fund (f_in c) a p x y) (f_out c st').
  Proof.
    intros (HG & _) Hx Hm. pose proof (G_FInv g Hg c HG) as HI. unfold msg_fund in Hm. destruct (negb _); [done|]. destruct (negb _); [done|]. destruct (fs_active (f_in c) !! p) as [act|] eqn:Ea; [|done].
    destruct (ensure_params _ _) as [f1|] eqn:Ep; [|done]. apply clean_of in Ep. destruct (ensure_free_slot _ _ _ _ _) as [[st1 act1]|] eqn:Es; [|done].
    destruct (left_slot _ _ _ _ _ _ _ _ HI Ea Es) as (Hle & Hkeep & Hcase). destruct (send _ _ _ _) as [bk|]; [|done]. injection Hm as <-.
    unfold ev_fund. rewrite Ea. cbn [default id]. intros v Hv q d. rewrite see_both_split. cbn [fst snd].
    assert (Hnew : pool_funds (f_out c (set_fstate (set_funding (fwith_bank st1 bk) a p f1) p (set_active act1 a))) q d = left_in st1 q d + if (q =? p)%N then amt x d else 0).
    { change (left_in (set_funding (fwith_bank st1 bk) a p f1) q d = left_in st1 q d + if (q =? p)%N then amt x d else 0). rewrite left_set. change (left_in (fwith_bank st1 bk) q d) with (left_in st1 q d).
      change (fs_fundings (fwith_bank st1 bk)) with (fs_fundings st1). rewrite Hkeep, Ep. destruct (q =? p)%N; [|done]. destruct (fs_fundings (f_in c) !! (a, p)); cbn [fd_amounts]; rewrite ?amt_cadd; lia. }
    rewrite Hnew. specialize (Hle q d). change (left_in (f_in c) q d) with (pool_funds c q d) in Hle. destruct (Hv q d) as [V1 V2]. destruct Hcase as [[-> Heq]|[b ->]].
    - cbn [app fold_left see_fund existsb nothing_named]. unfold plus_at. specialize (Heq q d). change (left_in (f_in c) q d) with (pool_funds c q d) in Heq.
      rewrite !orb_false_r. split; [|intros Hf; specialize (V2 Hf)]; destruct (q =? p)%N; lia.
    - cbn [app fold_left see_fund existsb nothing_named]. unfold plus_at. rewrite amt_empty. change (cempty ∅) with true. cbn [orb]. rewrite orb_true_r. split; [|done]. destruct (q =? p)%N; lia.
  Qed.
  Lemma fu_defund c a p x st' : R g c -> cpos x -> msg_defund (f_in c) a p x = Some st' -> E c (ev_defund (f_in c) a p x) (f_out c st').
  Proof.
    intros (HG & _) Hx Hm. pose proof (G_FInv g Hg c HG) as HI. unfold msg_defund in Hm. unfold ev_defund. destruct (fs_fundings (f_in c) !! (a, p)) as [f|] eqn:Ef; [|done].
    destruct (match fs_active (f_in c) !! p with Some l => _ | None => _ end) as [[sp act] m]. set (d0 := cmin _ _) in *. destruct (cempty d0) eqn:Ec; [done|].
    destruct (ensure_params _ _) as [f1|] eqn:Ep; [|done]. apply clean_of in Ep. destruct (send _ _ _ _) as [bk|]; [|done]. injection Hm as <-.
    intros v Hv q d. cbn [fold_left]. cbn [see_both fst snd]. rewrite Ec, orb_false_r. destruct (Hv q d) as [V1 V2].
    assert (Hnew : pool_funds (f_out c (fwith_halt (set_fstate (set_funding (fwith_bank (f_in c) bk) a p f1) sp (if cempty (fd_amounts f1) then set_inactive act a else act)) m)) q d =
      pool_funds c q d - if (q =? p)%N then amt d0 d else 0).
    { change (left_in (set_funding (fwith_bank (f_in c) bk) a p f1) q d = left_in (f_in c) q d - if (q =? p)%N then amt d0 d else 0). rewrite left_set. change (left_in (fwith_bank (f_in c) bk) q d) with (left_in (f_in c) q d).
      change (fs_fundings (fwith_bank (f_in c) bk)) with (fs_fundings (f_in c)). rewrite Ef, Ep. cbn [fd_amounts]. rewrite amt_csub. destruct (q =? p)%N; lia. }
    rewrite Hnew. unfold plus_at. split; [|intros Hf; specialize (V2 Hf)]; destruct (q =? p)%N; lia.
  Qed.
  Lemma fu_valid c p c' v fp x r y n t : R g c -> is_Some (get_pool c p) -> tally c (get_prop c p) p = TrValid c' v fp x r ->
      E c (ev_tally c (get_prop c p) p ++ ev_finalize (cw_rr c' y) p v fp x r n) (set_prop (finalize (cw_rr c' y) p v) p (bp_none n t)).
  Proof.
    intros HR Hpl Ht w Hw. rewrite fold_left_app, (quiet_all _ (ev_tally _ _ _)) by shape.
    destruct (tally_named g c p c' v fp x r Hg HR Hpl Ht) as (Hv & _ & Hf). intros q d. unfold ev_finalize. cbn [fold_left]. cbn [see_both fst snd ef_status ef_pool ef_funders].
    rewrite Hv. assert (Hs : pool_funds (set_prop (finalize (cw_rr c' y) p v) p (bp_none n t)) q d = pool_funds c' q d).
    { apply pool_funds_eq. change (fs_fundings (c_f (finalize (cw_rr c' y) p v)) = fs_fundings (c_f c')). unfold finalize. by destruct (get_pool (cw_rr c' y) p). }
    rewrite Hs, Hf. unfold plus_at. cbn [fst snd]. destruct (Hw q d) as [V1 V2]. split; [|intros Hb; specialize (V2 Hb)]; destruct (q =? p)%N; lia.
  Qed.
  Lemma fu_leave c p s : E c [EvLeave p s] (s_out c (leave_pool (s_in c) s p)).
  Proof. apply E_quiet; [by repeat constructor|]. by apply fu_same. Qed.
  Lemma fu_incr c p s : E c [EvPoint p s (snd (increment_points (s_in c) p s))] (s_out c (fst (increment_points (s_in c) p s))).
  Proof. apply E_quiet; [by repeat constructor|]. by apply fu_same. Qed.
  Lemma fu_reset c p s : E c (ev_reset c p s) (reset_pts c p s).
  Proof. apply E_quiet; [unfold ev_reset; destruct (0 <? _); by repeat constructor|]. by apply fu_same. Qed.
  Lemma fu_slash c p s t : E c (ev_slash (d_in c) p s t) (d_out c (fst (slash_delegators (d_in c) s t))).
  Proof. apply E_quiet; [by apply sh_slash|]. by apply fu_same. Qed.
  Lemma fu_begin c t pr : same_f c (begin_block c t pr).
  Proof.
    unfold begin_block. set (c0 := cw_time _ _ _). set (c1 := t_out c0 _). set (c2 := match split_inflation c1 pr with Some x => x | None => cw_halt c1 end).
    assert (H2 : c_f c2 = c_f c1). { unfold c2. destruct (split_inflation c1 pr) eqn:Es; [by eapply split_f|done]. }
    cbv zeta. unfold same_f. change (c_f (s_out (d_out c2 ?x) ?y)) with (c_f c2). by rewrite H2.
  Qed.
  Lemma fu_disable c sender p c' : chain_disable_pool c sender p = Some c' -> same_f c c'.
  Proof.
    unfold chain_disable_pool. destruct (disable_record _ _ _) as [ps|]; [|done]. cbv zeta.
    set (c1 := cw_pools c ps). set (c2 := fold_left _ _ _).
    assert (H2 : c_f c2 = c_f c).
    { unfold c2. change (c_f c) with (c_f c1). generalize (members c1 p). intros l. clearbody c1. clear. revert c1.
      induction l as [|s l IH]; intros c1; cbn [fold_left]; [done|]. by rewrite IH. }
    intros H. unfold same_f. rewrite <- H2. revert H. clearbody c2. clear.
    destruct (two64 <=? _); [done|]. destruct (0 <? _); [|by intros [= <-]]. destruct (i64 _ <? 0); [done|]. destruct (send _ _ _ _); [|done]. by intros [= <-].
  Qed.
  Local Ltac still := apply E_quiet; [shape|by apply fu_same].
  Lemma fu_step c o c' : R g c -> cop_ok c o -> cmsg c o = Some c' -> E c (emitted c o) c'.
  Proof.
    intros HR Hok Hm.
    assert (Lp : forall c p b, same_f c (set_prop c p b)) by done.
    assert (Lr : forall c x, same_f c (cw_rr c x)) by done. assert (Lh : forall c, same_f c (cw_halt c)) by done.
    assert (Lb : forall c b, same_f c (cw_bank c b)) by done.
    assert (Lu : forall c, same_f c (cw_pools c (handle_upgrades (c_pools c) (c_time c)))) by done.
    assert (Qd : forall e, ef_status e <> Judged VValid -> quiet see_both (EvFinalized e)).
    { intros e He v. cbn [see_both]. by destruct (ef_status e) as [[]|]. }
    destruct o; cbn [cmsg emitted] in *; try (one_of Hm; still); try (param Hm; still).
    - unfold chain_create_staker in Hm. destruct (msg_delegate _ _ _ _ _); [|done]. destruct (msg_create_staker _ _ _ _) as [st|] eqn:Es; [|done]. injection Hm as <-. still.
    - one_of Hm. unfold msg_create_funder in Em. destruct (bool_decide _); [done|]. injection Em as <-. still.
    - one_of Hm. eapply fu_fund; eauto. by apply Hok.
    - one_of Hm. eapply fu_defund; eauto. by apply Hok.
    - eapply (l_submit g see_both funds_ok same_f); eauto using fu_same, fu_slash, fu_leave, fu_incr, fu_reset, fu_valid; done.
    - eapply (l_vote see_both funds_ok same_f); eauto using fu_same, fu_reset; done.
    - eapply (l_skip g see_both funds_ok same_f); eauto using fu_same, fu_slash, fu_leave, fu_incr, fu_reset, fu_valid; done.
    - eapply (l_claim_role see_both funds_ok same_f); eauto using fu_same; done.
    - unfold chain_create_pool in Hm. destruct (msg_create_pool _ _ _ _ _) as [ps|] eqn:Ep; [|done]. injection Hm as <-. still.
    - apply E_quiet; [shape|]. apply fu_same. by eapply fu_disable.
    - injection Hm as <-. apply E_quiet; [shape|]. apply fu_same, fu_begin.
    - injection Hm as <-. eapply (l_end g Hg see_both funds_ok same_f); eauto using fu_same, fu_slash, fu_leave, fu_incr, fu_reset, fu_valid; done.
    - injection Hm as <-. still.
  Qed.
  Lemma follow_funds ops : cops_ok (gstart g) ops -> let l := elog (gstart g) ops in let c := crun (gstart g) ops in forall p d,
    pool_funds c p d <= fold_left see_fund l (fun _ _ => 0) p d /\ (existsb nothing_named l = false -> fold_left see_fund l (fun _ _ => 0) p d = pool_funds c p d).
  Proof.
    intros Hok. cbv zeta. intros p d. assert (H : funds_ok (crun (gstart g) ops) (fold_left see_both (elog (gstart g) ops) (fun _ _ => 0, false))).
    { apply (follow_run g Hg see_both funds_ok); [|exact fu_step|done]. intros q x. cbn [fst snd]. change (pool_funds (gstart g) q x) with 0. split; [lia|done]. }
    specialize (H p d). by rewrite see_both_split in H.
  Qed.
End funds.
