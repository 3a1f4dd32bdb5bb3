(** * What single events say (C76), continued: pools that run out of funds, lists of pools, and the
    contents of plain messages. *)
From Verif Require Import Base BaseFacts Delegation Stakers Funders Team RoundRobin Pool Bundles Chain ChainFrame ChainLift Walk ArchiveInv PaySafe PayFlow
  FundersInv Events EventWalk EventFollow EventStakers EventFunds.

(** The active funders of a pool. *)
Definition payers (c : chain) (p : N) : list N := default [] (fs_active (c_f c) !! p).
Definition see_empty (v : N -> bool) (e : event) : N -> bool :=
  match e with EvOutOfFunds p => fun q => (q =? p)%N || v q | _ => v end.
Lemma see_empty_in l v p : fold_left see_empty l v p = true <-> EvOutOfFunds p ∈ l \/ v p = true.
Proof.
  revert v. induction l as [|e l IH]; intros v; cbn [fold_left].
  { split; [by right|]. by intros [?%elem_of_nil|?]. }
  rewrite IH, elem_of_cons. destruct e; cbn [see_empty]; try (split; intros [H|H]; auto; destruct H as [H|H]; [discriminate H|auto]).
  rewrite orb_true_iff, N.eqb_eq. split.
  - intros [H|[<-|H]]; auto.
  - intros [[[= <-]|H]|H]; auto.
Qed.

Lemma pay_f c u r : match pay_out c u r with inl c' | inr c' => c_f c' = c_f c end.
Proof.
  unfold pay_out. destruct (send _ _ _ _) as [bk|]; [|done]. destruct (increase_commission_rewards _ _ _ _) as [s|]; [|done]. by destruct (payout_rewards _ _ _ _).
Qed.

Section out.
  Context (g : gen) (Hg : genesis g) (c0 : chain).
  Definition dry (c : chain) (v : N -> bool) : Prop := forall p, (v p = true <-> payers c0 p <> [] /\ payers c p = []) /\ (payers c0 p = [] -> payers c p = []).
  Local Notation E := (E see_empty dry).
  Definition same_a (c c' : chain) : Prop := forall p, payers c' p = payers c p.
  Lemma ou_same c c' : same_a c c' -> E c [] c'.
  Proof. intros H v Hv p. cbn [fold_left]. rewrite H. apply Hv. Qed.
  Lemma ou_charge c p : E c (ev_charge (f_in c) p) (f_out c (fst (charge_funders (f_in c) p MPool))).
  Proof.
    unfold ev_charge. assert (Hone : forall q, q <> p -> fs_active (fst (charge_funders (f_in c) p MPool)) !! q = fs_active (f_in c) !! q).
    { intros q Hq. unfold charge_funders. destruct (fs_active (f_in c) !! p) as [l|]; [|done]. destruct (active_fundings _ _ _) as [|a afs]; [done|].
      assert (Hf : forall afs st act pays, fs_active (fst (fst (fold_left (charge_step (wl (f_in c)) p) afs (st, act, pays)))) = fs_active st).
      { clear. induction afs as [|[a f] afs IH]; intros st act pays; cbn [fold_left]; [done|]. unfold charge_step at 2. destruct (charge_one _ _). by rewrite IH. }
      specialize (Hf (a :: afs) (f_in c) l ∅). destruct (fold_left _ _ _) as [[st1 act] pays]. cbn [fst] in Hf.
      assert (Hs : forall z, fs_active (set_fstate st1 p z) !! q = fs_active (f_in c) !! q). { intros z. cbn. rewrite lookup_insert_ne by done. by rewrite Hf. }
      destruct (cempty pays); [apply Hs|]. destruct (send _ _ _ _); apply Hs. }
    assert (Hown : forall l, fs_active (f_in c) !! p = Some l -> active_fundings (f_in c) p l <> [] -> is_Some (fs_active (fst (charge_funders (f_in c) p MPool)) !! p)).
    { intros l El Hne. unfold charge_funders. rewrite El. destruct (active_fundings _ _ _) as [|a afs]; [done|]. destruct (fold_left _ _ _) as [[st1 act] pays].
      destruct (cempty pays); [cbn; rewrite lookup_insert; eauto|]. destruct (send _ _ _ _); cbn; rewrite lookup_insert; eauto. }
    destruct (fs_active (f_in c) !! p) as [l|] eqn:El.
    2: { apply ou_same. intros q. unfold payers. change (c_f (f_out c ?x)) with x. unfold charge_funders. by rewrite El. }
    destruct (active_fundings (f_in c) p l) as [|a afs] eqn:Ea.
    { apply ou_same. intros q. unfold payers. change (c_f (f_out c ?x)) with x. unfold charge_funders. by rewrite El, Ea. }
    destruct (Hown l eq_refl ltac:(by rewrite Ea)) as [l' Hl']. assert (Hl : l <> []). { intros ->. done. }
    intros v Hv q. set (f' := fst _) in *. unfold payers. change (c_f (f_out c f')) with f'. clearbody f'.
    destruct (decide (q = p)) as [->|Hne].
    - destruct (Hv p) as [V1 V2]. unfold payers in V1, V2. change (fs_active (c_f c)) with (fs_active (f_in c)) in V1, V2. rewrite El in V1, V2. cbn [default] in V1, V2. change (default [] (Some l)) with l in *.
      rewrite Hl'. change (default [] (Some l')) with l'. destruct l' as [|x l'].
      + cbn [fold_left see_empty]. rewrite N.eqb_refl. cbn. split; [|done]. split; [|done]. intros _. split; [|done]. intros H0. by apply V2 in H0.
      + cbn [fold_left]. split; [|by intros H0; apply V2 in H0]. split; [|by intros [_ ?]]. intros H. apply V1 in H as [_ H]. done.
    - assert (Hq : fold_left see_empty match fs_active f' !! p with Some [] => [EvOutOfFunds p] | _ => [] end v q = v q).
      { rewrite Hl'. destruct l'; [|done]. cbn. by rewrite (proj2 (N.eqb_neq q p) Hne). }
      rewrite Hq, (Hone q Hne). apply (Hv q).
  Qed.
  Lemma ou_valid c p c' v fp x r y n t : R g c -> is_Some (get_pool c p) -> tally c (get_prop c p) p = TrValid c' v fp x r ->
      E c (ev_tally c (get_prop c p) p ++ ev_finalize (cw_rr c' y) p v fp x r n) (set_prop (finalize (cw_rr c' y) p v) p (bp_none n t)).
  Proof.
    intros _ _ Et. eapply E_trans.
    - eapply (e_valid E); [apply E_refl|apply E_trans|..|exact Et].
      + intros. apply E_quiet; [by apply sh_slash|]. by apply ou_same.
      + intros. apply E_quiet; [by repeat constructor|]. by apply ou_same.
      + intros. apply E_quiet; [by repeat constructor|]. by apply ou_same.
      + apply ou_charge.
      + intros c1 q c2 z Hc. apply ou_same. unfold charge_inflation in Hc. destruct (inflation_payout _ _); [|done]. destruct (_ <? 0); [done|]. by destruct (send _ _ _ _); injection Hc as <- <-.
      + intros c1 u q. pose proof (pay_f c1 u q) as H. destruct (pay_out c1 u q); apply ou_same; intros a; unfold payers; by rewrite H.
    - apply E_quiet; [by repeat constructor|]. apply ou_same. intros q. unfold payers. change (c_f (set_prop ?a _ _)) with (c_f a). unfold finalize. by destruct (get_pool _ _).
  Qed.
  Lemma ou_quiet c e c' : Forall (quiet see_empty) e -> same_a c c' -> E c e c'.
  Proof. intros H1 H2. apply E_quiet; [done|by apply ou_same]. Qed.
  Lemma ou_slash c p s t : E c (ev_slash (d_in c) p s t) (d_out c (fst (slash_delegators (d_in c) s t))).
  Proof. apply ou_quiet; [by apply sh_slash|done]. Qed.
  Lemma ou_leave c p s : E c [EvLeave p s] (s_out c (leave_pool (s_in c) s p)).
  Proof. apply ou_quiet; [by repeat constructor|done]. Qed.
  Lemma ou_incr c p s : E c [EvPoint p s (snd (increment_points (s_in c) p s))] (s_out c (fst (increment_points (s_in c) p s))).
  Proof. apply ou_quiet; [by repeat constructor|done]. Qed.
  Lemma ou_reset c p s : E c (ev_reset c p s) (reset_pts c p s).
  Proof. apply ou_quiet; [unfold ev_reset; destruct (0 <? _); by repeat constructor|done]. Qed.
  Lemma f_same c c' : c_f c' = c_f c -> same_a c c'. Proof. intros H p. unfold payers. by rewrite H. Qed.
  Local Ltac still := apply ou_quiet; [shape|by apply f_same].
  Lemma ou_step c o c' : R g c -> (forall a p x, o <> CDefund a p x) -> (forall a p x y, o <> CFund a p x y) -> cmsg c o = Some c' -> E c (emitted c o) c'.
  Proof.
    intros HR Hnd Hnf Hm.
    assert (Lp : forall c p b, same_a c (set_prop c p b)) by done.
    assert (Lr : forall c x, same_a c (cw_rr c x)) by done. assert (Lh : forall c, same_a c (cw_halt c)) by done.
    assert (Lb : forall c b, same_a c (cw_bank c b)) by done.
    assert (Lu : forall c, same_a c (cw_pools c (handle_upgrades (c_pools c) (c_time c)))) by done.
    assert (Qd : forall e, ef_status e <> Judged VValid -> quiet see_empty (EvFinalized e)) by done.
    destruct o; cbn [cmsg emitted] in *; try (one_of Hm; still); try (param Hm; still).
    - unfold chain_create_staker in Hm. destruct (msg_delegate _ _ _ _ _); [|done]. destruct (msg_create_staker _ _ _ _) as [st|] eqn:Es; [|done]. injection Hm as <-. still.
    - one_of Hm. unfold msg_create_funder in Em. destruct (bool_decide _); [done|]. injection Em as <-. apply ou_quiet; [shape|done].
    - by destruct (Hnf a p amounts apb).
    - by destruct (Hnd a p amounts).
    - eapply (l_submit g see_empty dry same_a); eauto using ou_same, ou_slash, ou_leave, ou_incr, ou_reset, ou_valid; done.
    - eapply (l_vote see_empty dry same_a); eauto using ou_same, ou_reset; done.
    - eapply (l_skip g see_empty dry same_a); eauto using ou_same, ou_slash, ou_leave, ou_incr, ou_reset, ou_valid; done.
    - eapply (l_claim_role see_empty dry same_a); eauto using ou_same; done.
    - unfold chain_create_pool in Hm. destruct (msg_create_pool _ _ _ _ _) as [ps|] eqn:Ep; [|done]. injection Hm as <-. apply ou_quiet; [shape|].
      intros q. unfold payers. cbn. destruct HR as (HG & _). destruct (decide (q = ps_count (c_pools c))) as [->|Hne].
      + rewrite lookup_insert. destruct (fs_active (c_f c) !! ps_count (c_pools c)) eqn:Ea; [|done]. exfalso. assert (ps_count (c_pools c) < ps_count (c_pools c))%N; [|lia]. apply (g_link _ _ HG). by eexists.
      + by rewrite lookup_insert_ne.
    - apply ou_quiet; [shape|]. intros q. unfold chain_disable_pool in Hm. destruct (disable_record _ _ _) as [ps|]; [|done]. revert Hm. cbv zeta.
      set (c1 := cw_pools c ps). set (c2 := fold_left _ _ _).
      assert (H2 : c_f c2 = c_f c).
      { unfold c2. change (c_f c) with (c_f c1). generalize (members c1 p). intros l. clearbody c1. clear. revert c1.
        induction l as [|s l IH]; intros c1; cbn [fold_left]; [done|]. by rewrite IH. }
      intros H. unfold payers. rewrite <- H2. revert H. clearbody c2. clear.
      destruct (two64 <=? _); [done|]. destruct (0 <? _); [|by intros [= <-]]. destruct (i64 _ <? 0); [done|]. destruct (send _ _ _ _); [|done]. by intros [= <-].
    - param Hm. apply ou_quiet; [shape|done].
    - injection Hm as <-. apply ou_quiet; [shape|]. apply f_same. unfold begin_block. set (c3 := cw_time _ _ _). set (c1 := t_out c3 _). set (c2 := match split_inflation c1 provision with Some x => x | None => cw_halt c1 end).
      assert (H2 : c_f c2 = c_f c1). { unfold c2. destruct (split_inflation c1 provision) eqn:Es; [by eapply split_f|done]. }
      cbv zeta. change (c_f (s_out (d_out c2 ?x) ?y)) with (c_f c2). by rewrite H2.
    - injection Hm as <-. eapply (l_end g Hg see_empty dry same_a); eauto using ou_same, ou_slash, ou_leave, ou_incr, ou_reset, ou_valid; done.
    - injection Hm as <-. still.
  Qed.
End out.
(** A pool runs out of funds in a step, other than by a funder who takes the rest back, iff the event is published. *)
Lemma out_of_funds g : genesis g -> forall ops o p, cops_ok (gstart g) ops -> let c := crun (gstart g) ops in
  EvOutOfFunds p ∈ events c o <-> payers c p <> [] /\ payers (cstep c o) p = [] /\ forall a x, o <> CDefund a p x.
Proof.
  intros Hg ops o p Hok c. assert (HR : R g c) by by apply R_run. unfold events, cstep. destruct (cmsg c o) as [c'|] eqn:Ec.
  2: { split; [by intros ?%elem_of_nil|]. by intros (H1 & H2 & _). }
  cbn [default]. change (default c (Some c')) with c'.
  assert (Hno : forall l, Forall (fun x => forall q, x <> EvOutOfFunds q) l -> EvOutOfFunds p ∈ l -> False). { intros l Hl Hin. rewrite Forall_forall in Hl. by apply (Hl _ Hin p). }
  assert (Hstd : (forall a p x, o <> CDefund a p x) -> (forall a p x y, o <> CFund a p x y) -> EvOutOfFunds p ∈ emitted c o <-> payers c p <> [] /\ payers c' p = [] /\ forall a x, o <> CDefund a p x).
  { intros H1 H2. pose proof (ou_step g Hg c c o c' HR H1 H2 Ec (fun _ => false)) as H. destruct (H ltac:(intros q; split; [|done]; split; [done|by intros [? ?]]) p) as [Hv _].
    rewrite see_empty_in in Hv. split.
    - intros Hin. destruct (proj1 Hv (or_introl Hin)) as [? ?]. auto.
    - intros (H3 & H4 & _). destruct (proj2 Hv (conj H3 H4)) as [?|?]; done. }
  destruct o; try (apply Hstd; done); cbn [emitted cmsg] in *.
  - split.
    + intros Hin. exfalso. revert Hin. apply Hno. by apply sh_fund.
    + intros (H1 & H2 & _). exfalso. one_of Ec. unfold msg_fund in Em. destruct (negb _); [done|]. destruct (negb _); [done|]. destruct (fs_active (f_in c) !! p0) as [act|] eqn:Ea; [|done].
      destruct (ensure_params _ _); [|done]. destruct (ensure_free_slot _ _ _ _ _) as [[st1 act1]|] eqn:Es; [|done]. destruct (send _ _ _ _) as [bk|]; [|done]. injection Em as <-.
      assert (H3 : fs_active st1 = fs_active (f_in c)).
      { unfold ensure_free_slot in Es. destruct (_ <? _)%nat; [by injection Es as <- <-|]. destruct (lowest_funding _ _) as [[[b fb] lo]|]; [|done]. destruct (_ =? _)%N; [by injection Es as <- <-|].
        destruct (score _ _); [|done]. destruct (_ <? _); [done|]. destruct (send _ _ _ _); [|done]. by injection Es as <- <-. }
      unfold payers in *. cbn in H2. destruct (decide (p = p0)) as [->|Hne].
      * rewrite lookup_insert in H2. cbn in H2. unfold set_active in H2. destruct (index_of a act1) eqn:Ei; [|by destruct act1]. subst act1. done.
      * rewrite lookup_insert_ne in H2 by done. rewrite H3 in H2. done.
  - split.
    + intros Hin. exfalso. revert Hin. apply Hno. by apply sh_defund.
    + intros (H1 & H2 & H3). exfalso. one_of Ec. destruct (decide (p = p0)) as [->|Hne]; [by apply (H3 a amounts)|].
      unfold msg_defund in Em. destruct (fs_fundings (f_in c) !! (a, p0)) as [fd|] eqn:Ef; [|done].
      destruct HR as (HG & _). pose proof (G_FInv g Hg c HG) as HI. destruct (fi_state _ _ HI _ _ _ Ef) as [act Ea]. change (fs_active (f_in c) !! p0 = Some act) in Ea. rewrite Ea in Em.
      destruct (cempty _); [done|]. destruct (ensure_params _ _); [|done]. destruct (send _ _ _ _); [|done]. injection Em as <-.
      unfold payers in *. cbn in H2. by rewrite lookup_insert_ne in H2 by done.
Qed.
