(** * Who is a funder and who has funded which pool, in terms of the history. *)
From Verif Require Import Base BaseFacts Delegation Stakers Funders FundersInv Team RoundRobin Pool Bundles Chain ChainFrame PoolFrame Walk ParamsFrame.

(** The account was registered, respectively funded the pool, by a message that was accepted. *)
Fixpoint registered (c : chain) (ops : list cop) (a : N) : Prop :=
  match ops with
  | [] => False
  | o :: t => (o = CCreateFunder a /\ is_Some (cmsg c o)) \/ registered (cstep c o) t a
  end.
Fixpoint has_funded (c : chain) (ops : list cop) (a p : N) : Prop :=
  match ops with
  | [] => False
  | o :: t => ((exists x y, o = CFund a p x y) /\ is_Some (cmsg c o)) \/ has_funded (cstep c o) t a p
  end.

Definition fkeys (f : fstate) : gset N * gset (N * N) := (fs_funders f, dom (fs_fundings f)).
Lemma fkeys_set st a p f : (a, p) ∈ dom (fs_fundings st) -> fkeys (set_funding st a p f) = fkeys st.
Proof. intros H. unfold fkeys. cbn. f_equal. rewrite dom_insert_L. set_solver. Qed.
Lemma fkeys_loop l p afs : forall st act pays st' act' pays', (forall a f, (a, f) ∈ afs -> (a, p) ∈ dom (fs_fundings st)) ->
  fold_left (charge_step l p) afs (st, act, pays) = (st', act', pays') -> fkeys st' = fkeys st.
Proof.
  induction afs as [|[a f] afs IH]; intros st act pays st' act' pays' H; cbn [fold_left]; [by intros [= <- <- <-]|].
  unfold charge_step at 2. destruct (charge_one l f) as [f' pay]. intros E.
  assert (Ek : fkeys (set_funding st a p f') = fkeys st) by (apply fkeys_set; eapply H; left).
  rewrite <- Ek. eapply IH; [|exact E]. intros b h Hb. unfold fkeys in Ek. injection Ek as E2. change (fs_fundings (set_funding st a p f')) with (<[(a, p) := f']> (fs_fundings st)). rewrite E2. eapply H. by right.
Qed.
Lemma fkeys_charge st p r : fkeys (fst (charge_funders st p r)) = fkeys st.
Proof.
  unfold charge_funders. destruct (fs_active st !! p) as [l|]; [|done]. destruct (active_fundings st p l) as [|af afs] eqn:E; [done|].
  rewrite <- E. destruct (fold_left _ _ _) as [[st1 act] pays] eqn:Ef.
  assert (H : fkeys st1 = fkeys st).
  { eapply fkeys_loop; [|exact Ef]. intros a f Hf. apply active_fundings_elem in Hf as [_ Hf]. by apply elem_of_dom_2 in Hf. }
  destruct (cempty pays); [done|]. by destruct (send _ _ _ _).
Qed.
Lemma fkeys_slot st p a f l st' l' : ensure_free_slot st p a f l = Some (st', l') -> fkeys st' = fkeys st.
Proof.
  unfold ensure_free_slot. destruct (_ <? _)%nat; [by intros [= <- <-]|]. destruct (lowest_funding _ _) as [[[b fb] s]|] eqn:E; [|done].
  destruct (b =? a)%N; [by intros [= <- <-]|]. destruct (score _ _); [|done]. destruct (_ <? _); [done|].
  destruct (send _ _ _ _) as [bk|]; [|done]. intros [= <- <-]. change (fkeys st) with (fkeys (fwith_bank st bk)). apply fkeys_set. cbn.
  assert (Hin : (b, fb) ∈ active_fundings st p l).
  { assert (H : forall t best bs r zz, lowest_from (wl st) best bs t = Some (r, zz) -> r ∈ best :: t).
    { induction t as [|y t IH]; intros best bs r zz; cbn; [intros [= <- <-]; set_solver|]. destruct (score _ _) as [s'|]; [|done].
      destruct (_ <? _); intros H'%IH; set_solver. }
    unfold lowest_funding in E. destruct (active_fundings st p l) as [|y t]; [done|]. destruct (score _ _); [|done]. by eapply H. }
  apply active_fundings_elem in Hin as [_ Hin]. by apply elem_of_dom_2 in Hin.
Qed.
Lemma fkeys_fund st ex a p x y st' : msg_fund st ex a p x y = Some st' ->
  a ∈ fs_funders st /\ fs_funders st' = fs_funders st /\ dom (fs_fundings st') = {[(a, p)]} ∪ dom (fs_fundings st).
Proof.
  unfold msg_fund. case_bool_decide as Ha; [|done]. cbn [negb]. destruct (negb ex); [done|]. destruct (fs_active st !! p) as [l|]; [|done].
  destruct (ensure_params _ _) as [f1|]; [|done]. destruct (ensure_free_slot _ _ _ _ _) as [[st1 l1]|] eqn:E; [|done].
  apply fkeys_slot in E. unfold fkeys in E. injection E as E1 E2. destruct (send _ _ _ _); [|done]. intros [= <-]. split; [done|]. cbn.
  rewrite dom_insert_L. split; congruence.
Qed.
Lemma fkeys_defund st a p x st' : msg_defund st a p x = Some st' -> fkeys st' = fkeys st.
Proof.
  unfold msg_defund. destruct (fs_fundings st !! (a, p)) as [f|] eqn:E; [|done]. destruct (match fs_active st !! p with Some l => _ | None => _ end) as [[sp act] m].
  destruct (cempty _); [done|]. destruct (ensure_params _ _); [|done]. destruct (send _ _ _ _); [|done]. intros [= <-].
  unfold fkeys. cbn. f_equal. rewrite dom_insert_L. apply elem_of_dom_2 in E. set_solver.
Qed.

(** ** The chain *)
Definition fk (c c' : chain) : Prop := fkeys (c_f c') = fkeys (c_f c).
Lemma fk_refl c : fk c c. Proof. done. Qed.
Lemma fk_trans a b c : fk a b -> fk b c -> fk a c. Proof. unfold fk. congruence. Qed.
Lemma fk_pay c u r : match pay_out c u r with inl c' | inr c' => fk c c' end.
Proof.
  unfold pay_out. destruct (send _ _ _ _) as [bk|]; [|done].
  destruct (increase_commission_rewards _ _ _ _) as [s'|] eqn:E; [|done]. by destruct (payout_rewards _ _ _ _).
Qed.
Lemma fk_infl c p c' x : charge_inflation c p = Some (c', x) -> fk c c'.
Proof. unfold charge_inflation. repeat case_match; intros; simplify_eq; done. Qed.
Lemma fk_final c p v : fk c (finalize c p v).
Proof. unfold finalize. by destruct (get_pool c p). Qed.
Lemma fk_fund c p : fk c (f_out c (fst (charge_funders (f_in c) p MPool))).
Proof. unfold fk. cbn. by rewrite fkeys_charge. Qed.
Ltac fwalk l := apply (l fk fk_refl fk_trans); try exact fk_pay; try exact fk_infl; try exact fk_final; try exact fk_fund; try done.
Lemma fk_split c pr c' : split_inflation c pr = Some c' -> fk c c'.
Proof.
  assert (Hg : forall c p x c', give c p x = Some c' -> fk c c').
  { intros c0 p x c0'. unfold give. destruct (i64 x <? 0); [done|]. by destruct (send _ _ _ _); intros [= <-]. }
  assert (Hs : forall l c t pr d c' d', split_loop c t pr d l = Some (c', d') -> fk c c').
  { induction l as [|p l IH]; intros c0 t pr0 d c0' d'; simpl; [by intros [= <- <-]|].
    destruct (can_run c0 p); [|apply IH]. destruct (pool_share _ _ _) as [x|]; [|done].
    destruct (give c0 p x) as [c1|] eqn:Eg; [|done]. apply Hg in Eg. intros H. apply IH in H. by eapply fk_trans. }
  assert (Hr : forall l c x c', remainder_loop c x l = Some c' -> fk c c').
  { induction l as [|p l IH]; intros c0 x c0'; simpl; [by intros [= <-]|].
    destruct (can_run c0 p); [apply IH|].
    destruct (give c0 p x) as [c1|] eqn:Eg; [|done]. apply Hg in Eg. intros H. apply IH in H. by eapply fk_trans. }
  unfold split_inflation. destruct (block_provision _ _ _) as [[h team]|]; [|done].
  destruct (trunc64 _) as [protocol|]; [|done].
  set (c0 := if h then cw_halt c else c). assert (Hc0 : fk c c0) by (unfold c0; by destruct h).
  destruct (protocol =? 0); [by intros [= <-]|]. destruct (total_weight c0 =? 0); [by intros [= <-]|].
  destruct (split_loop _ _ _ _ _) as [[c1 d]|] eqn:Es; [|done]. apply Hs in Es.
  destruct (0 <? _).
  - intros H. apply Hr in H. eapply fk_trans; [exact Hc0|]. by eapply fk_trans.
  - intros [= <-]. by eapply fk_trans.
Qed.
Definition no_funding (o : cop) : bool := match o with CCreateFunder _ | CFund _ _ _ _ => false | _ => true end.
Lemma fkeys_frame c o : no_funding o = true -> fk c (cstep c o).
Proof.
  intros Ho. unfold cstep. destruct (cmsg c o) as [c'|] eqn:E; [|done]. change (default c (Some c')) with c'.
  destruct o; cbn [cmsg no_funding] in E, Ho; try done;
    try (match type of E with ?f <$> ?x = _ => destruct x as [y|] eqn:Ex; [injection E as <-|done] end);
    try (exact eq_refl); try (by destruct (_ =? _)%N; [injection E as <-|]).
  - unfold chain_create_staker in E. destruct (msg_delegate _ _ _ _ _) as [d|] eqn:Ed; [|done].
    destruct (msg_create_staker _ _ _ _) as [s'|] eqn:Es; [|done]. by injection E as <-.
  - unfold fk. cbn. by rewrite (fkeys_defund _ _ _ _ _ Ex).
  - revert E. fwalk k_submit.
  - revert E. apply (k_vote fk fk_trans); done.
  - revert E. fwalk k_skip.
  - unfold msg_claim_role in E. repeat (destruct (negb _); [done|]). by injection E as <-.
  - unfold chain_create_pool in E. destruct (msg_create_pool _ _ _ _ _); [|done]. by injection E as <-.
  - unfold chain_disable_pool in E. destruct (disable_record _ _ _) as [ps|]; [|done]. cbv zeta in E. set (c2 := fold_left _ _ _) in E.
    assert (H2 : fk c c2).
    { unfold c2. apply (fk_trans _ (cw_pools c ps)); [done|]. apply (k_fold fk fk_refl fk_trans). done. }
    destruct (_ <=? _); [done|]. destruct (0 <? _); [|by injection E as <-]. destruct (i64 _ <? 0); [done|].
    destruct (send _ _ _ _); [|done]. injection E as <-. eapply fk_trans; [exact H2|done].
  - injection E as <-. unfold begin_block. set (c0 := cw_time _ _ _). set (c1 := t_out c0 _).
    set (c2 := match split_inflation c1 _ with Some x => x | None => cw_halt c1 end).
    assert (Hb : fk c1 c2). { unfold c2. destruct (split_inflation c1 _) eqn:E; [|done]. by apply fk_split in E. }
    clearbody c2. unfold fk in *. exact Hb.
  - injection E as <-. unfold end_block. set (c1 := cw_pools _ _). apply (fk_trans _ c1); [done|].
    apply (fk_trans _ (handle_upload_timeout c1)); [fwalk k_handle_timeout|].
    unfold burn_fees. destruct (c_height _ =? 1); [done|]. destruct (c_burn _ =? 0); [done|]. by destruct (burn _ _ _).
  - by injection E as <-.
Qed.
Lemma registered_run ops : forall c a, a ∈ fs_funders (c_f (crun c ops)) <-> a ∈ fs_funders (c_f c) \/ registered c ops a.
Proof.
  induction ops as [|o t IH]; intros c a; cbn [crun registered]; [tauto|]. rewrite IH.
  assert (H : a ∈ fs_funders (c_f (cstep c o)) <-> a ∈ fs_funders (c_f c) \/ (o = CCreateFunder a /\ is_Some (cmsg c o))); [|rewrite H; tauto].
  destruct (no_funding o) eqn:En.
  { pose proof (fkeys_frame c o En) as E. unfold fk, fkeys in E. injection E as -> _. split; [by left|]. intros [H|[-> _]]; [done|done]. }
  destruct o; try done; unfold cstep; cbn [cmsg].
  - destruct (msg_create_funder (f_in c) a0) as [st|] eqn:E; cbn.
    + unfold msg_create_funder in E. case_bool_decide; [done|]. injection E as <-. cbn. rewrite elem_of_union, elem_of_singleton.
      split; intros [?|H']; auto; [right; split; [by subst|eauto]|]. destruct H' as [[= ->] _]. by right.
    + split; [by left|]. intros [?|[_ [? ?]]]; done.
  - destruct (msg_fund _ _ _ _ _ _) as [st|] eqn:E; cbn.
    + apply fkeys_fund in E as (_ & -> & _). cbn. split; [by left|]. intros [?|[? _]]; done.
    + split; [by left|]. intros [?|[? _]]; done.
Qed.
Lemma funded_run ops : forall c a p, (a, p) ∈ dom (fs_fundings (c_f (crun c ops))) <-> (a, p) ∈ dom (fs_fundings (c_f c)) \/ has_funded c ops a p.
Proof.
  induction ops as [|o t IH]; intros c a p; cbn [crun has_funded]; [tauto|]. rewrite IH.
  assert (H : (a, p) ∈ dom (fs_fundings (c_f (cstep c o))) <-> (a, p) ∈ dom (fs_fundings (c_f c)) \/ ((exists x y, o = CFund a p x y) /\ is_Some (cmsg c o))); [|rewrite H; tauto].
  destruct (no_funding o) eqn:En.
  { pose proof (fkeys_frame c o En) as E. unfold fk, fkeys in E. injection E as _ ->. split; [by left|]. intros [H|[(x & y & ->) _]]; [done|done]. }
  destruct o; try done; unfold cstep; cbn [cmsg].
  - destruct (msg_create_funder (f_in c) a0) as [st|] eqn:E; cbn.
    + unfold msg_create_funder in E. case_bool_decide; [done|]. injection E as <-. cbn.
      split; [by left|]. intros [?|[(x & y & ?) _]]; done.
    + split; [by left|]. intros [?|[_ [? ?]]]; done.
  - destruct (msg_fund _ _ _ _ _ _) as [st|] eqn:E; cbn.
    + apply fkeys_fund in E as (_ & _ & ->). cbn. rewrite elem_of_union, elem_of_singleton. split.
      * intros [[= -> ->]|?]; [right; split; eauto|by left].
      * intros [?|[(x & y & [= -> -> -> ->]) _]]; auto.
    + split; [by left|]. intros [?|[_ [? ?]]]; done.
Qed.
(** Only funders have fundings. *)
Definition funders_only (c : chain) : Prop := forall a p, (a, p) ∈ dom (fs_fundings (c_f c)) -> a ∈ fs_funders (c_f c).
Lemma funders_only_step c o : funders_only c -> funders_only (cstep c o).
Proof.
  intros H a p. destruct (no_funding o) eqn:En.
  { pose proof (fkeys_frame c o En) as E. unfold fk, fkeys in E. injection E as -> ->. apply H. }
  destruct o; try done; unfold cstep; cbn [cmsg].
  - destruct (msg_create_funder (f_in c) a0) as [st|] eqn:E; cbn; [|apply H].
    unfold msg_create_funder in E. case_bool_decide; [done|]. injection E as <-. cbn. intros H'%H. set_solver.
  - destruct (msg_fund _ _ _ _ _ _) as [st|] eqn:E; cbn; [|apply H].
    apply fkeys_fund in E as (Ha & -> & ->). cbn in *. rewrite elem_of_union, elem_of_singleton. intros [[= -> ->]|?]; [done|by eapply H].
Qed.
Lemma funders_only_run ops : forall c, funders_only c -> funders_only (crun c ops).
Proof. induction ops as [|o t IH]; intros c H; cbn; [done|]. apply IH. by apply funders_only_step. Qed.
