(** * The F1 bookkeeping of x/delegation refines the plain ledger of F1Spec. *)
From Verif Require Import Base BaseFacts Delegation F1Spec.

Ltac Zify.zify_post_hook ::= Z.div_mod_to_equations.

Definition ent (f : f1) (k : N) : coins := default ∅ (f_entries f !! k).

(** Slashes a delegator that started at [k] has been through. *)
Definition mysl (f : f1) (k : N) : list (N * Z) :=
  List.filter (fun p => (k <=? fst p)%N) (f_slashes f).

Fixpoint replay (E : gmap N coins) (prev : N) (b : Z) (acc : coins) (sl : list (N * Z))
  : N * Z * coins :=
  match sl with
  | [] => (prev, b, acc)
  | (k, fr) :: t =>
      replay E k (b - dec_mul_trunc b fr)
        (cadd acc (times (csub (default ∅ (E !! k)) (default ∅ (E !! prev))) b)) t
  end.

Definition linked (E : gmap N coins) (lo hi : N) : Prop :=
  exists va vb, E !! lo = Some va /\ E !! hi = Some vb /\ cle va vb = true.

Fixpoint chain (E : gmap N coins) (prev : N) (sl : list (N * Z)) (hi : N) : Prop :=
  match sl with
  | [] => linked E prev hi
  | (k, _) :: t => linked E prev k /\ chain E k t hi
  end.

(** ** Small facts *)
Lemma times_zero c : times c 0 = ∅.
Proof.
  apply coins_ext; [apply cnz_cmap|apply cnz_empty|]. intros d.
  unfold times. rewrite amt_cmap; unfold dec_mul; rewrite ?Z.mul_0_r, ?amt_empty; done.
Qed.

Lemma safe_mul_times c b : safe_mul_dec c b = times c b.
Proof.
  unfold safe_mul_dec. destruct (b =? 0) eqn:E; [|done].
  apply Z.eqb_eq in E as ->. by rewrite times_zero.
Qed.

Lemma csub_diag c : csub c c = ∅.
Proof.
  apply coins_ext; [apply cnz_cmerge|apply cnz_empty|]. intros d.
  rewrite amt_csub, amt_empty. lia.
Qed.

Lemma cadd_csub_assoc pv a b : csub (cadd pv a) b = cadd (csub a b) pv.
Proof.
  apply coins_ext; [apply cnz_cmerge|apply cnz_cmerge|]. intros d.
  rewrite amt_csub, !amt_cadd, amt_csub. lia.
Qed.

Lemma dec_mul_trunc_div b fr : 0 <= b -> 0 <= fr -> dec_mul_trunc b fr = b * fr / ONE.
Proof. intros. unfold dec_mul_trunc. apply Z.quot_div_nonneg; auto; nia. Qed.

Lemma slash_le b fr : 0 <= b -> 0 <= fr <= ONE -> 0 <= dec_mul_trunc b fr <= b.
Proof.
  intros Hb Hfr. destruct (dec_mul_trunc_spec b fr) as [? [? _]]; [lia..|].
  unfold ONE in *. split; nia.
Qed.

Lemma last_balance_cons init p ps :
  last_balance init (p :: ps) = last_balance (snd p) ps.
Proof. done. Qed.

Lemma last_balance_periods init prev b sl hi E acc :
  last_balance init (periods prev b sl hi) = snd (fst (replay E prev b acc sl)).
Proof.
  revert init prev b acc. induction sl as [|[k fr] t IH]; intros init prev b acc; simpl.
  - done.
  - apply (IH b).
Qed.

Lemma sum_rewards_replay f prev b sl hi acc bad :
  chain (f_entries f) prev sl hi ->
  List.fold_left (reward_step f) (periods prev b sl hi) (acc, bad)
  = (let '(p, b', acc') := replay (f_entries f) prev b acc sl in
     cadd acc' (times (csub (ent f hi) (ent f p)) b'), bad).
Proof.
  revert prev b acc bad. induction sl as [|[k fr] t IH]; intros prev b acc bad Hch; simpl in *.
  - destruct Hch as (va & vb & Ha & Hb & Hle). unfold reward_step, f1_entry_diff, ent.
    rewrite Ha, Hb. simpl. rewrite Hle. simpl. rewrite orb_false_r, safe_mul_times. done.
  - destruct Hch as [(va & vb & Ha & Hb & Hle) Hch].
    rewrite Ha, Hb. simpl. rewrite Hle. simpl.
    rewrite orb_false_r, safe_mul_times. by apply IH.
Qed.

Lemma replay_ext E E' prev b acc sl :
  E !! prev = E' !! prev -> (forall k fr, In (k, fr) sl -> E !! k = E' !! k) ->
  replay E prev b acc sl = replay E' prev b acc sl.
Proof.
  revert prev b acc. induction sl as [|[k fr] t IH]; intros prev b acc Hp Hk; simpl; [done|].
  rewrite Hp, (Hk k fr) by (by left).
  apply IH; [by eapply Hk; left|]. intros k' fr' Hin. by apply (Hk k' fr'); right.
Qed.

Lemma replay_snoc E prev b acc sl k fr :
  replay E prev b acc (sl ++ [(k, fr)])
  = let '(p, b', acc') := replay E prev b acc sl in
    (k, b' - dec_mul_trunc b' fr,
     cadd acc' (times (csub (default ∅ (E !! k)) (default ∅ (E !! p))) b')).
Proof.
  revert prev b acc. induction sl as [|[k' fr'] t IH]; intros prev b acc; simpl; [done|].
  apply IH.
Qed.

Lemma chain_ext_new E E' prev sl hi hi' :
  chain E prev sl hi ->
  E' !! prev = E !! prev -> (forall k fr, In (k, fr) sl -> E' !! k = E !! k) ->
  (forall v, E !! hi = Some v -> exists v', E' !! hi' = Some v' /\
             forall x, amt v x <= amt v' x) ->
  (forall k v, E !! k = Some v -> forall x, 0 <= amt v x) ->
  chain E' prev sl hi'.
Proof.
  intros Hch Hp Hk Hhi Hnn. revert prev Hch Hp. induction sl as [|[k fr] t IH]; intros prev; simpl.
  - intros (va & vb & Ha & Hb & Hle) Hp.
    destruct (Hhi vb Hb) as (v' & Hv' & Hx). exists va, v'.
    rewrite Hp. split_and!; [done..|].
    rewrite cle_spec in *. intros d x Hd. specialize (Hle d x Hd). specialize (Hx d). lia.
  - intros [(va & vb & Ha & Hb & Hle) Hch] Hp. split.
    + exists va, vb. rewrite Hp, (Hk k fr) by (by left). done.
    + apply IH; [|done|by apply (Hk k fr); left].
      intros k' fr' Hin. by apply (Hk k' fr'); right.
Qed.

Lemma chain_snoc E prev sl hi k fr :
  chain E prev (sl ++ [(k, fr)]) hi <-> chain E prev sl k /\ linked E k hi.
Proof.
  revert prev. induction sl as [|[k' fr'] t IH]; intros prev; simpl; [done|].
  rewrite IH. tauto.
Qed.

Lemma chain_hi E prev sl hi : chain E prev sl hi -> is_Some (E !! hi).
Proof.
  revert prev. induction sl as [|[k' fr'] t IH]; intros prev; simpl.
  - intros (va & vb & _ & Hb & _). eauto.
  - intros [_ Hch]. eauto.
Qed.

Lemma chain_prev E prev sl hi : chain E prev sl hi -> is_Some (E !! prev).
Proof.
  destruct sl as [|[k' fr'] t]; simpl.
  - intros (va & vb & Ha & _). eauto.
  - intros [(va & vb & Ha & _) _]. eauto.
Qed.

Lemma replay_fst E prev b acc sl :
  fst (fst (replay E prev b acc sl)) = prev \/
  In (fst (fst (replay E prev b acc sl))) (map fst sl).
Proof.
  revert prev b acc. induction sl as [|[k fr] t IH]; intros prev b acc; simpl; [by left|].
  destruct (IH k (b - dec_mul_trunc b fr)
             (cadd acc (times (csub (default ∅ (E !! k)) (default ∅ (E !! prev))) b))) as [H|H];
    rewrite ?H; right; [by left|by right].
Qed.

Lemma slashes_between_mysl f lo hi :
  Forall (fun p => (fst p <= hi)%N) (f_slashes f) -> slashes_between f lo hi = mysl f lo.
Proof.
  unfold slashes_between, mysl. induction (f_slashes f) as [|p t IH]; intros Hf; simpl; [done|].
  inversion Hf as [|? ? H1 H2]; subst. rewrite IH by done.
  replace (fst p <=? hi)%N with true by lia. by rewrite andb_true_r.
Qed.

Lemma mysl_none f k :
  Forall (fun p => (fst p < k)%N) (f_slashes f) -> mysl f k = [].
Proof.
  unfold mysl. induction (f_slashes f) as [|p t IH]; intros Hf; simpl; [done|].
  inversion Hf as [|? ? H1 H2]; subst. rewrite IH by done.
  by replace (k <=? fst p)%N with false by lia.
Qed.

Lemma mysl_in f k k' fr : In (k', fr) (mysl f k) -> In k' (map fst (f_slashes f)).
Proof. unfold mysl. rewrite filter_In. intros [H _]. by apply (in_map fst) in H. Qed.

(** ** The relation *)
Record Rel (f : f1) (l : ledger) : Prop := {
  r_halt : f_halt f = false;
  r_total : dd_total (get_dd f) = lg_total l;
  r_rew : dd_rewards (get_dd f) = lg_rewards l;
  r_count : dd_count (get_dd f) = Z.of_nat (size (f_delegators f));
  r_tnn : 0 <= lg_total l;
  r_rpos : cpos (lg_rewards l);
  r_epos : forall k v, f_entries f !! k = Some v -> cpos v;
  r_none : f_data f = None -> f_delegators f = ∅ /\ f_slashes f = [];
  r_slk : Forall (fun p => (fst p <= dd_latest (get_dd f))%N /\ 0 <= snd p <= ONE) (f_slashes f);
  r_undel : dd_undel (get_dd f) = true ->
     (forall d dl, f_delegators f !! d = Some dl -> d_k dl <> dd_latest (get_dd f)) /\
     ~ In (dd_latest (get_dd f)) (map fst (f_slashes f));
  r_inj : forall d d' dl dl', f_delegators f !! d = Some dl -> f_delegators f !! d' = Some dl' ->
     d_k dl = d_k dl' -> d = d';
  r_ks : forall d dl, f_delegators f !! d = Some dl ->
     (d_k dl <= dd_latest (get_dd f))%N /\ ~ In (d_k dl) (map fst (f_slashes f)) /\ 0 <= d_init dl;
  r_dels : forall d,
     match f_delegators f !! d, lg_dels l !! d with
     | None, None => True
     | Some dl, Some x =>
         chain (f_entries f) (d_k dl) (mysl f (d_k dl)) (dd_latest (get_dd f)) /\
         0 <= l_bal x /\
         exists p, replay (f_entries f) (d_k dl) (dec_of_int (d_init dl)) ∅ (mysl f (d_k dl))
                   = (p, l_bal x, l_acc x) /\
                   l_pend x = csub (ent f (dd_latest (get_dd f))) (ent f p)
     | _, _ => False
     end
}.

Lemma Rel_empty : Rel f1_empty lg_empty.
Proof.
  constructor; simpl; try done; intros; by rewrite ?lookup_empty in *.
Qed.

Lemma Rel_slk_le f l : Rel f l ->
  Forall (fun p => (fst p <= dd_latest (get_dd f))%N) (f_slashes f).
Proof. intros HR. eapply Forall_impl; [apply (r_slk _ _ HR)|]. simpl. tauto. Qed.

Lemma Rel_slk_lt f l : Rel f l ->
  Forall (fun p => (fst p < dd_latest (get_dd f) + 1)%N) (f_slashes f).
Proof. intros HR. eapply Forall_impl; [apply (Rel_slk_le _ _ HR)|]. simpl. lia. Qed.

Lemma period_value_per_token f l : Rel f l -> period_value (get_dd f) = per_token l.
Proof.
  intros HR. unfold period_value, per_token. by rewrite (r_total _ _ HR), (r_rew _ _ HR).
Qed.

Lemma per_token_pos l : 0 <= lg_total l -> cpos (lg_rewards l) -> cpos (per_token l).
Proof.
  intros Ht Hr. unfold per_token. destruct (lg_total l =? 0) eqn:E; [apply cpos_empty|].
  apply cpos_of_amt; [apply cnz_cmap|]. intros d. rewrite amt_cmap.
  - apply dec_quo_int_spec; [by apply cpos_amt|lia].
  - unfold dec_quo, dec_of_int. by rewrite !Z.mul_0_l, Z.quot_0_l by (unfold ONE; lia).
Qed.

Lemma in_slash_le f l k : Rel f l -> In k (map fst (f_slashes f)) -> (k <= dd_latest (get_dd f))%N.
Proof.
  intros HR Hin. apply in_map_iff in Hin as (p & <- & Hp).
  pose proof (Rel_slk_le _ _ HR) as HF. rewrite Forall_forall in HF.
  apply HF. by apply elem_of_list_In.
Qed.

(** Starting a period distributes the rewards. *)
Lemma Rel_start f l f' dd' :
  Rel f l -> f1_start_new_period f (get_dd f) = (f', dd') ->
  Rel (set_data f' (Some dd')) (lg_distribute l) /\
  dd_latest dd' = (dd_latest (get_dd f) + 1)%N /\ dd_undel dd' = false /\
  f_delegators f' = f_delegators f /\ f_slashes f' = f_slashes f /\
  f_halt f' = f_halt f /\
  f_entries f' !! dd_latest dd' = Some (cadd (per_token l) (ent f (dd_latest (get_dd f)))).
Proof.
  intros HR Hs. unfold f1_start_new_period in Hs.
  rewrite (period_value_per_token _ _ HR) in Hs.
  set (k := dd_latest (get_dd f)) in *.
  set (v := cadd (per_token l) (default ∅ (f_entries f !! k))) in *.
  injection Hs as Hf' Hdd'. subst dd'. simpl.
  assert (Hkeep : f_delegators f' = f_delegators f /\ f_slashes f' = f_slashes f
                  /\ f_halt f' = f_halt f).
  { subst f'. destruct (dd_undel (get_dd f)), (f_entries f !! k); done. }
  destruct Hkeep as (Hd & Hsl & Hh).
  assert (Hnew : f_entries f' !! (k + 1)%N = Some v).
  { subst f'. destruct (dd_undel (get_dd f)), (f_entries f !! k); simpl;
      rewrite ?lookup_delete_ne by lia; by rewrite lookup_insert. }
  assert (Hold : forall k', (k' <= k)%N -> (dd_undel (get_dd f) = true -> k' <> k) ->
                 f_entries f' !! k' = f_entries f !! k').
  { intros k' Hle Hne. subst f'.
    destruct (dd_undel (get_dd f)); [specialize (Hne eq_refl)|clear Hne];
      destruct (f_entries f !! k); simpl; rewrite ?lookup_delete_ne by lia;
      by rewrite lookup_insert_ne by lia. }
  assert (Hsub : forall k' v', f_entries f' !! k' = Some v' ->
                 (k' = (k + 1)%N /\ v' = v) \/ f_entries f !! k' = Some v').
  { intros k' v' He. destruct (decide (k' = (k + 1)%N)) as [->|Hne].
    - left. split; [done|]. congruence.
    - right. subst f'. destruct (dd_undel (get_dd f)), (f_entries f !! k) eqn:Ek; simpl in He;
        try (apply lookup_delete_Some in He as [_ He]); by rewrite lookup_insert_ne in He by lia. }
  assert (Hpv : cpos (per_token l)) by (apply per_token_pos; [apply (r_tnn _ _ HR)|apply (r_rpos _ _ HR)]).
  assert (Hvpos : cpos v).
  { apply cpos_cadd; [done|]. destruct (f_entries f !! k) as [w|] eqn:Ek; simpl;
      [by apply (r_epos _ _ HR k)|apply cpos_empty]. }
  split; [|by split_and!].
  constructor; simpl.
  - rewrite Hh. apply HR.
  - apply HR.
  - done.
  - rewrite Hd. apply HR.
  - apply HR.
  - apply cpos_empty.
  - intros k' v' He. destruct (Hsub k' v' He) as [[-> ->]|He']; [done|by apply (r_epos _ _ HR k')].
  - done.
  - rewrite Hsl. eapply Forall_impl; [apply (r_slk _ _ HR)|]. simpl. fold k. intros p [? ?]. split; [lia|done].
  - done.
  - rewrite Hd. apply HR.
  - intros d dl Hdl. rewrite Hd in Hdl. rewrite Hsl.
    destruct (r_ks _ _ HR d dl Hdl) as (? & ? & ?). fold k in H. split_and!; [lia|done..].
  - intros d. rewrite Hd, lookup_fmap.
    pose proof (r_dels _ _ HR d) as Hdd.
    destruct (f_delegators f !! d) as [dl|] eqn:Ed, (lg_dels l !! d) as [x|] eqn:Ex; simpl; try done.
    destruct Hdd as (Hch & Hb & p & Hrep & Hpend). fold k in Hch, Hpend.
    assert (Hm : mysl (set_data f' (Some (mkDD ∅ (dd_total (get_dd f)) (k + 1) (dd_count (get_dd f)) false))) (d_k dl) = mysl f (d_k dl)).
    { unfold mysl. simpl. by rewrite Hsl. }
    unfold get_dd in *. simpl in *. rewrite Hm.
    destruct (r_ks _ _ HR d dl Ed) as (Hk1 & Hk2 & _).
    assert (Hprev : f_entries f' !! d_k dl = f_entries f !! d_k dl).
    { apply Hold; [done|]. intros Hu. by apply (proj1 (r_undel _ _ HR Hu) d dl). }
    assert (Hslk : forall k' , In k' (map fst (f_slashes f)) -> f_entries f' !! k' = f_entries f !! k').
    { intros k' Hin. apply Hold; [by eapply in_slash_le|].
      intros Hu ->. by apply (proj2 (r_undel _ _ HR Hu)). }
    split; [|split; [done|]].
    + eapply chain_ext_new; [exact Hch|done| | |].
      * intros k' fr' Hin. apply Hslk. by eapply mysl_in.
      * intros w Hw. exists v. split; [done|]. intros y. unfold v. rewrite Hw. simpl.
        rewrite amt_cadd. pose proof (cpos_amt _ y Hpv). lia.
      * intros k' w Hw y. apply cpos_amt. by apply (r_epos _ _ HR k').
    + exists p. split.
      * rewrite <- Hrep. symmetry. apply replay_ext; [done|].
        intros k' fr' Hin. symmetry. apply Hslk. by eapply mysl_in.
      * rewrite Hpend. unfold ent at 3. simpl. rewrite Hnew. simpl. unfold v.
        assert (Hp : ent (set_data f' (Some (mkDD ∅ (dd_total (default dd_zero (f_data f))) (k + 1) (dd_count (default dd_zero (f_data f))) false))) p = ent f p).
        { unfold ent. simpl.
          pose proof (replay_fst (f_entries f) (d_k dl) (dec_of_int (d_init dl)) ∅ (mysl f (d_k dl))) as [Hq|Hq];
            rewrite Hrep in Hq; simpl in Hq; [subst p; by rewrite Hprev|].
          rewrite Hslk; [done|]. apply in_map_iff in Hq as ([k' fr'] & Heq & Hin). simpl in Heq. subst k'.
          by eapply mysl_in. }
        rewrite Hp. unfold ent. by rewrite cadd_csub_assoc.
Qed.

Lemma Rel_data_some f l d dl : Rel f l -> f_delegators f !! d = Some dl -> exists dd, f_data f = Some dd.
Proof.
  intros HR Hd. destruct (f_data f) as [dd|] eqn:E; [eauto|].
  destruct (r_none _ _ HR E) as [He _]. rewrite He in Hd. by rewrite lookup_empty in Hd.
Qed.

Lemma Rel_lookup f l d : Rel f l -> f_delegators f !! d = None <-> lg_dels l !! d = None.
Proof.
  intros HR. pose proof (r_dels _ _ HR d).
  destruct (f_delegators f !! d), (lg_dels l !! d); naive_solver.
Qed.

(** The reported delegation. *)
Lemma Rel_current f l d : Rel f l -> f1_current f d = lg_balance l d.
Proof.
  intros HR. unfold f1_current, lg_balance. pose proof (r_dels _ _ HR d) as Hd.
  destruct (f_delegators f !! d) as [dl|] eqn:E, (lg_dels l !! d) as [x|]; try done.
  destruct Hd as (_ & _ & p & Hrep & _). unfold f1_periods. rewrite E. simpl.
  rewrite (slashes_between_mysl _ _ _ (Rel_slk_le _ _ HR)).
  erewrite last_balance_periods. by rewrite Hrep.
Qed.

Lemma Rel_current_panics f l d : Rel f l -> f1_current_panics f d = false.
Proof.
  intros HR. unfold f1_current_panics. destruct (f_delegators f !! d) eqn:E; [|done].
  destruct (Rel_data_some _ _ _ _ HR E) as [dd Hdd]. unfold no_data. by rewrite Hdd.
Qed.

Lemma panic_if_false f : panic_if false f = f.
Proof. destruct f; unfold panic_if; simpl. by rewrite orb_false_r. Qed.

Lemma Rel_total f l : Rel f l -> f1_total f = lg_total l.
Proof.
  intros HR. unfold f1_total. pose proof (r_total _ _ HR) as H. unfold get_dd in H.
  by destruct (f_data f).
Qed.

Lemma linked_refl E k v : E !! k = Some v -> (forall x, 0 <= amt v x) -> linked E k k.
Proof.
  intros Hk Hv. exists v, v. split_and!; [done..|]. apply cle_amt; [done|]. lia.
Qed.

(** Joining. *)
Lemma Rel_create f l d a :
  Rel f l -> f_delegators f !! d = None -> 0 <= a ->
  Rel (f1_create f d a) (lg_join l d a).
Proof.
  intros HR Hd Ha. unfold f1_create, lg_join. destruct (a =? 0) eqn:Ea; [done|].
  destruct (f1_start_new_period f (get_dd f)) as [f' dd'] eqn:Es.
  destruct (Rel_start _ _ _ _ HR Es) as (HR' & Hk & Hu & Hdl & Hsl & Hh & Hent).
  set (g := set_data f' (Some dd')) in *.
  assert (Hgg : get_dd g = dd') by done.
  assert (Hgs : Forall (fun p => (fst p < dd_latest dd')%N) (f_slashes f')).
  { rewrite Hsl, Hk. by eapply Rel_slk_lt. }
  constructor; simpl.
  - apply HR'.
  - pose proof (r_total _ _ HR') as X. change (get_dd g) with dd' in X. simpl in X. lia.
  - apply (r_rew _ _ HR').
  - rewrite Hdl, map_size_insert, Hd. pose proof (r_count _ _ HR') as Hc. rewrite ?Hgg in Hc. simpl in Hc.
    rewrite Hdl in Hc. lia.
  - pose proof (r_tnn _ _ HR'). simpl in *. lia.
  - apply HR'.
  - apply HR'.
  - done.
  - apply HR'.
  - intros Hu'. change (dd_undel dd' = true) in Hu'. congruence.
  - intros d1 d2 dl1 dl2 H1 H2 Heq. rewrite Hdl in H1, H2.
    assert (Hlt : forall d0 dl0, f_delegators f !! d0 = Some dl0 -> (d_k dl0 < dd_latest dd')%N).
    { intros d0 dl0 H0. destruct (r_ks _ _ HR d0 dl0 H0). lia. }
    apply lookup_insert_Some in H1 as [[<- <-]|[Hn1 H1]];
      apply lookup_insert_Some in H2 as [[<- <-]|[Hn2 H2]]; simpl in Heq; try done.
    + pose proof (Hlt _ _ H2). lia.
    + pose proof (Hlt _ _ H1). lia.
    + by eapply (r_inj _ _ HR).
  - intros d0 dl0 H0. rewrite Hdl in H0. apply lookup_insert_Some in H0 as [[<- <-]|[Hne H0]]; simpl.
    + split_and!; [unfold get_dd; simpl; lia| |lia]. intros Hin. apply in_map_iff in Hin as (p & Hp & Hin).
      rewrite Forall_forall in Hgs. specialize (Hgs p (proj2 (elem_of_list_In _ _) Hin)). simpl in Hgs. lia.
    + apply (r_ks _ _ HR' d0 dl0). simpl. by rewrite Hdl.
  - intros d0. rewrite Hdl. destruct (decide (d = d0)) as [<-|Hne].
    + rewrite !lookup_insert. simpl.
      assert (Hm : forall X, mysl (set_delegators (set_data f' X) (<[d:=mkDelegator a (dd_latest dd')]> (f_delegators f))) (dd_latest dd') = []).
      { intros X. by apply mysl_none. }
      unfold get_dd. simpl. rewrite Hm. simpl. split.
      { eapply linked_refl; [exact Hent|]. intros x. apply cpos_amt. by apply (r_epos _ _ HR' (dd_latest dd')). }
      split; [unfold dec_of_int, ONE; lia|]. exists (dd_latest dd'). split; [done|]. by rewrite csub_diag.
    + rewrite !lookup_insert_ne by done.
      pose proof (r_dels _ _ HR' d0) as HH. simpl in HH. rewrite Hdl in HH. exact HH.
Qed.

Lemma mysl_set_delegators f x k : mysl (set_delegators f x) k = mysl f k.
Proof. done. Qed.

(** Deleting an entry nobody refers to. *)
Lemma Rel_del_entry f l k :
  Rel f l ->
  (forall d dl, f_delegators f !! d = Some dl -> d_k dl <> k /\ dd_latest (get_dd f) <> k) ->
  ~ In k (map fst (f_slashes f)) ->
  Rel (del_entry f k) l.
Proof.
  intros HR Hk Hs. constructor; simpl; try apply HR.
  - intros k' v He. apply lookup_delete_Some in He as [_ He]. by apply (r_epos _ _ HR k').
  - intros d. pose proof (r_dels _ _ HR d) as Hd.
    change (get_dd (del_entry f k)) with (get_dd f).
    destruct (f_delegators f !! d) as [dl|] eqn:E, (lg_dels l !! d) as [x|]; try done.
    change (mysl (del_entry f k) (d_k dl)) with (mysl f (d_k dl)).
    destruct Hd as (Hch & Hb & p & Hrep & Hpend). destruct (Hk d dl E) as [H1 H2].
    assert (Hslk : forall k' fr', In (k', fr') (mysl f (d_k dl)) -> delete k (f_entries f) !! k' = f_entries f !! k').
    { intros k' fr' Hin. rewrite lookup_delete_ne; [done|]. intros ->. apply Hs. by eapply mysl_in. }
    split; [|split; [done|]].
    + eapply chain_ext_new; [exact Hch| | | |].
      * by rewrite lookup_delete_ne.
      * done.
      * intros v Hv. exists v. rewrite lookup_delete_ne by done. split; [done|]. lia.
      * intros k' v Hv y. apply cpos_amt. by apply (r_epos _ _ HR k').
    + exists p. split.
      * rewrite <- Hrep. symmetry. apply replay_ext; [by rewrite lookup_delete_ne|].
        intros k' fr' Hin. symmetry. by eapply Hslk.
      * rewrite Hpend. f_equal; unfold ent; simpl; [by rewrite lookup_delete_ne|].
        pose proof (replay_fst (f_entries f) (d_k dl) (dec_of_int (d_init dl)) ∅ (mysl f (d_k dl))) as [Hq|Hq];
          rewrite Hrep in Hq; simpl in Hq; [subst p; by rewrite lookup_delete_ne|].
        apply in_map_iff in Hq as ([k' fr'] & Heq & Hin). simpl in Heq. subst k'.
        by erewrite Hslk.
Qed.

(** Removing a delegator's record and changing the totals. *)
Lemma Rel_drop f l d dd tot :
  Rel f l -> f_data f = Some dd -> is_Some (f_delegators f !! d) -> 0 <= tot ->
  (forall d0 dl, f_delegators f !! d0 = Some dl -> d_k dl <> dd_latest dd) ->
  ~ In (dd_latest dd) (map fst (f_slashes f)) ->
  Rel (set_data (set_delegators f (delete d (f_delegators f)))
         (Some (mkDD (dd_rewards dd) tot (dd_latest dd) (u64_sub (dd_count dd) 1) true)))
      (mkLedger (lg_rewards l) tot (delete d (lg_dels l))).
Proof.
  intros HR Hdd [dl Hdl] Htot Hnk Hns.
  assert (Hg : get_dd f = dd) by (unfold get_dd; by rewrite Hdd).
  constructor; simpl; try (apply HR); try done.
  - pose proof (r_rew _ _ HR). by rewrite Hg in *.
  - pose proof (r_count _ _ HR) as Hc. rewrite Hg in Hc.
    rewrite map_size_delete, Hdl. assert (size (f_delegators f) <> 0%nat).
    { intros E. apply map_size_empty_inv in E. rewrite E in Hdl. by rewrite lookup_empty in Hdl. }
    unfold u64_sub. rewrite Hc. destruct (1 <=? _) eqn:E1; lia.
  - unfold get_dd. simpl. rewrite <- Hg. apply HR.
  - intros _. split; [|done]. intros d0 dl0 H0. apply lookup_delete_Some in H0 as [_ H0]. by eapply Hnk.
  - intros d1 d2 dl1 dl2 H1 H2. apply lookup_delete_Some in H1 as [_ H1].
    apply lookup_delete_Some in H2 as [_ H2]. by apply (r_inj _ _ HR).
  - intros d0 dl0 H0. apply lookup_delete_Some in H0 as [_ H0].
    unfold get_dd. simpl. rewrite <- Hg. by apply (r_ks _ _ HR d0).
  - intros d0. destruct (decide (d = d0)) as [<-|Hne].
    + by rewrite !lookup_delete.
    + rewrite !lookup_delete_ne by done. pose proof (r_dels _ _ HR d0) as HH.
      rewrite Hg in HH. exact HH.
Qed.

Lemma u64_sub_nonneg a b : 0 <= a -> 0 <= u64_sub a b.
Proof.
  unfold u64_sub, w64. destruct (b <=? a) eqn:E; [lia|].
  intros. apply Z.mod_pos_bound. done.
Qed.

Lemma Rel_no_dels_del_entry f l k : Rel f l -> f_delegators f = ∅ ->
  Rel (del_entry f k) l.
Proof.
  intros HR He. constructor; simpl; try apply HR.
  - intros k' v H. apply lookup_delete_Some in H as [_ H]. by apply (r_epos _ _ HR k').
  - intros d. pose proof (r_dels _ _ HR d) as Hd. rewrite He, lookup_empty in *. done.
Qed.

(** Leaving. *)
Lemma Rel_remove f l d :
  Rel f l -> Rel (fst (f1_remove f d)) (fst (lg_leave l d)) /\
             snd (f1_remove f d) = snd (lg_leave l d).
Proof.
  intros HR. unfold f1_remove, lg_leave. pose proof (r_dels _ _ HR d) as Hd.
  destruct (f_delegators f !! d) as [dl|] eqn:E, (lg_dels l !! d) as [x|] eqn:Ex; try done.
  destruct (Rel_data_some _ _ _ _ HR E) as [dd0 Hdd0].
  rewrite (Rel_current_panics _ _ _ HR). unfold no_data. rewrite Hdd0. simpl orb.
  rewrite panic_if_false.
  destruct (f1_start_new_period f (get_dd f)) as [f' dd'] eqn:Es.
  destruct (Rel_start _ _ _ _ HR Es) as (HR' & Hk & Hu & Hdl & Hsl & Hh & Hent).
  rewrite (Rel_current _ _ d HR). unfold lg_balance. rewrite Ex. simpl fst. simpl snd.
  split; [|done].
  set (b := trunc_int (l_bal x)).
  assert (Htot : dd_total dd' = lg_total l).
  { apply (r_total _ _ HR'). }
  assert (Hlt : forall d0 dl0, f_delegators f !! d0 = Some dl0 -> d_k dl0 <> dd_latest dd').
  { intros d0 dl0 H0. destruct (r_ks _ _ HR d0 dl0 H0). lia. }
  assert (Hns : ~ In (dd_latest dd') (map fst (f_slashes f'))).
  { rewrite Hsl. intros Hin. pose proof (in_slash_le _ _ _ HR Hin). lia. }
  assert (HR2 : Rel (set_data (set_delegators f' (delete d (f_delegators f')))
         (Some (mkDD (dd_rewards dd') (u64_sub (dd_total dd') b) (dd_latest dd') (u64_sub (dd_count dd') 1) true)))
      (mkLedger (lg_rewards (lg_distribute l)) (u64_sub (lg_total l) b) (delete d (lg_dels (lg_distribute l))))).
  { pose proof (Rel_drop _ _ d dd' (u64_sub (lg_total l) b) HR') as HD. simpl in HD.
    rewrite Htot. apply HD; clear HD.
    - done.
    - rewrite Hdl, E. eauto.
    - apply u64_sub_nonneg. apply HR.
    - intros d0 dl0 H0. rewrite Hdl in H0. by eapply Hlt.
    - done. }
  assert (HR3 : Rel (del_entry (set_data (set_delegators f' (delete d (f_delegators f')))
         (Some (mkDD (dd_rewards dd') (u64_sub (dd_total dd') b) (dd_latest dd') (u64_sub (dd_count dd') 1) true))) (d_k dl))
      (mkLedger (lg_rewards (lg_distribute l)) (u64_sub (lg_total l) b) (delete d (lg_dels (lg_distribute l))))).
  { apply Rel_del_entry; [done| |].
    - intros d0 dl0 H0. simpl in H0. rewrite Hdl in H0. apply lookup_delete_Some in H0 as [Hne H0].
      split.
      + intros Heq. apply Hne. by eapply (r_inj _ _ HR).
      + unfold get_dd. simpl. intros Heq. by apply (Hlt d dl).
    - simpl. rewrite Hsl. by apply (r_ks _ _ HR d dl). }
  simpl. destruct (u64_sub (dd_count dd') 1 =? 0) eqn:Ec; [|exact HR3].
  apply (Rel_no_dels_del_entry _ _ (dd_latest dd')) in HR3; [exact HR3|].
  simpl. pose proof (r_count _ _ HR3) as Hc. unfold get_dd in Hc. simpl in Hc.
  apply map_size_empty_inv. lia.
Qed.

(** Withdrawing. *)
Lemma Rel_withdraw f l d :
  Rel f l -> Rel (fst (f1_withdraw f d)) (fst (lg_withdraw l d)) /\
             snd (f1_withdraw f d) = snd (lg_withdraw l d).
Proof.
  intros HR. unfold f1_withdraw, lg_withdraw. pose proof (r_dels _ _ HR d) as Hd.
  destruct (f_delegators f !! d) as [dl|] eqn:E, (lg_dels l !! d) as [x|] eqn:Ex; try done.
  destruct (Rel_data_some _ _ _ _ HR E) as [dd0 Hdd0].
  unfold no_data. rewrite Hdd0. rewrite panic_if_false.
  destruct (f1_start_new_period f (get_dd f)) as [f' dd'] eqn:Es.
  destruct (Rel_start _ _ _ _ HR Es) as (HR' & Hk & Hu & Hdl & Hsl & Hh & Hent).
  set (g := set_data f' (Some dd')) in *.
  assert (Hgg : get_dd g = dd') by done.
  assert (Hgd : f_delegators g !! d = Some dl) by (simpl; by rewrite Hdl).
  assert (Hgl : lg_dels (lg_distribute l) !! d = Some (mkL (l_bal x) (cadd (l_pend x) (per_token l)) (l_acc x))).
  { simpl. by rewrite lookup_fmap, Ex. }
  pose proof (r_dels _ _ HR' d) as Hd'. rewrite Hgd, Hgl in Hd'.
  destruct Hd' as (Hch & Hb & p & Hrep & Hpend). simpl in Hb, Hrep, Hpend.
  change (get_dd g) with dd' in *.
  unfold f1_sum_rewards, f1_periods. rewrite Hgd. simpl default.
  rewrite (slashes_between_mysl g); [|apply (Rel_slk_le _ _ HR')].
  rewrite sum_rewards_replay by exact Hch.
  change (f_entries f') with (f_entries g) in Hrep. rewrite Hrep, <- Hpend. cbv zeta beta iota.
  rewrite panic_if_false.
  assert (HR2 : forall k', k' <> d_k dl -> f_entries (del_entry g (d_k dl)) !! k' = f_entries g !! k').
  { intros k' Hne. simpl. by rewrite lookup_delete_ne. }
  assert (Hcur : f1_current (del_entry g (d_k dl)) d = trunc_int (l_bal x)).
  { transitivity (f1_current g d); [done|]. rewrite (Rel_current _ _ d HR').
    unfold lg_balance. by rewrite Hgl. }
  assert (Hpan : f1_current_panics (del_entry g (d_k dl)) d = false).
  { transitivity (f1_current_panics g d); [done|]. by eapply Rel_current_panics. }
  rewrite Hpan, panic_if_false, Hcur. simpl fst. simpl snd.
  split; [|unfold lg_owed; by rewrite Ex].
  assert (Hgs : Forall (fun p => (fst p < dd_latest dd')%N) (f_slashes f')).
  { rewrite Hsl, Hk. by eapply Rel_slk_lt. }
  assert (Hlt : forall d0 dl0, f_delegators f !! d0 = Some dl0 -> (d_k dl0 < dd_latest dd')%N).
  { intros d0 dl0 H0. destruct (r_ks _ _ HR d0 dl0 H0). lia. }
  destruct (trunc_int_spec (l_bal x) Hb) as [Htb _].
  subst g. unfold get_dd in Hgg.
  constructor; simpl.
  - apply HR'.
  - apply (r_total _ _ HR').
  - apply (r_rew _ _ HR').
  - rewrite Hdl, map_size_insert, E. pose proof (r_count _ _ HR') as Hc. rewrite ?Hgg in Hc. simpl in Hc.
    by rewrite Hdl in Hc.
  - apply (r_tnn _ _ HR').
  - apply HR'.
  - intros k' v He. apply lookup_delete_Some in He as [_ He]. by apply (r_epos _ _ HR' k').
  - done.
  - apply HR'.
  - intros Hu'. change (dd_undel dd' = true) in Hu'. congruence.
  - intros d1 d2 dl1 dl2 H1 H2 Heq. rewrite Hdl in H1, H2.
    apply lookup_insert_Some in H1 as [[<- <-]|[Hn1 H1]];
      apply lookup_insert_Some in H2 as [[<- <-]|[Hn2 H2]]; simpl in Heq; try done.
    + pose proof (Hlt _ _ H2). lia.
    + pose proof (Hlt _ _ H1). lia.
    + by eapply (r_inj _ _ HR).
  - intros d0 dl0 H0. rewrite Hdl in H0. apply lookup_insert_Some in H0 as [[<- <-]|[Hne H0]]; simpl.
    + split_and!; [unfold get_dd; simpl; lia| |lia]. intros Hin. apply in_map_iff in Hin as (q & Hq & Hin).
      rewrite Forall_forall in Hgs. specialize (Hgs q (proj2 (elem_of_list_In _ _) Hin)). simpl in Hgs. lia.
    + apply (r_ks _ _ HR' d0 dl0). simpl. by rewrite Hdl.
  - intros d0. rewrite Hdl. destruct (decide (d = d0)) as [<-|Hne].
    + rewrite !lookup_insert. simpl.
      match goal with |- context [mysl ?h _] => assert (Hm : mysl h (dd_latest dd') = []) by (by apply mysl_none) end.
      unfold get_dd. simpl. rewrite Hm. simpl. split.
      { eapply linked_refl.
        - rewrite lookup_delete_ne; [exact Hent|]. pose proof (Hlt d dl E). lia.
        - intros y. apply cpos_amt. by apply (r_epos _ _ HR' (dd_latest dd')). }
      split; [unfold dec_of_int, ONE; lia|]. exists (dd_latest dd'). split; [done|]. by rewrite csub_diag.
    + rewrite !lookup_insert_ne by done. rewrite <- Hdl.
      destruct (f_delegators f' !! d0) as [dl0|] eqn:E0; [|pose proof (r_dels _ _ HR' d0) as HH; simpl in HH; by rewrite E0 in HH].
      pose proof (r_dels _ _ HR' d0) as HH. simpl in HH. rewrite E0 in HH.
      destruct ((_ <$> lg_dels l) !! d0) as [x0|] eqn:Ex0; [|done].
      destruct HH as (Hch0 & Hb0 & p0 & Hrep0 & Hpend0).
      change (get_dd (set_data f' (Some dd'))) with dd' in *.
      assert (Hne0 : d_k dl0 <> d_k dl).
      { intros Heq. apply Hne. rewrite Hdl in E0. by eapply (r_inj _ _ HR). }
      assert (Hslk : forall k' fr', In (k', fr') (mysl (set_data f' (Some dd')) (d_k dl0)) -> delete (d_k dl) (f_entries f') !! k' = f_entries f' !! k').
      { intros k' fr' Hin. rewrite lookup_delete_ne; [done|]. intros Heq. subst k'.
        apply mysl_in in Hin. simpl in Hin. rewrite Hsl in Hin.
        by apply (r_ks _ _ HR d dl E) in Hin. }
      assert (Hlk : dd_latest dd' <> d_k dl) by (pose proof (Hlt d dl E); lia).
      split; [|split; [done|]].
      * eapply chain_ext_new; [exact Hch0| | | |].
        -- by rewrite lookup_delete_ne.
        -- done.
        -- intros v Hv. exists v. unfold get_dd. simpl. rewrite lookup_delete_ne by done. split; [done|]. lia.
        -- intros k' v Hv y. apply cpos_amt. by apply (r_epos _ _ HR' k').
      * exists p0. split.
        -- rewrite <- Hrep0. symmetry. apply replay_ext; [simpl; by rewrite lookup_delete_ne|].
           intros k' fr' Hin. symmetry. by eapply Hslk.
        -- rewrite Hpend0. unfold get_dd. simpl. f_equal; unfold ent; simpl; [by rewrite lookup_delete_ne|].
           pose proof (replay_fst (f_entries f') (d_k dl0) (dec_of_int (d_init dl0)) ∅ (mysl (set_data f' (Some dd')) (d_k dl0))) as [Hq|Hq];
             simpl in Hrep0; rewrite Hrep0 in Hq; simpl in Hq; [subst p0; by rewrite lookup_delete_ne|].
           apply in_map_iff in Hq as ([k' fr'] & Heq & Hin). simpl in Heq. subst k'.
           by erewrite Hslk.
Qed.

Lemma replay_nonneg E prev b acc sl :
  0 <= b -> Forall (fun p : N * Z => 0 <= snd p <= ONE) sl ->
  0 <= snd (fst (replay E prev b acc sl)).
Proof.
  revert prev b acc. induction sl as [|[k fr] t IH]; intros prev b acc Hb Hs; simpl; [done|].
  inversion Hs as [|? ? H1 H2]; subst. simpl in H1. apply IH; [|done].
  pose proof (slash_le b fr Hb H1). lia.
Qed.

(** Slashing. *)
Lemma Rel_slash f l fr :
  Rel f l -> 0 <= fr <= ONE ->
  Rel (fst (f1_slash f fr)) (fst (lg_slash l fr)) /\ snd (f1_slash f fr) = snd (lg_slash l fr).
Proof.
  intros HR Hfr. unfold f1_slash, lg_slash.
  destruct (f1_start_new_period f (get_dd f)) as [f' dd'] eqn:Es.
  destruct (Rel_start _ _ _ _ HR Es) as (HR' & Hk & Hu & Hdl & Hsl & Hh & Hent).
  set (g := set_data f' (Some dd')) in *.
  assert (Hgg : get_dd g = dd') by done.
  assert (Htot : dd_total dd' = lg_total l).
  { apply (r_total _ _ HR'). }
  assert (Hgs : Forall (fun p => (fst p < dd_latest dd')%N) (f_slashes f')).
  { rewrite Hsl, Hk. by eapply Rel_slk_lt. }
  assert (Hslashed : trunc_int (dec_mul (dec_of_int (dd_total dd')) fr) = lg_total (lg_distribute l) * fr / ONE).
  { rewrite dec_mul_int_l, Htot. simpl. unfold trunc_int. apply Z.quot_div_nonneg; [|done].
    pose proof (r_tnn _ _ HR). nia. }
  rewrite Hslashed. simpl fst. simpl snd. split; [|done].
  rewrite (kv_set_append _ _ _ Hgs). simpl lg_total. rewrite Htot.
  set (tot := u64_sub (lg_total l) (lg_total l * fr / ONE)).
  assert (Htnn : 0 <= tot) by (apply u64_sub_nonneg; apply HR).
  constructor; simpl.
  - apply HR'.
  - done.
  - apply (r_rew _ _ HR').
  - apply (r_count _ _ HR').
  - done.
  - apply HR'.
  - apply HR'.
  - done.
  - apply Forall_app. split; [apply (r_slk _ _ HR')|]. constructor; [|constructor]. simpl. split; [lia|done].
  - intros Hu'. change (dd_undel dd' = true) in Hu'. congruence.
  - apply HR'.
  - intros d0 dl0 H0. destruct (r_ks _ _ HR' d0 dl0 H0) as (H1 & H2 & H3). simpl in *.
    split_and!; [done| |done]. rewrite map_app, in_app_iff. simpl. intros [Hin|[Heq|[]]]; [done|].
    rewrite Hdl in H0. destruct (r_ks _ _ HR d0 dl0 H0). lia.
  - intros d. pose proof (r_dels _ _ HR' d) as Hd. simpl in Hd.
    rewrite !lookup_fmap in *.
    destruct (f_delegators f' !! d) as [dl|] eqn:E, (lg_dels l !! d) as [x|] eqn:Ex; simpl in *; try done.
    destruct Hd as (Hch & Hb & p & Hrep & Hpend).
    change (get_dd g) with dd' in *.
    rewrite Hdl in E. destruct (r_ks _ _ HR d dl E) as (Hk1 & Hk2 & Hk3).
    assert (Hm : forall X Y, mysl (mkF1 X (f_entries f') (f_slashes f' ++ [(dd_latest dd', fr)]) (f_delegators f') Y) (d_k dl)
             = mysl g (d_k dl) ++ [(dd_latest dd', fr)]).
    { intros X Y. unfold mysl. simpl. rewrite List.filter_app. simpl.
      by replace (d_k dl <=? dd_latest dd')%N with true by lia. }
    unfold get_dd. simpl. unfold set_data, set_slashes. simpl. rewrite Hm.
    split; [|split].
    + apply chain_snoc. split; [done|]. eapply linked_refl; [exact Hent|].
      intros y. apply cpos_amt. by apply (r_epos _ _ HR' (dd_latest dd')).
    + pose proof (slash_le _ _ Hb Hfr) as Hle. rewrite dec_mul_trunc_div in Hle by (simpl in *; lia). simpl in Hle. lia.
    + exists (dd_latest dd'). rewrite replay_snoc. simpl in Hrep. rewrite Hrep. split.
      * rewrite Hpend. unfold ent. simpl. rewrite dec_mul_trunc_div; [done|simpl in *; lia..].
      * by rewrite csub_diag.
Qed.

(** Receiving rewards. *)
Lemma Rel_add_rewards f l c :
  Rel f l -> cpos c -> f_data f <> None -> Rel (f1_add_rewards f c) (lg_reward l c).
Proof.
  intros HR Hc Hdat. unfold f1_add_rewards. destruct (f_data f) as [dd|] eqn:E; [|done].
  assert (Hg : get_dd f = dd) by (unfold get_dd; by rewrite E).
  destruct HR. rewrite Hg in *. constructor; simpl; try done.
  - unfold get_dd; simpl. by rewrite r_rew0.
  - by apply cpos_cadd.
Qed.

(** The query: the part before the running period and the running period are
    rounded separately. *)
Definition lg_reported (l : ledger) (d : N) : coins :=
  match lg_dels l !! d with
  | None => ∅
  | Some x => cmap trunc_int
                (cadd (cadd (l_acc x) (times (l_pend x) (l_bal x)))
                      (times (per_token l) (l_bal x)))
  end.

Lemma Rel_outstanding f l d :
  Rel f l -> f1_outstanding f d = (lg_reported l d, false).
Proof.
  intros HR. unfold f1_outstanding, lg_reported. pose proof (r_dels _ _ HR d) as Hd.
  destruct (f_delegators f !! d) as [dl|] eqn:E, (lg_dels l !! d) as [x|] eqn:Ex; try done.
  destruct Hd as (Hch & Hb & p & Hrep & Hpend).
  destruct (Rel_data_some _ _ _ _ HR E) as [dd0 Hdd0].
  unfold f1_sum_rewards, f1_periods. rewrite E. simpl default.
  rewrite (slashes_between_mysl f); [|apply (Rel_slk_le _ _ HR)].
  rewrite sum_rewards_replay by exact Hch. rewrite Hrep, <- Hpend. cbv zeta beta iota.
  destruct (chain_hi _ _ _ _ Hch) as [v Hv]. rewrite Hv. unfold no_data. rewrite Hdd0.
  erewrite last_balance_periods. rewrite Hrep. simpl fst. simpl snd.
  rewrite (period_value_per_token _ _ HR), safe_mul_times. done.
Qed.
