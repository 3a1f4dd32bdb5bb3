(** * The in-memory index of stakers agrees with the delegations. *)
From Verif Require Import Base BaseFacts Delegation Stakers Funders Team RoundRobin Pool Bundles Chain ChainFrame StakersInv StakersClaims PoolFrame Walk ChainLift Query.

(** [P] are the stakers; [full]: the index was never rebuilt. *)
Record DJ (P : N -> Prop) (full : bool) (d : dstate) : Prop := mkDJ {
  dj_amount : forall a s, (a, s) ∈ ds_index d -> a = delegation_amount d s;
  dj_data : forall s, f_data (getf d s) <> None -> P s /\ (delegation_amount d s, s) ∈ ds_index d;
  dj_del : forall s x, is_Some (f_delegators (getf d s) !! x) -> f_data (getf d s) <> None;
  dj_queue : forall i e, ds_queue d !! i = Some e -> 0 <= u_amount e;
  dj_full : full = true -> forall s, P s -> (delegation_amount d s, s) ∈ ds_index d
}.
Lemma DJ_mono (P Q : N -> Prop) d : (forall s, P s -> Q s) -> DJ P false d -> DJ Q false d.
Proof. intros H [H1 H2 H3 H4 H5]. split; try done. intros s Hs. destruct (H2 s Hs). auto. Qed.
Lemma DJ_ext (P Q : N -> Prop) full d : (forall s, P s <-> Q s) -> DJ P full d -> DJ Q full d.
Proof.
  intros H [H1 H2 H3 H4 H5]. split; try done; intros s Hs; [destruct (H2 s Hs); split; [by apply H|done]|].
  intros Hq. apply H5; [done|by apply H].
Qed.

Lemma getf_setf d s f t : getf (setf d s f) t = if decide (s = t) then f else getf d t.
Proof. unfold getf, setf. cbn. destruct (decide (s = t)) as [->|]; [by rewrite lookup_insert|by rewrite lookup_insert_ne]. Qed.

Lemma getf_eq d s f : getf (setf d s f) s = f.
Proof. rewrite getf_setf. by rewrite decide_True. Qed.
Lemma getf_ne d s f t : t <> s -> getf (setf d s f) t = getf d t.
Proof. intros. rewrite getf_setf. by rewrite decide_False by congruence. Qed.
(** The record of one staker and its index entry are replaced together. *)
Lemma DJ_upd' (P P' : N -> Prop) full d d' s : DJ P full d -> (forall t, P t -> P' t) -> (forall t, P' t -> P t \/ t = s) ->
  ds_index d' = (ds_index d ∖ {[ (delegation_amount d s, s) ]}) ∪ {[ (delegation_amount d' s, s) ]} ->
  (forall t, t <> s -> getf d' t = getf d t) ->
  (f_data (getf d' s) <> None -> P' s) ->
  (forall x, is_Some (f_delegators (getf d' s) !! x) -> f_data (getf d' s) <> None) ->
  (forall i e, ds_queue d' !! i = Some e -> 0 <= u_amount e) -> DJ P' full d'.
Proof.
  intros [H1 H2 H3 H4 H5] M1 M2 Ei Eo Hp Hd Hq.
  assert (Ea : forall t, t <> s -> delegation_amount d' t = delegation_amount d t) by (intros; unfold delegation_amount; by rewrite Eo).
  assert (Hin : forall t, (t <> s -> (delegation_amount d t, t) ∈ ds_index d) -> (delegation_amount d' t, t) ∈ ds_index d').
  { intros t Ht. rewrite Ei. destruct (decide (t = s)) as [->|Hne]; [set_solver|]. rewrite (Ea t Hne). specialize (Ht Hne). set_solver. }
  split; try done.
  - intros a t. rewrite Ei, elem_of_union, elem_of_difference, !elem_of_singleton. intros [[Ht Hne]|[= -> ->]]; [|done].
    pose proof (H1 _ _ Ht) as E. destruct (decide (t = s)) as [->|Hts]; [by subst a|]. by rewrite Ea.
  - intros t Ht. destruct (decide (t = s)) as [->|Hne].
    + split; [by apply Hp|]. apply Hin. done.
    + rewrite (Eo t Hne) in Ht. destruct (H2 t Ht). split; [by apply M1|]. by apply Hin.
  - intros t x. destruct (decide (t = s)) as [->|Hne]; [apply Hd|]. rewrite (Eo t Hne). apply H3.
  - intros Hf t Ht. apply Hin. intros Hne. apply H5; [done|]. by destruct (M2 t Ht).
Qed.
Lemma DJ_upd P full d d' s : DJ P full d ->
  ds_index d' = (ds_index d ∖ {[ (delegation_amount d s, s) ]}) ∪ {[ (delegation_amount d' s, s) ]} ->
  (forall t, t <> s -> getf d' t = getf d t) ->
  (f_data (getf d' s) <> None -> P s) ->
  (forall x, is_Some (f_delegators (getf d' s) !! x) -> f_data (getf d' s) <> None) ->
  (forall i e, ds_queue d' !! i = Some e -> 0 <= u_amount e) -> DJ P full d'.
Proof. intros H. apply (DJ_upd' P P full d d' s H); auto. Qed.
(** Nothing of the index changes. *)
Lemma DJ_keep P full d d' : DJ P full d -> ds_index d' = ds_index d ->
  (forall t, f1_total (getf d' t) = f1_total (getf d t)) ->
  (forall t, f_data (getf d' t) <> None -> f_data (getf d t) <> None) ->
  (forall t x, is_Some (f_delegators (getf d' t) !! x) -> f_data (getf d' t) <> None) ->
  (forall i e, ds_queue d' !! i = Some e -> 0 <= u_amount e) -> DJ P full d'.
Proof.
  intros [H1 H2 H3 H4 H5] Ei Ea Hd Hx Hq.
  assert (E : forall t, delegation_amount d' t = delegation_amount d t) by done.
  split; try done.
  - intros a s. rewrite Ei, E. apply H1.
  - intros s Hs. rewrite Ei, E. apply H2. by apply Hd.
  - intros Hf s Hs. rewrite Ei, E. by apply H5.
Qed.
(** A state with the same records, index and queue. *)
Definition dsame (d d' : dstate) : Prop := ds_f1 d' = ds_f1 d /\ ds_index d' = ds_index d /\ ds_queue d' = ds_queue d.
Lemma DJ_same P full d d' : DJ P full d -> dsame d d' -> DJ P full d'.
Proof.
  intros HJ (E1 & E2 & E3). assert (E : forall t, getf d' t = getf d t) by (intros; unfold getf; by rewrite E1).
  apply (DJ_keep P full d); try done; intros *; rewrite ?E, ?E3; try done; [apply (dj_del _ _ _ HJ)|apply (dj_queue _ _ _ HJ)].
Qed.

(** ** The F1 functions *)
Definition has_data (f : f1) : Prop := forall x, is_Some (f_delegators f !! x) -> f_data f <> None.
Lemma w_data f x : has_data f -> f_data (fst (f1_withdraw f x)) = None <-> f_data f = None.
Proof.
  intros H. unfold f1_withdraw. destruct (f_delegators f !! x) eqn:E; [|done].
  assert (Hd : f_data f <> None) by (apply (H x); eauto).
  destruct (f1_start_new_period _ _) as [f' dd']. destruct (f1_sum_rewards _ _) as [r b]. cbn. split; [done|by intros].
Qed.
Lemma period_total f dd f' dd' : f1_start_new_period f dd = (f', dd') ->
  dd_total dd' = dd_total dd /\ f_delegators f' = f_delegators f.
Proof.
  unfold f1_start_new_period. intros [= <- <-]. split; [done|]. destruct (dd_undel dd); [|done].
  by destruct (f_entries f !! dd_latest dd).
Qed.
Lemma w_total f x : has_data f -> f1_total (fst (f1_withdraw f x)) = f1_total f.
Proof.
  intros H. unfold f1_withdraw. destruct (f_delegators f !! x) eqn:E; [|done].
  assert (Hd : f_data f <> None) by (apply (H x); eauto).
  destruct (f1_start_new_period _ _) as [f' dd'] eqn:Ep. apply period_total in Ep as [Et _].
  destruct (f1_sum_rewards _ _) as [r b]. cbn. unfold f1_total. cbn. rewrite Et. unfold get_dd. cbn. by destruct (f_data f).
Qed.
Lemma w_has f x : has_data f -> has_data (fst (f1_withdraw f x)).
Proof.
  intros H. unfold f1_withdraw. destruct (f_delegators f !! x) eqn:E; [|done].
  destruct (f1_start_new_period _ _) as [f' dd']. destruct (f1_sum_rewards _ _) as [r b]. intros y _. done.
Qed.
Lemma r_has f x : has_data f -> has_data (fst (f1_remove f x)).
Proof.
  intros H. unfold f1_remove. destruct (f_delegators f !! x) eqn:E; [|done].
  destruct (f1_start_new_period _ _) as [f' dd']. intros y _. done.
Qed.
Lemma r_data f x : has_data f -> f_data (fst (f1_remove f x)) <> None -> f_data f <> None.
Proof. intros H. unfold f1_remove. destruct (f_delegators f !! x) eqn:E; [|done]. intros _. apply (H x). eauto. Qed.
Lemma r_zero f x : f_data f = None -> has_data f -> f1_remove f x = (f, 0).
Proof. intros E H. unfold f1_remove. destruct (f_delegators f !! x) eqn:Ex; [|done]. exfalso. by apply (H x); eauto. Qed.
Lemma c_has f x a : has_data f -> has_data (f1_create f x a).
Proof.
  intros H. unfold f1_create. destruct (a =? 0); [done|]. destruct (f1_start_new_period _ _) as [f' dd']. intros y _. done.
Qed.

(** ** The functions of the keeper *)
Lemma pay_same d x c d' : pay_user d x c = Some d' -> dsame d d'.
Proof. unfold pay_user. destruct (send _ _ _ _); [|done]. by intros [= <-]. Qed.
Lemma withdrawal_get d s x : let d' := fst (perform_withdrawal d s x) in
  (forall t, t <> s -> getf d' t = getf d t) /\ getf d' s = fst (f1_withdraw (getf d s) x) /\
  ds_index d' = ds_index d /\ ds_queue d' = ds_queue d.
Proof.
  unfold perform_withdrawal. destruct (f1_withdraw (getf d s) x) as [f r] eqn:E. cbn [fst].
  set (d1 := if bool_decide _ then _ else _).
  assert (H1 : (forall t, t <> s -> getf d1 t = getf d t) /\ getf d1 s = f /\ ds_index d1 = ds_index d /\ ds_queue d1 = ds_queue d).
  { unfold d1. case_bool_decide as Hx.
    - split; [|split; [|done]]; intros *; rewrite getf_setf; destruct (decide _); congruence.
    - split; [done|]. split; [|done]. unfold f1_withdraw in E. destruct (f_delegators (getf d s) !! x) eqn:Ex; [exfalso; apply Hx; eauto|]. congruence. }
  destruct (pay_user d1 x r) as [d2|] eqn:Ep; cbn [fst]; [|done].
  apply pay_same in Ep as (E1 & E2 & E3). destruct H1 as (A & B & C & D).
  assert (E4 : forall t, getf d2 t = getf d1 t) by (intros; unfold getf; by rewrite E1).
  split; [|split; [|split]]; intros *; rewrite ?E4, ?E2, ?E3; auto.
Qed.
Lemma getf_halt d b t : getf (with_halt d b) t = getf d t. Proof. done. Qed.
Lemma getf_index d b t : getf (with_index d b) t = getf d t. Proof. done. Qed.

Lemma DJ_withdrawal P full d s x : DJ P full d -> DJ P full (fst (perform_withdrawal d s x)).
Proof.
  intros HJ. destruct (withdrawal_get d s x) as (A & B & C & D). set (d' := fst _) in *.
  assert (Hd : has_data (getf d s)) by (intros y; apply (dj_del _ _ _ HJ)).
  apply (DJ_keep P full d); try done.
  - intros t. destruct (decide (t = s)) as [->|Hne]; [|by rewrite A]. rewrite B. by apply w_total.
  - intros t. destruct (decide (t = s)) as [->|Hne]; [|by rewrite A]. rewrite B. by rewrite w_data.
  - intros t y. destruct (decide (t = s)) as [->|Hne]; [|rewrite A by done; apply (dj_del _ _ _ HJ)]. rewrite B. by apply w_has.
  - rewrite D. apply (dj_queue _ _ _ HJ).
Qed.

Lemma index_removed d s : ds_index (remove_index d s) = ds_index d ∖ {[ (delegation_amount d s, s) ]}. Proof. done. Qed.
Lemma DJ_delegation' (P P' : N -> Prop) full d s x a : DJ P full d -> (forall t, P t -> P' t) -> (forall t, P' t -> P t \/ t = s) -> P' s ->
  DJ P' full (perform_delegation d s x a).
Proof.
  intros HJ M1 M2 Hs. unfold perform_delegation. set (d0 := remove_index d s).
  assert (Hd : has_data (getf d s)) by (intros y; apply (dj_del _ _ _ HJ)).
  set (d1 := if bool_decide _ then _ else _).
  assert (H : (forall t, t <> s -> getf d1 t = getf d t) /\ has_data (getf d1 s) /\ ds_index d1 = ds_index d0 /\ ds_queue d1 = ds_queue d).
  { unfold d1. case_bool_decide as Hx.
    - destruct (withdrawal_get d0 s x) as (A & B & C & D).
      destruct (perform_withdrawal d0 s x) as [sw err]. cbn [fst] in *.
      destruct (f1_remove (getf (with_halt sw (failed err)) s) x) as [f und] eqn:Ef.
      split; [|split; [|done]].
      + intros t Ht. rewrite !getf_ne by done. rewrite getf_halt, A by done. done.
      + rewrite !getf_eq. apply c_has.
        change f with (fst (f, und)). rewrite <- Ef. apply r_has. rewrite getf_halt, B. apply w_has. done.
    - split; [|split; [|done]].
      + intros t Ht. by rewrite getf_ne.
      + rewrite getf_eq. apply c_has. done. }
  destruct H as (A & B & C & D). apply (DJ_upd' P P' full d _ s); try done.
  - cbn. rewrite C. done.
  - cbn. rewrite D. apply (dj_queue _ _ _ HJ).
Qed.
Lemma DJ_delegation P full d s x a : DJ P full d -> P s -> DJ P full (perform_delegation d s x a).
Proof. intros H Hs. by apply (DJ_delegation' P P); auto. Qed.
Lemma DJ_undelegation P full d s x a : DJ P full d -> 0 <= a -> DJ P full (fst (perform_undelegation d s x a)).
Proof.
  intros HJ Ha. unfold perform_undelegation. set (d0 := remove_index d s).
  assert (Hd : has_data (getf d s)) by (intros y; apply (dj_del _ _ _ HJ)).
  destruct (withdrawal_get d0 s x) as (A & B & C & D).
  destruct (perform_withdrawal d0 s x) as [sw err]. cbn [fst] in *.
  change (getf d0 s) with (getf d s) in B.
  set (f0 := getf (with_halt sw (failed err)) s).
  assert (Hf0 : has_data f0). { unfold f0. rewrite getf_halt, B. by apply w_has. }
  assert (Hn : f_data f0 <> None -> f_data (getf d s) <> None). { unfold f0. rewrite getf_halt, B. by rewrite w_data. }
  destruct (f1_remove f0 x) as [f und] eqn:Ef.
  assert (Hf : has_data f). { change f with (fst (f, und)). rewrite <- Ef. by apply r_has. }
  assert (Hfd : f_data f <> None -> f_data (getf d s) <> None).
  { intros Hx. apply Hn. apply (r_data f0 x); [done|]. by rewrite Ef. }
  set (sr := setf (with_halt sw (failed err)) s f). set (redel := if und >? a then u64_sub und a else 0).
  set (sc := if und >? a then _ else _). cbn [fst].
  assert (H : (forall t, t <> s -> getf sc t = getf d t) /\ has_data (getf sc s) /\ (f_data (getf sc s) <> None -> f_data (getf d s) <> None) /\
     ds_index sc = ds_index d0 /\ ds_queue sc = ds_queue d).
  { unfold sc. destruct (Z.gtb_spec und a).
    - split; [|split; [|split; [|done]]].
      + intros t Ht. unfold sr. rewrite !getf_ne by done. rewrite getf_halt, A by done. done.
      + unfold sr. rewrite !getf_eq. by apply c_has.
      + intros _ E.
        assert (f_data f0 = None) as Z0. { destruct (f_data f0) eqn:Ed; [|done]. exfalso. apply Hn; [congruence|done]. }
        rewrite (r_zero f0 x Z0 Hf0) in Ef. injection Ef as _ <-. lia.
    - split; [|split; [|split; [|done]]].
      + intros t Ht. unfold sr. rewrite getf_ne by done. rewrite getf_halt, A by done. done.
      + unfold sr. rewrite getf_eq. done.
      + unfold sr. rewrite getf_eq. done. }
  destruct H as (A' & B' & C' & D' & E'). apply (DJ_upd P full d _ s); try done.
  - cbn. rewrite D'. done.
  - intros H. apply (dj_data _ _ _ HJ). by apply C'.
  - cbn. rewrite E'. apply (dj_queue _ _ _ HJ).
Qed.

Lemma DJ_slash P full d s t : DJ P full d -> DJ P full (fst (slash_delegators d s t)).
Proof.
  intros HJ. unfold slash_delegators. destruct (f_data (getf d s)) as [dd|] eqn:E; [|done]. cbv zeta.
  destruct (f1_slash _ _) as [f slashed] eqn:Ef. cbn [fst].
  set (d1 := setf (remove_index d s) s f). set (d2 := match send _ _ _ _ with Some b => _ | None => _ end).
  assert (E2 : ds_f1 d2 = ds_f1 d1 /\ ds_index d2 = ds_index d1 /\ ds_queue d2 = ds_queue d1) by (unfold d2; by destruct (send _ _ _ _)).
  destruct E2 as (E2 & E3 & E4).
  assert (G2 : forall t, getf d2 t = getf d1 t) by (intros; unfold getf; by rewrite E2).
  assert (Hf : f_data f <> None). { unfold f1_slash in Ef. destruct (f1_start_new_period _ _). by injection Ef as <- <-. }
  apply (DJ_upd P full d _ s); try done.
  - change (delegation_amount (set_index d2 s) s) with (delegation_amount d2 s). cbn [set_index ds_index with_index].
    rewrite E3. done.
  - intros u Hu. change (getf (set_index d2 s) u) with (getf d2 u). rewrite G2. unfold d1. by rewrite getf_ne.
  - intros _. apply (dj_data _ _ _ HJ). by rewrite E.
  - intros x _. change (getf (set_index d2 s) s) with (getf d2 s). rewrite G2. unfold d1. by rewrite getf_eq.
  - cbn [set_index ds_queue with_index]. rewrite E4. apply (dj_queue _ _ _ HJ).
Qed.
Lemma DJ_payout P full d s c a d' : DJ P full d -> payout_rewards d s c a = Some d' -> DJ P full d'.
Proof.
  intros HJ. unfold payout_rewards. destruct (cempty c); [by intros [= <-]|].
  destruct (f_data (getf d s)) as [dd|] eqn:E; [|done]. cbv zeta. destruct (send _ _ _ _) as [b|]; [|done]. intros [= <-].
  set (f := f1_add_rewards (getf d s) c).
  assert (Ef : f1_total f = f1_total (getf d s) /\ f_data f <> None).
  { unfold f, f1_add_rewards, f1_total. rewrite E. done. }
  destruct Ef as [Et Ed].
  assert (G : forall t, getf (with_bank (setf d s f) b) t = getf (setf d s f) t) by done.
  apply (DJ_keep P full d); try done.
  - intros t. rewrite G. destruct (decide (t = s)) as [->|Hne]; [by rewrite getf_eq|by rewrite getf_ne].
  - intros t. rewrite G. destruct (decide (t = s)) as [->|Hne]; [by rewrite E|by rewrite getf_ne].
  - intros t x. rewrite G. destruct (decide (t = s)) as [->|Hne]; [by rewrite getf_eq|rewrite getf_ne by done]. apply (dj_del _ _ _ HJ).
  - apply (dj_queue _ _ _ HJ).
Qed.
Lemma DJ_delegate P full d ex x s a d' : DJ P full d -> P s -> msg_delegate d ex x s a = Some d' -> DJ P full d'.
Proof.
  intros HJ Hs. unfold msg_delegate. destruct (negb ex); [done|]. cbv zeta. destruct (send _ _ _ _); [|done]. intros [= <-].
  eapply DJ_same; [by apply DJ_delegation|done].
Qed.
Lemma DJ_undelegate P full d x s a d' : DJ P full d -> 0 <= a -> msg_undelegate d x s a = Some d' -> DJ P full d'.
Proof.
  intros HJ Ha. unfold msg_undelegate. destruct (a >? _); [done|]. intros [= <-].
  apply (DJ_keep P full d); try done.
  - intros t y. apply (dj_del _ _ _ HJ).
  - intros i e. cbn. rewrite lookup_insert_Some. intros [[<- <-]|[_ H]]; [done|by apply (dj_queue _ _ _ HJ) in H].
Qed.
Lemma DJ_redelegate P full d ex act x from to a d' : DJ P full d -> 0 <= a -> (ex = true -> P to) ->
  msg_redelegate d ex act x from to a = Some d' -> DJ P full d'.
Proof.
  intros HJ Ha Hp. unfold msg_redelegate. destruct (negb (bool_decide _)); [done|]. destruct ex; [|done]. destruct act; [|done]. cbn [negb].
  destruct (a >? _); [done|]. destruct (consume_spell _ _ _) as [l|]; [|done].
  set (d1 := with_cool _ _). assert (H1 : DJ P full d1) by (eapply DJ_same; [exact HJ|done]).
  pose proof (DJ_undelegation P full d1 from x a H1 Ha) as H2. destruct (perform_undelegation _ _ _ _) as [d2 actual].
  destruct (negb _); [done|]. intros [= <-]. apply DJ_delegation; [done|by apply Hp].
Qed.
Lemma DJ_withdraw P full d x s d' : DJ P full d -> msg_withdraw d x s = Some d' -> DJ P full d'.
Proof.
  intros HJ. unfold msg_withdraw. destruct (negb _); [done|]. pose proof (DJ_withdrawal P full d s x HJ) as H.
  destruct (perform_withdrawal _ _ _) as [d1 [r|]]; [|done]. by intros [= <-].
Qed.
Lemma DJ_process P full d : DJ P full d -> DJ P full (fst (process_queue d)).
Proof.
  intros HJ. unfold process_queue. generalize (queue_fuel d) as n. generalize (ds_low d) as low. revert d HJ.
  assert (H : forall n d low, DJ P full d -> DJ P full (fst (fst (process_loop n d low)))).
  { induction n as [|n IH]; intros d low HJ; cbn [process_loop]; [done|].
    destruct (ds_queue d !! (low + 1)%N) as [e|] eqn:E.
    - destruct (due d e); [|done].
      assert (H1 : DJ P full (fst (process_one d low e))).
      { unfold process_one. pose proof (DJ_undelegation P full d (u_staker e) (u_delegator e) (u_amount e) HJ (dj_queue _ _ _ HJ _ _ E)) as H1.
        destruct (perform_undelegation _ _ _ _) as [d1 paid]. cbn [fst] in *.
        set (d2 := match pay_user _ _ _ with Some s' => s' | None => _ end).
        assert (H2 : DJ P full d2). { unfold d2. destruct (pay_user _ _ _) eqn:Ep; [apply pay_same in Ep; by eapply DJ_same|by eapply DJ_same]. }
        apply (DJ_keep P full d2); try done.
        - intros t y. apply (dj_del _ _ _ H2).
        - intros i x. cbn. rewrite lookup_delete_Some. intros [_ Hx]. by apply (dj_queue _ _ _ H2) in Hx. }
      destruct (process_one d low e) as [d3 paid]. cbn [fst] in H1. specialize (IH d3 (low + 1)%N H1).
      destruct (process_loop n d3 (low + 1)) as [[d4 low'] out]. done.
    - destruct (_ <? _)%N; [by apply IH|done]. }
  intros d HJ low n. specialize (H n d low HJ). destruct (process_loop n d low) as [[d1 l1] out]. cbn [fst] in *.
  eapply DJ_same; [exact H|done].
Qed.

(** ** Over the chain *)
Lemma d_give c p x c' : give c p x = Some c' -> c_d c' = c_d c.
Proof. unfold give. destruct (i64 x <? 0); [done|]. by destruct (send _ _ _ _); intros [= <-]. Qed.
Lemma d_split_loop l c t pr d c' d' : split_loop c t pr d l = Some (c', d') -> c_d c' = c_d c.
Proof.
  revert c d. induction l as [|p l IH]; intros c d; simpl; [by intros [= <- <-]|].
  destruct (can_run c p); [|apply IH]. destruct (pool_share _ _ _) as [x|]; [|done].
  destruct (give c p x) as [c1|] eqn:Eg; [|done]. apply d_give in Eg. intros H. apply IH in H. congruence.
Qed.
Lemma d_remainder_loop l c x c' : remainder_loop c x l = Some c' -> c_d c' = c_d c.
Proof.
  revert c. induction l as [|p l IH]; intros c; simpl; [by intros [= <-]|].
  destruct (can_run c p); [apply IH|].
  destruct (give c p x) as [c1|] eqn:Eg; [|done]. apply d_give in Eg. intros H. apply IH in H. congruence.
Qed.
Lemma d_split c pr c' : split_inflation c pr = Some c' -> c_d c' = c_d c.
Proof.
  unfold split_inflation. destruct (block_provision _ _ _) as [[h team]|]; [|done].
  destruct (trunc64 _) as [protocol|]; [|done].
  set (c0 := if h then cw_halt c else c). assert (Hc0 : c_d c0 = c_d c) by (unfold c0; by destruct h).
  destruct (protocol =? 0); [by intros [= <-]|]. destruct (total_weight c0 =? 0); [by intros [= <-]|].
  destruct (split_loop _ _ _ _ _) as [[c1 d]|] eqn:Es; [|done]. apply d_split_loop in Es.
  destruct (0 <? _).
  - intros H. apply d_remainder_loop in H. congruence.
  - intros [= <-]. congruence.
Qed.
Lemma d_burn_fees c : c_d (burn_fees c) = c_d c.
Proof.
  unfold burn_fees. destruct (c_height c =? 1); [done|]. destruct (c_burn c =? 0); [done|].
  by destruct (burn _ _ _).
Qed.

Definition is_staker (c : chain) (s : N) : Prop := is_Some (ss_stakers (c_s c) !! s).
Definition jk (c c' : chain) : Prop :=
  (forall P full, DJ P full (c_d c) -> DJ P full (c_d c')) /\ (forall s, is_staker c s <-> is_staker c' s).
Lemma jk_refl c : jk c c. Proof. done. Qed.
Lemma jk_trans a b c : jk a b -> jk b c -> jk a c.
Proof. intros [A1 A2] [B1 B2]. split; [auto|]. intros s. by rewrite A2. Qed.
Lemma jk_eq c c' : c_d c' = c_d c -> ss_stakers (c_s c') = ss_stakers (c_s c) -> jk c c'.
Proof. intros E1 E2. split; [by rewrite E1|]. intros s. unfold is_staker. by rewrite E2. Qed.
Lemma DJ_in P full c : DJ P full (c_d c) -> DJ P full (d_in c).
Proof. intros H. eapply DJ_same; [exact H|done]. Qed.
Lemma jk_d c d : (forall P full, DJ P full (d_in c) -> DJ P full d) -> jk c (d_out c d).
Proof. intros H. split; [|done]. intros P full HJ. apply H. by apply DJ_in. Qed.
Lemma jk_insert c c' s x y : c_d c' = c_d c -> ss_stakers (c_s c) !! s = Some x ->
  ss_stakers (c_s c') = <[s := y]> (ss_stakers (c_s c)) -> jk c c'.
Proof.
  intros E1 Ex E2. split; [by rewrite E1|]. intros t. unfold is_staker. rewrite E2.
  destruct (decide (t = s)) as [->|]; [rewrite lookup_insert, Ex; split; eauto|by rewrite lookup_insert_ne].
Qed.
Lemma jk_pay c u r : match pay_out c u r with inl c' | inr c' => jk c c' end.
Proof.
  unfold pay_out. destruct (send _ _ _ _) as [bk|]; [|apply jk_refl].
  pose proof (eq_refl (c_d (cw_bank c bk))) as Eb. destruct (increase_commission_rewards _ _ _ _) as [s'|] eqn:E; [|by apply jk_eq].
  assert (H : jk c (s_out (cw_bank c bk) s')).
  { unfold increase_commission_rewards in E. destruct (cempty _); [injection E as <-; by apply jk_eq|].
    destruct (ss_stakers _ !! _) as [x|] eqn:Ex; [|done]. destruct (send _ _ _ _); [|done]. injection E as <-.
    eapply jk_insert; [done|exact Ex|done]. }
  destruct (payout_rewards _ _ _ _) as [d|] eqn:Ep; [|exact H].
  eapply jk_trans; [exact H|]. apply jk_d. intros P full HJ. by eapply DJ_payout.
Qed.
Lemma jk_infl c p c' x : charge_inflation c p = Some (c', x) -> jk c c'.
Proof. intros H. unfold charge_inflation in H. destruct (inflation_payout _ _); [|done]. destruct (i64 _ <? 0); [done|]. destruct (send _ _ _ _); injection H as <- <-; by apply jk_eq. Qed.
Lemma jk_leave c s p : jk c (s_out c (leave_pool (s_in c) s p)).
Proof. apply jk_eq; [done|]. cbn. destruct (StakersInv.leave_frame (s_in c) s p) as [-> _]. done. Qed.
Lemma jk_incr c p s : jk c (s_out c (fst (increment_points (s_in c) p s))).
Proof. apply jk_eq; [done|]. unfold increment_points. by destruct (get_val _ _ _). Qed.
Lemma jk_reset c p s : jk c (reset_pts c p s).
Proof. apply jk_eq; [done|]. unfold reset_pts, reset_points. by destruct (get_val _ _ _). Qed.
Lemma jk_final c p v : jk c (finalize c p v).
Proof. apply jk_eq; unfold finalize; by destruct (get_pool c p). Qed.
Lemma jk_slash c s t : jk c (d_out c (fst (slash_delegators (d_in c) s t))).
Proof. apply jk_d. intros P full HJ. by apply DJ_slash. Qed.

Ltac jwalk l := apply (l jk jk_refl jk_trans); try exact jk_pay; try exact jk_infl; try exact jk_leave; try exact jk_incr; try exact jk_reset; try exact jk_final;
  try exact jk_slash; try (intros; by apply jk_eq).

(** The whole chain. *)
Definition CJ (full : bool) (c : chain) : Prop := DJ (is_staker c) full (c_d c).
Lemma jk_CJ full c c' : jk c c' -> CJ full c -> CJ full c'.
Proof. intros [A B] H. unfold CJ in *. apply A in H. eapply DJ_ext; [|exact H]. exact B. Qed.
Lemma exists_staker c s : staker_exists c s = true -> is_staker c s.
Proof. unfold staker_exists. by case_bool_decide. Qed.
Lemma CJ_d full c d : DJ (is_staker c) full d -> CJ full (d_out c d).
Proof. done. Qed.

Lemma jk_stakers_begin c st : (forall s, is_Some (ss_stakers st !! s) <-> is_staker c s) -> jk c (s_out c (stakers_begin st)).
Proof.
  intros Hst. split; [done|]. intros s. unfold is_staker at 2. cbn [c_s s_out cw_bank cw_s]. rewrite <- Hst. clear Hst.
  unfold stakers_begin, process_leaves, process_commissions.
  set (Q := fun st' : sstate => is_Some (ss_stakers st !! s) <-> is_Some (ss_stakers st' !! s)).
  pose proof (queue_loop_inv process_centry Q (ss_chigh st) (S (N.to_nat (ss_chigh st - ss_clow st))) st (ss_clow st)) as H1.
  destruct (queue_loop process_centry _ _ _ _) as [st1 low]. cbn [fst] in H1.
  set (st2 := with_cq _ _ _ _ _).
  pose proof (queue_loop_inv process_lentry Q (ss_lhigh st2) (S (N.to_nat (ss_lhigh st2 - ss_llow st2))) st2 (ss_llow st2)) as H2.
  destruct (queue_loop process_lentry _ _ _ _) as [st3 low3]. cbn [fst] in H2.
  apply H2; clear H2.
  - intros st' i st'' Hp. unfold process_lentry. destruct (_ !! i) as [e|]; [|by intros [= <-]]. destruct (_ <=? _); [|done]. intros [= <-].
    unfold Q. match goal with |- context [leave_pool ?a ?b ?c] => destruct (leave_frame a b c) as [-> _] end. exact Hp.
  - unfold Q, st2. cbn [ss_stakers with_cq]. apply H1; [|done].
    intros st' i st'' Hp. unfold process_centry. destruct (_ !! i) as [e|]; [|by intros [= <-]]. destruct (_ <=? _); [|done]. intros [= <-].
    unfold Q in *. rewrite Hp. cbn [remove_centry ss_stakers with_cq].
    destruct (ss_stakers st' !! ce_staker e) eqn:Ee; [|done]. cbn [with_stakers ss_stakers].
    destruct (decide (s = ce_staker e)) as [->|]; [rewrite lookup_insert, Ee; split; eauto|by rewrite lookup_insert_ne].
Qed.

Lemma CJ_step full c o : CJ full c -> cop_ok c o -> CJ full (cstep c o).
Proof.
  intros HJ Hok. unfold cstep. destruct (cmsg c o) as [c'|] eqn:E; [|done]. change (default c (Some c')) with c'.
  pose proof (DJ_in _ _ _ HJ) as HI.
  destruct o; cbn [cmsg cop_ok] in E, Hok;
    try (match type of E with ?f <$> ?x = _ => destruct x as [y|] eqn:Ex; [injection E as <-|done] end);
    try (match type of E with (if ?x then _ else _) = _ => destruct x; [injection E as <-|done] end);
    try (by apply (jk_CJ full c); [by apply jk_eq|done]).
  - apply CJ_d. pose proof Ex as Ex'. unfold msg_delegate in Ex'. destruct (staker_exists c s) eqn:Es; [|done]. apply exists_staker in Es.
    by eapply DJ_delegate.
  - apply CJ_d. eapply DJ_undelegate; [exact HI| |exact Ex]. lia.
  - apply CJ_d. eapply DJ_redelegate; [exact HI| | |exact Ex]; [lia|apply exists_staker].
  - apply CJ_d. by eapply DJ_withdraw.
  - unfold chain_create_staker in E. destruct (msg_delegate _ _ _ _ _) as [d|] eqn:Ed; [|done].
    destruct (msg_create_staker _ _ _ _) as [s'|] eqn:Es; [|done]. injection E as <-.
    unfold msg_create_staker in Es. destruct (ss_stakers _ !! _) eqn:E1; [done|]. injection Es as <-.
    unfold msg_delegate in Ed. cbn [negb] in Ed. cbv zeta in Ed. destruct (send _ _ _ _) as [b|]; [|done]. injection Ed as <-.
    unfold CJ. eapply (DJ_same _ _ (perform_delegation (d_in c) s s a)); [|done].
    apply (DJ_delegation' (is_staker c)); [exact HI| | |].
    + intros t Ht. unfold is_staker. cbn. destruct (decide (t = s)) as [->|]; [by rewrite lookup_insert|by rewrite lookup_insert_ne].
    + intros t. unfold is_staker. cbn. destruct (decide (t = s)) as [->|]; [by right|]. rewrite lookup_insert_ne by done. by left.
    + unfold is_staker. cbn. by rewrite lookup_insert.
  - unfold msg_update_commission in Ex. destruct (ss_stakers (s_in c) !! s); [|done]. injection Ex as <-. apply (jk_CJ full c); [|done].
    unfold order_commission. destruct (ss_cindex _ !! _) as [i|]; [|by apply jk_eq]. destruct (ss_centries _ !! i); by apply jk_eq.
  - unfold msg_claim_commission in Ex. destruct (ss_stakers (s_in c) !! s) eqn:E1; [|done]. destruct (negb _); [done|].
    destruct (send _ _ _ _); [|done]. injection Ex as <-. apply (jk_CJ full c); [|done]. eapply jk_insert; [done|exact E1|done].
  - unfold msg_join in Ex. destruct (_ <$> _) as [[]|]; try done. destruct (ss_stakers (s_in c) !! s); [|done]. destruct (s =? v)%N; [done|].
    destruct (get_val (s_in c) p s); [done|]. destruct (ensure_slot _ _ p s) as [st1|] eqn:E1; [|done].
    assert (Eb : ss_stakers st1 = ss_stakers (s_in c)).
    { unfold ensure_slot in E1. destruct (_ <=? _); [|congruence]. destruct (_ <? _); [|done]. injection E1 as <-. apply leave_frame. }
    destruct (existsb _ _); [done|]. destruct (existsb _ _); [done|]. destruct (pay_kyve _ _ _ _); [|done]. injection Ex as <-.
    apply (jk_CJ full c); [|done]. apply jk_eq; [done|]. cbn. destruct (add_frame st1 s p v) as [-> _]. exact Eb.
  - unfold msg_leave in Ex. destruct (get_val _ _ _); [|done]. destruct (bool_decide _); [done|]. injection Ex as <-.
    apply (jk_CJ full c); [by apply jk_eq|done].
  - apply (jk_CJ full c); [|done]. revert E. jwalk k_submit.
  - apply (jk_CJ full c); [|done]. revert E. apply (k_vote jk jk_trans); [exact jk_reset|]. intros; by apply jk_eq.
  - apply (jk_CJ full c); [|done]. revert E. jwalk k_skip.
  - unfold msg_claim_role in E. repeat (destruct (negb _); [done|]). injection E as <-. apply (jk_CJ full c); [by apply jk_eq|done].
  - unfold chain_create_pool in E. destruct (msg_create_pool _ _ _ _ _); [|done]. injection E as <-. apply (jk_CJ full c); [by apply jk_eq|done].
  - unfold chain_disable_pool in E. destruct (disable_record _ _ _) as [ps|]; [|done]. cbv zeta in E. set (c2 := fold_left _ _ _) in E.
    assert (H2 : jk c c2).
    { unfold c2. apply (jk_trans _ (cw_pools c ps)); [by apply jk_eq|]. apply (k_fold jk jk_refl jk_trans). intros. apply jk_leave. }
    apply (jk_CJ full c); [|done].
    destruct (_ <=? _); [done|]. destruct (0 <? _); [|by injection E as <-]. destruct (i64 _ <? 0); [done|].
    destruct (send _ _ _ _); [|done]. injection E as <-. eapply jk_trans; [exact H2|by apply jk_eq].
  - unfold CJ. eapply DJ_same; [exact HJ|done].
  - injection E as <-. unfold begin_block. set (c0 := cw_time _ _ _). set (c1 := t_out c0 _).
    set (c2 := match split_inflation c1 provision with Some x => x | None => cw_halt c1 end).
    assert (Hb : jk c c2).
    { unfold c2. destruct (split_inflation c1 provision) eqn:E; [|by apply jk_eq]. apply jk_eq.
      - by rewrite (d_split _ _ _ E).
      - by rewrite (PoolFrame.s_split _ _ _ E). }
    apply (jk_CJ full c); [|done]. eapply jk_trans; [exact Hb|]. eapply jk_trans; [|apply jk_stakers_begin; done].
    apply jk_d. intros P f H. apply DJ_process. eapply DJ_same; [exact H|done].
  - injection E as <-. unfold end_block. set (c1 := cw_pools _ _). apply (jk_CJ full c); [|done]. apply (jk_trans _ c1); [by apply jk_eq|].
    apply (jk_trans _ (handle_upload_timeout c1)); [jwalk k_handle_timeout|]. apply jk_eq; [by rewrite d_burn_fees|by rewrite PoolFrame.s_burn_fees].
  - injection E as <-. apply (jk_CJ full c); [by apply jk_eq|done].
Qed.

(** ** Nodes *)
(** A node runs the chain and is restarted now and then. *)
Inductive nop := NChain (o : cop) | NRestart.
Definition nstep (c : chain) (o : nop) : chain := match o with NChain o => cstep c o | NRestart => restart c end.
Fixpoint nrun (c : chain) (ops : list nop) : chain := match ops with [] => c | o :: t => nrun (nstep c o) t end.
Fixpoint nops_ok (c : chain) (ops : list nop) : Prop :=
  match ops with
  | [] => True
  | o :: t => match o with NChain o => cop_ok c o | NRestart => True end /\ nops_ok (nstep c o) t
  end.

Lemma CJ_weaken full c : CJ full c -> CJ false c.
Proof. intros [H1 H2 H3 H4 H5]. by split. Qed.
Lemma rebuild_spec d : ds_f1 (rebuild_index d) = ds_f1 d /\ ds_queue (rebuild_index d) = ds_queue d /\
  forall a s, (a, s) ∈ ds_index (rebuild_index d) <-> a = delegation_amount d s /\ f_data (getf d s) <> None.
Proof.
  unfold rebuild_index. set (l := omap _ _).
  assert (Hl : forall s, In s l <-> f_data (getf d s) <> None).
  { intros s. unfold l. rewrite <- elem_of_list_In, elem_of_list_omap. split.
    - intros ([t f] & Hf & E). cbn in E. destruct (f_data f) eqn:Ed; [|done]. injection E as <-.
      apply elem_of_map_to_list in Hf. unfold getf. rewrite Hf. cbn. congruence.
    - unfold getf. destruct (ds_f1 d !! s) as [f|] eqn:Ef; [|done]. cbn. intros Hd. exists (s, f).
      split; [by apply elem_of_map_to_list|]. cbn. by destruct (f_data f). }
  assert (H : forall l d0, ds_f1 d0 = ds_f1 d -> let r := fold_left (fun d s => set_index d s) l d0 in
    ds_f1 r = ds_f1 d /\ ds_queue r = ds_queue d0 /\
    forall a s, (a, s) ∈ ds_index r <-> (a, s) ∈ ds_index d0 \/ (a = delegation_amount d s /\ In s l)).
  { clear. induction l as [|x l IH]; intros d0 E; cbn [fold_left].
    - split; [done|]. split; [done|]. intros a s. cbn. tauto.
    - destruct (IH (set_index d0 x)) as (A & B & C); [done|]. split; [done|]. split; [done|]. intros a s. rewrite C. cbn [set_index ds_index with_index In].
      rewrite elem_of_union, elem_of_singleton.
      assert (Ex : delegation_amount d0 x = delegation_amount d x) by (unfold delegation_amount, getf; by rewrite E).
      rewrite Ex. split; [|]; [intros [[?|[= -> ->]]|[? ?]]|intros [?|[-> [<-|?]]]]; auto. }
  destruct (H l (with_index d ∅) eq_refl) as (A & B & C). split; [done|]. split; [done|]. intros a s. rewrite C, Hl.
  cbn. split; [intros [?|?]; [set_solver|done]|by right].
Qed.
Lemma CJ_restart full c : CJ full c -> CJ false (restart c).
Proof.
  intros [H1 H2 H3 H4 H5]. destruct (rebuild_spec (c_d c)) as (A & B & C).
  assert (E : forall s, getf (rebuild_index (c_d c)) s = getf (c_d c) s) by (intros; unfold getf; by rewrite A).
  assert (Ea : forall s, delegation_amount (rebuild_index (c_d c)) s = delegation_amount (c_d c) s) by (intros; unfold delegation_amount; by rewrite E).
  split; cbn [c_d restart cw_d].
  - intros a s Hs. rewrite Ea. apply C in Hs. apply Hs.
  - intros s. rewrite E, Ea. intros Hs. split; [by apply H2|]. by apply C.
  - intros s x. rewrite E. apply H3.
  - intros i e. rewrite B. apply H4.
  - done.
Qed.
Lemma CJ_start g full : CJ full (ChainLift.gstart g).
Proof.
  split.
  - intros a s H. cbn in H. set_solver.
  - intros s H. exfalso. apply H. cbn. unfold getf. cbn. by rewrite lookup_empty.
  - intros s x H. exfalso. revert H. cbn. unfold getf. cbn. rewrite !lookup_empty. cbn. rewrite lookup_empty. by intros [? ?].
  - intros i e. cbn. by rewrite lookup_empty.
  - intros _ s [x H]. exfalso. revert H. cbn. by rewrite lookup_empty.
Qed.
Lemma CJ_run g ops : cops_ok (ChainLift.gstart g) ops -> CJ true (crun (ChainLift.gstart g) ops).
Proof. intros H. apply crun_inv; [apply CJ_step|apply CJ_start|done]. Qed.
Lemma CJ_nrun ops : forall c, CJ false c -> nops_ok c ops -> CJ false (nrun c ops).
Proof.
  induction ops as [|o ops IH]; intros c HJ; cbn [nrun nops_ok]; [done|]. intros [Ho Hok]. apply IH; [|done].
  destruct o; cbn [nstep]; [by apply CJ_step|by eapply CJ_restart].
Qed.
