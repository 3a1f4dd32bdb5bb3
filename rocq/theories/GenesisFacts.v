(** * Facts about the loops of genesis validation and import. *)
From stdpp Require Import sorting.
From Verif Require Import Base BaseFacts Delegation Stakers StakersInv Funders Team RoundRobin Pool Bundles Chain Query Params Genesis GenesisInv IndexInv.

(** ** Duplicates *)
Lemma fresh_spec {K} `{Countable K} (l : list K) : forall seen, fresh seen l = true <-> NoDup l /\ forall k, k ∈ l -> k ∉ seen.
Proof.
  induction l as [|k t IH]; intros seen; cbn [fresh].
  - split; [|done]. intros _. split; [constructor|]. intros k Hk. by apply elem_of_nil in Hk.
  - case_bool_decide as Hk.
    + split; [done|]. intros [_ Hs]. exfalso. apply (Hs k); [by left|done].
    + rewrite IH, NoDup_cons. split.
      * intros [Hn Hs]. split; [split; [|done]|].
        -- intros Hin. apply (Hs k Hin). set_solver.
        -- intros x Hx. apply elem_of_cons in Hx as [->|Hx]; [done|]. specialize (Hs x Hx). set_solver.
      * intros [[Hn Hn'] Hs]. split; [done|]. intros x Hx. specialize (Hs x). rewrite elem_of_cons in Hs. specialize (Hs (or_intror Hx)).
        assert (x <> k) by (intros ->; done). set_solver.
Qed.
Lemma fresh_nodup {K} `{Countable K} (l : list K) : fresh ∅ l = true <-> NoDup l.
Proof. rewrite fresh_spec. split; [by intros [? _]|]. intros Hn. split; [done|]. intros k _. set_solver. Qed.
Lemma fresh_no_insert_true {K} `{Countable K} (l : list K) : fresh_no_insert ∅ l = true.
Proof. induction l as [|k t IH]; cbn [fresh_no_insert]; [done|]. rewrite bool_decide_false by set_solver. done. Qed.

(** ** A loop that writes records into a store *)
Section fold.
  Context {S X K V : Type} `{EqDecision K} (put : S -> X -> S) (key : X -> K) (val : X -> V) (look : S -> K -> option V).
  Context (Hput : forall st x k, look (put st x) k = if decide (key x = k) then Some (val x) else look st k).
  Lemma fold_look l : forall st k, (exists x, x ∈ l /\ key x = k /\ look (fold_left put l st) k = Some (val x)) \/
    ((forall x, x ∈ l -> key x <> k) /\ look (fold_left put l st) k = look st k).
  Proof.
    induction l as [|x t IH]; intros st k; cbn [fold_left].
    - right. split; [|done]. intros x Hx. by apply elem_of_nil in Hx.
    - destruct (IH (put st x) k) as [(y & Hy & Hk & E)|[Hn E]].
      + left. exists y. split; [by right|done].
      + rewrite E, Hput. destruct (decide (key x = k)) as [Hk|Hk].
        * left. exists x. split; [by left|done].
        * right. split; [|done]. intros y Hy. apply elem_of_cons in Hy as [->|Hy]; [done|by apply Hn].
  Qed.
  (** The records of a store written into an empty one. *)
  Lemma fold_restore l st look0 : (forall k, look st k = None) ->
    (forall k v, look0 k = Some v <-> exists x, x ∈ l /\ key x = k /\ val x = v) ->
    forall k, look (fold_left put l st) k = look0 k.
  Proof.
    intros He H0 k. destruct (fold_look l st k) as [(x & Hx & Hk & ->)|[Hn ->]].
    - symmetry. apply H0. by exists x.
    - rewrite He. destruct (look0 k) as [v|] eqn:E; [|done]. apply H0 in E as (x & Hx & Hk & _). exfalso. by apply (Hn x).
  Qed.
End fold.
Lemma fold_frame {S X P} (put : S -> X -> S) (pr : S -> P) l : (forall st x, pr (put st x) = pr st) -> forall st, pr (fold_left put l st) = pr st.
Proof. intros H. induction l as [|x t IH]; intros st; cbn [fold_left]; [done|]. rewrite IH. apply H. Qed.

(** A loop of insertions rebuilds a map from its records. *)
Lemma fold_map {K V} `{Countable K} (m : gmap K V) l : l ≡ₚ map_to_list m ->
  fold_left (fun (m : gmap K V) x => <[fst x := snd x]> m) l ∅ = m.
Proof.
  intros HP. apply map_eq. apply (fold_restore (fun (m : gmap K V) x => <[fst x := snd x]> m) fst snd (fun m k => m !! k)).
  - intros st x k. destruct (decide (fst x = k)) as [<-|Hne]; [by rewrite lookup_insert|by rewrite lookup_insert_ne].
  - apply lookup_empty.
  - intros k v. rewrite <- elem_of_map_to_list. rewrite <- HP. split.
    + intros Hx. by exists (k, v).
    + intros ([k' v'] & Hx & <- & <-). done.
Qed.

(** ** Records of nested maps *)
Definition flat {A B} (m : A -> list (N * B)) (l : list (N * A)) : list (N * N * B) :=
  flat_map (fun x : N * A => map (fun y : N * B => (fst x, fst y, snd y)) (m (snd x))) l.
Lemma flat_elem {A B} (m : A -> list (N * B)) l s k v : (s, k, v) ∈ flat m l <-> exists a, (s, a) ∈ l /\ (k, v) ∈ m a.
Proof.
  unfold flat. rewrite elem_of_list_In, in_flat_map. split.
  - intros ([s' a] & Hx & Hy). apply in_map_iff in Hy as ([k' v'] & E & Hy). cbn in E, Hy. injection E as -> -> ->.
    exists a. rewrite !elem_of_list_In. done.
  - intros (a & Hx & Hy). exists (s, a). rewrite <- !elem_of_list_In. split; [done|]. rewrite elem_of_list_In. apply in_map_iff.
    exists (k, v). rewrite <- elem_of_list_In. done.
Qed.
Lemma flat_nodup {A B} (m : A -> list (N * B)) l : NoDup (map fst l) -> (forall x, x ∈ l -> NoDup (map fst (m (snd x)))) ->
  NoDup (map fst (flat m l)).
Proof.
  induction l as [|[s a] t IH]; cbn [flat flat_map map fst]; intros Hn Hm; [constructor|]. apply NoDup_cons in Hn as [Hs Hn].
  rewrite map_app. apply NoDup_app. split; [|split].
  - rewrite map_map. cbn [fst snd].
    assert (E : map (fun y : N * B => (s, fst y)) (m a) = map (pair s) (map fst (m a))) by by rewrite map_map. rewrite E.
    apply (NoDup_fmap_2 (pair s) (map fst (m a))). specialize (Hm (s, a)). apply Hm. by left.
  - intros [s' k] Hin Hin'. apply elem_of_list_In, in_map_iff in Hin as ([[s1 k1] v1] & E & Hin). injection E as -> ->.
    apply in_map_iff in Hin as ([k2 v2] & E & _). cbn in E. injection E as <- <- <-.
    apply elem_of_list_In, in_map_iff in Hin' as ([[s1 k1] v3] & E & Hin'). injection E as -> ->.
    apply elem_of_list_In in Hin'. apply (flat_elem m t s k2 v3) in Hin' as (a' & Ha' & _). apply Hs.
    apply elem_of_list_In, in_map_iff. exists (s, a'). split; [done|]. by apply elem_of_list_In.
  - apply IH; [done|]. intros x Hx. apply Hm. by right.
Qed.

(** ** x/delegation: how one record is written *)
Lemma put_delegator_getf st x s : getf (put_delegator st x) s =
  if decide (fst (fst x) = s) then set_delegators (getf st s) (<[snd (fst x) := snd x]> (f_delegators (getf st s))) else getf st s.
Proof. unfold put_delegator. rewrite getf_set. destruct (decide _) as [<-|]; done. Qed.
Lemma put_entry_getf st x s : getf (put_entry st x) s =
  if decide (fst (fst x) = s) then set_entries (getf st s) (<[snd (fst x) := snd x]> (f_entries (getf st s))) else getf st s.
Proof. unfold put_entry. rewrite getf_set. destruct (decide _) as [<-|]; done. Qed.
Lemma put_data_getf st x s : getf (put_data st x) s =
  if decide (fst x = s) then set_data (getf st s) (Some (snd x)) else getf st s.
Proof. unfold put_data. rewrite getf_set. destruct (decide _) as [<-|]; done. Qed.
Lemma put_slash_getf st x s : getf (put_slash st x) s =
  if decide (fst (fst x) = s) then set_slashes (getf st s) (kv_set (snd (fst x)) (snd x) (f_slashes (getf st s))) else getf st s.
Proof. unfold put_slash. rewrite getf_set. destruct (decide _) as [<-|]; done. Qed.

(** Sorted stores with the same records are the same. *)
Lemma sorted_fst_ext {V} (l1 : list (N * V)) : forall l2, StronglySorted N.lt (map fst l1) -> StronglySorted N.lt (map fst l2) ->
  (forall k, kv_get k l1 = kv_get k l2) -> l1 = l2.
Proof.
  assert (Hnone : forall (k : N) (l : list (N * V)), (forall x, x ∈ map fst l -> k < x)%N -> kv_get k l = None).
  { intros k l. induction l as [|[k' v'] t IH]; cbn [kv_get map fst]; intros H; [done|].
    assert (k < k')%N by (apply H; by left). destruct (k =? k')%N eqn:E; [lia|]. apply IH. intros x Hx. apply H. by right. }
  assert (Hlt : forall (k : N) (l : list (N * V)), Forall (N.lt k) (map fst l) -> forall x, x ∈ map fst l -> (k < x)%N).
  { intros k l H x Hx. by eapply Forall_forall in H. }
  induction l1 as [|[k1 v1] t1 IH]; intros [|[k2 v2] t2]; cbn [map fst]; intros H1 H2 E.
  - done.
  - specialize (E k2). cbn in E. by rewrite N.eqb_refl in E.
  - specialize (E k1). cbn in E. by rewrite N.eqb_refl in E.
  - inversion H1 as [|? ? S1 F1]; subst. inversion H2 as [|? ? S2 F2]; subst.
    assert (k1 = k2 /\ v1 = v2) as [<- <-].
    { destruct (N.lt_trichotomy k1 k2) as [Hl|[->|Hl]].
      - specialize (E k1). cbn in E. rewrite N.eqb_refl in E. destruct (k1 =? k2)%N eqn:Ek; [lia|].
        rewrite Hnone in E; [done|]. intros x Hx. apply (Hlt _ _ F2) in Hx. lia.
      - specialize (E k2). cbn in E. rewrite N.eqb_refl in E. by injection E as ->.
      - specialize (E k2). cbn in E. rewrite N.eqb_refl in E. destruct (k2 =? k1)%N eqn:Ek; [lia|].
        rewrite Hnone in E; [done|]. intros x Hx. apply (Hlt _ _ F1) in Hx. lia. }
    f_equal. apply IH; [done..|]. intros k. specialize (E k). cbn in E. destruct (k =? k1)%N eqn:Ek; [|done].
    apply N.eqb_eq in Ek as ->. rewrite !Hnone by (by apply Hlt). done.
Qed.
Lemma kv_get_elem {V} (l : list (N * V)) k v : StronglySorted N.lt (map fst l) -> kv_get k l = Some v <-> (k, v) ∈ l.
Proof.
  induction l as [|[k' v'] t IH]; cbn [kv_get map fst]; intros H.
  - split; [done|]. intros Hx. by apply elem_of_nil in Hx.
  - inversion H as [|? ? S F]; subst. rewrite elem_of_cons. destruct (k =? k')%N eqn:E.
    + apply N.eqb_eq in E as ->. split; [intros [= ->]; by left|]. intros [[= ->]|Hx]; [done|]. exfalso.
      eapply Forall_forall in F; [|apply (elem_of_list_fmap_1 fst _ _ Hx)]. cbn in F. lia.
    + rewrite IH by done. split; [by right|]. intros [[= -> ->]|Hx]; [lia|done].
Qed.
Lemma kv_set_elem {V} (l : list (N * V)) k v x : x ∈ map fst (kv_set k v l) -> x = k \/ x ∈ map fst l.
Proof.
  induction l as [|[k' v'] t IH]; cbn [kv_set map fst]; [set_solver|]. destruct (k <? k')%N; [cbn; set_solver|].
  destruct (k =? k')%N; cbn [map fst]; set_solver.
Qed.
Lemma kv_set_sorted {V} (l : list (N * V)) k v : StronglySorted N.lt (map fst l) -> StronglySorted N.lt (map fst (kv_set k v l)).
Proof.
  induction l as [|[k' v'] t IH]; cbn [kv_set map fst]; intros H; [by repeat constructor|]. inversion H as [|? ? S F]; subst.
  destruct (k <? k')%N eqn:E1; cbn [map fst].
  - constructor; [done|]. constructor; [lia|]. eapply Forall_impl; [exact F|]. cbn. lia.
  - destruct (k =? k')%N eqn:E2; cbn [map fst].
    + apply N.eqb_eq in E2 as ->. by constructor.
    + constructor; [by apply IH|]. apply Forall_forall. intros x Hx. apply kv_set_elem in Hx as [->|Hx]; [lia|].
      by eapply Forall_forall in F.
Qed.
Lemma sorted_dates_ext (l1 : list Z) : forall l2, StronglySorted Z.lt l1 -> StronglySorted Z.lt l2 -> (forall t, t ∈ l1 <-> t ∈ l2) -> l1 = l2.
Proof.
  induction l1 as [|a t1 IH]; intros [|b t2] H1 H2 E.
  - done.
  - exfalso. specialize (E b). set_solver.
  - exfalso. specialize (E a). set_solver.
  - inversion H1 as [|? ? S1 F1]; subst. inversion H2 as [|? ? S2 F2]; subst.
    assert (L1 : forall x, x ∈ t1 -> a < x) by (intros x Hx; by eapply Forall_forall in F1).
    assert (L2 : forall x, x ∈ t2 -> b < x) by (intros x Hx; by eapply Forall_forall in F2).
    assert (a = b) as <-.
    { pose proof (E a) as Ea. pose proof (E b) as Eb. rewrite !elem_of_cons in Ea, Eb.
      destruct Ea as [Ea _]. destruct Eb as [_ Eb]. destruct Ea as [?|Ha]; [by left|done|]. destruct Eb as [?|Hb]; [by left|done|].
      apply L2 in Ha. apply L1 in Hb. lia. }
    f_equal. apply IH; [done..|]. intros t. specialize (E t). rewrite !elem_of_cons in E. split; intros Ht.
    + destruct E as [E _]. destruct E as [->|?]; [by right| |done]. apply L1 in Ht. lia.
    + destruct E as [_ E]. destruct E as [->|?]; [by right| |done]. apply L2 in Ht. lia.
Qed.
