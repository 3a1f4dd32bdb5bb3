(** * C65: the queries about funders and fundings (proofs). *)
From Verif Require Import Base BaseFacts Delegation DelegationClaims Stakers Funders FundersInv FundersRun Team RoundRobin Pool Bundles Chain ChainFrame ArchiveInv ChainLift PoolClaims Query QueryFacts QueryClaims
  Account AccountClaims AccountLists Fundings FundingsFrame.
Local Instance any : joiners := fun _ _ => True.

(** ** Pages whose records may fail *)
Lemma all_some {A B} (h : A -> option B) (h' : A -> B) l : (forall x, In x l -> h x = Some (h' x)) -> all_or_none (map h l) = Some (map h' l).
Proof.
  induction l as [|x l IH]; intros H; cbn; [done|]. rewrite (H x (or_introl eq_refl)), IH; [done|]. intros y Hy. apply H. by right.
Qed.
Lemma walk_some {A B K} (ask : option K -> option (list A * option K)) (ask' : option K -> option (list B * option K)) (h : A -> B) :
  (forall k r n, ask k = Some (r, n) -> ask' k = Some (map h r, n)) ->
  forall n k r, walk n ask k = Some r -> walk n ask' k = Some (map h r).
Proof.
  intros H. induction n as [|n IH]; intros k r; cbn [walk]; [done|]. destruct (ask k) as [[x [y|]]|] eqn:E; [| |done]; rewrite (H _ _ _ E).
  - destruct (walk n ask (Some y)) as [z|] eqn:Ew; [|done]. intros [= <-]. rewrite (IH _ _ Ew). by rewrite map_app.
  - by intros [= <-].
Qed.
Lemma in_firstn {A} (x : A) n l : In x (firstn n l) -> In x l.
Proof. intros H. rewrite <- (firstn_skipn n l). apply in_or_app. by left. Qed.
Section partial_pages.
  Context {A B : Type} (hit : A -> bool) (l : list A) (from : A -> list A) (h : A -> option B) (h' : A -> B).
  Context (Hfrom : forall l1 k l2, l = l1 ++ k :: l2 -> from k = k :: l2) (Hin : forall k x, In x (from k) -> In x l).
  Context (Hh : forall x, In x l -> hit x = true -> h x = Some (h' x)).
  Definition partial_page (key : option A) (offset limit : Z) (count : bool) : option (list B * option A * Z) :=
    match filtered_paginate hit l from key offset limit count with
    | None => None
    | Some (r, k, n) => match all_or_none (map h r) with Some x => Some (x, k, n) | None => None end
    end.
  Lemma hits_some r : (forall x, In x r -> In x (List.filter hit l)) -> all_or_none (map h r) = Some (map h' r).
  Proof. intros H. apply all_some. intros x Hx. apply H, filter_In in Hx as [H1 H2]. by apply Hh. Qed.
  Lemma shows_partial : shows partial_page (map h' (List.filter hit l)).
  Proof.
    split.
    - intros limit count H1 H2. destruct (walk_all hit l from limit count Hfrom H1 H2) as [n Hw]. exists n.
      eapply (walk_some (ask hit l from limit count)); [|exact Hw]. intros k r n' E. unfold partial_page.
      destruct k as [k|].
      + pose proof (ask_key hit l from limit count k) as Hk. rewrite E in Hk. injection Hk as Hk.
        destruct (keyed_spec hit (from k) 0 (page_size limit)) as (l1 & l2 & El & E1 & _). { pose proof (page_size_pos limit H1). lia. }
        rewrite <- Hk in E1. cbn [fst] in E1. unfold ask in E. destruct (filtered_paginate _ _ _ _ _ _ _) as [[[r' k'] m]|]; [|done].
        injection E as -> ->. rewrite hits_some; [done|]. intros x Hx. rewrite E1 in Hx. apply filter_In in Hx as [Hx1 Hx2].
        apply filter_In. split; [|done]. apply (Hin k). rewrite El. apply in_or_app. by left.
      + destruct (filtered_offset hit l from limit count Hfrom H1 H2 0 ltac:(lia) ltac:(lia)) as (m & Ef & _).
        unfold ask in E. rewrite Ef in E. injection E as <- <-. rewrite Ef. rewrite hits_some; [done|]. intros x Hx. cbn [skipn Z.to_nat] in Hx. 
        by apply in_firstn in Hx.
    - intros o limit H1 H2 H3. destruct (filtered_offset hit l from limit true Hfrom H2 ltac:(lia) o H1 H3) as (m & Ef & En).
      unfold partial_page. rewrite Ef, En by auto. rewrite hits_some.
      + eexists. rewrite skipn_map, firstn_map, map_length. done.
      + intros x Hx. apply in_firstn in Hx. rewrite <- (firstn_skipn (Z.to_nat o)). apply in_or_app. by right.
  Qed.
End partial_pages.

(** ** What is stored *)
Lemma czero_spec c : cpos c -> czero c = true <-> forall x, amt c x = 0.
Proof.
  intros Hc. unfold czero. rewrite forallb_forall. split.
  - intros H x. unfold amt. destruct (c !! x) as [v|] eqn:E; [|done]. specialize (H (x, v)). cbn in *.
    apply Z.eqb_eq. apply H. by apply elem_of_list_In, elem_of_map_to_list.
  - intros H [x v] Hx. apply elem_of_list_In, elem_of_map_to_list in Hx. specialize (H x). unfold amt in H. rewrite Hx in H. cbn in *. by apply Z.eqb_eq.
Qed.
Lemma call_positive_spec c : cpos c -> call_positive c = negb (czero c).
Proof.
  intros Hc. unfold call_positive. destruct (czero c) eqn:E; cbn.
  - pose proof (proj1 (czero_spec c Hc) E) as E'. rewrite (proj1 (cpos_empty_iff c Hc) E'). done.
  - destruct (cempty c) eqn:Ee; cbn; [apply cempty_spec in Ee; by rewrite Ee in E|]. apply forallb_forall. intros [x v] Hx.
    apply elem_of_list_In, elem_of_map_to_list in Hx. cbn. apply Z.ltb_lt. by eapply Hc.
Qed.
Lemma ple_total x y : ple x y \/ ple y x.
Proof. unfold ple, pleb. destruct x as [a b], y as [a' b']. cbn. lia. Qed.
Lemma ple_anti x y : ple x y -> ple y x -> x = y.
Proof. unfold ple, pleb. destruct x as [a b], y as [a' b']. cbn. intros. f_equal; lia. Qed.
Lemma ple_trans x y z : ple x y -> ple y z -> ple x z.
Proof. unfold ple, pleb. destruct x, y, z. cbn. lia. Qed.
Global Instance ple_Total : Total ple. Proof. intros x y. apply ple_total. Qed.
Global Instance ple_Trans : Transitive ple. Proof. intros x y z. apply ple_trans. Qed.
Lemma pairs_sorted l : StronglySorted ple (merge_sort ple l).
Proof. apply (StronglySorted_merge_sort ple). Qed.
Lemma pairs_from_spec l l1 k l2 : NoDup l -> merge_sort ple l = l1 ++ k :: l2 -> pairs_from (merge_sort ple l) k = k :: l2.
Proof.
  intros Hn E. unfold pairs_from. rewrite E. apply (sorted_from ple pleb); [done|apply ple_anti| | |].
  - intros x. by destruct (ple_total x x).
  - rewrite <- E. apply pairs_sorted.
  - rewrite <- E. by rewrite merge_sort_Permutation.
Qed.
Lemma funder_store_in st a p : In (a, p) (funder_store st) <-> is_Some (fs_fundings st !! (a, p)).
Proof.
  unfold funder_store. rewrite <- elem_of_list_In, merge_sort_Permutation. split.
  - intros H. apply elem_of_list_fmap in H as ([k x] & -> & H). apply elem_of_map_to_list in H. by exists x.
  - intros [x H]. change (a, p) with (fst (a, p, x)). apply elem_of_list_fmap_1. by apply elem_of_map_to_list.
Qed.
Lemma funder_store_nodup st : NoDup (map fst (map_to_list (fs_fundings st))).
Proof. apply NoDup_fst_map_to_list. Qed.
Definition swap (x : N * N) : N * N := (snd x, fst x).
Global Instance swap_inj : Inj eq eq swap.
Proof. intros [a b] [a' b']. unfold swap. cbn. by intros [= -> ->]. Qed.
Lemma pool_store_eq st : pool_store st = merge_sort ple (map swap (map fst (map_to_list (fs_fundings st)))).
Proof. unfold pool_store. by rewrite map_map. Qed.
Lemma pool_store_nodup st : NoDup (map swap (map fst (map_to_list (fs_fundings st)))).
Proof. apply (NoDup_fmap_2 swap). apply funder_store_nodup. Qed.
Lemma pool_store_in st a p : In (p, a) (pool_store st) <-> is_Some (fs_fundings st !! (a, p)).
Proof.
  rewrite <- funder_store_in. unfold funder_store. rewrite pool_store_eq, <- !elem_of_list_In, !merge_sort_Permutation. rewrite !elem_of_list_In, in_map_iff. split.
  - intros ([x y] & [= <- <-] & H). done.
  - intros H. by exists (a, p).
Qed.
Lemma pools_of_in st a p : In p (pools_of st a) <-> is_Some (fs_fundings st !! (a, p)).
Proof.
  unfold pools_of. rewrite <- elem_of_list_In, merge_sort_Permutation, elem_of_list_In, in_map_iff. split.
  - intros ([q f] & <- & H). apply fundings_of_in in H. by exists f.
  - intros [f H]. exists (p, f). split; [done|]. by apply fundings_of_in.
Qed.
Lemma pools_of_nodup st a : NoDup (pools_of st a).
Proof. unfold pools_of. rewrite merge_sort_Permutation. apply fundings_of_nodup. Qed.
Lemma funding_rem st a p x : amt (fd_amounts (funding_at st a p)) x = rem st a p x.
Proof. unfold funding_at, rem. by destruct (fs_fundings st !! (a, p)). Qed.
Lemma funding_tot st a p x : amt (fd_total (funding_at st a p)) x = tot st a p x.
Proof. unfold funding_at, tot. by destruct (fs_fundings st !! (a, p)). Qed.

(** ** Scores *)
(** No value (weight times amount over 10^decimals) of a remaining coin is above 2^63 - 1. *)
Definition countable (st : fstate) : Prop := forall a p x e, wl_find (wl st) x = Some e ->
  w_weight e * rem st a p x <= (two63 - 1) * ONE * 10 ^ w_decimals e.
Lemma wl_find_in l x e : wl_find l x = Some e -> In e l.
Proof.
  unfold wl_find. assert (H : forall acc, fold_left (fun acc e => if (w_denom e =? x)%N then Some e else acc) l acc = Some e -> acc = Some e \/ In e l).
  { induction l as [|y l IH]; intros acc; cbn; [by left|]. intros [H|H]%IH; [|auto]. destruct (_ =? _)%N; [|auto]. injection H as ->. auto. }
  intros E. destruct (H None E) as [H'|H']; [discriminate H'|exact H'].
Qed.
Lemma score_one_some e a : wentry_ok e -> 0 <= a -> w_weight e * a <= (two63 - 1) * ONE * 10 ^ w_decimals e -> is_Some (score_one e a).
Proof.
  intros (Hd & _ & _ & Hw) Ha Hb. unfold score_one. set (q := trunc_int _).
  assert (Hq : 0 <= q <= two63 - 1); [|destruct (Z.leb_spec (- two63) q), (Z.ltb_spec q two63); cbn; unfold two63 in *; try lia; eauto].
  unfold q, trunc_int, dec_quo, dec_mul_int, dec_of_int. set (T := 10 ^ w_decimals e) in *. assert (HT : 0 < T) by (apply Z.pow_pos_nonneg; lia).
  assert (HO : 0 < ONE) by done. set (n := w_weight e * a) in *. assert (Hn : 0 <= n) by (unfold n; lia).
  assert (H1 : 0 <= (n * (ONE * ONE)) ÷ (T * ONE) <= ((two63 - 1) * ONE) * ONE).
  { rewrite Z.quot_div_nonneg by nia. split; [apply Z.div_pos; nia|]. apply Z.div_le_upper_bound; [nia|]. nia. }
  assert (H2 : 0 <= chop_round ((n * (ONE * ONE)) ÷ (T * ONE)) <= (two63 - 1) * ONE).
  { split; [apply chop_round_nonneg; lia|]. rewrite <- (chop_round_exact ((two63 - 1) * ONE)). by apply chop_round_mono. }
  set (z := chop_round _) in *. clearbody z. rewrite Z.quot_div_nonneg by lia. split; [apply Z.div_pos; lia|]. apply Z.div_le_upper_bound; nia.
Qed.
Lemma score_some l c : Forall wentry_ok l -> cpos c -> (forall x e, wl_find l x = Some e -> w_weight e * amt c x <= (two63 - 1) * ONE * 10 ^ w_decimals e) ->
  is_Some (score l c).
Proof.
  intros Hl Hc Hb. unfold score. assert (H : forall p, In p (map_to_list c) -> c !! fst p = Some (snd p)).
  { intros [x v] Hp. by apply elem_of_list_In, elem_of_map_to_list in Hp. }
  induction (map_to_list c) as [|[x v] m IH]; cbn; [eauto|]. destruct IH as [z Ez]; [intros p Hp; apply H; by right|]. rewrite Ez.
  destruct (wl_find l x) as [e|] eqn:E; [|eauto]. pose proof (H (x, v) (or_introl eq_refl)) as Hx. cbn in Hx.
  destruct (score_one_some e v) as [q Eq].
  - rewrite Forall_forall in Hl. apply Hl. apply elem_of_list_In. by eapply wl_find_in.
  - apply Z.lt_le_incl. by eapply Hc.
  - specialize (Hb x e E). unfold amt in Hb. by rewrite Hx in Hb.
  - rewrite Eq. eauto.
Qed.

(** ** Reachable states *)
(** [a] has a funding of [p] with the status [s]. *)
Definition with_status (st : fstate) (s : fstatus) (a p : N) : Prop :=
  match s with
  | AnyFunding => True
  | ActiveFunding => exists x, rem st a p x <> 0
  | InactiveFunding => forall x, rem st a p x = 0
  end.
Lemma zsum_support {A} `{EqDecision A} (F : A -> Z) (l m : list A) : NoDup l -> NoDup m -> (forall x, F x <> 0 -> In x l <-> In x m) -> zsum F l = zsum F m.
Proof.
  intros Hl Hm H. set (b := fun x => negb (F x =? 0)).
  assert (HF : forall m, zsum F (List.filter b m) = zsum F m).
  { intros k. apply zsum_filter. intros p _. unfold b. intros E. apply negb_false_iff in E. lia. }
  rewrite <- (HF l), <- (HF m). apply zsum_perm. apply NoDup_Permutation.
  - by apply NoDup_ListNoDup, List.NoDup_filter, NoDup_ListNoDup.
  - by apply NoDup_ListNoDup, List.NoDup_filter, NoDup_ListNoDup.
  - intros x. rewrite !elem_of_list_In, !filter_In. unfold b. rewrite negb_true_iff, Z.eqb_neq. pose proof (H x). tauto.
Qed.
Lemma sum_over_eq F X : sum_over X F = zsum F (elements X).
Proof. unfold sum_over. generalize (elements X). intros l. induction l as [|x l IH]; cbn; [done|]. by rewrite IH. Qed.
Lemma sum_over_zsum F (l : list N) X : NoDup l -> (forall x, F x <> 0 -> In x l) -> (forall x, F x <> 0 -> x ∈ X) -> zsum F l = sum_over X F.
Proof.
  intros Hn Hl HX. rewrite sum_over_eq. apply zsum_support; [done|apply NoDup_elements|].
  intros x Hx. rewrite <- (elem_of_list_In (elements X)), elem_of_elements. split; auto.
Qed.

Section reach.
  Context (g : gen) (Hg : genesis g) (ops : list cop) (Hok : cops_ok (gstart g) ops).
  Let c := crun (gstart g) ops.
  Let st := c_f c.
  Let HG : G g c := G_run g Hg ops Hok.
  Let HF : FInv (fsurplus (f_in c)) (f_in c) := G_FInv g Hg c HG.

  Lemma rem_some a p x : rem st a p x <> 0 -> is_Some (fs_fundings st !! (a, p)).
  Proof. unfold rem. destruct (fs_fundings st !! (a, p)); [eauto|done]. Qed.
  Lemma tot_some a p x : tot st a p x <> 0 -> is_Some (fs_fundings st !! (a, p)).
  Proof. unfold tot. destruct (fs_fundings st !! (a, p)); [eauto|done]. Qed.
  Lemma funding_pos a p : fpos (funding_at st a p).
  Proof.
    unfold funding_at. destruct (fs_fundings st !! (a, p)) as [f|] eqn:E; [by apply (fi_pos _ _ HF (a, p))|]. repeat split; intros d x H; change ((∅ : coins) !! d = Some x) in H; by rewrite lookup_empty in H.
  Qed.
  Lemma has_funded_iff a p : is_Some (fs_fundings st !! (a, p)) <-> has_funded (gstart g) ops a p.
  Proof.
    pose proof (funded_run ops (gstart g) a p) as H. rewrite elem_of_dom in H. unfold st, c. rewrite H. split; [|by right]. intros [H'|]; [|done].
    apply elem_of_dom in H'. change (fs_fundings (c_f (gstart g))) with (∅ : gmap (N * N) funding) in H'. rewrite lookup_empty in H'. by destruct H'.
  Qed.
  Lemma registered_iff a : a ∈ fs_funders st <-> registered (gstart g) ops a.
  Proof.
    unfold st, c. rewrite registered_run. split; [|by right]. intros [H'|]; [|done]. change (fs_funders (c_f (gstart g))) with (∅ : gset N) in H'. by apply elem_of_empty in H'.
  Qed.
  Lemma funded_registered a p : is_Some (fs_fundings st !! (a, p)) -> a ∈ fs_funders st.
  Proof.
    intros H. apply elem_of_dom in H. revert H. apply (funders_only_run ops (gstart g)). intros b q H.
    change (fs_fundings (c_f (gstart g))) with (∅ : gmap (N * N) funding) in H. rewrite dom_empty in H. set_solver.
  Qed.
  Lemma zero_rem a p : czero (fd_amounts (funding_at st a p)) = true <-> forall x, rem st a p x = 0.
  Proof. rewrite (czero_spec _ (proj1 (funding_pos a p))). split; intros H x; specialize (H x); by rewrite funding_rem in *. Qed.
  Lemma nonzero_rem a p : czero (fd_amounts (funding_at st a p)) = false <-> exists x, rem st a p x <> 0.
  Proof.
    split.
    - intros H. pose proof (proj1 (funding_pos a p)) as Hp. destruct (cempty (fd_amounts (funding_at st a p))) eqn:E.
      { apply cempty_spec in E. by rewrite E in H. }
      destruct (map_choose (fd_amounts (funding_at st a p))) as (x & v & Hx). { by apply cempty_false in E. }
      exists x. rewrite <- funding_rem. unfold amt. rewrite Hx. cbn. pose proof (Hp _ _ Hx). lia.
    - intros [x Hx]. destruct (czero _) eqn:E; [|done]. exfalso. apply Hx. by apply zero_rem.
  Qed.
  Lemma keeps_status s a p : keeps s (funding_at st a p) = true <-> with_status st s a p.
  Proof.
    destruct s; cbn [keeps with_status]; [done| |apply zero_rem]. rewrite negb_true_iff. apply nonzero_rem.
  Qed.
  Lemma keeps_same s a p : keeps_of_funder s (funding_at st a p) = keeps s (funding_at st a p).
  Proof. destruct s; cbn; [done| |done]. apply call_positive_spec, funding_pos. Qed.

  Section scores.
    Context (Hc : countable st).
    Lemma score_at a p : exists z, score (wl st) (fd_amounts (funding_at st a p)) = Some z.
    Proof.
      apply score_some; [apply (fi_params _ _ HF)|apply funding_pos|]. intros x e E. rewrite funding_rem. by apply Hc.
    Qed.
    Definition the_record (a p : N) : fresp :=
      let f := funding_at st a p in mkFR a p (fd_amounts f) (fd_apb f) (fd_total f) (default 0 (score (wl st) (fd_amounts f))).
    Lemma parse_some a p : parse_funding st a p = Some (the_record a p).
    Proof. unfold parse_funding, the_record. destruct (score_at a p) as [z ->]. done. Qed.
    (** What a record says. *)
    Definition record_says (r : fresp) : Prop :=
      let a := fr_funder r in let p := fr_pool r in
      (forall x, amt (fr_amounts r) x = rem st a p x) /\ (forall x, amt (fr_total r) x = tot st a p x) /\
      fs_fundings st !! (a, p) = Some (mkFd (fr_amounts r) (fr_apb r) (fr_total r)) /\ score (wl st) (fr_amounts r) = Some (fr_score r).
    Lemma the_record_says a p : is_Some (fs_fundings st !! (a, p)) -> record_says (the_record a p).
    Proof.
      intros [f Hf]. unfold record_says. cbn. split; [intros; apply funding_rem|]. split; [intros; apply funding_tot|].
      destruct (score_at a p) as [z Ez]. unfold funding_at in *. rewrite Hf in *. cbn in *. rewrite Ez. split; [by destruct f|done].
    Qed.
    (** [L] lists the fundings of the keys [sel] describes. *)
    Definition lists (L : list fresp) (sel : N -> N -> Prop) : Prop :=
      NoDup (map (fun r => (fr_funder r, fr_pool r)) L) /\ (forall a p, In (a, p) (map (fun r => (fr_funder r, fr_pool r)) L) <-> sel a p) /\ Forall record_says L.
    Lemma lists_by_funder a s : exists L, shows (fundings_by_funder st a s) L /\
      lists L (fun b p => b = a /\ has_funded (gstart g) ops a p /\ with_status st s a p).
    Proof.
      set (hit := fun k : N * N => (fst k =? a)%N && keeps s (funding_at st (fst k) (snd k))).
      exists (map (fun k => the_record (fst k) (snd k)) (List.filter hit (funder_store st))). split; [|split; [|split]].
      - apply (shows_partial hit (funder_store st) (pairs_from (funder_store st)) (fun x => parse_funding st (fst x) (snd x))).
        + intros l1 k l2. apply pairs_from_spec. apply funder_store_nodup.
        + intros k x H. unfold pairs_from, keys_from in H. apply filter_In in H as [H _]. exact H.
        + intros x _ _. apply parse_some.
      - rewrite map_map. cbn. rewrite (List.map_ext _ (fun k => k)), List.map_id by (by intros []).
        apply NoDup_ListNoDup, List.NoDup_filter, NoDup_ListNoDup. unfold funder_store. rewrite merge_sort_Permutation. apply funder_store_nodup.
      - intros b p. rewrite map_map. cbn. rewrite (List.map_ext _ (fun k => k)), List.map_id by (by intros []).
        rewrite filter_In, funder_store_in, has_funded_iff. unfold hit. cbn. rewrite andb_true_iff, N.eqb_eq, keeps_status. split; [intros (H1 & -> & H2)|intros (-> & H1 & H2)]; done.
      - apply Forall_forall. intros r Hr. apply elem_of_list_In, in_map_iff in Hr as ([b p] & <- & Hr). apply filter_In in Hr as [Hr _].
        apply the_record_says. by apply funder_store_in.
    Qed.
    Lemma lists_by_pool p s : exists L, shows (fundings_by_pool st p s) L /\
      lists L (fun a q => q = p /\ has_funded (gstart g) ops a p /\ with_status st s a p).
    Proof.
      set (hit := fun k : N * N => (fst k =? p)%N && keeps s (funding_at st (snd k) (fst k))).
      exists (map (fun k => the_record (snd k) (fst k)) (List.filter hit (pool_store st))). split; [|split; [|split]].
      - apply (shows_partial hit (pool_store st) (pairs_from (pool_store st)) (fun x => parse_funding st (snd x) (fst x))).
        + intros l1 k l2. rewrite pool_store_eq. apply pairs_from_spec. apply pool_store_nodup.
        + intros k x H. unfold pairs_from, keys_from in H. apply filter_In in H as [H _]. exact H.
        + intros x _ _. apply parse_some.
      - rewrite map_map. cbn. change (NoDup (map swap (List.filter hit (pool_store st)))).
        apply (NoDup_fmap_2 swap).
        apply NoDup_ListNoDup, List.NoDup_filter, NoDup_ListNoDup. rewrite pool_store_eq, merge_sort_Permutation. apply pool_store_nodup.
      - intros a q. rewrite map_map. cbn. rewrite in_map_iff. split.
        + intros ([q' a'] & [= -> ->] & H). apply filter_In in H as [H1 H2]. unfold hit in H2. cbn in H2. rewrite andb_true_iff, N.eqb_eq, keeps_status in H2. destruct H2 as [-> H2].
          split; [done|]. split; [|done]. apply has_funded_iff. by apply pool_store_in.
        + intros (-> & H1 & H2). exists (p, a). split; [done|]. apply filter_In. split; [apply pool_store_in; by apply has_funded_iff|].
          unfold hit. cbn. rewrite N.eqb_refl. cbn. by apply keeps_status.
      - apply Forall_forall. intros r Hr. apply elem_of_list_In, in_map_iff in Hr as ([q a] & <- & Hr). apply filter_In in Hr as [Hr _].
        apply the_record_says. by apply pool_store_in.
    Qed.

    (** Funder *)
    Definition stats_say (a : N) (x : fstats) : Prop :=
      NoDup (sf_pools x) /\ (forall p, In p (sf_pools x) <-> has_funded (gstart g) ops a p) /\
      forall X, (forall p, has_funded (gstart g) ops a p -> p ∈ X) -> forall d,
        amt (sf_used x) d = sum_over X (fun p => tot st a p d) /\
        amt (sf_allocated x) d = sum_over X (fun p => rem st a p d) /\
        amt (sf_perbundle x) d = sum_over X (fun p => match fs_fundings st !! (a, p) with Some f => if decide (fd_amounts f = ∅) then 0 else amt (fd_apb f) d | None => 0 end).
    Lemma stats_fold a l : forall x, exists y, fold_left (add_stats st a) l (Some x) = Some y /\ sf_pools y = sf_pools x ++ l /\
      forall d, amt (sf_used y) d = amt (sf_used x) d + zsum (fun p => tot st a p d) l /\
        amt (sf_allocated y) d = amt (sf_allocated x) d + zsum (fun p => rem st a p d) l /\
        amt (sf_perbundle y) d = amt (sf_perbundle x) d + zsum (fun p => if czero (fd_amounts (funding_at st a p)) then 0 else amt (fd_apb (funding_at st a p)) d) l.
    Proof.
      induction l as [|p l IH]; intros x; cbn [fold_left zsum foldr].
      { exists x. split; [done|]. split; [by rewrite app_nil_r|]. intros d. cbn. lia. }
      unfold add_stats at 2. destruct (score_at a p) as [z ->]. edestruct IH as (y & -> & Ep & H). exists y. split; [done|].
      split; [rewrite Ep; cbn; by rewrite <- app_assoc|]. intros d. destruct (H d) as (-> & -> & ->). cbn. rewrite !amt_cadd, funding_rem, funding_tot.
      unfold zsum. destruct (czero _); rewrite ?amt_cadd; lia.
    Qed.
    Lemma parse_funder_some a : exists x, parse_funder st a = Some (a, x) /\ stats_say a x.
    Proof.
      destruct (stats_fold a (pools_of st a) (mkFSt ∅ ∅ ∅ [] 0)) as (x & E & Ep & H). exists x. unfold parse_funder. rewrite E. split; [done|].
      cbn in Ep, H. split; [rewrite Ep; apply pools_of_nodup|]. split; [intros p; by rewrite Ep, pools_of_in, has_funded_iff|].
      intros X HX d. destruct (H d) as (-> & -> & ->). rewrite !amt_empty, !Z.add_0_l. split; [|split].
      - apply sum_over_zsum; [apply pools_of_nodup|intros p Hp; apply pools_of_in; by eapply tot_some|intros p Hp; apply HX, has_funded_iff; by eapply tot_some].
      - apply sum_over_zsum; [apply pools_of_nodup|intros p Hp; apply pools_of_in; by eapply rem_some|intros p Hp; apply HX, has_funded_iff; by eapply rem_some].
      - erewrite zsum_ext; [apply sum_over_zsum; [apply pools_of_nodup| |]|].
        + intros p Hp. apply pools_of_in. destruct (fs_fundings st !! (a, p)); [eauto|done].
        + intros p Hp. apply HX, has_funded_iff. destruct (fs_fundings st !! (a, p)); [eauto|done].
        + intros p Hp. cbn beta. apply pools_of_in in Hp as [f Hf]. pose proof (funding_pos a p) as (Hpos & _). unfold funding_at in *. rewrite Hf in *. cbn in *.
          destruct (czero (fd_amounts f)) eqn:Ez; destruct (decide (fd_amounts f = ∅)) as [Ee|Ee]; try done.
          * exfalso. apply Ee. apply cpos_empty_iff; [done|]. by apply czero_spec.
          * by rewrite Ee in Ez.
    Qed.
    Lemma claim_funder a s : registered (gstart g) ops a -> exists x L, funder_info st a s = Some (a, x, L) /\ stats_say a x /\
      lists L (fun b p => b = a /\ has_funded (gstart g) ops a p /\ with_status st s a p).
    Proof.
      intros Ha. apply registered_iff in Ha. unfold funder_info. rewrite decide_True by done. destruct (parse_funder_some a) as (x & -> & Hx).
      set (l := List.filter _ _). rewrite (all_some (parse_funding st a) (the_record a)) by (intros; apply parse_some).
      exists x, (map (the_record a) l). split; [done|]. split; [done|].
      assert (El : forall p, In p l <-> has_funded (gstart g) ops a p /\ with_status st s a p).
      { intros p. unfold l. rewrite filter_In, pools_of_in, keeps_same, keeps_status, has_funded_iff. done. }
      assert (Hn : NoDup l) by (apply NoDup_ListNoDup, List.NoDup_filter, NoDup_ListNoDup, pools_of_nodup).
      split; [|split].
      - rewrite map_map. cbn. apply NoDup_fmap_2; [by intros ? ? [= ->]|done].
      - intros b p. rewrite map_map, in_map_iff. cbn. split; [intros (q & [= <- <-] & H)|intros (-> & H)]; [split; [done|by apply El]|].
        exists p. split; [done|]. by apply El.
      - apply Forall_forall. intros r Hr. apply elem_of_list_In, in_map_iff in Hr as (p & <- & Hr). apply the_record_says. apply has_funded_iff. by apply El.
    Qed.
    Lemma claim_funders search : exists L, shows (funders_page st search) L /\ NoDup (map fst L) /\
      (forall a, In a (map fst L) <-> registered (gstart g) ops a /\ search a = true) /\ Forall (fun y => stats_say (fst y) (snd y)) L.
    Proof.
      set (l := merge_sort N.le (elements (fs_funders st))).
      set (h := fun a => default (a, mkFSt ∅ ∅ ∅ [] 0) (parse_funder st a)).
      assert (Hh : forall a, parse_funder st a = Some (h a) /\ fst (h a) = a /\ stats_say a (snd (h a))).
      { intros a. unfold h. destruct (parse_funder_some a) as (x & -> & Hx). done. }
      assert (Hn : NoDup l) by (unfold l; rewrite merge_sort_Permutation; apply NoDup_elements).
      assert (Em : map fst (map h (List.filter search l)) = List.filter search l).
      { rewrite map_map. rewrite (List.map_ext _ (fun k => k)), List.map_id; [done|]. intros a. apply Hh. }
      exists (map h (List.filter search l)). rewrite Em. split; [|split; [|split]].
      - apply (shows_partial search l (keys_from l) (parse_funder st)).
        + intros l1 k l2. apply keys_from_spec; [apply sorted_N|done].
        + intros k x H. unfold pairs_from, keys_from in H. apply filter_In in H as [H _]. exact H.
        + intros x _ _. apply Hh.
      - by apply NoDup_ListNoDup, List.NoDup_filter, NoDup_ListNoDup.
      - intros a. rewrite filter_In, <- registered_iff. unfold l. rewrite <- elem_of_list_In, merge_sort_Permutation, elem_of_elements. done.
      - apply Forall_forall. intros y Hy. apply elem_of_list_In, in_map_iff in Hy as (a & <- & _). destruct (Hh a) as (_ & -> & H). done.
    Qed.
  End scores.

  (** ** AccountFundedList *)
  Lemma total_funds p X : (forall a, (exists x, rem st a p x <> 0) -> a ∈ X) -> forall d, amt (total_active_funding st p) d = sum_over X (fun a => rem st a p d).
  Proof.
    intros HX d. unfold total_active_funding. destruct (fs_active st !! p) as [l|] eqn:E.
    - destruct (fi_act _ _ HF p l E) as [Hn _]. rewrite fold_cadd, amt_empty, Z.add_0_l.
      assert (Ez : zsum (fun s => amt (fd_amounts (snd s)) d) (active_fundings st p l) = zsum (fun a => rem st a p d) l).
      { assert (Hall : forall a, In a l -> is_Some (fs_fundings st !! (a, p))). { intros a Ha. apply (fi_found _ _ HF p l); [done|]. by apply elem_of_list_In. }
        clear E Hn. unfold active_fundings. induction l as [|a l IH]; [done|]. cbn. destruct (Hall a (or_introl eq_refl)) as [f Hf]. unfold rem at 1. rewrite Hf. cbn.
        f_equal. apply IH. intros b Hb. apply Hall. by right. }
      rewrite Ez. apply sum_over_zsum; [done| |].
      + intros a Ha. apply elem_of_list_In. destruct (fs_fundings st !! (a, p)) as [f|] eqn:Ef; [|unfold rem in Ha; by rewrite Ef in Ha].
        apply (fi_nonzero _ _ HF a p f l); [done| |done]. intros E0. apply Ha. unfold rem. rewrite Ef, E0. apply amt_empty.
      + intros a Ha. apply HX. eauto.
    - rewrite amt_empty. rewrite sum_over_eq.
      rewrite (zsum_ext _ (fun _ => 0)); [by induction (elements X)|]. intros a _. unfold rem. destruct (fs_fundings st !! (a, p)) as [f|] eqn:Ef; [|done].
      exfalso. destruct (fi_state _ _ HF a p f Ef) as [l El]. change (fs_active (f_in c)) with (fs_active st) in El. congruence.
  Qed.
  Lemma claim_account_funded a : exists L, account_funded c a = Some L /\ NoDup (map it_pool L) /\
    (forall p, In p (map it_pool L) <-> exists x, rem st a p x <> 0) /\
    Forall (fun r => let p := it_pool r in (forall d, amt (it_amounts r) d = rem st a p d) /\
      (forall X, (forall b, (exists x, rem st b p x <> 0) -> b ∈ X) -> forall d, amt (it_funds r) d = sum_over X (fun b => rem st b p d)) /\
      it_delegation r = total_power c p /\ exists pl, get_pool c p = Some pl /\ it_status r = pool_status c p pl) L.
  Proof.
    set (l := List.filter (fun p => negb (czero (fd_amounts (funding_at (c_f c) a p)))) (pools_of (c_f c) a)).
    assert (El : forall p, In p l <-> exists x, rem st a p x <> 0).
    { intros p. unfold l. rewrite filter_In, negb_true_iff, pools_of_in. change (c_f c) with st. rewrite nonzero_rem. split; [by intros [_ ?]|]. intros [x Hx]. split; [by eapply rem_some|eauto]. }
    assert (Hn : NoDup l) by (apply NoDup_ListNoDup, List.NoDup_filter, NoDup_ListNoDup, pools_of_nodup).
    assert (Hp : forall p, In p l -> is_Some (get_pool c p)).
    { intros p Hp. apply El in Hp as [x Hx]. destruct (rem_some _ _ _ Hx) as [f Hf].
      apply (ai_pools c (reach_A g ops Hok)). apply (g_link _ _ HG). apply (fi_state _ _ HF a p f Hf). }
    set (rec := fun p => mkFI p (fd_amounts (funding_at (c_f c) a p)) (total_active_funding (c_f c) p) (total_power c p)
       (match get_pool c p with Some pl => pool_status c p pl | None => StActive end)).
    assert (Ea : account_funded c a = Some (map rec l)).
    { unfold account_funded. fold l. apply all_some. intros p Hin. unfold rec. by destruct (Hp p Hin) as [pl ->]. }
    exists (map rec l). split; [done|]. rewrite map_map. cbn. rewrite List.map_id. split; [done|]. split; [done|].
    apply Forall_forall. intros r Hr. apply elem_of_list_In, in_map_iff in Hr as (p & <- & Hr). cbn.
    split; [intros d; apply funding_rem|]. split; [intros X HX d; by apply total_funds|]. split; [done|]. destruct (Hp p Hr) as [pl Epl]. exists pl. split; [exact Epl|]. by rewrite Epl.
  Qed.
End reach.
