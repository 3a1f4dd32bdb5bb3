(** * Stakers who have just joined: proofs about RoundRobin.v (C26). *)
From Verif Require Import Base BaseFacts RoundRobin RoundRobinClaims.

(** ** Specification vocabulary *)
(** Where a staker is in the queue before a selection: those without a stored value start at
    minus nine eighths of the total delegation. *)
Definition standing (stakers : list (N * Z)) (stored : gmap N Z) (a : N) : Z :=
  match stored !! a with Some x => x | None => - (9 * weight stakers) ÷ 8 end.
(** The values are not rescaled. *)
Definition even (stakers : list (N * Z)) (stored : gmap N Z) : Prop :=
  forall p q, p ∈ eligible stakers -> q ∈ eligible stakers ->
  standing stakers stored (fst p) - standing stakers stored (fst q) <= 2 * weight stakers.

Lemma penalty_quot t : trunc_int (dec_mul_int PENALTY t) = - (9 * t) ÷ 8.
Proof.
  unfold trunc_int, dec_mul_int, PENALTY, ONE.
  replace (-1125000000000000000 * t) with ((- (9 * t)) * 125000000000000000) by ring.
  change 1000000000000000000 with (8 * 125000000000000000).
  rewrite Z.quot_mul_cancel_r by lia. by rewrite Z.quot_opp_l.
Qed.
Lemma best_max ex cur l v : v ∈ l -> memb (rv_addr v) ex = false -> rv_prog v <= rv_prog (rr_best ex cur l).
Proof.
  assert (Hge : forall l cur, rv_prog cur <= rv_prog (rr_best ex cur l)).
  { clear. unfold rr_best. induction l as [|u l IH]; intros cur; simpl; [lia|]. etransitivity; [|apply IH].
    destruct (memb (rv_addr u) ex); [lia|]. destruct (rv_prog cur <? rv_prog u) eqn:E; lia. }
  revert cur. induction l as [|u l IH]; intros cur Hv Hm; [by apply elem_of_nil in Hv|].
  apply elem_of_cons in Hv as [<-|Hv]; [|by apply IH].
  change (rv_prog v <= rv_prog (rr_best ex (if memb (rv_addr v) ex then cur else if rv_prog cur <? rv_prog v then v else cur) l)).
  rewrite Hm. etransitivity; [|apply Hge]. destruct (rv_prog cur <? rv_prog v) eqn:E; lia.
Qed.
Lemma addr_inj l u v : NoDup (map rv_addr l) -> u ∈ l -> v ∈ l -> rv_addr u = rv_addr v -> u = v.
Proof.
  intros Hnd Hu Hv E. apply elem_of_list_lookup in Hu as [i Hi], Hv as [j Hj].
  assert (i = j) as ->; [|congruence]. eapply (NoDup_lookup _ i j (rv_addr u) Hnd).
  - change (map rv_addr l) with (rv_addr <$> l). by rewrite list_lookup_fmap, Hi.
  - change (map rv_addr l) with (rv_addr <$> l). rewrite list_lookup_fmap, Hj. cbn. by rewrite E.
Qed.

Section s.
  Context (stakers : list (N * Z)) (stored : gmap N Z).
  Context (Hok : stakers_ok stakers) (Hev : even stakers stored).
  Let m := map (fun p => mkRR (fst p) (snd p) (standing stakers stored (fst p))) (eligible stakers).
  Lemma m_keys : map key m = eligible stakers.
  Proof. unfold m. rewrite map_map. rewrite <- (map_id (eligible stakers)) at 2. apply map_ext. by intros [a w]. Qed.
  Lemma load_m : rr_load stakers stored = rr_normalize m.
  Proof.
    unfold rr_load. fold (eligible stakers). f_equal. destruct (elig_ok _ Hok) as (_ & H2 & _).
    assert (HW : foldr (fun p a => i64 (snd p) + a) 0 (eligible stakers) = weight stakers).
    { unfold weight. revert H2. generalize (eligible stakers). induction l as [|p l IH]; intros Hl; [done|]. cbn [foldr].
      rewrite IH by (intros q Hq; apply Hl; by constructor). rewrite i64_id; [done|]. specialize (Hl p ltac:(constructor)). lia. }
    unfold m. rewrite HW. apply map_ext_in. intros p Hp. rewrite i64_id by (specialize (H2 p ltac:(by apply elem_of_list_In)); lia).
    unfold standing. destruct (stored !! fst p); [done|]. by rewrite penalty_quot.
  Qed.
  Lemma m_spread : spread (2 * rr_power m) m.
  Proof.
    destruct (keys_facts _ _ Hok m_keys) as (_ & _ & -> & _). intros u v Hu Hv. unfold m in Hu, Hv.
    apply elem_of_list_fmap in Hu as (p & -> & Hp). apply elem_of_list_fmap in Hv as (q & -> & Hq). by apply Hev.
  Qed.
  Lemma norm_m : exists avg, rr_normalize (rr_normalize m) = map (fun v => with_prog v (rv_prog v - avg)) m.
  Proof.
    destruct (keys_facts _ _ Hok m_keys) as (_ & Hpos & HW & _).
    destruct m as [|v t] eqn:E; [by exists 0|]. rewrite <- E in *.
    assert (Hm : m <> []) by (by rewrite E).
    assert (HP : 0 <= rr_power m) by (apply foldr_add_nonneg; intros u Hu; specialize (Hpos u Hu); lia).
    destruct (normalize_ok m HP Hm) as [N1 N2].
    rewrite normalize_id; [|by rewrite (key_power _ _ (key_normalize m))|done].
    assert (HS : rr_scale m = m).
    { unfold rr_scale. assert (HD : rr_diff m <= 2 * rr_power m) by (apply spread_diff; [done|apply m_spread]).
      by assert (2 * rr_power m <? rr_diff m = false) as -> by lia. }
    exists (trunc_int (dec_quo_int (dec_of_int (rr_total m)) (Z.of_nat (length m)))).
    unfold rr_normalize. rewrite E at 1. rewrite HS. done.
  Qed.
  (** Somebody who can be selected stands at least the delegation of [a] higher: [a] is not selected. *)
  Lemma not_ahead ex a w x wx : (a, w) ∈ eligible stakers -> (x, wx) ∈ eligible stakers -> x ∉ ex ->
    standing stakers stored a + w < standing stakers stored x + wx -> fst (choose_next stakers stored ex) <> a.
  Proof.
    intros Ha Hx Hex Hlt Heq. rewrite choose_fst, load_m in Heq.
    destruct (keys_facts _ _ Hok m_keys) as (Hnd & Hpos & HW & _).
    set (va := mkRR a w (standing stakers stored a)). set (vx := mkRR x wx (standing stakers stored x)).
    assert (Hva : va ∈ m) by (unfold m; apply elem_of_list_fmap; by exists (a, w)).
    assert (Hvx : vx ∈ m) by (unfold m; apply elem_of_list_fmap; by exists (x, wx)).
    assert (Hne : rr_normalize m <> []).
    { intros E. apply (f_equal (map key)) in E. rewrite key_normalize in E. destruct m; [by apply elem_of_nil in Hva|done]. }
    destruct (next_spec ex (rr_normalize m) Hne) as (v & t & E & EN). rewrite EN in Heq. cbn [fst] in Heq. clear EN.
    destruct norm_m as [avg Eavg]. set (ex' := if (length ex =? _)%nat then [] else ex) in *.
    assert (Hex' : memb x ex' = false) by (apply memb_false; unfold ex'; destruct (_ =? _)%nat; [by apply not_elem_of_nil|done]).
    set (l2 := rr_advance ex' (rr_normalize (rr_normalize m))) in *.
    set (f := fun v => let u := with_prog v (rv_prog v - avg) in if memb (rv_addr u) ex' then u else with_prog u (rv_prog u + rv_power u)).
    assert (El2 : l2 = map f m) by (unfold l2, rr_advance; by rewrite Eavg, map_map).
    assert (Hf : forall u, rv_addr (f u) = rv_addr u) by (intros u; unfold f; cbv zeta; by destruct (memb (rv_addr (with_prog u (rv_prog u - avg))) ex')).
    assert (Hbest : rr_best ex' v l2 ∈ l2).
    { destruct (best_elem ex' v l2) as [->|[H _]]; [|done]. rewrite E. constructor. }
    assert (Hbx : rv_prog (f vx) <= rv_prog (rr_best ex' v l2)).
    { apply best_max; [rewrite El2; by apply elem_of_list_fmap_1|]. rewrite Hf. done. }
    assert (Hba : rr_best ex' v l2 = f va).
    { rewrite El2 in Hbest. rewrite El2. rewrite El2 in Heq. apply elem_of_list_fmap in Hbest as (u & Eu & Hu). rewrite Eu in *. rewrite Hf in Heq. f_equal.
      by apply (addr_inj m). }
    rewrite Hba in Hbx. unfold f in Hbx. cbv zeta in Hbx. cbn [with_prog rv_addr rv_prog rv_power vx va] in Hbx. unfold vx, va in Hbx.
    cbn [with_prog rv_addr rv_prog rv_power] in Hbx. rewrite Hex' in Hbx.
    destruct (elig_ok _ Hok) as (_ & H2 & _). specialize (H2 _ Ha). cbn [snd] in H2. destruct (memb a ex'); cbn [with_prog rv_addr rv_prog rv_power] in Hbx; lia.
  Qed.
End s.

(** ** The claim *)
Lemma claim_newcomer stakers stored ex a w x wx y : stakers_ok stakers -> even stakers stored ->
  (a, w) ∈ stakers -> 0 < w -> stored !! a = None ->
  (x, wx) ∈ stakers -> 0 < wx -> stored !! x = Some y -> 0 <= y -> x ∉ ex ->
  fst (choose_next stakers stored ex) <> a.
Proof.
  intros Hok Hev Ha Hw Hna Hx Hwx Hsx Hy Hex.
  assert (Hea : (a, w) ∈ eligible stakers) by (unfold eligible; apply elem_of_list_In, filter_In; split; [by apply elem_of_list_In|cbn; lia]).
  assert (Hexx : (x, wx) ∈ eligible stakers) by (unfold eligible; apply elem_of_list_In, filter_In; split; [by apply elem_of_list_In|cbn; lia]).
  eapply not_ahead; [done|done|exact Hea|exact Hexx|done|]. unfold standing. rewrite Hna, Hsx.
  assert (HW : w + wx <= weight stakers).
  { unfold weight. destruct (elig_ok _ Hok) as (_ & H2 & _). assert (Hne : (a, w) <> (x, wx)) by (intros [= -> ->]; congruence).
    revert Hea Hexx H2. generalize (eligible stakers). clear -Hne Hw Hwx. intros l.
    assert (Hall : forall l : list (N * Z), (forall p, p ∈ l -> 0 < snd p < two63) -> 0 <= foldr (fun p a => snd p + a) 0 l /\ forall q, q ∈ l -> snd q <= foldr (fun p a => snd p + a) 0 l).
    { clear. induction l as [|p l IH]; intros H; [split; [done|by intros q ?%elem_of_nil]|]. destruct IH as [I1 I2]; [intros q Hq; apply H; by constructor|].
      specialize (H p ltac:(constructor)). cbn [foldr]. split; [lia|]. intros q [->|Hq]%elem_of_cons; [lia|]. specialize (I2 q Hq). lia. }
    induction l as [|p l IH]; intros H1 H2 Hl; [by apply elem_of_nil in H1|]. cbn [foldr].
    assert (Hl' : forall q, q ∈ l -> 0 < snd q < two63) by (intros q Hq; apply Hl; by constructor). pose proof (Hl p ltac:(constructor)) as Hp.
    destruct (Hall l Hl') as [A1 A2].
    apply elem_of_cons in H1 as [<-|H1]; apply elem_of_cons in H2 as [E2|H2].
    - by rewrite E2 in Hne.
    - specialize (A2 _ H2). cbn [snd] in *. lia.
    - subst p. specialize (A2 _ H1). cbn [snd] in *. lia.
    - specialize (IH H1 H2 Hl'). cbn [snd] in *. lia. }
  assert (HQ : - (9 * weight stakers) ÷ 8 <= - weight stakers); [|lia].
  rewrite <- (Z.quot_mul (- weight stakers) 8) by lia. apply quot_mono; lia.
Qed.
(** With the exclusions of a finalized bundle: the next uploader is one of the voters. *)
Lemma claim_newcomer_from stakers stored incl a w x wx y : stakers_ok stakers -> even stakers stored ->
  (a, w) ∈ stakers -> 0 < w -> stored !! a = None ->
  (x, wx) ∈ stakers -> 0 < wx -> stored !! x = Some y -> 0 <= y -> x ∈ incl ->
  fst (choose_next_from stakers stored incl) <> a.
Proof.
  intros Hok Hev Ha Hw Hna Hx Hwx Hsx Hy Hin. rewrite choose_from_fst. rewrite <- choose_fst.
  eapply claim_newcomer; try done. intros Hf. apply elem_of_list_In, filter_In in Hf as [_ Hf].
  apply negb_true_iff, memb_false in Hf. done.
Qed.

(** ** Cases *)
(** After five selections 5 joins with more delegation than all others together. *)
Definition new_stakers : list (N * Z) := ex_stakers ++ [(5%N, 5000)].
Definition evenb (stakers : list (N * Z)) (stored : gmap N Z) : bool :=
  forallb (fun p => forallb (fun q => standing stakers stored (fst p) - standing stakers stored (fst q) <=? 2 * weight stakers) (eligible stakers)) (eligible stakers).
Lemma evenb_spec stakers stored : evenb stakers stored = true -> even stakers stored.
Proof.
  unfold evenb, even. intros H p q Hp Hq. rewrite forallb_forall in H. specialize (H p ltac:(by apply elem_of_list_In)).
  rewrite forallb_forall in H. specialize (H q ltac:(by apply elem_of_list_In)). lia.
Qed.
Lemma new_ok : stakers_ok new_stakers.
Proof.
  split; [repeat (apply NoDup_cons; split; [by vm_compute; set_solver|]); apply NoDup_nil_2|].
  repeat (apply Forall_cons; split; [by cbn; unfold two63; lia|]). apply Forall_nil_2.
Qed.
Example ex_new : let st := snd (selections 5 ex_stakers ∅) in
  even new_stakers st /\ st !! 5%N = None /\ st !! 3%N = Some 0 /\ fst (selections 6 new_stakers st) = [4; 5; 5; 1; 5; 5]%N.
Proof. cbv zeta. split; [apply evenb_spec; vm_cast_no_check (eq_refl true)|]. vm_compute. done. Qed.
(** 1 has just been selected and 2 leaves: 5 joins and is selected at once, five times in a row. *)
Lemma refute_newcomer : exists n before now_ a x, let st := snd (selections n before ∅) in
  stakers_ok before /\ stakers_ok now_ /\ x ∈ before /\ x ∈ now_ /\ 0 < snd x /\
  a ∈ map fst now_ /\ st !! a = None /\ fst (selections 5 now_ st) = [a; a; a; a; a].
Proof.
  exists 50%nat, [(1%N, 10); (2%N, 990)], [(1%N, 10); (5%N, 100)], 5%N, (1%N, 10). cbv zeta.
  assert (Hs : forall a w b v, a <> b -> 0 <= w < two63 -> 0 <= v < two63 -> stakers_ok [(a, w); (b, v)]).
  { intros a w b v Hab H1 H2. split; [|by repeat constructor; cbn; lia].
    cbn. apply NoDup_cons. split; [by rewrite elem_of_list_singleton|]. apply NoDup_singleton. }
  split; [apply Hs; [done|unfold two63; lia..]|]. split; [apply Hs; [done|unfold two63; lia..]|].
  split; [constructor|]. split; [constructor|]. split; [cbn; lia|]. split; [cbn; repeat constructor|]. vm_compute. done.
Qed.
