(** * What single events say (C76): the votes of a bundle, the next uploader, the reasons of slashes. *)
From Verif Require Import Base BaseFacts Delegation Stakers Funders Team RoundRobin Pool Bundles Chain ChainFrame ChainLift Walk ArchiveInv PaySafe PayFlow PayoutClaims TallyFacts StepCases TallyClaims TallyEffects Events EventWalk EventFollow.

(** The counts of an event, unless they are beyond what a uint64 can be doubled to, decide for its status. *)
Definition justified (e : finalized) : Prop :=
  let V := ef_valid e in let I := ef_invalid e in let T := ef_total e in
  match ef_status e with
  | Judged VUnspecified => False
  | Judged s => 0 <= V -> 0 <= I -> V + I <= T -> T < two63 ->
      match s with VValid => T < 2 * V | VInvalid => 0 < T /\ T <= 2 * I | _ => T = 0 \/ (2 * V <= T /\ 2 * I < T) end
  | Stopped => V = 0 /\ I = 0 /\ ef_abstain e = 0 /\ T = 0
  end.
Definition next_of (c : chain) (p : N) : N := bp_next (get_prop c p).
(** Why somebody is slashed: [l] are the events of the same step. *)
Definition judged_as (l : list event) (p : N) (s : vstatus) : Prop := exists e, EvFinalized e ∈ l /\ ef_pool e = p /\ ef_status e = Judged s.
Definition blamed (c : chain) (l : list event) (p s : N) (t : slash_type) : Prop :=
  let b := get_prop c p in
  match t with
  | SlashTimeout => exists n, EvPoint p s n ∈ l /\ b_maxpoints (c_bp c) <= n
  | SlashVote => (judged_as l p VValid /\ s ∈ bp_invalid b) \/ (judged_as l p VInvalid /\ s ∈ bp_valid b /\ s <> bp_uploader b)
  | SlashUpload => judged_as l p VInvalid /\ s = bp_uploader b
  end.
(** [c]: before the step, [c']: after it. *)
Definition says (c c' : chain) (l : list event) (x : event) : Prop :=
  match x with
  | EvFinalized e => justified e /\ ef_uploader e = bp_uploader (get_prop c (ef_pool e)) /\ ef_time e = c_time c /\
      match ef_status e with Judged VValid => ef_next e = next_of c' (ef_pool e) | _ => ef_next e = 0%N end
  | EvSkipped p i s n => i = TallyClaims.finalized c' p /\ n = next_of c' p
  | EvSlash p s a t => blamed c l p s t
  | _ => True
  end.
(** Which pool an event of x/bundles is about. *)
Definition about (p : N) (x : event) : Prop :=
  match x with EvFinalized e => ef_pool e = p | EvSkipped q _ _ _ | EvSlash q _ _ _ | EvPoint q _ _ => q = p | _ => True end.

Lemma in_sub (l l' : list event) p s : l ⊆ l' -> judged_as l p s -> judged_as l' p s.
Proof. intros H (e & H1 & H2). exists e. auto. Qed.
Lemma blamed_sub c c0 l l' p s t : l ⊆ l' -> get_prop c p = get_prop c0 p -> c_bp c = c_bp c0 -> blamed c0 l p s t -> blamed c l' p s t.
Proof.
  intros Hl E1 E2. unfold blamed. rewrite E1, E2. destruct t.
  - intros (n & H1 & H2). eauto.
  - intros [[H1 H2]|[H1 H2]]; [left|right]; eauto using in_sub.
  - intros [H1 H2]. eauto using in_sub.
Qed.
Lemma says_frame c0 c1 c2 c3 l l' p x : about p x -> l ⊆ l' ->
  get_prop c0 p = get_prop c1 p -> c_bp c0 = c_bp c1 -> c_time c0 = c_time c1 -> get_prop c3 p = get_prop c2 p ->
  TallyClaims.finalized c3 p = TallyClaims.finalized c2 p -> says c1 c2 l x -> says c0 c3 l' x.
Proof.
  intros Ha Hl E1 E2 E3 E4 E5. destruct x; cbn [says about] in *; try done; subst.
  - by apply blamed_sub.
  - unfold next_of. by rewrite E1, E3, E4.
  - unfold next_of. by rewrite E4, E5.
Qed.

(** ** A tally *)
Definition slash_ok (c : chain) (b : proposal) (st : vstatus) (l : list event) (p : N) (x : event) : Prop :=
  about p x /\ match x with
  | EvSlash _ s _ t => (t = SlashTimeout /\ exists n, EvPoint p s n ∈ l /\ b_maxpoints (c_bp c) <= n) \/
      (st = VValid /\ t = SlashVote /\ s ∈ bp_invalid b) \/ (st = VInvalid /\ s ∈ bp_valid b /\ t = slash_type_of b s)
  | EvFinalized _ | EvSkipped _ _ _ _ => False
  | _ => True
  end.
Lemma so_sub c b st l l' p x : l ⊆ l' -> slash_ok c b st l p x -> slash_ok c b st l' p x.
Proof. intros H [H1 H2]. split; [done|]. destruct x; try done. destruct H2 as [(H2 & n & H3 & H4)|H2]; [left; eauto|by right]. Qed.
Lemma so_add_point c0 c b st p s : c_bp c0 = c_bp c -> forall x, x ∈ ev_add_point c0 p s -> slash_ok c b st (ev_add_point c0 p s) p x.
Proof.
  intros Eb. unfold ev_add_point. destruct (increment_points _ _ _) as [s' n]. cbv zeta. change (c_bp (s_out c0 s')) with (c_bp c0). rewrite Eb.
  destruct (_ <=? n) eqn:En; intros x Hx; [apply Z.leb_le in En|by apply elem_of_list_singleton in Hx as ->].
  apply elem_of_cons in Hx as [->|Hx]; [done|]. unfold ev_slash_remove, ev_slash, ev_leave in Hx |- *. apply elem_of_app in Hx as [Hx|Hx].
  - destruct (f_data _); [|by apply elem_of_nil in Hx]. apply elem_of_list_singleton in Hx as ->. split; [done|]. left. split; [done|]. exists n. split; [left|done].
  - by apply elem_of_list_singleton in Hx as ->.
Qed.
Lemma so_fold {A} c b st p (step : chain -> A -> chain) ev l c0 : c_bp c0 = c_bp c -> (forall c y, c_bp (step c y) = c_bp c) ->
  (forall c0 y, y ∈ l -> c_bp c0 = c_bp c -> forall x, x ∈ ev c0 y -> slash_ok c b st (ev c0 y) p x) -> forall x, x ∈ ev_fold step ev l c0 -> slash_ok c b st (ev_fold step ev l c0) p x.
Proof.
  intros Eb Hs. revert c0 Eb. induction l as [|y l IH]; intros c0 Eb He x Hx; cbn [ev_fold] in *; [by apply elem_of_nil in Hx|].
  apply elem_of_app in Hx as [Hx|Hx].
  - eapply so_sub; [|apply (He c0 y); [left|done|done]]. intros z Hz. apply elem_of_app. by left.
  - eapply so_sub; [|apply IH; [by rewrite Hs|intros; apply He; [by right|done|done]|done]]. intros z Hz. apply elem_of_app. by right.
Qed.
Lemma so_non_voters c b st p : forall x, x ∈ ev_non_voters c p -> slash_ok c b st (ev_non_voters c p) p x.
Proof.
  unfold ev_non_voters. apply so_fold; [done| |].
  - intros c0 s. destruct (voted _ s); [done|]. pose proof (b_add_point c0 p s) as Hb. apply bpart_eq in Hb. tauto.
  - intros c0 s _ Eb x. destruct (voted _ s); [by intros ?%elem_of_nil|]. by apply so_add_point.
Qed.
Lemma so_timeout_point c0 c b st p s : c_bp c0 = c_bp c -> forall x, x ∈ ev_timeout_point c0 p s -> slash_ok c b st (ev_timeout_point c0 p s) p x.
Proof. intros Eb x. unfold ev_timeout_point. destruct (in_pool _ _ _); [by apply so_add_point|by intros ?%elem_of_nil]. Qed.
Lemma so_removes c0 c b st p (f : N -> slash_type) l : c_bp c0 = c_bp c ->
  (forall s, s ∈ l -> (st = VValid /\ f s = SlashVote /\ s ∈ bp_invalid b) \/ (st = VInvalid /\ s ∈ bp_valid b /\ f s = slash_type_of b s)) ->
  forall x, x ∈ ev_fold (fun c s => slash_remove c p s (f s)) (fun c s => ev_slash_remove c p s (f s)) l c0 ->
  slash_ok c b st (ev_fold (fun c s => slash_remove c p s (f s)) (fun c s => ev_slash_remove c p s (f s)) l c0) p x.
Proof.
  intros Eb Hl. apply so_fold; [done|done|]. intros c1 s Hs _ x Hx. specialize (Hl s Hs). unfold ev_slash_remove, ev_slash, ev_leave in Hx. apply elem_of_app in Hx as [Hx|Hx].
  - destruct (f_data _); [|by apply elem_of_nil in Hx]. apply elem_of_list_singleton in Hx as ->. split; [done|]. by right.
  - by apply elem_of_list_singleton in Hx as ->.
Qed.
Lemma so_tally c b p : let st := v_status (distribution (handle_non_voters c p) p) in forall x, x ∈ ev_tally c b p -> slash_ok c b st (ev_tally c b p) p x.
Proof.
  intros st x Hx. unfold ev_tally in *. fold st in Hx |- *. set (c1 := handle_non_voters c p) in *.
  assert (Eb : c_bp c1 = c_bp c). { pose proof (b_non_voters c p) as Hb. apply bpart_eq in Hb. tauto. }
  apply elem_of_app in Hx as [Hx|Hx]; [eapply so_sub; [|by apply so_non_voters]; intros z Hz; apply elem_of_app; by left|].
  eapply so_sub; [intros z Hz; apply elem_of_app; right; exact Hz|]. clearbody st. destruct st; try by apply elem_of_nil in Hx.
  - apply elem_of_app in Hx as [Hx|Hx].
    { assert (H : Forall (fun x => slash_ok c b VValid [] p x) (ev_charge (f_in c1) p)) by by apply sh_charge.
      rewrite Forall_forall in H. eapply so_sub; [|by apply H]. by intros z Hz%elem_of_nil. }
    eapply so_sub; [intros z Hz; apply elem_of_app; right; exact Hz|].
    destruct (charge_inflation _ _) as [[c2 y]|] eqn:Ei; [|by apply elem_of_nil in Hx]. apply b_charge_inflation, bpart_eq in Ei.
    destruct (payouts _ _ _) as [r|]; [|by apply elem_of_nil in Hx]. pose proof (b_pay_out c2 (bp_uploader b) r) as Hp. destruct (pay_out _ _ _) as [c3|]; [|by apply elem_of_nil in Hx].
    apply bpart_eq in Hp. apply (so_removes c3 c b VValid p (fun _ => SlashVote) (bp_invalid b)); [|eauto 10|done].
    destruct Hp as (_&_&_&_&_&->&_), Ei as (_&_&_&_&_&->&_). exact Eb.
  - apply (so_removes c1 c b VInvalid p (slash_type_of b) (bp_valid b)); eauto 10.
Qed.
Lemma tally_v c b p :
  match tally c b p with TrValid _ v _ _ _ | TrInvalid _ v | TrNoQuorum _ v => v = distribution (handle_non_voters c p) p | _ => True end.
Proof.
  unfold tally. cbv zeta. destruct (v_status _); try done.
  destruct (charge_funders _ _ _) as [f [fp|]]; [|done]. destruct (charge_inflation _ _) as [[c2 x]|]; [|done].
  destruct (payouts _ _ _) as [r|]; [|done]. by destruct (pay_out _ _ _).
Qed.

Lemma quorum_says V I T : 0 <= V -> 0 <= I -> V + I <= T -> T < two63 ->
  match quorum V I T with VValid => T < 2 * V | VInvalid => 0 < T /\ T <= 2 * I | _ => T = 0 \/ (2 * V <= T /\ 2 * I < T) end.
Proof. intros H1 H2 H3 H4. destruct (claim_quorum V I T H1 H2 H3 H4) as (Hv & Hi & Hn). destruct (quorum V I T) eqn:Eq; [|by apply Hv|by apply Hi|by apply Hn].
  unfold quorum in Eq. by repeat case_match. Qed.
Lemma justified_by c p e : c_prop c !! p <> None -> let v := distribution c p in
  ef_valid e = v_valid v -> ef_invalid e = v_invalid v -> ef_total e = v_total v -> ef_status e = Judged (v_status v) -> justified e.
Proof.
  intros Hp. unfold distribution, justified. destruct (c_prop c !! p) as [b|]; [|done]. cbn. intros -> -> -> ->.
  set (V := list_power c p _). set (I := list_power c p (bp_invalid b)). set (T := total_power c p).
  pose proof (quorum_says V I T) as H. destruct (quorum V I T) eqn:Eq; try done. unfold quorum in Eq. by repeat case_match.
Qed.
Lemma stored_some c p : bp_storage (get_prop c p) <> 0%N -> c_prop c !! p <> None.
Proof. unfold get_prop. by destruct (c_prop c !! p). Qed.

(** All events of one tally and what follows it. *)
Lemma blame c l l' p x : slash_ok c (get_prop c p) (v_status (distribution (handle_non_voters c p) p)) l p x -> l ⊆ l' ->
  (v_status (distribution (handle_non_voters c p) p) = VValid -> judged_as l' p VValid) ->
  (v_status (distribution (handle_non_voters c p) p) = VInvalid -> judged_as l' p VInvalid) -> forall c', about p x /\ says c c' l' x.
Proof.
  intros [Ha H] Hl Hv Hi c'. split; [done|]. destruct x; cbn [says about] in *; try done. subst. unfold blamed.
  destruct H as [(-> & n & H1 & H2)|[(H1 & -> & H2)|(H1 & H2 & ->)]].
  - eauto.
  - left. auto.
  - unfold slash_type_of. destruct (_ =? _)%N eqn:Eq.
    + apply N.eqb_eq in Eq. auto.
    + apply N.eqb_neq in Eq. right. auto.
Qed.
Definition all_say (p : N) (c c' : chain) (l : list event) : Prop := forall x, x ∈ l -> about p x /\ says c c' l x.
(** Events that say nothing here. *)
Definition mute (x : event) : Prop := match x with EvFinalized _ | EvSkipped _ _ _ _ | EvSlash _ _ _ _ | EvPoint _ _ _ => False | _ => True end.
Lemma mute_says p c c' l x : mute x -> about p x /\ says c c' l x. Proof. by destruct x. Qed.
Lemma total_fin c p : total_of c p = TallyClaims.finalized c p.
Proof. unfold total_of, TallyClaims.finalized. by destruct (get_pool c p). Qed.
Lemma tally_part c0 c c' p l' : get_prop c0 p = get_prop c p -> c_bp c0 = c_bp c -> ev_tally c0 (get_prop c p) p ⊆ l' ->
  (v_status (distribution (handle_non_voters c0 p) p) = VValid -> judged_as l' p VValid) ->
  (v_status (distribution (handle_non_voters c0 p) p) = VInvalid -> judged_as l' p VInvalid) ->
  forall x, x ∈ ev_tally c0 (get_prop c p) p -> about p x /\ says c c' l' x.
Proof.
  intros E1 E2 Hl Hv Hi x Hx. rewrite <- E1 in Hx, Hl. pose proof (so_tally c0 _ p x Hx) as H. pose proof H as [Hm _].
  destruct (blame c0 _ l' p x H Hl Hv Hi c') as [Ha Hs]. split; [done|]. destruct x; cbn [says slash_ok] in *; try done; [|by destruct H].
  cbn in Ha. subst. eapply blamed_sub; [|by rewrite E1|by rewrite E2|exact Hs]. done.
Qed.
Lemma fin_justified c0 c p e : bp_storage (get_prop c p) <> 0%N -> bpart c0 = bpart c -> let v := distribution c0 p in
  ef_valid e = v_valid v -> ef_invalid e = v_invalid v -> ef_total e = v_total v -> ef_status e = Judged (v_status v) -> justified e.
Proof. intros Hs Hb. apply justified_by. apply bpart_eq in Hb as (_ & _ & -> & _). by apply stored_some. Qed.
Lemma reset_mute c p s : Forall mute (ev_reset c p s).
Proof. unfold ev_reset. destruct (_ <? _); by repeat constructor. Qed.

Lemma prop_set c p b : get_prop (set_prop c p b) p = b. Proof. unfold get_prop, set_prop. cbn. by rewrite lookup_insert. Qed.
Lemma fin_prop c p v q : get_prop (finalize c p v) q = get_prop c q. Proof. unfold finalize, get_prop. by destruct (get_pool c p). Qed.
Lemma fin_time c p v : c_time (finalize c p v) = c_time c. Proof. unfold finalize. by destruct (get_pool c p). Qed.
Lemma register_prop c m n : bp_next (get_prop (register c m n) (sb_pool m)) = n.
Proof. unfold register. by destruct (get_pool c (sb_pool m)); rewrite prop_set. Qed.

Lemma status_some c p : v_status (distribution c p) <> VUnspecified -> c_prop c !! p <> None.
Proof. unfold distribution. by destruct (c_prop c !! p). Qed.
Lemma tally_noq c b p : match tally c b p with TrNoQuorum _ v => v_status v <> VInvalid | _ => True end.
Proof.
  unfold tally. cbv zeta. destruct (v_status _) eqn:E; try done; try congruence.
  destruct (charge_funders _ _ _) as [f [fp|]]; [|done]. destruct (charge_inflation _ _) as [[c2 x]|]; [|done].
  destruct (payouts _ _ _) as [r|]; [|done]. by destruct (pay_out _ _ _).
Qed.

Section steps.
  Context (g : gen) (Hg : genesis g).
  Local Ltac sub := intros ? ?; rewrite ?elem_of_app, ?elem_of_cons; tauto.
  Lemma say_submit c m c' : R g c -> msg_submit c m = Some c' -> all_say (sb_pool m) c c' (ev_submit c m).
  Proof.
    intros HR. unfold msg_submit, ev_submit. destruct (negb _); [done|]. destruct (negb _); [done|]. cbv zeta. set (p := sb_pool m).
    pose proof (reset_mute c p (sb_staker m)) as Hm. rewrite Forall_forall in Hm. pose proof (b_reset c p (sb_staker m)) as B1. set (c1 := reset_pts _ _ _) in *.
    assert (Ep : get_prop c1 p = get_prop c p) by by apply get_prop_b. assert (Eb : c_bp c1 = c_bp c) by done. assert (Et1 : c_time c1 = c_time c) by done. clearbody c1.
    assert (Hreg : forall c0 x, x ∈ ev_register c0 m -> mute x).
    { intros c0 x. unfold ev_register. destruct (get_pool _ _); intros Hx; repeat (apply elem_of_cons in Hx as [->|Hx]; [done|]); by apply elem_of_nil in Hx. }
    destruct (_ =? 0)%N eqn:Es.
    { intros _ x Hx. apply elem_of_app in Hx as [Hx|Hx]; apply mute_says; [by apply Hm|by eapply Hreg]. }
    apply N.eqb_neq in Es. pose proof (tally_status c1 (get_prop c p) p) as Hts. pose proof (tally_v c1 (get_prop c p) p) as Htv.
    pose proof (b_tally c1 (get_prop c p) p) as Hbt. pose proof (b_non_voters c1 p) as Hbn.
    destruct (tally c1 (get_prop c p) p) as [c2 v fp x0 r|c2 v|c2 v|c2|] eqn:Et; try done.
    - pose proof (b_choose_from c2 p (bp_valid (get_prop c p))) as Hbc. destruct (choose_from _ _ _) as [n c3]. cbn [snd] in Hbc. intros [= <-].
      assert (B3 : bpart c3 = bpart c) by congruence.
      set (e := mkEF p (total_of c3 p) (v_valid v) (v_invalid v) (v_abstain v) (v_total v) (Judged (v_status v)) fp x0 r (cadd (r_commission r) (r_storage r)) (c_time c3) (bp_uploader (get_prop c3 p)) n).
      change (ev_finalize c3 p v fp x0 r n) with [EvFinalized e]. set (l := _ ++ _ ++ _ ++ _). intros x Hx.
      assert (He : EvFinalized e ∈ l) by (unfold l; rewrite !elem_of_app, elem_of_list_singleton; tauto).
      unfold l in Hx. rewrite !elem_of_app in Hx. destruct Hx as [Hx|[Hx|[Hx|Hx]]]; [apply mute_says; by apply Hm| | |apply mute_says; by eapply Hreg].
      + apply (tally_part c1); [done|done|unfold l; sub| |rewrite <- Htv; congruence|done]. intros _. exists e. split; [done|]. split; [done|]. cbn. by rewrite Hts.
      + apply elem_of_list_singleton in Hx as ->. split; [done|]. cbn [says]. split; [|split; [|split]].
        * apply (fin_justified (handle_non_voters c1 p) c p e); rewrite <- ?Htv; try done. congruence.
        * cbn. by rewrite (get_prop_b c).
        * apply bpart_eq in B3. cbn. tauto.
        * cbn. rewrite Hts. unfold next_of. by rewrite register_prop.
    - intros [= <-]. assert (B2 : bpart c2 = bpart c) by congruence.
      unfold ev_drop. set (e := mkEF _ _ _ _ _ _ _ _ _ _ _ _ _ _). set (l := _ ++ _ ++ _). intros x Hx.
      assert (He : EvFinalized e ∈ l) by (unfold l; rewrite !elem_of_app, elem_of_list_singleton; tauto).
      unfold l in Hx. rewrite !elem_of_app in Hx. destruct Hx as [Hx|[Hx|Hx]]; [apply mute_says; by apply Hm| |].
      + apply (tally_part c1); [done|done|unfold l; sub|rewrite <- Htv; congruence| |done]. intros _. exists e. split; [done|]. split; [done|]. cbn. by rewrite Hts.
      + apply elem_of_list_singleton in Hx as ->. split; [done|]. cbn [says]. split; [|split; [|split]].
        * apply (fin_justified (handle_non_voters c1 p) c p e); rewrite <- ?Htv; try done. congruence.
        * cbn. by rewrite (get_prop_b c).
        * apply bpart_eq in B2. cbn. tauto.
        * cbn. by rewrite Hts.
  Qed.
  Lemma say_skip c p s v from c' : R g c -> msg_skip c p s v from = Some c' -> all_say p c c' (ev_skip c p s).
  Proof.
    intros HR. unfold msg_skip, ev_skip. destruct (negb _); [done|]. cbv zeta.
    pose proof (reset_mute c p s) as Hm. rewrite Forall_forall in Hm. pose proof (b_reset c p s) as B1. set (c1 := reset_pts _ _ _) in *.
    assert (Ep : get_prop c1 p = get_prop c p) by by apply get_prop_b. assert (Eb : c_bp c1 = c_bp c) by done. clearbody c1.
    pose proof (tally_status c1 (get_prop c p) p) as Hts. pose proof (tally_v c1 (get_prop c p) p) as Htv. pose proof (tally_noq c1 (get_prop c p) p) as Htn.
    pose proof (b_tally c1 (get_prop c p) p) as Hbt. pose proof (b_non_voters c1 p) as Hbn.
    destruct (tally c1 (get_prop c p) p) as [c2 w fp x0 r|c2 w|c2 w|c2|] eqn:Et; try done;
      (pose proof (b_choose c2 p [s]) as Hbc; destruct (choose _ _ _) as [n c3]; cbn [snd] in Hbc; intros [= <-]; assert (B3 : bpart c3 = bpart c) by congruence).
    - unfold ev_finalize. set (e := mkEF _ _ _ _ _ _ _ _ _ _ _ _ _ _). set (l := _ ++ _ ++ _ ++ _). intros x Hx.
      assert (He : EvFinalized e ∈ l) by (unfold l; rewrite !elem_of_app, elem_of_list_singleton; tauto).
      unfold l in Hx. rewrite !elem_of_app in Hx. destruct Hx as [Hx|[Hx|[Hx|Hx]]]; [apply mute_says; by apply Hm| | |].
      + apply (tally_part c1); [done|done|unfold l; sub| |rewrite <- Htv; congruence|done]. intros _. exists e. split; [done|]. split; [done|]. cbn. by rewrite Hts.
      + apply elem_of_list_singleton in Hx as ->. split; [done|]. cbn [says]. split; [|split; [|split]].
        * apply (justified_by (handle_non_voters c1 p) p e); rewrite <- ?Htv; try done. apply status_some. rewrite <- Htv. congruence.
        * cbn. by rewrite (get_prop_b c).
        * apply bpart_eq in B3. cbn. tauto.
        * cbn. rewrite Hts. unfold next_of. by rewrite prop_set.
      + apply elem_of_list_singleton in Hx as ->. split; [done|]. cbn [says]. unfold next_of. rewrite prop_set, total_fin. done.
    - unfold ev_drop. set (e := mkEF _ _ _ _ _ _ _ _ _ _ _ _ _ _). set (l := _ ++ _ ++ _ ++ _). intros x Hx.
      assert (He : EvFinalized e ∈ l) by (unfold l; rewrite !elem_of_app, elem_of_list_singleton; tauto).
      unfold l in Hx. rewrite !elem_of_app in Hx. destruct Hx as [Hx|[Hx|[Hx|Hx]]]; [apply mute_says; by apply Hm| | |].
      + apply (tally_part c1); [done|done|unfold l; sub|rewrite <- Htv; congruence| |done]. intros _. exists e. split; [done|]. split; [done|]. cbn. by rewrite Hts.
      + apply elem_of_list_singleton in Hx as ->. split; [done|]. cbn [says]. split; [|split; [|split]].
        * apply (justified_by (handle_non_voters c1 p) p e); rewrite <- ?Htv; try done. apply status_some. rewrite <- Htv. congruence.
        * cbn. by rewrite (get_prop_b c).
        * apply bpart_eq in B3. cbn. tauto.
        * cbn. by rewrite Hts.
      + apply elem_of_list_singleton in Hx as ->. split; [done|]. cbn [says]. unfold next_of, drop. rewrite prop_set, total_fin. done.
    - set (l := _ ++ _ ++ _). intros x Hx. unfold l in Hx. rewrite !elem_of_app in Hx. destruct Hx as [Hx|[Hx|Hx]]; [apply mute_says; by apply Hm| |].
      + apply (tally_part c1); [done|done|unfold l; sub|rewrite <- Htv; congruence|rewrite <- Htv; congruence|done].
      + apply elem_of_list_singleton in Hx as ->. split; [done|]. cbn [says]. unfold next_of. rewrite prop_set, total_fin. done.
  Qed.

  (** The turn of a pool at the end of a block. *)
  Lemma late_part c0 c c' p s l' x : c_bp c0 = c_bp c -> ev_timeout_point c0 p s ⊆ l' -> x ∈ ev_timeout_point c0 p s -> about p x /\ says c c' l' x.
  Proof.
    intros Eb Hl Hx. pose proof (so_timeout_point c0 c (get_prop c p) VNoQuorum p s Eb x Hx) as [Ha H]. split; [done|].
    destruct x; cbn [says about] in *; try done. subst. destruct H as [(-> & n & H1 & H2)|[(? & _)|(? & _)]]; [|done|done]. exists n. eauto.
  Qed.
  Lemma non_part c c' p l' x : ev_non_voters c p ⊆ l' -> x ∈ ev_non_voters c p -> about p x /\ says c c' l' x.
  Proof.
    intros Hl Hx. pose proof (so_non_voters c (get_prop c p) VNoQuorum p x Hx) as [Ha H]. split; [done|].
    destruct x; cbn [says about] in *; try done. subst. destruct H as [(-> & n & H1 & H2)|[(? & _)|(? & _)]]; [|done|done]. exists n. eauto.
  Qed.
  Lemma say_turn c p i c' : R g c -> is_Some (get_pool c p) -> timeout_pool c p i = Some c' -> all_say p c c' (ev_timeout_pool c p i).
  Proof.
    intros HR Hpl. pose proof (tally_safe g Hg c p (proj1 HR) (proj1 (proj2 HR)) Hpl) as Hsafe.
    unfold timeout_pool, ev_timeout_pool. cbv zeta. destruct (pool_error c p) as [er|].
    { destruct (_ && _); [|by intros _ x ?%elem_of_nil]. intros _ x Hx. apply elem_of_list_singleton in Hx as ->. done. }
    destruct (_ <? _); [by intros _ x ?%elem_of_nil|]. destruct (_ && _) eqn:Eq.
    { apply andb_true_iff in Eq as [Es Eq]. apply negb_true_iff, N.eqb_neq in Es.
      pose proof (b_choose (handle_non_voters c p) p []) as Hbc. pose proof (b_non_voters c p) as Hbn. destruct (choose _ _ _) as [n c1]. cbn [snd] in *. intros [= <-].
      assert (B1 : bpart c1 = bpart c) by congruence.
      unfold ev_drop. set (e := mkEF _ _ _ _ _ _ _ _ _ _ _ _ _ _). set (l := _ ++ _). intros x Hx.
      unfold l in Hx. rewrite !elem_of_app in Hx. destruct Hx as [Hx|Hx]; [apply non_part; [unfold l; sub|done]|].
      apply elem_of_list_singleton in Hx as ->. split; [done|]. cbn [says]. split; [|split; [|split]].
      - apply (justified_by c p e); try done. by apply stored_some.
      - cbn. by rewrite (get_prop_b c).
      - apply bpart_eq in B1. cbn. tauto.
      - cbn. by destruct (v_status _). }
    destruct (_ <? _); [by intros _ x ?%elem_of_nil|]. destruct (_ =? 0)%N eqn:Es.
    { pose proof (b_choose c p []) as Hbc. destruct (choose _ _ _) as [n c1]. cbn [snd] in Hbc. intros _ x Hx. refine (late_part _ c _ p _ _ x _ _ Hx); [|done].
      apply bpart_eq in Hbc. cbn. tauto. }
    apply N.eqb_neq in Es.
    pose proof (tally_status c (get_prop c p) p) as Hts. pose proof (tally_v c (get_prop c p) p) as Htv. pose proof (tally_noq c (get_prop c p) p) as Htn.
    pose proof (b_tally c (get_prop c p) p) as Hbt. pose proof (b_non_voters c p) as Hbn.
    destruct (tally c (get_prop c p) p) as [c1 w fp x0 r|c1 w|c1 w|c1|] eqn:Et; try done.
    - pose proof (b_choose_from c1 p (bp_valid (get_prop c p))) as Hbc. destruct (choose_from _ _ _) as [n c2]. cbn [snd] in Hbc. intros [= <-].
      assert (B2 : bpart c2 = bpart c) by congruence. pose proof (b_timeout_point (set_prop (finalize c2 p w) p (bp_none n (c_time (finalize c2 p w)))) p (bp_next (get_prop c p))) as Bt.
      unfold ev_finalize. set (e := mkEF _ _ _ _ _ _ _ _ _ _ _ _ _ _). set (l := _ ++ _ ++ _). intros x Hx.
      assert (He : EvFinalized e ∈ l) by (unfold l; rewrite !elem_of_app, elem_of_list_singleton; tauto).
      unfold l in Hx. rewrite !elem_of_app in Hx. destruct Hx as [Hx|[Hx|Hx]].
      + apply (tally_part c); [done|done|unfold l; sub| |rewrite <- Htv; congruence|done]. intros _. exists e. split; [done|]. split; [done|]. cbn. by rewrite Hts.
      + apply elem_of_list_singleton in Hx as ->. split; [done|]. cbn [says]. split; [|split; [|split]].
        * apply (justified_by (handle_non_voters c p) p e); rewrite <- ?Htv; try done. apply status_some. rewrite <- Htv. congruence.
        * cbn. by rewrite (get_prop_b c).
        * apply bpart_eq in B2. cbn. tauto.
        * cbn. rewrite Hts. unfold next_of. rewrite (get_prop_b _ _ _ Bt). by rewrite prop_set.
      + refine (late_part _ c _ p _ l x _ _ Hx); [|unfold l; sub]. cbn. unfold finalize. apply bpart_eq in B2. destruct (get_pool c2 p); cbn; tauto.
    - pose proof (b_choose c1 p []) as Hbc. destruct (choose _ _ _) as [n c2]. cbn [snd] in Hbc. intros [= <-]. assert (B2 : bpart c2 = bpart c) by congruence.
      unfold ev_drop. set (e := mkEF _ _ _ _ _ _ _ _ _ _ _ _ _ _). set (l := _ ++ _ ++ _). intros x Hx.
      assert (He : EvFinalized e ∈ l) by (unfold l; rewrite !elem_of_app, elem_of_list_singleton; tauto).
      unfold l in Hx. rewrite !elem_of_app in Hx. destruct Hx as [Hx|[Hx|Hx]].
      + apply (tally_part c); [done|done|unfold l; sub|rewrite <- Htv; congruence| |done]. intros _. exists e. split; [done|]. split; [done|]. cbn. by rewrite Hts.
      + apply elem_of_list_singleton in Hx as ->. split; [done|]. cbn [says]. split; [|split; [|split]].
        * apply (justified_by (handle_non_voters c p) p e); rewrite <- ?Htv; try done. apply status_some. rewrite <- Htv. congruence.
        * cbn. by rewrite (get_prop_b c).
        * apply bpart_eq in B2. cbn. tauto.
        * cbn. by rewrite Hts.
      + refine (late_part _ c _ p _ l x _ _ Hx); [|unfold l; sub]. apply bpart_eq in B2. cbn. tauto.
    - pose proof (b_choose c1 p []) as Hbc. destruct (choose _ _ _) as [n c2]. cbn [snd] in Hbc. intros [= <-]. assert (B2 : bpart c2 = bpart c) by congruence.
      unfold ev_drop. set (e := mkEF _ _ _ _ _ _ _ _ _ _ _ _ _ _). set (l := _ ++ _ ++ _). intros x Hx.
      unfold l in Hx. rewrite !elem_of_app in Hx. destruct Hx as [Hx|[Hx|Hx]].
      + apply (tally_part c); [done|done|unfold l; sub|rewrite <- Htv; congruence|rewrite <- Htv; congruence|done].
      + apply elem_of_list_singleton in Hx as ->. split; [done|]. cbn [says]. split; [|split; [|split]].
        * apply (justified_by (handle_non_voters c p) p e); rewrite <- ?Htv; try done. apply stored_some. by rewrite (get_prop_b c).
        * cbn. by rewrite (get_prop_b c).
        * apply bpart_eq in B2. cbn. tauto.
        * cbn. by destruct (v_status w).
      + refine (late_part _ c _ p _ l x _ _ Hx); [|unfold l; sub]. apply bpart_eq in B2. cbn. tauto.
    - by destruct (Hsafe c1).
  Qed.
  Lemma turn_frame c p i c' : R g c -> is_Some (get_pool c p) -> timeout_pool c p i = Some c' ->
    R g c' /\ (forall q, is_Some (get_pool c q) -> is_Some (get_pool c' q)) /\ c_bp c' = c_bp c /\ c_time c' = c_time c /\
    forall q, q <> p -> get_prop c' q = get_prop c q /\ TallyClaims.finalized c' q = TallyClaims.finalized c q.
  Proof.
    intros HR Hpl E. pose proof HR as (HG & HA & HU). pose proof (agood_timeout _ _ _ _ HA Hpl E) as Ha. split.
    { split; [by eapply G_timeout_pool|]. split; [apply Ha|]. eapply U_good; [done|exact Ha|by eapply sd_timeout_pool]. }
    split; [intros q Hq; destruct Ha as [_ Hr]; by apply (rl_pools _ _ Hr)|].
    assert (K : forall o b f, post c c' p o b f -> c_bp c' = c_bp c /\ c_time c' = c_time c /\ forall q, q <> p -> get_prop c' q = get_prop c q /\ TallyClaims.finalized c' q = TallyClaims.finalized c q).
    { intros o b f HP. pose proof (po_par _ _ _ _ _ _ HP) as Hp. unfold par in Hp. injection Hp as Hp _. split; [done|]. split; [apply (po_time _ _ _ _ _ _ HP)|].
      intros q Hq. split; [by apply (po_props _ _ _ _ _ _ HP)|by eapply finalized_others]. }
    pose proof (timeout_cases g Hg c p i c' HG HA E) as H. cbv zeta in H.
    destruct H as [(_ & b' & HP & _)|[(_ & -> & _)|[(_ & _ & _ & _ & n & _ & HP)|[(_ & _ & _ & n & _ & HP)|[(_ & _ & _ & _ & n & v & _ & H)|(c1 & Ht & ->)]]]]];
      [by eapply K|done|by eapply K|by eapply K| |].
    - destruct H as [(_ & _ & HP)|[(_ & _ & HP)|(_ & _ & _ & HP)]]; by eapply K.
    - by destruct (tally_safe g Hg c p HG HA Hpl c1).
  Qed.
  Lemma turns_frame l c c' : R g c -> (forall p i, (p, i) ∈ l -> is_Some (get_pool c p)) -> timeouts c l = Some c' ->
    c_bp c' = c_bp c /\ c_time c' = c_time c /\ forall q, q ∉ l.*1 -> get_prop c' q = get_prop c q /\ TallyClaims.finalized c' q = TallyClaims.finalized c q.
  Proof.
    revert c. induction l as [|[p i] l IH]; intros c HR Hl; cbn [timeouts]; [by intros [= <-]|]. destruct (timeout_pool c p i) as [c1|] eqn:E1; [|done]. intros E2.
    destruct (turn_frame c p i c1 HR (Hl p i (elem_of_list_here _ _)) E1) as (HR1 & Hp1 & Eb & Et & Hq). destruct (IH c1 HR1) as (Eb' & Et' & Hq'); [|done|].
    { intros q j Hin. apply Hp1, (Hl q j). by right. }
    split; [congruence|]. split; [congruence|]. intros q Hn. cbn in Hn. apply not_elem_of_cons in Hn as [Hn1 Hn2]. destruct (Hq q Hn1), (Hq' q Hn2). split; congruence.
  Qed.
  Lemma say_turns l c c' : R g c -> NoDup l.*1 -> (forall p i, (p, i) ∈ l -> is_Some (get_pool c p)) -> timeouts c l = Some c' ->
    forall x, x ∈ ev_timeouts c l -> (exists p, p ∈ l.*1 /\ about p x) /\ says c c' (ev_timeouts c l) x.
  Proof.
    revert c. induction l as [|[p i] l IH]; intros c HR Hnd Hl; cbn [timeouts ev_timeouts]; [by intros _ x ?%elem_of_nil|]. destruct (timeout_pool c p i) as [c1|] eqn:E1; [|done]. intros E2 x Hx.
    pose proof (Hl p i (elem_of_list_here _ _)) as Hpl. destruct (turn_frame c p i c1 HR Hpl E1) as (HR1 & Hp1 & Eb & Et & Hq). cbn in Hnd. apply NoDup_cons in Hnd as [Hn Hnd].
    assert (Hl1 : forall q j, (q, j) ∈ l -> is_Some (get_pool c1 q)). { intros q j Hin. apply Hp1, (Hl q j). by right. }
    apply elem_of_app in Hx as [Hx|Hx].
    - destruct (say_turn c p i c1 HR Hpl E1 x Hx) as [Ha Hs]. split; [exists p; split; [left|done]|].
      destruct (turns_frame l c1 c' HR1 Hl1 E2) as (_ & _ & Hq'). destruct (Hq' p Hn) as [F1 F2].
      eapply (says_frame c c c1 c'); [exact Ha| |done..|exact Hs]. intros z Hz. apply elem_of_app. by left.
    - destruct (IH c1 HR1 Hnd Hl1 E2 x Hx) as [(q & Hin & Ha) Hs]. split; [exists q; split; [by right|done]|].
      assert (Hne : q <> p) by (intros ->; done). destruct (Hq q Hne) as [F1 F2].
      eapply (says_frame c c1 c' c'); [exact Ha| |done..|exact Hs]. intros z Hz. apply elem_of_app. by right.
  Qed.
  Definition plain (x : event) : Prop := match x with EvFinalized _ | EvSkipped _ _ _ _ | EvSlash _ _ _ _ => False | _ => True end.
  Lemma plain_says c c' l x : plain x -> says c c' l x. Proof. by destruct x. Qed.
  Lemma say_step c o c' : R g c -> cmsg c o = Some c' -> forall x, x ∈ emitted c o -> says c c' (emitted c o) x.
  Proof.
    intros HR Hc x Hx.
    assert (D : Forall plain (emitted c o) \/ (exists m, o = CSubmit m) \/ (exists p s v f, o = CSkip p s v f) \/ o = CEnd).
    { destruct o; try (right; by eauto 10); left; cbn [emitted]; try shape; try by repeat constructor.
      unfold ev_vote. apply Forall_app. split; [|by repeat constructor]. unfold ev_reset. destruct (_ <? _); by repeat constructor. }
    destruct D as [D|[(m & ->)|[(p & s & v & f & ->)| ->]]].
    - rewrite Forall_forall in D. by apply plain_says, D.
    - cbn [emitted cmsg] in *. by eapply say_submit.
    - cbn [emitted cmsg] in *. by eapply say_skip.
    - cbn [emitted cmsg] in *. injection Hc as <-. unfold end_block, handle_upload_timeout, ev_handle_timeout in *.
      pose proof (R_upgrades g c HR) as HR1. set (c1 := cw_pools c _) in *. destruct (timeouts c1 _) as [c2|] eqn:Et; [|by apply elem_of_nil in Hx].
      assert (Hl : forall p i, (p, i) ∈ pool_intervals c1 -> is_Some (get_pool c1 p)). { intros p i H. apply pool_intervals_in in H as (pl & -> & _). by eexists. }
      destruct (say_turns _ c1 c2 HR1 (intervals_NoDup c1) Hl Et x Hx) as [(p & _ & Ha) Hs].
      pose proof (b_burn_fees c2) as Hb. eapply (says_frame c c1 c2 _ _ _ p); [exact Ha|done|done|done|done| | |exact Hs].
      + by apply get_prop_b.
      + unfold TallyClaims.finalized. by rewrite (get_pool_b c2).
  Qed.
  Lemma say_events ops o : cops_ok (gstart g) ops -> let c := crun (gstart g) ops in forall x, x ∈ events c o -> says c (cstep c o) (events c o) x.
  Proof.
    intros Hok c x. unfold events, cstep. destruct (cmsg c o) as [c'|] eqn:Ec; [|by intros ?%elem_of_nil]. apply say_step; [|done]. by apply R_run.
  Qed.
End steps.
