(** * What a tally means for every staker, and the uploader timeout at the end of a block (C23, C24, C29). *)
From Verif Require Import Base BaseFacts Delegation Stakers StakersInv StakersClaims StakersRun Funders Team RoundRobin RoundRobinClaims Pool Bundles Chain ChainFrame ArchiveInv
  BankMoves ChainLift PoolFrame PoolInv PayoutClaims PoolClaims TallyFacts VoteClaims StepCases PaySafe PointsInv TallyClaims.

(** ** The vocabulary of the claims, continued *)
(** Whoever is on a voting list of the bundle. *)
Definition on_list (b : proposal) (s : N) : Prop := s ∈ bp_valid b \/ s ∈ bp_invalid b \/ s ∈ bp_abstain b.
(** The losing side. *)
Definition loses (b : proposal) (r : outcome) (s : N) : Prop :=
  match r with OValid => s ∈ bp_invalid b | OInvalid => s ∈ bp_valid b | ONone => False end.
Definition penalty (d : dparams) (b : proposal) (r : outcome) (s : N) : Z :=
  match r with OInvalid => if decide (s = bp_uploader b) then p_upload d else p_vote d | _ => p_vote d end.
(** Slashed once by the fraction [fr], if anything was ever delegated; or not slashed. *)
Definition cut (c c' : chain) (s : N) (fr : Z) : Prop :=
  match delegated c s with
  | None => delegated c' s = None /\ slashes c' s = slashes c s
  | Some t => delegated c' s = Some (t - t * fr / ONE) /\ slashes c' s = slashes c s ++ [fr]
  end.
Definition uncut (c c' : chain) (s : N) : Prop := delegated c' s = delegated c s /\ slashes c' s = slashes c s.
(** How many points a member gets: one for not voting, one for being late. *)
Definition due (c : chain) (p : N) (bad : option N) (s : N) : Z :=
  (if decide (on_list (get_prop c p) s) then 0 else 1) + (if decide (bad = Some s) then 1 else 0).
(** [n] points on top of [v]: at the maximum the staker is slashed and removed. *)
Definition charged (c c' : chain) (p s : N) (v n : Z) : Prop :=
  if decide (n = 0) then points c' p s = Some v /\ uncut c c' s
  else if decide (v + n < b_maxpoints (c_bp c)) then points c' p s = Some (v + n) /\ uncut c c' s
  else points c' p s = None /\ cut c c' s (p_timeout (ds_params (c_d c))).

Global Instance on_list_dec b s : Decision (on_list b s).
Proof. unfold on_list. apply _. Defined.

Lemma ob_split c p s v l : ob c p s = (v, l) -> points c p s = vl_points <$> v /\ (delegated c s, slashes c s) = l.
Proof. unfold ob, points, delegated, slashes, stake. by intros [= <- <-]. Qed.
Lemma ob_eta c p s : ob c p s = (get_val (c_s c) p s, (delegated c s, slashes c s)).
Proof. done. Qed.
Lemma cut_hit c c' s fr : (delegated c' s, slashes c' s) = hit fr (delegated c s, slashes c s) -> cut c c' s fr.
Proof. unfold hit, cut. cbn. destruct (delegated c s); by intros [= -> ->]. Qed.
Lemma voted_on_list b s : voted b s = true <-> on_list b s.
Proof. unfold voted, on_list. rewrite !orb_true_iff, !memb_spec. tauto. Qed.
(** What [tallied] says about the stakers. *)
Definition settled (c c' : chain) (p : N) (who bad : option N) (r : outcome) : Prop := forall s, ob c' p s = after_late c p who r bad s.

Section T.
Context (g : gen) (Hg : genesis g).

(** Losers. *)
Lemma eff_loser c c' p who bad r s : settled c c' p who bad r -> loses (get_prop c p) r s ->
  points c' p s = None /\ cut c c' s (penalty (ds_params (c_d c)) (get_prop c p) r s).
Proof.
  intros HT Hl. pose proof (HT s) as H. rewrite ob_eta in H.
  assert (Hv : voted (get_prop c p) s = true) by (apply voted_on_list; unfold on_list; destruct r; cbn in Hl; tauto).
  assert (Ha : after c p who r s = (None, hit (penalty (ds_params (c_d c)) (get_prop c p) r s) (delegated c s, slashes c s))).
  { unfold after, loser, penalty. unfold counted_as, lose, silent. rewrite (decide_False (P := _ /\ _)) by (intros [_ ?]; congruence).
    assert (Hs : snd (present c p who s) = (delegated c s, slashes c s)).
    { unfold present. destruct who as [m|]; [|done]. unfold took. by destruct (decide (s = m)). }
    destruct r; cbn in Hl; [| |done]; rewrite (decide_True _ _ Hl); unfold kick; by rewrite Hs. }
  assert (Hb : after_late c p who r bad s = after c p who r s).
  { destruct bad as [n|]; cbn [after_late]; [|done]. unfold late. destruct (decide _); [|done]. unfold one_miss, miss. by rewrite Ha. }
  rewrite Hb, Ha in H. injection H as H1 H2. split; [unfold points; by rewrite H1|]. by apply cut_hit.
Qed.
Lemma loser_none c p r s : ~ loses (get_prop c p) r s -> loser c p r s = None.
Proof. unfold loser, loses. destruct r; intros H; [by rewrite decide_False|by rewrite decide_False|done]. Qed.
(** Everybody else who is not a member. *)
Lemma eff_outside c c' p who bad r s : settled c c' p who bad r -> ~ loses (get_prop c p) r s -> points c p s = None ->
  points c' p s = None /\ uncut c c' s.
Proof.
  intros HT Hl Hp. pose proof (HT s) as H. rewrite ob_eta in H.
  assert (Hv : get_val (c_s c) p s = None) by (unfold points in Hp; by destruct (get_val _ _ _)).
  assert (Ha : after c p who r s = (None, (delegated c s, slashes c s))).
  { unfold after. rewrite loser_none by done. unfold counted_as, lose, silent. rewrite decide_False by (unfold in_pool; rewrite Hv; by intros []).
    unfold present. destruct who as [m|]; [unfold took; destruct (decide _)|]; rewrite ?ob_eta, Hv; done. }
  assert (Hb : after_late c p who r bad s = after c p who r s).
  { destruct bad as [n|]; cbn [after_late]; [|done]. unfold late. destruct (decide _); [|done]. unfold one_miss, miss. by rewrite Ha. }
  rewrite Hb, Ha in H. injection H as H1 H2 H3. split; [unfold points; by rewrite H1|]. by split.
Qed.
(** Members who do not lose. *)
Definition start (who : option N) (s : N) (v : Z) : Z := if decide (who = Some s) then 0 else v.
Lemma eff_member c c' p who bad r s v : G g c -> points_ok c -> settled c c' p who bad r -> ~ loses (get_prop c p) r s -> points c p s = Some v ->
  charged c c' p s (start who s v) (due c p bad s).
Proof.
  intros HG HP HT Hl Hp. pose proof (HT s) as H. rewrite ob_eta in H.
  destruct (get_val (c_s c) p s) as [x|] eqn:Ev; [|unfold points in Hp; by rewrite Ev in Hp].
  assert (Hx : vl_points x = v) by (unfold points in Hp; rewrite Ev in Hp; by injection Hp).
  assert (Hin : in_pool c p s = true) by (unfold in_pool; by rewrite Ev).
  assert (H0 : exists y, vl_points y = start who s v /\ present c p who s = (Some y, (delegated c s, slashes c s))).
  { unfold present, start. destruct who as [m|]; [|by exists x; rewrite ob_eta, Ev].
    unfold took. destruct (decide (s = m)) as [->|].
    - eexists. split; [|rewrite Ev; reflexivity]. by rewrite decide_True.
    - exists x. rewrite decide_False by congruence. by rewrite ob_eta, Ev. }
  destruct H0 as (y & Hy & H0). assert (Hy0 : 0 <= vl_points y < two64 - 1).
  { rewrite Hy. unfold start. destruct (decide _); [unfold two64; lia|]. rewrite <- Hx. by eapply HP. }
  assert (Hm : b_maxpoints (c_bp c) < two64) by (pose proof (g_par _ _ HG) as Hq; unfold params_ok in Hq; tauto).
  assert (Ha : after c p who r s = lose c p s (Some y, (delegated c s, slashes c s))).
  { unfold after. rewrite loser_none by done. unfold counted_as. by rewrite H0. }
  unfold charged, due, uncut, points. set (mx := b_maxpoints (c_bp c)) in *. set (fr := p_timeout _) in *. rewrite <- Hy in *.
  (* the first point *)
  assert (H1 : lose c p s (Some y, (delegated c s, slashes c s)) =
    if decide (on_list (get_prop c p) s) then (Some y, (delegated c s, slashes c s)) else
    one_miss c (Some y, (delegated c s, slashes c s))).
  { unfold lose, silent. destruct (decide (on_list _ _)) as [Hon|Hon].
    - rewrite decide_False; [done|]. intros [_ Hq]. apply voted_on_list in Hon. congruence.
    - rewrite decide_True; [done|]. split; [done|]. destruct (voted _ _) eqn:E; [|done]. by apply voted_on_list in E. }
  rewrite H1 in Ha. clear H1.
  assert (Hmiss : forall z k, 0 <= vl_points z < two64 - 1 -> one_miss c (Some z, k) = if decide (vl_points z + 1 < mx) then (Some (mkVal (vl_addr z) (vl_points z + 1) (vl_leaving z)), k) else (None, hit fr k)).
  { intros z k Hz. unfold one_miss, miss. cbn [fst snd]. rewrite u64_add_id by lia. fold mx fr.
    destruct (Z.leb_spec mx (vl_points z + 1)); [rewrite decide_False by lia|rewrite decide_True by lia]; done. }
  assert (Hb : after_late c p who r bad s = if decide (bad = Some s) then one_miss c (after c p who r s) else after c p who r s).
  { unfold after_late, late. destruct bad as [n|]; [|done]. destruct (decide (s = n)) as [->|]; [by rewrite decide_True|rewrite decide_False by congruence; done]. }
  rewrite Hb, Ha in H. clear Hb Ha.
  assert (Hhit : forall o, (get_val (c_s c') p s, (delegated c' s, slashes c' s)) = (o, hit fr (delegated c s, slashes c s)) -> o = None ->
    (vl_points <$> get_val (c_s c') p s) = None /\ cut c c' s fr).
  { intros o Ho ->. injection Ho as -> Hd. split; [done|]. by apply cut_hit. }
  assert (Hno : one_miss c (None, hit fr (delegated c s, slashes c s)) = (None, hit fr (delegated c s, slashes c s))) by done.
  destruct (decide (on_list _ _)), (decide (bad = Some s)).
  - rewrite Hmiss in H by done. rewrite decide_False by lia. change (0 + 1) with 1 in *. 
    destruct (decide (vl_points y + 1 < mx)).
    + injection H as -> -> ->. done.
    + by eapply Hhit.
  - rewrite decide_True by lia. injection H as -> -> ->. done.
  - rewrite Hmiss in H by done. rewrite decide_False by lia. change (1 + 1) with 2.
    destruct (decide (vl_points y + 1 < mx)).
    + rewrite Hmiss in H by (cbn; lia). cbn [vl_points vl_addr vl_leaving] in H. replace (vl_points y + 1 + 1) with (vl_points y + 2) in H by lia.
      destruct (decide (vl_points y + 2 < mx)).
      * injection H as -> -> ->. done.
      * by eapply Hhit.
    + rewrite Hno in H. rewrite decide_False by lia. by eapply Hhit.
  - rewrite Hmiss in H by done. rewrite decide_False by lia. change (1 + 0) with 1.
    destruct (decide (vl_points y + 1 < mx)).
    + injection H as -> -> ->. done.
    + by eapply Hhit.
Qed.

(** ** What a tally does, in one statement *)
Definition effect (c c' : chain) (p : N) (who bad : option N) (r : outcome) : Prop := forall s,
  (loses (get_prop c p) r s -> points c' p s = None /\ cut c c' s (penalty (ds_params (c_d c)) (get_prop c p) r s)) /\
  (~ loses (get_prop c p) r s ->
     match points c p s with
     | None => points c' p s = None /\ uncut c c' s
     | Some v => charged c c' p s (start who s v) (due c p bad s)
     end).
Lemma settled_effect c c' p who bad r : G g c -> points_ok c -> settled c c' p who bad r -> effect c c' p who bad r.
Proof.
  intros HG HP HS s. split; [by eapply eff_loser|]. intros Hl. destruct (points c p s) as [v|] eqn:E; [by eapply eff_member|by eapply eff_outside].
Qed.
Lemma others_points c c' p : others_same c c' p -> forall q s, q <> p -> points c' q s = points c q s.
Proof. intros H q s Hq. unfold points. by rewrite H. Qed.

(** ** Votes *)
Lemma vote_effect c p s v st w c' : G g c -> AInv c -> cmsg c (CVote p s v st w) = Some c' ->
  points c' p s = Some 0 /\ (forall x, x <> s -> points c' p x = points c p x) /\ (forall q x, q <> p -> points c' q x = points c q x) /\
  (forall x, uncut c c' x) /\ forall q, finalized c' q = finalized c q.
Proof.
  intros HG HA E. destruct (vote_lists c p s v st w c' HA E) as (_ & _ & (x & Hx & _) & _).
  destruct (vote_cases g c p s v st w c' HG HA E) as (b' & HP & _).
  assert (Ho := po_ob _ _ _ _ _ _ HP). split; [|split; [|split; [|split]]].
  - specialize (Ho s). rewrite ob_eta in Ho. unfold took in Ho. rewrite decide_True in Ho by done. rewrite Hx in Ho. injection Ho as Ho _ _.
    unfold points. by rewrite Ho.
  - intros y Hy. specialize (Ho y). rewrite ob_eta in Ho. unfold took in Ho. rewrite decide_False in Ho by done. rewrite ob_eta in Ho. injection Ho as Ho _ _.
    unfold points. by rewrite Ho.
  - apply others_points, (po_others _ _ _ _ _ _ HP).
  - intros y. specialize (Ho y). rewrite ob_eta in Ho. unfold took in Ho. unfold uncut.
    destruct (decide _); rewrite ?ob_eta in Ho; by injection Ho as _ -> ->.
  - intros q. destruct (decide (q = p)) as [->|Hq]; [rewrite (finalized_post _ _ _ _ _ _ HP); lia|by eapply finalized_others].
Qed.
(** ** Submitting the first bundle, or after a bundle was dropped *)
Lemma submit_effect c m c' : G g c -> AInv c -> cmsg c (CSubmit m) = Some c' -> let p := sb_pool m in bp_storage (get_prop c p) = 0%N ->
  points c' p (sb_staker m) = Some 0 /\ (forall x, x <> sb_staker m -> points c' p x = points c p x) /\
  (forall q x, q <> p -> points c' q x = points c q x) /\ (forall x, uncut c c' x) /\ (forall q, finalized c' q = finalized c q) /\
  exists n, new_prop c m n (get_prop c' p) /\ fit (ob c' p) n.
Proof.
  intros HG HA E p Hs. assert (Hin : is_Some (get_val (c_s c) p (sb_staker m))).
  { cbn [cmsg] in E. unfold msg_submit in E. fold p in E. destruct (can_propose _ _ _ _ _) eqn:Ec; [|done]. revert Ec.
    unfold can_propose. destruct (get_pool c p); [|done]. rewrite !andb_true_iff. intros ((((_ & H1) & _) & _) & _).
    unfold authorized in H1. by destruct (get_val _ _ _). }
  destruct Hin as [x Hx].
  pose proof (submit_cases g Hg c m c' HG HA E) as H. cbv zeta in H. fold p in H.
  destruct H as [(_ & n & b' & Hn & Hf & HP)|[(H & _)|(H & _)]]; [|done..].
  assert (Ho := po_ob _ _ _ _ _ _ HP). split; [|split; [|split; [|split; [|split]]]].
  - specialize (Ho (sb_staker m)). rewrite ob_eta in Ho. unfold took in Ho. rewrite decide_True in Ho by done. rewrite Hx in Ho. injection Ho as Ho _ _.
    unfold points. by rewrite Ho.
  - intros y Hy. specialize (Ho y). rewrite ob_eta in Ho. unfold took in Ho. rewrite decide_False in Ho by done. rewrite ob_eta in Ho. injection Ho as Ho _ _.
    unfold points. by rewrite Ho.
  - apply others_points, (po_others _ _ _ _ _ _ HP).
  - intros y. specialize (Ho y). rewrite ob_eta in Ho. unfold took in Ho. unfold uncut.
    destruct (decide _); rewrite ?ob_eta in Ho; by injection Ho as _ -> ->.
  - intros q. destruct (decide (q = p)) as [->|Hq]; [rewrite (finalized_post _ _ _ _ _ _ HP); lia|by eapply finalized_others].
  - exists n. rewrite (po_prop _ _ _ _ _ _ HP). split; [done|]. eapply fit_ext; [|exact Hf]. intros y. by rewrite Ho.
Qed.

(** ** One pool's turn at the end of a block *)
(** Nobody gets points or is slashed. *)
Definition quiet (c c' : chain) (p : N) : Prop := forall s, points c' p s = points c p s /\ uncut c c' s.
(** Only the late uploader gets a point. *)
Definition only_late (c c' : chain) (p bad : N) : Prop := forall s,
  match points c p s with
  | Some v => charged c c' p s v (if decide (s = bad) then 1 else 0)
  | None => points c' p s = None /\ uncut c c' s
  end.
Lemma late_effect c c' p n : G g c -> points_ok c -> (forall s, ob c' p s = late c n s (ob c p s)) -> only_late c c' p n.
Proof.
  intros HG HP Ho s. specialize (Ho s). rewrite !ob_eta in Ho. unfold late in Ho. unfold charged, points, uncut.
  destruct (get_val (c_s c) p s) as [x|] eqn:Ev; cbn [fmap option_fmap option_map].
  - destruct (decide (s = n)); [|rewrite decide_True by done; by injection Ho as -> -> ->].
    assert (Hx : 0 <= vl_points x < two64 - 1) by (by eapply HP). rewrite decide_False by lia.
    unfold one_miss, miss in Ho. cbn [fst snd] in Ho. rewrite u64_add_id in Ho by lia.
    destruct (Z.leb_spec (b_maxpoints (c_bp c)) (vl_points x + 1)); [rewrite decide_False by lia|rewrite decide_True by lia].
    + injection Ho as -> Hd. split; [done|]. by apply cut_hit.
    + by injection Ho as -> -> ->.
  - destruct (decide (s = n)); by injection Ho as -> -> ->.
Qed.
Lemma quiet_same c c' p : (forall s, ob c' p s = ob c p s) -> quiet c c' p.
Proof. intros Ho s. specialize (Ho s). rewrite !ob_eta in Ho. unfold points, uncut. by injection Ho as -> -> ->. Qed.

(** The deadline, in unbounded numbers. *)
Definition interval_over (c : chain) (p : N) (i : Z) : Prop := bp_updated (get_prop c p) + i <= c_time c.
Definition deadline_over (c : chain) (p : N) (i : Z) : Prop := bp_updated (get_prop c p) + i + b_timeout (c_bp c) <= c_time c.
(** What one turn does. *)
Record turn (c c' : chain) (p : N) (i : Z) : Prop := mkTurn {
  tu_stopped : can_run c p = false -> quiet c c' p /\ bp_next (get_prop c' p) = 0%N /\ finalized c' p = finalized c p;
  tu_early : can_run c p = true -> ~ interval_over c p i -> c' = c;
  tu_dropped : can_run c p = true -> interval_over c p i -> bp_storage (get_prop c p) <> 0%N -> v_status (distribution c p) = VNoQuorum ->
    effect c c' p None None ONone /\ finalized c' p = finalized c p /\
    exists n, fit (ob c' p) n /\ get_prop c' p = bp_none n (c_time c);
  tu_waiting : can_run c p = true -> interval_over c p i -> ~ deadline_over c p i ->
    bp_storage (get_prop c p) = 0%N \/ v_status (distribution c p) <> VNoQuorum -> c' = c;
  tu_late_empty : can_run c p = true -> deadline_over c p i -> bp_storage (get_prop c p) = 0%N ->
    only_late c c' p (bp_next (get_prop c p)) /\ finalized c' p = finalized c p /\
    exists n, fit (ob c p) n /\ (forall s, ob c' p s = late c (bp_next (get_prop c p)) s (ob c p s)) /\ get_prop c' p = with_next (get_prop c p) n (c_time c);
  tu_late_stored : can_run c p = true -> deadline_over c p i -> bp_storage (get_prop c p) <> 0%N -> v_status (distribution c p) <> VNoQuorum ->
    exists r n, effect c c' p None (Some (bp_next (get_prop c p))) r /\ (pool_power c p < two63 -> verdict c p None r) /\
      finalized c' p = (finalized c p + match r with OValid => 1 | _ => 0 end)%N /\
      fit (after c p None r) n /\ (forall s, ob c' p s = late c (bp_next (get_prop c p)) s (after c p None r s)) /\ get_prop c' p = bp_none n (c_time c)
}.

Lemma overdue_iff c p i : 0 <= bp_updated (get_prop c p) <= c_time c -> c_time c < two62 -> 0 <= i < two62 -> 0 < b_timeout (c_bp c) < two62 ->
  (overdue c p i <-> deadline_over c p i) /\ (u64_add (bp_updated (get_prop c p)) i <= c_time c <-> interval_over c p i).
Proof.
  intros H1 H2 H3 H4. unfold overdue, deadline_over, interval_over. unfold two62 in *.
  rewrite (u64_add_id (bp_updated _) i) by (unfold two64; lia). rewrite u64_add_id by (unfold two64; lia). lia.
Qed.
Lemma turn_of c p i c' : G g c -> AInv c -> points_ok c -> is_Some (get_pool c p) -> timeout_pool c p i = Some c' ->
  0 <= bp_updated (get_prop c p) <= c_time c -> c_time c < two62 -> 0 <= i < two62 ->
  turn c c' p i /\ others_same c c' p /\ (forall q, q <> p -> get_prop c' q = get_prop c q) /\ c_time c' = c_time c /\ par c' = par c /\
  (forall q, q <> p -> finalized c' q = finalized c q).
Proof.
  intros HG HA HP Hpl E B1 B2 B3.
  assert (B4 : 0 < b_timeout (c_bp c) < two62).
  { pose proof (g_par _ _ HG) as Hq. unfold params_ok in Hq. split; [|tauto]. destruct Hq as (Hq & _). unfold bparams_valid in Hq.
    rewrite !andb_true_iff in Hq. destruct Hq as [[[Hq _] _] _]. by apply Z.ltb_lt. }
  destruct (overdue_iff c p i B1 B2 B3 B4) as [W1 W2]. pose proof (timeout_tallied g Hg c p i c' HG HA Hpl E) as HTT.
  assert (Hdi : deadline_over c p i -> interval_over c p i) by (unfold deadline_over, interval_over; lia).
  pose proof (timeout_cases g Hg c p i c' HG HA E) as H. cbv zeta in H. rewrite W1 in H.
  destruct H as [(Hr & b' & HP' & Hb)|[(Hr & -> & H)|[(Hr & Hs & Hq & Hi & n & Hf & HP')|[(Hr & Ho & Hs & n & Hf & HP')|[(Hr & Ho & Hs & Hq & n & v & HJ & H)|(c1 & Ht & ->)]]]]].
  - split; [|split; [apply (po_others _ _ _ _ _ _ HP')|split; [apply (po_props _ _ _ _ _ _ HP')|split; [apply (po_time _ _ _ _ _ _ HP')|split; [apply (po_par _ _ _ _ _ _ HP')|by eapply finalized_others]]]]].
    split; try congruence. intros _. split; [apply quiet_same, (po_ob _ _ _ _ _ _ HP')|]. split.
    + rewrite (po_prop _ _ _ _ _ _ HP'). destruct Hb as [(_ & ->)|[->|(Hb & ->)]]; done.
    + rewrite (finalized_post _ _ _ _ _ _ HP'). lia.
  - split; [|done]. split; try done; try congruence.
    + intros _ Hi Hs Hq. destruct H as [H|(_ & [H|H])]; [|done..]. apply W2 in Hi. lia.
    + intros _ Hd Hs. destruct H as [H|(H & _)]; [|done]. apply Hdi, W2 in Hd. lia.
    + intros _ Hd Hs Hq. destruct H as [H|(H & _)]; [|done]. apply Hdi, W2 in Hd. lia.
  - split; [|split; [apply (po_others _ _ _ _ _ _ HP')|split; [apply (po_props _ _ _ _ _ _ HP')|split; [apply (po_time _ _ _ _ _ _ HP')|split; [apply (po_par _ _ _ _ _ _ HP')|by eapply finalized_others]]]]].
    apply W2 in Hi. split; try done; try congruence.
    + intros _ _ _ _. split; [|split].
      * apply settled_effect; [done|done|]. intros s. rewrite (po_ob _ _ _ _ _ _ HP'). done.
      * rewrite (finalized_post _ _ _ _ _ _ HP'). lia.
      * exists n. split; [|apply (po_prop _ _ _ _ _ _ HP')]. eapply fit_ext; [|exact Hf]. intros s. by rewrite (po_ob _ _ _ _ _ _ HP').
    + intros _ _ _ [?|?]; done.
  - split; [|split; [apply (po_others _ _ _ _ _ _ HP')|split; [apply (po_props _ _ _ _ _ _ HP')|split; [apply (po_time _ _ _ _ _ _ HP')|split; [apply (po_par _ _ _ _ _ _ HP')|by eapply finalized_others]]]]].
    split; try done; try congruence.
    + intros _ Hi. by apply Hdi in Ho.
    + intros _ _ _. split; [|split].
      * apply late_effect; [done|done|]. intros s. apply (po_ob _ _ _ _ _ _ HP').
      * rewrite (finalized_post _ _ _ _ _ _ HP'). lia.
      * exists n. split; [done|]. split; [apply (po_ob _ _ _ _ _ _ HP')|]. apply (po_prop _ _ _ _ _ _ HP').
  - assert (HX : exists o b' fin, post c c' p o b' fin).
    { destruct H as [(_ & _ & H)|[(_ & _ & H)|(_ & _ & _ & H)]]; eauto. }
    destruct HX as (o & b' & fin & HP').
    split; [|split; [apply (po_others _ _ _ _ _ _ HP')|split; [apply (po_props _ _ _ _ _ _ HP')|split; [apply (po_time _ _ _ _ _ _ HP')|split; [apply (po_par _ _ _ _ _ _ HP')|by eapply finalized_others]]]]].
    split; try done; try congruence.
    + intros _ Hi. by apply Hdi in Ho.
    + intros _ _ _ _. destruct HTT as (r & n' & HT & Hf & Hp'); [done|by apply W1|done|done|]. exists r, n'.
      split; [|split; [|split]].
      * apply settled_effect; [done|done|]. exact (ta_stakers _ _ _ _ _ _ HT).
      * apply (ta_verdict _ _ _ _ _ _ HT).
      * apply (ta_fin _ _ _ _ _ _ HT).
      * split; [done|]. split; [exact (ta_stakers _ _ _ _ _ _ HT)|done].
  - by destruct (tally_safe g Hg c p HG HA Hpl c1).
Qed.

(** ** The end of a block *)
Definition upgraded (c : chain) : chain := cw_pools c (handle_upgrades (c_pools c) (c_time c)).
(** What the turns of other pools leave alone. *)
Record apart (c c' : chain) (p : N) : Prop := mkApart {
  ap_points : forall s, points c' p s = points c p s;
  ap_prop : get_prop c' p = get_prop c p;
  ap_time : c_time c' = c_time c;
  ap_par : par c' = par c;
  ap_fin : finalized c' p = finalized c p
}.
Lemma finalized_keep c c' p : pkeep (c_pools c) (c_pools c') -> finalized c' p = finalized c p.
Proof.
  intros [_ H]. specialize (H p). unfold finalized, get_pool. destruct (ps_pools (c_pools c) !! p), (ps_pools (c_pools c') !! p); try done.
  destruct H as [_ H]. cbn. by rewrite H.
Qed.
Lemma timeouts_app l1 l2 c : timeouts c (l1 ++ l2) = match timeouts c l1 with Some c1 => timeouts c1 l2 | None => None end.
Proof. revert c. induction l1 as [|[p i] l1 IH]; intros c; simpl; [done|]. destruct (timeout_pool c p i); [apply IH|done]. Qed.
Definition turn_ready (c : chain) : Prop := G g c /\ AInv c /\ points_ok c /\ (forall p, 0 <= bp_updated (get_prop c p) <= c_time c) /\ c_time c < two62.
Lemma ready_turn c p i c' : turn_ready c -> is_Some (get_pool c p) -> 0 <= i < two62 -> timeout_pool c p i = Some c' ->
  turn_ready c' /\ turn c c' p i /\ (forall q, is_Some (get_pool c q) -> is_Some (get_pool c' q)) /\ forall q, q <> p -> apart c c' q.
Proof.
  intros (HG & HA & HP & HB & HT) Hpl Hi E. destruct (turn_of c p i c' HG HA HP Hpl E (HB p) HT Hi) as (H1 & H2 & H3 & H4 & H5 & H6).
  split; [|split; [done|split]].
  - split; [by eapply G_timeout_pool|]. split; [by eapply agood_timeout|]. split; [by eapply ok_timeout|].
    destruct (ub_timeout_pool (c_time c) c p i c') as (U1 & U2 & U3); [|done|].
    + split; [done|]. split; [pose proof (HB p); lia|done].
    + rewrite U1. split; [|done]. done.
  - intros q Hq. eapply some_get; [by eapply (agood_timeout c p i)|done].
  - intros q Hq. split; [intros s; by apply (others_points c c' p H2)|by apply H3|done|done|by apply H6].
Qed.
Lemma apart_trans a b c p : apart a b p -> apart b c p -> apart a c p.
Proof. intros [A1 A2 A3 A4 A5] [B1 B2 B3 B4 B5]. split; [intros s; by rewrite B1|congruence..]. Qed.
Lemma apart_refl c p : apart c c p. Proof. by split. Qed.
Lemma ready_turns l c c' : turn_ready c -> (forall p i, (p, i) ∈ l -> is_Some (get_pool c p) /\ 0 <= i < two62) -> timeouts c l = Some c' ->
  turn_ready c' /\ (forall q, is_Some (get_pool c q) -> is_Some (get_pool c' q)) /\ forall q, q ∉ l.*1 -> apart c c' q.
Proof.
  revert c. induction l as [|[p i] l IH]; intros c HR Hl; simpl; [intros [= <-]; split; [done|split; [done|intros; apply apart_refl]]|].
  destruct (timeout_pool c p i) as [c1|] eqn:E; [|done]. intros E'.
  destruct (Hl p i) as [Hp Hi]; [by left|]. destruct (ready_turn c p i c1 HR Hp Hi E) as (R1 & _ & S1 & A1).
  destruct (IH c1 R1) as (R2 & S2 & A2); [|done|].
  - intros q j Hq. destruct (Hl q j) as [Hq1 Hq2]; [by right|]. auto.
  - split; [done|]. split; [auto|]. intros q Hq. apply not_elem_of_cons in Hq as [Hq1 Hq2]. eapply apart_trans; [by apply A1|by apply A2].
Qed.
Lemma intervals_NoDup c : NoDup (pool_intervals c).*1.
Proof.
  unfold pool_intervals.
  assert (H : forall l : list N, NoDup l -> NoDup (omap (fun p => (fun pl => (p, pl_interval pl)) <$> get_pool c p) l).*1 /\
    forall q, q ∈ (omap (fun p => (fun pl => (p, pl_interval pl)) <$> get_pool c p) l).*1 -> q ∈ l).
  { induction l as [|x l IH]; intros Hn; simpl; [split; [constructor|done]|]. apply NoDup_cons in Hn as [Hx Hn]. destruct (IH Hn) as [I1 I2].
    destruct (get_pool c x); simpl.
    - split; [constructor; [intros Hq; apply Hx; by apply I2|done]|]. intros q Hq. apply elem_of_cons in Hq as [->|Hq]; [by left|right; by apply I2].
    - split; [done|]. intros q Hq. right. by apply I2. }
  apply H. unfold pool_ids. rewrite merge_sort_Permutation. apply NoDup_fst_map_to_list.
Qed.
(** Unless the chain halts, every pool has its turn: [c1] is the state before it, [c2] after. *)
Lemma end_turn_run c p pl : turn_ready c -> (forall p pl, get_pool (upgraded c) p = Some pl -> 0 <= pl_interval pl < two62) ->
  get_pool (upgraded c) p = Some pl -> c_halt (cstep c CEnd) = false ->
  exists c1 c2, turn_ready c1 /\ turn c1 c2 p (pl_interval pl) /\ apart c c1 p /\ apart c2 (cstep c CEnd) p /\ timeout_pool c1 p (pl_interval pl) = Some c2.
Proof.
  intros HR Hiv Hpl. unfold cstep. cbn [cmsg default from_option id]. unfold end_block. fold (upgraded c).
  assert (HRu : turn_ready (upgraded c)).
  { destruct HR as (H1 & H2 & H3 & H4 & H5). split; [by apply G_upgrades|]. split; [|done].
    apply (agood_keep c); try done. apply keep_upgrades. }
  assert (Hau : apart c (upgraded c) p).
  { split; try done. by apply finalized_keep, keep_upgrades. }
  set (cu := upgraded c) in *. clearbody cu. unfold handle_upload_timeout. destruct (timeouts cu _) as [c3|] eqn:Et.
  2: { unfold burn_fees. intros H. exfalso. revert H. cbn. destruct (_ =? 1); [done|]. destruct (_ =? 0); [done|]. by destruct (burn _ _ _). }
  intros _. assert (Hin : (p, pl_interval pl) ∈ pool_intervals cu) by (apply pool_intervals_in; eauto).
  pose proof (intervals_NoDup cu) as Hn.
  assert (Hall : forall q i, (q, i) ∈ pool_intervals cu -> is_Some (get_pool cu q) /\ 0 <= i < two62).
  { intros q i Hq. apply pool_intervals_in in Hq as (x & Hx & ->). split; [eauto|by eapply Hiv]. }
  apply elem_of_list_split in Hin as (l1 & l2 & Hl). rewrite Hl in Et, Hn, Hall. rewrite timeouts_app in Et.
  destruct (timeouts cu l1) as [c1|] eqn:E1; [|done]. cbn [timeouts] in Et. destruct (timeout_pool c1 p _) as [c2|] eqn:E2; [|done].
  rewrite fmap_app in Hn. apply NoDup_app in Hn as (_ & Hn1 & Hn2). cbn in Hn2. apply NoDup_cons in Hn2 as [Hn2 _].
  destruct (ready_turns l1 cu c1 HRu) as (R1 & S1 & A1); [intros q i Hq; apply Hall; set_solver|done|].
  destruct (Hall p (pl_interval pl)) as [Hp Hi]; [set_solver|].
  destruct (ready_turn c1 p (pl_interval pl) c2 R1 (S1 p Hp) Hi E2) as (R2 & T2 & S2 & _).
  destruct (ready_turns l2 c2 c3 R2) as (R3 & S3 & A3); [|done|].
  { intros q i Hq. destruct (Hall q i) as [Hq1 Hq2]; [set_solver|]. auto. }
  exists c1, c2. split; [done|]. split; [done|]. split.
  - eapply apart_trans; [exact Hau|]. apply A1. intros Hq. apply (Hn1 p Hq). by left.
  - split; [|done]. eapply apart_trans; [by apply A3|]. split.
    + intros s. unfold points. by rewrite s_burn_fees.
    + apply get_prop_b, b_burn_fees.
    + pose proof (b_burn_fees c3) as Hb. apply bpart_eq in Hb. tauto.
    + unfold par, burn_fees. destruct (_ =? 1); [done|]. destruct (_ =? 0); [done|]. by destruct (burn _ _ _).
    + unfold finalized. by rewrite (get_pool_b c3 _ p) by apply b_burn_fees.
Qed.
Lemma end_turn c p pl : turn_ready c -> (forall p pl, get_pool (upgraded c) p = Some pl -> 0 <= pl_interval pl < two62) ->
  get_pool (upgraded c) p = Some pl -> c_halt (cstep c CEnd) = false ->
  exists c1 c2, turn_ready c1 /\ turn c1 c2 p (pl_interval pl) /\ apart c c1 p /\ apart c2 (cstep c CEnd) p.
Proof. intros H1 H2 H3 H4. destruct (end_turn_run c p pl H1 H2 H3 H4) as (c1 & c2 & R & T & A & B & _). by exists c1, c2. Qed.
End T.
