(** * Claims: a stored bundle does not stay open (C79). *)
From Verif Require Import Base BaseFacts Delegation Stakers StakersInv StakersClaims StakersRun Funders Team RoundRobin RoundRobinClaims Pool Bundles Chain ChainFrame ArchiveInv
  BankMoves ChainLift PoolFrame PoolInv PayoutClaims PoolClaims TallyFacts VoteClaims StepCases PaySafe PointsInv TallyClaims TallyEffects TallyProps.

(** ** The vocabulary *)
(** A bundle is stored and waits for its outcome. *)
Definition waits (c : chain) (p : N) : Prop := bp_storage (get_prop c p) <> 0%N.
(** The stake behind those on a list who are members of the pool. *)
Definition backing (c : chain) (p : N) (l : list N) : Z :=
  sum_of (fun s => match points c p s with Some _ => default 0 (delegated c s) | None => 0 end) l.
Definition all_stake (c : chain) (p : N) : Z := backing c p (members c p).
Definition for_it (c : chain) (p : N) : Z := backing c p (bp_valid (get_prop c p)).
Definition against_it (c : chain) (p : N) : Z := backing c p (bp_invalid (get_prop c p)).
(** More than half for it; at least half against it; neither. *)
Definition agreed (c : chain) (p : N) : Prop := all_stake c p < 2 * for_it c p.
Definition opposed (c : chain) (p : N) : Prop := 0 < all_stake c p /\ all_stake c p <= 2 * against_it c p.
Definition unclear (c : chain) (p : N) : Prop := ~ agreed c p /\ ~ opposed c p.

Lemma backing_weight c p l : backing c p l = weight (ob c p) l.
Proof.
  unfold backing, weight. induction l as [|x l IH]; [done|]. rewrite !sum_cons, IH. f_equal. rewrite ob_eta. unfold w1, points.
  by destruct (get_val (c_s c) p x).
Qed.

Section L.
Context (g : gen) (Hg : genesis g).
Lemma all_power c p : pool_power c p = all_stake c p.
Proof. unfold all_stake. rewrite backing_weight. by apply (pool_power_weight g Hg). Qed.
Lemma status_votes c p : G g c -> AInv c -> waits c p -> all_stake c p < two63 ->
  (v_status (distribution c p) = VValid <-> agreed c p) /\ (v_status (distribution c p) = VInvalid <-> opposed c p) /\
  (v_status (distribution c p) = VNoQuorum <-> unclear c p).
Proof.
  intros HG HA Hw HT. rewrite <- all_power in HT. unfold waits, get_prop in Hw. destruct (c_prop c !! p) as [b|] eqn:Eb; [|done].
  assert (Hb : get_prop c p = b) by (unfold get_prop; by rewrite Eb).
  pose proof (majority c p b HA (fun x => G_power g Hg c x HG) Eb HT) as (M1 & M2 & M3). cbv zeta in M1, M2, M3.
  rewrite !power_of_weight, all_power in *. unfold unclear, agreed, opposed, for_it, against_it. rewrite !backing_weight, Hb in *.
  pose proof (votes_once c p HA) as [Hn _]. cbv zeta in Hn. rewrite Hb in Hn.
  assert (HL : weight (ob c p) (bp_valid b ++ bp_invalid b) <= all_stake c p).
  { unfold all_stake. rewrite backing_weight. apply weight_le.
    - intros s. by apply (w1_nn g Hg).
    - rewrite (app_assoc (bp_valid b)) in Hn. by apply NoDup_app in Hn as [? _].
    - intros s Hs. rewrite <- power_w1. destruct (in_pool c p s) eqn:E; [|done]. destruct Hs. by apply members_in. }
  assert (HN : forall l, 0 <= weight (ob c p) l) by (intros l; apply sum_nn; intros s; by apply (w1_nn g Hg)).
  pose proof (HN (bp_valid b)). pose proof (HN (bp_invalid b)).
  unfold weight in HL at 1. rewrite sum_app in HL. fold (weight (ob c p) (bp_valid b)) (weight (ob c p) (bp_invalid b)) in HL.
  assert (HN' : 0 <= all_stake c p) by (unfold all_stake; rewrite backing_weight; apply HN).
  repeat split; try tauto; try (intros Hx; apply M3; lia); try (apply M3 in H1; lia); intros Hx; try (apply M3 in Hx); lia.
Qed.
(** Those who did not vote only lose weight before the count. *)
Lemma counted_voter c p s : on_list (get_prop c p) s -> counted_as c p None s = ob c p s.
Proof.
  intros Hv. unfold counted_as, lose, present. rewrite decide_False; [done|]. intros [_ H]. revert H. unfold voted.
  destruct Hv as [Hv|[Hv|Hv]]; apply memb_spec in Hv; rewrite Hv; by rewrite ?orb_true_r.
Qed.
Lemma counted_list c p l : (forall s, s ∈ l -> on_list (get_prop c p) s) -> weight (counted_as c p None) l = weight (ob c p) l.
Proof.
  unfold weight. induction l as [|x l IH]; intros H; [done|]. rewrite !sum_cons. cbv beta. rewrite counted_voter by (apply H; by left).
  rewrite IH; [done|]. intros s Hs. apply H. by right.
Qed.
Lemma counted_all c p : G g c -> weight (counted_as c p None) (members c p) <= all_stake c p.
Proof.
  intros HG. unfold all_stake. rewrite backing_weight. unfold weight. induction (members c p) as [|x l IH]; [done|]. rewrite !sum_cons. cbv beta.
  pose proof (w1_counted g Hg c p None x HG). lia.
Qed.
Lemma verdict_votes c p r : G g c -> AInv c -> verdict c p None r -> (agreed c p -> r = OValid) /\ (opposed c p -> r = OInvalid).
Proof.
  intros HG HA Hv. pose proof (counted_all c p HG) as HT.
  assert (HV : weight (counted_as c p None) (bp_valid (get_prop c p)) = for_it c p).
  { unfold for_it. rewrite backing_weight. apply counted_list. intros s Hs. by left. }
  assert (HI : weight (counted_as c p None) (bp_invalid (get_prop c p)) = against_it c p).
  { unfold against_it. rewrite backing_weight. apply counted_list. intros s Hs. right. by left. }
  assert (HN : forall l, 0 <= weight (counted_as c p None) l) by (intros l; apply sum_nn; intros s; by apply (w1_counted_nn g)).
  unfold agreed, opposed. split; intros H; eapply (verdict_one g c p None); try done; unfold verdict; cbv zeta; cbn [decided]; rewrite ?HV, ?HI.
  - lia.
  - split; [|lia]. pose proof (votes_once c p HA) as [Hn _]. cbv zeta in Hn.
    assert (HL : weight (counted_as c p None) (bp_invalid (get_prop c p)) <= weight (counted_as c p None) (members c p)).
    { apply weight_le.
      - intros s. by apply (w1_counted_nn g).
      - apply NoDup_app in Hn as (_ & _ & Hn). by apply NoDup_app in Hn as (? & _).
      - intros s Hs. apply w1_counted_out. destruct (in_pool c p s) eqn:E; [|done]. destruct Hs. by apply members_in. }
    lia.
Qed.
End L.

(** ** The end of a block *)
Definition until_then (c c' : chain) (p : N) : Prop := get_prop c' p = get_prop c p /\ finalized c' p = finalized c p.
Definition gone (c c' : chain) (p : N) (k : N) : Prop :=
  ~ waits c' p /\ bp_updated (get_prop c' p) = c_time c /\ finalized c' p = (finalized c p + k)%N.
Record decided_by (c c1 c' : chain) (p : N) (i : Z) : Prop := mkDecided {
  de_early : ~ interval_over c p i -> until_then c c' p;
  de_unclear : interval_over c p i -> unclear c1 p -> gone c c' p 0;
  de_clear : ~ deadline_over c p i -> agreed c1 p \/ opposed c1 p -> until_then c c' p;
  de_agreed : deadline_over c p i -> agreed c1 p -> gone c c' p 1;
  de_opposed : deadline_over c p i -> opposed c1 p -> gone c c' p 0
}.
Lemma settled_at g ops p pl : genesis g -> cops_ok (gstart g) ops -> let c := crun (gstart g) ops in let c' := cstep c CEnd in
  get_pool (upgraded c) p = Some pl -> c_halt c' = false -> waits c p ->
  exists c1 c2, G g c1 /\ apart c c1 p /\ apart c2 c' p /\
    (can_run c1 p = true -> all_stake c1 p < two63 -> decided_by c c1 c' p (pl_interval pl)).
Proof.
  intros Hg Hok c c' Hp Hh Hw. destruct (r_turn_run g ops Hg Hok p pl Hp Hh) as (c1 & c2 & (HG1 & HA1 & _) & HT & A1 & A2 & _). fold c c' in A1, A2.
  exists c1, c2. split; [done|]. split; [done|]. split; [done|]. intros Hr HS.
  assert (Hw1 : waits c1 p) by (unfold waits; by rewrite (ap_prop _ _ _ A1)).
  destruct (status_votes g Hg c1 p HG1 HA1 Hw1 HS) as (S1 & S2 & S3).
  set (i := pl_interval pl) in *.
  assert (Hi : interval_over c1 p i <-> interval_over c p i) by (unfold interval_over; by rewrite (ap_prop _ _ _ A1), (ap_time _ _ _ A1)).
  assert (Hd : deadline_over c1 p i <-> deadline_over c p i).
  { unfold deadline_over. rewrite (ap_prop _ _ _ A1), (ap_time _ _ _ A1). pose proof (ap_par _ _ _ A1) as Hq. unfold par in Hq. injection Hq as Hq1 Hq2.
    by rewrite ?Hq1, ?Hq2. }
  assert (Ht : 0 < b_timeout (c_bp c)).
  { pose proof (g_par _ _ (r_G g ops Hg Hok)) as Hq. unfold params_ok in Hq. destruct Hq as (Hq & _). unfold bparams_valid in Hq.
    rewrite !andb_true_iff in Hq. destruct Hq as [[[Hq _] _] _]. by apply Z.ltb_lt. }
  assert (Hdi : deadline_over c p i -> interval_over c p i) by (unfold deadline_over, interval_over; lia).
  assert (Hsame : c2 = c1 -> until_then c c' p).
  { intros ->. split; [by rewrite (ap_prop _ _ _ A2), (ap_prop _ _ _ A1)|by rewrite (ap_fin _ _ _ A2), (ap_fin _ _ _ A1)]. }
  assert (Hgone : forall n k, get_prop c2 p = bp_none n (c_time c1) -> finalized c2 p = (finalized c1 p + k)%N -> gone c c' p k).
  { intros n k H1 H2. unfold gone, waits. rewrite (ap_prop _ _ _ A2), H1. split; [by intros ?|]. split; [apply (ap_time _ _ _ A1)|].
    by rewrite (ap_fin _ _ _ A2), H2, (ap_fin _ _ _ A1). }
  assert (Hlate : deadline_over c p i -> agreed c1 p \/ opposed c1 p -> exists r, verdict c1 p None r /\
    gone c c' p (match r with OValid => 1 | _ => 0 end)).
  { intros Ho Hq. destruct (tu_late_stored _ _ _ _ HT Hr) as (r & n & _ & Hv & Hf & _ & _ & Hn); [by apply Hd|done| |].
    - intros Hx. apply S3 in Hx as [? ?]. by destruct Hq.
    - exists r. split; [apply Hv; by rewrite (all_power g Hg)|]. by eapply Hgone. }
  split.
  - intros Hx. apply Hsame, (tu_early _ _ _ _ HT Hr). by rewrite Hi.
  - intros Ho Hu. destruct (tu_dropped _ _ _ _ HT Hr) as (_ & Hf & n & _ & Hn); [by apply Hi|done|by apply S3|].
    eapply Hgone; [exact Hn|]. rewrite Hf. lia.
  - intros Ho Hq. assert (Hx : interval_over c p i \/ ~ interval_over c p i) by (unfold interval_over; lia). destruct Hx as [Hx|Hx].
    + apply Hsame, (tu_waiting _ _ _ _ HT Hr); [by apply Hi|by rewrite Hd|]. right. intros Hy. apply S3 in Hy as [? ?]. by destruct Hq.
    + apply Hsame, (tu_early _ _ _ _ HT Hr). by rewrite Hi.
  - intros Ho Hq. destruct (Hlate Ho (or_introl Hq)) as (r & Hv & H). by rewrite (proj1 (verdict_votes g Hg c1 p r HG1 HA1 Hv) Hq) in H.
  - intros Ho Hq. destruct (Hlate Ho (or_intror Hq)) as (r & Hv & H). by rewrite (proj2 (verdict_votes g Hg c1 p r HG1 HA1 Hv) Hq) in H.
Qed.
Lemma claim_settled g ops p pl : genesis g -> cops_ok (gstart g) ops -> let c := crun (gstart g) ops in let c' := cstep c CEnd in
  get_pool (upgraded c) p = Some pl -> c_halt c' = false -> waits c p ->
  exists c1 c2, apart c c1 p /\ apart c2 c' p /\
    (can_run c1 p = true -> all_stake c1 p < two63 -> decided_by c c1 c' p (pl_interval pl)).
Proof. intros Hg Hok c c' Hp Hh Hw. destruct (settled_at g ops p pl Hg Hok Hp Hh Hw) as (c1 & c2 & _ & H). by exists c1, c2. Qed.

(** ** Pools that cannot run *)
(** Everything of a proposal but the next uploader. *)
Definition core (b : proposal) : proposal := with_next b 0 (bp_updated b).
Lemma claim_paused g ops p pl : genesis g -> cops_ok (gstart g) ops -> let c := crun (gstart g) ops in let c' := cstep c CEnd in
  get_pool (upgraded c) p = Some pl -> c_halt c' = false ->
  exists c1 c2, apart c c1 p /\ apart c2 c' p /\ forall e, pool_error c1 p = Some e ->
    (e = EDisabled -> ~ waits c' p) /\ (e <> EDisabled -> get_prop c' p = core (get_prop c p)) /\ finalized c' p = finalized c p.
Proof.
  intros Hg Hok c c' Hp Hh. destruct (r_turn_run g ops Hg Hok p pl Hp Hh) as (c1 & c2 & _ & HT & A1 & A2 & E). fold c c' in A1, A2.
  exists c1, c2. split; [done|]. split; [done|]. intros e He.
  assert (Hcr : can_run c1 p = false) by (unfold can_run; by rewrite He).
  destruct (tu_stopped _ _ _ _ HT Hcr) as (_ & _ & Hf). unfold waits. rewrite (ap_prop _ _ _ A2), (ap_fin _ _ _ A2), Hf, (ap_fin _ _ _ A1), <- (ap_prop _ _ _ A1).
  unfold timeout_pool in E. rewrite He in E. injection E as E.
  assert (Hset : forall b, get_prop (set_prop c1 p b) p = b) by (intros b; unfold get_prop, set_prop; cbn; by rewrite lookup_insert).
  split; [|split; [|done]].
  - intros ->. cbn [andb] in E. destruct (N.eqb_spec (bp_storage (get_prop c1 p)) 0) as [Hs|Hs]; cbn [negb] in E.
    + destruct (negb _); subst c2; rewrite ?Hset; by intros ?.
    + subst c2. unfold drop. rewrite Hset. by intros ?.
  - intros Hne. destruct e; try done; cbn [andb] in E; (destruct (N.eqb_spec (bp_next (get_prop c1 p)) 0) as [Hs|Hs]; cbn [negb] in E; subst c2;
      [unfold core; destruct (get_prop c1 p); cbn in *; by subst|apply Hset]).
Qed.

(** A pool that has reached its end key. *)
Definition ended (c : chain) (p : N) : Prop :=
  exists pl, get_pool c p = Some pl /\ pl_disabled pl = false /\ pl_endkey pl <> 0%N /\ pl_key pl = pl_endkey pl.
Lemma ended_error c p : ended c p -> exists e, pool_error c p = Some e /\ e <> EDisabled.
Proof.
  intros (pl & Hp & Hd & He & Hk). unfold pool_error. rewrite Hp, Hd, Hk, N.eqb_refl. apply N.eqb_neq in He. rewrite He. cbn.
  destruct (_ && _); eexists; done.
Qed.
Lemma ended_stopped c p : ended c p -> can_run c p = false.
Proof. intros H. destruct (ended_error c p H) as (e & He & _). unfold can_run. by rewrite He. Qed.
(** The pool is still at its end and the bundle is the same. *)
Definition rests (c c' : chain) (p : N) : Prop := ended c' p /\ core (get_prop c' p) = core (get_prop c p) /\ finalized c' p = finalized c p.
Lemma rests_refl c p : ended c p -> rests c c p. Proof. by split. Qed.
Lemma rests_trans a b c p : rests a b p -> rests b c p -> rests a c p.
Proof. intros (A1 & A2 & A3) (B1 & B2 & B3). split; [done|]. split; congruence. Qed.
Lemma rests_same c c' p : ended c p -> get_pool c' p = get_pool c p -> get_prop c' p = get_prop c p -> rests c c' p.
Proof. intros H H1 H2. unfold rests, ended, finalized. by rewrite H1, H2. Qed.
Lemma rests_b c c' p : ended c p -> bpart c' = bpart c -> rests c c' p.
Proof. intros H Hb. apply rests_same; [done|by apply get_pool_b|by apply get_prop_b]. Qed.
Lemma rests_post c c' p q o b' fin : ended c p -> p <> q -> post c c' q o b' fin -> rests c c' p.
Proof.
  intros H Hq HP. apply rests_same; [done| |by apply (po_props _ _ _ _ _ _ HP)].
  pose proof (po_fin _ _ _ _ _ _ HP) as Hf. destruct fin as [v|].
  - destruct Hf as (pl & fb & _ & _ & _ & _ & _ & _ & Hf). by apply Hf.
  - destruct Hf as [_ Hf]. unfold get_pool. by rewrite Hf.
Qed.
Lemma rests_pool c c' p : ended c p -> get_prop c' p = get_prop c p ->
  (forall pl, get_pool c p = Some pl -> pl_disabled pl = false -> exists pl', get_pool c' p = Some pl' /\ pl_disabled pl' = false /\ pl_endkey pl' = pl_endkey pl /\
     pl_key pl' = pl_key pl /\ pl_total pl' = pl_total pl) -> rests c c' p.
Proof.
  intros (pl & Hp & Hd & He & Hk) Hb H. destruct (H pl Hp Hd) as (pl' & H1 & H2 & H3 & H4 & H5). split; [|split].
  - exists pl'. by rewrite H3, H4.
  - by rewrite Hb.
  - unfold finalized. by rewrite Hp, H1; cbn; rewrite H5.
Qed.
Lemma rests_timeout g c p q i c' : genesis g -> G g c -> AInv c -> is_Some (get_pool c q) -> ended c p -> timeout_pool c q i = Some c' -> rests c c' p.
Proof.
  intros Hg HG HA Hq He E. destruct (decide (p = q)) as [<-|Hne].
  - destruct (ended_error c p He) as (e & Hpe & Hnd). unfold timeout_pool in E. rewrite Hpe in E. injection E as <-.
    assert (Hx : match e with EDisabled => true | _ => false end = false) by (by destruct e). rewrite Hx. cbn [andb].
    destruct (N.eqb_spec (bp_next (get_prop c p)) 0) as [Hs|Hs]; cbn [negb]; [by apply rests_refl|].
    split; [exact He|]. split; [|done]. unfold get_prop at 1. unfold set_prop. cbn. by rewrite lookup_insert.
  - pose proof (timeout_cases g Hg c q i c' HG HA E) as H. cbv zeta in H.
    destruct H as [(Hr & b' & HP' & Hb)|[(Hr & -> & H)|[(Hr & Hs & Hv & Hi & n & Hf & HP')|[(Hr & Ho & Hs & n & Hf & HP')|[(Hr & Ho & Hs & Hv & n & v & HJ & H)|(c1 & Ht & ->)]]]]].
    + by eapply rests_post.
    + by apply rests_refl.
    + by eapply rests_post.
    + by eapply rests_post.
    + destruct H as [(_ & _ & HP')|[(_ & _ & HP')|(_ & _ & _ & HP')]]; by eapply rests_post.
    + by destruct (tally_safe g Hg c q HG HA Hq c1).
Qed.
Lemma rests_timeouts g l : genesis g -> forall c c' p, G g c -> AInv c -> (forall q i, (q, i) ∈ l -> is_Some (get_pool c q)) -> ended c p ->
  timeouts c l = Some c' -> rests c c' p.
Proof.
  intros Hg. induction l as [|[q i] l IH]; intros c c' p HG HA Hl He; cbn [timeouts]; [intros [= <-]; by apply rests_refl|].
  destruct (timeout_pool c q i) as [c1|] eqn:E; [|done]. intros E'.
  assert (Hq : is_Some (get_pool c q)) by (apply (Hl q i); by left).
  pose proof (rests_timeout g c p q i c1 Hg HG HA Hq He E) as R1. eapply rests_trans; [exact R1|].
  pose proof (agood_timeout c q i c1 HA Hq E) as HA1.
  apply IH; [by eapply G_timeout_pool|apply HA1| |apply R1|done].
  intros q' i' Hq'. eapply some_get; [exact HA1|]. apply (Hl q' i'). by right.
Qed.
(** What only the authority does with a pool: set it up anew, or disable it. *)
Definition changes_pool (o : cop) (p : N) : bool :=
  match o with CUpdatePool _ q _ | CDisablePool _ q => (q =? p)%N | _ => false end.
Lemma rests_step g c o p : genesis g -> G g c -> AInv c -> ended c p -> changes_pool o p = false -> rests c (cstep c o) p.
Proof.
  intros Hg HG HA He Ho. unfold cstep. destruct (cmsg c o) as [c'|] eqn:E; [|by apply rests_refl]. cbn [default from_option id].
  pose proof (ended_stopped c p He) as Hr.
  destruct o; cbn [changes_pool] in Ho;
    try (cbn [cmsg] in E; match type of E with ?f <$> ?x = _ => destruct x; [injection E as <-; by apply rests_b|done] end);
    try (cbn [cmsg] in E; match type of E with (if ?x then _ else _) = _ => destruct x; [injection E as <-; by apply rests_same|done] end).
  - cbn [cmsg] in E. unfold chain_create_staker in E. destruct (msg_delegate _ _ _ _ _); [|done]. destruct (msg_create_staker _ _ _ _); [|done].
    injection E as <-. by apply rests_b.
  - destruct (decide (p = sb_pool m)) as [->|Hne].
    { cbn [cmsg] in E. unfold msg_submit, can_propose in E. rewrite Hr in E. destruct (get_pool c (sb_pool m)); done. }
    pose proof (submit_cases g Hg c m c' HG HA E) as H. cbv zeta in H.
    destruct H as [(_ & n & b' & _ & _ & H)|[(_ & n & b' & v & _ & _ & _ & _ & H)|(_ & v & _ & _ & H)]]; by eapply rests_post.
  - cbn [cmsg] in E. unfold msg_vote, can_vote in E. destruct (decide (p = p0)) as [->|Hne]; [by rewrite Hr in E|].
    destruct (negb _); [done|]. match type of E with match ?x with Some _ => _ | None => _ end = _ => destruct x as [b'|] end; [|done]. injection E as <-.
    apply rests_same; [done|done|]. unfold get_prop, set_prop. cbn. by rewrite lookup_insert_ne.
  - destruct (decide (p = p0)) as [->|Hne].
    { cbn [cmsg] in E. unfold msg_skip, can_propose in E. rewrite Hr in E. destruct (get_pool c p0); done. }
    pose proof (skip_cases g Hg c p0 s creator from c' HG HA (skip_prop _ _ _ _ _ _ _ HG E) E) as H. cbv zeta in H.
    destruct H as [(n & w & _ & _ & _ & HP)|[(n & w & _ & _ & _ & HP)|(n & w & _ & _ & _ & _ & HP)]]; by eapply rests_post.
  - cbn [cmsg] in E. unfold msg_claim_role in E. destruct (decide (p = p0)) as [->|Hne]; [by rewrite Hr in E|].
    destruct (negb _); [done|]. destruct (negb _); [done|]. destruct (negb _); [done|]. injection E as <-.
    apply rests_same; [done|done|]. unfold get_prop, set_prop. cbn. by rewrite lookup_insert_ne.
  - cbn [cmsg] in E. unfold chain_create_pool in E. destruct (msg_create_pool _ _ _ _ _) as [ps|] eqn:Em; [|done]. injection E as <-.
    unfold msg_create_pool in Em. destruct (create_basic a); cbn in Em; [|done]. destruct (sender =? AUTHORITY)%N; cbn in Em; [|done].
    destruct json; cbn in Em; [|done]. injection Em as <-. apply rests_same; [done| |done].
    destruct He as (pl & Hp & _). unfold get_pool in *. cbn. rewrite lookup_insert_ne; [done|]. intros <-.
    assert (ps_count (c_pools c) < ps_count (c_pools c))%N; [|lia]. apply (ai_pools _ HA). unfold get_pool. by rewrite Hp.
  - cbn [cmsg] in E. destruct (msg_update_pool _ _ _ _) as [ps|] eqn:Em; [|done]. injection E as <-. unfold msg_update_pool in Em.
    destruct (negb _); [done|]. destruct (negb _); [done|]. destruct (ps_pools (c_pools c) !! p0); [|done]. injection Em as <-.
    apply rests_same; [done| |done]. unfold get_pool. cbn. apply N.eqb_neq in Ho. by rewrite lookup_insert_ne.
  - cbn [cmsg] in E. destruct (msg_enable_pool _ _ _) as [ps|] eqn:Em; [|done]. injection E as <-. unfold msg_enable_pool in Em.
    destruct (negb _); [done|]. destruct (ps_pools (c_pools c) !! p0) as [pl0|] eqn:Ep; [|done]. destruct (pl_disabled pl0) eqn:Ed; [|done]. injection Em as <-.
    apply rests_same; [done| |done]. unfold get_pool. cbn. rewrite lookup_insert_ne; [done|]. intros ->.
    destruct He as (pl & Hp & Hd & _). unfold get_pool in Hp. congruence.
  - cbn [cmsg] in E. unfold chain_disable_pool in E. destruct (disable_record _ _ _) as [ps|] eqn:Ed; [|done].
    assert (H1 : rests c (cw_pools c ps) p).
    { unfold disable_record in Ed. destruct (negb _); [done|]. destruct (ps_pools (c_pools c) !! p0) as [pl0|] eqn:Ep; [|done].
      destruct (pl_disabled pl0); [done|]. injection Ed as <-. apply rests_same; [done| |done]. unfold get_pool. cbn. apply N.eqb_neq in Ho. by rewrite lookup_insert_ne. }
    pose proof (b_leave_all (cw_pools c ps) (members (cw_pools c ps) p0) p0) as Hb.
    set (c2 := fold_left _ _ _) in *. assert (H2 : rests c c2 p) by (eapply rests_trans; [exact H1|]; apply rests_b; [apply H1|done]).
    destruct (two64 <=? _); [done|]. destruct (0 <? _); [|by injection E as <-]. destruct (i64 _ <? 0); [done|].
    destruct (send _ _ _ _); [|done]. by injection E as <-.
  - cbn [cmsg] in E. destruct (msg_schedule _ _ _ _ _ _ _ _) as [ps|] eqn:Em; [|done]. injection E as <-. unfold msg_schedule in Em.
    destruct (negb _); [done|]. destruct (_ || _); [done|]. injection Em as <-. apply rests_pool; [done|done|].
    intros pl Hp Hd. unfold get_pool in *. cbn. rewrite lookup_fmap, Hp. eexists. split; [reflexivity|]. unfold schedule_one.
    destruct (negb _); [done|]. by destruct (negb _).
  - cbn [cmsg] in E. destruct (msg_cancel _ _ _) as [ps|] eqn:Em; [|done]. injection E as <-. unfold msg_cancel in Em.
    destruct (negb _); [done|]. injection Em as <-. apply rests_pool; [done|done|].
    intros pl Hp Hd. unfold get_pool in *. cbn. rewrite lookup_fmap, Hp. eexists. split; [reflexivity|]. unfold cancel_one.
    destruct (negb _); [done|]. by destruct (_ =? _).
  - cbn [cmsg] in E. injection E as <-. unfold begin_block. set (c0 := cw_time _ _ _). set (c1 := t_out c0 _).
    set (c2 := match split_inflation c1 _ with Some x => x | None => cw_halt c1 end).
    assert (Hb : bpart c2 = bpart c1).
    { unfold c2. destruct (split_inflation c1 _) eqn:E; [by apply b_split in E|done]. }
    assert (H2 : rests c c2 p) by (apply rests_same; [done|by rewrite (get_pool_b _ _ _ Hb)|by rewrite (get_prop_b _ _ _ Hb)]).
    eapply rests_trans; [exact H2|]. apply rests_same; [apply H2|done|done].
  - cbn [cmsg] in E. injection E as <-. unfold end_block. fold (upgraded c).
    assert (H1 : rests c (upgraded c) p).
    { apply rests_pool; [done|done|]. intros pl Hp Hd. unfold upgraded, get_pool, handle_upgrades in *. cbn. rewrite lookup_fmap, Hp.
      eexists. split; [reflexivity|]. unfold upgrade_one. destruct (_ && _); [|done]. by destruct (_ || _); destruct (_ <=? _). }
    assert (HG1 : G g (upgraded c)) by (by apply G_upgrades).
    assert (HA1 : AInv (upgraded c)) by (apply (agood_keep c); try done; apply keep_upgrades).
    assert (H2 : rests c (handle_upload_timeout (upgraded c)) p).
    { eapply rests_trans; [exact H1|]. unfold handle_upload_timeout. destruct (timeouts _ _) as [c3|] eqn:Et.
      - eapply (rests_timeouts g); [done|exact HG1|exact HA1| |apply H1|exact Et]. intros q i Hq. apply pool_intervals_in in Hq as (x & Hx & _). eauto.
      - apply rests_same; [apply H1|done|done]. }
    eapply rests_trans; [exact H2|]. apply rests_b; [apply H2|apply b_burn_fees].
  - cbn [cmsg] in E. injection E as <-. by apply rests_b.
Qed.
Lemma claim_ended g ops more p : genesis g -> cops_ok (gstart g) (ops ++ more) -> Forall (fun o => changes_pool o p = false) more ->
  let c := crun (gstart g) ops in ended c p -> rests c (crun c more) p.
Proof.
  intros Hg Hok Hm c He. revert Hok Hm. induction more as [|o l IH] using rev_ind; intros Hok Hm; [by apply rests_refl|].
  rewrite app_assoc in Hok. apply cops_ok_app in Hok as [H1 [H2 _]]. apply Forall_app in Hm as [Hm1 Hm2]. apply Forall_inv in Hm2.
  specialize (IH H1 Hm1). rewrite crun_app. cbn [crun]. eapply rests_trans; [exact IH|].
  assert (E : crun c l = crun (gstart g) (ops ++ l)) by (by rewrite crun_app).
  apply (rests_step g); [done|rewrite E; by apply G_run|rewrite E; by apply (reach_A g)|apply IH|done].
Qed.
Lemma ended_forever g ops p k : genesis g -> cops_ok (gstart g) ops -> ended (crun (gstart g) ops) p -> waits (crun (gstart g) ops) p ->
  finalized (crun (gstart g) ops) p = k -> forall more, cops_ok (gstart g) (ops ++ more) ->
  Forall (fun o => changes_pool o p = false) more -> waits (crun (gstart g) (ops ++ more)) p /\ finalized (crun (gstart g) (ops ++ more)) p = k.
Proof.
  intros Hg Hok He Hw Hk more Hm Hc. destruct (claim_ended g ops more p Hg Hm Hc He) as (_ & H1 & H2). rewrite crun_app, H2. split; [|done].
  unfold waits in *. revert H1 Hw. unfold core. generalize (get_prop (crun (gstart g) ops) p). generalize (get_prop (crun (crun (gstart g) ops) more) p).
  intros b' b H1 Hw. injection H1. congruence.
Qed.
