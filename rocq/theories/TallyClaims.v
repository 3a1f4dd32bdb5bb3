(** * Claims about tallies: who decides, who is slashed, who gets points, who uploads next (C18, C19, C23, C24, C29). *)
From Verif Require Import Base BaseFacts Delegation Stakers StakersInv StakersClaims StakersRun Funders Team RoundRobin RoundRobinClaims Pool Bundles Chain ChainFrame ArchiveInv
  BankMoves ChainLift PoolFrame PoolInv PayoutClaims PoolClaims TallyFacts VoteClaims StepCases PaySafe PointsInv.

(** ** The vocabulary of the claims *)
(** Points of a member ([None]: not a member of the pool); slashes of the staker so far; the
    stake delegated to the staker; the bundles finalized in a pool. *)
Definition points (c : chain) (p s : N) : option Z := vl_points <$> get_val (c_s c) p s.
Definition slashes (c : chain) (s : N) : list Z := map snd (f_slashes (getf (c_d c) s)).
Definition delegated (c : chain) (s : N) : option Z := dd_total <$> f_data (getf (c_d c) s).
Definition finalized (c : chain) (p : N) : N := default 0%N (pl_total <$> get_pool c p).
(** What somebody counts as in a vote: nothing once no longer a member. *)
Definition w1 (o : obs) : Z := match fst o with Some _ => default 0 (fst (snd o)) | None => 0 end.
Definition weight (o : N -> obs) (l : list N) : Z := sum_of (fun s => w1 (o s)) l.
Inductive outcome := OValid | OInvalid | ONone.
(** More than half of all says valid; at least half of all says invalid; neither. *)
Definition decided (V I T : Z) (r : outcome) : Prop :=
  match r with OValid => T < 2 * V | OInvalid => 0 < T /\ T <= 2 * I | ONone => T = 0 \/ (2 * V <= T /\ 2 * I < T) end.
(** Members at the count: those who did not vote got their point before. [who] takes part in the
    act that causes the tally. *)
Definition present (c : chain) (p : N) (who : option N) (s : N) : obs :=
  match who with Some m => took c p m s | None => ob c p s end.
Definition counted_as (c : chain) (p : N) (who : option N) (s : N) : obs := lose c p s (present c p who s).
Definition verdict (c : chain) (p : N) (who : option N) (r : outcome) : Prop :=
  let o := counted_as c p who in let b := get_prop c p in
  decided (weight o (bp_valid b)) (weight o (bp_invalid b)) (weight o (members c p)) r.
Definition loser (c : chain) (p : N) (r : outcome) (s : N) : option Z :=
  match r with
  | OValid => if decide (s ∈ bp_invalid (get_prop c p)) then Some (p_vote (ds_params (c_d c))) else None
  | OInvalid => if decide (s ∈ bp_valid (get_prop c p))
                then Some (if decide (s = bp_uploader (get_prop c p)) then p_upload (ds_params (c_d c)) else p_vote (ds_params (c_d c))) else None
  | ONone => None
  end.
Definition after (c : chain) (p : N) (who : option N) (r : outcome) (s : N) : obs :=
  match loser c p r s with Some fr => kick fr (counted_as c p who s) | None => counted_as c p who s end.
Definition after_late (c : chain) (p : N) (who : option N) (r : outcome) (bad : option N) (s : N) : obs :=
  match bad with Some n => late c n s (after c p who r s) | None => after c p who r s end.
(** One tally of the bundle stored in pool [p]. *)
Record tallied (c c' : chain) (p : N) (who bad : option N) (r : outcome) : Prop := mkTallied {
  ta_verdict : pool_power c p < two63 -> verdict c p who r;
  ta_stakers : forall s, ob c' p s = after_late c p who r bad s;
  ta_others : others_same c c' p;
  ta_fin : finalized c' p = (finalized c p + match r with OValid => 1 | _ => 0 end)%N;
  ta_time : c_time c' = c_time c;
  ta_fins : forall q, q <> p -> finalized c' q = finalized c q
}.

Section T.
Context (g : gen) (Hg : genesis g).

(** ** Weights *)
Lemma sum_cons f x l : sum_of f (x :: l) = f x + sum_of f l. Proof. done. Qed.
Lemma power_w1 c p s : (if in_pool c p s then power c s else 0) = w1 (ob c p s).
Proof. unfold w1, ob, in_pool. cbn. rewrite stake_power. by destruct (get_val _ _ _). Qed.
Lemma power_of_weight c p l : power_of c p l = weight (ob c p) l.
Proof.
  unfold power_of, here, weight. induction l as [|x l IH]; [done|]. cbn [List.filter]. rewrite sum_cons, <- power_w1.
  destruct (in_pool c p x); rewrite ?sum_cons; lia.
Qed.
Lemma weight_ext o o' l : (forall s, o s = o' s) -> weight o l = weight o' l.
Proof. intros H. unfold weight. induction l as [|x l IH]; [done|]. by rewrite !sum_cons, H, IH. Qed.
Lemma weight_super o l l' : NoDup l -> NoDup l' -> l ⊆ l' -> (forall s, s ∈ l' -> s ∉ l -> w1 (o s) = 0) -> weight o l' = weight o l.
Proof.
  intros N1 N2 Hi H0. apply NoDup_submseteq in Hi; [|done]. apply submseteq_Permutation in Hi as [k Hk].
  unfold weight. rewrite (sum_perm _ _ _ Hk), sum_app.
  assert (Hz : sum_of (fun s => w1 (o s)) k = 0); [|lia].
  assert (Hk' : forall s, s ∈ k -> w1 (o s) = 0).
  { intros s Hs. apply H0; [rewrite Hk; set_solver|]. rewrite Hk in N2. apply NoDup_app in N2 as (_ & N2 & _). intros Hl. by apply (N2 s). }
  clear -Hk'. induction k as [|x k IH]; [done|]. rewrite sum_cons, (Hk' x) by (by left). rewrite IH; [done|]. intros s Hs. apply Hk'. by right.
Qed.
Lemma pool_power_weight c1 c p : (forall s, in_pool c1 p s = true -> in_pool c p s = true) -> pool_power c1 p = weight (ob c1 p) (members c p).
Proof.
  intros H. rewrite (weight_super (ob c1 p) (members c1 p) (members c p)).
  - unfold pool_power, weight. assert (Hm : forall s, s ∈ members c1 p -> in_pool c1 p s = true) by (intros s; by apply members_in).
    induction (members c1 p) as [|x l IH]; [done|]. rewrite !sum_cons, <- power_w1, Hm by (by left). rewrite IH; [done|]. intros s Hs. apply Hm. by right.
  - apply members_NoDup.
  - apply members_NoDup.
  - intros s Hs. apply members_in, H. by apply members_in.
  - intros s _ Hs. rewrite <- power_w1. destruct (in_pool c1 p s) eqn:E; [|done]. destruct Hs. by apply members_in.
Qed.
Lemma w1_nn c p s : G g c -> 0 <= w1 (ob c p s).
Proof. intros HG. rewrite <- power_w1. destruct (in_pool c p s); [by apply (G_power g Hg)|done]. Qed.
Lemma w1_present c p who s : w1 (present c p who s) = w1 (ob c p s).
Proof.
  unfold present. destruct who as [m|]; [|done]. unfold took. destruct (decide (s = m)); [|done].
  unfold w1, ob. cbn. by destruct (get_val _ _ _).
Qed.
Lemma w1_miss c o : 0 <= w1 o -> w1 (one_miss c o) <= w1 o.
Proof.
  unfold one_miss, miss. destruct (fst o) as [v|] eqn:E; [|done]. destruct (_ <=? _); unfold w1; cbn; rewrite ?E; lia.
Qed.
Lemma w1_counted c p who s : G g c -> w1 (counted_as c p who s) <= w1 (ob c p s).
Proof.
  intros HG. unfold counted_as, lose. rewrite <- (w1_present c p who). destruct (decide _); [|done]. apply w1_miss.
  rewrite w1_present. by apply w1_nn.
Qed.
Lemma in_counted c c1 p who : (forall s, ob c1 p s = counted_as c p who s) -> forall s, in_pool c1 p s = true -> in_pool c p s = true.
Proof.
  intros H s. rewrite !in_pool_ob, H. unfold counted_as, lose, silent. rewrite in_pool_ob.
  assert (Hp : fst (present c p who s) = None -> fst (ob c p s) = None).
  { unfold present. destruct who as [m|]; [|done]. unfold took. destruct (decide _); [|done]. cbn. by destruct (get_val _ _ _). }
  assert (Hq : fst (ob c p s) = None -> fst (present c p who s) = None).
  { unfold present. destruct who as [m|]; [|done]. unfold took. destruct (decide _); [|done]. cbn. by destruct (get_val _ _ _). }
  destruct (fst (ob c p s)); [done|]. rewrite decide_False by (by intros []). rewrite Hq by done. done.
Qed.

(** ** The outcome *)
Definition oc (v : votes) : outcome := match v_status v with VValid => OValid | VInvalid => OInvalid | _ => ONone end.
Lemma judged_verdict c p who v : G g c -> judged g c p (present c p who) v -> pool_power c p < two63 -> verdict c p who (oc v).
Proof.
  intros HG (c1 & (HG1 & HA1 & Hp & [b1 Hb1] & Ho) & ->) HT.
  assert (Eb : get_prop c p = b1) by (rewrite <- Hp; unfold get_prop; by rewrite Hb1).
  change (forall s, ob c1 p s = counted_as c p who s) in Ho.
  pose proof (in_counted c c1 p who Ho) as Hin. pose proof (pool_power_weight c1 c p Hin) as HW.
  assert (HT1 : pool_power c1 p < two63).
  { rewrite HW. rewrite (weight_ext _ _ _ Ho). rewrite (pool_power_weight c c p) in HT by done.
    assert (weight (counted_as c p who) (members c p) <= weight (ob c p) (members c p)); [|lia].
    clear -HG Hg. unfold weight. induction (members c p) as [|x l IH]; [done|]. rewrite !sum_cons. cbv beta. pose proof (w1_counted c p who x HG). lia. }
  pose proof (majority c1 p b1 HA1 (fun x => G_power g Hg c1 x HG1) Hb1 HT1) as (M1 & M2 & M3). cbv zeta in M1, M2, M3.
  assert (HL : forall l, power_of c1 p l = weight (counted_as c p who) l) by (intros l; rewrite power_of_weight; by apply weight_ext).
  rewrite HW, (weight_ext _ _ _ Ho) in M1, M2, M3. rewrite HL in M1, M2. rewrite !HL in M3.
  unfold verdict. cbv zeta. rewrite Eb. unfold oc.
  destruct (v_status (distribution c1 p)) eqn:Ev; cbn [decided]; [|tauto..].
  rewrite (dist_some c1 p b1 Hb1) in Ev. cbn [v_status] in Ev. unfold quorum in Ev. by repeat destruct (_ =? _) in Ev; repeat destruct (_ <? _) in Ev; repeat destruct (_ <=? _) in Ev.
Qed.

(** ** The three occasions *)
Lemma finalized_post c c' p o b fin : post c c' p o b fin -> finalized c' p = (finalized c p + match fin with Some _ => 1 | None => 0 end)%N.
Proof.
  intros H. pose proof (po_fin _ _ _ _ _ _ H) as Hf. unfold finalized. destruct fin as [v|].
  - destruct Hf as (pl & fb & E1 & _ & _ & _ & _ & E2 & _). by rewrite E1, E2.
  - destruct Hf as (_ & Hf). unfold get_pool. rewrite Hf. lia.
Qed.
Lemma finalized_others c c' p o b fin : post c c' p o b fin -> forall q, q <> p -> finalized c' q = finalized c q.
Proof.
  intros H q Hq. pose proof (po_fin _ _ _ _ _ _ H) as Hf. unfold finalized. destruct fin as [v|].
  - destruct Hf as (pl & fb & _ & _ & _ & _ & _ & _ & Hf). by rewrite Hf.
  - destruct Hf as (_ & Hf). unfold get_pool. by rewrite Hf.
Qed.
Lemma tallied_post c c' p who bad v o b' : G g c -> judged g c p (present c p who) v ->
  post c c' p o b' (match oc v with OValid => Some v | _ => None end) -> (forall s, o s = after_late c p who (oc v) bad s) ->
  tallied c c' p who bad (oc v).
Proof.
  intros HG HJ HP Ho. split.
  - by apply judged_verdict.
  - intros s. rewrite (po_ob _ _ _ _ _ _ HP). apply Ho.
  - apply (po_others _ _ _ _ _ _ HP).
  - rewrite (finalized_post _ _ _ _ _ _ HP). by destruct (oc v).
  - apply (po_time _ _ _ _ _ _ HP).
  - by eapply finalized_others.
Qed.
Lemma after_valid c p who s : after c p who OValid s = when_valid c p s (lose c p s (present c p who s)).
Proof. unfold after, loser, when_valid, counted_as. by destruct (decide _). Qed.
Lemma after_invalid c p who s : after c p who OInvalid s = when_invalid c p s (lose c p s (present c p who s)).
Proof. unfold after, loser, when_invalid, counted_as. by destruct (decide (s ∈ _)). Qed.
(** Submissions while a bundle is stored. *)
Lemma submit_tallied c m c' : G g c -> AInv c -> cmsg c (CSubmit m) = Some c' -> let p := sb_pool m in bp_storage (get_prop c p) <> 0%N ->
  exists r, r <> ONone /\ tallied c c' p (Some (sb_staker m)) None r /\
  match r with
  | OValid => exists n, new_prop c m n (get_prop c' p) /\ fit (ob c' p) n
  | _ => get_prop c' p = bp_none (bp_next (get_prop c p)) (c_time c)
  end.
Proof.
  intros HG HA E p Hs. pose proof (submit_cases g Hg c m c' HG HA E) as H. cbv zeta in H. fold p in H.
  destruct H as [[H _]|[(_ & n & b' & v & Hn & HJ & Hv & Hf & HP)|(_ & v & HJ & Hv & HP)]]; [done| |].
  - exists OValid. split; [done|]. assert (Eo : oc v = OValid) by (unfold oc; by rewrite Hv). split.
    + rewrite <- Eo. eapply tallied_post; [done|done|by rewrite Eo|]. intros s. rewrite Eo. cbn [after_late]. by rewrite after_valid.
    + exists n. rewrite (po_prop _ _ _ _ _ _ HP). split; [done|]. eapply fit_ext; [|exact Hf]. intros s. by rewrite (po_ob _ _ _ _ _ _ HP).
  - exists OInvalid. split; [done|]. assert (Eo : oc v = OInvalid) by (unfold oc; by rewrite Hv). split.
    + rewrite <- Eo. eapply tallied_post; [done|done|by rewrite Eo|]. intros s. rewrite Eo. cbn [after_late]. by rewrite after_invalid.
    + apply (po_prop _ _ _ _ _ _ HP).
Qed.
(** Skipping; without a quorum the bundle stays. *)
Lemma skip_tallied c p s v from c' : G g c -> AInv c -> cmsg c (CSkip p s v from) = Some c' ->
  exists r n, tallied c c' p (Some s) None r /\ fit (ob c' p) n /\
  get_prop c' p = match r with ONone => with_next (get_prop c p) n (c_time c) | _ => bp_none n (c_time c) end.
Proof.
  intros HG HA E. pose proof (skip_cases g Hg c p s v from c' HG HA (skip_prop _ _ _ _ _ _ _ HG E) E) as H. cbv zeta in H.
  destruct H as [(n & v' & HJ & Hv & Hf & HP)|[(n & v' & HJ & Hv & Hf & HP)|(n & v' & HJ & Hv1 & Hv2 & Hf & HP)]];
    exists (oc v'), n; (split; [|split; [eapply fit_ext; [|exact Hf]; intros x; by rewrite (po_ob _ _ _ _ _ _ HP)|]]).
  - eapply tallied_post; [done|done|unfold oc; rewrite Hv; exact HP|]. intros x. unfold oc. rewrite Hv. cbn [after_late]. by rewrite after_valid.
  - unfold oc. rewrite Hv. apply (po_prop _ _ _ _ _ _ HP).
  - eapply tallied_post; [done|done|unfold oc; rewrite Hv; exact HP|]. intros x. unfold oc. rewrite Hv. cbn [after_late]. by rewrite after_invalid.
  - unfold oc. rewrite Hv. apply (po_prop _ _ _ _ _ _ HP).
  - assert (Eo : oc v' = ONone) by (unfold oc; by destruct (v_status v')).
    eapply tallied_post; [done|done|rewrite Eo; exact HP|]. intros x. rewrite Eo. done.
  - assert (Eo : oc v' = ONone) by (unfold oc; by destruct (v_status v')). rewrite Eo. apply (po_prop _ _ _ _ _ _ HP).
Qed.
(** The uploader let the deadline pass while a bundle is stored: the next one is chosen before the late
    uploader gets the point. *)
Lemma timeout_tallied c p i c' : G g c -> AInv c -> is_Some (get_pool c p) -> timeout_pool c p i = Some c' -> can_run c p = true -> overdue c p i ->
  bp_storage (get_prop c p) <> 0%N -> v_status (distribution c p) <> VNoQuorum ->
  exists r n, tallied c c' p None (Some (bp_next (get_prop c p))) r /\ fit (after c p None r) n /\ get_prop c' p = bp_none n (c_time c).
Proof.
  intros HG HA Hpl E Hr Hov Hs Hq. pose proof (timeout_cases g Hg c p i c' HG HA E) as H. cbv zeta in H.
  destruct H as [(H & _)|[(_ & _ & H)|[(_ & _ & H & _)|[(_ & _ & H & _)|[(_ & _ & _ & _ & n & v & HJ & H)|(c1 & Ht & ->)]]]]]; try done; try congruence.
  - exfalso. destruct Hov as [H1 H2]. destruct H as [H|[H _]]; [lia|by apply H].
  - exists (oc v), n. destruct H as [(Hv & Hf & HP)|[(Hv & Hf & HP)|(Hv1 & Hv2 & Hf & HP)]].
    + assert (Eo : oc v = OValid) by (unfold oc; by rewrite Hv). split; [|split].
      * eapply tallied_post; [done|done|rewrite Eo; exact HP|]. intros x. rewrite Eo. cbn [after_late]. by rewrite after_valid.
      * rewrite Eo. eapply fit_ext; [|exact Hf]. intros x. cbn. by rewrite after_valid.
      * apply (po_prop _ _ _ _ _ _ HP).
    + assert (Eo : oc v = OInvalid) by (unfold oc; by rewrite Hv). split; [|split].
      * eapply tallied_post; [done|done|rewrite Eo; exact HP|]. intros x. rewrite Eo. cbn [after_late]. by rewrite after_invalid.
      * rewrite Eo. eapply fit_ext; [|exact Hf]. intros x. cbn. by rewrite after_invalid.
      * apply (po_prop _ _ _ _ _ _ HP).
    + assert (Eo : oc v = ONone) by (unfold oc; by destruct (v_status v)). split; [|split].
      * eapply tallied_post; [done|done|rewrite Eo; exact HP|]. intros x. by rewrite Eo.
      * rewrite Eo. exact Hf.
      * apply (po_prop _ _ _ _ _ _ HP).
  - by destruct (tally_safe g Hg c p HG HA Hpl c1).
Qed.
End T.
