(** * Stakers: the two queues. *)
From Verif Require Import Base BaseFacts Stakers StakersInv.

(** ** The loop of processQueue *)
Lemma queue_loop_spec (f : sstate -> N -> option sstate) (high : N) (P : sstate -> N -> Prop) :
  (forall st low st1, (low < high)%N -> P st low -> f st (low + 1)%N = Some st1 -> P st1 (low + 1)%N) ->
  (forall st st1, P st high -> f st (high + 1)%N = Some st1 -> st1 = st) ->
  forall fuel st low, (low <= high)%N -> (N.to_nat (high - low) < fuel)%nat -> P st low ->
  let r := queue_loop f high fuel st low in
  P (fst r) (snd r) /\ (low <= snd r <= high)%N /\ (snd r = high \/ f (fst r) (snd r + 1)%N = None).
Proof.
  intros Hstep Hend fuel. induction fuel as [|fuel IH]; intros st low Hle Hf HP; [lia|]. cbv zeta.
  simpl. destruct (f st (low + 1)%N) as [st1|] eqn:E.
  - destruct (low <? high)%N eqn:El.
    + assert (low < high)%N by lia. specialize (IH st1 (low + 1)%N). cbv zeta in IH.
      destruct IH as (I1 & I2 & I3); [lia|lia|by eapply Hstep|]. split; [done|]. split; [lia|done].
    + assert (low = high) by lia. subst. simpl. rewrite (Hend _ _ HP E). split; [done|]. split; [lia|by left].
  - simpl. split; [done|]. split; [lia|by right].
Qed.

(** ** Times for which the int64 sums of the code do not wrap *)
Definition small_time (x : Z) : Prop := 0 <= x < 2 ^ 62.
Lemma due_small d c : small_time d -> small_time c -> wrap_i64 (d + i64 c) = d + c.
Proof.
  unfold small_time. intros Hd Hc. unfold i64, wrap_i64, two63, two64 in *.
  change (2 ^ 62) with 4611686018427387904 in *.
  destruct (c <? 9223372036854775808) eqn:E; [|lia]. rewrite Z.mod_small; lia.
Qed.

(** ** The commission queue *)
Record CQ (st : sstate) : Prop := mkCQ {
  cq_entry : forall i e, ss_centries st !! i = Some e -> (ss_clow st < i <= ss_chigh st)%N /\
    ss_cindex st !! ce_staker e = Some i /\ ce_date e <= ss_time st /\ small_time (ce_date e) /\ 0 <= ce_commission e <= ONE /\
    is_Some (ss_stakers st !! ce_staker e);
  cq_index : forall s i, ss_cindex st !! s = Some i -> exists e, ss_centries st !! i = Some e /\ ce_staker e = s;
  cq_mono : forall i j ei ej, ss_centries st !! i = Some ei -> ss_centries st !! j = Some ej -> (i < j)%N -> ce_date ei <= ce_date ej;
  cq_low : (ss_clow st <= ss_chigh st)%N;
  cq_stakers : forall s x, ss_stakers st !! s = Some x -> 0 <= st_commission x <= ONE
}.

Definition cdue (st : sstate) (d : Z) : bool := d + ss_ctime st <=? ss_time st.
(** The pending change of a staker. *)
Definition cpending (st : sstate) (s : N) : option (Z * Z) :=
  i ← ss_cindex st !! s; e ← ss_centries st !! i; Some (ce_commission e, ce_date e).

Record CLoop (st0 st : sstate) (low : N) : Prop := mkCL {
  cl_frame : exists E I S, st = with_stakers (with_cq st0 E I (ss_clow st0) (ss_chigh st0)) S;
  cl_entries : forall i, ss_centries st !! i = if (i <=? low)%N then None else ss_centries st0 !! i;
  cl_index : forall s, ss_cindex st !! s = match ss_cindex st0 !! s with Some i => if (i <=? low)%N then None else Some i | None => None end;
  cl_stakers : forall s, ss_stakers st !! s =
    match ss_stakers st0 !! s with
    | None => None
    | Some x => match ss_cindex st0 !! s with
                | Some i => if (i <=? low)%N then match ss_centries st0 !! i with Some e => Some (mkSt (ce_commission e) (st_rewards x)) | None => Some x end
                            else Some x
                | None => Some x end end;
  cl_due : forall i e, ss_centries st0 !! i = Some e -> (i <= low)%N -> cdue st0 (ce_date e) = true
}.

Lemma cloop_init st : CQ st -> CLoop st st (ss_clow st).
Proof.
  intros HC. constructor.
  - exists (ss_centries st), (ss_cindex st), (ss_stakers st). by destruct st.
  - intros i. destruct (i <=? ss_clow st)%N eqn:E; [|done]. destruct (ss_centries st !! i) eqn:G; [|done].
    destruct (cq_entry st HC _ _ G) as (? & _). lia.
  - intros s. destruct (ss_cindex st !! s) as [i|] eqn:G; [|done]. destruct (cq_index st HC _ _ G) as (e & He & <-).
    destruct (cq_entry st HC _ _ He) as (? & _). destruct (i <=? ss_clow st)%N eqn:E; [lia|done].
  - intros s. destruct (ss_stakers st !! s) as [x|]; [|done]. destruct (ss_cindex st !! s) as [i|] eqn:G; [|done].
    destruct (cq_index st HC _ _ G) as (e & He & <-).
    destruct (cq_entry st HC _ _ He) as (? & _). destruct (i <=? ss_clow st)%N eqn:E; [lia|done].
  - intros i e He Hi. destruct (cq_entry st HC _ _ He) as (? & _). lia.
Qed.

Lemma cloop_step st0 st low st1 : CQ st0 -> small_time (ss_ctime st0) -> CLoop st0 st low ->
  process_centry st (low + 1)%N = Some st1 -> CLoop st0 st1 (low + 1)%N.
Proof.
  intros HC Ht [(E & I & S & Hfr) H1 H2 H3 H4] Hp. unfold process_centry in Hp. rewrite H1 in Hp.
  destruct (low + 1 <=? low)%N eqn:El; [lia|]. clear El.
  destruct (ss_centries st0 !! (low + 1)%N) as [e|] eqn:Ee.
  - destruct (cq_entry st0 HC _ _ Ee) as (Hi & Hix & Hd & Hds & Hcc & [x Hx]).
    assert (Hct : ss_ctime st = ss_ctime st0 /\ ss_time st = ss_time st0 /\ ss_clow st = ss_clow st0 /\ ss_chigh st = ss_chigh st0) by (subst st; done).
    destruct Hct as (Hct & Htt & Hlo & Hhi). rewrite Hct, Htt in Hp.
    rewrite due_small in Hp by done.
    destruct (ce_date e + ss_ctime st0 <=? ss_time st0) eqn:Edue; [|done].
    change (ss_stakers (remove_centry st (low + 1)%N e)) with (ss_stakers st) in Hp.
    rewrite H3, Hx, Hix in Hp. destruct (low + 1 <=? low)%N eqn:El; [lia|]. clear El. injection Hp as <-.
    assert (Hother : forall s i, s <> ce_staker e -> ss_cindex st0 !! s = Some i -> i <> (low + 1)%N).
    { intros s i Hs Hsi ->. destruct (cq_index st0 HC _ _ Hsi) as (e' & He' & <-). congruence. }
    constructor; simpl.
    + eexists _, _, _. rewrite Hfr. reflexivity.
    + intros i. destruct (decide (i = (low + 1)%N)) as [->|Hne].
      * rewrite lookup_delete. destruct (low + 1 <=? low + 1)%N eqn:El; [done|lia].
      * rewrite lookup_delete_ne by done. rewrite H1. destruct (i <=? low)%N eqn:E1, (i <=? low + 1)%N eqn:E2; try done; lia.
    + intros s. destruct (decide (s = ce_staker e)) as [->|Hne].
      * rewrite lookup_delete, Hix. destruct (low + 1 <=? low + 1)%N eqn:El; [done|lia].
      * rewrite lookup_delete_ne by done. rewrite H2. destruct (ss_cindex st0 !! s) as [i|] eqn:Es; [|done].
        pose proof (Hother s i Hne Es). destruct (i <=? low)%N eqn:E1, (i <=? low + 1)%N eqn:E2; try done; lia.
    + intros s. destruct (decide (s = ce_staker e)) as [->|Hne].
      * rewrite lookup_insert, Hx, Hix, Ee. destruct (low + 1 <=? low + 1)%N eqn:El; [done|lia].
      * rewrite lookup_insert_ne by done. rewrite H3. destruct (ss_stakers st0 !! s) as [y|]; [|done].
        destruct (ss_cindex st0 !! s) as [i|] eqn:Es; [|done].
        pose proof (Hother s i Hne Es). destruct (i <=? low)%N eqn:E1, (i <=? low + 1)%N eqn:E2; try done; lia.
    + intros i e' He' Hi'. destruct (decide (i = (low + 1)%N)) as [->|Hne]; [|apply (H4 i); [done|lia]].
      simplify_eq. exact Edue.
  - injection Hp as <-. assert (Hnone : forall s i, ss_cindex st0 !! s = Some i -> i <> (low + 1)%N).
    { intros s i Hsi ->. destruct (cq_index st0 HC _ _ Hsi) as (e' & He' & <-). congruence. }
    constructor.
    + eexists _, _, _. exact Hfr.
    + intros i. rewrite H1. destruct (decide (i = (low + 1)%N)) as [->|Hne].
      * rewrite Ee. by destruct (_ <=? _)%N, (_ <=? _)%N.
      * destruct (i <=? low)%N eqn:E1, (i <=? low + 1)%N eqn:E2; try done; lia.
    + intros s. rewrite H2. destruct (ss_cindex st0 !! s) as [i|] eqn:Es; [|done].
      pose proof (Hnone s i Es). destruct (i <=? low)%N eqn:E1, (i <=? low + 1)%N eqn:E2; try done; lia.
    + intros s. rewrite H3. destruct (ss_stakers st0 !! s) as [y|]; [|done]. destruct (ss_cindex st0 !! s) as [i|] eqn:Es; [|done].
      pose proof (Hnone s i Es). destruct (i <=? low)%N eqn:E1, (i <=? low + 1)%N eqn:E2; try done; lia.
    + intros i e' He' Hi'. destruct (decide (i = (low + 1)%N)) as [->|Hne]; [congruence|apply (H4 i); [done|lia]].
Qed.

(** The effect of processCommissionQueue. *)
Lemma process_commissions_spec st : CQ st -> small_time (ss_ctime st) ->
  let st' := process_commissions st in
  CQ st' /\
  (exists E I L S, st' = with_stakers (with_cq st E I L (ss_chigh st)) S) /\
  (forall s, cpending st' s = match cpending st s with Some (c, d) => if cdue st d then None else Some (c, d) | None => None end) /\
  (forall s, ss_stakers st' !! s =
     match ss_stakers st !! s with
     | None => None
     | Some x => Some (match cpending st s with Some (c, d) => if cdue st d then mkSt c (st_rewards x) else x | None => x end) end).
Proof.
  intros HC Ht. cbv zeta. unfold process_commissions.
  pose proof (queue_loop_spec process_centry (ss_chigh st) (CLoop st)) as HL.
  specialize (HL ltac:(intros s0 low s1 _ H1 H2; by eapply cloop_step)).
  assert (Hend : forall s0 s1, CLoop st s0 (ss_chigh st) -> process_centry s0 (ss_chigh st + 1)%N = Some s1 -> s1 = s0).
  { intros s0 s1 H0 H1. unfold process_centry in H1. rewrite (cl_entries _ _ _ H0) in H1.
    destruct (ss_chigh st + 1 <=? ss_chigh st)%N; [by simplify_eq|].
    destruct (ss_centries st !! (ss_chigh st + 1)%N) as [e|] eqn:E; [|by simplify_eq].
    destruct (cq_entry st HC _ _ E) as (? & _). lia. }
  specialize (HL Hend (S (N.to_nat (ss_chigh st - ss_clow st))) st (ss_clow st) (cq_low st HC) ltac:(lia) (cloop_init st HC)).
  cbv zeta in HL. destruct (queue_loop _ _ _ _ _) as [st1 low] eqn:Eq. cbn [fst snd] in HL.
  destruct HL as ([(E & I & S & Hfr) H1 H2 H3 H4] & Hlow & Hstop).
  (* entries above [low] are not due *)
  assert (Hnd : forall i e, ss_centries st !! i = Some e -> (low < i)%N -> cdue st (ce_date e) = false).
  { intros i e He Hi. destruct Hstop as [->|Hstop].
    - destruct (cq_entry st HC _ _ He) as (? & _). lia.
    - unfold process_centry in Hstop. rewrite H1 in Hstop. destruct (low + 1 <=? low)%N eqn:El; [lia|].
      destruct (ss_centries st !! (low + 1)%N) as [e1|] eqn:E1; [|done].
      assert (Hct : ss_ctime st1 = ss_ctime st /\ ss_time st1 = ss_time st) by (subst st1; done). destruct Hct as [Hc1 Hc2].
      destruct (cq_entry st HC _ _ E1) as (_ & _ & _ & Hsm & _). rewrite Hc1, Hc2, due_small in Hstop by done.
      destruct (ce_date e1 + ss_ctime st <=? ss_time st) eqn:Ed; [done|].
      assert (ce_date e1 <= ce_date e).
      { destruct (decide (i = (low + 1)%N)) as [->|]; [simplify_eq; lia|]. eapply (cq_mono st HC (low + 1)%N i); [done|done|lia]. }
      unfold cdue. lia. }
  assert (Hdue : forall i e, ss_centries st !! i = Some e -> cdue st (ce_date e) = (i <=? low)%N).
  { intros i e He. destruct (i <=? low)%N eqn:El; [apply (H4 i e He); lia|apply (Hnd i e He); lia]. }
  assert (Hpend : forall s, cpending (with_cq st1 (ss_centries st1) (ss_cindex st1) low (ss_chigh st1)) s =
            match cpending st s with Some (c, d) => if cdue st d then None else Some (c, d) | None => None end).
  { intros s. unfold cpending. simpl. rewrite H2. destruct (ss_cindex st !! s) as [i|] eqn:Es; [|done]. simpl.
    destruct (cq_index st HC _ _ Es) as (e & He & _). rewrite He. simpl. rewrite (Hdue i e He).
    destruct (i <=? low)%N eqn:El; [done|]. simpl. rewrite H1, El, He. done. }
  assert (Hst : forall s, ss_stakers st1 !! s =
     match ss_stakers st !! s with
     | None => None
     | Some x => Some (match cpending st s with Some (c, d) => if cdue st d then mkSt c (st_rewards x) else x | None => x end) end).
  { intros s. rewrite H3. destruct (ss_stakers st !! s) as [x|]; [|done]. unfold cpending.
    destruct (ss_cindex st !! s) as [i|] eqn:Es; [|done]. simpl. destruct (cq_index st HC _ _ Es) as (e & He & _). rewrite He. simpl.
    rewrite (Hdue i e He). by destruct (i <=? low)%N. }
  split; [|split; [|split; [exact Hpend|exact Hst]]].
  - constructor; simpl.
    + intros i e. rewrite H1. destruct (i <=? low)%N eqn:El; [done|]. intros He.
      destruct (cq_entry st HC _ _ He) as (Hi & Hix & Hd & Hds & Hcc & [x Hx]).
      assert (Hct : ss_time st1 = ss_time st /\ ss_chigh st1 = ss_chigh st) by (subst st1; done). destruct Hct as [-> ->].
      split; [lia|]. split; [rewrite H2, Hix, El; done|]. split; [done|]. split; [done|]. split; [done|].
      rewrite Hst, Hx. eauto.
    + intros s i. rewrite H2. destruct (ss_cindex st !! s) as [j|] eqn:Es; [|done]. destruct (j <=? low)%N eqn:El; [done|].
      intros; simplify_eq. destruct (cq_index st HC _ _ Es) as (e & He & <-). exists e. rewrite H1, El. done.
    + intros i j ei ej. rewrite !H1. destruct (i <=? low)%N; [done|]. destruct (j <=? low)%N; [done|]. apply (cq_mono st HC).
    + assert (ss_chigh st1 = ss_chigh st) as -> by (subst st1; done). lia.
    + intros s x. rewrite Hst. destruct (ss_stakers st !! s) as [y|] eqn:Ey; [|done]. intros; simplify_eq.
      pose proof (cq_stakers st HC _ _ Ey) as Hr. unfold cpending.
      destruct (ss_cindex st !! s) as [i|] eqn:Es; [|done]. simpl. destruct (cq_index st HC _ _ Es) as (e & He & _). rewrite He. simpl.
      destruct (cdue st (ce_date e)); [|done]. simpl. by destruct (cq_entry st HC _ _ He) as (_ & _ & _ & _ & Hcc & _).
  - exists E, I, low, S. subst st1. done.
Qed.

(** ** The leave queue *)
Record LQ (st : sstate) : Prop := mkLQ {
  lq_entry : forall i e, ss_lentries st !! i = Some e -> (ss_llow st < i <= ss_lhigh st)%N /\
    (le_staker e, le_pool e) ∈ ss_lindex st /\ le_date e <= ss_time st /\ small_time (le_date e);
  lq_index : forall s p, (s, p) ∈ ss_lindex st -> exists i e, ss_lentries st !! i = Some e /\ le_staker e = s /\ le_pool e = p;
  lq_uniq : forall i j ei ej, ss_lentries st !! i = Some ei -> ss_lentries st !! j = Some ej ->
    le_staker ei = le_staker ej -> le_pool ei = le_pool ej -> i = j;
  lq_mono : forall i j ei ej, ss_lentries st !! i = Some ei -> ss_lentries st !! j = Some ej -> (i < j)%N -> le_date ei <= le_date ej;
  lq_low : (ss_llow st <= ss_lhigh st)%N
}.
(** A leave request of [s] for [p] is queued since [d]. *)
Definition lqueued (st : sstate) (s p : N) (d : Z) : Prop :=
  exists i e, ss_lentries st !! i = Some e /\ le_staker e = s /\ le_pool e = p /\ le_date e = d.
Definition ldue (st : sstate) (d : Z) : bool := d + ss_ltime st <=? ss_time st.

Record LLoop (st0 st : sstate) (low : N) : Prop := mkLL {
  ll_frame : exists V C A E I, st = with_lq (with_counts (with_val st0 V) C A) E I (ss_llow st0) (ss_lhigh st0);
  ll_mi : MI st;
  ll_entries : forall i, ss_lentries st !! i = if (i <=? low)%N then None else ss_lentries st0 !! i;
  ll_index : forall s p, (s, p) ∈ ss_lindex st <-> exists i e, ss_lentries st !! i = Some e /\ le_staker e = s /\ le_pool e = p;
  ll_val : forall p s v, get_val st p s = Some v <->
    (get_val st0 p s = Some v /\ forall i e, ss_lentries st0 !! i = Some e -> (i <= low)%N -> le_staker e = s -> le_pool e = p -> False);
  ll_due : forall i e, ss_lentries st0 !! i = Some e -> (i <= low)%N -> ldue st0 (le_date e) = true
}.
Lemma lloop_init st : MI st -> LQ st -> LLoop st st (ss_llow st).
Proof.
  intros HM HC. constructor.
  - exists (ss_val st), (ss_count st), (ss_active st), (ss_lentries st), (ss_lindex st). by destruct st.
  - done.
  - intros i. destruct (i <=? ss_llow st)%N eqn:E; [|done]. destruct (ss_lentries st !! i) eqn:G; [|done].
    destruct (lq_entry st HC _ _ G) as (? & _). lia.
  - intros s p. split; [apply (lq_index st HC)|]. intros (i & e & He & <- & <-). by destruct (lq_entry st HC _ _ He) as (_ & ? & _).
  - intros p s v. split; [|tauto]. intros H. split; [done|]. intros i e He Hi. destruct (lq_entry st HC _ _ He) as (? & _). lia.
  - intros i e He Hi. destruct (lq_entry st HC _ _ He) as (? & _). lia.
Qed.
Lemma lloop_step st0 st low st1 : LQ st0 -> small_time (ss_ltime st0) -> LLoop st0 st low ->
  process_lentry st (low + 1)%N = Some st1 -> LLoop st0 st1 (low + 1)%N.
Proof.
  intros HC Ht [(V & C & A & E & I & Hfr) HM H1 H2 H3 H4] Hp. unfold process_lentry in Hp. rewrite H1 in Hp.
  destruct (low + 1 <=? low)%N eqn:El; [lia|]. clear El.
  destruct (ss_lentries st0 !! (low + 1)%N) as [e|] eqn:Ee.
  - destruct (lq_entry st0 HC _ _ Ee) as (Hi & Hix & Hd & Hds).
    assert (Hct : ss_ltime st = ss_ltime st0 /\ ss_time st = ss_time st0 /\ ss_llow st = ss_llow st0 /\ ss_lhigh st = ss_lhigh st0) by (subst st; done).
    destruct Hct as (Hct & Htt & Hlo & Hhi). rewrite Hct, Htt in Hp.
    rewrite due_small in Hp by done.
    destruct (le_date e + ss_ltime st0 <=? ss_time st0) eqn:Edue; [|done].
    set (st2 := with_lq st _ _ _ _) in Hp.
    assert (HM2 : MI st2) by (eapply MI_ext; [exact HM|done..]).
    pose proof (leave_frame st2 (le_staker e) (le_pool e)) as (F1 & F2 & F3 & F4 & F5 & F6 & F7 & F8 & F9 & F10 & F11 & F12 & F13).
    injection Hp as <-. constructor.
    + unfold leave_pool. destruct (get_val st2 (le_pool e) (le_staker e)).
      * eexists _, _, _, _, _. subst st2. rewrite Hfr. reflexivity.
      * eexists _, _, _, _, _. subst st2. rewrite Hfr. reflexivity.
    + by apply MI_leave.
    + intros i. rewrite F6. subst st2. simpl. destruct (decide (i = (low + 1)%N)) as [->|Hne].
      * rewrite lookup_delete. destruct (low + 1 <=? low + 1)%N eqn:El; [done|lia].
      * rewrite lookup_delete_ne by done. rewrite H1. destruct (i <=? low)%N eqn:E1, (i <=? low + 1)%N eqn:E2; try done; lia.
    + intros s p. rewrite F7, F6. subst st2. simpl. rewrite elem_of_difference, elem_of_singleton, H2. split.
      * intros ((i & e' & He' & <- & <-) & Hne). exists i, e'. split; [|done]. rewrite lookup_delete_ne; [done|].
        intros <-. rewrite H1 in He'. destruct (low + 1 <=? low)%N; [done|]. simplify_eq.
      * intros (i & e' & He' & <- & <-). apply lookup_delete_Some in He' as [Hne He']. split; [by eauto|].
        intros Heq. simplify_eq. rewrite H1 in He'. destruct (i <=? low)%N; [done|]. apply Hne. symmetry. by eapply (lq_uniq st0 HC).
    + intros p s v. rewrite get_leave. change (get_val st2 p s) with (get_val st p s).
      destruct (decide (le_pool e = p /\ le_staker e = s)) as [[<- <-]|Hne].
      * split; [done|]. intros [_ Hno]. exfalso. by eapply (Hno (low + 1)%N e).
      * rewrite H3. split.
        -- intros [Hv Hno]. split; [done|]. intros i e' He' Hi' <- <-. destruct (decide (i = (low + 1)%N)) as [->|].
           { simplify_eq. by apply Hne. }
           eapply (Hno i e'); [done|lia|done|done].
        -- intros [Hv Hno]. split; [done|]. intros i e' He' Hi' Hs Hq. eapply (Hno i e'); [done|lia|done|done].
    + intros i e' He' Hi'. destruct (decide (i = (low + 1)%N)) as [->|Hne]; [|apply (H4 i); [done|lia]].
      simplify_eq. exact Edue.
  - injection Hp as <-. constructor.
    + eexists _, _, _, _, _. exact Hfr.
    + done.
    + intros i. rewrite H1. destruct (decide (i = (low + 1)%N)) as [->|Hne].
      * rewrite Ee. by destruct (_ <=? _)%N, (_ <=? _)%N.
      * destruct (i <=? low)%N eqn:E1, (i <=? low + 1)%N eqn:E2; try done; lia.
    + exact H2.
    + intros p s v. rewrite H3. split.
      * intros [Hv Hno]. split; [done|]. intros i e' He' Hi' Hs Hq. destruct (decide (i = (low + 1)%N)) as [->|]; [congruence|].
        eapply (Hno i e'); [done|lia|done|done].
      * intros [Hv Hno]. split; [done|]. intros i e' He' Hi' Hs Hq. eapply (Hno i e'); [done|lia|done|done].
    + intros i e' He' Hi'. destruct (decide (i = (low + 1)%N)) as [->|Hne]; [congruence|apply (H4 i); [done|lia]].
Qed.

Lemma process_leaves_spec st : MI st -> LQ st -> small_time (ss_ltime st) ->
  let st' := process_leaves st in
  MI st' /\ LQ st' /\
  (exists V C A E I L, st' = with_lq (with_counts (with_val st V) C A) E I L (ss_lhigh st)) /\
  (forall s p d, lqueued st' s p d <-> lqueued st s p d /\ ldue st d = false) /\
  (forall p s v, get_val st' p s = Some v <-> get_val st p s = Some v /\ forall d, lqueued st s p d -> ldue st d = false).
Proof.
  intros HM HC Ht. cbv zeta. unfold process_leaves.
  pose proof (queue_loop_spec process_lentry (ss_lhigh st) (LLoop st)) as HL.
  specialize (HL ltac:(intros s0 low s1 _ H1 H2; by eapply lloop_step)).
  assert (Hend : forall s0 s1, LLoop st s0 (ss_lhigh st) -> process_lentry s0 (ss_lhigh st + 1)%N = Some s1 -> s1 = s0).
  { intros s0 s1 H0 H1. unfold process_lentry in H1. rewrite (ll_entries _ _ _ H0) in H1.
    destruct (ss_lhigh st + 1 <=? ss_lhigh st)%N; [by simplify_eq|].
    destruct (ss_lentries st !! (ss_lhigh st + 1)%N) as [e|] eqn:E; [|by simplify_eq].
    destruct (lq_entry st HC _ _ E) as (? & _). lia. }
  specialize (HL Hend (S (N.to_nat (ss_lhigh st - ss_llow st))) st (ss_llow st) (lq_low st HC) ltac:(lia) (lloop_init st HM HC)).
  cbv zeta in HL. destruct (queue_loop _ _ _ _ _) as [st1 low] eqn:Eq. cbn [fst snd] in HL.
  destruct HL as ([(V & C & A & E & I & Hfr) HM1 H1 H2 H3 H4] & Hlow & Hstop).
  assert (Hnd : forall i e, ss_lentries st !! i = Some e -> (low < i)%N -> ldue st (le_date e) = false).
  { intros i e He Hi. destruct Hstop as [->|Hstop].
    - destruct (lq_entry st HC _ _ He) as (? & _). lia.
    - unfold process_lentry in Hstop. rewrite H1 in Hstop. destruct (low + 1 <=? low)%N eqn:El; [lia|].
      destruct (ss_lentries st !! (low + 1)%N) as [e1|] eqn:E1; [|done].
      assert (Hct : ss_ltime st1 = ss_ltime st /\ ss_time st1 = ss_time st) by (subst st1; done). destruct Hct as [Hc1 Hc2].
      destruct (lq_entry st HC _ _ E1) as (_ & _ & _ & Hsm). rewrite Hc1, Hc2, due_small in Hstop by done.
      destruct (le_date e1 + ss_ltime st <=? ss_time st) eqn:Ed; [done|].
      assert (le_date e1 <= le_date e).
      { destruct (decide (i = (low + 1)%N)) as [->|]; [simplify_eq; lia|]. eapply (lq_mono st HC (low + 1)%N i); [done|done|lia]. }
      unfold ldue. lia. }
  assert (Hdue : forall i e, ss_lentries st !! i = Some e -> ldue st (le_date e) = (i <=? low)%N).
  { intros i e He. destruct (i <=? low)%N eqn:El; [apply (H4 i e He); lia|apply (Hnd i e He); lia]. }
  assert (Hct : ss_ltime st1 = ss_ltime st /\ ss_time st1 = ss_time st /\ ss_lhigh st1 = ss_lhigh st) by (subst st1; done). destruct Hct as (Hc1 & Hc2 & Hc3).
  split; [eapply MI_ext; [exact HM1|done..]|]. split; [|split; [|split]].
  - constructor; simpl; rewrite ?Hc2, ?Hc3.
    + intros i e He. pose proof He as He0. rewrite H1 in He. destruct (i <=? low)%N eqn:El; [done|].
      destruct (lq_entry st HC _ _ He) as (Hi & Hix & Hd & Hds). split; [lia|]. split; [apply H2; eauto|done].
    + intros s p. rewrite H2. done.
    + intros i j ei ej. rewrite !H1. destruct (i <=? low)%N; [done|]. destruct (j <=? low)%N; [done|]. apply (lq_uniq st HC).
    + intros i j ei ej. rewrite !H1. destruct (i <=? low)%N; [done|]. destruct (j <=? low)%N; [done|]. apply (lq_mono st HC).
    + lia.
  - eexists V, C, A, _, _, low. subst st1. reflexivity.
  - intros s p d. unfold lqueued. simpl. split.
    + intros (i & e & He & <- & <- & <-). rewrite H1 in He. destruct (i <=? low)%N eqn:El; [done|].
      split; [by eauto 10|]. by rewrite (Hdue i e He).
    + intros ((i & e & He & <- & <- & <-) & Hd). exists i, e. rewrite (Hdue i e He) in Hd. rewrite H1, Hd. done.
  - intros p s v. change (get_val (with_lq st1 _ _ _ _) p s) with (get_val st1 p s). rewrite H3. split.
    + intros [Hv Hno]. split; [done|]. intros d (i & e & He & Hs & Hq & <-). rewrite (Hdue i e He).
      destruct (i <=? low)%N eqn:El; [|done]. exfalso. eapply (Hno i e He); [lia|done|done].
    + intros [Hv Hno]. split; [done|]. intros i e He Hi Hs Hq.
      specialize (Hno (le_date e) ltac:(exists i, e; done)). rewrite (Hdue i e He) in Hno. lia.
Qed.
