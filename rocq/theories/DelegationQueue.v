(** * The unbonding queue and the redelegation limit. *)
From Verif Require Import Base BaseFacts Delegation F1Spec F1Refine F1Acct DelegationInv DelegationBank.

Global Arguments perform_delegation : simpl never.
Global Arguments perform_undelegation : simpl never.
Global Arguments perform_withdrawal : simpl never.
Global Arguments process_one : simpl never.

(** ** Specification: a plain first-in first-out list of requests *)

(** Requests at the front whose waiting time is over; and the rest. *)
Fixpoint split_due (now wait : Z) (l : list uentry) : list uentry * list uentry :=
  match l with
  | [] => ([], [])
  | e :: t =>
      if u64_add (u_time e) wait <=? now then let '(a, b) := split_due now wait t in (e :: a, b)
      else ([], l)
  end.

(** [QRel st l]: the pending requests of [st], oldest first, are [l]. *)
Record QRel (st : dstate) (l : list uentry) : Prop := {
  q_len : (ds_low st + N.of_nat (length l) = ds_high st)%N;
  q_in : forall i e, l !! i = Some e -> ds_queue st !! (ds_low st + 1 + N.of_nat i)%N = Some e;
  q_out : forall k, is_Some (ds_queue st !! k) -> (ds_low st < k <= ds_high st)%N;
  q_time : forall i j e f, (i <= j)%nat -> l !! i = Some e -> l !! j = Some f -> u_time e <= u_time f;
  q_now : forall i e, l !! i = Some e -> u_time e <= ds_time st;
  q_amt : forall i e, l !! i = Some e -> 0 <= u_amount e
}.

Lemma QRel_queue_ok st l : QRel st l -> queue_ok st.
Proof.
  intros HQ k e Hk. pose proof (q_out _ _ HQ k ltac:(by rewrite Hk)) as Hr. pose proof (q_len _ _ HQ) as Hl.
  destruct (l !! N.to_nat (k - ds_low st - 1)%N) as [f|] eqn:Ef.
  - pose proof (q_in _ _ HQ _ _ Ef) as Hi. replace (ds_low st + 1 + N.of_nat (N.to_nat (k - ds_low st - 1)))%N with k in Hi by lia.
    rewrite Hk in Hi. injection Hi as ->. by eapply q_amt.
  - apply lookup_ge_None in Ef. lia.
Qed.

Definition out_entries (out : list (N * uentry * Z)) : list uentry := map (fun p => snd (fst p)) out.
Definition out_index (out : list (N * uentry * Z)) : list N := map (fun p => fst (fst p)) out.

(** What each processed entry does, one after the other. *)
Fixpoint replay (st : dstate) (out : list (N * uentry * Z)) (st' : dstate) : Prop :=
  match out with
  | [] => st' = st
  | (k, e, paid) :: t =>
      (k <> 0)%N /\ snd (process_one st (k - 1) e) = paid /\
      replay (fst (process_one st (k - 1) e)) t st'
  end.

(** The loop, with [low] as the current LowIndex. *)
Lemma loop_spec fuel st low l :
  (low + N.of_nat (length l) = ds_high st)%N ->
  (forall i e, l !! i = Some e -> ds_queue st !! (low + 1 + N.of_nat i)%N = Some e) ->
  (forall k, is_Some (ds_queue st !! k) -> (low < k <= ds_high st)%N) ->
  (length l < fuel)%nat ->
  let '(st', low', out) := process_loop fuel st low in
  let '(a, b) := split_due (ds_time st) (p_unbonding (ds_params st)) l in
  out_entries out = a /\ low' = (low + N.of_nat (length a))%N /\
  out_index out = map (fun i => low + 1 + N.of_nat i)%N (seq 0 (length a)) /\
  replay st out st' /\ ds_high st' = ds_high st /\ ds_low st' = ds_low st /\ ds_time st' = ds_time st /\
  ds_params st' = ds_params st /\ ds_cool st' = ds_cool st /\
  (low' + N.of_nat (length b) = ds_high st')%N /\
  (forall i e, b !! i = Some e -> ds_queue st' !! (low' + 1 + N.of_nat i)%N = Some e) /\
  (forall k, is_Some (ds_queue st' !! k) -> (low' < k <= ds_high st')%N).
Proof.
  revert st low l. induction fuel as [|fuel IH]; intros st low l Hlen Hin Hout Hfuel; [lia|].
  simpl process_loop. destruct l as [|e l].
  - simpl in Hlen. destruct (ds_queue st !! (low + 1)%N) eqn:Eq.
    { exfalso. specialize (Hout _ ltac:(by rewrite Eq)). lia. }
    replace (low <? ds_high st)%N with false by (symmetry; apply N.ltb_ge; lia).
    simpl. split_and!; try done; lia.
  - rewrite (Hin 0%nat e eq_refl : ds_queue st !! (low + 1)%N = Some e) || idtac.
    pose proof (Hin 0%nat e eq_refl) as H0. replace (low + 1 + N.of_nat 0)%N with (low + 1)%N in H0 by lia.
    rewrite H0. unfold due. simpl split_due.
    destruct (u64_add (u_time e) (p_unbonding (ds_params st)) <=? ds_time st) eqn:Edue.
    + pose proof (process_one_frame st low e) as HF. cbv zeta in HF.
      destruct HF as (Hq & Hlo & Hhi & Hpa & Hti & Hco).
      destruct (process_one st low e) as [st3 paid] eqn:E1. cbn [fst] in *.
      specialize (IH st3 (low + 1)%N l). rewrite Hhi, Hti, Hpa in IH.
      simpl in Hlen, Hfuel.
      assert (IH' := IH ltac:(lia)). clear IH. 
      destruct (process_loop fuel st3 (low + 1)%N) as [[st4 low'] out].
      destruct (split_due (ds_time st) (p_unbonding (ds_params st)) l) as [a b].
      destruct IH' as (H1 & H2 & H3 & H4 & H5 & H6 & H7 & H8 & H9 & H10 & H11 & H12).
      { intros i f Hi. rewrite Hq. rewrite lookup_delete_ne by lia. specialize (Hin (S i) f Hi).
        by replace (low + 1 + 1 + N.of_nat i)%N with (low + 1 + N.of_nat (S i))%N by lia. }
      { intros k Hk. rewrite Hq in Hk. destruct Hk as [f Hk]. apply lookup_delete_Some in Hk as [Hne Hk].
        specialize (Hout k ltac:(by rewrite Hk)). lia. }
      { lia. }
      split; [simpl; by rewrite H1|].
      split; [rewrite H2; simpl; lia|].
      split; [simpl; f_equal; [lia|]; rewrite H3, <- seq_shift, map_map; apply map_ext; intros; lia|].
      split; [simpl; split; [lia|]; replace (low + 1 - 1)%N with low by lia; rewrite E1; done|].
      split; [congruence|]. split; [congruence|]. split; [congruence|]. split; [congruence|].
      split; [congruence|]. done.
    + simpl. rewrite N.add_0_r. split_and!; try done; try lia.
Qed.

Lemma split_due_app now wait l a b : split_due now wait l = (a, b) -> l = a ++ b.
Proof.
  revert a b. induction l as [|e l IH]; intros a b; simpl; [by intros [= <- <-]|].
  destruct (_ <=? _); [|by intros [= <- <-]].
  destruct (split_due now wait l) as [a' b'] eqn:E. intros [= <- <-]. simpl. by rewrite (IH a' b').
Qed.

Lemma split_due_all now wait l a b : split_due now wait l = (a, b) ->
  Forall (fun e => u64_add (u_time e) wait <= now) a /\
  match b with [] => True | e :: _ => now < u64_add (u_time e) wait end.
Proof.
  revert a b. induction l as [|e l IH]; intros a b; simpl; [by intros [= <- <-]|].
  destruct (_ <=? _) eqn:E1; [|intros [= <- <-]; split; [done|lia]].
  destruct (split_due now wait l) as [a' b'] eqn:E. intros [= <- <-].
  destruct (IH a' b' eq_refl). split; [|done]. constructor; [lia|done].
Qed.

(** One block. *)
Lemma process_queue_spec st l :
  QRel st l ->
  let '(st', out) := process_queue st in
  let '(a, b) := split_due (ds_time st) (p_unbonding (ds_params st)) l in
  out_entries out = a /\ QRel st' b /\
  out_index out = map (fun i => ds_low st + 1 + N.of_nat i)%N (seq 0 (length a)) /\
  ds_low st' = (ds_low st + N.of_nat (length a))%N /\
  ds_cool st' = ds_cool st /\ ds_params st' = ds_params st /\ ds_time st' = ds_time st /\
  (exists st1, replay st out st1 /\ ds_f1 st' = ds_f1 st1 /\ ds_bank st' = ds_bank st1).
Proof.
  intros HQ. unfold process_queue.
  pose proof (loop_spec (queue_fuel st) st (ds_low st) l (q_len _ _ HQ) (q_in _ _ HQ) (q_out _ _ HQ)) as HL.
  destruct (process_loop (queue_fuel st) st (ds_low st)) as [[st1 low'] out].
  destruct (split_due _ _ l) as [a b] eqn:Es.
  destruct HL as (H1 & H2 & H3 & H4 & H5 & H6 & H7 & H8 & H9 & H10 & H11 & H12).
  { unfold queue_fuel. pose proof (q_len _ _ HQ). lia. }
  pose proof (split_due_app _ _ _ _ _ Es) as Happ.
  assert (Hb : forall i e, b !! i = Some e -> l !! (length a + i)%nat = Some e).
  { intros i e Hi. rewrite Happ, lookup_app_r by lia. by replace (length a + i - length a)%nat with i by lia. }
  split_and!; try done.
  - constructor; simpl; try done.
    + intros i j e f Hij Hi Hj. eapply (q_time _ _ HQ (length a + i) (length a + j)); [lia| |]; by apply Hb.
    + intros i e Hi. rewrite H7. eapply q_now; [done|]. by apply Hb.
    + intros i e Hi. eapply q_amt; [done|]. by apply Hb.
  - by exists st1.
Qed.

Lemma wait_exact x w now : 0 <= x <= now -> 0 <= w -> now + w < two64 -> u64_add x w = x + w.
Proof. intros. unfold u64_add, w64. apply Z.mod_small. lia. Qed.

(** After a block, nothing that is still pending is due. *)
Lemma nothing_due_left st l a b :
  QRel st l -> 0 <= p_unbonding (ds_params st) -> ds_time st + p_unbonding (ds_params st) < two64 ->
  Forall (fun e => 0 <= u_time e) l -> split_due (ds_time st) (p_unbonding (ds_params st)) l = (a, b) ->
  Forall (fun e => ds_time st < u_time e + p_unbonding (ds_params st)) b.
Proof.
  intros HQ Hw Hs Hpos Es. pose proof (split_due_app _ _ _ _ _ Es) as Happ.
  destruct (split_due_all _ _ _ _ _ Es) as [_ Hb].
  apply Forall_lookup. intros i e Hi. destruct b as [|e0 b0]; [done|].
  assert (He0 : l !! length a = Some e0).
  { rewrite Happ, lookup_app_r by lia. by replace (length a - length a)%nat with 0%nat by lia. }
  pose proof (q_now _ _ HQ _ _ He0). pose proof (Forall_lookup_1 _ _ _ _ Hpos He0) as H0. cbn beta in H0.
  rewrite (wait_exact _ _ (ds_time st)) in Hb by lia.
  assert (u_time e0 <= u_time e); [|lia].
  eapply (q_time _ _ HQ (length a) (length a + i)); [lia| |]; rewrite Happ, lookup_app_r by lia.
  - by replace (length a - length a)%nat with 0%nat by lia.
  - by replace (length a + i - length a)%nat with i by lia.
Qed.

(** ** The whole history *)

(** Abstract queue step; [ok] tells whether an undelegation was accepted. *)
Definition fifo_step (st : dstate) (l : list uentry) (o : dop) : list uentry * list uentry :=
  match o with
  | OUndelegate d s a =>
      if a >? delegation_of st s d then (l, []) else (l ++ [mkU s d a (ds_time st)], [])
  | OBeginBlock dt =>
      let '(paid, rest) := split_due (ds_time st + dt) (p_unbonding (ds_params st)) l in (rest, paid)
  | _ => (l, [])
  end.

(** Requests paid by an operation of the machine. *)
Definition paid_by (st : dstate) (o : dop) : list (N * uentry * Z) :=
  match o with OBeginBlock dt => snd (process_queue (with_time st (ds_time st + dt))) | _ => [] end.

Lemma QRel_frame st st' l :
  ds_queue st' = ds_queue st -> ds_low st' = ds_low st -> ds_high st' = ds_high st ->
  ds_time st <= ds_time st' -> QRel st l -> QRel st' l.
Proof.
  intros H1 H2 H3 H4 [A B C D E F]. constructor; rewrite ?H1, ?H2, ?H3; try done.
  intros i e Hi. specialize (E i e Hi). lia.
Qed.

Lemma QRel_step st l o :
  QRel st l -> dop_ok st o ->
  QRel (dstep st o) (fst (fifo_step st l o)) /\
  out_entries (paid_by st o) = snd (fifo_step st l o).
Proof.
  intros HQ Hok. destruct o; cbn [dstep fifo_step paid_by] in *.
  - split; [|done]. unfold msg_delegate. destruct staker_exists; simpl; [|done].
    destruct (delegation_frame st s d amount) as (A & B & C & _ & T & _).
    destruct (send _ _ _ _); [|done]. 
    eapply QRel_frame; [exact A|exact B|exact C| |exact HQ].
    change (ds_time st <= ds_time (perform_delegation st s d amount)). rewrite T. lia.
  - unfold msg_undelegate. destruct (amount >? _) eqn:E; simpl; [done|]. split; [|done].
    constructor; simpl.
    + rewrite app_length. simpl. pose proof (q_len _ _ HQ). lia.
    + intros i e Hi. pose proof (q_len _ _ HQ) as Hl. apply lookup_app_Some in Hi as [Hi|[Hge Hi]].
      * assert (i < length l)%nat by (by eapply lookup_lt_Some).
        rewrite lookup_insert_ne by lia. by apply (q_in _ _ HQ).
      * apply list_lookup_singleton_Some in Hi as [Hi <-].
        replace (ds_low st + 1 + N.of_nat i)%N with (ds_high st + 1)%N by lia. by rewrite lookup_insert.
    + intros k Hk. destruct (decide (k = ds_high st + 1)%N) as [->|Hne].
      * pose proof (q_len _ _ HQ). lia.
      * rewrite lookup_insert_ne in Hk by done. pose proof (q_out _ _ HQ k Hk). lia.
    + intros i j e f Hij Hi Hj. apply lookup_app_Some in Hj as [Hj|[Hge Hj]].
      * assert (j < length l)%nat by (by eapply lookup_lt_Some).
        rewrite lookup_app_l in Hi by lia. by eapply (q_time _ _ HQ i j).
      * apply list_lookup_singleton_Some in Hj as [Hj <-]. simpl.
        apply lookup_app_Some in Hi as [Hi|[_ Hi]]; [by eapply q_now|].
        apply list_lookup_singleton_Some in Hi as [_ <-]. simpl. lia.
    + intros i e Hi. apply lookup_app_Some in Hi as [Hi|[_ Hi]]; [by eapply q_now|].
      apply list_lookup_singleton_Some in Hi as [_ <-]. simpl. lia.
    + intros i e Hi. apply lookup_app_Some in Hi as [Hi|[_ Hi]]; [by eapply q_amt|].
      apply list_lookup_singleton_Some in Hi as [_ <-]. simpl in *. lia.
  - split; [|done]. unfold msg_redelegate.
    destruct (negb (bool_decide _)); [done|]. destruct target_exists; simpl; [|done].
    destruct target_active; simpl; [|done]. destruct (amount >? _); [done|].
    destruct (consume_spell _ _ _) as [x|]; [|done].
    set (st1 := with_cool _ _).
    pose proof (undelegation_frame st1 from d amount) as HF. cbv zeta in HF.
    destruct (perform_undelegation st1 from d amount) as [st2 actual]. cbn [fst] in HF.
    destruct (negb (actual =? amount)); [done|]. simpl.
    pose proof (delegation_frame st2 to d amount) as HF2. cbv zeta in HF2.
    destruct HF2 as (A2 & B2 & C2 & _ & T2 & _). destruct HF as (A & B & C & _ & T & _).
    eapply QRel_frame; [..|exact HQ]; [by rewrite A2|by rewrite B2|by rewrite C2|].
    rewrite T2, T. simpl. lia.
  - split; [|done]. unfold msg_withdraw. destruct (negb (bool_decide _)); [done|].
    pose proof (withdrawal_frame st s d) as HF. cbv zeta in HF.
    destruct (perform_withdrawal st s d) as [st1 [r|]]; [|done]. simpl in *.
    destruct HF as (A & B & C & _ & T & _). eapply QRel_frame; [..|exact HQ]; try done. by rewrite T.
  - split; [|done]. unfold payout_rewards. destruct (cempty c); [done|].
    destruct (f_data _); [|done]. destruct (send _ _ _ _); [|done]. simpl.
    by eapply QRel_frame; [..|exact HQ].
  - split; [|done]. unfold slash_delegators. destruct (f_data _); [|done].
    destruct (f1_slash _ _). simpl. destruct (send _ _ _ _); simpl; by eapply QRel_frame; [..|exact HQ].
  - simpl in Hok. set (st1 := with_time st (ds_time st + dt)).
    assert (HQ1 : QRel st1 l) by (eapply QRel_frame; [..|exact HQ]; simpl; try done; lia).
    pose proof (process_queue_spec st1 l HQ1) as HP.
    destruct (process_queue st1) as [st' out].
    change (ds_time st1) with (ds_time st + dt) in HP. change (ds_params st1) with (ds_params st) in HP.
    destruct (split_due _ _ l) as [a b]. simpl. destruct HP as (? & ? & _). done.
  - split; [|done]. by eapply QRel_frame; [..|exact HQ].
  - split; [|done]. by eapply QRel_frame; [..|exact HQ].
Qed.

Lemma QRel_init bk p t : QRel (dinit bk p t) [].
Proof. constructor; simpl; try done. intros k [x Hk]. by rewrite lookup_empty in Hk. Qed.

(** ** Redelegation limit *)

(** Specification: the times of successful redelegations of one account. *)
Definition redelegates (st : dstate) (o : dop) (who : N) : bool :=
  match o with
  | ORedelegate ex act d from to a =>
      (d =? who)%N && match msg_redelegate st ex act d from to a with Some _ => true | None => false end
  | _ => false
  end.

Fixpoint redel_times (st : dstate) (ops : list dop) (who : N) : list Z :=
  match ops with
  | [] => []
  | o :: t => (if redelegates st o who then [ds_time st] else []) ++ redel_times (dstep st o) t who
  end.

(** Times within the last [w] seconds. *)
Definition recent (now w : Z) (ts : list Z) : list Z := List.filter (fun t => now - t <=? w) ts.

(** The cooldown is never raised. *)
Definition cooldown_kept (st : dstate) (o : dop) : Prop :=
  match o with OParams p => i64 (p_cooldown p) <= i64 (p_cooldown (ds_params st)) | _ => True end.

(** [ts] are all successful redelegations so far, [l] the stored dates. *)
Record WInv (now w : Z) (ts l : list Z) : Prop := {
  w_split : exists old, ts = old ++ l /\ Forall (fun t => now - t > w) old;
  w_sorted : forall i j a b, (i < j)%nat -> ts !! i = Some a -> ts !! j = Some b -> a < b;
  w_past : Forall (fun t => t <= now) ts
}.

Lemma drop_expired_split now w l : exists d, l = d ++ drop_expired now w l /\ Forall (fun t => now - t > w) d.
Proof.
  induction l as [|c l [d [IH1 IH2]]]; simpl; [exists []; done|].
  destruct (now - c >? w) eqn:E.
  - exists (c :: d). simpl. rewrite <- IH1. split; [done|]. constructor; [lia|done].
  - exists []. done.
Qed.

Lemma drop_expired_head now w l :
  match drop_expired now w l with [] => True | c :: _ => now - c <= w end.
Proof. induction l as [|c l IH]; simpl; [done|]. destruct (now - c >? w) eqn:E; [done|lia]. Qed.

Lemma recent_none now w l : Forall (fun t => now - t > w) l -> recent now w l = [].
Proof.
  induction 1 as [|x l Hx Hl IH]; simpl; [done|]. destruct (now - x <=? w) eqn:E; [lia|done].
Qed.
Lemma recent_all now w l : Forall (fun t => now - t <= w) l -> recent now w l = l.
Proof.
  induction 1 as [|x l Hx Hl IH]; simpl; [done|]. destruct (now - x <=? w) eqn:E; [by rewrite IH|lia].
Qed.

(** After pruning, the stored dates are exactly the recent ones. *)
Lemma WInv_recent now w ts l :
  WInv now w ts l -> recent now w ts = drop_expired now w l.
Proof.
  intros [[old [Hts Hold]] Hs Hp].
  destruct (drop_expired_split now w l) as (d & Hl & Hd).
  pose proof (drop_expired_head now w l) as Hh. set (l' := drop_expired now w l) in *.
  rewrite Hts, Hl. unfold recent. rewrite !List.filter_app.
  fold (recent now w old). fold (recent now w d). fold (recent now w l').
  rewrite (recent_none _ _ old) by done. rewrite (recent_none _ _ d) by done. simpl.
  apply recent_all. destruct l' as [|c l'']; [constructor|].
  apply Forall_lookup. intros i x Hx.
  destruct i as [|i]; [simpl in Hx; injection Hx as <-; done|].
  assert (c < x); [|lia].
  eapply (Hs (length (old ++ d)) (length (old ++ d) + S i)%nat); [lia| |];
    rewrite Hts, Hl, app_assoc, lookup_app_r by lia.
  - by replace (_ - _)%nat with 0%nat by lia.
  - by replace (_ - _)%nat with (S i) by lia.
Qed.

Lemma WInv_later now now' w w' ts l : now <= now' -> w' <= w -> WInv now w ts l -> WInv now' w' ts l.
Proof.
  intros Hn Hw [[old [Hts Hold]] Hs Hp]. constructor; [|done|].
  - exists old. split; [done|]. eapply Forall_impl; [done|]. intros; simpl in *; lia.
  - eapply Forall_impl; [done|]. intros; simpl in *; lia.
Qed.

Lemma insert_date_last x l : Forall (fun t => t < x) l -> insert_date x l = l ++ [x].
Proof.
  induction 1 as [|c l Hc Hl IH]; simpl; [done|].
  destruct (x <? c) eqn:E1; [lia|]. destruct (x =? c) eqn:E2; [lia|]. by rewrite IH.
Qed.

Lemma sorted_lt_last ts now :
  (forall i j a b, (i < j)%nat -> ts !! i = Some a -> ts !! j = Some b -> a < b) ->
  Forall (fun t => t <= now) ts -> last ts <> Some now -> Forall (fun t => t < now) ts.
Proof.
  intros Hs Hp Hl. apply Forall_lookup. intros i x Hi.
  pose proof (Forall_lookup_1 _ _ _ _ Hp Hi) as Hx. simpl in Hx.
  destruct (decide (x = now)) as [->|]; [|lia]. exfalso.
  destruct (decide (S i = length ts)) as [Heq|Hne].
  - apply Hl. rewrite last_lookup. rewrite <- Heq. done.
  - assert (i < length ts)%nat by (by eapply lookup_lt_Some).
    destruct (lookup_lt_is_Some_2 ts (S i) ltac:(lia)) as [y Hy].
    pose proof (Hs i (S i) now y ltac:(lia) Hi Hy).
    pose proof (Forall_lookup_1 _ _ _ _ Hp Hy). simpl in *. lia.
Qed.

Lemma last_app_ne {A} (a b : list A) : b <> [] -> last (a ++ b) = last b.
Proof. intros Hb. rewrite last_app. destruct (last b) eqn:E; [done|]. by apply last_None in E. Qed.

Lemma WInv_consume p now ts l :
  WInv now (i64 (p_cooldown p)) ts l -> 0 <= i64 (p_cooldown p) ->
  match consume_spell p now l with
  | Some l' => Z.of_nat (length (recent now (i64 (p_cooldown p)) ts)) < i64 (p_maxredel p) /\
               ~ In now ts /\ WInv now (i64 (p_cooldown p)) (ts ++ [now]) l'
  | None => i64 (p_maxredel p) <= Z.of_nat (length (recent now (i64 (p_cooldown p)) ts)) \/ In now ts
  end.
Proof.
  intros HW Hw. pose proof (WInv_recent _ _ _ _ HW) as Hrec.
  unfold consume_spell. rewrite <- Hrec. rewrite Hrec. set (l' := drop_expired now (i64 (p_cooldown p)) l) in *.
  destruct HW as [[old [Hts Hold]] Hs Hp].
  destruct (drop_expired_split now (i64 (p_cooldown p)) l) as (d & Hl & Hd). fold l' in Hl.
  assert (Hts' : ts = (old ++ d) ++ l') by (by rewrite Hts, Hl, app_assoc).
  assert (Hold' : Forall (fun t => now - t > i64 (p_cooldown p)) (old ++ d)) by (by apply Forall_app).
  destruct (Z.of_nat (length l') >=? i64 (p_maxredel p)) eqn:E1; [left; lia|].
  case_bool_decide as E2.
  - right. unfold last_date in E2. apply last_Some in E2 as [l0 E2]. rewrite Hts', E2.
    rewrite !in_app_iff. simpl. tauto.
  - assert (Hlt : Forall (fun t => t < now) ts).
    { apply sorted_lt_last; [done|done|]. intros Hla. rewrite Hts' in Hla.
      destruct (decide (l' = [])) as [He|He].
      - rewrite He, app_nil_r in Hla. apply last_Some in Hla as [l0 Hla].
        rewrite Hla in Hold'. apply Forall_app in Hold' as [_ Hold']. apply Forall_inv in Hold'. lia.
      - rewrite last_app_ne in Hla by done. done. }
    split; [lia|]. split.
    + intros Hin. apply elem_of_list_In in Hin. rewrite Forall_forall in Hlt. specialize (Hlt _ Hin). lia.
    + rewrite insert_date_last.
      2:{ rewrite Hts' in Hlt. by apply Forall_app in Hlt as [_ ?]. }
      constructor.
      * exists (old ++ d). split; [|done]. rewrite Hts'. by rewrite app_assoc.
      * intros i j a b Hij Hi Hj. apply lookup_app_Some in Hj as [Hj|[Hge Hj]].
        { assert (j < length ts)%nat by (by eapply lookup_lt_Some).
          rewrite lookup_app_l in Hi by lia. by eapply (Hs i j). }
        apply list_lookup_singleton_Some in Hj as [Hj <-].
        rewrite lookup_app_l in Hi by lia. exact (Forall_lookup_1 _ _ _ _ Hlt Hi).
      * apply Forall_app. split; [done|]. constructor; [lia|constructor].
Qed.

Definition stored (st : dstate) (who : N) : list Z := default [] (ds_cool st !! who).

Lemma WInv_step st o who ts :
  dparams_valid (ds_params st) = true -> dop_ok st o -> cooldown_kept st o ->
  0 <= i64 (p_cooldown (ds_params st)) ->
  WInv (ds_time st) (i64 (p_cooldown (ds_params st))) ts (stored st who) ->
  WInv (ds_time (dstep st o)) (i64 (p_cooldown (ds_params (dstep st o))))
       (ts ++ if redelegates st o who then [ds_time st] else []) (stored (dstep st o) who) /\
  (redelegates st o who = true ->
     Z.of_nat (length (recent (ds_time st) (i64 (p_cooldown (ds_params st))) ts)) < i64 (p_maxredel (ds_params st)) /\
     ~ In (ds_time st) ts).
Proof.
  intros HP Hok Hk Hc0 HW. unfold stored in *.
  destruct o; cbn [dstep redelegates] in *; rewrite ?app_nil_r; try (split; [|done]).
  - unfold msg_delegate. destruct staker_exists; simpl; [|done].
    destruct (delegation_frame st s d amount) as (_ & _ & _ & P & T & C).
    destruct (send _ _ _ _) as [bk|]; [|done]. cbn [or_same default].
    set (sd := perform_delegation st s d amount) in *.
    cbn [id ds_time ds_params ds_cool with_bank]. by rewrite P, T, C.
  - unfold msg_undelegate. by destruct (amount >? _).
  - (* redelegate *)
    destruct (msg_redelegate st target_exists target_active d from to amount) as [st'|] eqn:Em.
    2:{ rewrite andb_false_r. simpl. by rewrite app_nil_r. }
    rewrite andb_true_r. unfold msg_redelegate in Em.
    destruct (negb (bool_decide _)); [done|]. destruct (negb target_exists); [done|].
    destruct (negb target_active); [done|]. destruct (amount >? _); [done|].
    destruct (consume_spell (ds_params st) (ds_time st) (default [] (ds_cool st !! d))) as [x|] eqn:Ec; [|done].
    set (st1 := with_cool _ _) in *.
    pose proof (undelegation_frame st1 from d amount) as HF. cbv zeta in HF.
    destruct (perform_undelegation st1 from d amount) as [st2 actual]. cbn [fst] in HF.
    destruct (negb (actual =? amount)); [done|]. injection Em as <-. simpl or_same.
    destruct (delegation_frame st2 to d amount) as (_ & _ & _ & P2 & T2 & C2).
    destruct HF as (_ & _ & _ & P & T & C). rewrite P2, P, T2, T, C2, C. simpl.
    destruct (N.eqb_spec d who) as [->|Hne].
    + rewrite lookup_insert. simpl. pose proof (WInv_consume _ _ _ _ HW Hc0) as HC.
      rewrite Ec in HC. destruct HC as (? & ? & ?). done.
    + rewrite lookup_insert_ne by done. rewrite app_nil_r. done.
  - unfold msg_withdraw. destruct (negb (bool_decide _)); [done|].
    pose proof (withdrawal_frame st s d) as HF. cbv zeta in HF.
    destruct (perform_withdrawal st s d) as [st1 [r|]]; [|done]. simpl in *.
    destruct HF as (_ & _ & _ & P & T & C & _). by rewrite P, T, C.
  - unfold payout_rewards. destruct (cempty c); [done|].
    destruct (f_data _); [|done]. by destruct (send _ _ _ _).
  - unfold slash_delegators. destruct (f_data _); [|done].
    destruct (f1_slash _ _). simpl. by destruct (send _ _ _ _).
  - set (st1 := with_time st (ds_time st + dt)). unfold process_queue.
    assert (Hfr : forall fuel st low, let st' := fst (fst (process_loop fuel st low)) in
              ds_params st' = ds_params st /\ ds_time st' = ds_time st /\ ds_cool st' = ds_cool st).
    { clear. induction fuel as [|fuel IH]; intros st low; simpl; [done|].
      destruct (ds_queue st !! _) as [e|].
      - destruct (due st e); [|done]. pose proof (process_one_frame st low e) as HF. cbv zeta in HF.
        destruct (process_one st low e) as [st3 paid]. specialize (IH st3 (low + 1)%N). cbn [fst] in HF.
        destruct (process_loop fuel st3 (low + 1)%N) as [[st4 low'] out]. simpl in *.
        destruct HF as (_ & _ & _ & P & T & C). destruct IH as (-> & -> & ->). done.
      - destruct (_ <? _)%N; [apply IH|done]. }
    specialize (Hfr (queue_fuel st1) st1 (ds_low st1)).
    destruct (process_loop _ _ _) as [[st2 low] out]. simpl in *. destruct Hfr as (-> & -> & ->).
    simpl. eapply WInv_later; [..|exact HW]; lia.
  - simpl in *. eapply WInv_later; [..|exact HW]; lia.
  - done.
Qed.
