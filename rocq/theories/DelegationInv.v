(** * Invariants of the whole delegation module. *)
From Verif Require Import Base BaseFacts Delegation F1Spec F1Refine F1Acct.

Ltac Zify.zify_post_hook ::= Z.div_mod_to_equations.

(** ** Ghost book: the plain ledger and allowance of every staker, moved by the
    same operations. *)
Notation book := (gmap N (ledger * allow)) (only parsing).
Definition page (b : book) (s : N) : ledger * allow := default (lg_empty, a_zero) (b !! s).
Definition gl (b : book) (s : N) : ledger := fst (page b s).
Definition ga (b : book) (s : N) : allow := snd (page b s).

Definition b_withdraw (b : book) (s d : N) : book :=
  <[s := (fst (lg_withdraw (gl b s) d), a_withdraw (gl b s) (ga b s) d)]> b.
Definition b_leave (b : book) (s d : N) : book :=
  <[s := (fst (lg_leave (gl b s) d), a_leave (gl b s) (ga b s) d)]> b.
Definition b_join (b : book) (s d : N) (a : Z) : book :=
  <[s := (lg_join (gl b s) d a, a_join (gl b s) (ga b s) a)]> b.
Definition b_slash (b : book) (s : N) (fr : Z) : book :=
  <[s := (fst (lg_slash (gl b s) fr), a_slash (gl b s) (ga b s))]> b.
Definition b_reward (b : book) (s : N) (c : coins) : book :=
  <[s := (lg_reward (gl b s) c, a_reward (ga b s) c)]> b.

(** Adding [a] to a delegation, taking at most [a] from a delegation. *)
Definition b_delegate (b : book) (s d : N) (a : Z) : book :=
  match lg_dels (gl b s) !! d with
  | Some _ =>
      let b1 := b_withdraw b s d in
      let und := snd (lg_leave (gl b1 s) d) in
      b_join (b_leave b1 s d) s d (und + a)
  | None => b_join b s d a
  end.
Definition b_undelegate (b : book) (s d : N) (a : Z) : book :=
  let b1 := b_withdraw b s d in
  let und := snd (lg_leave (gl b1 s) d) in
  let b2 := b_leave b1 s d in
  if und >? a then b_join b2 s d (und - a) else b2.

Fixpoint b_loop (fuel : nat) (st : dstate) (b : book) (low : N) : book :=
  match fuel with
  | O => b
  | S fuel =>
      match ds_queue st !! (low + 1)%N with
      | None => if (low <? ds_high st)%N then b_loop fuel st b (low + 1)%N else b
      | Some e =>
          if due st e then
            b_loop fuel (fst (process_one st low e))
              (b_undelegate b (u_staker e) (u_delegator e) (u_amount e)) (low + 1)%N
          else b
      end
  end.

Definition b_step (st : dstate) (b : book) (o : dop) : book :=
  match o with
  | ODelegate ex d s a =>
      match msg_delegate st ex d s a with None => b | Some _ => b_delegate b s d a end
  | OUndelegate _ _ _ => b
  | ORedelegate ex act d from to a =>
      match msg_redelegate st ex act d from to a with
      | None => b
      | Some _ => b_delegate (b_undelegate b from d a) to d a
      end
  | OWithdraw d s => match msg_withdraw st d s with None => b | Some _ => b_withdraw b s d end
  | OPayout s c payer =>
      match payout_rewards st s c payer with
      | None => b
      | Some _ => if cempty c then b else b_reward b s c
      end
  | OSlash s t =>
      match f_data (getf st s) with
      | None => b
      | Some _ => b_slash b s (slash_fraction (ds_params st) t)
      end
  | OBeginBlock dt =>
      let st1 := with_time st (ds_time st + dt) in b_loop (queue_fuel st1) st1 b (ds_low st1)
  | OParams _ | OBank _ => b
  end.

(** Runs of the machine, of the ghost book along it, and admissible inputs. *)
Fixpoint drun (st : dstate) (ops : list dop) : dstate :=
  match ops with [] => st | o :: t => drun (dstep st o) t end.
Fixpoint brun (st : dstate) (b : book) (ops : list dop) : book :=
  match ops with [] => b | o :: t => brun (dstep st o) (b_step st b o) t end.
Fixpoint ops_ok (st : dstate) (ops : list dop) : Prop :=
  match ops with [] => True | o :: t => dop_ok st o /\ ops_ok (dstep st o) t end.

(** ** Pages *)
Lemma page_insert b s p s' : page (<[s := p]> b) s' = if decide (s = s') then p else page b s'.
Proof.
  unfold page. destruct (decide (s = s')) as [->|Hne]; [by rewrite lookup_insert|by rewrite lookup_insert_ne].
Qed.
Lemma gl_insert b s l g s' : gl (<[s := (l, g)]> b) s' = if decide (s = s') then l else gl b s'.
Proof. unfold gl. rewrite page_insert. by destruct (decide _). Qed.
Lemma ga_insert b s l g s' : ga (<[s := (l, g)]> b) s' = if decide (s = s') then g else ga b s'.
Proof. unfold ga. rewrite page_insert. by destruct (decide _). Qed.

Lemma getf_setf st s f s' : getf (setf st s f) s' = if decide (s = s') then f else getf st s'.
Proof.
  unfold getf, setf. simpl. destruct (decide (s = s')) as [->|Hne];
    [by rewrite lookup_insert|by rewrite lookup_insert_ne].
Qed.

(** ** First layer: F1 state and book agree *)
(** Ledger and allowance of one staker: signs always, the accounting invariant
    as long as the principal slack is below one token. *)
Definition LGood (l : ledger) (g : allow) : Prop := LWeak l /\ (a_E g < ONE -> LInv l g).

Definition Good (st : dstate) (b : book) : Prop :=
  forall s, Rel (getf st s) (gl b s) /\ LGood (gl b s) (ga b s).

Lemma LGood_withdraw l g d : LGood l g -> LGood (fst (lg_withdraw l d)) (a_withdraw l g d).
Proof.
  intros [HW HL]. split; [by apply LWeak_withdraw|]. intros HE. apply LInv_withdraw, HL.
  unfold a_withdraw in HE. by destruct (lg_dels l !! d).
Qed.
Lemma LGood_leave l g d : LGood l g -> LGood (fst (lg_leave l d)) (a_leave l g d).
Proof.
  intros [HW HL]. split; [by apply LWeak_leave|]. intros HE.
  assert (a_E g < ONE) by (unfold a_leave in HE; by destruct (lg_dels l !! d)).
  by apply LInv_leave; [apply HL|].
Qed.
Lemma LGood_join l g d a :
  LGood l g -> lg_dels l !! d = None -> 0 <= a -> LGood (lg_join l d a) (a_join l g a).
Proof.
  intros [HW HL] Hd Ha. split; [by apply LWeak_join|]. intros HE.
  apply LInv_join; [|done|done]. apply HL. unfold a_join in HE. by destruct (a =? 0).
Qed.
Lemma LGood_slash l g fr : LGood l g -> 0 <= fr <= ONE -> LGood (fst (lg_slash l fr)) (a_slash l g).
Proof.
  intros [HW HL] Hfr. split; [by apply LWeak_slash|]. intros HE. simpl in HE.
  apply LInv_slash; [apply HL; lia|done].
Qed.
Lemma LGood_reward l g c : LGood l g -> cpos c -> LGood (lg_reward l c) (a_reward g c).
Proof.
  intros [HW HL] Hc. split; [by apply LWeak_reward|]. intros HE. by apply LInv_reward; [apply HL|].
Qed.

Definition safeE (b : book) : Prop := forall s, a_E (ga b s) < ONE.

Lemma Good_same_f1 st st' b : ds_f1 st' = ds_f1 st -> Good st b -> Good st' b.
Proof. unfold Good, getf. by intros ->. Qed.

Lemma Good_upd st b s f l g :
  Good st b -> Rel f l -> LGood l g -> Good (setf st s f) (<[s := (l, g)]> b).
Proof.
  intros HG HR HL s'. rewrite getf_setf, gl_insert, ga_insert. destruct (decide _); [done|apply HG].
Qed.

(** perform_withdrawal: state, payment. *)
Lemma withdrawal_f1 st s d :
  forall s', getf (fst (perform_withdrawal st s d)) s'
             = if decide (s = s') then fst (f1_withdraw (getf st s) d) else getf st s'.
Proof.
  intros s'. unfold perform_withdrawal. destruct (f1_withdraw (getf st s) d) as [f r] eqn:E.
  set (st1 := if bool_decide _ then _ else _).
  assert (H1 : getf st1 s' = if decide (s = s') then f else getf st s').
  { unfold st1. destruct (bool_decide _) eqn:Eb.
    - apply getf_setf.
    - apply bool_decide_eq_false in Eb. unfold f1_withdraw in E.
      destruct (f_delegators (getf st s) !! d); [exfalso; apply Eb; eauto|].
      injection E as <- <-. destruct (decide _) as [->|]; done. }
  unfold pay_user. destruct (send _ _ _ _); simpl; exact H1.
Qed.

Lemma Good_eqf st st' b : (forall s, getf st' s = getf st s) -> Good st b -> Good st' b.
Proof. intros Heq HG s. rewrite Heq. apply HG. Qed.

Lemma Good_withdrawal st b s d :
  Good st b -> Good (fst (perform_withdrawal st s d)) (b_withdraw b s d).
Proof.
  intros HG s'. rewrite withdrawal_f1. unfold b_withdraw. rewrite gl_insert, ga_insert.
  destruct (decide (s = s')) as [<-|]; [|apply HG]. destruct (HG s) as [HR HL].
  split; [by apply Rel_withdraw|by apply LGood_withdraw].
Qed.

Lemma Good_remove st b s d :
  Good st b ->
  Good (setf st s (fst (f1_remove (getf st s) d))) (b_leave b s d) /\
  snd (f1_remove (getf st s) d) = snd (lg_leave (gl b s) d).
Proof.
  intros HG. destruct (HG s) as [HR HL]. destruct (Rel_remove _ _ d HR) as [HR' Heq].
  split; [|done]. apply Good_upd; [done|done|]. by apply LGood_leave.
Qed.

Lemma Good_create st b s d a :
  Good st b -> lg_dels (gl b s) !! d = None -> 0 <= a ->
  Good (setf st s (f1_create (getf st s) d a)) (b_join b s d a).
Proof.
  intros HG Hd Ha. destruct (HG s) as [HR HL]. apply Good_upd; [done| |by apply LGood_join].
  apply Rel_create; [done| |done]. by apply (Rel_lookup _ _ _ HR).
Qed.

Lemma leave_absent l d : lg_dels (fst (lg_leave l d)) !! d = None.
Proof.
  unfold lg_leave. destruct (lg_dels l !! d) eqn:E; simpl; [by rewrite lookup_delete|done].
Qed.

Lemma getf_with_halt st x s : getf (with_halt st x) s = getf st s.
Proof. done. Qed.

Lemma E_withdraw b s d s' : a_E (ga (b_withdraw b s d) s') = a_E (ga b s').
Proof.
  unfold b_withdraw. rewrite ga_insert. destruct (decide _) as [<-|]; [|done].
  unfold a_withdraw. by destruct (lg_dels _ !! d).
Qed.
Lemma E_leave b s d s' : a_E (ga (b_leave b s d) s') = a_E (ga b s').
Proof.
  unfold b_leave. rewrite ga_insert. destruct (decide _) as [<-|]; [|done].
  unfold a_leave. by destruct (lg_dels _ !! d).
Qed.
Lemma E_join b s d a s' : a_E (ga (b_join b s d a) s') = a_E (ga b s').
Proof.
  unfold b_join. rewrite ga_insert. destruct (decide _) as [<-|]; [|done].
  unfold a_join. by destruct (a =? 0).
Qed.
Lemma E_delegate b s d a s' : a_E (ga (b_delegate b s d a) s') = a_E (ga b s').
Proof.
  unfold b_delegate. destruct (lg_dels _ !! d); by rewrite E_join, ?E_leave, ?E_withdraw.
Qed.
Lemma E_undelegate b s d a s' : a_E (ga (b_undelegate b s d a) s') = a_E (ga b s').
Proof.
  unfold b_undelegate. destruct (_ >? _); by rewrite ?E_join, ?E_leave, ?E_withdraw.
Qed.
Lemma E_loop fuel st b low s' : a_E (ga (b_loop fuel st b low) s') = a_E (ga b s').
Proof.
  revert st b low. induction fuel as [|fuel IH]; intros st b low; simpl; [done|].
  destruct (ds_queue st !! _) as [e|].
  - destruct (due st e); [|done]. by rewrite IH, E_undelegate.
  - destruct (_ <? _)%N; [apply IH|done].
Qed.

Lemma E_step st b o s' : a_E (ga b s') <= a_E (ga (b_step st b o) s').
Proof.
  destruct o; cbn [b_step]; cbv zeta; rewrite ?E_loop; repeat case_match;
    rewrite ?E_delegate, ?E_undelegate, ?E_withdraw; try lia.
  - unfold b_reward. rewrite ga_insert. destruct (decide _) as [<-|]; simpl; lia.
  - unfold b_slash. rewrite ga_insert. destruct (decide _) as [<-|]; simpl; lia.
Qed.

Lemma safeE_step st b o : safeE (b_step st b o) -> safeE b.
Proof. intros HS s. specialize (HS s). pose proof (E_step st b o s). lia. Qed.

Lemma safeE_run st b ops : safeE (brun st b ops) -> safeE b.
Proof.
  revert st b. induction ops as [|o t IH]; intros st b; simpl; [done|].
  intros HS. by apply IH, safeE_step in HS.
Qed.

Lemma is_Some_bool_decide {A} (o : option A) :
  bool_decide (is_Some o) = match o with Some _ => true | None => false end.
Proof. destruct o; [apply bool_decide_eq_true; eauto|]. apply bool_decide_eq_false. by intros [? ?]. Qed.

Lemma Rel_exists f l d : Rel f l ->
  bool_decide (is_Some (f_delegators f !! d)) = match lg_dels l !! d with Some _ => true | None => false end.
Proof.
  intros HR. rewrite is_Some_bool_decide. pose proof (r_dels _ _ HR d).
  by destruct (f_delegators f !! d), (lg_dels l !! d).
Qed.

Lemma Good_delegate st b s d a :
  Good st b -> 0 <= a ->
  Good (perform_delegation st s d a) (b_delegate b s d a).
Proof.
  intros HG Ha. unfold perform_delegation, b_delegate.
  assert (HG0 : Good (remove_index st s) b) by (by eapply Good_same_f1; [|exact HG]).
  set (st0 := remove_index st s) in *. destruct (HG0 s) as [HR0 _].
  rewrite (Rel_exists _ _ _ HR0).
  destruct (lg_dels (gl b s) !! d) as [x|] eqn:Ex.
  - destruct (perform_withdrawal st0 s d) as [sw err] eqn:Ew.
    assert (HG1 : Good (with_halt sw (failed err)) (b_withdraw b s d)).
    { eapply Good_same_f1; [|pose proof (Good_withdrawal _ _ s d HG0) as H; rewrite Ew in H; exact H]. done. }
    set (sw' := with_halt sw (failed err)) in *.
    destruct (Good_remove _ _ s d HG1) as [HG2 Heq].
    destruct (f1_remove (getf sw' s) d) as [f und]. simpl in HG2, Heq. rewrite <- Heq.
    assert (Hund : 0 <= und).
    { rewrite Heq. destruct (HG1 s) as [_ [HL1 _]]. by apply LWeak_leave. }
    eapply Good_same_f1; [reflexivity|]. eapply Good_same_f1; [reflexivity|].
    apply Good_create; [done| |lia].
    unfold b_leave. rewrite gl_insert. rewrite decide_True by done. apply leave_absent.
  - eapply Good_same_f1; [reflexivity|]. by apply Good_create.
Qed.

(** [Good] and the result of an undelegation: the amount is the smaller of the
    requested amount and the balance. *)
Lemma Good_undelegate st b s d a :
  Good st b -> 0 <= a ->
  Good (fst (perform_undelegation st s d a)) (b_undelegate b s d a) /\
  snd (perform_undelegation st s d a) = Z.min a (lg_balance (gl b s) d).
Proof.
  intros HG Ha. unfold perform_undelegation, b_undelegate.
  assert (HG0 : Good (remove_index st s) b) by (by eapply Good_same_f1; [|exact HG]).
  set (st0 := remove_index st s) in *.
  destruct (perform_withdrawal st0 s d) as [sw err] eqn:Ew.
  assert (HG1 : Good (with_halt sw (failed err)) (b_withdraw b s d)).
  { eapply Good_same_f1; [|pose proof (Good_withdrawal _ _ s d HG0) as H; rewrite Ew in H; exact H]. done. }
  set (sw' := with_halt sw (failed err)) in *.
  destruct (Good_remove _ _ s d HG1) as [HG2 Heq].
  destruct (f1_remove (getf sw' s) d) as [f und]. simpl in HG2, Heq. rewrite <- Heq.
  assert (Hund : 0 <= und).
  { rewrite Heq. destruct (HG1 s) as [_ [HL1 _]]. by apply LWeak_leave. }
  assert (Hbal : und = lg_balance (gl b s) d).
  { rewrite Heq. unfold b_withdraw. rewrite gl_insert, decide_True by done.
    unfold lg_withdraw, lg_leave, lg_balance. destruct (lg_dels (gl b s) !! d) as [x|] eqn:Ex; simpl; [|by rewrite Ex].
    rewrite lookup_insert. simpl. by rewrite trunc_int_of_int. }
  destruct (und >? a) eqn:Egt; simpl fst; simpl snd.
  - assert (Hs1 : u64_sub und a = und - a) by (unfold u64_sub; destruct (_ <=? _) eqn:?; lia).
    rewrite Hs1. assert (Hs2 : u64_sub und (und - a) = a) by (unfold u64_sub; destruct (_ <=? _) eqn:?; lia).
    rewrite Hs2. split; [|lia].
    eapply Good_same_f1; [reflexivity|]. apply Good_create; [done| |lia].
    unfold b_leave. rewrite gl_insert. rewrite decide_True by done. apply leave_absent.
  - split; [by eapply Good_same_f1; [reflexivity|]|].
    unfold u64_sub. destruct (_ <=? _) eqn:?; lia.
Qed.

Definition queue_ok (st : dstate) : Prop := forall k e, ds_queue st !! k = Some e -> 0 <= u_amount e.

(** What perform_* do to the queue, parameters, time. *)
Lemma withdrawal_frame st s d :
  let st' := fst (perform_withdrawal st s d) in
  ds_queue st' = ds_queue st /\ ds_low st' = ds_low st /\ ds_high st' = ds_high st /\
  ds_params st' = ds_params st /\ ds_time st' = ds_time st /\ ds_cool st' = ds_cool st /\
  ds_index st' = ds_index st /\ ds_halt st' = ds_halt st.
Proof.
  unfold perform_withdrawal. destruct (f1_withdraw (getf st s) d) as [f r].
  unfold pay_user. destruct (bool_decide _); destruct (send _ _ _ _); done.
Qed.

Lemma undelegation_frame st s d a :
  let st' := fst (perform_undelegation st s d a) in
  ds_queue st' = ds_queue st /\ ds_low st' = ds_low st /\ ds_high st' = ds_high st /\
  ds_params st' = ds_params st /\ ds_time st' = ds_time st /\ ds_cool st' = ds_cool st.
Proof.
  unfold perform_undelegation.
  pose proof (withdrawal_frame (remove_index st s) s d) as HW.
  destruct (perform_withdrawal (remove_index st s) s d) as [sw err]. simpl in HW.
  destruct (f1_remove _ d) as [f und]. destruct (und >? a); simpl; naive_solver.
Qed.

Lemma delegation_frame st s d a :
  let st' := perform_delegation st s d a in
  ds_queue st' = ds_queue st /\ ds_low st' = ds_low st /\ ds_high st' = ds_high st /\
  ds_params st' = ds_params st /\ ds_time st' = ds_time st /\ ds_cool st' = ds_cool st.
Proof.
  unfold perform_delegation. destruct (bool_decide _); [|done].
  pose proof (withdrawal_frame (remove_index st s) s d) as HW.
  destruct (perform_withdrawal (remove_index st s) s d) as [sw err]. simpl in HW.
  destruct (f1_remove _ d) as [f und]. simpl. naive_solver.
Qed.

Lemma process_one_frame st low e :
  let st' := fst (process_one st low e) in
  ds_queue st' = delete (low + 1)%N (ds_queue st) /\ ds_low st' = ds_low st /\ ds_high st' = ds_high st /\
  ds_params st' = ds_params st /\ ds_time st' = ds_time st /\ ds_cool st' = ds_cool st.
Proof.
  unfold process_one.
  pose proof (undelegation_frame st (u_staker e) (u_delegator e) (u_amount e)) as HU.
  destruct (perform_undelegation st (u_staker e) (u_delegator e) (u_amount e)) as [st1 paid]. simpl in HU.
  destruct HU as (HU1 & HU2 & HU3 & HU4 & HU5 & HU6).
  unfold pay_user. destruct (send _ _ _ _); simpl; rewrite ?HU1; done.
Qed.

Lemma Good_process_one st b low e :
  Good st b -> 0 <= u_amount e ->
  Good (fst (process_one st low e)) (b_undelegate b (u_staker e) (u_delegator e) (u_amount e)) /\
  snd (process_one st low e) = Z.min (u_amount e) (lg_balance (gl b (u_staker e)) (u_delegator e)).
Proof.
  intros HG Ha. unfold process_one.
  destruct (Good_undelegate st b (u_staker e) (u_delegator e) (u_amount e) HG Ha) as [HG1 Hp].
  destruct (perform_undelegation _ _ _ _) as [st1 paid]. simpl in HG1, Hp. simpl. split; [|done].
  unfold pay_user. destruct (send _ _ _ _); simpl; (eapply Good_same_f1; [|exact HG1]; done).
Qed.

Lemma Good_loop fuel st b low :
  Good st b -> queue_ok st ->
  Good (fst (fst (process_loop fuel st low))) (b_loop fuel st b low) /\
  queue_ok (fst (fst (process_loop fuel st low))) /\
  ds_params (fst (fst (process_loop fuel st low))) = ds_params st.
Proof.
  revert st b low. induction fuel as [|fuel IH]; intros st b low HG HQ; simpl; [done|].
  destruct (ds_queue st !! (low + 1)%N) as [e|] eqn:Ee.
  - destruct (due st e); [|done].
    destruct (Good_process_one st b low e HG (HQ _ _ Ee)) as [HG1 _].
    pose proof (process_one_frame st low e) as HF. simpl in HF.
    destruct (process_one st low e) as [st3 paid]. simpl in HG1, HF. simpl.
    destruct HF as (Hq & _ & _ & Hp & _).
    specialize (IH st3 (b_undelegate b (u_staker e) (u_delegator e) (u_amount e)) (low + 1)%N HG1).
    destruct (process_loop fuel st3 (low + 1)%N) as [[st4 low'] out]. simpl in *.
    rewrite <- Hp. apply IH.
    intros k e' Hk. rewrite Hq in Hk. apply lookup_delete_Some in Hk as [_ Hk]. by eapply HQ.
  - destruct (low <? ds_high st)%N; [by apply IH|done].
Qed.

Lemma valid_fraction p t : dparams_valid p = true -> 0 <= slash_fraction p t <= ONE.
Proof. unfold dparams_valid. intros. destruct t; simpl; lia. Qed.

Definition Env (st : dstate) : Prop := queue_ok st /\ dparams_valid (ds_params st) = true.

Lemma f_data_some_dec f : f_data f = None \/ f_data f <> None.
Proof. destruct (f_data f); [by right|by left]. Qed.

Lemma Good_step st b o :
  Good st b -> Env st -> dop_ok st o ->
  Good (dstep st o) (b_step st b o) /\ Env (dstep st o).
Proof.
  intros HG [HQ HP] Hok. destruct o; simpl in *.
  - (* delegate *)
    unfold msg_delegate. destruct staker_exists; simpl; [|done].
    pose proof (Good_delegate st b s d amount HG ltac:(lia)) as HG1.
    pose proof (delegation_frame st s d amount) as HF. simpl in HF.
    destruct (send _ _ _ _); simpl; [|done].
    split; [by eapply Good_same_f1; [|exact HG1]|]. unfold Env, queue_ok. simpl.
    destruct HF as (-> & _ & _ & -> & _). done.
  - (* undelegate *)
    unfold msg_undelegate. destruct (amount >? _); simpl; [done|].
    split; [by eapply Good_same_f1; [|exact HG]|]. split; [|done].
    intros k e Hk. simpl in Hk. apply lookup_insert_Some in Hk as [[_ <-]|[_ Hk]]; [simpl; lia|by eapply HQ].
  - (* redelegate *)
    unfold msg_redelegate.
    destruct (negb (bool_decide _)); [done|]. destruct target_exists; simpl; [|done].
    destruct target_active; simpl; [|done]. destruct (amount >? _); [done|].
    destruct (consume_spell _ _ _) as [l|]; [|done].
    set (st1 := with_cool _ _).
    assert (HG1 : Good st1 b) by (by eapply Good_same_f1; [|exact HG]).
    destruct (Good_undelegate st1 b from d amount HG1 ltac:(lia)) as [HG2 _].
    pose proof (undelegation_frame st1 from d amount) as HF. simpl in HF.
    destruct (perform_undelegation st1 from d amount) as [st2 actual]. simpl in HG2, HF.
    destruct (negb (actual =? amount)); [done|]. simpl.
    split; [apply Good_delegate; [done|lia]|].
    pose proof (delegation_frame st2 to d amount) as HF2. cbv zeta in HF2.
    unfold Env, queue_ok. destruct HF2 as (-> & _ & _ & -> & _). destruct HF as (-> & _ & _ & -> & _). done.
  - (* withdraw *)
    unfold msg_withdraw. destruct (negb (bool_decide _)); [done|].
    pose proof (Good_withdrawal st b s d HG) as HG1.
    pose proof (withdrawal_frame st s d) as HF. simpl in HF.
    destruct (perform_withdrawal st s d) as [st1 [r|]]; [|done]. simpl in *.
    split; [done|]. unfold Env, queue_ok. destruct HF as (-> & _ & _ & -> & _). done.
  - (* payout *)
    unfold payout_rewards. destruct Hok as [Hc _].
    destruct (cempty c); [done|]. destruct (f_data (getf st s)) eqn:Ed; [|done].
    destruct (send _ _ _ _); [|done]. simpl. split; [|done].
    eapply Good_same_f1; [reflexivity|]. destruct (HG s) as [HR HL].
    apply Good_upd; [done| |by apply LGood_reward]. apply Rel_add_rewards; [done|done|congruence].
  - (* slash *)
    unfold slash_delegators. destruct (f_data (getf st s)) eqn:Ed; [|done].
    pose proof (valid_fraction _ t HP) as Hfr. destruct (HG s) as [HR HL].
    destruct (Rel_slash _ _ _ HR Hfr) as [HR1 _]. pose proof (LGood_slash _ _ _ HL Hfr) as HL1.
    change (getf (remove_index st s) s) with (getf st s).
    change (ds_params (remove_index st s)) with (ds_params st).
    destruct (f1_slash (getf st s) (slash_fraction (ds_params st) t)) as [f sl] eqn:Es. simpl in HR1.
    assert (HG1 : Good (setf (remove_index st s) s f) (b_slash b s (slash_fraction (ds_params st) t))).
    { apply Good_upd; [by eapply Good_same_f1; [|exact HG]|done|done]. }
    destruct (send _ _ _ _); simpl; (split; [eapply Good_same_f1; [|exact HG1]; done|done]).
  - (* begin block *)
    unfold process_queue. set (st1 := with_time st (ds_time st + dt)).
    assert (HG1 : Good st1 b) by (by eapply Good_same_f1; [|exact HG]).
    destruct (Good_loop (queue_fuel st1) st1 b (ds_low st1) HG1 HQ) as (HG2 & HQ2 & HP2).
    destruct (process_loop _ _ _) as [[st2 low] out]. simpl in *.
    split; [by eapply Good_same_f1; [|exact HG2]|]. split; [done|]. simpl. by rewrite HP2.
  - done.
  - split; [by eapply Good_same_f1; [|exact HG]|done].
Qed.

Lemma Good_run st b ops :
  Good st b -> Env st -> ops_ok st ops ->
  Good (drun st ops) (brun st b ops) /\ Env (drun st ops).
Proof.
  revert st b. induction ops as [|o t IH]; intros st b HG HE Hok; simpl in *; [done|].
  destruct Hok as [Ho Hok]. destruct (Good_step st b o HG HE Ho) as [HG1 HE1]. by apply IH.
Qed.

Lemma Good_init bk p t : Good (dinit bk p t) ∅.
Proof.
  intros s. unfold getf, gl, ga, page, dinit. simpl. rewrite !lookup_empty. simpl.
  split; [apply Rel_empty|]. split; [apply LWeak_empty|]. intros _. apply LInv_empty.
Qed.
