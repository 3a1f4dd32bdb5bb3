(** * Funders: the claims. *)
From Verif Require Import Base BaseFacts Funders FundersInv FundersRun.

(** ** Observables *)
(** A funding's agreed amount per bundle. *)
Definition apb_of (st : fstate) (a p x : N) : Z :=
  match fs_fundings st !! (a, p) with Some f => amt (fd_apb f) x | None => 0 end.
Definition user_bal (st : fstate) (a x : N) : Z := bal (fs_bank st) (User a) x.
(** The active funders of a pool. *)
Definition actives (st : fstate) (p : N) : list N := default [] (fs_active st !! p).

(** Reachable states. *)
Definition freach (b : bank) (pr : fparams) (ops : list fop) : Prop :=
  fparams_ok pr /\ (forall x, 0 <= bal b MFunders x) /\ fops_ok (finit b pr) ops.
Definition fend (b : bank) (pr : fparams) (ops : list fop) : fstate := frun (finit b pr) ops.

Lemma freach_inv b pr ops : freach b pr ops -> FInv (fun x => bal b MFunders x + fdonations (finit b pr) ops x) (fend b pr ops).
Proof. intros (Hp & Hb & Hok). apply FInv_run; [by apply FInv_init|done]. Qed.

(** ** C32 *)
Lemma backed b pr ops : freach b pr ops ->
  fs_halt (fend b pr ops) = false /\
  forall x, bal (fs_bank (fend b pr ops)) MFunders x = bal b MFunders x + fdonations (finit b pr) ops x + sum_rem (fend b pr ops) x.
Proof. intros HR. pose proof (freach_inv _ _ _ HR) as HI. split; apply HI. Qed.

Lemma charge_ok b pr ops p r : freach b pr ops -> fop_ok (fend b pr ops) (FCharge p r) ->
  is_Some (fs_active (fend b pr ops) !! p) ->
  exists pays, snd (charge_funders (fend b pr ops) p r) = Some pays /\
    forall x, bal (fs_bank (fstep (fend b pr ops) (FCharge p r))) r x = bal (fs_bank (fend b pr ops)) r x + amt pays x.
Proof.
  intros HR Hr [l Hl]. pose proof (freach_inv _ _ _ HR) as HI. simpl in Hr.
  destruct (charge_spec _ _ p r HI Hr) as (_ & _ & _ & _ & HS). cbv zeta in HS.
  destruct (HS l Hl) as (pays & H1 & _ & _ & _ & _ & Hbk & _). exists pays. split; [done|].
  intros x. simpl. rewrite Hbk. rewrite decide_True by done.
  rewrite decide_False; [lia|]. by intros ->.
Qed.

(** ** Effect of a charge on each funding *)
Definition due (st : fstate) (p : N) (a q x : N) : Z :=
  if (q =? p)%N then if listed (wl st) x then Z.min (rem st a p x) (apb_of st a p x) else 0 else 0.

Lemma rem_nonneg base st a p x : FInv base st -> 0 <= rem st a p x.
Proof. intros HI. unfold rem. destruct (_ !! _) eqn:E; [|done]. apply cpos_amt. by apply (fi_pos _ _ HI _ _ E). Qed.
Lemma tot_nonneg base st a p x : FInv base st -> 0 <= tot st a p x.
Proof. intros HI. unfold tot. destruct (_ !! _) eqn:E; [|done]. apply cpos_amt. by apply (fi_pos _ _ HI _ _ E). Qed.
Lemma apb_nonneg base st a p x : FInv base st -> 0 <= apb_of st a p x.
Proof. intros HI. unfold apb_of. destruct (_ !! _) eqn:E; [|done]. apply cpos_amt. by apply (fi_pos _ _ HI _ _ E). Qed.

Lemma charge_effect base st p r : FInv base st -> fop_ok st (FCharge p r) ->
  let st' := fstep st (FCharge p r) in
  (forall a q x, rem st' a q x = rem st a q x - due st p a q x /\ tot st' a q x = tot st a q x + due st p a q x) /\
  (forall a x, user_bal st' a x = user_bal st a x).
Proof.
  intros HI Hr. cbv zeta. simpl. simpl in Hr.
  destruct (charge_spec _ _ p r HI Hr) as (_ & _ & _ & HN & HS). cbv zeta in HS.
  destruct (fs_active st !! p) as [l|] eqn:El.
  - destruct (HS l eq_refl) as (pays & H1 & _ & _ & Hk & Hc & Hbk & _). clear HN HS. split.
    + intros a q x. unfold rem, tot, due. destruct (decide (q = p /\ a ∈ l)) as [[-> Ha]|Hn].
      * destruct (fi_found _ _ HI p l a El Ha) as [f Hf]. rewrite (Hc a f Ha Hf), Hf, N.eqb_refl.
        destruct (charge_one_spec (wl st) f (fi_pos _ _ HI _ _ Hf)) as (_ & _ & HC). cbv zeta in HC.
        destruct (HC x) as (E1 & E2 & E3 & _). rewrite E2, E3, E1. unfold apb_of, rem. rewrite Hf. done.
      * rewrite (Hk (a, q)) by (cbn; tauto). destruct (q =? p)%N eqn:Eq; [|destruct (_ !! _); lia].
        apply N.eqb_eq in Eq. subst q.
        assert (rem st a p x = 0) as H0.
        { unfold rem. destruct (fs_fundings st !! (a, p)) as [f|] eqn:Ef; [|done].
          destruct (decide (fd_amounts f = ∅)) as [->|Hne]; [apply amt_empty|].
          exfalso. apply Hn. split; [done|]. by eapply fi_nonzero. }
        pose proof (apb_nonneg _ _ a p x HI). rewrite H0. fold (rem st a p x). rewrite H0.
        fold (tot st a p x). destruct (listed _ _); lia.
    + intros a x. unfold user_bal. rewrite Hbk. rewrite !decide_False; [lia|done|]. by intros <-.
  - destruct HN as [-> _]; [done|]. split; [|done]. intros a q x. unfold due.
    destruct (q =? p)%N eqn:Eq; [|lia]. apply N.eqb_eq in Eq. subst q.
    assert (fs_fundings st !! (a, p) = None) as H0.
    { destruct (fs_fundings st !! (a, p)) as [f|] eqn:Ef; [|done]. destruct (fi_state _ _ HI _ _ _ Ef). congruence. }
    unfold rem, tot, apb_of. rewrite H0. destruct (listed _ _); lia.
Qed.

(** ** C34 *)
Lemma charge_bounded b pr ops p r : freach b pr ops -> fop_ok (fend b pr ops) (FCharge p r) ->
  let st := fend b pr ops in let st' := fstep st (FCharge p r) in
  forall a q x,
  (q <> p -> rem st' a q x = rem st a q x) /\
  ((forall e, In e (fp_list (fs_params st)) -> w_denom e <> x) -> rem st' a q x = rem st a q x) /\
  (forall e, In e (fp_list (fs_params st)) -> w_denom e = x ->
     rem st a p x - rem st' a p x = Z.min (rem st a p x) (apb_of st a p x)) /\
  0 <= rem st a q x - rem st' a q x <= Z.min (rem st a q x) (apb_of st a q x) /\
  user_bal st' a x = user_bal st a x.
Proof.
  intros HR Hr. cbv zeta. pose proof (freach_inv _ _ _ HR) as HI. set (st := fend b pr ops) in *.
  destruct (charge_effect _ _ p r HI Hr) as [HE HU]. intros a q x.
  pose proof (apb_nonneg _ _ a q x HI). pose proof (rem_nonneg _ _ a q x HI).
  destruct (HE a q x) as [-> _]. destruct (HE a p x) as [-> _]. unfold due. rewrite N.eqb_refl.
  split. { intros Hq. apply N.eqb_neq in Hq. rewrite Hq. lia. }
  split. { intros Hl. destruct (listed (wl st) x) eqn:E; [|destruct (_ =? _)%N; lia].
           apply listed_spec in E as (e & H1 & H2). exfalso. by apply (Hl e). }
  split. { intros e H1 H2. assert (listed (wl st) x = true) as -> by (apply listed_spec; eauto). lia. }
  split; [|apply HU]. destruct (q =? p)%N eqn:Eq; [|lia]. apply N.eqb_eq in Eq. subst q. destruct (listed _ _); lia.
Qed.

(** ** C33: the ledger of a funder at a pool, read off the bank *)
(** Coins [a] paid with their own fund messages to the pool. *)
Definition deposited_by (st : fstate) (o : fop) (a p x : N) : Z :=
  match o with
  | FFund _ a' p' _ _ => if ((a' =? a) && (p' =? p))%N then user_bal st a x - user_bal (fstep st o) a x else 0
  | _ => 0
  end.
(** Coins [a] received from a message about the pool: own defund, or someone else's fund. *)
Definition returned_by (st : fstate) (o : fop) (a p x : N) : Z :=
  match o with
  | FFund _ a' p' _ _ => if (negb (a' =? a) && (p' =? p))%N then user_bal (fstep st o) a x - user_bal st a x else 0
  | FDefund a' p' _ => if ((a' =? a) && (p' =? p))%N then user_bal (fstep st o) a x - user_bal st a x else 0
  | _ => 0
  end.
(** What a bundle of the pool took from the funding of [a]. *)
Definition charged_by (st : fstate) (o : fop) (a p x : N) : Z :=
  match o with
  | FCharge p' _ => if (p' =? p)%N then rem st a p x - rem (fstep st o) a p x else 0
  | _ => 0
  end.
(** What the recipient of a charge of the pool received. *)
Definition collected_by (st : fstate) (o : fop) (p x : N) : Z :=
  match o with
  | FCharge p' r => if (p' =? p)%N then bal (fs_bank (fstep st o)) r x - bal (fs_bank st) r x else 0
  | _ => 0
  end.
Fixpoint over (st : fstate) (ops : list fop) (g : fstate -> fop -> Z) : Z :=
  match ops with [] => 0 | o :: t => g st o + over (fstep st o) t g end.

Lemma rem_of st st' a p x : fs_fundings st' !! (a, p) = fs_fundings st !! (a, p) -> rem st' a p x = rem st a p x.
Proof. intros H. unfold rem. by rewrite H. Qed.
Lemma tot_of st st' a p x : fs_fundings st' !! (a, p) = fs_fundings st !! (a, p) -> tot st' a p x = tot st a p x.
Proof. intros H. unfold tot. by rewrite H. Qed.

Lemma ledger_step base st o a p x : FInv base st -> fop_ok st o ->
  rem (fstep st o) a p x = rem st a p x + deposited_by st o a p x - charged_by st o a p x - returned_by st o a p x /\
  tot (fstep st o) a p x = tot st a p x + charged_by st o a p x.
Proof.
  intros HI Hok. destruct o; cbn [deposited_by charged_by returned_by].
  - simpl. unfold msg_create_funder. destruct (bool_decide _); simpl; unfold rem, tot; simpl; lia.
  - simpl. unfold rem, tot; simpl; lia.
  - simpl in Hok. destruct Hok as (Ha & Hb & _). cbn [fstep].
    destruct (msg_fund st pool_exists a0 p0 amounts apb) as [st'|] eqn:E.
    2:{ change (default st None) with st. destruct (_ =? _)%N, (_ =? _)%N; cbn; lia. }
    change (default st (Some st')) with st'.
    destruct (fund_spec base st pool_exists a0 p0 amounts apb st' HI Ha Hb E)
      as (act & Hact & _ & _ & _ & _ & _ & _ & Hcase). cbv zeta in Hcase.
    set (f1 := clean_apb (new_funding st a0 p0 amounts apb)) in *.
    assert (Hr1 : amt (fd_amounts f1) x = rem st a0 p0 x + amt amounts x) by apply new_funding_rem.
    assert (Ht1 : amt (fd_total f1) x = tot st a0 p0 x) by apply new_funding_tot.
    destruct Hcase as [(_ & Hf & _ & Hbk)|(b & fb & s & s0 & Hne & Hbin & _ & Hfb & _ & _ & _ & Hf & _ & Hbk)].
    + unfold user_bal. rewrite !Hbk. rewrite !(decide_False (P := User a = MFunders)) by done.
      destruct (p0 =? p)%N eqn:Ep, (a0 =? a)%N eqn:Ea; cbn [andb negb].
      * apply N.eqb_eq in Ep, Ea. subst. rewrite decide_True by done. unfold rem at 1, tot at 1. rewrite Hf, lookup_insert. lia.
      * apply N.eqb_eq in Ep. apply N.eqb_neq in Ea. subst. rewrite decide_False by congruence.
        rewrite (rem_of st), (tot_of st) by (rewrite Hf, lookup_insert_ne by congruence; done). lia.
      * apply N.eqb_neq in Ep. rewrite (rem_of st), (tot_of st) by (rewrite Hf, lookup_insert_ne by congruence; done). lia.
      * apply N.eqb_neq in Ep. rewrite (rem_of st), (tot_of st) by (rewrite Hf, lookup_insert_ne by congruence; done). lia.
    + unfold user_bal. rewrite !Hbk. rewrite !(decide_False (P := User a = MFunders)) by done.
      destruct (p0 =? p)%N eqn:Ep, (a0 =? a)%N eqn:Ea; cbn [andb negb].
      * apply N.eqb_eq in Ep, Ea. subst. rewrite (decide_True (P := User a = User a)) by done.
        rewrite decide_False by congruence. unfold rem at 1, tot at 1. rewrite Hf, lookup_insert. lia.
      * apply N.eqb_eq in Ep. apply N.eqb_neq in Ea. subst. rewrite (decide_False (P := User a = User a0)) by congruence.
        destruct (decide (a = b)) as [->|Hab].
        -- rewrite decide_True by done. unfold rem, tot. rewrite Hf, lookup_insert_ne, lookup_insert, Hfb by congruence.
           cbn [fd_amounts fd_total]. rewrite amt_empty. lia.
        -- rewrite decide_False by congruence.
           rewrite (rem_of st), (tot_of st) by (rewrite Hf, !lookup_insert_ne by congruence; done). lia.
      * apply N.eqb_neq in Ep. rewrite (rem_of st), (tot_of st) by (rewrite Hf, !lookup_insert_ne by congruence; done). lia.
      * apply N.eqb_neq in Ep. rewrite (rem_of st), (tot_of st) by (rewrite Hf, !lookup_insert_ne by congruence; done). lia.
  - simpl in Hok. destruct Hok as (Ha & _). cbn [fstep].
    destruct (msg_defund st a0 p0 amounts) as [st'|] eqn:E.
    2:{ change (default st None) with st. destruct (_ =? _)%N, (_ =? _)%N; cbn; lia. }
    change (default st (Some st')) with st'.
    destruct (defund_spec base st a0 p0 amounts st' HI Ha E) as (f & act & Hf0 & Hact & HS). cbv zeta in HS.
    destruct HS as (_ & _ & _ & _ & _ & _ & Hf & _ & Hbk). unfold user_bal. rewrite !Hbk.
    rewrite !(decide_False (P := User a = MFunders)) by done.
    destruct (p0 =? p)%N eqn:Ep, (a0 =? a)%N eqn:Ea; cbn [andb negb].
    + apply N.eqb_eq in Ep, Ea. subst. rewrite decide_True by done. unfold rem, tot. rewrite Hf, lookup_insert, Hf0.
      cbn [clean_apb fd_amounts fd_total]. rewrite amt_csub. lia.
    + apply N.eqb_neq in Ea. rewrite (rem_of st), (tot_of st) by (rewrite Hf, lookup_insert_ne by congruence; done). lia.
    + apply N.eqb_neq in Ep. rewrite (rem_of st), (tot_of st) by (rewrite Hf, lookup_insert_ne by congruence; done). lia.
    + apply N.eqb_neq in Ep. rewrite (rem_of st), (tot_of st) by (rewrite Hf, lookup_insert_ne by congruence; done). lia.
  - destruct (charge_effect base st p0 recipient HI Hok) as [HE _]. destruct (HE a p x) as [E1 E2].
    rewrite E1, E2. unfold due. rewrite (N.eqb_sym p0 p). destruct (p =? p0)%N eqn:Ep; lia.
  - simpl. unfold rem, tot; simpl; lia.
  - simpl. unfold rem, tot; simpl; lia.
Qed.

Lemma ledger_run base st ops a p x : FInv base st -> fops_ok st ops ->
  rem (frun st ops) a p x + over st ops (fun s o => charged_by s o a p x) + over st ops (fun s o => returned_by s o a p x)
    = rem st a p x + over st ops (fun s o => deposited_by s o a p x) /\
  tot (frun st ops) a p x = tot st a p x + over st ops (fun s o => charged_by s o a p x).
Proof.
  revert base st. induction ops as [|o t IH]; intros base st HI Hok; cbn [frun over]; [lia|].
  destruct Hok as [Ho Hok]. destruct (IH _ (fstep st o) (FInv_step _ _ _ HI Ho)) as [E1 E2]; [done|].
  destruct (ledger_step base st o a p x HI Ho) as [E3 E4]. lia.
Qed.

Lemma sum_tot_insert st st' a q f p x : fs_fundings st' = <[(a, q) := f]> (fs_fundings st) ->
  sum_tot st' p x = sum_tot st p x + if (q =? p)%N then amt (fd_total f) x - tot st a q x else 0.
Proof.
  intros H. unfold sum_tot, tot. rewrite H, msum_insert. cbn [snd]. destruct (q =? p)%N; destruct (_ !! _); lia.
Qed.
Lemma collected_step base st o p x : FInv base st -> fop_ok st o ->
  sum_tot (fstep st o) p x = sum_tot st p x + collected_by st o p x.
Proof.
  intros HI Hok. destruct o; cbn [collected_by].
  - simpl. unfold msg_create_funder. destruct (bool_decide _); simpl; unfold sum_tot; simpl; lia.
  - simpl. unfold sum_tot; simpl; lia.
  - simpl in Hok. destruct Hok as (Ha & Hb & _). cbn [fstep].
    destruct (msg_fund st pool_exists a p0 amounts apb) as [st'|] eqn:E.
    2:{ change (default st None) with st. lia. }
    change (default st (Some st')) with st'.
    destruct (fund_spec base st pool_exists a p0 amounts apb st' HI Ha Hb E)
      as (act & Hact & _ & _ & _ & _ & _ & _ & Hcase). cbv zeta in Hcase.
    set (f1 := clean_apb (new_funding st a p0 amounts apb)) in *.
    assert (Ht1 : amt (fd_total f1) x = tot st a p0 x) by apply new_funding_tot.
    destruct Hcase as [(_ & Hf & _ & _)|(b & fb & s & s0 & Hne & _ & _ & Hfb & _ & _ & _ & Hf & _ & _)].
    + rewrite (sum_tot_insert st st' _ _ _ p x Hf). destruct (_ =? _)%N; lia.
    + set (stm := set_funding st b p0 (mkFd ∅ ∅ (fd_total fb))).
      rewrite (sum_tot_insert stm st' _ _ _ p x Hf), (sum_tot_insert st stm _ _ _ p x eq_refl). cbn [fd_total].
      assert (tot stm a p0 x = tot st a p0 x) as -> by (apply tot_of; simpl; rewrite lookup_insert_ne by congruence; done).
      assert (tot st b p0 x = amt (fd_total fb) x) as -> by (unfold tot; by rewrite Hfb). destruct (_ =? _)%N; lia.
  - simpl in Hok. destruct Hok as (Ha & _). cbn [fstep].
    destruct (msg_defund st a p0 amounts) as [st'|] eqn:E.
    2:{ change (default st None) with st. lia. }
    change (default st (Some st')) with st'.
    destruct (defund_spec base st a p0 amounts st' HI Ha E) as (f & act & Hf0 & Hact & HS). cbv zeta in HS.
    destruct HS as (_ & _ & _ & _ & _ & _ & Hf & _ & Hbk).
    rewrite (sum_tot_insert st st' _ _ _ p x Hf). cbn [clean_apb fd_total]. unfold tot. rewrite Hf0. destruct (_ =? _)%N; lia.
  - simpl. simpl in Hok. destruct (charge_spec _ _ p0 recipient HI Hok) as (_ & _ & _ & HN & HS). cbv zeta in HS.
    destruct (fs_active st !! p0) as [l|] eqn:El.
    + destruct (HS l eq_refl) as (pays & _ & _ & _ & _ & _ & Hbk & _ & Ht & _). rewrite Ht, Hbk.
      rewrite (decide_True (P := recipient = recipient)) by done. rewrite decide_False by (by intros ->).
      rewrite (N.eqb_sym p p0). destruct (p0 =? p)%N; lia.
    + destruct HN as [-> _]; [done|]. destruct (_ =? _)%N; lia.
  - simpl. unfold sum_tot; simpl; lia.
  - simpl. unfold sum_tot; simpl; lia.
Qed.
Lemma collected_run base st ops p x : FInv base st -> fops_ok st ops ->
  sum_tot (frun st ops) p x = sum_tot st p x + over st ops (fun s o => collected_by s o p x).
Proof.
  revert base st. induction ops as [|o t IH]; intros base st HI Hok; cbn [frun over]; [lia|].
  destruct Hok as [Ho Hok]. rewrite (IH _ _ (FInv_step _ _ _ HI Ho)) by done.
  rewrite (collected_step base st o p x HI Ho). lia.
Qed.

Lemma ledger b pr ops a p x : freach b pr ops ->
  over (finit b pr) ops (fun s o => deposited_by s o a p x)
    = rem (fend b pr ops) a p x + over (finit b pr) ops (fun s o => charged_by s o a p x)
      + over (finit b pr) ops (fun s o => returned_by s o a p x) /\
  tot (fend b pr ops) a p x = over (finit b pr) ops (fun s o => charged_by s o a p x) /\
  sum_tot (fend b pr ops) p x = over (finit b pr) ops (fun s o => collected_by s o p x).
Proof.
  intros (Hp & Hb & Hok). pose proof (FInv_init b pr Hp Hb) as HI.
  destruct (ledger_run _ _ _ a p x HI Hok) as [E1 E2]. pose proof (collected_run _ _ _ p x HI Hok) as E3.
  unfold fend. change (rem (finit b pr) a p x) with 0 in *. change (tot (finit b pr) a p x) with 0 in *.
  assert (sum_tot (finit b pr) p x = 0) as E0 by (unfold sum_tot; simpl; apply msum_empty). lia.
Qed.

(** ** C35 *)
Lemma actives_spec b pr ops p : freach b pr ops ->
  NoDup (actives (fend b pr ops) p) /\ (length (actives (fend b pr ops) p) <= 50)%nat /\
  (forall a x, rem (fend b pr ops) a p x <> 0 -> a ∈ actives (fend b pr ops) p).
Proof.
  intros HR. pose proof (freach_inv _ _ _ HR) as HI. unfold actives.
  destruct (fs_active (fend b pr ops) !! p) as [l|] eqn:El; simpl.
  - destruct (fi_act _ _ HI _ _ El) as [H1 H2]. split; [done|]. split; [exact H2|].
    intros a x Hx. unfold rem in Hx. destruct (fs_fundings _ !! (a, p)) as [f|] eqn:Ef; [|done].
    eapply fi_nonzero; [exact HI|exact Ef| |exact El]. intros He. by rewrite He, amt_empty in Hx.
  - split; [constructor|]. split; [lia|]. intros a x Hx. unfold rem in Hx.
    destruct (fs_fundings _ !! (a, p)) as [f|] eqn:Ef; [|done]. destruct (fi_state _ _ HI _ _ _ Ef). congruence.
Qed.

(** Fund messages that carry no coins (only amounts per bundle) are accepted; histories without. *)
Definition carries_coins (o : fop) : Prop := match o with FFund _ _ _ amounts _ => amounts <> ∅ | _ => True end.
Definition FExact (st : fstate) : Prop := forall p l a, fs_active st !! p = Some l -> a ∈ l ->
  exists f, fs_fundings st !! (a, p) = Some f /\ fd_amounts f <> ∅.
Lemma FExact_step base st o : FInv base st -> fop_ok st o -> carries_coins o -> FExact st -> FExact (fstep st o).
Proof.
  intros HI Hok Hc HE. destruct o; simpl fstep.
  - unfold msg_create_funder. destruct (bool_decide _); exact HE.
  - intros q l a. simpl. destruct (decide (q = p)) as [->|].
    + rewrite lookup_insert. intros [= <-]. set_solver.
    + rewrite lookup_insert_ne by done. apply HE.
  - simpl in Hok. destruct Hok as (Ha & Hb & _). simpl in Hc.
    destruct (msg_fund st pool_exists a p amounts apb) as [st'|] eqn:E; [|exact HE].
    change (FExact st').
    destruct (fund_spec base st pool_exists a p amounts apb st' HI Ha Hb E)
      as (act & Hact & _ & _ & _ & _ & _ & _ & Hcase). cbv zeta in Hcase.
    set (f1 := clean_apb (new_funding st a p amounts apb)) in *.
    assert (Hne1 : fd_amounts f1 <> ∅).
    { intros He. apply Hc. apply cpos_empty_iff; [done|]. intros x.
      assert (amt (fd_amounts f1) x = rem st a p x + amt amounts x) as H1 by apply new_funding_rem.
      rewrite He, amt_empty in H1. pose proof (rem_nonneg _ _ a p x HI). pose proof (cpos_amt _ x Ha). lia. }
    destruct Hcase as [(_ & Hf & Hac & _)|(b & fb & s & s0 & Hne & Hbin & _ & Hfb & _ & _ & _ & Hf & Hac & _)].
    + intros q l a'. rewrite Hac, Hf. destruct (decide (q = p)) as [->|].
      * rewrite lookup_insert. intros [= <-] Hin. destruct (decide (a' = a)) as [->|]; [rewrite lookup_insert; eauto|].
        rewrite lookup_insert_ne by congruence. apply set_active_elem in Hin as [Hin| ->]; [|done]. by eapply HE.
      * rewrite !lookup_insert_ne by congruence. apply HE.
    + destruct (fi_act _ _ HI _ _ Hact) as [Hnd _]. intros q l a'. rewrite Hac, Hf. destruct (decide (q = p)) as [->|].
      * rewrite lookup_insert. intros [= <-] Hin. destruct (decide (a' = a)) as [->|]; [rewrite lookup_insert; eauto|].
        apply set_active_elem in Hin as [Hin| ->]; [|done]. apply set_inactive_elem in Hin as [Hin Hab]; [|done].
        rewrite !lookup_insert_ne by congruence. by eapply HE.
      * rewrite !lookup_insert_ne by congruence. apply HE.
  - simpl in Hok. destruct Hok as (Ha & _).
    destruct (msg_defund st a p amounts) as [st'|] eqn:E; [|exact HE].
    change (FExact st').
    destruct (defund_spec base st a p amounts st' HI Ha E) as (f & act & Hf0 & Hact & HS). cbv zeta in HS.
    set (f1 := clean_apb _) in *.
    destruct HS as (_ & _ & _ & _ & _ & _ & Hf & Hac & _). destruct (fi_act _ _ HI _ _ Hact) as [Hnd _].
    intros q l a'. rewrite Hac, Hf. destruct (decide (q = p)) as [->|].
    + rewrite lookup_insert. intros [= <-] Hin. destruct (decide (a' = a)) as [->|].
      * rewrite lookup_insert. eexists. split; [done|]. intros He. change (cempty _) with (cempty (fd_amounts f1)) in Hin. rewrite He in Hin. simpl in Hin.
        apply set_inactive_elem in Hin; [tauto|done].
      * rewrite lookup_insert_ne by congruence. apply (HE p act); [done|].
        destruct (cempty _); [by apply set_inactive_elem in Hin as [? _]|done].
    + rewrite !lookup_insert_ne by congruence. apply HE.
  - simpl in Hok. destruct (charge_spec _ _ p recipient HI Hok) as (HI' & _ & _ & HN & HS). cbv zeta in HS.
    destruct (fs_active st !! p) as [l|] eqn:El; [|by destruct HN as [-> _]].
    destruct (HS l eq_refl) as (pays & _ & _ & Hact & Hk & _ & _ & _ & _ & l' & Hl' & Hin').
    intros q l0 a Hq Ha. destruct (decide (q = p)) as [->|Hn].
    + rewrite Hl' in Hq. injection Hq as <-. apply Hin' in Ha as [Ha Hne].
      destruct (fi_found _ _ HI' p l' a Hl') as [f Hf]; [by apply Hin'|]. exists f. split; [done|]. by apply Hne.
    + rewrite Hact in Hq by done. rewrite (Hk (a, q)) by (cbn; tauto). by eapply HE.
  - exact HE.
  - exact HE.
Qed.
Lemma FExact_run base st ops : FInv base st -> fops_ok st ops -> Forall carries_coins ops -> FExact st -> FExact (frun st ops).
Proof.
  revert base st. induction ops as [|o t IH]; intros base st HI Hok Hc HE; simpl in *; [done|].
  destruct Hok as [Ho Hok]. inversion Hc; subst. apply (IH _ _ (FInv_step _ _ _ HI Ho)); [done|done|by eapply FExact_step].
Qed.
Lemma actives_exact b pr ops p : freach b pr ops -> Forall carries_coins ops ->
  forall a, a ∈ actives (fend b pr ops) p <-> exists x, 0 < rem (fend b pr ops) a p x.
Proof.
  intros HR Hc a. pose proof (freach_inv _ _ _ HR) as HI. split.
  - unfold actives. destruct (fs_active _ !! p) as [l|] eqn:El; [|set_solver]. simpl. intros Ha.
    destruct HR as (Hp & Hb & Hok).
    destruct (FExact_run _ _ _ (FInv_init b pr Hp Hb) Hok Hc) with (p := p) (l := l) (a := a) as (f & Hf & Hne); try done.
    fold (fend b pr ops) in Hf. apply map_choose in Hne as (x & v & Hx). exists x. unfold rem. rewrite Hf.
    unfold amt. rewrite Hx. simpl. by apply (fi_pos _ _ HI _ _ Hf) in Hx.
  - intros [x Hx]. destruct (actives_spec b pr ops p HR) as (_ & _ & H). apply (H a x). lia.
Qed.

(** ** C36 *)
Lemma exit_ok b pr ops a p amounts : freach b pr ops ->
  let st := fend b pr ops in
  (exists x, rem st a p x <> 0) -> cpos amounts -> (forall x, rem st a p x <= amt amounts x) ->
  exists st', msg_defund st a p amounts = Some st' /\
    fs_halt st' = false /\
    (forall x, rem st' a p x = 0 /\ user_bal st' a x = user_bal st a x + rem st a p x).
Proof.
  intros HR. cbv zeta. intros [x0 Hx0] Ha Hge. pose proof (freach_inv _ _ _ HR) as HI. set (st := fend b pr ops) in *.
  destruct (fs_fundings st !! (a, p)) as [f|] eqn:Ef; [|unfold rem in Hx0; by rewrite Ef in Hx0].
  assert (Hrem : forall x, rem st a p x = amt (fd_amounts f) x) by (intros x; unfold rem; by rewrite Ef).
  destruct (fi_state _ _ HI _ _ _ Ef) as [act Hact]. destruct (fi_pos _ _ HI _ _ Ef) as (H1 & H2 & H3).
  destruct (msg_defund st a p amounts) as [st'|] eqn:E.
  - exists st'. split; [done|]. pose proof (FInv_defund _ _ _ _ _ _ HI Ha E) as HI'. split; [apply HI'|].
    destruct (defund_spec _ st a p amounts st' HI Ha E) as (f' & act' & Hf0 & _ & HS). cbv zeta in HS.
    rewrite Ef in Hf0. injection Hf0 as <-. destruct HS as (_ & _ & _ & _ & _ & _ & Hf & _ & Hbk).
    intros x. specialize (Hge x). rewrite Hrem in *. split.
    + unfold rem. rewrite Hf, lookup_insert. cbn [clean_apb fd_amounts]. rewrite amt_csub, amt_cmin. lia.
    + unfold user_bal. rewrite Hbk, amt_cmin. rewrite decide_True by done. rewrite decide_False by done. lia.
  - exfalso. unfold msg_defund in E. rewrite Ef, Hact in E.
    set (d := cmin (fd_amounts f) amounts) in *.
    assert (Hd : forall x, amt d x = amt (fd_amounts f) x).
    { intros x. unfold d. rewrite amt_cmin. specialize (Hge x). rewrite Hrem in Hge. lia. }
    destruct (cempty d) eqn:Ed. { apply cempty_spec in Ed. rewrite Hrem, <- Hd, Ed, amt_empty in Hx0. done. }
    set (nf := mkFd (csub (fd_amounts f) d) (fd_apb f) (fd_total f)) in *.
    assert (Hnf : fpos nf). { split; [apply cpos_csub; intros x; rewrite Hd; lia|]. by split. }
    destruct (ensure_params_spec (fs_params st) nf (fi_params _ _ HI) Hnf) as [_ HE2].
    rewrite (proj2 HE2) in E.
    2:{ intros x Hx. exfalso. apply Hx. cbn [nf fd_amounts]. unfold nf. cbn [fd_amounts]. rewrite amt_csub, Hd. lia. }
    destruct (send _ _ _ _) eqn:Es; [done|]. apply send_None in Es; [|apply cpos_of_amt; [apply cnz_cmerge|intros x; rewrite Hd; by apply cpos_amt]].
    assert (cle d (bal_of (fs_bank st) MFunders) = true); [|congruence].
    apply cle_bal. intros x. rewrite Hd. rewrite (fi_bank _ _ HI). pose proof (fi_base _ _ HI x).
    assert (amt (fd_amounts f) x <= sum_rem st x); [|pose proof (cpos_amt _ x H1); lia].
    unfold sum_rem. assert (HH : 0 <= msum (fun _ f => amt (fd_amounts f) x) (delete (a, p) (fs_fundings st))).
    { apply msum_nonneg. intros k g Hk. apply lookup_delete_Some in Hk as [_ Hk]. apply cpos_amt. by apply (fi_pos _ _ HI _ _ Hk). }
    rewrite (msum_delete _ _ _ f Ef) in HH. lia.
Qed.

(** ** C37 *)
Lemma displaced b pr ops ex a p amounts apb c : freach b pr ops ->
  let st := fend b pr ops in
  fop_ok st (FFund ex a p amounts apb) -> c <> a ->
  let st' := fstep st (FFund ex a p amounts apb) in
  (forall q, q <> p -> fs_fundings st' !! (c, q) = fs_fundings st !! (c, q)) /\
  ((fs_fundings st' !! (c, p) = fs_fundings st !! (c, p) /\ forall x, user_bal st' c x = user_bal st c x) \/
   (length (actives st p) = 50%nat /\ c ∈ actives st p /\ c ∉ actives st' p /\
    (forall x, rem st' c p x = 0 /\ user_bal st' c x = user_bal st c x + rem st c p x) /\
    exists fc fa s0 s, fs_fundings st !! (c, p) = Some fc /\ fs_fundings st' !! (a, p) = Some fa /\
      score (fp_list (fs_params st)) (fd_amounts fc) = Some s0 /\ score (fp_list (fs_params st)) (fd_amounts fa) = Some s /\
      s0 <= s /\
      forall d fd, d ∈ actives st p -> fs_fundings st !! (d, p) = Some fd ->
        exists sd, score (fp_list (fs_params st)) (fd_amounts fd) = Some sd /\ s0 <= sd)).
Proof.
  intros HR. cbv zeta. intros (Ha & Hb & _) Hne. pose proof (freach_inv _ _ _ HR) as HI.
  set (st := fend b pr ops) in *. cbn [fstep].
  destruct (msg_fund st ex a p amounts apb) as [st'|] eqn:E.
  2:{ change (default st None) with st. split; [done|]. by left. }
  change (default st (Some st')) with st'.
  destruct (fund_spec _ st ex a p amounts apb st' HI Ha Hb E)
    as (act & Hact & _ & _ & _ & _ & _ & _ & Hcase). cbv zeta in Hcase.
  set (f1 := clean_apb (new_funding st a p amounts apb)) in *.
  destruct Hcase as [(_ & Hf & Hac & Hbk)|(e & fb & s & s0 & Hne' & Hbin & Hlen & Hfb & Hlow & Hs & Hle & Hf & Hac & Hbk)].
  - split; [intros q Hq; by rewrite Hf, lookup_insert_ne by congruence|]. left.
    split; [by rewrite Hf, lookup_insert_ne by congruence|]. intros x. unfold user_bal. rewrite Hbk.
    rewrite !decide_False by congruence. lia.
  - split; [intros q Hq; by rewrite Hf, !lookup_insert_ne by congruence|].
    destruct (decide (c = e)) as [->|Hce].
    + right. unfold actives. rewrite Hact, Hac, lookup_insert. simpl.
      destruct (fi_act _ _ HI _ _ Hact) as [Hnd _].
      split; [exact Hlen|]. split; [done|]. split.
      { intros Hin. apply set_active_elem in Hin as [Hin|?]; [|done]. by apply set_inactive_elem in Hin as [_ ?]. }
      split.
      { intros x. unfold rem, user_bal. rewrite Hf, lookup_insert_ne, lookup_insert, Hfb by congruence.
        cbn [fd_amounts]. rewrite amt_empty, Hbk. split; [done|].
        rewrite (decide_False (P := User e = User a)) by congruence. rewrite decide_True by done.
        rewrite decide_False by done. lia. }
      pose proof (lowest_spec _ _ _ _ _ Hlow) as (_ & Hs0 & Hmin).
      exists fb, f1, s0, s. split; [done|]. split; [by rewrite Hf, lookup_insert|].
      split; [done|]. split; [done|]. split; [done|]. intros d fd Hd Hfd. apply (Hmin d fd). by apply active_fundings_elem.
    + left. split; [by rewrite Hf, !lookup_insert_ne by congruence|]. intros x. unfold user_bal. rewrite Hbk.
      rewrite !decide_False by congruence. lia.
Qed.

(** ** C38 *)
Lemma listed_sum_ge g l e : Forall (fun e => 0 <= g e) l -> In e l -> g e <= listed_sum g l (w_denom e).
Proof.
  induction 1 as [|e' l He Hl IH]; simpl; [done|]. intros [->|Hin].
  - rewrite N.eqb_refl. pose proof (listed_sum_nonneg g l (w_denom e) Hl). lia.
  - specialize (IH Hin). destruct (_ =? _)%N; lia.
Qed.
Lemma listed_sum_unique g l e : NoDup (map w_denom l) -> In e l -> listed_sum g l (w_denom e) = g e.
Proof.
  induction l as [|e' l IH]; simpl; [done|]. intros Hnd Hin. apply NoDup_cons in Hnd as [Hni Hnd].
  destruct Hin as [->|Hin].
  - rewrite N.eqb_refl. enough (listed_sum g l (w_denom e) = 0) by lia.
    clear IH Hnd. induction l as [|e'' l IH]; simpl; [done|]. simpl in Hni. apply not_elem_of_cons in Hni as [H1 H2].
    destruct (_ =? _)%N eqn:E; [apply N.eqb_eq in E; congruence|]. by rewrite IH.
  - destruct (_ =? _)%N eqn:E; [|by rewrite IH]. apply N.eqb_eq in E. exfalso. apply Hni. rewrite E.
    apply elem_of_list_In, in_map, Hin.
Qed.

(** The published conditions on one coin of a funding. *)
Definition meets (p : fparams) (d : N) (remaining per_bundle : Z) : Prop :=
  0 < per_bundle /\ fp_multiple p * per_bundle <= remaining /\
  (exists e, In e (fp_list p) /\ w_denom e = d) /\
  forall e, In e (fp_list p) -> w_denom e = d -> w_min e <= remaining /\ w_minpb e <= per_bundle.

Lemma compatible_meets p am apb d : fparams_ok p -> compatible p am apb -> amt am d <> 0 -> meets p d (amt am d) (amt apb d).
Proof.
  intros [Hl _] HC Hd. destruct (HC d Hd) as ([H1 H2] & [H3 H4] & _ & H5).
  split; [lia|]. split; [done|]. split; [by apply listed_spec, (listed_sum_pos w_min)|].
  intros e He <-. pose proof (listed_sum_ge w_min (fp_list p) e). pose proof (listed_sum_ge w_minpb (fp_list p) e).
  assert (Forall (fun e => 0 <= w_min e) (fp_list p)) by (eapply Forall_impl; [exact Hl|]; intros ? (?&?&?&?); done).
  assert (Forall (fun e => 0 <= w_minpb e) (fp_list p)) by (eapply Forall_impl; [exact Hl|]; intros ? (?&?&?&?); done).
  split; [etransitivity; [apply H|]|etransitivity; [apply H0|]]; done.
Qed.

Lemma accepted_meets b pr ops o a p : freach b pr ops ->
  let st := fend b pr ops in
  fop_ok st o ->
  match o with
  | FFund ex a' p' amounts apb => a' = a /\ p' = p /\ msg_fund st ex a' p' amounts apb <> None
  | FDefund a' p' amounts => a' = a /\ p' = p /\ msg_defund st a' p' amounts <> None
  | _ => False
  end ->
  forall x, rem (fstep st o) a p x <> 0 ->
    meets (fs_params st) x (rem (fstep st o) a p x) (apb_of (fstep st o) a p x).
Proof.
  intros HR. cbv zeta. intros Hok Ho x Hx. pose proof (freach_inv _ _ _ HR) as HI.
  set (st := fend b pr ops) in *. pose proof (fi_params _ _ HI) as Hp. destruct o; try done; cbn [fstep] in *.
  - destruct Ho as (-> & -> & Ho). destruct Hok as (Ha & Hb & _).
    destruct (msg_fund st pool_exists a p amounts apb) as [st'|] eqn:E; [|done].
    change (default st (Some st')) with st' in *.
    destruct (fund_spec _ st pool_exists a p amounts apb st' HI Ha Hb E)
      as (act & Hact & _ & _ & HC & _ & _ & _ & Hcase). cbv zeta in *.
    set (f1 := clean_apb (new_funding st a p amounts apb)) in *.
    assert (fs_fundings st' !! (a, p) = Some f1) as Hf.
    { destruct Hcase as [(_ & Hf & _)|(?&?&?&?&_&_&_&_&_&_&_&Hf&_)]; by rewrite Hf, lookup_insert. }
    unfold rem, apb_of in *. rewrite Hf in *. by apply compatible_meets.
  - destruct Ho as (-> & -> & Ho). destruct Hok as (Ha & _).
    destruct (msg_defund st a p amounts) as [st'|] eqn:E; [|done].
    change (default st (Some st')) with st' in *.
    destruct (defund_spec _ st a p amounts st' HI Ha E) as (f & act & _ & _ & HS). cbv zeta in HS.
    destruct HS as (_ & _ & HC & _ & _ & _ & Hf & _).
    unfold rem, apb_of in *. rewrite Hf, lookup_insert in *. by apply compatible_meets.
Qed.

(** Converse for unambiguous whitelists with positive minimums. *)
Definition plain_list (p : fparams) : Prop :=
  NoDup (map w_denom (fp_list p)) /\ Forall (fun e => 0 < w_min e /\ 0 < w_minpb e) (fp_list p) /\ fp_multiple p < two63.

Lemma meets_accepted b pr ops a p amounts apb : freach b pr ops ->
  let st := fend b pr ops in
  fop_ok st (FFund true a p amounts apb) -> plain_list (fs_params st) ->
  a ∈ fs_funders st -> is_Some (fs_active st !! p) -> (length (actives st p) < 50)%nat ->
  (forall x, amt amounts x <= user_bal st a x) ->
  (forall x, rem st a p x + amt amounts x <> 0 ->
     meets (fs_params st) x (rem st a p x + amt amounts x) (if amt apb x =? 0 then apb_of st a p x else amt apb x)) ->
  exists st', msg_fund st true a p amounts apb = Some st' /\
    (forall x, rem st' a p x = rem st a p x + amt amounts x /\
       (rem st' a p x <> 0 -> apb_of st' a p x = if amt apb x =? 0 then apb_of st a p x else amt apb x) /\
       user_bal st' a x = user_bal st a x - amt amounts x).
Proof.
  intros HR. cbv zeta. pose proof (freach_inv _ _ _ HR) as HI. set (st := fend b pr ops) in *.
  intros (Ha & Hb & _) (Hnd & Hpos & Hm) Hfu [act Hact] Hlen Hbal Hmeet. unfold actives in Hlen. rewrite Hact in Hlen. simpl in Hlen.
  pose proof (new_funding_pos _ st a p amounts apb HI Ha Hb) as Hfp.
  set (nf := new_funding st a p amounts apb) in *.
  assert (Hapb : forall x, amt (fd_apb nf) x = if amt apb x =? 0 then apb_of st a p x else amt apb x).
  { intros x. unfold nf, new_funding, apb_of. destruct (fs_fundings st !! (a, p)) as [f|] eqn:Ef; cbn [fd_apb].
    - unfold merge_apb. rewrite amt_cadd, amt_cfilter, has_denom_spec by done. destruct (amt apb x =? 0) eqn:E; cbn [negb]; lia.
    - destruct (amt apb x =? 0) eqn:E; lia. }
  assert (Ham : forall x, amt (fd_amounts nf) x = rem st a p x + amt amounts x).
  { intros x. apply (new_funding_rem st a p amounts apb x). }
  destruct (ensure_params_spec (fs_params st) nf (fi_params _ _ HI) Hfp) as [_ HE2].
  assert (Hcomp : compatible (fs_params st) (fd_amounts nf) (fd_apb nf)).
  { intros x. rewrite Ham, Hapb. intros Hx. destruct (Hmeet x Hx) as (H1 & H2 & (e & He & <-) & H4).
    rewrite !(listed_sum_unique _ _ _ Hnd He). destruct (H4 e He eq_refl) as [? ?].
    rewrite Forall_forall in Hpos. apply elem_of_list_In in He. destruct (Hpos e He) as [? ?]. done. }
  assert (Hfs : ensure_free_slot st p a (clean_apb nf) act = Some (st, act)).
  { unfold ensure_free_slot. rewrite (active_fundings_length st p act) by (intros c; apply (fi_found _ _ HI p act c Hact)).
    assert (length act <? MAX_FUNDERS = true)%nat as -> by (apply Nat.ltb_lt; exact Hlen). done. }
  destruct (send_is_Some (fs_bank st) (User a) MFunders amounts) as [bk Hbk]; [done|..].
  { apply cle_bal. intros x. split; [by apply cpos_amt|apply Hbal]. }
  eexists. split.
  { unfold msg_fund. rewrite bool_decide_eq_true_2 by done. cbn [negb]. rewrite Hact.
    fold (new_funding st a p amounts apb). fold nf. rewrite (proj2 HE2 Hcomp), Hfs, Hbk. done. }
  intros x. unfold rem at 1 3, apb_of at 1, user_bal. cbn [set_fstate set_funding fwith_bank fs_fundings fs_bank].
  rewrite lookup_insert. change (fd_amounts (clean_apb nf)) with (fd_amounts nf). rewrite Ham. split; [done|]. split.
  - intros Hx. rewrite clean_apb_amt, Ham, Hapb by done. destruct (rem st a p x + amt amounts x =? 0) eqn:E; [lia|done].
  - apply send_Some in Hbk as [_ Hbk]. rewrite Hbk. rewrite decide_True by done. rewrite decide_False by done. lia.
Qed.
