(** * Funders: concrete histories and counterexamples. *)
From Verif Require Import Base BaseFacts Funders FundersInv FundersRun FundersClaims.

Lemma some_ne {A} (o : option A) : match o with Some _ => true | None => false end = true -> o <> None.
Proof. by destruct o. Qed.

(** Boolean form of the admissibility of inputs (no bank interference). *)
Definition cposb (c : coins) : bool := forallb (fun p => 0 <? snd p) (map_to_list c).
Lemma cposb_ok c : cposb c = true -> cpos c.
Proof.
  unfold cposb. rewrite forallb_forall. intros H d x Hx. specialize (H (d, x)).
  assert (0 <? x = true); [|lia]. apply H. apply elem_of_list_In. by apply elem_of_map_to_list.
Qed.
Definition fparams_okb (p : fparams) : bool :=
  forallb (fun e => (0 <=? w_decimals e) && (0 <=? w_min e) && (0 <=? w_minpb e) && (0 <=? w_weight e)) (fp_list p)
  && (0 <=? fp_multiple p) && (fp_multiple p <? two64).
Lemma fparams_okb_ok p : fparams_okb p = true -> fparams_ok p.
Proof.
  unfold fparams_okb, fparams_ok. rewrite !andb_true_iff, forallb_forall. intros [[H1 H2] H3].
  split; [|lia]. apply Forall_forall. intros e He. apply elem_of_list_In in He. specialize (H1 e He). unfold wentry_ok. lia.
Qed.
Definition fop_okb (st : fstate) (o : fop) : bool :=
  match o with
  | FCreateState p => match fs_active st !! p with None => true | Some _ => false end
  | FFund _ _ _ amounts apb => cposb amounts && cposb apb && negb (cempty amounts && cempty apb)
  | FDefund _ _ amounts => cposb amounts && negb (cempty amounts)
  | FCharge _ r => match r with MFunders | User _ => false | _ => true end
  | FParams p => fparams_okb p
  | FBank _ => false
  | _ => true
  end.
Fixpoint fops_okb (st : fstate) (ops : list fop) : bool :=
  match ops with [] => true | o :: t => fop_okb st o && fops_okb (fstep st o) t end.
Lemma fop_okb_ok st o : fop_okb st o = true -> fop_ok st o.
Proof.
  destruct o; simpl; rewrite ?andb_true_iff, ?negb_true_iff, ?andb_false_iff; try done.
  - by destruct (_ !! _).
  - intros [[H1 H2] H3]. split; [by apply cposb_ok|]. split; [by apply cposb_ok|].
    destruct H3 as [H3|H3]; apply cempty_false in H3; by auto.
  - intros [H1 H2]. split; [by apply cposb_ok|by apply cempty_false].
  - by destruct recipient.
  - apply fparams_okb_ok.
Qed.
Lemma fops_okb_ok st ops : fops_okb st ops = true -> fops_ok st ops.
Proof.
  revert st. induction ops as [|o t IH]; intros st H; simpl in *; [done|].
  apply andb_true_iff in H as [H1 H2]. split; [by apply fop_okb_ok|by apply IH].
Qed.
Lemma nonneg_empty (b : bank) x : bal_of b MFunders = ∅ -> 0 <= bal b MFunders x.
Proof. intros H. unfold bal. by rewrite H, amt_empty. Qed.

Definition USD : N := 2.
Definition fprm : fparams := mkFP [mkW KYVE 6 10 1 ONE; mkW USD 6 100 2 (2 * ONE)] 5.
Definition purse (k u : Z) : coins := cadd (coin KYVE k) (coin USD u).
Definition fbk : bank := <[User 1 := purse 100000000 100000000]> (<[User 2 := purse 100000000 100000000]> ∅).

(** ** A history exercising every operation *)
Definition g1 : list fop :=
  [ FCreateFunder 1; FCreateFunder 2; FCreateState 0; FCreateState 1;
    FFund true 1 0 (purse 50 200) (purse 10 20); FFund true 2 0 (purse 30 0) (purse 4 0);
    FFund true 2 1 (purse 25 0) (purse 5 0);
    FCharge 0 MPool; FParams (mkFP [mkW KYVE 6 10 1 ONE] 5); FCharge 0 MPool;
    FParams fprm; FDefund 1 0 (purse 30 0); FCharge 0 MPool; FDefund 2 1 (purse 1000 0); FCharge 0 MPool ].
Example g1_reach : freach fbk fprm g1.
Proof.
  split; [apply fparams_okb_ok; by vm_compute|]. split; [intros x; by apply nonneg_empty|].
  apply fops_okb_ok. by vm_compute.
Qed.
Definition t1 : fstate := fend fbk fprm g1.
(** C32: 14 KYVE and 140 USD are left and held. *)
Example g1_backed : sum_rem t1 KYVE = 14 /\ sum_rem t1 USD = 140 /\ bal (fs_bank t1) MFunders USD = 140.
Proof. by vm_compute. Qed.
(** C33: funder 1 deposited 50 KYVE into pool 0, 30 came back and 20 were charged; 200 USD, 60 charged. *)
Example g1_ledger :
  over (finit fbk fprm) g1 (fun s o => deposited_by s o 1 0 KYVE) = 50 /\
  over (finit fbk fprm) g1 (fun s o => returned_by s o 1 0 KYVE) = 30 /\
  over (finit fbk fprm) g1 (fun s o => charged_by s o 1 0 KYVE) = 20 /\ rem t1 1 0 KYVE = 0 /\
  over (finit fbk fprm) g1 (fun s o => charged_by s o 1 0 USD) = 60 /\ rem t1 1 0 USD = 140 /\
  over (finit fbk fprm) g1 (fun s o => collected_by s o 0 KYVE) = 36.
Proof. by vm_compute. Qed.
(** C34: a further charge takes 4 KYVE of funder 2 and 20 USD of funder 1. *)
Example g1_charge : let st' := fstep t1 (FCharge 0 MPool) in
  fop_ok t1 (FCharge 0 MPool) /\
  rem t1 2 0 KYVE - rem st' 2 0 KYVE = 4 /\ apb_of t1 2 0 KYVE = 4 /\ rem t1 1 0 USD - rem st' 1 0 USD = 20 /\
  is_Some (fs_active t1 !! 0%N).
Proof. split; [done|]. repeat (split; [by vm_compute|]). apply (bool_decide_unpack _); by vm_compute. Qed.
(** C35: both funders of pool 0 are active; pool 1 is empty again. *)
Example g1_actives : actives t1 0 = [1%N; 2%N] /\ actives t1 1 = [] /\ Forall carries_coins g1.
Proof.
  split; [by vm_compute|]. split; [by vm_compute|].
  repeat (apply Forall_cons; split; [first [exact I|apply cempty_false; by vm_compute]|]). by apply Forall_nil.
Qed.
(** C36: an exit after governance raised all minimums and removed USD. *)
Definition g2 : list fop := g1 ++ [FParams (mkFP [mkW KYVE 6 1000000 1000 ONE] 18446744073709551615)].
Example g2_reach : freach fbk fprm g2.
Proof.
  split; [apply fparams_okb_ok; by vm_compute|]. split; [intros x; by apply nonneg_empty|].
  apply fops_okb_ok. by vm_compute.
Qed.
Example g2_exit : rem (fend fbk fprm g2) 1 0 USD = 140 /\
  user_bal (fstep (fend fbk fprm g2) (FDefund 1 0 (purse 500 500))) 1 USD - user_bal (fend fbk fprm g2) 1 USD = 140.
Proof. by vm_compute. Qed.
(** C38: a fund message accepted with its minimums met. *)
Example g1_meets : msg_fund t1 true 1 0 (purse 15 0) (purse 3 0) <> None /\
  meets (fs_params t1) USD (rem t1 1 0 USD) (apb_of t1 1 0 USD) /\ plain_list (fs_params t1).
Proof.
  split; [apply some_ne; by vm_compute|]. split.
  - assert (fs_params t1 = fprm) as -> by (by vm_compute).
    replace (rem t1 1 0 USD) with 140 by (by vm_compute). replace (apb_of t1 1 0 USD) with 20 by (by vm_compute).
    split; [done|]. split; [done|]. split; [exists (mkW USD 6 100 2 (2 * ONE)); split; [right; by left|done]|].
    intros e [<-|[<-|[]]]; simpl; [by intros [=]|done].
  - assert (fs_params t1 = fprm) as -> by (by vm_compute). split; [|split; [|done]].
    + apply (bool_decide_unpack _); by vm_compute.
    + repeat (apply Forall_cons; split; [done|]). by apply Forall_nil.
Qed.

(** ** C35: a fund message without coins takes a slot *)
Definition g3 : list fop := [FCreateFunder 1; FCreateState 0; FFund true 1 0 ∅ (purse 1 0)].
Lemma refute_actives : exists b pr ops p a, freach b pr ops /\
  a ∈ actives (fend b pr ops) p /\ forall x, rem (fend b pr ops) a p x = 0.
Proof.
  exists fbk, fprm, g3, 0%N, 1%N. split.
  { split; [apply fparams_okb_ok; by vm_compute|]. split; [intros x; by apply nonneg_empty|].
    apply fops_okb_ok. by vm_compute. }
  split; [apply (bool_decide_unpack _); by vm_compute|].
  intros x. unfold rem. replace (fs_fundings (fend fbk fprm g3) !! (1%N, 0%N)) with (Some (mkFd ∅ ∅ ∅)) by (by vm_compute).
  apply amt_empty.
Qed.

(** ** C37: full slots *)
(** 50 funders with a million more each, the first has the least. *)
Definition crowd_bank : bank := fold_right (fun i b => <[User (N.of_nat i) := purse 1000000000 0]> b) ∅ (seq 1 51).
Definition crowd : list fop :=
  FCreateState 0 :: flat_map (fun i => [FCreateFunder (N.of_nat i);
     FFund true (N.of_nat i) 0 (purse (Z.of_nat i * 1000000) 0) (purse 1 0)]) (seq 1 50).
Lemma crowd_reach ops : fops_okb (finit crowd_bank fprm) (crowd ++ ops) = true -> freach crowd_bank fprm (crowd ++ ops).
Proof.
  intros H. split; [apply fparams_okb_ok; by vm_compute|]. split; [intros x; apply nonneg_empty; by vm_compute|].
  by apply fops_okb_ok.
Qed.
(** Displacement of the first funder by funder 51 with ten million. *)
Definition newcomer (v : Z) : fop := FFund true 51 0 (purse v 0) (purse 1 0).
Definition before : fstate := fend crowd_bank fprm (crowd ++ [FCreateFunder 51]).
Example crowd_ok : freach crowd_bank fprm (crowd ++ [FCreateFunder 51]).
Proof. apply crowd_reach. by vm_compute. Qed.
Example crowd_displaced :
  length (actives before 0) = 50%nat /\ rem before 1 0 KYVE = 1000000 /\
  let st' := fstep before (newcomer 10000000) in
  rem st' 1 0 KYVE = 0 /\ user_bal st' 1 KYVE - user_bal before 1 KYVE = 1000000 /\ rem st' 51 0 KYVE = 10000000 /\
  rem (fstep before (newcomer 999999)) 51 0 KYVE = 0.
Proof. by vm_compute. Qed.

(** A funder who holds a slot tops up: the lowest funder loses their slot although 49 slots suffice. *)
Lemma refute_displaced_holder : exists b pr ops ex a p amounts apb c,
  freach b pr ops /\ fop_ok (fend b pr ops) (FFund ex a p amounts apb) /\ c <> a /\
  a ∈ actives (fend b pr ops) p /\
  0 < rem (fend b pr ops) c p KYVE /\
  rem (fstep (fend b pr ops) (FFund ex a p amounts apb)) c p KYVE = 0 /\
  length (actives (fstep (fend b pr ops) (FFund ex a p amounts apb)) p) = 49%nat.
Proof.
  exists crowd_bank, fprm, (crowd ++ [FCreateFunder 51]), true, 7%N, 0%N, (purse 10 0), (purse 1 0), 1%N.
  split; [exact crowd_ok|]. split; [apply fop_okb_ok; by vm_compute|]. split; [done|].
  split; [apply (bool_decide_unpack _); by vm_compute|]. by vm_compute.
Qed.
(** A newcomer with exactly the same coins displaces the lowest funder. *)
Lemma refute_displaced_equal : exists b pr ops ex a p amounts apb c,
  freach b pr ops /\ fop_ok (fend b pr ops) (FFund ex a p amounts apb) /\ c <> a /\
  a ∉ actives (fend b pr ops) p /\
  (forall x, amt amounts x = rem (fend b pr ops) c p x) /\ 0 < rem (fend b pr ops) c p KYVE /\
  rem (fstep (fend b pr ops) (FFund ex a p amounts apb)) c p KYVE = 0 /\
  rem (fstep (fend b pr ops) (FFund ex a p amounts apb)) a p KYVE = amt amounts KYVE.
Proof.
  exists crowd_bank, fprm, (crowd ++ [FCreateFunder 51]), true, 51%N, 0%N, (purse 1000000 0), (purse 1 0), 1%N.
  split; [exact crowd_ok|]. split; [apply fop_okb_ok; by vm_compute|]. split; [done|].
  split; [apply (bool_decide_unpack _); by vm_compute|]. split; [|by vm_compute].
  intros x. unfold rem.
  assert (fd_amounts <$> fs_fundings (fend crowd_bank fprm (crowd ++ [FCreateFunder 51])) !! (1%N, 0%N)
    = Some (purse 1000000 0)) as E by (apply (bool_decide_unpack _); by vm_compute).
  destruct (fs_fundings _ !! _) as [f|]; simpl in E; [|done]. injection E as ->. done.
Qed.

(** ** C38: a whitelisted coin without minimums cannot be funded *)
Definition zprm : fparams := mkFP [mkW KYVE 6 10 1 ONE; mkW USD 6 0 0 ONE] 5.
Definition g4 : list fop := [FCreateFunder 1; FCreateState 0].
Lemma refute_converse : exists b pr ops a p amounts apb,
  freach b pr ops /\ fop_ok (fend b pr ops) (FFund true a p amounts apb) /\
  a ∈ fs_funders (fend b pr ops) /\ is_Some (fs_active (fend b pr ops) !! p) /\
  (length (actives (fend b pr ops) p) < 50)%nat /\
  NoDup (map w_denom (fp_list (fs_params (fend b pr ops)))) /\ fp_multiple (fs_params (fend b pr ops)) < two63 /\
  (forall x, amt amounts x <= user_bal (fend b pr ops) a x) /\
  (forall x, rem (fend b pr ops) a p x + amt amounts x <> 0 ->
     meets (fs_params (fend b pr ops)) x (rem (fend b pr ops) a p x + amt amounts x)
       (if amt apb x =? 0 then apb_of (fend b pr ops) a p x else amt apb x)) /\
  msg_fund (fend b pr ops) true a p amounts apb = None.
Proof.
  exists fbk, zprm, g4, 1%N, 0%N, (purse 0 1000), (purse 0 10).
  split. { split; [apply fparams_okb_ok; by vm_compute|]. split; [intros x; by apply nonneg_empty|].
    apply fops_okb_ok. by vm_compute. }
  split; [apply fop_okb_ok; by vm_compute|].
  split; [apply (bool_decide_unpack _); by vm_compute|].
  split; [apply (bool_decide_unpack _); by vm_compute|].
  split; [apply (bool_decide_unpack _); by vm_compute|].
  split; [apply (bool_decide_unpack _); by vm_compute|].
  split; [by vm_compute|].
  assert (HA : forall x, amt (purse 0 1000) x = if (USD =? x)%N then 1000 else 0).
  { intros x. unfold purse. rewrite amt_cadd, !amt_coin. destruct (N.eqb_spec USD x); repeat case_decide; subst; (lia || congruence). }
  assert (HB : forall x, amt (purse 0 10) x = if (USD =? x)%N then 10 else 0).
  { intros x. unfold purse. rewrite amt_cadd, !amt_coin. destruct (N.eqb_spec USD x); repeat case_decide; subst; (lia || congruence). }
  split.
  { intros x. rewrite HA. destruct (USD =? x)%N eqn:E.
    - apply N.eqb_eq in E. subst x. by vm_compute.
    - change (user_bal (fend fbk zprm g4) 1 x) with (amt (purse 100000000 100000000) x).
      unfold purse. rewrite amt_cadd, !amt_coin. repeat case_decide; lia. }
  split; [|by vm_compute].
  intros x. replace (rem (fend fbk zprm g4) 1 0 x) with 0 by (by vm_compute). rewrite HA, HB.
  destruct (USD =? x)%N eqn:E; [|done]. apply N.eqb_eq in E. subst x. intros _.
  assert (fs_params (fend fbk zprm g4) = zprm) as -> by (by vm_compute). simpl.
  split; [lia|]. split; [done|]. split; [exists (mkW USD 6 0 0 ONE); split; [right; by left|done]|].
  intros e [<-|[<-|[]]]; simpl; [by intros [=]|lia].
Qed.
