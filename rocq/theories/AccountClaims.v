(** * C60: the assets of an account (proofs). *)
From Verif Require Import Base BaseFacts Delegation DelegationInv DelegationQueue DelegationClaims DelegationClaims2 DelegationClaims3
  Stakers Funders FundersInv FundersRun FundersClaims Team RoundRobin Pool Bundles Chain ChainFrame ChainLift Query Account.
Local Instance any : joiners := fun _ _ => True.

(** ** Sums *)
Fixpoint zsum {A} (f : A -> Z) (l : list A) : Z := match l with [] => 0 | x :: t => f x + zsum f t end.
Lemma zsum_perm {A} (f : A -> Z) l l' : l ≡ₚ l' -> zsum f l = zsum f l'.
Proof. induction 1; cbn; lia. Qed.
Lemma zsum_app {A} (f : A -> Z) l l' : zsum f (l ++ l') = zsum f l + zsum f l'.
Proof. induction l as [|x l IH]; cbn in *; lia. Qed.
Lemma zsum_ext {A} (f h : A -> Z) l : (forall x, In x l -> f x = h x) -> zsum f l = zsum h l.
Proof. induction l as [|x l IH]; intros H; cbn; [done|]. rewrite (H x) by by left. rewrite IH; [done|]. intros y Hy. apply H. by right. Qed.
Lemma zsum_bound {A} (f h : A -> Z) l : (forall x, In x l -> -1 <= f x - h x <= 1) -> - Z.of_nat (length l) <= zsum f l - zsum h l <= Z.of_nat (length l).
Proof.
  induction l as [|x l IH]; intros H; cbn [zsum length]; [lia|].
  pose proof (H x (or_introl eq_refl)). specialize (IH (fun y Hy => H y (or_intror Hy))). lia.
Qed.
Lemma zsum_filter {A} (f : A -> Z) (b : A -> bool) l : (forall x, In x l -> b x = false -> f x = 0) -> zsum f (List.filter b l) = zsum f l.
Proof.
  induction l as [|x l IH]; intros H; cbn; [done|]. rewrite <- IH by (intros y Hy; apply H; by right).
  destruct (b x) eqn:E; cbn; [done|]. rewrite (H x (or_introl eq_refl) E). lia.
Qed.
Lemma w64_w64 x y : w64 (w64 x + y) = w64 (x + y).
Proof. unfold w64. by rewrite Z.add_mod_idemp_l by done. Qed.
Lemma fold_u64 {A} (f : A -> Z) l : forall x, fold_left (fun x s => u64_add x (f s)) l (w64 x) = w64 (x + zsum f l).
Proof.
  induction l as [|s l IH]; intros x; cbn; [by rewrite Z.add_0_r|]. unfold u64_add at 2. rewrite w64_w64, IH. f_equal. lia.
Qed.
Lemma fold_u64_if {A} (f : A -> Z) (b : A -> bool) l : forall x,
  fold_left (fun x s => if b s then u64_add x (f s) else x) l (w64 x) = w64 (x + zsum f (List.filter b l)).
Proof.
  induction l as [|s l IH]; intros x; cbn; [by rewrite Z.add_0_r|]. destruct (b s); [|apply IH].
  unfold u64_add at 2. rewrite w64_w64, IH. f_equal. cbn. lia.
Qed.
Lemma fold_cadd {A} (f : A -> coins) l d : forall x, amt (fold_left (fun x s => cadd x (f s)) l x) d = amt x d + zsum (fun s => amt (f s) d) l.
Proof. induction l as [|s l IH]; intros x; cbn; [lia|]. rewrite IH, amt_cadd. lia. Qed.

(** ** The listings *)
Lemma stakers_of_in st a s : In s (stakers_of st a) <-> is_delegator st s a.
Proof.
  unfold stakers_of. rewrite <- elem_of_list_In, merge_sort_Permutation, elem_of_list_In, filter_In. unfold delegates.
  rewrite bool_decide_eq_true. unfold is_delegator. split; [tauto|]. intros H. split; [|done].
  unfold getf in H. destruct (ds_f1 st !! s) as [f|] eqn:E; cbn in H; [|by destruct H].
  apply elem_of_list_In. change s with (fst (s, f)). apply elem_of_list_fmap_1. by apply elem_of_map_to_list.
Qed.
Lemma stakers_of_nodup st a : NoDup (stakers_of st a).
Proof.
  unfold stakers_of. rewrite merge_sort_Permutation. apply NoDup_ListNoDup, List.NoDup_filter, NoDup_ListNoDup, NoDup_fst_map_to_list.
Qed.
Lemma no_delegation st s a : ~ is_delegator st s a -> delegation_of st s a = 0.
Proof. unfold is_delegator, delegation_of, f1_current. destruct (f_delegators _ !! a); [|done]. intros H. exfalso. apply H. by eexists. Qed.

(** The queue as stored and as a list. *)
Lemma queue_list st l : QRel st l -> map_to_list (ds_queue st) ≡ₚ imap (fun i e => ((ds_low st + 1 + N.of_nat i)%N, e)) l.
Proof.
  intros HQ. apply NoDup_Permutation.
  - apply NoDup_map_to_list.
  - apply NoDup_alt. intros i j x. rewrite !list_lookup_imap. destruct (l !! i); [|done]. destruct (l !! j); [|done]. cbn. intros [= <-] [= E _]. lia.
  - intros [k e]. rewrite elem_of_map_to_list, elem_of_lookup_imap. split.
    + intros H. pose proof (q_out _ _ HQ k ltac:(by rewrite H)) as Hr. pose proof (q_len _ _ HQ) as Hl.
      destruct (l !! N.to_nat (k - ds_low st - 1)%N) as [f|] eqn:Ef; [|apply lookup_ge_None in Ef; lia].
      pose proof (q_in _ _ HQ _ _ Ef) as Hi. replace (ds_low st + 1 + N.of_nat (N.to_nat (k - ds_low st - 1)))%N with k in Hi by lia.
      exists (N.to_nat (k - ds_low st - 1)), e. rewrite H in Hi. injection Hi as ->. split; [f_equal; lia|done].
    + intros (i & f & [= -> ->] & Hi). by apply (q_in _ _ HQ).
Qed.
Definition of_account (a : N) (e : uentry) : bool := (u_delegator e =? a)%N.
(** The indices of the requests of an account among [l], numbered from [k] on. *)
Fixpoint own_from (a : N) (k : N) (l : list uentry) : list N :=
  match l with [] => [] | e :: t => if of_account a e then k :: own_from a (k + 1) t else own_from a (k + 1) t end.
Lemma own_from_imap a l : forall k,
  omap (fun x : N * uentry => if (u_delegator (snd x) =? a)%N then Some (fst x) else None) (imap (fun i e => ((k + N.of_nat i)%N, e)) l) = own_from a k l.
Proof.
  induction l as [|e l IH]; intros k; [done|]. cbn [imap omap own_from]. unfold of_account. rewrite N.add_0_r.
  assert (E : imap ((fun (i : nat) (e0 : uentry) => ((k + N.of_nat i)%N, e0)) ∘ S) l = imap (fun i e => ((k + 1 + N.of_nat i)%N, e)) l).
  { apply imap_ext. intros i x _. cbn. f_equal. lia. }
  rewrite E. cbn. by destruct (u_delegator e =? a)%N; rewrite IH.
Qed.
Lemma own_from_ge a l : forall k x, In x (own_from a k l) -> (k <= x)%N.
Proof.
  induction l as [|e l IH]; intros k x; cbn; [done|]. destruct (of_account a e); cbn; [intros [->|H]; [lia|]|intros H]; apply IH in H; lia.
Qed.
Lemma own_from_sorted a l : forall k, StronglySorted N.le (own_from a k l).
Proof.
  induction l as [|e l IH]; intros k; cbn; [constructor|]. destruct (of_account a e); [|apply IH]. constructor; [apply IH|].
  apply Forall_forall. intros x Hx. apply elem_of_list_In, own_from_ge in Hx. lia.
Qed.
Lemma omap_perm {A B} (f : A -> option B) l l' : l ≡ₚ l' -> omap f l ≡ₚ omap f l'.
Proof. intros H. by rewrite H. Qed.
Lemma sort_unique l l' : StronglySorted N.le l' -> l ≡ₚ l' -> merge_sort N.le l = l'.
Proof.
  intros Hs Hp. apply (StronglySorted_unique N.le); [|done|by rewrite merge_sort_Permutation].
  apply (StronglySorted_merge_sort N.le).
Qed.
Lemma unbondings_eq st l a : QRel st l -> unbondings_of st a = own_from a (ds_low st + 1) l.
Proof.
  intros HQ. unfold unbondings_of. apply sort_unique; [apply own_from_sorted|]. rewrite <- own_from_imap. by apply omap_perm, queue_list.
Qed.
Lemma unbondings_entries st l a : QRel st l -> map (uentry_at st) (unbondings_of st a) = List.filter (of_account a) l.
Proof.
  intros HQ. rewrite (unbondings_eq _ _ _ HQ).
  assert (H : forall l k, (forall i e, l !! i = Some e -> ds_queue st !! (k + N.of_nat i)%N = Some e) -> map (uentry_at st) (own_from a k l) = List.filter (of_account a) l).
  { clear. induction l as [|e l IH]; intros k H; [done|]. cbn [own_from List.filter].
    assert (Hl : map (uentry_at st) (own_from a (k + 1) l) = List.filter (of_account a) l).
    { apply IH. intros i x Hi. specialize (H (S i) x Hi). by replace (k + 1 + N.of_nat i)%N with (k + N.of_nat (S i))%N by lia. }
    destruct (of_account a e); [|done]. cbn [map]. rewrite Hl. f_equal. unfold uentry_at. specialize (H 0%nat e eq_refl).
    rewrite N.add_0_r in H. by rewrite H. }
  apply H. intros i e Hi. by apply (q_in _ _ HQ).
Qed.

(** ** Reachable states *)
Section reach.
  Context (g : gen) (Hg : genesis g).
  Lemma chain_reached c : G g c -> exists ops, reached ops (d_in c).
  Proof.
    intros HG. destruct (g_d _ _ HG) as (ops & Hok & E & _). exists ops. exists (g0_bank g), (g0_dp g), (g0_time g).
    split; [|split; [exact Hok|exact E]]. apply Hg.
  Qed.
  Lemma chain_queue c : G g c -> QRel (d_in c) (pending (d_in c)).
  Proof.
    intros HG. destruct (g_d _ _ HG) as (ops & Hok & E & _). rewrite E.
    apply (queue_run _ _ ops (QRel_init (g0_bank g) (g0_dp g) (g0_time g)) Hok).
  Qed.

  Context (ops : list cop) (Hok : cops_ok (gstart g) ops).
  Let c := crun (gstart g) ops.
  Let HG : G g c := G_run g Hg ops Hok.

  (** *** Delegations and requests *)
  Lemma claim_assets_delegation a r : account_assets c a = Some r ->
    as_balance r = bal (c_bank c) (User a) KYVE /\ as_self r = delegation_of (c_d c) a a /\
    forall X, (forall s, delegation_of (c_d c) s a <> 0 -> s ∈ X) ->
      as_delegation r = w64 (sum_over X (fun s => delegation_of (c_d c) s a)).
  Proof.
    unfold account_assets. destruct (two64 <=? _); [done|]. intros [= <-]. cbn [as_balance as_self as_delegation].
    split; [done|]. split; [done|]. intros X HX.
    change 0 with (w64 0) at 1. rewrite fold_u64. f_equal. rewrite Z.add_0_l. unfold sum_over.
    assert (E : foldr (fun s z => delegation_of (c_d c) s a + z) 0 (elements X) = zsum (fun s => delegation_of (c_d c) s a) (elements X)).
    { generalize (elements X). intros l. induction l as [|x l IH]; cbn; [done|]. by rewrite IH. }
    rewrite E. clear E. set (f := fun s => delegation_of (c_d c) s a). set (b := fun s => negb (f s =? 0)).
    assert (Hb : forall l, zsum f (List.filter b l) = zsum f l).
    { intros l. apply zsum_filter. intros x _. unfold b. intros H. apply negb_false_iff in H. lia. }
    rewrite <- (Hb (stakers_of _ _)), <- (Hb (elements X)). apply zsum_perm. apply NoDup_Permutation.
    - apply NoDup_ListNoDup, List.NoDup_filter, NoDup_ListNoDup, stakers_of_nodup.
    - apply NoDup_ListNoDup, List.NoDup_filter, NoDup_ListNoDup, NoDup_elements.
    - intros s. rewrite !elem_of_list_In, !filter_In, stakers_of_in, <- elem_of_list_In, elem_of_elements.
      unfold b. rewrite negb_true_iff, Z.eqb_neq. split; intros [H1 H2]; split; try done.
      + by apply HX.
      + destruct (decide (is_delegator (c_d c) s a)) as [?|H]; [done|]. exfalso. apply H2. by apply no_delegation.
  Qed.
  Lemma claim_assets_unbonding a r : account_assets c a = Some r ->
    as_unbonding r = w64 (zsum u_amount (List.filter (of_account a) (pending (c_d c)))) /\
    as_self_unbonding r = w64 (zsum u_amount (List.filter (fun e => (u_staker e =? a)%N) (List.filter (of_account a) (pending (c_d c))))).
  Proof.
    unfold account_assets. destruct (two64 <=? _); [done|]. intros [= <-]. cbn [as_unbonding as_self_unbonding].
    pose proof (unbondings_entries _ _ a (chain_queue c HG)) as E.
    change (map (uentry_at (c_d c)) (unbondings_of (c_d c) a) = List.filter (of_account a) (pending (c_d c))) in E. rewrite E.
    change 0 with (w64 0) at 1 2. rewrite fold_u64, fold_u64_if. done.
  Qed.

  (** *** Rewards: what withdrawing from everybody pays *)
  Fixpoint perform (c : chain) (l : list cop) : option chain :=
    match l with [] => Some c | o :: t => match cmsg c o with Some c' => perform c' t | None => None end end.
  Lemma withdraw_other st d s st' : msg_withdraw st d s = Some st' -> forall x, x <> s -> getf st' x = getf st x.
  Proof.
    unfold msg_withdraw, perform_withdrawal. destruct (negb _) eqn:Ed; [done|]. apply negb_false_iff in Ed. rewrite Ed.
    destruct (f1_withdraw (getf st s) d) as [f r]. destruct (pay_user _ d r) as [st1|] eqn:E; [|done]. intros [= <-] x Hx.
    unfold pay_user in E. destruct (send _ _ _ _); [|done]. injection E as <-. unfold getf. cbn. by rewrite lookup_insert_ne by done.
  Qed.
  Lemma perform_withdrawals a l : forall c0 c1, G g c0 -> NoDup l -> perform c0 (map (CWithdraw a) l) = Some c1 ->
    forall x, bal (c_bank c1) (User a) x = bal (c_bank c0) (User a) x + zsum (fun s => amt (payable (c_d c0) s a) x) l.
  Proof.
    induction l as [|s l IH]; intros c0 c1 H0 Hn; cbn [map perform zsum]; [intros [= <-] x; lia|].
    inversion Hn as [|? ? Hs Hl]; subst. cbn [cmsg]. destruct (msg_withdraw (d_in c0) a s) as [st'|] eqn:E; [|done]. cbn [fmap option_fmap option_map].
    intros Hp x. destruct (chain_reached _ H0) as [dops HR].
    destruct (claim_after_withdraw _ _ _ _ _ HR E) as (_ & _ & _ & Hb).
    assert (HG1 : G g (d_out c0 st')).
    { pose proof (G_step g Hg c0 (CWithdraw a s) H0 I) as H. unfold cstep in H. cbn [cmsg] in H. rewrite E in H. exact H. }
    rewrite (IH _ _ HG1 Hl Hp). change (c_bank (d_out c0 st')) with (ds_bank st'). rewrite Hb.
    change (payable (d_in c0) s a) with (payable (c_d c0) s a). change (ds_bank (d_in c0)) with (c_bank c0).
    rewrite (zsum_ext (fun s0 => amt (payable (c_d (d_out c0 st')) s0 a) x) (fun s0 => amt (payable (c_d c0) s0 a) x)); [lia|].
    intros y Hy. unfold payable. change (c_d (d_out c0 st')) with st'. rewrite (withdraw_other _ _ _ _ E y); [done|].
    intros ->. apply Hs. by apply elem_of_list_In.
  Qed.
  Lemma claim_assets_rewards a r l c' : account_assets c a = Some r -> NoDup l -> (forall s, In s l <-> is_delegator (c_d c) s a) ->
    perform c (map (CWithdraw a) l) = Some c' ->
    forall x, let paid := bal (c_bank c') (User a) x - bal (c_bank c) (User a) x in
      - Z.of_nat (length l) <= paid - amt (as_rewards r) x <= Z.of_nat (length l).
  Proof.
    unfold account_assets. destruct (two64 <=? _); [done|]. intros [= <-] Hn Hl Hp x. cbn [as_rewards]. cbv zeta.
    rewrite (perform_withdrawals a l c c' HG Hn Hp x), fold_cadd, amt_empty.
    assert (HP : stakers_of (c_d c) a ≡ₚ l).
    { apply NoDup_Permutation; [apply stakers_of_nodup|done|]. intros s. rewrite !elem_of_list_In, stakers_of_in. symmetry. apply Hl. }
    rewrite (zsum_perm _ _ _ HP). destruct (chain_reached _ HG) as [dops HR].
    pose proof (zsum_bound (fun s => amt (payable (c_d c) s a) x) (fun s => amt (rewards_of (c_d c) s a) x) l) as H.
    assert (HB : forall s, In s l -> -1 <= amt (payable (c_d c) s a) x - amt (rewards_of (c_d c) s a) x <= 1).
    { intros s _. pose proof (claim_query_bound _ _ s a x HR) as Hq. change (outstanding (d_in c) s a) with (rewards_of (c_d c) s a) in Hq.
      change (payable (d_in c) s a) with (payable (c_d c) s a) in Hq. lia. }
    specialize (H HB). lia.
  Qed.
  (** *** Funding: everything can be taken out, and it is what is reported *)
  Definition funded (st : fstate) (a p : N) : coins := default ∅ (fd_amounts <$> fs_fundings st !! (a, p)).
  Lemma defund_next c0 a p : G g c0 -> (exists x, rem (c_f c0) a p x <> 0) ->
    exists c1, cmsg c0 (CDefund a p (funded (c_f c0) a p)) = Some c1 /\ G g c1 /\
      (forall q, q <> p -> fs_fundings (c_f c1) !! (a, q) = fs_fundings (c_f c0) !! (a, q)) /\
      forall x, bal (c_bank c1) (User a) x = bal (c_bank c0) (User a) x + rem (c_f c0) a p x.
  Proof.
    intros H0 [x0 Hx0]. destruct (g_f _ _ H0) as (fops & Hf & E).
    assert (HR : freach (g0_bank g) (g0_fp g) fops). { split; [apply Hg|]. split; [|done]. intros x. apply Hg. }
    assert (Hrem : forall x, rem (c_f c0) a p x = amt (funded (c_f c0) a p) x).
    { intros x. unfold rem, funded. destruct (fs_fundings (c_f c0) !! (a, p)); cbn; [done|by rewrite amt_empty]. }
    pose proof (G_FInv g Hg c0 H0) as HI.
    assert (Hpos : cpos (funded (c_f c0) a p)).
    { unfold funded. destruct (fs_fundings (c_f c0) !! (a, p)) as [f|] eqn:Ef; cbn; [|apply cpos_empty]. by apply (fi_pos _ _ HI (a, p) f Ef). }
    destruct (exit_ok _ _ _ a p (funded (c_f c0) a p) HR) as (st' & Em & _ & Hs).
    { exists x0. change (rem (frun (f0 g) fops) a p x0 <> 0). rewrite <- E. exact Hx0. }
    { exact Hpos. }
    { intros x. change (rem (frun (f0 g) fops) a p x <= amt (funded (c_f c0) a p) x). rewrite <- E. rewrite <- Hrem. reflexivity. }
    change (fend (g0_bank g) (g0_fp g) fops) with (frun (f0 g) fops) in Em, Hs. rewrite <- E in Em, Hs.
    exists (f_out c0 st'). split; [cbn [cmsg]; by rewrite Em|]. split; [|split].
    - pose proof (G_step g Hg c0 (CDefund a p (funded (c_f c0) a p)) H0) as H. unfold cstep in H. cbn [cmsg] in H. rewrite Em in H.
      apply H. split; [exact Hpos|]. intros Hz. rewrite Hrem, Hz, amt_empty in Hx0. done.
    - intros q Hq. destruct (defund_spec _ _ _ _ _ _ HI Hpos Em) as (f' & act' & Hf0 & _ & HS). cbv zeta in HS.
      destruct HS as (_ & _ & _ & _ & _ & _ & Hfd & _). change (c_f (f_out c0 st')) with st'. rewrite Hfd, lookup_insert_ne by congruence. done.
    - intros x. apply (Hs x).
  Qed.
  Lemma perform_defunds a l : forall c0, G g c0 -> NoDup l -> (forall p, In p l -> exists x, rem (c_f c0) a p x <> 0) ->
    exists c1, perform c0 (map (fun p => CDefund a p (funded (c_f c0) a p)) l) = Some c1 /\
      forall x, bal (c_bank c1) (User a) x = bal (c_bank c0) (User a) x + zsum (fun p => rem (c_f c0) a p x) l.
  Proof.
    induction l as [|p l IH]; intros c0 H0 Hn Hl; cbn [map perform zsum]; [exists c0; split; [done|]; intros; lia|].
    inversion Hn as [|? ? Hp Hnl]; subst. destruct (defund_next c0 a p H0 (Hl p (or_introl eq_refl))) as (c1 & -> & H1 & Ho & Hb).
    assert (Hr : forall q, In q l -> forall x, rem (c_f c1) a q x = rem (c_f c0) a q x /\ funded (c_f c1) a q = funded (c_f c0) a q).
    { intros q Hq x. assert (q <> p) by (intros ->; apply Hp; by apply elem_of_list_In). unfold rem, funded. by rewrite Ho. }
    destruct (IH c1 H1 Hnl) as (c2 & Ep & Hb2).
    { intros q Hq. destruct (Hl q (or_intror Hq)) as [x Hx]. exists x. by rewrite (proj1 (Hr q Hq x)). }
    exists c2. split.
    - rewrite <- Ep. f_equal. apply List.map_ext_in. intros q Hq. by rewrite (proj2 (Hr q Hq 0%N)).
    - intros x. rewrite Hb2, Hb. rewrite (zsum_ext (fun q => rem (c_f c1) a q x) (fun q => rem (c_f c0) a q x)); [lia|].
      intros q Hq. apply Hr. done.
  Qed.
  Lemma fundings_of_in st a p f : In (p, f) (fundings_of st a) <-> fs_fundings st !! (a, p) = Some f.
  Proof.
    unfold fundings_of. rewrite <- elem_of_list_In, elem_of_list_omap. split.
    - intros ([[b q] y] & H & E). cbn in E. destruct (N.eqb_spec b a); [|done]. subst. injection E as <- <-. by apply elem_of_map_to_list in H.
    - intros H. exists (a, p, f). split; [by apply elem_of_map_to_list|]. cbn. by rewrite N.eqb_refl.
  Qed.
  Lemma fundings_of_nodup st a : NoDup (map fst (fundings_of st a)).
  Proof.
    assert (H : NoDup (fundings_of st a)).
    { unfold fundings_of. pose proof (NoDup_map_to_list (fs_fundings st)) as Hn. induction Hn as [|[[b q] y] l H Hn IH]; [constructor|].
      cbn. destruct (N.eqb_spec b a); [|exact IH]. subst. constructor; [|exact IH]. intros Hin. apply H.
      apply elem_of_list_omap in Hin as ([[b r] z] & H1 & E). cbn in E. destruct (N.eqb_spec b a); [|done]. injection E as -> ->. by subst. }
    assert (Hf : forall p f f', In (p, f) (fundings_of st a) -> In (p, f') (fundings_of st a) -> f = f').
    { intros p f f'. rewrite !fundings_of_in. congruence. }
    revert H Hf. generalize (fundings_of st a). intros l H. induction H as [|[p f] l H Hn IH]; intros Hf; cbn; [constructor|].
    constructor; [|apply IH; intros; eapply Hf; right; eassumption]. intros Hin. apply elem_of_list_In, in_map_iff in Hin as ([q f'] & E & Hq).
    cbn in E. subst. assert (f = f') by (eapply Hf; [left; reflexivity|right; exact Hq]). subst. apply H. by apply elem_of_list_In.
  Qed.
  Lemma claim_assets_funding a r l : account_assets c a = Some r -> NoDup l -> (forall p, In p l <-> exists x, rem (c_f c) a p x <> 0) ->
    exists c', perform c (map (fun p => CDefund a p (funded (c_f c) a p)) l) = Some c' /\
      forall x, bal (c_bank c') (User a) x = bal (c_bank c) (User a) x + amt (as_funding r) x.
  Proof.
    unfold account_assets. destruct (two64 <=? _); [done|]. intros [= <-] Hn Hl. cbn [as_funding].
    destruct (perform_defunds a l c HG Hn) as (c' & Ep & Hb). { intros p Hp. by apply Hl. }
    exists c'. split; [done|]. intros x. rewrite Hb, fold_cadd, amt_empty. f_equal. rewrite Z.add_0_l.
    assert (E : zsum (fun s => amt (fd_amounts (snd s)) x) (fundings_of (c_f c) a) = zsum (fun p => rem (c_f c) a p x) (map fst (fundings_of (c_f c) a))).
    { assert (H : forall y, In y (fundings_of (c_f c) a) -> amt (fd_amounts (snd y)) x = rem (c_f c) a (fst y) x).
      { intros [p f] Hy. apply fundings_of_in in Hy. unfold rem. cbn [fst]. by rewrite Hy. }
      revert H. generalize (fundings_of (c_f c) a). intros m. induction m as [|y m IH]; intros H; cbn; [done|].
      rewrite (H y (or_introl eq_refl)), IH; [done|]. intros z Hz. apply H. by right. }
    rewrite E. set (b := fun p => negb (rem (c_f c) a p x =? 0)).
    assert (HF : forall m, zsum (fun p => rem (c_f c) a p x) (List.filter b m) = zsum (fun p => rem (c_f c) a p x) m).
    { intros m. apply zsum_filter. intros p _. unfold b. intros H. apply negb_false_iff in H. lia. }
    rewrite <- (HF l), <- (HF (map fst _)). apply zsum_perm. apply NoDup_Permutation.
    - by apply NoDup_ListNoDup, List.NoDup_filter, NoDup_ListNoDup.
    - apply NoDup_ListNoDup, List.NoDup_filter, NoDup_ListNoDup, fundings_of_nodup.
    - intros p. rewrite !elem_of_list_In, !filter_In. unfold b. rewrite negb_true_iff, Z.eqb_neq. rewrite Hl.
      split; intros [H1 H2]; (split; [|done]).
      + destruct (fs_fundings (c_f c) !! (a, p)) as [f|] eqn:Ef; [|unfold rem in H2; by rewrite Ef in H2].
        apply in_map_iff. exists (p, f). split; [done|]. by apply fundings_of_in.
      + by exists x.
  Qed.
End reach.
