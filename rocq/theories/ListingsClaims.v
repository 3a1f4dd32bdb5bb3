(** * C66: the queries about pools, their stakers and the current vote (proofs). *)
From Verif Require Import Base BaseFacts BankMoves Delegation DelegationClaims DelegationClaims2 DelegationClaims3 F1Refine Stakers StakersInv Funders FundersInv FundersRun Team RoundRobin Pool Bundles Chain ChainFrame
  ArchiveInv TallyFacts ChainLift PoolInv PoolFrame PoolClaims VoteClaims Query QueryFacts QueryClaims GenesisInv GenesisClaims Account AccountClaims AccountLists Fundings FundingsFrame FundingsClaims Listings.
Local Instance any : joiners := fun _ _ => True.

(** ** Members are in pools that exist *)
Lemma pool_step c o p : AInv c -> cop_ok c o -> is_Some (get_pool c p) -> is_Some (get_pool (cstep c o) p).
Proof.
  intros HA Ho H. assert (HA' : AInv (cstep c o)) by (by apply (AInv_run c [o] HA)).
  apply (ai_pools _ HA'). apply (ai_pools _ HA) in H. rewrite count_step by done. destruct o; try done. destruct (cmsg _ _); lia.
Qed.
Lemma member_pool g ops : cops_ok (gstart g) ops -> forall p s, in_pool (crun (gstart g) ops) p s = true -> is_Some (get_pool (crun (gstart g) ops) p).
Proof.
  induction ops as [|o ops IH] using rev_ind; intros Hok p s.
  { intros H. exfalso. revert H. unfold in_pool, get_val, vals_of. cbn. by rewrite !lookup_empty. }
  apply cops_ok_snoc in Hok as [Hok Ho]. rewrite crun_app. cbn [crun fold_left].
  intros [H|(v & a & -> & H)]%member_step.
  - apply pool_step; [by apply reach_A|done|by eapply IH].
  - apply pool_step; [by apply reach_A|done|]. destruct (get_pool _ p); [by eexists|done].
Qed.
Lemma uint64_some x : 0 <= x < two64 -> uint64_of x = Some x.
Proof. intros H. unfold uint64_of. destruct (Z.leb_spec 0 x), (Z.ltb_spec x two64); cbn; try lia; done. Qed.
Lemma total_power_eq c p : total_power c p = w64 (zsum (power c) (members c p)).
Proof. unfold total_power. change 0 with (w64 0) at 1. by rewrite fold_u64. Qed.

Lemma filter_both {A} (b d : A -> bool) l : List.filter b (List.filter d l) = List.filter (fun x => b x && d x) l.
Proof. induction l as [|x l IH]; cbn; [done|]. destruct (d x), (b x) eqn:E; cbn; rewrite ?E, IH; done. Qed.

Lemma zsum_sum (f : N -> Z) l : zsum f l = sum_of f l.
Proof. unfold zsum, sum_of. induction l as [|x l IH]; cbn; [done|]. rewrite IH. lia. Qed.

Section reach.
  Context (g : gen) (Hg : genesis g) (ops : list cop) (Hok : cops_ok (gstart g) ops).
  Let c := crun (gstart g) ops.
  Let HG : G g c := G_run g Hg ops Hok.
  Let HA : AInv c := reach_A g ops Hok.

  Lemma balance_fits a : uint64_of (bal (c_bank c) a KYVE) = Some (bal (c_bank c) a KYVE).
  Proof.
    apply uint64_some. pose proof (supply_ge1 (c_bank c) a (g_nn _ _ HG)). pose proof (g_supply _ _ HG) as Hs. pose proof (g_nn _ _ HG a KYVE).
    unfold two63, two64 in *. lia.
  Qed.

  (** ** Pools *)
  (** What a record of a pool says. *)
  Definition pool_says (r : presp) : Prop :=
    let p := pr_id r in
    get_pool c p = Some (pr_data r) /\ pr_prop r = get_prop c p /\
    NoDup (pr_stakers r) /\ (forall s, In s (pr_stakers r) <-> in_pool c p s = true) /\
    pr_self r = w64 (zsum (fun s => delegation_of (c_d c) s s) (pr_stakers r)) /\
    pr_total r = w64 (zsum (fun s => delegation_amount (c_d c) s) (pr_stakers r)) /\
    pr_status r = pool_status c p (pr_data r) /\ pr_balance r = bal (c_bank c) (PoolAcc p) KYVE /\
    NoDup (map fst (pr_fundings r)) /\ (forall a, In a (map fst (pr_fundings r)) <-> has_funded (gstart g) ops a p) /\
    Forall (fun x => fs_fundings (c_f c) !! (fst x, p) = Some (snd x)) (pr_fundings r).
  Definition the_pool (p : N) (pl : pool) : presp :=
    mkPR p pl (get_prop c p) (members c p) (w64 (zsum (fun s => delegation_of (c_d c) s s) (members c p))) (w64 (zsum (power c) (members c p)))
      (pool_status c p pl) (bal (c_bank c) (PoolAcc p) KYVE) (fundings_of_pool (c_f c) p).
  Lemma parse_pool_some p pl : parse_pool c p pl = Some (the_pool p pl).
  Proof.
    unfold parse_pool, the_pool. rewrite balance_fits, total_power_eq. do 2 f_equal. change 0 with (w64 0) at 1. by rewrite fold_u64.
  Qed.
  Lemma the_pool_says p pl : get_pool c p = Some pl -> pool_says (the_pool p pl).
  Proof.
    intros Hp. unfold pool_says, the_pool. cbn -[get_pool].
    split; [done|]. split; [done|]. split; [apply members_NoDup|]. split; [intros s; by rewrite <- elem_of_list_In, members_in|].
    split; [done|]. split; [done|]. split; [done|]. split; [done|].
    unfold fundings_of_pool. rewrite map_map. cbn.
    assert (Hin : forall k, In k (List.filter (fun k => (fst k =? p)%N) (pool_store (c_f c))) <-> fst k = p /\ is_Some (fs_fundings (c_f c) !! (snd k, p))).
    { intros [q a]. rewrite filter_In, pool_store_in, N.eqb_eq. cbn. split; [intros [H ->]|intros [-> H]]; done. }
    split; [|split].
    - apply NoDup_fmap_2_strong.
      + intros [q a] [q' a'] H1 H2. apply elem_of_list_In, Hin in H1 as [H1 _], H2 as [H2 _]. cbn in *. congruence.
      + apply NoDup_ListNoDup, List.NoDup_filter, NoDup_ListNoDup. rewrite pool_store_eq, merge_sort_Permutation. apply pool_store_nodup.
    - intros a. rewrite <- (has_funded_iff g ops a p), in_map_iff. split.
      + intros (k & <- & H). apply Hin in H as [_ H]. exact H.
      + intros H. exists (p, a). split; [done|]. apply Hin. split; [done|exact H].
    - apply Forall_forall. intros x Hx. apply elem_of_list_In, in_map_iff in Hx as (k & <- & H). apply Hin in H as [_ [f Hf]]. cbn.
      unfold funding_at. by rewrite Hf.
  Qed.
  Lemma claim_pool p : match get_pool c p with
    | None => pool_info c p = None
    | Some pl => exists r, pool_info c p = Some r /\ pr_id r = p /\ pool_says r
    end.
  Proof.
    unfold pool_info. destruct (get_pool c p) as [pl|] eqn:E; [|done]. exists (the_pool p pl). rewrite parse_pool_some. split; [done|]. split; [done|]. by apply the_pool_says.
  Qed.
  Lemma pool_ids_in p : In p (pool_ids c) <-> is_Some (get_pool c p).
  Proof.
    unfold pool_ids. rewrite <- elem_of_list_In, merge_sort_Permutation. split.
    - intros H. apply elem_of_list_fmap in H as ([k x] & -> & H). apply elem_of_map_to_list in H. by exists x.
    - intros [x H]. change p with (fst (p, x)). apply elem_of_list_fmap_1. by apply elem_of_map_to_list.
  Qed.
  Lemma pool_ids_nodup : NoDup (pool_ids c).
  Proof. unfold pool_ids. rewrite merge_sort_Permutation. apply NoDup_fst_map_to_list. Qed.
  Lemma claim_pools search runtime disabled sp : exists L, shows (pools_page c search runtime disabled sp) L /\ NoDup (map pr_id L) /\
    (forall p, In p (map pr_id L) <-> exists pl, get_pool c p = Some pl /\ search p = true /\ pl_disabled pl = disabled /\
       (runtime = 0%N \/ pl_runtime pl = runtime) /\ (sp = 0%N \/ pl_sp pl = sp)) /\ Forall pool_says L.
  Proof.
    set (hit := fun p => match get_pool c p with Some pl => pool_wanted search runtime disabled sp p pl | None => false end).
    set (h := fun p => match get_pool c p with Some pl => the_pool p pl | None => the_pool p (mkPool 0 0 0 0 0 0 false 0 0 0 no_plan 0 0 0 0 0 0) end).
    assert (Hh : forall p, pr_id (h p) = p) by (intros p; unfold h; by destruct (get_pool c p)).
    assert (Em : map pr_id (map h (List.filter hit (pool_ids c))) = List.filter hit (pool_ids c)).
    { rewrite map_map. rewrite (List.map_ext _ (fun k => k)), List.map_id; done. }
    exists (map h (List.filter hit (pool_ids c))). rewrite Em. split; [|split; [|split]].
    - apply (shows_partial hit (pool_ids c) (keys_from (pool_ids c)) (pool_info c)).
      + intros l1 k l2. apply keys_from_spec; [apply sorted_N|apply pool_ids_nodup].
      + intros k x H. unfold keys_from in H. apply filter_In in H as [H _]. exact H.
      + intros p Hp _. unfold pool_info, h. apply pool_ids_in in Hp as [pl ->]. apply parse_pool_some.
    - apply NoDup_ListNoDup, List.NoDup_filter, NoDup_ListNoDup, pool_ids_nodup.
    - intros p. rewrite filter_In, pool_ids_in. unfold hit. split.
      + intros [[pl E] H]. rewrite E in H. exists pl. split; [done|]. unfold pool_wanted in H. rewrite !andb_true_iff, !orb_true_iff, !N.eqb_eq, eqb_true_iff in H.
        destruct H as [[[H1 H2] H3] H4]. split; [done|]. split; [done|]. split; [destruct H2|destruct H4]; auto.
      + intros (pl & E & H1 & H2 & H3 & H4). rewrite E. split; [by eexists|]. unfold pool_wanted. rewrite !andb_true_iff, !orb_true_iff, !N.eqb_eq, eqb_true_iff.
        split; [split; [split; [done|]|done]|]; [destruct H3|destruct H4]; auto.
    - apply Forall_forall. intros r Hr. apply elem_of_list_In, in_map_iff in Hr as (p & <- & Hp). apply filter_In in Hp as [Hp _]. apply pool_ids_in in Hp as [pl E].
      unfold h. rewrite E. by apply the_pool_says.
  Qed.

  (** ** Stakers *)
  (** What a membership says. *)
  Definition member_says (s : N) (m : mresp) : Prop :=
    let p := mr_pool m in exists pl,
    get_val (c_s c) p s = Some (mkVal (mr_addr m) (mr_points m) (mr_leaving m)) /\ get_pool c p = Some pl /\ mr_weight m = pl_weight pl /\ mr_interval m = pl_interval pl /\
    (forall X, (forall a, (exists x, rem (c_f c) a p x <> 0) -> a ∈ X) -> forall d, amt (mr_funds m) d = sum_over X (fun a => rem (c_f c) a p d)) /\
    mr_delegation m = w64 (zsum (fun s => delegation_amount (c_d c) s) (members c p)) /\ mr_status m = pool_status c p pl /\
    mr_balance m = bal (c_bank c) (User (mr_addr m)) KYVE.
  Lemma member_some s p v : get_val (c_s c) p s = Some v -> exists m, membership c s p = Some m /\ mr_pool m = p /\ member_says s m.
  Proof.
    intros E. unfold membership. rewrite E. destruct (member_pool g ops Hok p s) as [pl Ep]; [unfold in_pool; fold c; by rewrite E|]. fold c in Ep.
    rewrite Ep, balance_fits. eexists. split; [done|]. split; [done|]. exists pl. cbn -[get_pool]. split; [rewrite E; by destruct v|].
    split; [done|]. split; [done|]. split; [done|]. split; [intros X HX d; by apply (total_funds g Hg ops Hok)|]. split; [apply total_power_eq|]. done.
  Qed.
  Lemma pools_with_in s p : In p (pools_with (c_s c) s) <-> is_Some (get_val (c_s c) p s).
  Proof.
    unfold pools_with. rewrite <- elem_of_list_In, merge_sort_Permutation, elem_of_list_In, filter_In. split.
    - intros [_ H]. by destruct (get_val _ _ _).
    - intros [v H]. rewrite H. split; [|done]. unfold get_val, vals_of in H. destruct (ss_val (c_s c) !! p) as [m|] eqn:E; [|change ((∅ : gmap N valacc) !! s = Some v) in H; by rewrite lookup_empty in H].
      apply elem_of_list_In. change p with (fst (p, m)). apply elem_of_list_fmap_1. by apply elem_of_map_to_list.
  Qed.
  Lemma pools_with_nodup s : NoDup (pools_with (c_s c) s).
  Proof. unfold pools_with. rewrite merge_sort_Permutation. apply NoDup_ListNoDup, List.NoDup_filter, NoDup_ListNoDup, NoDup_fst_map_to_list. Qed.
  (** What a record of a staker says. *)
  Definition staker_says (r : sresp) : Prop :=
    let s := sr_addr r in
    (exists x, ss_stakers (c_s c) !! s = Some x /\ sr_commission r = st_commission x /\ sr_rewards r = st_rewards x) /\
    (forall x d, sr_pending r = Some (x, d) <-> exists i, ss_centries (c_s c) !! i = Some (mkCE s x d)) /\
    (forall i j ei ej, ss_centries (c_s c) !! i = Some ei -> ss_centries (c_s c) !! j = Some ej -> ce_staker ei = s -> ce_staker ej = s -> i = j) /\
    sr_self r = delegation_of (c_d c) s s /\
    sr_unbonding r = w64 (zsum u_amount (List.filter (fun e => (u_staker e =? s)%N && (u_delegator e =? s)%N) (pending (c_d c)))) /\
    sr_total r = delegation_amount (c_d c) s /\
    (forall l, NoDup l -> (forall a, In a l <-> is_delegator (c_d c) s a) -> sr_count r = Z.of_nat (length l)) /\
    NoDup (map mr_pool (sr_pools r)) /\ (forall p, In p (map mr_pool (sr_pools r)) <-> in_pool c p s = true) /\ Forall (member_says s) (sr_pools r).
  Lemma in_pool_val p s : in_pool c p s = true <-> is_Some (get_val (c_s c) p s).
  Proof. unfold in_pool. destruct (get_val _ _ _); split; try done. by intros []. Qed.
  Lemma full_staker_some s x : ss_stakers (c_s c) !! s = Some x -> exists r, full_staker c s x = Some r /\ sr_addr r = s /\ staker_says r.
  Proof.
    intros E. unfold full_staker.
    set (h := fun p => default (mkMR 0 0 0 ∅ 0 StActive 0 false 0 0) (membership c s p)).
    assert (Hh : forall p, In p (pools_with (c_s c) s) -> membership c s p = Some (h p) /\ mr_pool (h p) = p /\ member_says s (h p)).
    { intros p Hp. apply pools_with_in in Hp as [v Hv]. destruct (member_some s p v Hv) as (m & Em & H). unfold h. rewrite Em. done. }
    rewrite (all_some _ h) by (intros; by apply Hh). eexists. split; [done|]. split; [done|]. unfold staker_says. cbn -[get_pool].
    assert (Em : map mr_pool (map h (pools_with (c_s c) s)) = pools_with (c_s c) s).
    { rewrite map_map. rewrite <- (List.map_id (pools_with (c_s c) s)) at 2. apply List.map_ext_in. intros p Hp. by apply Hh. }
    rewrite Em. destruct (chain_SK g Hg ops Hok) as [HS _]. fold c in HS.
    split; [by exists x|]. split; [|split; [|split; [done|split; [|split; [done|split; [|split; [apply pools_with_nodup|split]]]]]]].
    - intros y d. unfold pending_commission. split.
      + destruct (ss_cindex (c_s c) !! s) as [i|] eqn:Ei; [|done]. destruct (sk_cindex _ HS _ _ Ei) as (e & Ee & Es). rewrite Ee. intros [= <- <-]. exists i. rewrite Ee. f_equal. by destruct e; cbn in *; subst.
      + intros [i Ei]. destruct (sk_centry _ HS _ _ Ei) as [_ Hi]. cbn in Hi. by rewrite Hi, Ei.
    - intros i j ei ej Hi Hj Ei Ej. destruct (sk_centry _ HS _ _ Hi) as [_ Hi']. destruct (sk_centry _ HS _ _ Hj) as [_ Hj']. congruence.
    - pose proof (unbondings_entries _ _ s (chain_queue g c HG)) as Eu.
      change (map (uentry_at (c_d c)) (unbondings_of (c_d c) s) = List.filter (of_account s) (pending (c_d c))) in Eu. rewrite Eu.
      change 0 with (w64 0) at 1. rewrite fold_u64_if, filter_both. done.
    - intros l Hn Hl. destruct (chain_reached g Hg c HG) as [dops HR]. destruct (reached_good _ _ HR) as (b & HGd & _). destruct (HGd s) as [HRel _].
      pose proof (r_count _ _ HRel) as Hc. change (getf (d_in c) s) with (getf (c_d c) s) in Hc. rewrite Hc, <- delegators_of_length. f_equal. apply Permutation_length.
      apply NoDup_Permutation; [apply delegators_of_nodup|done|]. intros a. rewrite !elem_of_list_In, Hl. apply delegators_of_in.
    - intros p. rewrite pools_with_in. symmetry. apply in_pool_val.
    - apply Forall_forall. intros m Hm. apply elem_of_list_In, in_map_iff in Hm as (p & <- & Hp). by apply Hh.
  Qed.
  Lemma claim_staker s : match ss_stakers (c_s c) !! s with
    | None => staker_info c s = None
    | Some _ => exists r, staker_info c s = Some r /\ sr_addr r = s /\ staker_says r
    end.
  Proof. unfold staker_info. destruct (ss_stakers (c_s c) !! s) as [x|] eqn:E; [|done]. by apply full_staker_some. Qed.
  (** StakersByPool lists the members of the pool. *)
  Lemma claim_by_pool p : match get_pool c p with
    | None => stakers_by_pool c p = None
    | Some _ => exists L, stakers_by_pool c p = Some L /\ NoDup (map (fun x => sr_addr (fst x)) L) /\
        (forall s, In s (map (fun x => sr_addr (fst x)) L) <-> in_pool c p s = true) /\
        Forall (fun x => staker_says (fst x) /\ get_val (c_s c) p (sr_addr (fst x)) = Some (snd x)) L
    end.
  Proof.
    unfold stakers_by_pool. destruct (get_pool c p) as [pl|]; [|done].
    set (f := fun s => match get_val (c_s c) p s, ss_stakers (c_s c) !! s with Some v, Some x => Some (match full_staker c s x with Some r => Some (r, v) | None => None end) | _, _ => None end).
    assert (Hf : forall s, in_pool c p s = true -> exists r v, f s = Some (Some (r, v)) /\ sr_addr r = s /\ staker_says r /\ get_val (c_s c) p s = Some v).
    { intros s Hs. apply in_pool_val in Hs as [v Hv]. destruct (mi_known _ (MI_chain g c HG) _ _ _ Hv) as ([x Hx] & _).
      destruct (full_staker_some s x Hx) as (r & Er & H1 & H2). exists r, v. unfold f. rewrite Hv, Hx, Er. done. }
    assert (Hl : forall l, (forall s, In s l -> in_pool c p s = true) -> exists L, all_or_none (omap f l) = Some L /\ map (fun x => sr_addr (fst x)) L = l /\
      Forall (fun x => staker_says (fst x) /\ get_val (c_s c) p (sr_addr (fst x)) = Some (snd x)) L).
    { induction l as [|s l IH]; intros H; [by exists []|]. destruct IH as (L & E & Em & HL); [intros; apply H; by right|].
      destruct (Hf s (H s (or_introl eq_refl))) as (r & v & Ef & Ea & Hr & Hv). exists ((r, v) :: L). cbn. rewrite Ef. cbn. rewrite E. cbn. rewrite Em, Ea.
      split; [done|]. split; [done|]. constructor; [|done]. cbn. rewrite Ea. done. }
    destruct (Hl (members c p)) as (L & E & Em & HL). { intros s Hs. by apply members_in, elem_of_list_In. }
    exists L. split; [done|]. rewrite Em. split; [apply members_NoDup|]. split; [|done]. intros s. by rewrite <- elem_of_list_In, members_in.
  Qed.

  (** ** The current vote *)
  (** The powers of the members that stand in a list of voters. *)
  Lemma claim_vote p pl : get_pool c p = Some pl -> zsum (power c) (members c p) < two64 -> exists v i a t, vote_status c p = Some (v, i, a, t) /\
    (c_prop c !! p = None -> v = 0 /\ i = 0 /\ a = 0 /\ t = 0) /\
    (forall b, c_prop c !! p = Some b -> 
      (forall l, NoDup l -> (forall s, In s l <-> in_pool c p s = true /\ In s (bp_valid b)) -> v = zsum (power c) l) /\
      (forall l, NoDup l -> (forall s, In s l <-> in_pool c p s = true /\ In s (bp_invalid b)) -> i = zsum (power c) l) /\
      (forall l, NoDup l -> (forall s, In s l <-> in_pool c p s = true /\ In s (bp_abstain b)) -> a = zsum (power c) l) /\
      t = zsum (power c) (members c p) /\ v + i + a <= t).
  Proof.
    intros Hp Ht. rewrite zsum_sum in Ht. unfold vote_status. rewrite Hp. do 4 eexists. split; [done|]. split; [intros E; unfold distribution; rewrite E; done|].
    intros b E. destruct (votes_power c p b HA (fun x => G_power g Hg c x HG) E Ht) as (-> & -> & -> & -> & H).
    destruct (votes_once c p HA) as [Hn _]. assert (Eb : get_prop c p = b) by (unfold get_prop; by rewrite E). rewrite Eb in Hn.
    apply NoDup_app in Hn as (N1 & _ & Hn). apply NoDup_app in Hn as (N2 & _ & N3).
    assert (Hl : forall l m, NoDup m -> NoDup l -> (forall s, In s l <-> in_pool c p s = true /\ In s m) -> power_of c p m = zsum (power c) l).
    { intros l m Hm Hn Hin. unfold power_of. rewrite <- zsum_sum. apply zsum_perm. apply NoDup_Permutation; [by apply filter_NoDup|done|].
      intros s. rewrite !elem_of_list_In, Hin. unfold here. rewrite filter_In. tauto. }
    split; [intros; by apply Hl|]. split; [intros; by apply Hl|]. split; [intros; by apply Hl|]. split; [symmetry; apply zsum_sum|done].
  Qed.
End reach.
