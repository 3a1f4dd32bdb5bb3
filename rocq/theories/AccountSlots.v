(** * C61: the redelegation slots of an account (proofs). *)
From Verif Require Import Base BaseFacts F1Spec F1Refine Delegation DelegationProps DelegationInv DelegationQueue DelegationClaims DelegationClaims2 DelegationClaims3
  Stakers Funders Team RoundRobin Pool Bundles Chain ChainFrame ChainLift GenesisInv GenesisClaims ParamsFrame CoolFrame Query Account AccountClaims.
Local Instance any : joiners := fun _ _ => True.

(** The times at which redelegations of [who] were accepted. *)
Definition redelegation_at (c : chain) (o : cop) (who : N) : list Z :=
  match o with
  | CRedelegate d _ _ _ => match cmsg c o with Some _ => if (d =? who)%N then [c_time c] else [] | None => [] end
  | _ => []
  end.
Fixpoint redelegated (c : chain) (ops : list cop) (who : N) : list Z :=
  match ops with [] => [] | o :: t => redelegation_at c o who ++ redelegated (cstep c o) t who end.
Definition cooldown (c : chain) : Z := p_cooldown (ds_params (c_d c)).
Definition max_redelegations (c : chain) : Z := p_maxredel (ds_params (c_d c)).
Fixpoint never_raised (c : chain) (ops : list cop) : Prop :=
  match ops with [] => True | o :: t => cooldown (cstep c o) <= cooldown c /\ never_raised (cstep c o) t end.

(** ** Dates *)
Definition dates_ok (now : Z) (l : list Z) : Prop := StronglySorted Z.lt l /\ Forall (fun x => 0 <= x <= now) l.
Lemma recent_drop now w l : StronglySorted Z.lt l -> drop_expired now w l = recent now w l.
Proof.
  induction l as [|x l IH]; intros H; [done|]. inversion H as [|? ? Hs Hx]; subst. cbn. destruct (now - x >? w) eqn:E1, (now - x <=? w) eqn:E2; try lia.
  - by apply IH.
  - f_equal. symmetry. apply recent_all. eapply Forall_impl; [exact Hx|]. cbn. lia.
Qed.
Lemma recent_sub now w l x : In x (recent now w l) -> In x l /\ now - x <= w.
Proof. unfold recent. rewrite filter_In. intros [? ?]. split; [done|lia]. Qed.
Lemma dates_recent now w l : dates_ok now l -> dates_ok now (recent now w l).
Proof.
  intros [H1 H2]. rewrite <- (recent_drop now w l H1). split; [by apply drop_sorted|]. rewrite recent_drop by done.
  apply Forall_forall. intros x Hx. apply elem_of_list_In, recent_sub in Hx as [Hx _]. rewrite Forall_forall in H2. apply H2. by apply elem_of_list_In.
Qed.
Lemma sorted_snoc l now : StronglySorted Z.lt l -> Forall (fun x => x < now) l -> StronglySorted Z.lt (l ++ [now]).
Proof.
  induction l as [|x l IH]; intros H Hf; cbn; [by repeat constructor|]. inversion H; inversion Hf; subst. constructor; [by apply IH|].
  apply Forall_app. split; [done|]. by repeat constructor.
Qed.
Lemma sorted_last l now : dates_ok now l -> (last l = Some now <-> In now l).
Proof.
  intros [Hs Hf]. split.
  - intros H. apply last_Some in H as [k ->]. apply in_app_iff. right. by left.
  - induction l as [|x l IH]; [done|]. inversion Hs as [|? ? Hs' Hx]; inversion Hf as [|? ? Hx' Hf']; subst. intros [->|Hin].
    + destruct l as [|y l]; [done|]. inversion Hx; inversion Hf'; subst. lia.
    + specialize (IH Hs' Hf' Hin). destruct l; [done|]. exact IH.
Qed.
Lemma spell_spec p now l : dates_ok now l -> 0 <= p_cooldown p < two63 -> p_maxredel p < two63 ->
  consume_spell p now l =
    if (Z.of_nat (length (recent now (p_cooldown p) l)) >=? p_maxredel p) || bool_decide (now ∈ l) then None
    else Some (recent now (p_cooldown p) l ++ [now]).
Proof.
  intros Hd Hw Hm. unfold consume_spell. rewrite !i64_small by lia. rewrite (recent_drop _ _ _ (proj1 Hd)).
  destruct (_ >=? _); [done|]. cbn [orb]. pose proof (dates_recent now (p_cooldown p) l Hd) as Hr.
  assert (E : last_date (recent now (p_cooldown p) l) = Some now <-> now ∈ l).
  { unfold last_date. rewrite (sorted_last _ _ Hr), elem_of_list_In. unfold recent. rewrite filter_In. split; [tauto|]. intros H. split; [done|lia]. }
  rewrite (bool_decide_ext _ _ E). case_bool_decide as Hn; [done|]. f_equal. apply insert_date_last.
  destruct Hr as [_ Hr]. apply Forall_forall. intros x Hx. rewrite Forall_forall in Hr. pose proof (Hr x Hx) as Hb. cbn in Hb.
  assert (x <> now); [|lia]. intros ->. apply Hn. apply elem_of_list_In in Hx. apply recent_sub in Hx as [Hx _]. by apply elem_of_list_In.
Qed.
Lemma spell_dates p now l l' : dates_ok now l -> 0 <= now -> consume_spell p now l = Some l' -> dates_ok now l'.
Proof.
  intros [Hs Hf] H0. unfold consume_spell. destruct (_ >=? _); [done|]. destruct (bool_decide _); [done|]. intros [= <-]. split.
  - by apply insert_date_sorted, drop_sorted.
  - apply Forall_forall. intros x. rewrite insert_date_elem. intros [->|Hx]; [lia|]. rewrite recent_drop in Hx by done.
    apply elem_of_list_In, recent_sub in Hx as [Hx _]. rewrite Forall_forall in Hf. apply Hf. by apply elem_of_list_In.
Qed.

(** ** All reachable states *)
Record DI (c : chain) : Prop := {
  di_time : ds_time (c_d c) = c_time c;
  di_pos : 0 <= c_time c;
  di_dates : forall a, dates_ok (c_time c) (stored (c_d c) a)
}.
Lemma DI_step c o : cop_ok c o -> DI c -> DI (cstep c o).
Proof.
  intros Hok [H1 H2 H3]. destruct (keeps_times o) eqn:Ek.
  - destruct (ctimes_inv _ _ _ _ (times_frame c o Ek)) as (E1 & E2 & E3).
    split; [congruence|lia|]. intros a. unfold stored. rewrite E1, E3. apply H3.
  - destruct o; try done.
    + unfold cstep. destruct (cmsg c (CRedelegate d from to a)) as [c'|] eqn:E; [|by split]. cbn [default from_option id].
      destruct (times_redelegate _ _ _ _ _ _ E) as (l & Hl & Ht). unfold ctimes in Ht. injection Ht as E1 E2 E3.
      split; [congruence|lia|]. intros b. unfold stored. rewrite E1, E3. destruct (decide (d = b)) as [->|Hne].
      * rewrite lookup_insert. cbn [from_option id]. eapply spell_dates; [apply (H3 b)|done|]. rewrite <- H1. exact Hl.
      * rewrite lookup_insert_ne by done. apply H3.
    + destruct (ctimes_inv _ _ _ _ (times_begin c t provision)) as (E1 & E2 & E3). cbn in Hok.
      split; [congruence|lia|]. intros a. unfold stored. rewrite E1, E3. destruct (H3 a) as [G1 G2]. split; [done|].
      eapply Forall_impl; [exact G2|]. cbn. lia.
Qed.
Lemma entries_spec c a : DI c -> c_time c < two62 -> 0 <= cooldown c < two63 ->
  redelegation_entries (c_d c) a = map (fun x => (x, x + cooldown c)) (recent (c_time c) (cooldown c) (stored (c_d c) a)).
Proof.
  intros [H1 H2 H3] Ht Hw. unfold redelegation_entries. destruct (H3 a) as [_ Hf]. fold (stored (c_d c) a). revert Hf.
  fold (cooldown c). rewrite H1. generalize (stored (c_d c) a). intros l. induction l as [|x l IH]; intros Hf; [done|].
  inversion Hf as [|? ? Hx Hf']; subst. cbn [omap list_omap recent List.filter]. rewrite (wait_exact x (cooldown c) (c_time c)); [|lia|lia|unfold two62, two63, two64 in *; lia].
  destruct (c_time c <=? x + cooldown c) eqn:E1, (c_time c - x <=? cooldown c) eqn:E2; try lia; cbn [map]; fold (recent (c_time c) (cooldown c) l); rewrite <- IH by done; done.
Qed.

Section reach.
  Context (g : gen) (Hg : genesis g) (ops : list cop) (Hok : cops_ok (gstart g) ops).
  Let c := crun (gstart g) ops.
  Let HG : G g c := G_run g Hg ops Hok.
  Lemma DI_reach : DI c.
  Proof.
    assert (H : forall ops c0, DI c0 -> cops_ok c0 ops -> DI (crun c0 ops)).
    { clear. induction ops as [|o t IH]; intros c0 H0; [done|]. intros [H1 H2]. apply IH; [|done]. by apply DI_step. }
    apply H; [|exact Hok]. pose proof Hg as (_ & _ & Ht & _). split; cbn; [done|lia|]. intros a. unfold stored. cbn. rewrite lookup_empty.
    split; constructor.
  Qed.
  Lemma cooldown_pos : 0 <= cooldown c < two64 /\ 0 <= max_redelegations c < two64.
  Proof.
    destruct (chain_DK g Hg ops Hok) as (_ & _ & Hp). fold c in Hp. unfold cooldown, max_redelegations.
    unfold dparams_valid in Hp. repeat (apply andb_prop in Hp as [Hp ?]). lia.
  Qed.

  (** *** The entries are the recent redelegations *)
  Lemma claim_slots_entries a : cooldown (gstart g) < two63 -> never_raised (gstart g) ops ->
    redelegation_entries (c_d c) a =
      map (fun x => (x, x + cooldown c)) (List.filter (fun x => c_time c - x <=? cooldown c) (redelegated (gstart g) ops a)).
  Proof.
    intros Hw Hn. pose proof cooldown_pos as [Hp _].
    assert (H : forall ops c0 old, DI c0 -> 0 <= cooldown c0 < two63 -> cops_ok c0 ops -> G g c0 -> never_raised c0 ops ->
              WInv (c_time c0) (cooldown c0) old (stored (c_d c0) a) ->
              WInv (c_time (crun c0 ops)) (cooldown (crun c0 ops)) (old ++ redelegated c0 ops a) (stored (c_d (crun c0 ops)) a) /\
              cooldown (crun c0 ops) <= cooldown c0).
    { clear -Hg. induction ops as [|o t IH]; intros c0 old HD Hw Hok HG Hn HW; cbn [crun redelegated]; [rewrite app_nil_r; split; [done|lia]|].
      destruct Hok as [Ho Ht]. destruct Hn as [Hn1 Hn2]. pose proof (DI_step c0 o Ho HD) as HD'. pose proof (G_step g Hg c0 o HG Ho) as HG'.
      assert (Hw' : 0 <= cooldown (cstep c0 o)).
      { destruct (g_d _ _ HG') as (dl & Hdl & E & _). unfold cooldown. change (ds_params (c_d (cstep c0 o))) with (ds_params (d_in (cstep c0 o))).
        rewrite E. assert (Hv : dparams_valid (ds_params (drun (d0 g) dl)) = true) by (apply params_valid_run; [apply Hg|done]).
        unfold dparams_valid in Hv. repeat (apply andb_prop in Hv as [Hv ?]). lia. }
      assert (HW' : WInv (c_time (cstep c0 o)) (cooldown (cstep c0 o)) (old ++ redelegation_at c0 o a) (stored (c_d (cstep c0 o)) a)).
      { destruct (keeps_times o) eqn:Ek.
        - destruct (ctimes_inv _ _ _ _ (times_frame c0 o Ek)) as (E1 & E2 & E3).
          replace (redelegation_at c0 o a) with (@nil Z) by (by destruct o). rewrite app_nil_r. unfold stored. rewrite E1, E3.
          eapply WInv_later; [| |exact HW]; lia.
        - destruct o; try done.
          + unfold redelegation_at, cstep in *. destruct (cmsg c0 (CRedelegate d from to a0)) as [c'|] eqn:E; cbn [default from_option id] in *; [|by rewrite app_nil_r].
            destruct (times_redelegate _ _ _ _ _ _ E) as (l & Hl & Htm). unfold ctimes in Htm. injection Htm as E1 E2 E3.
            unfold stored. rewrite E1, E3. destruct (N.eqb_spec d a) as [->|Hne].
            * rewrite lookup_insert. cbn [from_option id]. pose proof (WInv_consume (ds_params (c_d c0)) (c_time c0) old (stored (c_d c0) a)) as HC.
              change (p_cooldown (ds_params (c_d c0))) with (cooldown c0) in HC. rewrite i64_small in HC by lia.
              specialize (HC HW ltac:(lia)). rewrite (di_time _ HD) in Hl. rewrite Hl in HC. destruct HC as (_ & _ & HC).
              eapply WInv_later; [| |exact HC]; lia.
            * rewrite lookup_insert_ne by done. rewrite app_nil_r. eapply WInv_later; [| |exact HW]; lia.
          + destruct (ctimes_inv _ _ _ _ (times_begin c0 t0 provision)) as (E1 & E2 & E3). cbn in Ho.
            cbn [redelegation_at]. rewrite app_nil_r. unfold stored. rewrite E1, E3. eapply WInv_later; [| |exact HW]; lia. }
      destruct (IH (cstep c0 o) _ HD' ltac:(lia) Ht HG' Hn2 HW') as [I1 I2]. rewrite app_assoc. split; [exact I1|lia]. }
    destruct (H ops (gstart g) []) as [HW Hc]; try done.
    { pose proof Hg as (_ & _ & Ht & _). split; cbn; [done|lia|]. intros b. unfold stored. cbn. rewrite lookup_empty. split; constructor. }
    { split; [|done]. pose proof Hg as (_ & _ & _ & Hv & _). unfold dparams_valid in Hv. repeat (apply andb_prop in Hv as [Hv ?]). change (0 <= p_cooldown (g0_dp g)). lia. }
    { by apply G_init. }
    { split; [by exists []|done|constructor]. }
    cbn [app] in HW. fold c in HW, Hc. rewrite entries_spec; [|exact DI_reach|apply (g_times _ _ HG)|lia]. f_equal.
    change (List.filter _ (redelegated (gstart g) ops a)) with (recent (c_time c) (cooldown c) (redelegated (gstart g) ops a)).
    rewrite (WInv_recent _ _ _ _ HW). symmetry. apply recent_drop. apply DI_reach.
  Qed.

  (** *** The free slots are what can be used *)
  Definition used (a : N) : Z := Z.of_nat (length (redelegation_entries (c_d c) a)).
  Context (Hw : cooldown c < two63) (Hm : max_redelegations c < two63).
  Lemma used_spec a : used a = Z.of_nat (length (recent (c_time c) (cooldown c) (stored (c_d c) a))).
  Proof. unfold used. rewrite entries_spec; [|exact DI_reach|apply (g_times _ _ HG)|pose proof cooldown_pos; lia]. by rewrite map_length. Qed.
  Lemma free_spec a : used a <= max_redelegations c -> available_slots (c_d c) a = max_redelegations c - used a.
  Proof.
    intros H. unfold available_slots. fold (used a). fold (max_redelegations c). unfold u64_sub. destruct (Z.leb_spec (used a) (max_redelegations c)); lia.
  Qed.
  Lemma redelegate_iff d from to a :  0 <= a ->
    (exists c', cmsg c (CRedelegate d from to a) = Some c') <->
    is_delegator (c_d c) from d /\ staker_exists c to = true /\ is_active (c_s c) to = true /\ a <= delegation_of (c_d c) from d /\
    used d < max_redelegations c /\ ~ In (c_time c) (map fst (redelegation_entries (c_d c) d)).
  Proof.
    intros Ha. pose proof DI_reach as HD. pose proof cooldown_pos as [Hp _].
    assert (Hin : In (c_time c) (map fst (redelegation_entries (c_d c) d)) <-> c_time c ∈ stored (c_d c) d).
    { rewrite entries_spec; [|exact HD|apply (g_times _ _ HG)|lia]. rewrite map_map. cbn [fst]. rewrite map_id. unfold recent. rewrite filter_In, elem_of_list_In.
      split; [tauto|]. intros H. split; [done|lia]. }
    rewrite Hin, used_spec. cbn [cmsg]. unfold msg_redelegate.
    change (getf (d_in c)) with (getf (c_d c)). change (delegation_of (d_in c)) with (delegation_of (c_d c)). change (ds_params (d_in c)) with (ds_params (c_d c)).
    change (ds_time (d_in c)) with (ds_time (c_d c)). change (ds_cool (d_in c)) with (ds_cool (c_d c)).
    unfold is_delegator. case_bool_decide as E1; cbn [negb]; [|split; [by intros [? ?]|tauto]].
    destruct (staker_exists c to); cbn [negb]; [|split; [by intros [? ?]|intros (_ & ? & _); done]].
    destruct (is_active (c_s c) to); cbn [negb]; [|split; [by intros [? ?]|intros (_ & _ & ? & _); done]].
    destruct (a >? delegation_of (c_d c) from d) eqn:E2; [split; [by intros [? ?]|intros (_ & _ & _ & ? & _); lia]|].
    fold (stored (c_d c) d). rewrite (di_time _ HD).
    rewrite (spell_spec (ds_params (c_d c)) (c_time c) (stored (c_d c) d)); [|apply HD|unfold cooldown in *; lia|exact Hm].
    change (p_cooldown (ds_params (c_d c))) with (cooldown c). change (p_maxredel (ds_params (c_d c))) with (max_redelegations c).
    destruct (Z.of_nat (length (recent (c_time c) (cooldown c) (stored (c_d c) d))) >=? max_redelegations c) eqn:E3; cbn [orb].
    { split; [by intros [? ?]|]. intros (_ & _ & _ & _ & ? & _). lia. }
    case_bool_decide as E4; [split; [by intros [? ?]|tauto]|]. set (st1 := with_cool _ _).
    destruct (chain_reached g Hg c HG) as [dops HR]. destruct (reached_good _ _ HR) as (b & HGd & HE & _).
    assert (HG1 : DelegationInv.Good st1 b) by (by eapply Good_same_f1; [|exact HGd]).
    destruct (Good_undelegate st1 b from d a HG1 Ha) as [_ Hact].
    assert (Hbal : a <= lg_balance (gl b from) d). { rewrite <- (read_of _ b from d HGd). change (delegation_of (d_in c) from d) with (delegation_of (c_d c) from d). lia. }
    destruct (perform_undelegation st1 from d a) as [st2 actual]. cbn [snd] in Hact. rewrite Hact, Z.min_l, Z.eqb_refl by lia. cbn [negb].
    split; [intros _|by eexists]. split_and!; try done; lia.
  Qed.
  Lemma claim_slots_none d from to a : 0 <= a -> used d <= max_redelegations c -> available_slots (c_d c) d = 0 -> cmsg c (CRedelegate d from to a) = None.
  Proof.
    intros Ha Hu H0. rewrite free_spec in H0 by done. destruct (cmsg c (CRedelegate d from to a)) as [c'|] eqn:E; [|done].
    destruct (proj1 (redelegate_iff d from to a Ha)) as (_ & _ & _ & _ & H & _); [by eexists|lia].
  Qed.
  Lemma claim_slots_some d from to a : 0 <= a -> used d <= max_redelegations c -> 0 < available_slots (c_d c) d ->
    ~ In (c_time c) (map fst (redelegation_entries (c_d c) d)) ->
    is_delegator (c_d c) from d -> staker_exists c to = true -> is_active (c_s c) to = true -> a <= delegation_of (c_d c) from d ->
    exists c', cmsg c (CRedelegate d from to a) = Some c'.
  Proof. intros Ha Hu H0. rewrite free_spec in H0 by done. intros. apply redelegate_iff; [done|]. split_and!; try done; lia. Qed.
  Lemma claim_slots_taken d from to a c' : 0 <= a < two63 -> used d <= max_redelegations c -> cmsg c (CRedelegate d from to a) = Some c' ->
    redelegation_entries (c_d c') d = redelegation_entries (c_d c) d ++ [(c_time c, c_time c + cooldown c)] /\
    available_slots (c_d c') d = available_slots (c_d c) d - 1 /\
    forall b, b <> d -> redelegation_entries (c_d c') b = redelegation_entries (c_d c) b /\ available_slots (c_d c') b = available_slots (c_d c) b.
  Proof.
    intros Ha Hu E. pose proof DI_reach as HD. pose proof cooldown_pos as [Hp _].
    destruct (times_redelegate _ _ _ _ _ _ E) as (l & Hl & Ht). unfold ctimes in Ht. injection Ht as E1 E2 E3.
    assert (HD' : DI c'). { pose proof (DI_step c (CRedelegate d from to a) Ha HD) as H. unfold cstep in H. by rewrite E in H. }
    assert (Hq : ds_params (c_d c') = ds_params (c_d c)).
    { pose proof (params_frame c (CRedelegate d from to a) eq_refl) as H. unfold cstep in H. rewrite E in H. cbn [default from_option id] in H.
      unfold cpar in H. by injection H as ->. }
    assert (Hc : cooldown c' = cooldown c) by (unfold cooldown; by rewrite Hq).
    assert (Hx : max_redelegations c' = max_redelegations c) by (unfold max_redelegations; by rewrite Hq).
    assert (Hen : forall b, b <> d -> redelegation_entries (c_d c') b = redelegation_entries (c_d c) b).
    { intros b Hb. unfold redelegation_entries. rewrite E1, E2, Hq, lookup_insert_ne by done. done. }
    assert (Hed : redelegation_entries (c_d c') d = redelegation_entries (c_d c) d ++ [(c_time c, c_time c + cooldown c)]).
    { rewrite !entries_spec; try done; try lia; try (apply (g_times _ _ HG)); [|rewrite E3; apply (g_times _ _ HG)].
      rewrite Hc, E3. unfold stored at 1. rewrite E1, lookup_insert. cbn [from_option id].
      rewrite (di_time _ HD) in Hl. rewrite spell_spec in Hl; [|apply HD|unfold cooldown in *; lia|exact Hm].
      destruct (_ || _); [done|]. injection Hl as <-. change (p_cooldown (ds_params (c_d c))) with (cooldown c).
      rewrite recent_app, map_app. f_equal.
      - f_equal. apply recent_all. apply Forall_forall. intros x Hx0. apply elem_of_list_In, recent_sub in Hx0 as [_ ?]. done.
      - unfold recent. cbn. destruct (_ <=? _) eqn:Ez; [done|lia]. }
    split; [done|]. split.
    - assert (Hu' : used d < max_redelegations c) by (eapply (redelegate_iff d from to a); [lia|by eexists]).
      rewrite (free_spec d) by lia. unfold available_slots. rewrite Hed, app_length. cbn [length]. rewrite Hq. fold (max_redelegations c).
      unfold used in *. unfold u64_sub. match goal with |- context [?x <=? ?y] => destruct (Z.leb_spec x y) end; lia.
    - intros b Hb. split; [by apply Hen|]. unfold available_slots. by rewrite Hen, Hq by done.
  Qed.
End reach.
