(** * What tallying a bundle does to every staker: membership, points, slashes. *)
From Verif Require Import Base BaseFacts Delegation F1Spec F1Refine F1Acct DelegationInv DelegationBank DelegationQueue DelegationProps
  DelegationClaims DelegationClaims2 DelegationClaims3 Stakers StakersInv Funders Team RoundRobin Pool Bundles Chain ChainFrame ArchiveInv
  BankMoves ChainLift PoolFrame PoolInv.

(** Delegated to the staker ([None]: nobody ever did) and the slashes so far. *)
Definition stake (d : dstate) (s : N) : option Z * list Z := (dd_total <$> f_data (getf d s), map snd (f_slashes (getf d s))).
(** A slash by the fraction [fr]. *)
Definition hit (fr : Z) (o : option Z * list Z) : option Z * list Z :=
  match fst o with None => o | Some t => (Some (t - t * fr / ONE), snd o ++ [fr]) end.
Lemma stake_power c s : power c s = default 0 (fst (stake (c_d c) s)).
Proof. unfold power, stake, delegation_amount, f1_total, get_dd. cbn. by destruct (f_data _). Qed.

Lemma stake_slash ops st s ty x : reached ops st ->
  stake (fst (slash_delegators st s ty)) x = if decide (x = s) then hit (slash_fraction (ds_params st) ty) (stake st s) else stake st x.
Proof.
  intros HR. destruct (decide (x = s)) as [->|Hne].
  - destruct (f_data (getf st s)) as [dd|] eqn:Ed.
    2: { unfold slash_delegators. rewrite Ed. cbn. unfold hit, stake. by rewrite Ed. }
    destruct (claim_slash ops st s ty HR) as (H1 & _ & H3 & _); [congruence|]. cbv zeta in *.
    destruct (reached_good _ _ HR) as (b & HG & HE & _). destruct (HG s) as [HRl _].
    revert H1 H3. unfold slash_delegators, stake, hit. rewrite Ed. cbn [fmap option_fmap option_map fst snd].
    set (fr := slash_fraction _ _). change (getf (remove_index st s) s) with (getf st s). change (ds_params (remove_index st s)) with (ds_params st).
    destruct (f1_slash (getf st s) fr) as [f sl] eqn:Ef. cbn [fst snd].
    set (st1 := setf (remove_index st s) s f).
    set (st2 := match send _ _ _ _ with Some b => _ | None => _ end).
    assert (Hg : getf (set_index st2 s) s = f).
    { change (getf (set_index st2 s) s) with (getf st2 s). unfold st2. destruct (send _ _ _ _); cbn; unfold getf; cbn; by rewrite lookup_insert. }
    clearbody st2. unfold delegation_amount. rewrite Hg. intros H1 H3.
    unfold f1_slash in Ef. destruct (f1_start_new_period (getf st s) (get_dd (getf st s))) as [f' dd'] eqn:Es.
    destruct (Rel_start _ _ _ _ HRl Es) as (HR' & Hk & Hu & Hdl & Hsl & Hh & Hent).
    assert (Hgs : Forall (fun p => (fst p < dd_latest dd')%N) (f_slashes f')) by (rewrite Hsl, Hk; by eapply Rel_slk_lt).
    injection Ef as <- <-. cbn in *. rewrite (kv_set_append _ _ _ Hgs), Hsl, map_app. cbn. f_equal.
    f_equal. unfold f1_total, get_dd in *. rewrite Ed in *. cbn in *. rewrite H3. f_equal. exact H1.
  - assert (Hg : getf (fst (slash_delegators st s ty)) x = getf st x); [|unfold stake; by rewrite Hg].
    unfold slash_delegators. destruct (f_data (getf st s)); [|done]. destruct (f1_slash _ _) as [f sl]. cbn [fst].
    set (st1 := setf (remove_index st s) s f).
    change (getf (set_index ?y s) x) with (getf y x). destruct (send _ _ _ _); cbn; unfold getf; cbn; by rewrite lookup_insert_ne.
Qed.
Lemma params_slash st s ty : ds_params (fst (slash_delegators st s ty)) = ds_params st.
Proof. unfold slash_delegators. destruct (f_data _); [|done]. destruct (f1_slash _ _) as [f sl]. cbn [fst]. by destruct (send _ _ _ _). Qed.

(** One staker seen from one pool. *)
Definition obs : Type := option valacc * (option Z * list Z).
Definition ob (c : chain) (p s : N) : obs := (get_val (c_s c) p s, stake (c_d c) s).
Definition kick (fr : Z) (o : obs) : obs := (None, hit fr (snd o)).
(** One point more; slashed and removed when the maximum is reached. *)
Definition miss (mx fr : Z) (o : obs) : obs :=
  match fst o with
  | None => o
  | Some v => if mx <=? u64_add (vl_points v) 1 then (None, hit fr (snd o)) else (Some (mkVal (vl_addr v) (u64_add (vl_points v) 1) (vl_leaving v)), snd o)
  end.
Definition others_same (c c' : chain) (p : N) : Prop := forall q s, q <> p -> get_val (c_s c') q s = get_val (c_s c) q s.

Section T.
Context (g : gen) (Hg : genesis g).

Lemma ob_slash_remove c p s t x : G g c ->
  ob (slash_remove c p s t) p x = (if decide (x = s) then kick (slash_fraction (ds_params (c_d c)) t) (ob c p x) else ob c p x)
  /\ others_same c (slash_remove c p s t) p.
Proof.
  intros HG. destruct (G_reached g Hg c HG) as [ops HR]. pose proof (stake_slash ops (d_in c) s t x HR) as Hs.
  change (ds_params (d_in c)) with (ds_params (c_d c)) in Hs.
  assert (Hd : stake (c_d (slash_remove c p s t)) x = stake (fst (slash_delegators (d_in c) s t)) x) by done.
  assert (Hv : forall q y, get_val (c_s (slash_remove c p s t)) q y = if decide (p = q /\ s = y) then None else get_val (c_s c) q y).
  { intros q y. unfold slash_remove. set (d' := fst _). cbn. rewrite get_leave. done. }
  split.
  - unfold ob. rewrite Hd, Hs, Hv. change (stake (d_in c)) with (stake (c_d c)). destruct (decide (x = s)) as [->|Hne].
    + by rewrite decide_True.
    + rewrite decide_False by naive_solver. done.
  - intros q y Hq. rewrite Hv. rewrite decide_False by naive_solver. done.
Qed.
Lemma params_slash_remove c p s t : ds_params (c_d (slash_remove c p s t)) = ds_params (c_d c).
Proof. exact (params_slash (d_in c) s t). Qed.

Lemma ob_reset c p s x : G g c ->
  ob (reset_pts c p s) p x = (if decide (x = s) then ((fun v => mkVal (vl_addr v) 0 (vl_leaving v)) <$> get_val (c_s c) p x, stake (c_d c) x) else ob c p x)
  /\ others_same c (reset_pts c p s) p.
Proof.
  intros HG. unfold reset_pts, reset_points. cbn. destruct (get_val (c_s c) p s) as [v|] eqn:E; unfold s_in in *.
  - change (get_val (with_sbank (c_s c) (c_bank c)) p s) with (get_val (c_s c) p s). rewrite E. cbn. split.
    + unfold ob. cbn. rewrite get_set_val. destruct (decide (x = s)) as [->|Hne].
      * rewrite decide_True by done. by rewrite E.
      * rewrite decide_False by naive_solver. done.
    + intros q y Hq. cbn. rewrite get_set_val. rewrite decide_False by naive_solver. done.
  - change (get_val (with_sbank (c_s c) (c_bank c)) p s) with (get_val (c_s c) p s). rewrite E. cbn. split; [|done].
    unfold ob. cbn. destruct (decide (x = s)) as [->|]; [|done]. by change (get_val (with_sbank (c_s c) (c_bank c)) p s) with (get_val (c_s c) p s); rewrite E.
Qed.
Lemma params_reset c p s : ds_params (c_d (reset_pts c p s)) = ds_params (c_d c). Proof. done. Qed.

Lemma ob_add_point c p s x : G g c ->
  ob (add_point c p s) p x = (if decide (x = s) then miss (b_maxpoints (c_bp c)) (p_timeout (ds_params (c_d c))) (ob c p x) else ob c p x)
  /\ others_same c (add_point c p s) p /\ ds_params (c_d (add_point c p s)) = ds_params (c_d c).
Proof.
  intros HG. assert (Hmax : 0 < b_maxpoints (c_bp c)).
  { destruct (g_par _ _ HG) as (Hb & _). unfold bparams_valid in Hb. lia. }
  unfold add_point. destruct (increment_points (s_in c) p s) as [st n] eqn:E. unfold increment_points in E.
  change (get_val (s_in c) p s) with (get_val (c_s c) p s) in E. change (c_bp (s_out c st)) with (c_bp c).
  destruct (get_val (c_s c) p s) as [v|] eqn:Ev; injection E as <- <-.
  - set (v' := mkVal (vl_addr v) (u64_add (vl_points v) 1) (vl_leaving v)). set (c1 := s_out c (set_val (s_in c) p s v')).
    assert (HG1 : G g c1).
    { pose proof (G_s g c (SPoint s p) HG I I I) as H. unfold sstep in H. unfold increment_points in H.
      change (get_val (s_in c) p s) with (get_val (c_s c) p s) in H. rewrite Ev in H. exact H. }
    assert (H1 : forall q y, get_val (c_s c1) q y = if decide (p = q /\ s = y) then Some v' else get_val (c_s c) q y).
    { intros q y. unfold c1. cbn. rewrite get_set_val. done. }
    destruct (_ <=? _) eqn:Em.
    + destruct (ob_slash_remove c1 p s SlashTimeout x HG1) as [Ho Hot]. split; [|split].
      * rewrite Ho. change (ds_params (c_d c1)) with (ds_params (c_d c)). destruct (decide (x = s)) as [->|Hne].
        -- unfold kick, ob, miss. cbn [fst snd]. rewrite Ev, Em. done.
        -- unfold ob. rewrite H1. rewrite decide_False by naive_solver. done.
      * intros q y Hq. rewrite Hot by done. rewrite H1. rewrite decide_False by naive_solver. done.
      * by rewrite params_slash_remove.
    + split; [|split; [|done]].
      * unfold ob. rewrite H1. destruct (decide (x = s)) as [->|Hne].
        -- rewrite decide_True by done. unfold miss. cbn [fst snd]. by rewrite Ev, Em.
        -- rewrite decide_False by naive_solver. done.
      * intros q y Hq. rewrite H1. rewrite decide_False by naive_solver. done.
  - destruct (_ <=? 0) eqn:Em; [lia|]. split; [|done]. unfold ob. cbn. change (get_val (s_in c) p x) with (get_val (c_s c) p x).
    destruct (decide (x = s)) as [->|]; [|done]. unfold miss. cbn. by rewrite Ev.
Qed.

(** A fold over distinct stakers, each step changing only its staker. *)
Definition par (c : chain) := (c_bp c, ds_params (c_d c)).
Lemma ob_fold (f : chain -> N -> chain) (h : N -> obs -> obs) (p : N) P l c :
  (forall c y, G g c -> par c = P -> G g (f c y) /\ par (f c y) = P /\ others_same c (f c y) p /\
     forall x, ob (f c y) p x = if decide (x = y) then h y (ob c p x) else ob c p x) ->
  NoDup l -> G g c -> par c = P ->
  let c' := fold_left f l c in
  G g c' /\ par c' = P /\ others_same c c' p /\ forall x, ob c' p x = if decide (x ∈ l) then h x (ob c p x) else ob c p x.
Proof.
  intros Hf Hnd. revert c. induction Hnd as [|y l Hy Hnd IH]; intros c HG HP; cbn [fold_left].
  - split; [done|split; [done|split; [done|]]]. intros x. rewrite decide_False; [done|]. by apply not_elem_of_nil.
  - destruct (Hf c y HG HP) as (HG1 & HP1 & Ho1 & H1). destruct (IH (f c y) HG1 HP1) as (HG2 & HP2 & Ho2 & H2).
    split; [done|split; [done|split]].
    + intros q s Hq. rewrite Ho2, Ho1; done.
    + intros x. rewrite H2, H1. destruct (decide (x = y)) as [->|Hne].
      * rewrite decide_False by done. rewrite decide_True by left. done.
      * destruct (decide (x ∈ l)) as [Hin|Hin]; [rewrite decide_True by (by right); done|].
        rewrite decide_False; [done|]. rewrite elem_of_cons. naive_solver.
Qed.

Lemma members_NoDup c p : NoDup (members c p).
Proof.
  unfold members, pool_stakers. rewrite (merge_sort_Permutation N.le). apply NoDup_fst_map_to_list.
Qed.

Lemma ob_non_voters c p : G g c ->
  let c' := handle_non_voters c p in
  G g c' /\ par c' = par c /\ others_same c c' p /\
  forall s, ob c' p s = if decide (in_pool c p s = true /\ voted (get_prop c p) s = false)
                        then miss (b_maxpoints (c_bp c)) (p_timeout (ds_params (c_d c))) (ob c p s) else ob c p s.
Proof.
  intros HG. unfold handle_non_voters. set (b := get_prop c p).
  destruct (ob_fold (fun c s => if voted b s then c else add_point c p s)
    (fun s o => if voted b s then o else miss (b_maxpoints (c_bp c)) (p_timeout (ds_params (c_d c))) o) p (par c) (members c p) c) as (H1 & H2 & H3 & H4).
  - intros c0 y HG0 HP0. destruct (voted b y).
    + split; [done|split; [done|split; [done|]]]. intros x. by destruct (decide _).
    + destruct (ob_add_point c0 p y y HG0) as (_ & Ho & Hp). split; [by apply G_add_point|].
      assert (Hpar : par (add_point c0 p y) = par c).
      { rewrite <- HP0. unfold par. rewrite Hp. f_equal. pose proof (b_add_point c0 p y) as Hb. by apply bpart_eq in Hb as (_&_&_&_&_&->&_). }
      split; [done|split; [done|]]. intros x. destruct (ob_add_point c0 p y x HG0) as (-> & _).
      unfold par in HP0. injection HP0 as -> ->. done.
  - apply members_NoDup.
  - done.
  - done.
  - cbv zeta in *. split; [done|split; [done|split; [done|]]]. intros s. rewrite H4. destruct (decide (s ∈ members c p)) as [Hin|Hin].
    + apply members_in in Hin. destruct (voted b s); [rewrite decide_False by naive_solver|rewrite decide_True by naive_solver]; done.
    + rewrite decide_False; [done|]. rewrite members_in in Hin. naive_solver.
Qed.
Lemma ob_slashes c p l (ty : N -> slash_type) : NoDup l -> G g c ->
  let c' := fold_left (fun c s => slash_remove c p s (ty s)) l c in
  G g c' /\ par c' = par c /\ others_same c c' p /\
  forall s, ob c' p s = if decide (s ∈ l) then kick (slash_fraction (ds_params (c_d c)) (ty s)) (ob c p s) else ob c p s.
Proof.
  intros Hnd HG.
  destruct (ob_fold (fun c s => slash_remove c p s (ty s)) (fun s o => kick (slash_fraction (ds_params (c_d c)) (ty s)) o) p (par c) l c) as (H1 & H2 & H3 & H4); try done.
  intros c0 y HG0 HP0. split; [by apply G_slash_remove|]. split.
  - rewrite <- HP0. unfold par. by rewrite params_slash_remove.
  - split; [apply (ob_slash_remove c0 p y (ty y) y HG0)|]. intros x. destruct (ob_slash_remove c0 p y (ty y) x HG0) as [-> _].
    unfold par in HP0. by injection HP0 as _ ->.
Qed.

(** Charging and paying do not concern the stakers' membership, points or slashes. *)
Definition same_ob (c c' : chain) : Prop := (forall p s, ob c' p s = ob c p s) /\ par c' = par c.
Lemma same_refl c : same_ob c c. Proof. done. Qed.
Lemma same_trans a b c : same_ob a b -> same_ob b c -> same_ob a c.
Proof. intros [H1 H2] [H3 H4]. split; [|congruence]. intros p s. by rewrite H3, H1. Qed.
Lemma same_m c c' : c_d c' = c_d c -> c_s c' = c_s c -> c_bp c' = c_bp c -> same_ob c c'.
Proof. unfold same_ob, ob, par. by intros -> -> ->. Qed.
Lemma same_pay_out c u r c' : pay_out c u r = inl c' -> same_ob c c'.
Proof.
  unfold pay_out. destruct (send _ _ _ _) as [bk|]; [|done]. set (c1 := cw_bank c bk).
  destruct (increase_commission_rewards _ _ _ _) as [s|] eqn:Es; [|done]. apply val_icr in Es.
  set (c2 := s_out c1 s) in *. destruct (payout_rewards _ _ _ _) as [d|] eqn:Ep; [|done]. intros [= <-].
  assert (H2 : same_ob c c2).
  { split; [|done]. intros p y. unfold ob, get_val, vals_of. cbn. by rewrite Es. }
  eapply same_trans; [exact H2|]. clearbody c2. unfold payout_rewards in Ep.
  assert (Hx : (forall y, stake d y = stake (c_d c2) y) /\ ds_params d = ds_params (c_d c2)).
  { destruct (cempty _); [by injection Ep as <-|]. destruct (f_data (getf (d_in c2) u)) as [dd|] eqn:Ed; [|done].
    destruct (send _ _ _ _) as [b|]; [|done]. injection Ep as <-. split; [|done]. intros y.
    unfold stake. change (getf (with_bank ?z b) y) with (getf z y). rewrite getf_setf.
    destruct (decide (u = y)) as [<-|]; [|done]. unfold f1_add_rewards. change (getf (d_in c2) u) with (getf (c_d c2) u) in *.
    cbn. unfold get_dd. rewrite Ed. done. }
  destruct Hx as [Hx1 Hx2]. split.
  - intros p y. unfold ob. cbn. by rewrite Hx1.
  - unfold par. cbn. by rewrite Hx2.
Qed.
Lemma same_charge_inflation c p c' x : charge_inflation c p = Some (c', x) -> same_ob c c'.
Proof.
  unfold charge_inflation. destruct (inflation_payout _ _); [|done]. destruct (i64 _ <? 0); [done|].
  by destruct (send _ _ _ _); intros [= <- <-]; apply same_m.
Qed.

(** The tally. [outcome]: valid, invalid or none. *)
Definition absent (c : chain) (p : N) (s : N) : obs :=
  if decide (in_pool c p s = true /\ voted (get_prop c p) s = false)
  then miss (b_maxpoints (c_bp c)) (p_timeout (ds_params (c_d c))) (ob c p s) else ob c p s.
Lemma ob_tally c p : G g c -> AInv c ->
  let b := get_prop c p in
  match tally c b p with
  | TrValid c' v _ _ _ => G g c' /\ par c' = par c /\ others_same c c' p /\ v = distribution (handle_non_voters c p) p /\ v_status v = VValid /\
      forall s, ob c' p s = if decide (s ∈ bp_invalid b) then kick (p_vote (ds_params (c_d c))) (absent c p s) else absent c p s
  | TrInvalid c' v => G g c' /\ par c' = par c /\ others_same c c' p /\ v = distribution (handle_non_voters c p) p /\ v_status v = VInvalid /\
      forall s, ob c' p s = if decide (s ∈ bp_valid b)
                            then kick (if decide (s = bp_uploader b) then p_upload (ds_params (c_d c)) else p_vote (ds_params (c_d c))) (absent c p s)
                            else absent c p s
  | TrNoQuorum c' v => G g c' /\ par c' = par c /\ others_same c c' p /\ v = distribution (handle_non_voters c p) p /\ v_status v <> VValid /\ v_status v <> VInvalid /\
      forall s, ob c' p s = absent c p s
  | TrError _ => v_status (distribution (handle_non_voters c p) p) = VValid
  | TrPanic => v_status (distribution (handle_non_voters c p) p) = VValid
  end.
Proof.
  intros HG HA b. destruct (ob_non_voters c p HG) as (HG1 & HP1 & Ho1 & H1). fold b in H1.
  assert (Hnd : NoDup (bp_valid b) /\ NoDup (bp_invalid b)).
  { destruct (get_prop_ok c p HA) as [Hf|Hf]; unfold full, bare in Hf; fold b in Hf.
    - destruct Hf as (_ & _ & -> & -> & _). split; constructor.
    - destruct Hf as (_ & _ & _ & _ & Hv). unfold voters in Hv. rewrite !NoDup_app in Hv. tauto. }
  destruct Hnd as [Hnv Hni].
  unfold tally. set (c1 := handle_non_voters c p) in *. set (v := distribution c1 p) in *.
  destruct (v_status v) eqn:Ev.
  - split; [done|]. split; [done|]. split; [done|]. split; [done|]. rewrite Ev. split; [done|]. split; [done|]. done.
  - destruct (charge_funders (f_in c1) p MPool) as [f o] eqn:Ef. destruct o as [fp|]; [|done].
    assert (HGf : G g (f_out c1 f)).
    { pose proof (G_charge_funders g Hg c1 p HG1) as H. by rewrite Ef in H. }
    destruct (charge_inflation (f_out c1 f) p) as [[c2 x]|] eqn:Ei; [|done].
    assert (HG2 : G g c2) by (by eapply G_charge_inflation).
    assert (S2 : same_ob c1 c2).
    { eapply same_trans; [|by eapply same_charge_inflation]. by apply same_m. }
    destruct (payouts _ _ _) as [r|]; [|done].
    pose proof (G_pay_out g c2 (bp_uploader b) r HG2) as HG3.
    destruct (pay_out c2 (bp_uploader b) r) as [c3|c3] eqn:Ep; [|done].
    apply same_pay_out in Ep. pose proof (same_trans _ _ _ S2 Ep) as [S3 P3].
    destruct (ob_slashes c3 p (bp_invalid b) (fun _ => SlashVote) Hni HG3) as (HG4 & HP4 & Ho4 & H4).
    split; [done|]. split; [congruence|]. split.
    { intros q s Hq. rewrite Ho4 by done. specialize (S3 q s). unfold ob in S3. injection S3 as -> _. by apply Ho1. }
    split; [done|]. split; [done|]. intros s. rewrite H4. unfold par in P3. injection P3 as _ ->. 
    unfold par in HP1. injection HP1 as _ ->. rewrite S3, H1. done.
  - destruct (ob_slashes c1 p (bp_valid b) (slash_type_of b) Hnv HG1) as (HG4 & HP4 & Ho4 & H4).
    split; [done|]. split; [congruence|]. split; [intros q s Hq; rewrite Ho4, Ho1; done|]. split; [done|]. split; [done|].
    intros s. rewrite H4, H1. unfold par in HP1. injection HP1 as _ ->. unfold slash_type_of, absent. fold b.
    destruct (decide (s ∈ bp_valid b)); [|done]. f_equal.
    destruct (decide (s = bp_uploader b)) as [->|Hne]; [by rewrite N.eqb_refl|]. by apply N.eqb_neq in Hne as ->.
  - split; [done|]. split; [done|]. split; [done|]. split; [done|]. rewrite Ev. split; [done|]. split; [done|]. done.
Qed.
End T.
