(** * C78: coins paid into the protocol's own accounts by a join message (proofs). *)
From Verif Require Import Base BaseFacts Delegation DelegationInv Stakers StakersInv Funders FundersInv FundersRun Team RoundRobin Pool Bundles Chain ChainFrame
  BankMoves ChainLift Walk MoneyFlow PayFlow ChainWide Gifts.

(** ** The message with any recipient, and the message of Stakers.v *)
Lemma send_other b from to to' c b' : send b from to c = Some b' -> exists b'', send b from to' c = Some b''.
Proof. unfold send. destruct (_ && _); [|done]. eauto. Qed.
Lemma join_to_user st pool del s p v a : msg_join_to st pool del s p v (User v) a = msg_join st pool del s p v a.
Proof. reflexivity. Qed.
Lemma join_to_join st pool del s p v to a st' : msg_join_to st pool del s p v to a = Some st' ->
  exists st1, msg_join st pool del s p v a = Some st1 /\ st' = with_sbank st1 (ss_bank st') /\
    pay_kyve (ss_bank st) (User s) to a = Some (ss_bank st').
Proof.
  unfold msg_join_to, msg_join. destruct pool as [[|]|]; try done. destruct (ss_stakers st !! s); [|done].
  destruct (s =? v)%N; [done|]. destruct (get_val st p s); [done|].
  destruct (ensure_slot st del p s) as [st1|] eqn:Ee; [|done]. destruct (existsb _ _); [done|]. destruct (existsb _ _); [done|].
  cbv zeta. destruct (pay_kyve (ss_bank (add_val st1 p s v)) (User s) to a) as [b|] eqn:Eb; [|done]. intros [= <-].
  assert (H : exists b', pay_kyve (ss_bank (add_val st1 p s v)) (User s) (User v) a = Some b').
  { unfold pay_kyve in *. destruct (_ <? 0); [done|]. by eapply send_other. }
  destruct H as [b' ->]. eexists. split; [reflexivity|]. split; [reflexivity|]. cbn [ss_bank with_sbank].
  assert (Eq : ss_bank (add_val st1 p s v) = ss_bank st1) by (unfold add_val; by destruct (ss_stakers st1 !! s), (get_val st1 p s)). rewrite Eq in Eb. rewrite <- Eb. f_equal.
  unfold ensure_slot in Ee. destruct (_ <=? _); [|by injection Ee as <-]. cbv zeta in Ee. destruct (_ <? _); [|done]. injection Ee as <-.
  unfold leave_pool. by destruct (get_val _ _ _).
Qed.
Lemma join_join_to st pool del s p v to a st1 : msg_join st pool del s p v a = Some st1 -> exists st', msg_join_to st pool del s p v to a = Some st'.
Proof.
  unfold msg_join_to, msg_join. destruct pool as [[|]|]; try done. destruct (ss_stakers st !! s); [|done].
  destruct (s =? v)%N; [done|]. destruct (get_val st p s); [done|].
  destruct (ensure_slot st del p s) as [st2|] eqn:Ee; [|done]. destruct (existsb _ _); [done|]. destruct (existsb _ _); [done|].
  cbv zeta. destruct (pay_kyve (ss_bank (add_val st2 p s v)) (User s) (User v) a) as [b|] eqn:Eb; [|done]. intros _.
  assert (H : exists b', pay_kyve (ss_bank (add_val st2 p s v)) (User s) to a = Some b').
  { unfold pay_kyve in *. destruct (_ <? 0); [done|]. by eapply send_other. }
  destruct H as [b' ->]. eauto.
Qed.
(** What the rest of the chain sees of [WJoin] is what [msg_join_to] left. *)
Lemma join_to_seen c s p v to a c' : wmsg c (WJoin s p v to a) = Some c' ->
  msg_join_to (s_in c) (pl_disabled <$> get_pool c p) (power c) s p v to a = Some (s_in c') /\ c_bank c' = ss_bank (s_in c').
Proof.
  cbn [wmsg]. destruct (msg_join_to _ _ _ _ _ _ _ _) as [st|] eqn:E; [|done]. destruct (msg_join _ _ _ _ _ _ _); [|done]. intros [= <-].
  split; [|done]. f_equal. unfold s_in. cbn. by destruct st.
Qed.
Definition gives (x y : acct) (d : N) (a : Z) : Z := if decide (y = x) then (if decide (d = KYVE) then a else 0) else 0.
Lemma wjoin_parts c s p v to a c' : u64 a -> wmsg c (WJoin s p v to a) = Some c' ->
  exists c1, cmsg c (CJoin s p v a) = Some c1 /\ c' = cw_bank c1 (c_bank c') /\ send (c_bank c) (User s) to (coin KYVE a) = Some (c_bank c') /\
  forall x d, bal (c_bank c') x d = bal (c_bank c) x d - gives x (User s) d a + gives x to d a.
Proof.
  intros Ha H. cbn [wmsg] in H. destruct (msg_join_to _ _ _ _ _ _ _ _) as [st|] eqn:E; [|done].
  destruct (join_to_join _ _ _ _ _ _ _ _ _ E) as (st1 & E1 & Est & Ep). rewrite E1 in H. injection H as <-.
  exists (s_out c st1). cbn [cmsg]. rewrite E1. split; [done|]. cbn [c_bank cw_bank]. split.
  - unfold s_out. rewrite Est. cbn. by destruct st1, c.
  - unfold pay_kyve in Ep. destruct (_ <? 0); [done|]. cbn [s_in with_sbank ss_bank] in Ep. split; [exact Ep|]. intros x d.
    rewrite (proj2 (send_Some _ _ _ _ _ Ep)). unfold gives. rewrite amt_coin.
    repeat (destruct (decide _); subst; try done); lia.
Qed.
Lemma wjoin_iff c s p v to a : (exists c', wmsg c (WJoin s p v to a) = Some c') <-> (exists c1, cmsg c (CJoin s p v a) = Some c1).
Proof.
  split; intros [c' H].
  - cbn [wmsg cmsg] in *. destruct (msg_join_to _ _ _ _ _ _ _ _); [|done]. destruct (msg_join _ _ _ _ _ _ _); [|done]. eauto.
  - cbn [wmsg cmsg] in *. destruct (msg_join _ _ _ _ _ _ _) eqn:E; [|done]. destruct (join_join_to _ _ _ _ _ _ to _ _ E) as [st ->]. eauto.
Qed.

(** ** Histories with such messages are histories of the chain *)
Section hist.
  Context (g : gen) (Hg : genesis g).
  Definition as_ops (c : chain) (o : wop) : list cop :=
    match o with
    | WOp o => [o]
    | WJoin s p v to a => match wmsg c (WJoin s p v to a) with Some c' => [CJoin s p v a; CBank (c_bank c')] | None => [] end
    end.
  Lemma as_ops_ok c o : G g c -> wop_ok c o -> cops_ok c (as_ops c o) /\ crun c (as_ops c o) = wstep c o.
  Proof.
    intros HG Hok. destruct o as [o|s p v to a]; cbn [as_ops].
    - split; [by split|done].
    - destruct (wmsg c (WJoin s p v to a)) as [c'|] eqn:E; [|split; [done|by unfold wstep; rewrite E]].
      destruct Hok as [Hok Hto]. pose proof Hok as (_ & _ & Ha & _).
      destruct (wjoin_parts _ _ _ _ _ _ _ Ha E) as (c1 & E1 & Ec & Es & Hb).
      assert (Hc1 : cstep c (CJoin s p v a) = c1) by (unfold cstep; by rewrite E1).
      split.
      + cbn [cops_ok]. split; [done|]. rewrite Hc1. split; [|done]. cbn [cop_ok].
        assert (Hs : send (c_bank c) (User s) (User v) (coin KYVE a) = Some (c_bank c1)).
        { cbn [cmsg] in E1. destruct (msg_join _ _ _ _ _ _ _) as [st1|] eqn:Ej; [|done]. injection E1 as <-.
          rewrite <- join_to_user in Ej. destruct (join_to_join _ _ _ _ _ _ _ _ _ Ej) as (_ & _ & _ & Ep).
          unfold pay_kyve in Ep. by destruct (_ <? 0). }
        split; [|split].
        * intros x d Hx. rewrite Hb. rewrite (proj2 (send_Some _ _ _ _ _ Hs)), !amt_coin. unfold gives. destruct Ha.
          destruct x; try done; repeat (destruct (decide _); try done); lia.
        * exact (send_nn _ _ _ _ _ Es (g_nn _ _ HG)).
        * rewrite (send_supply _ _ _ _ _ Es). exact (g_supply _ _ HG).
      + cbn [crun]. rewrite Hc1. unfold wstep. rewrite E. cbn [default]. rewrite Ec at 2. done.
  Qed.
  Fixpoint all_ops (c : chain) (l : list wop) : list cop :=
    match l with [] => [] | o :: t => as_ops c o ++ all_ops (wstep c o) t end.
  Lemma ok_join c l l' : cops_ok c l -> cops_ok (crun c l) l' -> cops_ok c (l ++ l').
  Proof. revert c. induction l as [|o t IH]; intros c; [done|]. intros [H1 H2] H3. split; [done|]. by apply IH. Qed.
  Lemma run_join c l l' : crun c (l ++ l') = crun (crun c l) l'.
  Proof. revert c. induction l as [|o t IH]; intros c; [done|]. apply IH. Qed.
  Lemma G_on l : forall c, G g c -> cops_ok c l -> G g (crun c l).
  Proof. induction l as [|o t IH]; intros c HG Hok; [done|]. destruct Hok. apply IH; [by apply G_step|done]. Qed.
  Lemma all_ops_ok l : forall c, G g c -> wops_ok c l -> cops_ok c (all_ops c l) /\ crun c (all_ops c l) = wrun c l.
  Proof.
    induction l as [|o t IH]; intros c HG Hok; [done|]. destruct Hok as [Ho Hok]. cbn [all_ops wrun].
    destruct (as_ops_ok c o HG Ho) as [H1 H2].
    assert (HG' : G g (wstep c o)) by (rewrite <- H2; by apply G_on).
    destruct (IH _ HG' Hok) as [H3 H4]. split; [apply ok_join; [done|by rewrite H2]|]. by rewrite run_join, H2.
  Qed.
End hist.

(** ** The claims *)
Lemma gift_covered : forall g l, genesis g -> wops_ok (gstart g) l ->
  exists ops, cops_ok (gstart g) ops /\ crun (gstart g) ops = wrun (gstart g) l.
Proof. intros g l Hg Hok. exists (all_ops (gstart g) l). apply (all_ops_ok g Hg); [by apply G_init|done]. Qed.
Lemma gift_join : forall c s p v to a c', u64 a -> wmsg c (WJoin s p v to a) = Some c' ->
  exists c1, cmsg c (CJoin s p v a) = Some c1 /\ c' = cw_bank c1 (c_bank c') /\
  forall x d, bal (c_bank c') x d = bal (c_bank c) x d - gives x (User s) d a + gives x to d a.
Proof. intros c s p v to a c' Ha H. destruct (wjoin_parts _ _ _ _ _ _ _ Ha H) as (c1 & H1 & H2 & _ & H4). eauto. Qed.
Lemma from_outside_nonneg a d ops : protocol_account a -> forall c, cops_ok c ops -> 0 <= from_outside a d c ops.
Proof.
  intros Ha. induction ops as [|o t IH]; intros c Hok; [done|]. destruct Hok as [Ho Hok]. cbn [from_outside]. specialize (IH _ Hok).
  destruct o; try lia. destruct Ho as [Ho _]. specialize (Ho a d Ha). lia.
Qed.
Lemma wgift_G g l : genesis g -> wops_ok (gstart g) l -> G g (wrun (gstart g) l).
Proof. intros Hg Hok. destruct (gift_covered g l Hg Hok) as (ops & H1 & <-). by apply G_run. Qed.
(** Money of x/funders that belongs to no funding; money of x/pool. *)
Definition unowned (c : chain) (d : N) : Z := bal (c_bank c) MFunders d - sum_rem (c_f c) d.
Lemma stuck_on g c l d : genesis g -> G g c -> wops_ok c l ->
  unowned c d <= unowned (wrun c l) d.
Proof.
  intros Hg HG Hok. destruct (all_ops_ok g Hg l c HG Hok) as [H1 <-].
  pose proof (surplus_run g Hg (all_ops c l) d c HG H1) as H. pose proof (from_outside_nonneg MFunders d (all_ops c l) I c H1) as Hn.
  unfold fsurplus in H. unfold unowned.
  change (bal (c_bank (crun c (all_ops c l))) MFunders d - sum_rem (c_f (crun c (all_ops c l))) d
    = bal (c_bank c) MFunders d - sum_rem (c_f c) d + from_outside MFunders d c (all_ops c l)) in H. lia.
Qed.
Lemma wrun_app c l l' : wrun c (l ++ l') = wrun (wrun c l) l'.
Proof. revert c. induction l as [|o t IH]; intros c; [done|]. apply IH. Qed.
Lemma wops_app c l l' : wops_ok c (l ++ l') <-> wops_ok c l /\ wops_ok (wrun c l) l'.
Proof.
  revert c. induction l as [|o t IH]; intros c; cbn [wops_ok wrun app]; [tauto|]. rewrite IH. tauto.
Qed.
Lemma gift_stuck : forall g before s p v a later d, genesis g ->
  wops_ok (gstart g) (before ++ WJoin s p v MFunders a :: later) ->
  let c := wrun (gstart g) before in
  (exists c', wmsg c (WJoin s p v MFunders a) = Some c') ->
  unowned c d + (if decide (d = KYVE) then a else 0) <= unowned (wrun (gstart g) (before ++ WJoin s p v MFunders a :: later)) d.
Proof.
  intros g before s p v a later d Hg Hok c [c' E]. apply wops_app in Hok as [Hb Hl]. fold c in Hl. destruct Hl as [Hj Hl].
  rewrite wrun_app. fold c. cbn [wrun]. assert (Ew : wstep c (WJoin s p v MFunders a) = c') by (unfold wstep; by rewrite E). rewrite Ew in *.
  pose proof (wgift_G g before Hg Hb) as HG. fold c in HG.
  assert (HG' : G g c'). { destruct (as_ops_ok g c (WJoin s p v MFunders a) HG Hj) as [H1 H2]. rewrite Ew in H2. rewrite <- H2. by apply (G_on g Hg). }
  pose proof (stuck_on g c' later d Hg HG' Hl) as H. destruct Hj as [(_ & _ & Ha & _) _].
  destruct (wjoin_parts _ _ _ _ _ _ _ Ha E) as (c1 & E1 & Ec & _ & Hbal). unfold unowned in *. rewrite Hbal in H.
  assert (Ef : c_f c' = c_f c). { rewrite Ec. cbn [cmsg] in E1. destruct (msg_join _ _ _ _ _ _ _); [|done]. by injection E1 as <-. }
  rewrite Ef in H. unfold gives in H. rewrite (decide_False (P := User s = MFunders)), (decide_True (P := MFunders = MFunders)) in H by done. lia.
Qed.
(** The same for the account of x/pool. *)
Lemma from_outside_app a d l l' : forall c, from_outside a d c (l ++ l') = from_outside a d c l + from_outside a d (crun c l) l'.
Proof. induction l as [|o t IH]; intros c; cbn [from_outside app crun]; [lia|]. rewrite IH. lia. Qed.
Lemma pool_on g before later d : genesis g -> wops_ok (gstart g) (before ++ later) ->
  bal (c_bank (wrun (gstart g) before)) MPool d <= bal (c_bank (wrun (gstart g) (before ++ later))) MPool d.
Proof.
  intros Hg Hok. apply wops_app in Hok as [Hb Hl]. rewrite wrun_app.
  assert (HG0 : G g (gstart g)) by (by apply G_init). destruct (all_ops_ok g Hg before (gstart g) HG0 Hb) as [H1 E1].
  pose proof (wgift_G g before Hg Hb) as HG. destruct (all_ops_ok g Hg later _ HG Hl) as [H2 E2]. rewrite <- E2.
  rewrite <- E1 in H2 |- *. rewrite <- run_join. pose proof (ok_join _ _ _ H1 H2) as H3.
  rewrite (pay_empty g _ d Hg H3), (pay_empty g _ d Hg H1), from_outside_app.
  pose proof (from_outside_nonneg MPool d _ I _ H2). lia.
Qed.
Lemma gift_stuck_pool : forall g before s p v a later d, genesis g ->
  wops_ok (gstart g) (before ++ WJoin s p v MPool a :: later) ->
  let c := wrun (gstart g) before in
  (exists c', wmsg c (WJoin s p v MPool a) = Some c') ->
  bal (c_bank c) MPool d + (if decide (d = KYVE) then a else 0)
    <= bal (c_bank (wrun (gstart g) (before ++ WJoin s p v MPool a :: later))) MPool d.
Proof.
  intros g before s p v a later d Hg Hok c [c' E]. pose proof Hok as Hok'. apply wops_app in Hok' as [Hb [Hj _]]. fold c in Hj.
  change (WJoin s p v MPool a :: later) with ([WJoin s p v MPool a] ++ later) in *. rewrite app_assoc in *.
  pose proof (pool_on g _ later d Hg Hok) as H. rewrite (wrun_app _ before) in H at 1. fold c in H. cbn [wrun] in H.
  assert (Ew : wstep c (WJoin s p v MPool a) = c') by (unfold wstep; by rewrite E). rewrite Ew in H.
  destruct Hj as [(_ & _ & Ha & _) _]. destruct (wjoin_parts _ _ _ _ _ _ _ Ha E) as (_ & _ & _ & _ & Hbal). rewrite Hbal in H.
  unfold gives in H. rewrite (decide_False (P := User s = MPool)), (decide_True (P := MPool = MPool)) in H by done. lia.
Qed.
