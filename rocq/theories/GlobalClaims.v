(** * Facts about the fees of a transaction. *)
From Verif Require Import Base BaseFacts Bundles PayoutClaims Global.

(** ** Specification *)
(** The first entry of a list of rates for a type; zero if there is none. *)
Definition rate (l : list (N * Z)) (ty : N) (x : Z) : Prop :=
  (exists pre suf, l = pre ++ (ty, x) :: suf /\ ~ In ty (map fst pre)) \/ (~ In ty (map fst l) /\ x = 0).
(** The rates of several types, added up. *)
Inductive rates (l : list (N * Z)) : list N -> Z -> Prop :=
  | rates_nil : rates l [] 0
  | rates_cons ty tys x y : rate l ty x -> rates l tys y -> rates l (ty :: tys) (x + y).
(** Who pays: the granter if there is one, otherwise the payer. *)
Definition payer_of (t : tx) (a : N) : Prop := (exists g, tx_granter t = Some g /\ a = g) \/ (tx_granter t = None /\ a = tx_payer t).
Definition by_grant (t : tx) (g : N) : Prop := tx_granter t = Some g /\ g <> tx_payer t.
(** [c] went from [a] to [a'] and nothing else moved. *)
Definition moved (b b' : bank) (a a' : acct) (c : coins) : Prop := forall x d,
  bal b' x d = bal b x d - (if decide (a = x) then amt c d else 0) + (if decide (a' = x) then amt c d else 0).
(** What may be spent in total under an allowance; [None] without a limit. *)
Fixpoint limit_of (a : allowance) : option coins :=
  match a with ABasic b => ba_limit b | APeriodic b _ _ _ _ => ba_limit b | AMsgs _ a => limit_of a end.
(** One allowance was charged [fee], the others are untouched. *)
Definition charged (g g' : gmap (N * N) allowance) (k : N * N) (fee : coins) : Prop :=
  (forall k', k' <> k -> g' !! k' = g !! k') /\
  exists a, g !! k = Some a /\
    match limit_of a with
    | None => exists a', g' !! k = Some a' /\ limit_of a' = None
    | Some l =>
        (forall d, 0 < amt fee d -> amt fee d <= amt l d) /\
        match g' !! k with
        | None => forall d, amt fee d = amt l d
        | Some a' => exists l', limit_of a' = Some l' /\ forall d, amt l' d = amt l d - amt fee d
        end
    end.
(** The grants after a fee was paid (or given back): only the grant that pays is charged. *)
Definition grants_once (s s' : gstate) (t : tx) : Prop :=
  (forall g, by_grant t g -> charged (gs_grants s) (gs_grants s') (g, tx_payer t) (tx_fee t)) /\
  ((forall g, ~ by_grant t g) -> gs_grants s' = gs_grants s).
(** The fee was taken. *)
Definition taken (s s1 : gstate) (t : tx) : Prop :=
  (forall a, payer_of t a -> moved (gs_bank s) (gs_bank s1) (User a) MFeeCollector (tx_fee t)) /\
  gs_par s1 = gs_par s /\ gs_time s1 = gs_time s /\ gs_height s1 = gs_height s.
(** The refund a transaction is due: the part of its fee given by the rate of its only message,
    each coin rounded down. *)
Definition due_refund (p : gparams) (t : tx) (c : coins) : Prop :=
  (exists m x, tx_msgs t = [m] /\ rate (gp_ref p) (type_of m) x /\
    forall d, amt c d * ONE <= amt (tx_fee t) d * x < (amt c d + 1) * ONE) \/
  (length (tx_msgs t) <> 1%nat /\ forall d, amt c d = 0).
(** The messages a transaction runs, including those carried by others. *)
Fixpoint carried (m : gmsg) : list N := match m with Plain t => [t] | Exec l => EXEC :: flat_map carried l end.
Definition all_types (t : tx) : list N := flat_map carried (tx_msgs t).

(** ** Facts *)
Lemma first_of_rate l ty : rate l ty (first_of l ty).
Proof.
  unfold first_of, rate. induction l as [|[a x] l IH]; [right; split; [intros []|done]|].
  cbn [List.find fst]. destruct (N.eqb_spec a ty) as [->|Hne].
  - left. exists [], l. split; [done|]. intros [].
  - destruct IH as [(pre & suf & E & Hn)|[Hn E]].
    + left. exists ((a, x) :: pre), suf. split; [exact (f_equal (cons (a, x)) E)|]. intros [Hx|Hx]; [by apply Hne|by apply Hn].
    + right. split; [|done]. intros [Hx|Hx]; [by apply Hne|by apply Hn].
Qed.
Lemma rate_det l ty x y : rate l ty x -> rate l ty y -> x = y.
Proof.
  induction l as [|[a z] l IH].
  - intros [(p & q & E & _)|[_ ->]]; [by destruct p|]. intros [(p & q & E & _)|[_ ->]]; [by destruct p|done].
  - intros Hx Hy. destruct (decide (a = ty)) as [->|Hne].
    + assert (H : forall w, rate ((ty, z) :: l) ty w -> w = z).
      { intros w [(p & q & E & Hn)|[Hn _]]; [|exfalso; apply Hn; by left].
        destruct p as [|[b v] p]; [by injection E|]. injection E as -> -> _. exfalso. apply Hn. by left. }
      by rewrite (H x Hx), (H y Hy).
    + assert (H : forall w, rate ((a, z) :: l) ty w -> rate l ty w).
      { intros w [(p & q & E & Hn)|[Hn ->]].
        - destruct p as [|[b v] p]; [injection E as -> _ _; done|]. injection E as -> -> E. left. exists p, q. split; [done|].
          intros Hin. apply Hn. by right.
        - right. split; [|done]. intros Hin. apply Hn. by right. }
      apply IH; auto.
Qed.
Lemma surcharge_acc p l a : fold_left (fun a ty => a + first_of (gp_adj p) ty) l a = a + surcharge p l.
Proof.
  revert a. unfold surcharge. induction l as [|ty l IH]; intros a; cbn [fold_left]; [lia|].
  rewrite IH, (IH (0 + _)). lia.
Qed.
Lemma surcharge_rates p l : rates (gp_adj p) l (surcharge p l).
Proof.
  induction l as [|ty l IH]; [constructor|]. unfold surcharge. cbn [fold_left].
  rewrite surcharge_acc, Z.add_0_l. constructor; [apply first_of_rate|done].
Qed.
Lemma rates_det l tys x y : rates l tys x -> rates l tys y -> x = y.
Proof.
  intros H. revert y. induction H as [|ty tys a b Ha Hb IH]; intros y Hy; inversion Hy; subst; [done|].
  f_equal; [eapply rate_det; eauto|auto].
Qed.

Lemma fee_account_payer t a : payer_of t a -> fee_account t = a.
Proof. unfold fee_account. intros [(g & -> & ->)|[-> ->]]; done. Qed.
Lemma spend_spec b fee r : spend b fee = Some r -> cpos fee ->
  match ba_limit b with
  | None => exists b', r = Some b' /\ ba_limit b' = None
  | Some l => (forall d, 0 < amt fee d -> amt fee d <= amt l d) /\
      match r with None => forall d, amt fee d = amt l d | Some b' => exists l', ba_limit b' = Some l' /\ forall d, amt l' d = amt l d - amt fee d end
  end.
Proof.
  unfold spend. destruct (ba_limit b) as [l|] eqn:El; [|intros [= <-] _; eauto].
  destruct (cle fee l) eqn:Ec; [|done]. intros [= <-] Hp. split.
  - intros d Hd. unfold amt in Hd at 1. destruct (fee !! d) as [x|] eqn:E; [|cbn in Hd; lia].
    unfold amt at 1. rewrite E. cbn. by apply (proj1 (cle_spec _ _) Ec).
  - destruct (cempty (csub l fee)) eqn:Ee.
    + apply cempty_spec in Ee. intros d. assert (amt (csub l fee) d = 0) by (by rewrite Ee, amt_empty). rewrite amt_csub in H. lia.
    + eexists. split; [done|]. intros d. apply amt_csub.
Qed.
Lemma accept_spec a now fee types r : accept a now fee types = Some r -> cpos fee ->
  match limit_of a with
  | None => exists a', r = Some a' /\ limit_of a' = None
  | Some l => (forall d, 0 < amt fee d -> amt fee d <= amt l d) /\
      match r with None => forall d, amt fee d = amt l d | Some a' => exists l', limit_of a' = Some l' /\ forall d, amt l' d = amt l d - amt fee d end
  end.
Proof.
  revert r. induction a as [b|b period limit can reset|l a IH]; intros r H Hp; cbn [accept limit_of] in *.
  - destruct (expired b now); [done|]. destruct (spend b fee) as [r'|] eqn:E; [|done]. injection H as <-.
    pose proof (spend_spec _ _ _ E Hp) as S. destruct (ba_limit b) as [l|].
    + destruct S as [S1 S2]. split; [done|]. destruct r'; exact S2.
    + destruct S as (b' & -> & S). exists (ABasic b'). done.
  - destruct (expired b now); [done|]. revert H. match goal with |- (if cle fee ?c then _ else _) = _ -> _ => destruct (cle fee c) end; [|done].
    destruct (spend b fee) as [r'|] eqn:E; [|done]. intros [= <-].
    pose proof (spend_spec _ _ _ E Hp) as S. destruct (ba_limit b) as [l|].
    + destruct S as [S1 S2]. split; [done|]. destruct r'; exact S2.
    + destruct S as (b' & -> & S). eexists. split; [done|]. exact S.
  - destruct (forallb _ types); [|done]. destruct (accept a now fee types) as [r'|]; [|done]. injection H as <-.
    pose proof (IH _ eq_refl Hp) as S. destruct (limit_of a) as [m|].
    + destruct S as [S1 S2]. split; [done|]. destruct r'; exact S2.
    + destruct S as (b' & -> & S). eexists. split; [done|]. exact S.
Qed.
Lemma use_grant_spec s g p fee types s' : use_grant s g p fee types = Some s' -> cpos fee ->
  charged (gs_grants s) (gs_grants s') (g, p) fee /\ gs_bank s' = gs_bank s /\ gs_par s' = gs_par s /\ gs_time s' = gs_time s /\ gs_height s' = gs_height s.
Proof.
  unfold use_grant. destruct (gs_grants s !! (g, p)) as [a|] eqn:Ea; [|done].
  destruct (accept a (gs_time s) fee types) as [r|] eqn:E; [|done]. intros H Hp.
  pose proof (accept_spec _ _ _ _ _ E Hp) as S.
  destruct r as [a'|]; injection H as <-; (split; [|done]); (split; [intros k' Hk; cbn|exists a; split; [done|]; cbn]).
  - by rewrite lookup_insert_ne.
  - rewrite lookup_insert. destruct (limit_of a); [exact S|]. destruct S as (x & [= <-] & S). eauto.
  - by rewrite lookup_delete_ne.
  - rewrite lookup_delete. destruct (limit_of a); [exact S|]. destruct S as (x & [=] & S).
Qed.
Lemma grant_step_spec s t s' : grant_step s t = Some s' -> cpos (tx_fee t) ->
  grants_once s s' t /\ gs_bank s' = gs_bank s /\ gs_par s' = gs_par s /\ gs_time s' = gs_time s /\ gs_height s' = gs_height s.
Proof.
  unfold grant_step, grants_once, by_grant. destruct (tx_granter t) as [g|] eqn:Eg.
  - destruct (N.eqb_spec g (tx_payer t)) as [->|Hne].
    + intros [= <-] _. split; [|done]. split; [intros g [[= <-] H]; done|done].
    + intros H Hp. destruct (use_grant_spec _ _ _ _ _ _ H Hp) as (Hc & Hr). split; [|done].
      split; [intros g' [[= <-] _]; done|]. intros Hn. exfalso. by apply (Hn g).
  - intros [= <-] _. split; [|done]. split; [intros g [? _]; done|done].
Qed.

(** ** The ante handler *)
Lemma ante_spec s local t s1 : ante s local t = Some s1 ->
  taken s s1 t /\ grants_once s s1 t /\ cpos (tx_fee t) /\ 0 < tx_gas t < two63 /\ fee_ok s local (tx_fee t) (tx_gas t) = true /\
  surcharge (gs_par s) (tx_types t) + tx_other t <= tx_gas t.
Proof.
  unfold ante. destruct (Z.leb_spec (surcharge (gs_par s) (tx_types t) + tx_other t) (tx_gas t)) as [Hs|]; [|done]. cbn [negb].
  destruct (Z.ltb_spec 0 (tx_gas t)) as [Hg|]; [|done]. destruct (Z.ltb_spec (tx_gas t) two63) as [Hg2|]; [|done]. cbn [andb negb].
  destruct (fee_ok s local (tx_fee t) (tx_gas t)) eqn:Ef; [|done]. cbn [negb].
  destruct (grant_step s t) as [s0|] eqn:Eg; [|done].
  destruct (send (gs_bank s0) (User (fee_account t)) MFeeCollector (tx_fee t)) as [b|] eqn:Es; [|done].
  destruct (tx_auth t); [|done]. intros [= <-].
  assert (Hp : cpos (tx_fee t)) by (eapply send_pos; eauto).
  destruct (grant_step_spec _ _ _ Eg Hp) as (Hgo & Hb & Hpar & Ht & Hh).
  apply send_Some in Es as [_ Es].
  split; [|split; [exact Hgo|split; [exact Hp|split; [lia|split; [done|lia]]]]].
  split; [|done]. intros a Ha x d. cbn. rewrite <- (fee_account_payer _ _ Ha), <- Hb. apply Es.
Qed.

Lemma fee_for_spec price gas : 0 <= price -> 0 <= gas < two63 -> 
  price * gas <= fee_for price gas * ONE < price * gas + ONE.
Proof.
  intros Hp Hg. unfold fee_for, i64. replace (gas <? two63) with true by (symmetry; apply Z.ltb_lt; lia).
  rewrite dec_mul_int_r. pose proof ONE_pos as HO. unfold dec_ceil.
  assert (H0 : 0 <= gas * price) by nia.
  pose proof (Z.quot_rem' (gas * price) ONE) as Hq. pose proof (Z.rem_bound_pos (gas * price) ONE H0 HO) as Hr.
  destruct (Z.eqb_spec (Z.rem (gas * price) ONE) 0) as [E|E].
  - unfold round_int, dec_of_int. rewrite chop_round_exact. nia.
  - destruct (Z.ltb_spec (Z.rem (gas * price) ONE) 0); [lia|]. unfold round_int, dec_of_int. rewrite chop_round_exact. nia.
Qed.
Lemma is_any_gte_spec a b : is_any_gte a b = true -> exists d x, a !! d = Some x /\ amt b d <= x /\ amt b d <> 0.
Proof.
  unfold is_any_gte. intros H. apply existsb_exists in H as ([d x] & Hin & H). cbn in H.
  apply andb_true_iff in H as [H1 H2]. apply Z.leb_le in H1. apply negb_true_iff, Z.eqb_neq in H2.
  exists d, x. split; [|done]. by apply elem_of_map_to_list, elem_of_list_In.
Qed.
(** The requirement of a single denom. *)
Lemma required_one fee d q : cpos fee -> 0 <= q -> (cempty (coin d q) || is_any_gte fee (coin d q)) = true -> q <= amt fee d.
Proof.
  intros Hp Hq H. apply orb_true_iff in H as [H|H].
  - apply cempty_spec in H. pose proof (amt_coin d q d) as E. rewrite H, amt_empty in E. destruct (decide (d = d)); [|done].
    pose proof (cpos_amt fee d Hp). lia.
  - apply is_any_gte_spec in H as (e & x & He & Hle & Hne). rewrite amt_coin in Hle, Hne. destruct (decide (d = e)) as [<-|]; [|done].
    unfold amt. rewrite He. done.
Qed.
Lemma fee_ok_spec s fee gas : 1 < gs_height s -> gparams_valid (gs_par s) = true -> 0 <= gas < two63 -> cpos fee ->
  fee_ok s None fee gas = true -> gp_price (gs_par s) * gas <= amt fee KYVE * ONE.
Proof.
  intros Hh Hv Hg Hp. unfold fee_ok. replace (1 <? gs_height s) with true by (symmetry; apply Z.ltb_lt; lia). cbn [andb].
  assert (H0 : 0 <= gp_price (gs_par s)). { unfold gparams_valid in Hv. apply andb_true_iff in Hv as [Hv _]. apply andb_true_iff in Hv as [Hv _]. by apply Z.leb_le. }
  pose proof ONE_pos. destruct (Z.eqb_spec (gp_price (gs_par s)) 0) as [E|E]; cbn [negb].
  - intros _. rewrite E. pose proof (cpos_amt fee KYVE Hp). nia.
  - intros H1. pose proof (fee_for_spec _ _ H0 Hg) as [Hl Hu]. apply required_one in H1; [nia|done|nia].
Qed.
(** A node with its own price in the base denom only. *)
Lemma fee_ok_local s fee gas lp : gparams_valid (gs_par s) = true -> 0 <= lp -> 0 <= gas < two63 -> cpos fee ->
  fee_ok s (Some (coin KYVE lp)) fee gas = true -> fee_ok s None fee gas = true /\ lp * gas <= amt fee KYVE * ONE.
Proof.
  intros Hv Hlp Hg Hp. unfold fee_ok.
  assert (H0 : 0 <= gp_price (gs_par s)). { unfold gparams_valid in Hv. apply andb_true_iff in Hv as [Hv _]. apply andb_true_iff in Hv as [Hv _]. by apply Z.leb_le. }
  pose proof ONE_pos.
  set (q := if (1 <? gs_height s) && negb (gp_price (gs_par s) =? 0) then fee_for (gp_price (gs_par s)) gas else 0).
  assert (Hq : 0 <= q). { unfold q. destruct (_ && _); [|lia]. pose proof (fee_for_spec _ _ H0 Hg). nia. }
  assert (Ec : (if (1 <? gs_height s) && negb (gp_price (gs_par s) =? 0) then coin KYVE (fee_for (gp_price (gs_par s)) gas) else ∅) = coin KYVE q).
  { unfold q. destruct (_ && _); done. }
  rewrite Ec. set (l := fee_for lp gas). pose proof (fee_for_spec _ _ Hlp Hg) as [Hl Hu].
  assert (Hl0 : 0 <= l) by (unfold l; nia).
  assert (Hz : fee_for 0 gas = 0). { pose proof (fee_for_spec 0 gas ltac:(lia) Hg). nia. }
  assert (Em : cmax (coin KYVE q) (cmap (fun p => fee_for p gas) (coin KYVE lp)) = coin KYVE (Z.max q l)).
  { apply coins_ext.
    - apply cnz_cmerge.
    - unfold coin, nz. destruct (Z.eqb_spec (Z.max q l) 0); [apply cnz_empty|]. intros d Hx. apply lookup_singleton_Some in Hx as [_ Hx]. done.
    - intros d. unfold cmax. rewrite amt_cmerge, amt_cmap, !amt_coin by done. fold l. destruct (decide (KYVE = d)); [done|]. rewrite Hz. done. }
  rewrite Em. intros H1. apply required_one in H1; [|done|lia]. split; [|unfold l in *; nia].
  destruct (cempty (coin KYVE q)) eqn:Ee; [done|]. cbn [orb].
  unfold is_any_gte. apply existsb_exists.
  assert (Hqn : q <> 0). { intros E. rewrite E in Ee. done. }
  assert (exists x, fee !! KYVE = Some x /\ q <= x) as (x & Hx & Hle).
  { unfold amt in H1. destruct (fee !! KYVE) as [x|]; [|cbn in H1; lia]. exists x. split; [done|]. cbn in H1. lia. }
  exists (KYVE, x). split; [by apply elem_of_list_In, elem_of_map_to_list|]. cbn [fst snd]. rewrite amt_coin. destruct (decide (KYVE = KYVE)); [|done].
  apply andb_true_iff. split; [by apply Z.leb_le|]. by apply negb_true_iff, Z.eqb_neq.
Qed.

(** ** The post handler *)
Lemma refund_due s t : cpos (tx_fee t) -> gparams_valid (gs_par s) = true -> due_refund (gs_par s) t (refund_coins s t).
Proof.
  intros Hp Hv. unfold due_refund, refund_coins. destruct (tx_msgs t) as [|m [|m' l]]; [right; by split| |right; by split].
  left. exists m, (first_of (gp_ref (gs_par s)) (type_of m)). split; [done|]. split; [apply first_of_rate|]. intros d.
  rewrite amt_share. pose proof (cpos_amt _ d Hp) as Ha.
  assert (Hx : 0 <= first_of (gp_ref (gs_par s)) (type_of m)).
  { unfold first_of. destruct (List.find _ _) as [e|] eqn:E; [|lia]. apply find_some in E as [E _].
    unfold gparams_valid in Hv. apply andb_true_iff in Hv as [_ Hv]. rewrite forallb_forall in Hv. apply Hv, andb_true_iff in E as [E _]. by apply Z.leb_le. }
  unfold trunc_int. set (y := amt (tx_fee t) d * _). assert (0 <= y) by (unfold y; nia). pose proof ONE_pos.
  pose proof (Z.quot_rem' y ONE). pose proof (Z.rem_bound_pos y ONE). nia.
Qed.
Lemma rate_range p ty x : gparams_valid p = true -> rate (gp_ref p) ty x -> 0 <= x <= ONE.
Proof.
  intros Hv [(pre & suf & E & _)|[_ ->]]; [|pose proof ONE_pos; lia].
  unfold gparams_valid in Hv. apply andb_true_iff in Hv as [_ Hv]. rewrite forallb_forall in Hv.
  specialize (Hv (ty, x)). rewrite E in Hv. cbn in Hv.
  assert (H : (0 <=? x) && (x <=? ONE) = true) by (apply Hv, in_app_iff; right; by left).
  apply andb_true_iff in H as [H1 H2]. apply Z.leb_le in H1, H2. lia.
Qed.
Lemma due_le p t c d : gparams_valid p = true -> cpos (tx_fee t) -> due_refund p t c -> 0 <= amt c d <= amt (tx_fee t) d.
Proof.
  intros Hv Hp [(m & x & Hm & Hr & H)|[_ H]]; pose proof (cpos_amt _ d Hp).
  - specialize (H d). pose proof (rate_range _ _ _ Hv Hr). pose proof ONE_pos. nia.
  - rewrite H. lia.
Qed.
Lemma moved_nothing b a a' c : (forall d, amt c d = 0) -> moved b b a a' c.
Proof. intros H x d. rewrite H. destruct (decide _), (decide _); lia. Qed.
Lemma moved_same b b' a a' c c' : (forall d, amt c d = amt c' d) -> moved b b' a a' c -> moved b b' a a' c'.
Proof. intros H Hm x d. rewrite <- H. apply Hm. Qed.
(** Whether the post handler looks at the grant. *)
Definition refunds (p : gparams) (t : tx) : Prop := tx_fee t <> ∅ /\ exists m x, tx_msgs t = [m] /\ rate (gp_ref p) (type_of m) x /\ x <> 0.
Lemma post_spec s t s' : gparams_valid (gs_par s) = true -> cpos (tx_fee t) -> post s t = Some s' ->
  (forall a, payer_of t a -> moved (gs_bank s) (gs_bank s') MFeeCollector (User a) (refund_coins s t)) /\
  gs_par s' = gs_par s /\ gs_time s' = gs_time s /\ gs_height s' = gs_height s /\
  (refunds (gs_par s) t -> grants_once s s' t) /\ (~ refunds (gs_par s) t -> s' = s).
Proof.
  intros Hv Hp. pose proof (refund_due s t Hp Hv) as Hd. unfold post.
  assert (Triv : forall r, ~ refunds (gs_par s) t -> (forall d, amt (refund_coins s t) d = 0) -> Some s = Some r ->
    (forall a, payer_of t a -> moved (gs_bank s) (gs_bank r) MFeeCollector (User a) (refund_coins s t)) /\
    gs_par r = gs_par s /\ gs_time r = gs_time s /\ gs_height r = gs_height s /\
    (refunds (gs_par s) t -> grants_once s r t) /\ (~ refunds (gs_par s) t -> r = s)).
  { intros r Hn Hz [= <-]. split; [intros a _; by apply moved_nothing|]. repeat (split; [done|]). done. }
  destruct (tx_msgs t) as [|m [|m' l]] eqn:Em.
  - apply Triv; [intros (_ & x & y & E & _); by rewrite Em in E|]. unfold refund_coins. rewrite Em. intros d. apply amt_empty.
  - destruct (cempty (tx_fee t)) eqn:Ee.
    { apply cempty_spec in Ee. apply Triv; [intros [Hne _]; done|]. unfold refund_coins. rewrite Em, Ee. intros d. rewrite amt_share, amt_empty. done. }
    destruct (Z.eqb_spec (first_of (gp_ref (gs_par s)) (type_of m)) 0) as [E0|E0].
    { apply Triv.
      - intros (_ & m' & x & Hm & Hr & Hx). rewrite Em in Hm. injection Hm as <-. apply Hx. rewrite <- E0. eapply rate_det; [done|apply first_of_rate].
      - unfold refund_coins. rewrite Em, E0. intros d. rewrite amt_share, Z.mul_0_r. done. }
    destruct (grant_step s t) as [s1|] eqn:Eg; [|done].
    destruct (send (gs_bank s1) MFeeCollector (User (fee_account t)) (refund_coins s t)) as [b|] eqn:Es; [|done]. intros [= <-].
    destruct (grant_step_spec _ _ _ Eg Hp) as (Hgo & Hb & Hpar & Ht & Hh). apply send_Some in Es as [_ Es].
    split; [intros a Ha x d; cbn; rewrite <- (fee_account_payer _ _ Ha), <- Hb; apply Es|].
    split; [done|]. split; [done|]. split; [done|]. split; [intros _; exact Hgo|]. intros Hn. exfalso. apply Hn.
    split; [intros E; by rewrite E in Ee|]. exists m, (first_of (gp_ref (gs_par s)) (type_of m)). split; [done|]. split; [apply first_of_rate|done].
  - apply Triv; [intros (_ & x & y & E & _); by rewrite Em in E|]. unfold refund_coins. rewrite Em. intros d. apply amt_empty.
Qed.

(** ** Delivery *)
(** The gas of a transaction after what is charged before its messages. *)
Definition gas_left (s : gstate) (t : tx) (g : Z) : Prop := exists x, rates (gp_adj (gs_par s)) (tx_types t) x /\ g = tx_gas t - x - tx_other t /\ 0 <= g.
Lemma deliver_cases s t body r s' : deliver s t body = (r, s') ->
  (r = Rejected /\ s' = s) \/
  exists s1 g, ante s None t = Some s1 /\ gas_left s t g /\
    ((r = Failed /\ s' = s1 /\ (body s1 g = None \/ exists s2 rest, body s1 g = Some (s2, rest) /\ (rest < tx_pgas t \/ post s2 t = None))) \/
     (r = Done /\ exists s2 rest, body s1 g = Some (s2, rest) /\ tx_pgas t <= rest /\ post s2 t = Some s')).
Proof.
  unfold deliver. destruct (ante s None t) as [s1|] eqn:Ea; [|intros [= <- <-]; by left].
  intros H. right. exists s1. eexists. split; [done|]. split.
  { exists (surcharge (gs_par s) (tx_types t)). split; [apply surcharge_rates|]. split; [reflexivity|]. apply ante_spec in Ea as (_ & _ & _ & _ & _ & Hs). lia. }
  replace (tx_gas t - surcharge (gs_par s) (tx_types t) - tx_other t) with (tx_gas t - (surcharge (gs_par s) (tx_types t) + tx_other t)) by lia.
  destruct (body s1 _) as [[s2 rest]|] eqn:Eb; [|injection H as <- <-; left; eauto].
  destruct (Z.ltb_spec rest (tx_pgas t)); [injection H as <- <-; left; split; [done|]; split; [done|]; right; exists s2, rest; auto|].
  destruct (post s2 t) as [s3|] eqn:Ep; injection H as <- <-.
  - right. split; [done|]. exists s2, rest. auto.
  - left. split; [done|]. split; [done|]. right. exists s2, rest. auto.
Qed.

(** C45. *)
Lemma price_enforced s t body r s' : 1 < gs_height s -> gparams_valid (gs_par s) = true -> deliver s t body = (r, s') -> r <> Rejected ->
  gp_price (gs_par s) * tx_gas t <= amt (tx_fee t) KYVE * ONE.
Proof.
  intros Hh Hv H Hr. apply deliver_cases in H as [[? _]|(s1 & g & Ha & _)]; [done|].
  apply ante_spec in Ha as (_ & _ & Hp & Hg & Hf & _). apply fee_ok_spec; auto. lia.
Qed.
Lemma fee_taken s t body r s' : deliver s t body = (r, s') ->
  (r = Rejected /\ s' = s) \/
  exists s1 g, taken s s1 t /\ gas_left s t g /\
    ((r = Failed /\ s' = s1) \/ (r = Done /\ exists s2 rest, body s1 g = Some (s2, rest))).
Proof.
  intros H. apply deliver_cases in H as [?|(s1 & g & Ha & Hg & H)]; [by left|]. right. exists s1, g.
  apply ante_spec in Ha as (Ht & _). split; [done|]. split; [done|].
  destruct H as [(-> & -> & _)|(-> & s2 & rest & Hb & _)]; [by left|right]. split; [done|]. eauto.
Qed.
Lemma local_price s lp t : gparams_valid (gs_par s) = true -> 0 <= lp -> check_tx s (coin KYVE lp) t = true ->
  lp * tx_gas t <= amt (tx_fee t) KYVE * ONE /\ forall body, fst (deliver s t body) <> Rejected.
Proof.
  intros Hv Hlp H. unfold check_tx in H. destruct (ante s (Some (coin KYVE lp)) t) as [s1|] eqn:Ea; [|done].
  pose proof (ante_spec _ _ _ _ Ea) as (_ & _ & Hp & Hg & Hf & _).
  apply fee_ok_local in Hf as [Hf Hl]; [|done|done|lia|done]. split; [done|]. intros body Hc.
  assert (Ea' : ante s None t = Some s1).
  { revert Ea. unfold ante. rewrite Hf. destruct (negb (_ <=? _)); [done|]. destruct (negb (_ && _)); [done|]. destruct (negb (fee_ok s (Some _) _ _)); [done|]. done. }
  unfold deliver in Hc. rewrite Ea' in Hc. destruct (body s1 _) as [[s2 rest]|]; [|done]. destruct (rest <? _); [done|]. by destruct (post s2 t).
Qed.

(** C47. *)
Lemma refund_paid s t body s' : (forall x g y rest, gparams_valid (gs_par x) = true -> body x g = Some (y, rest) -> gparams_valid (gs_par y) = true) ->
  gparams_valid (gs_par s) = true -> deliver s t body = (Done, s') ->
  exists s1 g s2 rest c, taken s s1 t /\ gas_left s t g /\ body s1 g = Some (s2, rest) /\ due_refund (gs_par s2) t c /\
    (forall d, 0 <= amt c d <= amt (tx_fee t) d) /\ (forall a, payer_of t a -> moved (gs_bank s2) (gs_bank s') MFeeCollector (User a) c).
Proof.
  intros Hb Hv H. apply deliver_cases in H as [[? _]|(s1 & g & Ha & Hgl & H)]; [done|].
  destruct H as [(? & _)|(_ & s2 & rest & E & _ & Hpo)]; [done|].
  apply ante_spec in Ha as (Ht & _ & Hp & _). exists s1, g, s2, rest, (refund_coins s2 t).
  assert (Hv2 : gparams_valid (gs_par s2) = true). { eapply Hb; [|exact E]. destruct Ht as (_ & -> & _). done. }
  pose proof (refund_due s2 t Hp Hv2) as Hd. split; [done|]. split; [done|]. split; [done|]. split; [done|]. split; [intros d; eapply due_le; eauto|].
  intros a Hpa. exact (proj1 (post_spec _ _ _ Hv2 Hp Hpo) a Hpa).
Qed.
(** Without a grant the refund never fails. *)
Lemma refund_never_fails s t : gparams_valid (gs_par s) = true -> cpos (tx_fee t) -> (forall g, ~ by_grant t g) ->
  (forall d, amt (tx_fee t) d <= bal (gs_bank s) MFeeCollector d) -> exists s', post s t = Some s'.
Proof.
  intros Hv Hp Hg Hb. unfold post. destruct (tx_msgs t) as [|m [|m' l]] eqn:Em; [eauto| |eauto].
  destruct (cempty (tx_fee t)); [eauto|]. destruct (_ =? 0); [eauto|].
  assert (Es : grant_step s t = Some s).
  { unfold grant_step. destruct (tx_granter t) as [g|] eqn:E; [|done]. destruct (N.eqb_spec g (tx_payer t)); [done|]. exfalso. by apply (Hg g). }
  rewrite Es. pose proof (refund_due s t Hp Hv) as Hd.
  destruct (send_is_Some (gs_bank s) MFeeCollector (User (fee_account t)) (refund_coins s t)) as [b Eb]; [| |rewrite Eb; eauto].
  - apply cpos_of_amt; [|intros d; eapply due_le; eauto]. unfold refund_coins. rewrite Em. apply cnz_cmap.
  - apply cle_spec. intros d x Hx. assert (x = amt (refund_coins s t) d) as -> by (unfold amt; by rewrite Hx).
    pose proof (due_le _ _ _ d Hv Hp Hd). specialize (Hb d). unfold bal in Hb. lia.
Qed.
Lemma no_grant_done s t body : (forall x g y rest, gparams_valid (gs_par x) = true -> body x g = Some (y, rest) ->
    gparams_valid (gs_par y) = true /\ tx_pgas t <= rest /\ forall d, bal (gs_bank x) MFeeCollector d <= bal (gs_bank y) MFeeCollector d) ->
  gparams_valid (gs_par s) = true -> (forall d, 0 <= bal (gs_bank s) MFeeCollector d) -> (forall g, ~ by_grant t g) ->
  forall s', deliver s t body = (Failed, s') -> exists g, gas_left s t g /\ body s' g = None.
Proof.
  intros Hb Hv Hn Hg s' H. apply deliver_cases in H as [[? _]|(s1 & g & Ha & Hgl & H)]; [done|].
  destruct H as [(_ & -> & H)|(? & _)]; [|done]. apply ante_spec in Ha as (Ht & _ & Hp & _).
  destruct H as [H|(s2 & rest & E & H)]; [exists g; by split|]. exfalso.
  destruct Ht as (Hm & Hpar & _). destruct (Hb _ _ _ _ ltac:(rewrite Hpar; exact Hv) E) as (Hv2 & Hr & Hbal).
  destruct H as [H|H]; [lia|]. destruct (refund_never_fails s2 t Hv2 Hp Hg) as [s3 E3]; [|by rewrite E3 in H].
  intros d. specialize (Hbal d). pose proof (Hm (fee_account t)) as Hm'. 
  assert (Hpo : payer_of t (fee_account t)). { unfold payer_of, fee_account. destruct (tx_granter t); eauto. }
  specialize (Hm' Hpo MFeeCollector d). destruct (decide (User (fee_account t) = MFeeCollector)); [done|]. destruct (decide (MFeeCollector = MFeeCollector)); [|done].
  specialize (Hn d). lia.
Qed.
(** A grant is charged once when nothing is refunded. *)
Lemma grant_once s t body r s' : (forall x g y rest, body x g = Some (y, rest) -> gparams_valid (gs_par y) = true /\ gs_grants y = gs_grants x /\ ~ refunds (gs_par y) t) ->
  deliver s t body = (r, s') -> r <> Rejected -> grants_once s s' t.
Proof.
  intros Hb H Hr. apply deliver_cases in H as [[? _]|(s1 & g & Ha & _ & H)]; [done|]. apply ante_spec in Ha as (_ & Hgo & Hp & _).
  destruct H as [(_ & -> & _)|(_ & s2 & rest & E & _ & Hpo)]; [done|].
  destruct (Hb _ _ _ _ E) as (Hv & Hg & Hn). destruct (post_spec _ _ _ Hv Hp Hpo) as (_ & _ & _ & _ & _ & Hs). rewrite (Hs Hn).
  destruct Hgo as [H1 H2]. split.
  - intros g' Hg'. specialize (H1 g' Hg'). by rewrite Hg.
  - intros Hno. rewrite Hg. auto.
Qed.
(** With a refund it is charged once before and once after the messages. *)
Lemma grant_twice s t body s' : (forall x g y rest, body x g = Some (y, rest) -> gparams_valid (gs_par y) = true /\ refunds (gs_par y) t) ->
  deliver s t body = (Done, s') -> exists s1 g s2 rest, taken s s1 t /\ grants_once s s1 t /\ gas_left s t g /\ body s1 g = Some (s2, rest) /\ grants_once s2 s' t.
Proof.
  intros Hb H. apply deliver_cases in H as [[? _]|(s1 & g & Ha & Hgl & H)]; [done|]. apply ante_spec in Ha as (Htk & Hgo & Hp & _).
  destruct H as [(? & _)|(_ & s2 & rest & E & _ & Hpo)]; [done|].
  destruct (Hb _ _ _ _ E) as (Hv & Hre). destruct (post_spec _ _ _ Hv Hp Hpo) as (_ & _ & _ & _ & Hs & _). exists s1, g, s2, rest. do 4 (split; [assumption|]). auto.
Qed.

(** C56: the messages see the gas that is left and nothing else of it. *)
Lemma surcharged s t body r s' : deliver s t body = (r, s') -> r <> Rejected ->
  exists s1 g, taken s s1 t /\ gas_left s t g /\ forall body', body' s1 g = body s1 g -> deliver s t body' = (r, s').
Proof.
  intros H Hr. unfold deliver in *. destruct (ante s None t) as [s1|] eqn:Ea; [|injection H as <- <-; done].
  exists s1, (tx_gas t - (surcharge (gs_par s) (tx_types t) + tx_other t)). pose proof (ante_spec _ _ _ _ Ea) as (Ht & _ & _ & _ & _ & Hs). split; [done|]. split.
  - exists (surcharge (gs_par s) (tx_types t)). split; [apply surcharge_rates|]. lia.
  - intros body' ->. exact H.
Qed.
Lemma too_expensive s t body x : rates (gp_adj (gs_par s)) (tx_types t) x -> tx_gas t < x + tx_other t -> deliver s t body = (Rejected, s).
Proof.
  intros Hx Hlt. unfold deliver, ante. rewrite (rates_det _ _ _ _ Hx (surcharge_rates _ _)) in Hlt.
  destruct (Z.leb_spec (surcharge (gs_par s) (tx_types t) + tx_other t) (tx_gas t)); [lia|]. done.
Qed.
(** A transaction that pays enough is not rejected. *)
Lemma fee_ok_enough s fee gas : gparams_valid (gs_par s) = true -> 0 < gas < two63 -> gp_price (gs_par s) * gas <= amt fee KYVE * ONE -> fee_ok s None fee gas = true.
Proof.
  intros Hv Hg Hf. unfold fee_ok.
  assert (H0 : 0 <= gp_price (gs_par s)). { unfold gparams_valid in Hv. apply andb_true_iff in Hv as [Hv _]. apply andb_true_iff in Hv as [Hv _]. by apply Z.leb_le. }
  pose proof ONE_pos. destruct (1 <? gs_height s); [|done]. destruct (Z.eqb_spec (gp_price (gs_par s)) 0) as [E|E]; [done|]. cbn [andb negb].
  pose proof (fee_for_spec _ gas H0 ltac:(lia)) as [Hl Hu]. set (q := fee_for (gp_price (gs_par s)) gas) in *.
  assert (Hq : 0 < q) by nia. apply orb_true_iff. right. unfold is_any_gte. apply existsb_exists.
  assert (Hle : q <= amt fee KYVE) by nia.
  assert (exists x, fee !! KYVE = Some x /\ q <= x) as (x & Hx & Hqx).
  { unfold amt in Hle. destruct (fee !! KYVE) as [x|]; [|cbn in Hle; lia]. exists x. by split. }
  exists (KYVE, x). split; [by apply elem_of_list_In, elem_of_map_to_list|]. cbn [fst snd]. rewrite amt_coin. destruct (decide (KYVE = KYVE)); [|done].
  apply andb_true_iff. split; [by apply Z.leb_le|]. apply negb_true_iff, Z.eqb_neq. lia.
Qed.
Lemma paid_accepted s t body x : gparams_valid (gs_par s) = true -> 0 < tx_gas t < two63 -> cpos (tx_fee t) -> tx_auth t = true -> (forall g, ~ by_grant t g) ->
  rates (gp_adj (gs_par s)) (tx_types t) x -> x + tx_other t <= tx_gas t ->
  gp_price (gs_par s) * tx_gas t <= amt (tx_fee t) KYVE * ONE -> (forall d, amt (tx_fee t) d <= bal (gs_bank s) (User (tx_payer t)) d) ->
  fst (deliver s t body) <> Rejected.
Proof.
  intros Hv Hg Hp Hau Hn Hx Hlt Hf Hb. rewrite (rates_det _ _ _ _ Hx (surcharge_rates _ _)) in Hlt.
  assert (exists s1, ante s None t = Some s1) as [s1 E1].
  { unfold ante. destruct (Z.leb_spec (surcharge (gs_par s) (tx_types t) + tx_other t) (tx_gas t)); [|lia]. cbn [negb].
    destruct (Z.ltb_spec 0 (tx_gas t)); [|lia]. destruct (Z.ltb_spec (tx_gas t) two63); [|lia]. cbn [andb negb].
    rewrite fee_ok_enough by done. cbn [negb].
    assert (Hfa : fee_account t = tx_payer t /\ grant_step s t = Some s).
    { unfold fee_account, grant_step. destruct (tx_granter t) as [g|] eqn:E; [|done]. destruct (N.eqb_spec g (tx_payer t)) as [->|Hne]; [done|].
      exfalso. by apply (Hn g). }
    destruct Hfa as [-> ->].
    destruct (send_is_Some (gs_bank s) (User (tx_payer t)) MFeeCollector (tx_fee t)) as [b Eb]; [done| |rewrite Eb, Hau; eauto].
    apply cle_spec. intros d y Hy. specialize (Hb d). unfold amt in Hb at 1. rewrite Hy in Hb. exact Hb. }
  unfold deliver. rewrite E1. destruct (body s1 _) as [[s2 rest]|]; [|done]. destruct (rest <? _); [done|]. by destruct (post s2 t).
Qed.
(** A refundable transaction whose grant covers the fee but not twice the fee is never done. *)
Lemma grant_exhausted s t g a l d body s' :
  by_grant t g -> gs_grants s !! (g, tx_payer t) = Some a -> limit_of a = Some l -> 0 < amt (tx_fee t) d -> amt l d < 2 * amt (tx_fee t) d ->
  (forall x g y rest, body x g = Some (y, rest) -> gparams_valid (gs_par y) = true /\ gs_grants y = gs_grants x /\ refunds (gs_par y) t) ->
  deliver s t body <> (Done, s').
Proof.
  intros Hg Ha Hl Hd Hlt Hb H.
  destruct (grant_twice s t body s') as (s1 & g1 & s2 & rest & _ & [H1 _] & _ & E & [H2 _]); [|done|].
  { intros x g2 y rest E. apply Hb in E as (? & _ & ?). done. }
  destruct (Hb _ _ _ _ E) as (_ & Eg & _).
  destruct (H1 g Hg) as (_ & a1 & Ea1 & C1). rewrite Ha in Ea1. injection Ea1 as <-. rewrite Hl in C1. destruct C1 as [Hle C1].
  destruct (H2 g Hg) as (_ & a2 & Ea2 & C2). rewrite Eg in Ea2. rewrite Ea2 in C1. destruct C1 as (l' & El' & C1). rewrite El' in C2. destruct C2 as [C2 _].
  specialize (C2 d Hd). rewrite C1 in C2. lia.
Qed.
