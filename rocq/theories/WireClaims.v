(** * What is checked before a module sees a message (proofs). *)
From Verif Require Import Base BaseFacts Delegation F1Spec DelegationInv DelegationClaims Stakers Funders FundersInv Team RoundRobin Pool Bundles Chain
  ChainFrame BankMoves StakersInv StakersClaims StakersClaims2 ChainLift Global Params ParamsFrame ParamsClaims IndexInv FundingsFrame FundingsClaims Wire WireFrame.

(** ** Well-formed messages *)
(** Coins: valid denoms, positive amounts, the denoms in increasing order (hence each only once). *)
Definition coins_wf (gr : grammar) (l : rcoins) : Prop :=
  (forall c, c ∈ l -> gr_denom gr (fst c) = true /\ exists x, snd c = Some x /\ 0 < x) /\
  (forall i j c d, (i < j)%nat -> l !! i = Some c -> l !! j = Some d -> gr_lt gr (fst c) (fst d) = true).
(** An identity is empty or sixteen hexadecimal digits. *)
Definition identity_wf (s : list N) : Prop :=
  s = [] \/ length s = 16%nat /\ Forall (fun c => (48 <= c <= 57)%N \/ (65 <= c <= 70)%N \/ (97 <= c <= 102)%N) s.
Definition sprofile_wf (x : sprofile) : Prop :=
  identity_wf (sp_identity x) /\ (length (sp_moniker x) <= 255)%nat /\ (length (sp_website x) <= 255)%nat /\
  (length (sp_contact x) <= 255)%nat /\ (length (sp_details x) <= 255)%nat.
Definition share (x : option Z) : Prop := exists v, x = Some v /\ 0 <= v <= ONE.
(** The sender of every message is an address. Besides, per message: *)
Definition sender_of (m : rmsg) : N :=
  match m with
  | RDelegate c _ _ | RUndelegate c _ _ | RRedelegate c _ _ _ | RWithdraw c _ | RCreateStaker c _ _ | RMetadata c _
  | RCommission c _ | RClaimCommission c _ | RJoin c _ _ _ | RLeave c _ | RCreateFunder c _ | RUpdateFunder c _
  | RFund c _ _ _ | RDefund c _ _ | RTeamCreate c _ _ | RTeamClaim c _ _ _ | RTeamClawback c _ _ | RTeamRewards c _ _ _
  | RTeamAuthority c _ _ | RVote c _ _ _ _ | RSkip c _ _ _ | RClaimRole c _ _ | RCreatePool c _ _ _ | RUpdatePool c _ _
  | REnablePool c _ | RDisablePool c _ | RSchedule c _ _ _ _ _ | RCancel c _ | RParams c _ => c
  | RSubmit m => sb_creator m
  end.
Definition wellformed (gr : grammar) (m : rmsg) : Prop :=
  gr_addr gr (sender_of m) = true /\
  match m with
  | RDelegate _ s _ | RUndelegate _ s _ | RWithdraw _ s => gr_addr gr s = true
  | RCreateStaker _ com _ => com = None \/ share com
  | RMetadata _ x => sprofile_wf x
  | RCommission _ com => share com
  | RClaimCommission _ x | RDefund _ _ x => x <> [] /\ coins_wf gr x
  | RJoin _ _ v _ => gr_addr gr v = true
  | RCreateFunder _ x | RUpdateFunder _ x => fp_moniker x <> []
  | RFund _ _ x y => (x <> [] \/ y <> []) /\ coins_wf gr x /\ coins_wf gr y
  | RCreatePool _ _ w _ => exists v, w = Some v /\ 0 <= v
  | RUpdatePool _ _ a => a <> None
  | RParams _ y => y <> None
  | _ => True
  end.

Lemma coin_valid_spec gr c : coin_valid gr c = true <-> gr_denom gr (fst c) = true /\ exists x, snd c = Some x /\ 0 < x.
Proof.
  unfold coin_valid. rewrite andb_true_iff. destruct c as [d [x|]]; cbn.
  - rewrite Z.ltb_lt. split; [intros [H1 H2]; split; [done|eauto]|]. intros (H1 & y & Hy & H2). injection Hy as ->. done.
  - split; [by intros [_ ?]|]. by intros (_ & ? & ? & _).
Qed.
Lemma coins_after_spec gr l : forall low, coins_after gr low l = true <-> coins_wf gr l /\ forall c, c ∈ l -> gr_lt gr low (fst c) = true.
Proof.
  induction l as [|c l IH]; intros low; cbn [coins_after].
  - split; [|done]. intros _. split; [split|]; intros *; set_solver.
  - rewrite !andb_true_iff, coin_valid_spec, IH. split.
    + intros [[H1 H2] [[H3 H4] H5]]. split; [split|].
      * intros d [->|Hd]%elem_of_cons; [done|by apply H3].
      * intros i j d e Hij Hi Hj. destruct j as [|j]; [lia|]. cbn in Hj. destruct i as [|i].
        -- injection Hi as <-. apply H5. by eapply elem_of_list_lookup_2.
        -- cbn in Hi. eapply (H4 i j); [lia|done|done].
      * intros d [->|Hd]%elem_of_cons; [done|]. eapply gr_trans; [exact H2|by apply H5].
    + intros [[H1 H2] H3]. split; [split; [apply H1; set_solver|apply H3; set_solver]|]. split; [split|].
      * intros d Hd. apply H1. set_solver.
      * intros i j d e Hij Hi Hj. apply (H2 (S i) (S j)); [lia|done|done].
      * intros d Hd. apply elem_of_list_lookup in Hd as [i Hi]. apply (H2 0%nat (S i)); [lia|done|done].
Qed.
Lemma coins_validate_spec gr l : coins_validate gr l = true <-> coins_wf gr l.
Proof.
  destruct l as [|c l]; cbn [coins_validate].
  - split; [|done]. intros _. split; intros *; set_solver.
  - rewrite andb_true_iff, coin_valid_spec, coins_after_spec. split.
    + intros [H1 [[H3 H4] H5]]. split.
      * intros d [->|Hd]%elem_of_cons; [done|by apply H3].
      * intros i j d e Hij Hi Hj. destruct j as [|j]; [lia|]. cbn in Hj. destruct i as [|i].
        -- injection Hi as <-. apply H5. by eapply elem_of_list_lookup_2.
        -- cbn in Hi. eapply (H4 i j); [lia|done|done].
    + intros [H1 H2]. split; [apply H1; set_solver|]. split; [split|].
      * intros d Hd. apply H1. set_solver.
      * intros i j d e Hij Hi Hj. apply (H2 (S i) (S j)); [lia|done|done].
      * intros d Hd. apply elem_of_list_lookup in Hd as [i Hi]. apply (H2 0%nat (S i)); [lia|done|done].
Qed.
Lemma is_empty_spec l : is_empty l = true <-> l = [].
Proof. by destruct l. Qed.
Lemma percentage_spec x : percentage x = true <-> share x.
Proof.
  unfold share. destruct x as [v|]; cbn; [|split; [done|by intros (? & ? & _)]]. rewrite andb_true_iff, !Z.leb_le. split.
  - intros H. exists v. done.
  - intros (? & [= ->] & ?). done.
Qed.
Lemma hex_digit_spec c : is_Some (hex_digit c) <-> (48 <= c <= 57)%N \/ (65 <= c <= 70)%N \/ (97 <= c <= 102)%N.
Proof.
  unfold hex_digit.
  destruct ((48 <=? c) && (c <=? 57))%N eqn:E1; [split; [intros _; lia|eauto]|].
  destruct ((97 <=? c) && (c <=? 102))%N eqn:E2; [split; [intros _; lia|eauto]|].
  destruct ((65 <=? c) && (c <=? 70))%N eqn:E3; [split; [intros _; lia|eauto]|].
  split; [by intros [? ?]|]. intros H. exfalso. lia.
Qed.
Lemma hex_decode_spec n : forall s, (length s <= n)%nat -> forall k,
  (exists b, hex_decode s = Some b /\ length b = k) <->
  length s = (2 * k)%nat /\ Forall (fun c => (48 <= c <= 57)%N \/ (65 <= c <= 70)%N \/ (97 <= c <= 102)%N) s.
Proof.
  induction n as [|n IH]; intros s Hn k.
  - destruct s; [|cbn in Hn; lia]. cbn. split.
    + intros (b & [= <-] & <-). split; [done|constructor].
    + intros [H _]. exists []. split; [done|]. cbn. lia.
  - destruct s as [|a [|b s]]; cbn [hex_decode length].
    + split.
      * intros (? & [= <-] & <-). split; [done|constructor].
      * intros [H _]. exists []. split; [done|]. cbn. lia.
    + split; [by intros (? & ? & _)|]. intros [H _]. lia.
    + cbn in Hn. split.
      * intros (r & H & <-). destruct (hex_digit a) eqn:Ea; [|done]. destruct (hex_digit b) eqn:Eb; [|done].
        destruct (hex_decode s) as [r'|] eqn:Es; [|done]. injection H as <-.
        destruct (proj1 (IH s ltac:(lia) (length r'))) as [H1 H2]; [eauto|]. split; [cbn; lia|].
        constructor; [apply hex_digit_spec; eauto|]. constructor; [apply hex_digit_spec; eauto|done].
      * intros [H1 H2]. inversion H2 as [|? ? Ha Hr]; subst. inversion Hr as [|? ? Hb Hs]; subst.
        destruct k as [|k]; [lia|]. destruct (proj2 (IH s ltac:(lia) k)) as (r & Er & <-); [split; [lia|done]|].
        apply hex_digit_spec in Ha as [x Ha], Hb as [y Hb]. rewrite Ha, Hb, Er. eauto.
Qed.
Lemma identity_spec s : identity_valid s = true <-> identity_wf s.
Proof.
  unfold identity_valid, identity_wf. pose proof (hex_decode_spec (length s) s (le_n _) 8) as H.
  destruct s as [|a s]; [split; [by left|done]|]. destruct (hex_decode (a :: s)) as [b|].
  - rewrite Nat.eqb_eq. split.
    + intros Hb. right. apply H. eauto.
    + intros [?|Hs]; [done|]. apply H in Hs as (b' & [= ->] & ?). done.
  - split; [done|]. intros [?|Hs]; [done|]. by apply H in Hs as (b' & ? & _).
Qed.
Lemma claim_validate gr m : validate gr m = true <-> wellformed gr m.
Proof.
  unfold wellformed.
  destruct m; cbn [validate sender_of]; rewrite ?andb_true_iff, ?percentage_spec, ?negb_true_iff, ?coins_validate_spec, ?identity_spec;
    try tauto.
  - destruct commission as [v|]; cbn [default].
    + split; [intros [? ?]; by auto|]. intros [? [?|?]]; done.
    + split; [intros [? _]; by auto|]. intros [? _]. split; [done|]. exists DEFAULT_COMMISSION. split; [done|]. by vm_compute.
  - unfold sprofile_wf, short. rewrite !Nat.leb_le. tauto.
  - destruct x; cbn; [|naive_solver]. split; [by intros [[_ ?] _]|]. by intros [_ [? _]].
  - destruct (fp_moniker x); [|naive_solver]. split; [by intros [_ ?]|by intros [_ ?]].
  - destruct (fp_moniker x); [|naive_solver]. split; [by intros [_ ?]|by intros [_ ?]].
  - assert (E : forall l, is_empty l || coins_validate gr l = true <-> coins_wf gr l).
    { intros l. rewrite <- coins_validate_spec. destruct l; cbn; tauto. }
    rewrite !E. destruct amounts, per_bundle; cbn; naive_solver.
  - destruct amounts; cbn; [|naive_solver]. split; [by intros [[_ ?] _]|]. by intros [_ [? _]].
  - destruct weight as [v|]; cbn.
    + rewrite Z.leb_le. split; [intros [? ?]; eauto|]. intros (? & ? & [= ->] & ?). done.
    + split; [by intros [_ ?]|by intros (_ & ? & ? & _)].
  - destruct payload; naive_solver.
  - destruct payload; naive_solver.
Qed.

(** The coins that are handed on are the coins of the message. *)
Lemma coins_wf_nodup gr l : coins_wf gr l -> NoDup (map fst l).
Proof.
  intros [_ H]. apply NoDup_alt. intros i j d Hi Hj. change (map fst l) with (fst <$> l) in *.
  apply list_lookup_fmap_Some in Hi as (c & Hc & E1), Hj as (e & He & E2).
  destruct (lt_eq_lt_dec i j) as [[Hlt|]|Hlt]; [|done|]; exfalso.
  - pose proof (H i j c e Hlt Hc He) as L. rewrite <- E1, <- E2 in L. by rewrite gr_irr in L.
  - pose proof (H j i e c Hlt He Hc) as L. rewrite <- E1, <- E2 in L. by rewrite gr_irr in L.
Qed.
Lemma to_coins_spec gr l : coins_wf gr l -> forall d x, to_coins l !! d = Some x <-> (d, Some x) ∈ l.
Proof.
  intros H d x. unfold to_coins. rewrite <- elem_of_list_to_map.
  - rewrite elem_of_list_fmap. split.
    + intros ([d' y] & [= -> ->] & Hy). destruct (proj1 H _ Hy) as [_ (z & E & _)]. cbn in E. subst. done.
    + intros Hx. exists (d, Some x). done.
  - pose proof (coins_wf_nodup gr l H) as Hn. rewrite <- list_fmap_compose. exact Hn.
Qed.
Lemma to_coins_pos gr l : coins_wf gr l -> cpos (to_coins l).
Proof. intros H d x Hx. apply (to_coins_spec gr l H) in Hx. destruct (proj1 H _ Hx) as [_ (z & [= ->] & ?)]. done. Qed.
Lemma to_coins_nonempty gr l : coins_wf gr l -> l <> [] -> to_coins l <> ∅.
Proof.
  intros H Hl E. destruct l as [|[d y] l]; [done|]. destruct (proj1 H (d, y)) as [_ (z & Ez & _)]; [set_solver|]. cbn in Ez. subst.
  assert (Hd : to_coins ((d, Some z) :: l) !! d = Some z) by (apply (to_coins_spec gr _ H); set_solver).
  rewrite E in Hd. by rewrite lookup_empty in Hd.
Qed.

(** ** Messages that are rejected *)
Lemma claim_rejected gr r m : ~ wellformed gr m -> deliver gr r m = None /\ rstep gr r (RMsg m) = r.
Proof.
  intros H. assert (E : deliver gr r m = None).
  { unfold deliver. destruct (validate gr m) eqn:Ev; [by apply claim_validate in Ev|done]. }
  split; [done|]. cbn [rstep]. by rewrite E.
Qed.

(** ** Every history is a history of the chain *)
Lemma send_kyve_small (b : bank) from to a b' : bank_nn b -> supply b < two63 -> send b from to (coin KYVE a) = Some b' -> a < two63.
Proof.
  intros Hn Hs H. apply send_Some in H as [Hle _]. pose proof (supply_ge1 b from Hn) as H1.
  assert (H2 : amt (coin KYVE a) KYVE <= bal b from KYVE) by (apply cle_amt; [intros x; apply Hn|done]).
  rewrite amt_coin, decide_True in H2 by done. lia.
Qed.
Lemma delegate_small (st : dstate) ex d s a st' : bank_nn (ds_bank st) -> supply (ds_bank st) < two63 -> msg_delegate st ex d s a = Some st' -> a < two63.
Proof.
  intros Hn Hs. unfold msg_delegate. destruct (negb ex); [done|]. cbv zeta. destruct (send _ _ _ _) as [b|] eqn:E; [|done]. intros _.
  pose proof (dm_delegation None st s d a) as Hm. eapply send_kyve_small; [| |exact E].
  - eapply moves_nn; [exact Hm|done].
  - by rewrite (moves_supply _ _ _ Hm).
Qed.

Definition good (gr : grammar) (a : N) : Prop := gr_addr gr a = true.
Lemma good_nonzero gr a : good gr a -> a <> 0%N.
Proof. intros H ->. unfold good in H. by rewrite gr_empty in H. Qed.
Lemma accepted_ok g gr c m o c' : G g c -> typed m -> moderate c m -> wellformed gr m -> decode m = Some o -> cmsg c o = Some c' ->
  cop_ok c o /\ updates_params o = false /\ brings (good gr) o.
Proof.
  intros HG Ht Hm [Hsd Hw] Hd Hc. fold (good gr (sender_of m)) in Hsd.
  destruct m; cbn [decode sender_of typed moderate] in *; try done;
    try (injection Hd as <-); try (by (split; [|split])); cbn [cmsg] in Hc.
  - destruct (msg_delegate _ _ _ _ _) eqn:E; [|done]. apply delegate_small in E; [|apply HG..].
    split; [cbn; unfold u64 in Ht; lia|done].
  - unfold msg_undelegate in Hc. change (delegation_of (d_in c)) with (delegation_of (c_d c)) in Hc.
    destruct (a >? delegation_of (c_d c) staker creator) eqn:E; [done|]. split; [cbn; unfold u64 in Ht; lia|done].
  - unfold msg_redelegate in Hc. change (delegation_of (d_in c)) with (delegation_of (c_d c)) in Hc. repeat (destruct (negb _); [done|]).
    destruct (a >? delegation_of (c_d c) from creator) eqn:E; [done|]. split; [cbn; unfold u64 in Ht; lia|done].
  - unfold chain_create_staker in Hc. destruct (msg_delegate _ _ _ _ _) eqn:E; [|done]. apply delegate_small in E; [|apply HG..].
    split; [|done]. cbn. unfold u64 in Ht. split; [by apply good_nonzero in Hsd|]. split; [|lia].
    destruct commission as [v|]; cbn; [|by vm_compute]. destruct Hw as [?|(? & [= ->] & ?)]; done.
  - destruct Hw as (v & -> & ?). split; done.
  - destruct Hw as [? Hw]. split; [|done]. by eapply to_coins_pos.
  - split; [|done]. cbn. split_and!; [by apply good_nonzero in Hsd|by apply (good_nonzero gr)|done..].
  - destruct Hw as (H1 & H2 & H3). split; [|done]. cbn. split_and!; [by eapply to_coins_pos|by eapply to_coins_pos|].
    destruct H1 as [H1|H1]; [left|right]; by eapply to_coins_nonempty.
  - destruct Hw as [H1 H2]. split; [|done]. cbn. split; [by eapply to_coins_pos|by eapply to_coins_nonempty].
  - split; [|done]. cbn. tauto.
  - split; [|done]. cbn. unfold u64 in *. tauto.
  - destruct payload as [a|]; [|done]. injection Hd as <-. split; [|done]. cbn. destruct Ht as (H1 & H2 & H3). split_and!; [|done..].
    destruct (ua_interval a); [|done]. cbn in H1. unfold u64 in H1. lia.
Qed.

(** All addresses a message names. *)
Definition named (m : rmsg) : list N :=
  sender_of m ::
  match m with
  | RDelegate _ s _ | RUndelegate _ s _ | RWithdraw _ s => [s]
  | RRedelegate _ s s' _ => [s; s']
  | RJoin _ _ v _ => [v]
  | RTeamClaim _ _ _ r | RTeamRewards _ _ _ r | RTeamAuthority _ _ r => [r]
  | RSubmit m => [sb_staker m]
  | RVote _ s _ _ _ | RSkip _ s _ _ | RClaimRole _ s _ => [s]
  | _ => []
  end.
(** The messages that give staker [s] the profile [x] if they are accepted; funder [a] likewise. *)
Definition sets_staker (m : rmsg) (s : N) (x : sprofile) : Prop :=
  m = RMetadata s x \/ x = no_profile /\ exists com a, m = RCreateStaker s com a.
Definition sets_funder (m : rmsg) (a : N) (x : fprofile) : Prop := m = RCreateFunder a x \/ m = RUpdateFunder a x.

(** [x] is what the last accepted message that sets something for [s] says. *)
Definition last_set {X} (gr : grammar) (sets : rmsg -> N -> X -> Prop) (r0 : rstate) (ops : list rop) (s : N) (x : X) : Prop :=
  exists ops1 m ops2, ops = ops1 ++ RMsg m :: ops2 /\ is_Some (deliver gr (rrun gr r0 ops1) m) /\ sets m s x /\
    forall ops3 m' ops4, ops2 = ops3 ++ RMsg m' :: ops4 -> is_Some (deliver gr (rrun gr r0 (ops1 ++ RMsg m :: ops3)) m') -> forall y, ~ sets m' s y.

Section history.
  Context (gr : grammar) (g : gen) (Hg : genesis g).
  Definition SIM (r : rstate) : Prop := G g (r_c r) /\ valid_all (params_of (r_u r)) /\ small (r_u r).
  (** One step is no step or one step of the chain. *)
  Definition follows (r r' : rstate) : Prop :=
    SIM r' /\ exists l, cops_ok (r_c r) l /\ Forall (brings (good gr)) l /\ r_c r' = crun (r_c r) l.
  Lemma follows_plain r r' o : SIM r -> cop_ok (r_c r) o -> updates_params o = false -> brings (good gr) o ->
    r_u r' = mkU (cstep (r_c r) o) (u_g (r_u r)) -> follows r r'.
  Proof.
    intros (HG & HV & HS) Hok Hu Hb E. destruct r as [[c gp] ms mf], r' as [u' ms' mf']. cbn [r_u r_c u_c u_g] in *. subst u'.
    pose proof (params_of_frame c gp o Hu) as Ep. split.
    - split; [by apply (G_step g Hg)|]. cbn [r_u]. rewrite Ep. split; [done|].
      unfold params_of in Ep. injection Ep as _ _ _ _ _ Ep _. unfold small in *. cbn [u_c] in *. by rewrite Ep.
    - exists [o]. cbn. split_and!; try done. by constructor.
  Qed.
  Lemma follows_same r r' : SIM r -> r_u r' = r_u r -> follows r r'.
  Proof.
    intros H E. split; [|exists []; unfold r_c; rewrite E; done].
    unfold SIM, r_c in *. by rewrite E.
  Qed.
  Lemma deliver_follows r m r' : SIM r -> typed m -> moderate (r_c r) m -> deliver gr r m = Some r' -> follows r r'.
  Proof.
    intros HS Ht Hm. unfold deliver. destruct (validate gr m) eqn:Ev; [|done]. apply claim_validate in Ev.
    destruct (payable_to gr m); [|done]. cbn [andb negb].
    assert (Hmain : forall o c' r', decode m = Some o -> cmsg (r_c r) o = Some c' -> r_u r' = mkU c' (u_g (r_u r)) -> follows r r').
    { intros o c' r'' Hd Hc E. destruct (accepted_ok g gr (r_c r) m o c' (proj1 HS) Ht Hm Ev Hd Hc) as (H1 & H2 & H3).
      eapply (follows_plain r r'' o); try done. rewrite E. unfold cstep. by rewrite Hc. }
    destruct m;
      try (destruct (decode _) as [o|] eqn:Ed; [|done]; destruct (cmsg (r_c r) o) as [c'|] eqn:Ec; [|done]; cbv zeta; intros H; injection H as <-;
           apply (Hmain o c' _ eq_refl Ec); reflexivity).
    - destruct (staker_exists _ _); [|done]. intros [= <-]. by apply follows_same.
    - case_bool_decide; [|done]. intros [= <-]. by apply follows_same.
    - destruct payload as [y|]; [|done]. destruct (msg_update (r_u r) authority y) as [u'|] eqn:E; [|done]. intros [= <-].
      destruct HS as (HG & HV & Hs). destruct (update_step _ _ _ _ HV Hs Hm E) as (H1 & H2 & H3 & H4).
      split.
      + unfold SIM, r_c. cbn [r_u]. split; [|done]. rewrite H2. by apply (G_step g Hg).
      + exists [cop_of (u_c (r_u r)) authority y]. cbn. split_and!; try done. constructor; [|done]. by destruct y.
  Qed.
  Lemma step_follows r o : SIM r -> rop_ok r o -> follows r (rstep gr r o).
  Proof.
    intros HS Hok. destruct o as [m|t x| |b]; cbn [rstep rop_ok] in *.
    - destruct Hok as [H1 H2]. destruct (deliver gr r m) as [r'|] eqn:E; [|by apply follows_same]. by eapply deliver_follows.
    - by eapply (follows_plain r _ (CBegin t x)).
    - by eapply (follows_plain r _ CEnd).
    - by eapply (follows_plain r _ (CBank b)).
  Qed.
  Lemma cops_ok_cat a b : forall c, cops_ok c a -> cops_ok (crun c a) b -> cops_ok c (a ++ b).
  Proof. induction a as [|o a IH]; intros c; cbn; [done|]. intros [H1 H2] H3. split; [done|]. by apply IH. Qed.
  Lemma crun_cat a b : forall c, crun c (a ++ b) = crun (crun c a) b.
  Proof. induction a as [|o a IH]; intros c; cbn; [done|]. apply IH. Qed.
  Lemma run_follows ops : forall r, SIM r -> rops_ok gr r ops -> follows r (rrun gr r ops).
  Proof.
    induction ops as [|o t IH]; intros r HS Hok; [by apply follows_same|]. destruct Hok as [H1 H2]. cbn [rrun].
    destruct (step_follows r o HS H1) as [HS' (l & A1 & A2 & A3)]. destruct (IH _ HS' H2) as [HS'' (l' & B1 & B2 & B3)].
    split; [done|]. exists (l ++ l'). split_and!.
    - apply cops_ok_cat; [done|]. by rewrite <- A3.
    - by apply Forall_app.
    - by rewrite crun_cat, <- A3.
  Qed.
  Context (gp : gparams) (Hv : valid_all (params_of (mkU (gstart g) gp))).
  Lemma SIM_init : SIM (rinit (gstart g) gp).
  Proof.
    split; [by apply G_init|]. split; [exact Hv|]. destruct Hg as (_ & _ & _ & _ & _ & _ & _ & (_ & H1 & _ & _ & H2)). split; done.
  Qed.
  Lemma claim_history ops : rops_ok gr (rinit (gstart g) gp) ops ->
    exists cops, cops_ok (gstart g) cops /\ r_c (rrun gr (rinit (gstart g) gp) ops) = crun (gstart g) cops.
  Proof. intros Hok. destruct (run_follows ops _ SIM_init Hok) as [_ (l & H1 & _ & H3)]. by exists l. Qed.

  (** ** Every stored address is one *)
  Lemma registered_good l : Forall (brings (good gr)) l -> forall c a, registered c l a -> good gr a.
  Proof.
    induction l as [|o l IH]; intros H c a; cbn [registered]; [done|]. inversion H; subst. intros [Ha|Ha]; [|by eapply IH].
    destruct Ha as [-> _]. done.
  Qed.
  Lemma claim_addresses ops : rops_ok gr (rinit (gstart g) gp) ops ->
    let c := r_c (rrun gr (rinit (gstart g) gp) ops) in
    (forall s, staker_exists c s = true -> gr_addr gr s = true) /\
    (forall p s v, get_val (c_s c) p s = Some v -> gr_addr gr s = true /\ gr_addr gr (vl_addr v) = true) /\
    (forall s d, is_Some (f_delegators (getf (c_d c) s) !! d) -> gr_addr gr d = true /\ gr_addr gr s = true) /\
    (forall i e, ds_queue (c_d c) !! i = Some e -> gr_addr gr (u_delegator e) = true) /\
    (forall a, a ∈ fs_funders (c_f c) -> gr_addr gr a = true) /\
    (forall a p, is_Some (fs_fundings (c_f c) !! (a, p)) -> gr_addr gr a = true).
  Proof.
    intros Hok c. destruct (run_follows ops _ SIM_init Hok) as [[HG _] (l & H1 & H2 & H3)]. fold c in HG, H3. cbn [r_c rinit r_u u_c] in H1, H3.
    change (r_c (rinit (gstart g) gp)) with (gstart g) in *.
    pose proof (AD_run (good gr) l _ H2 (AD_init _ g)) as [[A1 A2] A3 A4]. rewrite <- H3 in *.
    pose proof (CJ_run g l H1) as HJ. rewrite <- H3 in HJ.
    assert (F : forall a, a ∈ fs_funders (c_f c) -> good gr a).
    { intros a Ha. rewrite H3 in Ha. apply registered_run in Ha as [Ha|Ha]; [cbn in Ha; set_solver|]. by eapply registered_good. }
    split_and!; try done.
    - intros s Hs. apply A3. by apply exists_staker.
    - intros p s v Hv'. split; [|by eapply A4]. apply A3. destruct (g_s _ _ HG) as (sops & Hs1 & Hs2).
      assert (HM : MI (s_in c)). { rewrite Hs2. by apply MI_run, MI_init. }
      assert (Hv2 : get_val (s_in c) p s = Some v) by exact Hv'. apply (mi_known _ HM) in Hv2. exact (proj1 Hv2).
    - intros s d Hd. split; [by eapply A1|]. apply A3. destruct (dj_data _ _ _ HJ s) as [? _]; [|done]. by apply (dj_del _ _ _ HJ s d).
    - intros a p Ha. apply F. rewrite H3 in *. by eapply (funded_registered g l).
  Qed.

  (** ** An accepted message names only addresses *)
  Lemma claim_named ops m r' : rops_ok gr (rinit (gstart g) gp) ops ->
    deliver gr (rrun gr (rinit (gstart g) gp) ops) m = Some r' ->
    forall a, a ∈ named m -> gr_addr gr a = true.
  Proof.
    intros Hok. pose proof (claim_addresses ops Hok) as H. cbv zeta in H. set (r := rrun _ _ _) in *. destruct H as (A1 & A2 & A3 & _).
    assert (Au : forall p s v, authorized (c_s (r_c r)) p s v = true -> gr_addr gr s = true).
    { intros p s v. unfold authorized. destruct (get_val (c_s (r_c r)) p s) as [x|] eqn:E; [|done]. intros _. by apply (A2 p s x). }
    unfold deliver. destruct (validate gr m) eqn:Ev; [|done]. apply claim_validate in Ev as [Hs Hw]. destruct (payable_to gr m) eqn:Hp; [|done].
    cbn [andb negb]. intros Hd a Ha. unfold named in Ha. apply elem_of_cons in Ha as [->|Ha]; [done|].
    destruct m; cbn [payable_to sender_of] in *;
      try (apply elem_of_nil in Ha; done);
      try (apply elem_of_list_singleton in Ha; subst a; done);
      cbn [decode] in Hd; (destruct (cmsg (r_c r) _) as [c'|] eqn:E; [|done]); cbn [cmsg] in E.
    - unfold msg_redelegate in E. case_bool_decide as B1; [|done]. cbn [negb] in E. destruct (staker_exists (r_c r) to) eqn:B2; [|done].
      apply elem_of_cons in Ha as [->|Ha]; [by apply (A3 from creator B1)|]. apply elem_of_list_singleton in Ha. subst a. by apply A1.
    - apply elem_of_list_singleton in Ha. subst a. unfold msg_submit in E. destruct (can_propose _ _ _ _ _) eqn:B; [|done]. unfold can_propose in B.
      destruct (get_pool _ _); [|done]. rewrite !andb_true_iff in B. eapply Au. apply B.
    - apply elem_of_list_singleton in Ha. subst a. unfold msg_vote in E. destruct (can_vote _ _ _ _ _) eqn:B; [|done]. unfold can_vote in B.
      rewrite !andb_true_iff in B. eapply Au. apply B.
    - apply elem_of_list_singleton in Ha. subst a. unfold msg_skip in E. destruct (can_propose _ _ _ _ _) eqn:B; [|done]. unfold can_propose in B.
      destruct (get_pool _ _); [|done]. rewrite !andb_true_iff in B. eapply Au. apply B.
    - apply elem_of_list_singleton in Ha. subst a. unfold msg_claim_role in E. destruct (negb (can_run _ _)); [done|].
      destruct (authorized _ _ _ _) eqn:B; [|done]. by eapply Au.
  Qed.

  (** ** Profiles *)
  Lemma deliver_stakers r m r' : deliver gr r m = Some r' ->
    (forall s x, sets_staker m s x -> r_stakers r' !! s = Some x) /\
    (forall s, (forall x, ~ sets_staker m s x) -> r_stakers r' !! s = r_stakers r !! s).
  Proof.
    unfold deliver. destruct (negb _); [done|]. unfold sets_staker.
    destruct m;
      try (destruct (decode _) as [o|] eqn:Ed; [|done]; destruct (cmsg (r_c r) o) as [c'|] eqn:Ec; [|done]; cbv zeta; intros H; injection H as <-; cbn;
           split; [intros s0 x0 [?|(? & ? & ? & ?)]; done|done]).
    - destruct (decode _) as [o|] eqn:Ed; [|done]; destruct (cmsg (r_c r) o) as [c'|] eqn:Ec; [|done]; cbv zeta; intros H; injection H as <-; cbn. split.
      + intros s x [?|(? & com & b & [= -> _ _])]; [done|]. subst x. by rewrite lookup_insert.
      + intros s H. rewrite lookup_insert_ne; [done|]. intros <-. apply (H no_profile). right. eauto.
    - destruct (staker_exists _ _); [|done]. intros [= <-]. cbn. split.
      + intros s x' [[= -> ->]|(? & com & b & ?)]; [|done]. by rewrite lookup_insert.
      + intros s H. rewrite lookup_insert_ne; [done|]. intros <-. apply (H x). by left.
    - case_bool_decide; [|done]. intros [= <-]. cbn. split; [intros s0 x0 [?|(? & ? & ? & ?)]; done|done].
    - destruct payload as [y|]; [|done]. destruct (msg_update _ _ _); [|done]. intros [= <-]. cbn.
      split; [intros s0 x0 [?|(? & ? & ? & ?)]; done|done].
  Qed.
  Lemma deliver_funders r m r' : deliver gr r m = Some r' ->
    (forall s x, sets_funder m s x -> r_funders r' !! s = Some x) /\
    (forall s, (forall x, ~ sets_funder m s x) -> r_funders r' !! s = r_funders r !! s).
  Proof.
    unfold deliver. destruct (negb _); [done|]. unfold sets_funder.
    destruct m;
      try (destruct (decode _) as [o|] eqn:Ed; [|done]; destruct (cmsg (r_c r) o) as [c'|] eqn:Ec; [|done]; cbv zeta; intros H; injection H as <-; cbn;
           split; [intros s0 x0 [?|?]; done|done]).
    - destruct (staker_exists _ _); [|done]. intros [= <-]. cbn. split; [intros s0 x0 [?|?]; done|done].
    - destruct (decode _) as [o|] eqn:Ed; [|done]; destruct (cmsg (r_c r) o) as [c'|] eqn:Ec; [|done]; cbv zeta; intros H; injection H as <-; cbn. split.
      + intros s x' [[= -> ->]|?]; [|done]. by rewrite lookup_insert.
      + intros s H. rewrite lookup_insert_ne; [done|]. intros <-. apply (H x). by left.
    - case_bool_decide as Hb; [|done]. intros [= <-]. cbn. split.
      + intros s x' [?|[= -> ->]]; [done|]. by rewrite lookup_insert.
      + intros s H. rewrite lookup_insert_ne; [done|]. intros <-. apply (H x). by right.
    - destruct payload as [y|]; [|done]. destruct (msg_update _ _ _); [|done]. intros [= <-]. cbn. split; [intros s0 x0 [?|?]; done|done].
  Qed.

  Section last.
    Context {X : Type} (sets : rmsg -> N -> X -> Prop) (get : rstate -> gmap N X).
    Context (Hdec : forall m s, (exists x, sets m s x) \/ (forall x, ~ sets m s x)).
    Context (Hset : forall r m r', deliver gr r m = Some r' ->
      (forall s x, sets m s x -> get r' !! s = Some x) /\ (forall s, (forall x, ~ sets m s x) -> get r' !! s = get r !! s)).
    Context (Hblock : forall r o, (forall m, o <> RMsg m) -> get (rstep gr r o) = get r).
    Lemma rrun_cat a b : forall r, rrun gr r (a ++ b) = rrun gr (rrun gr r a) b.
    Proof. induction a as [|o a IH]; intros r; cbn; [done|]. apply IH. Qed.
    Lemma last_run r0 s ops : get r0 !! s = None -> forall x, get (rrun gr r0 ops) !! s = Some x <-> last_set gr sets r0 ops s x.
    Proof.
      intros H0. induction ops as [|o ops IH] using rev_ind.
      - intros x. cbn [rrun]. rewrite H0. split; [done|]. intros (o1 & m & o2 & E & _). by destruct o1.
      - intros x. rewrite rrun_cat. cbn [rrun]. set (r := rrun gr r0 ops) in *.
        (* the last operation sets the profile, or it leaves it alone *)
        assert (D : (exists m r' y, o = RMsg m /\ deliver gr r m = Some r' /\ sets m s y) \/
          get (rstep gr r o) !! s = get r !! s /\ forall m y, o = RMsg m -> is_Some (deliver gr r m) -> ~ sets m s y).
        { destruct o as [m| | |].
          - cbn [rstep]. destruct (deliver gr r m) as [r'|] eqn:E.
            + destruct (Hdec m s) as [[y Hy]|Hn]; [left; exists m, r', y; done|]. right. split.
              * by apply (Hset r m r' E).
              * intros m' y [= <-] _. apply Hn.
            + right. split; [done|]. intros m' y [= <-] [? Hx]. rewrite E in Hx. done.
          - right. split; [by rewrite Hblock|done].
          - right. split; [by rewrite Hblock|done].
          - right. split; [by rewrite Hblock|done]. }
        destruct D as [(m & r' & y & -> & E & Hy)|[D1 D2]].
        + cbn [rstep]. rewrite E. change (default r (Some r')) with r'. rewrite (proj1 (Hset r m r' E) s y Hy). split.
          * intros [= <-]. exists ops, m, []. split; [done|]. fold r. split; [by rewrite E|]. split; [done|]. intros o3 m' o4 E'. by destruct o3.
          * intros (o1 & m1 & o2 & Eo & Ha & Hs & Hl). destruct o2 as [|z o2 _] using rev_ind.
            -- apply app_inj_tail in Eo as [<- [= <-]]. f_equal. pose proof (proj1 (Hset r m r' E) s x Hs) as A.
               rewrite (proj1 (Hset r m r' E) s y Hy) in A. by injection A.
            -- rewrite app_comm_cons, app_assoc in Eo. apply app_inj_tail in Eo as [Eo <-]. exfalso.
               eapply (Hl o2 m []); [done| |exact Hy]. rewrite <- Eo. fold r. by rewrite E.
        + rewrite D1, IH. split.
          * intros (o1 & m & o2 & -> & Ha & Hs & Hl). exists o1, m, (o2 ++ [o]). split; [by rewrite <- app_assoc|]. split_and!; [done..|].
            intros o3 m' o4 E. destruct o4 as [|z o4 _] using rev_ind.
            -- apply app_inj_tail in E as [<- Eo]. intros Ha' z. by apply D2.
            -- rewrite app_comm_cons, app_assoc in E. apply app_inj_tail in E as [E <-]. by apply (Hl o3 m' o4).
          * intros (o1 & m & o2 & Eo & Ha & Hs & Hl). destruct o2 as [|z o2 _] using rev_ind.
            -- apply app_inj_tail in Eo as [<- Eo]. by destruct (D2 m x).
            -- rewrite app_comm_cons, app_assoc in Eo. apply app_inj_tail in Eo as [Eo <-]. exists o1, m, o2. split_and!; [done..|].
               intros o3 m' o4 ->. apply (Hl o3 m' (o4 ++ [o])). by rewrite <- app_assoc.
    Qed.
  End last.
  Lemma sets_staker_dec m s : (exists x, sets_staker m s x) \/ (forall x, ~ sets_staker m s x).
  Proof.
    destruct m; try (right; intros z [?|(? & ? & ? & ?)]; done).
    - destruct (decide (creator = s)) as [->|]; [left; exists no_profile; right; eauto|]. right. intros z [?|(? & ? & ? & ?)]; congruence.
    - destruct (decide (creator = s)) as [->|]; [left; exists x; by left|]. right. intros z [?|(? & ? & ? & ?)]; congruence.
  Qed.
  Lemma sets_funder_dec m s : (exists x, sets_funder m s x) \/ (forall x, ~ sets_funder m s x).
  Proof.
    destruct m; try (right; intros z [?|?]; done).
    - destruct (decide (creator = s)) as [->|]; [left; exists x; by left|]. right. intros z [?|?]; congruence.
    - destruct (decide (creator = s)) as [->|]; [left; exists x; by right|]. right. intros z [?|?]; congruence.
  Qed.
  Lemma claim_profiles ops :
    let r := rrun gr (rinit (gstart g) gp) ops in
    (forall s x, r_stakers r !! s = Some x <-> last_set gr sets_staker (rinit (gstart g) gp) ops s x) /\
    (forall a x, r_funders r !! a = Some x <-> last_set gr sets_funder (rinit (gstart g) gp) ops a x).
  Proof.
    intros r. split.
    - intros s x. apply (last_run sets_staker r_stakers); [apply sets_staker_dec|apply deliver_stakers| |apply lookup_empty].
      intros r' o Ho. destruct o; cbn; [by destruct (Ho m)|done..].
    - intros s x. apply (last_run sets_funder r_funders); [apply sets_funder_dec|apply deliver_funders| |apply lookup_empty].
      intros r' o Ho. destruct o; cbn; [by destruct (Ho m)|done..].
  Qed.

  (** Who has a profile, and what can stand in it. *)
  Definition PJ (r : rstate) : Prop :=
    (forall s, is_Some (r_stakers r !! s) <-> is_staker (r_c r) s) /\
    (forall a, is_Some (r_funders r !! a) <-> a ∈ fs_funders (c_f (r_c r))) /\
    (forall s x, r_stakers r !! s = Some x -> sprofile_wf x) /\
    (forall a x, r_funders r !! a = Some x -> fp_moniker x <> []).
  Lemma PJ_step r o : PJ r -> PJ (rstep gr r o).
  Proof.
    intros (P1 & P2 & P3 & P4).
    assert (Fr : forall c o, (forall a, o <> CCreateFunder a) -> fs_funders (c_f (cstep c o)) ≡ fs_funders (c_f c)).
    { intros c o' Hn a. pose proof (registered_run [o'] c a) as H. cbn in H. rewrite H. split; [|by left].
      intros [?|[[E _]|?]]; [done|by destruct (Hn a)|done]. }
    assert (Hplain : forall o', (forall s com a, o' <> CCreateStaker s com a) -> (forall a, o' <> CCreateFunder a) -> PJ (rw_c r (cstep (r_c r) o'))).
    { intros o' H1 H2. split_and!; try done.
      - intros s. cbn. rewrite P1. apply staker_frame. done.
      - intros a. cbn. rewrite P2. symmetry. by apply Fr. }
    destruct o as [m|t x| |b]; cbn [rstep]; try (by apply Hplain).
    destruct (deliver gr r m) as [r'|] eqn:E; [|done]. change (default r (Some r')) with r'. revert E.
    unfold deliver. destruct (validate gr m) eqn:Ev; [|done]. apply claim_validate in Ev as [Hs Hw]. destruct (negb _); [done|].
    assert (Hm : forall o' c', cmsg (r_c r) o' = Some c' -> (forall s com a, o' <> CCreateStaker s com a) -> (forall a, o' <> CCreateFunder a) -> PJ (rw_c r c')).
    { intros o' c' Hc H1 H2. replace c' with (cstep (r_c r) o') by (unfold cstep; by rewrite Hc). by apply Hplain. }
    destruct m;
      try (destruct (decode _) as [o|] eqn:Ed; [|done]; destruct (cmsg (r_c r) o) as [c'|] eqn:Ec; [|done]; cbv zeta; intros H; injection H as <-;
           cbn [decode] in Ed; first [injection Ed as <-|destruct payload; [injection Ed as <-|done]]; by apply (Hm _ _ Ec)).
    - destruct (decode _) as [o|] eqn:Ed; [|done]; destruct (cmsg (r_c r) o) as [c'|] eqn:Ec; [|done]; cbv zeta; intros H; injection H as <-.
      injection Ed as <-. pose proof (create_frame _ _ _ _ _ Ec) as [Hf1 Hf2]. split_and!; cbn.
      + intros s. change (r_c (rw_stakers _ _)) with c'. rewrite Hf2, <- P1.
        destruct (decide (s = creator)) as [->|]; [rewrite lookup_insert; split; eauto|]. rewrite lookup_insert_ne by done. naive_solver.
      + intros x. change (r_c (rw_stakers _ _)) with c'. rewrite P2.
        replace c' with (cstep (r_c r) (CCreateStaker creator (default DEFAULT_COMMISSION commission) a)) by (unfold cstep; by rewrite Ec). symmetry. by apply Fr.
      + intros s x. destruct (decide (s = creator)) as [->|]; [rewrite lookup_insert|rewrite lookup_insert_ne by done; apply P3].
        intros [= <-]. unfold sprofile_wf, identity_wf. cbn. split; [by left|lia].
      + done.
    - destruct (staker_exists _ _) eqn:Es; [|done]. intros [= <-]. split_and!; cbn.
      + intros s. rewrite <- P1. apply exists_staker, P1 in Es.
        destruct (decide (s = creator)) as [->|]; [rewrite lookup_insert; split; eauto|]. by rewrite lookup_insert_ne.
      + done.
      + intros s x'. destruct (decide (s = creator)) as [->|]; [rewrite lookup_insert|rewrite lookup_insert_ne by done; apply P3]. by intros [= <-].
      + done.
    - destruct (decode _) as [o|] eqn:Ed; [|done]; destruct (cmsg (r_c r) o) as [c'|] eqn:Ec; [|done]; cbv zeta; intros H; injection H as <-.
      injection Ed as <-. assert (Ec' : c' = cstep (r_c r) (CCreateFunder creator)) by (unfold cstep; by rewrite Ec). split_and!; cbn.
      + intros s. change (r_c (rw_funders _ _)) with c'. rewrite Ec', P1. by apply staker_frame.
      + intros a. change (r_c (rw_funders _ _)) with c'. pose proof (registered_run [CCreateFunder creator] (r_c r) a) as H. cbn [crun registered] in H. rewrite <- Ec' in H. rewrite H, <- P2.
        destruct (decide (a = creator)) as [->|Hne].
        * rewrite lookup_insert. split; [|eauto]. intros _. right. left. split; [done|]. by rewrite Ec.
        * rewrite lookup_insert_ne by done. split; [by left|]. intros [?|[[E _]|?]]; [done|congruence|done].
      + done.
      + intros a x'. destruct (decide (a = creator)) as [->|]; [rewrite lookup_insert|rewrite lookup_insert_ne by done; apply P4]. by intros [= <-].
    - case_bool_decide as Hb; [|done]. intros [= <-]. split_and!; cbn.
      + done.
      + intros a. rewrite <- P2. apply P2 in Hb. destruct (decide (a = creator)) as [->|]; [rewrite lookup_insert; split; eauto|]. by rewrite lookup_insert_ne.
      + done.
      + intros a x'. destruct (decide (a = creator)) as [->|]; [rewrite lookup_insert|rewrite lookup_insert_ne by done; apply P4]. by intros [= <-].
    - destruct payload as [y|]; [|done]. destruct (msg_update _ _ _) as [u'|] eqn:Eu; [|done]. intros [= <-].
      unfold msg_update in Eu. destruct (negb _); [done|]. destruct (negb _); [done|]. cbv zeta in Eu. injection Eu as <-.
      destruct y; split_and!; done.
  Qed.
  Lemma claim_profile_of ops :
    let r := rrun gr (rinit (gstart g) gp) ops in
    (forall s, is_Some (r_stakers r !! s) <-> staker_exists (r_c r) s = true) /\
    (forall a, is_Some (r_funders r !! a) <-> a ∈ fs_funders (c_f (r_c r))) /\
    (forall s x, r_stakers r !! s = Some x -> sprofile_wf x) /\
    (forall a x, r_funders r !! a = Some x -> fp_moniker x <> []).
  Proof.
    intros r. assert (H : PJ r).
    { unfold r. clear r. assert (H : PJ (rinit (gstart g) gp)).
      { split_and!; cbn.
        - intros s. unfold is_staker. cbn. rewrite !lookup_empty. split; by intros [? ?].
        - intros a. rewrite lookup_empty. split; [by intros [? ?]|]. intros Ha. by apply elem_of_empty in Ha.
        - intros s x. by rewrite lookup_empty.
        - intros s x. by rewrite lookup_empty. }
      revert H. generalize (rinit (gstart g) gp). induction ops as [|o t IH]; intros r0 H0; [done|]. apply IH. by apply PJ_step. }
    destruct H as (P1 & P2 & P3 & P4). split_and!; try done. intros s. rewrite P1. unfold staker_exists, is_staker. by rewrite bool_decide_eq_true.
  Qed.
  (** What the two messages do that change a profile. *)
  Lemma claim_metadata r s x r' : deliver gr r (RMetadata s x) = Some r' <->
    gr_addr gr s = true /\ sprofile_wf x /\ staker_exists (r_c r) s = true /\ r' = mkR (r_u r) (<[s := x]> (r_stakers r)) (r_funders r).
  Proof.
    pose proof (claim_validate gr (RMetadata s x)) as H. unfold wellformed in H. cbn [sender_of] in H. unfold deliver. cbn [payable_to]. rewrite andb_true_r.
    destruct (validate gr (RMetadata s x)); cbn [negb].
    - destruct (proj1 H eq_refl) as [H1 H2]. destruct (staker_exists (r_c r) s); [|split; [done|by intros (_ & _ & ? & _)]].
      split; [intros [= <-]; done|by intros (_ & _ & _ & ->)].
    - split; [done|]. intros (H1 & H2 & _). assert (false = true) by (apply H; done). done.
  Qed.
  Lemma claim_update_funder r a x r' : deliver gr r (RUpdateFunder a x) = Some r' <->
    gr_addr gr a = true /\ fp_moniker x <> [] /\ a ∈ fs_funders (c_f (r_c r)) /\ r' = mkR (r_u r) (r_stakers r) (<[a := x]> (r_funders r)).
  Proof.
    pose proof (claim_validate gr (RUpdateFunder a x)) as H. unfold wellformed in H. cbn [sender_of] in H. unfold deliver. cbn [payable_to]. rewrite andb_true_r.
    destruct (validate gr (RUpdateFunder a x)); cbn [negb].
    - destruct (proj1 H eq_refl) as [H1 H2]. case_bool_decide as Hb; [|split; [done|by intros (_ & _ & ? & _)]].
      split; [intros [= <-]; done|by intros (_ & _ & _ & ->)].
    - split; [done|]. intros (H1 & H2 & _). assert (false = true) by (apply H; done). done.
  Qed.
End history.
