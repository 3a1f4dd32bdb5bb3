(** * What the functions of Bundles.v and Chain.v leave alone. *)
From Verif Require Import Base BaseFacts Delegation Stakers Funders Team RoundRobin Pool Bundles Chain.

(** The part of the state that belongs to x/pool and x/bundles, without the round robin. *)
Definition bpart (c : chain) :=
  (c_pools c, c_pp c, c_prop c, c_fin c, c_idx c, c_bp c, c_burn c, c_time c, c_height c).
Lemma bpart_eq c c' : bpart c = bpart c' ->
  c_pools c = c_pools c' /\ c_pp c = c_pp c' /\ c_prop c = c_prop c' /\ c_fin c = c_fin c' /\ c_idx c = c_idx c' /\
  c_bp c = c_bp c' /\ c_burn c = c_burn c' /\ c_time c = c_time c' /\ c_height c = c_height c'.
Proof. unfold bpart. intros H. injection H as H1 H2 H3 H4 H5 H6 H7 H8 H9. auto 20. Qed.
(** The states of the other modules and the bank. *)
Definition mpart (c : chain) := (c_d c, c_s c, c_f c, c_t c, c_bank c).
Lemma mpart_eq c c' : mpart c = mpart c' ->
  c_d c = c_d c' /\ c_s c = c_s c' /\ c_f c = c_f c' /\ c_t c = c_t c' /\ c_bank c = c_bank c'.
Proof. unfold mpart. intros H. injection H as H1 H2 H3 H4 H5. auto. Qed.

Lemma b_d_out c x : bpart (d_out c x) = bpart c. Proof. done. Qed.
Lemma b_s_out c x : bpart (s_out c x) = bpart c. Proof. done. Qed.
Lemma b_f_out c x : bpart (f_out c x) = bpart c. Proof. done. Qed.
Lemma b_t_out c x : bpart (t_out c x) = bpart c. Proof. done. Qed.
Lemma b_bank c x : bpart (cw_bank c x) = bpart c. Proof. done. Qed.
Lemma b_halt c : bpart (cw_halt c) = bpart c. Proof. done. Qed.
Lemma b_bad c : bpart (cw_bad c) = bpart c. Proof. done. Qed.
Lemma b_rr c x : bpart (cw_rr c x) = bpart c. Proof. done. Qed.
Lemma b_slash_remove c p s t : bpart (slash_remove c p s t) = bpart c. Proof. done. Qed.
Lemma b_reset c p s : bpart (reset_pts c p s) = bpart c. Proof. done. Qed.
Lemma b_add_point c p s : bpart (add_point c p s) = bpart c.
Proof. unfold add_point. destruct (increment_points _ _ _) as [s' n]. by destruct (_ <=? _). Qed.
Lemma b_fold {A} (f : chain -> A -> chain) l c :
  (forall c x, bpart (f c x) = bpart c) -> bpart (fold_left f l c) = bpart c.
Proof. intros H. revert c. induction l as [|x l IH]; intros c; simpl; [done|]. by rewrite IH, H. Qed.
Lemma b_non_voters c p : bpart (handle_non_voters c p) = bpart c.
Proof. unfold handle_non_voters. apply b_fold. intros x s. destruct (voted _ _); [done|]. apply b_add_point. Qed.
Lemma b_charge_inflation c p c' x : charge_inflation c p = Some (c', x) -> bpart c' = bpart c.
Proof.
  unfold charge_inflation. destruct (inflation_payout _ _); [|done]. destruct (i64 _ <? 0); [done|].
  by destruct (send _ _ _ _); intros [= <- <-].
Qed.
Lemma b_pay_out c u r : match pay_out c u r with inl c' | inr c' => bpart c' = bpart c end.
Proof.
  unfold pay_out. destruct (send _ _ _ _); [|done].
  destruct (increase_commission_rewards _ _ _ _); [|done].
  by destruct (payout_rewards _ _ _ _).
Qed.
Lemma b_tally c b p :
  match tally c b p with
  | TrValid c' _ _ _ _ | TrInvalid c' _ | TrNoQuorum c' _ | TrError c' => bpart c' = bpart c
  | TrPanic => True
  end.
Proof.
  unfold tally. pose proof (b_non_voters c p) as Hn. set (c1 := handle_non_voters c p) in *.
  destruct (v_status _); try done.
  - destruct (charge_funders _ _ _) as [f [fp|]]; [|done].
    destruct (charge_inflation _ _) as [[c2 x]|] eqn:Ei; [|done].
    apply b_charge_inflation in Ei. rewrite b_f_out in Ei.
    destruct (payouts _ _ _) as [r|]; [|done].
    pose proof (b_pay_out c2 (bp_uploader b) r) as Hp.
    destruct (pay_out _ _ _) as [c3|c3]; [|congruence].
    rewrite b_fold; [congruence|]. done.
  - rewrite b_fold; [done|]. done.
Qed.
Lemma b_choose c p ex : bpart (snd (choose c p ex)) = bpart c.
Proof. unfold choose. by destruct (choose_next _ _ _). Qed.
Lemma b_choose_from c p l : bpart (snd (choose_from c p l)) = bpart c.
Proof. unfold choose_from. by destruct (choose_next_from _ _ _). Qed.
Lemma m_choose c p ex : mpart (snd (choose c p ex)) = mpart c.
Proof. unfold choose. by destruct (choose_next _ _ _). Qed.
Lemma m_choose_from c p l : mpart (snd (choose_from c p l)) = mpart c.
Proof. unfold choose_from. by destruct (choose_next_from _ _ _). Qed.
Lemma m_finalize c p v : mpart (finalize c p v) = mpart c.
Proof. unfold finalize. by destruct (get_pool c p). Qed.
Lemma b_timeout_point c p s : bpart (timeout_point c p s) = bpart c.
Proof. unfold timeout_point. destruct (in_pool c p s); [apply b_add_point|done]. Qed.
Lemma b_give c p x c' : give c p x = Some c' -> bpart c' = bpart c.
Proof. unfold give. destruct (i64 x <? 0); [done|]. by destruct (send _ _ _ _); intros [= <-]. Qed.
Lemma b_split_loop l c t pr d c' d' : split_loop c t pr d l = Some (c', d') -> bpart c' = bpart c.
Proof.
  revert c d. induction l as [|p l IH]; intros c d; simpl; [by intros [= <- <-]|].
  destruct (can_run c p); [|apply IH]. destruct (pool_share _ _ _) as [x|]; [|done].
  destruct (give c p x) as [c1|] eqn:Eg; [|done]. apply b_give in Eg. intros H. apply IH in H. congruence.
Qed.
Lemma b_remainder_loop l c x c' : remainder_loop c x l = Some c' -> bpart c' = bpart c.
Proof.
  revert c. induction l as [|p l IH]; intros c; simpl; [by intros [= <-]|].
  destruct (can_run c p); [apply IH|].
  destruct (give c p x) as [c1|] eqn:Eg; [|done]. apply b_give in Eg. intros H. apply IH in H. congruence.
Qed.
Lemma b_split c pr c' : split_inflation c pr = Some c' -> bpart c' = bpart c.
Proof.
  unfold split_inflation. destruct (block_provision _ _ _) as [[h team]|]; [|done].
  destruct (trunc64 _) as [protocol|]; [|done].
  set (c0 := if h then cw_halt c else c). assert (Hc0 : bpart c0 = bpart c) by (unfold c0; by destruct h).
  destruct (protocol =? 0); [by intros [= <-]|]. destruct (total_weight c0 =? 0); [by intros [= <-]|].
  destruct (split_loop _ _ _ _ _) as [[c1 d]|] eqn:Es; [|done]. apply b_split_loop in Es.
  destruct (0 <? _).
  - intros H. apply b_remainder_loop in H. congruence.
  - intros [= <-]. congruence.
Qed.
Lemma b_burn_fees c : bpart (burn_fees c) = bpart c.
Proof.
  unfold burn_fees. destruct (c_height c =? 1); [done|]. destruct (c_burn c =? 0); [done|].
  by destruct (burn _ _ _).
Qed.

Lemma crun_app c l1 l2 : crun c (l1 ++ l2) = crun (crun c l1) l2.
Proof. revert c. induction l1 as [|o l1 IH]; intros c; simpl; auto. Qed.
Lemma cops_ok_app c l1 l2 : cops_ok c (l1 ++ l2) <-> cops_ok c l1 /\ cops_ok (crun c l1) l2.
Proof. revert c. induction l1 as [|o l1 IH]; intros c; simpl; [tauto|]. rewrite IH. tauto. Qed.
Lemma cops_ok_snoc c l o : cops_ok c (l ++ [o]) <-> cops_ok c l /\ cop_ok (crun c l) o.
Proof. rewrite cops_ok_app. simpl. tauto. Qed.
Lemma crun_snoc c l o : crun c (l ++ [o]) = cstep (crun c l) o.
Proof. rewrite crun_app. done. Qed.
(** An invariant of the steps is an invariant of the runs. *)
Lemma crun_inv (P : chain -> Prop) c ops :
  (forall c o, P c -> cop_ok c o -> P (cstep c o)) -> P c -> cops_ok c ops -> P (crun c ops).
Proof.
  intros Hs. revert c. induction ops as [|o ops IH]; intros c Hc Hok; simpl in *; [done|].
  destruct Hok as [Ho Hok]. auto.
Qed.
