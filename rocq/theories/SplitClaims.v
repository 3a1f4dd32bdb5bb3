(** * The split of the block inflation (C30): proofs. *)
From Verif Require Import Base BaseFacts Delegation Stakers Funders Team TeamInv TeamRun RoundRobin Pool Bundles Chain ChainFrame ArchiveInv
  BankMoves ChainLift PoolInv PayoutClaims PoolClaims.

(** ** Statement: sums over the pools, and who is eligible *)
Definition runsb (s : pstatus) : bool := match s with StActive | StNoFunds => true | _ => false end.
Definition psum (c : chain) (f : N -> pool -> Z) : Z := msum f (ps_pools (c_pools c)).
(** The pools are judged at the time of the new block. *)
Definition at_time (c : chain) (t : Z) : chain := cw_time c t (c_height c + 1).
Definition eligible_pool (c : chain) (p : N) (pl : pool) : bool := runsb (pool_status c p pl).
Definition weights (c : chain) : Z := psum c (fun p pl => if eligible_pool c p pl then pl_weight pl else 0).
Definition n_eligible (c : chain) : Z := psum c (fun p pl => if eligible_pool c p pl then 1 else 0).
Definition n_other (c : chain) : Z := psum c (fun p pl => if eligible_pool c p pl then 0 else 1).
(** What a pool's account and the team's got between two states. *)
Definition gain (c c' : chain) (p : N) : Z := bal (c_bank c') (PoolAcc p) KYVE - bal (c_bank c) (PoolAcc p) KYVE.
Definition to_eligible (c0 c c' : chain) : Z := psum c0 (fun p pl => if eligible_pool c0 p pl then gain c c' p else 0).
Definition to_all (c c' : chain) : Z := psum c (fun p _ => gain c c' p).
Definition team_gain (c c' : chain) : Z := bal (c_bank c') MTeam KYVE - bal (c_bank c) MTeam KYVE.
Definition collected (c : chain) : Z := bal (c_bank c) MFeeCollector KYVE.
(** [x] is the [part/whole] part of [sum], rounded down, up to the rounding of the ratio to 18 digits. *)
Definition fair_part (x sum part whole : Z) : Prop :=
  0 <= x <= sum /\ 2 * (ONE * (whole * x)) <= 2 * (ONE * (sum * part)) + whole * sum /\ ONE * (sum * part) < ONE * (whole * (x + 1)) + whole * sum.
(** The block did not stop the chain. *)
Definition goes_on (c : chain) : Prop := c_halt c = false /\ ts_halt (c_t c) = false.

(** ** Sums over the pool list *)
Definition lsum (f : N -> Z) (l : list N) : Z := foldr (fun p a => f p + a) 0 l.
Lemma lsum_perm f l l' : l ≡ₚ l' -> lsum f l = lsum f l'.
Proof. unfold lsum. induction 1; cbn; lia. Qed.
Lemma lsum_ext f g l : (forall p, p ∈ l -> f p = g p) -> lsum f l = lsum g l.
Proof.
  induction l as [|p l IH]; intros H; [done|]. cbn. rewrite (H p) by constructor. f_equal.
  apply IH. intros q Hq. apply H. by constructor.
Qed.
Lemma pool_ids_perm s : pool_ids s ≡ₚ map fst (map_to_list (ps_pools s)).
Proof. unfold pool_ids. apply merge_sort_Permutation. Qed.
Lemma pool_ids_nodup s : NoDup (pool_ids s).
Proof. rewrite pool_ids_perm. apply NoDup_fst_map_to_list. Qed.
Lemma pool_ids_in s p : p ∈ pool_ids s <-> is_Some (ps_pools s !! p).
Proof.
  rewrite pool_ids_perm, elem_of_list_fmap. split.
  - intros ([q x] & -> & H). apply elem_of_map_to_list in H. by eexists.
  - intros [x H]. exists (p, x). split; [done|]. by apply elem_of_map_to_list.
Qed.
Lemma psum_lsum c f g : (forall p pl, get_pool c p = Some pl -> f p pl = g p) -> psum c f = lsum g (pool_ids (c_pools c)).
Proof.
  intros H. rewrite (lsum_perm _ _ _ (pool_ids_perm _)). unfold psum, msum, map_fold, lsum. cbn.
  assert (Hin : forall x, x ∈ map_to_list (ps_pools (c_pools c)) -> f (fst x) (snd x) = g (fst x)).
  { intros [p pl] Hx. apply elem_of_map_to_list in Hx. by apply H. }
  revert Hin. generalize (map_to_list (ps_pools (c_pools c))). intros l Hin.
  induction l as [|[p pl] l IH]; [done|]. cbn. pose proof (Hin (p, pl) ltac:(constructor)) as E. cbn in E. rewrite E. f_equal.
  apply IH. intros x Hx. apply Hin. by constructor.
Qed.
Lemma eligible_run c p pl : get_pool c p = Some pl -> eligible_pool c p pl = can_run c p.
Proof.
  intros E. unfold eligible_pool. destruct (can_run c p) eqn:Er.
  - apply (status_run c p pl E) in Er. by destruct Er as [->| ->].
  - destruct (pool_status c p pl) eqn:Es; try done; exfalso.
    all: assert (can_run c p = true); [|congruence]. all: apply (status_run c p pl E); rewrite Es; unfold runs; auto.
Qed.

(** ** A list of transfers from the fee collector *)
Fixpoint gives (c : chain) (l : list (N * Z)) : option chain :=
  match l with [] => Some c | (p, x) :: l => match give c p x with None => None | Some c1 => gives c1 l end end.
Definition total_of (l : list (N * Z)) : Z := foldr (fun q a => snd q + a) 0 l.
Definition part_of (a : acct) (l : list (N * Z)) : Z := foldr (fun q s => (if decide (a = PoolAcc (fst q)) then snd q else 0) + s) 0 l.
Lemma give_halt c p x c' : give c p x = Some c' -> c_halt c = true -> c_halt c' = true.
Proof. unfold give. destruct (_ <? 0); [done|]. by destruct (send _ _ _ _); intros [= <-]. Qed.
Lemma give_ok c p x : 0 <= x < two63 -> x <= collected c ->
  exists b, give c p x = Some (cw_bank c b) /\
    forall a d, bal b a d = bal (c_bank c) a d + (if decide (d = KYVE) then (if decide (a = PoolAcc p) then x else 0) - (if decide (a = MFeeCollector) then x else 0) else 0).
Proof.
  intros Hx Hf. unfold give. rewrite i64_small by lia. destruct (x <? 0) eqn:E; [lia|].
  destruct (send_kyve (c_bank c) MFeeCollector (PoolAcc p) x) as (b & -> & Hb); [unfold collected in *; lia|].
  exists b. split; [done|]. intros a d. rewrite Hb. done.
Qed.
Lemma give_some c p x : 0 <= x < two63 -> exists c', give c p x = Some c'.
Proof. intros Hx. unfold give. rewrite i64_small by lia. destruct (x <? 0) eqn:E; [lia|]. destruct (send _ _ _ _); by eexists. Qed.
Lemma give_short c p x : 0 <= collected c < x -> x < two63 -> give c p x = Some (cw_halt c).
Proof.
  intros Hf Hx. unfold give. rewrite i64_small by lia. destruct (x <? 0) eqn:E; [lia|].
  destruct (send _ _ _ _) as [b|] eqn:Es; [|done]. exfalso. unfold send in Es. destruct (cvalid _ && cle _ _) eqn:Ec; [|done].
  apply andb_true_iff in Ec as [_ Ec]. rewrite cle_spec in Ec. specialize (Ec KYVE x). unfold collected, bal in Hf.
  assert (x <= amt (bal_of (c_bank c) MFeeCollector) KYVE); [|lia]. apply Ec. unfold coin, nz.
  destruct (x =? 0) eqn:E0; [lia|by rewrite lookup_singleton].
Qed.
Lemma total_cons p x l : total_of ((p, x) :: l) = x + total_of l. Proof. done. Qed.
Lemma part_cons a p x l : part_of a ((p, x) :: l) = (if decide (a = PoolAcc p) then x else 0) + part_of a l. Proof. done. Qed.
Lemma total_nn l : Forall (fun q => 0 <= snd q < two63) l -> 0 <= total_of l.
Proof. induction 1 as [|[? ?] l H _ IH]; [done|]. rewrite total_cons. cbn in H. lia. Qed.
Lemma lsum_cons f p l : lsum f (p :: l) = f p + lsum f l. Proof. done. Qed.
Lemma gives_halt l c : Forall (fun q => 0 <= snd q < two63) l -> c_halt c = true -> exists c', gives c l = Some c' /\ c_halt c' = true.
Proof.
  revert c. induction l as [|[p x] l IH]; intros c Hl Hh; [by exists c|]. apply Forall_cons in Hl as [Hx Hl]. cbn in Hx |- *.
  destruct (give_some c p x Hx) as [c1 E]. rewrite E. apply IH; [done|]. by eapply give_halt.
Qed.
Lemma gives_stays l c c' : c_halt c = true -> gives c l = Some c' -> c_halt c' = true.
Proof.
  revert c. induction l as [|[p x] l IH]; intros c Hh; cbn; [by intros [= <-]|].
  destruct (give c p x) as [c1|] eqn:E; [|done]. apply IH. by eapply give_halt.
Qed.
Lemma gives_ok l c : Forall (fun q => 0 <= snd q < two63) l -> total_of l <= collected c ->
  exists b, gives c l = Some (cw_bank c b) /\
    forall a d, bal b a d = bal (c_bank c) a d + (if decide (d = KYVE) then part_of a l - (if decide (a = MFeeCollector) then total_of l else 0) else 0).
Proof.
  revert c. induction l as [|[p x] l IH]; intros c Hl Ht.
  { exists (c_bank c). split; [by destruct c|]. intros a d. cbn. repeat case_decide; lia. }
  apply Forall_cons in Hl as [Hx Hl]. cbn in Hx. rewrite total_cons in Ht. cbn [gives].
  pose proof (total_nn l Hl).
  destruct (give_ok c p x Hx) as (b1 & E & Hb1); [lia|]. rewrite E.
  destruct (IH (cw_bank c b1) Hl) as (b & E2 & Hb).
  { unfold collected in *. cbn. rewrite Hb1. repeat case_decide; try done; lia. }
  exists b. split; [by rewrite E2|]. intros a d. rewrite Hb. cbn [c_bank cw_bank]. rewrite Hb1, part_cons, total_cons.
  repeat case_decide; try done; lia.
Qed.
Lemma gives_short l c : Forall (fun q => 0 <= snd q < two63) l -> 0 <= collected c -> collected c < total_of l ->
  exists c', gives c l = Some c' /\ c_halt c' = true.
Proof.
  revert c. induction l as [|[p x] l IH]; intros c Hl H0 Ht; [cbn in Ht; lia|].
  apply Forall_cons in Hl as [Hx Hl]. cbn in Hx. rewrite total_cons in Ht. cbn [gives].
  destruct (Z.lt_ge_cases (collected c) x) as [Hs|Hs].
  - rewrite give_short by lia. by apply gives_halt.
  - destruct (give_ok c p x Hx) as (b1 & E & Hb1); [lia|]. rewrite E.
    assert (Hc : collected (cw_bank c b1) = collected c - x).
    { unfold collected. cbn. rewrite Hb1. repeat case_decide; try done; lia. }
    apply IH; [done|lia|lia].
Qed.

(** ** The two loops are such lists *)
Definition run_list (c : chain) (f : N -> Z) (l : list N) : list (N * Z) := map (fun p => (p, f p)) (List.filter (can_run c) l).
Definition idle_list (c : chain) (x : Z) (l : list N) : list (N * Z) := map (fun p => (p, x)) (List.filter (fun p => negb (can_run c p)) l).
Lemma run_give c p x c1 q : give c p x = Some c1 -> can_run c1 q = can_run c q /\ runnable_weight c1 q = runnable_weight c q.
Proof. unfold give. destruct (_ <? 0); [done|]. by destruct (send _ _ _ _); intros [= <-]. Qed.
Lemma split_gives l c T P d f : (forall p, p ∈ l -> can_run c p = true -> pool_share (runnable_weight c p) T P = Some (f p)) ->
  split_loop c T P d l =
  match gives c (run_list c f l) with Some c' => Some (c', fold_left u64_add (map snd (run_list c f l)) d) | None => None end.
Proof.
  revert c d. induction l as [|p l IH]; intros c d Hf; [done|]. cbn [split_loop]. unfold run_list. cbn [List.filter].
  assert (Hf' : forall q, q ∈ l -> can_run c q = true -> pool_share (runnable_weight c q) T P = Some (f q)).
  { intros q Hq. apply Hf. by constructor. }
  destruct (can_run c p) eqn:Er; [|by apply IH].
  rewrite (Hf p) by (done || constructor). cbn [map gives snd fst]. destruct (give c p (f p)) as [c1|] eqn:E; [|done].
  assert (Hrun : forall q, can_run c1 q = can_run c q) by (intros q; by apply (run_give _ _ _ _ q E)).
  assert (Hw : forall q, runnable_weight c1 q = runnable_weight c q) by (intros q; by apply (run_give _ _ _ _ q E)).
  rewrite IH.
  - unfold run_list. rewrite (filter_ext _ _ Hrun). done.
  - intros q Hq Hr. rewrite Hw. apply Hf'; [done|]. by rewrite <- Hrun.
Qed.
Lemma remainder_gives l c x : remainder_loop c x l = gives c (idle_list c x l).
Proof.
  revert c. induction l as [|p l IH]; intros c; [done|]. cbn [remainder_loop]. unfold idle_list. cbn [List.filter].
  destruct (can_run c p) eqn:Er; cbn [negb]; [apply IH|]. cbn [map gives]. destruct (give c p x) as [c1|] eqn:E; [|done].
  assert (Hrun : forall q, can_run c1 q = can_run c q) by (intros q; by apply (run_give _ _ _ _ q E)).
  rewrite IH. unfold idle_list. f_equal. f_equal. apply filter_ext. intros q. by rewrite Hrun.
Qed.
Lemma run_total c f l : total_of (run_list c f l) = lsum (fun p => if can_run c p then f p else 0) l.
Proof. unfold run_list. induction l as [|p l IH]; [done|]. rewrite lsum_cons. cbn [List.filter]. destruct (can_run c p); cbn [map negb]; rewrite ?total_cons; lia. Qed.
Lemma idle_total c x l : total_of (idle_list c x l) = lsum (fun p => if can_run c p then 0 else x) l.
Proof. unfold idle_list. induction l as [|p l IH]; [done|]. rewrite lsum_cons. cbn [List.filter]. destruct (can_run c p); cbn [map negb]; rewrite ?total_cons; lia. Qed.
Lemma part_out l a : (forall p x, (p, x) ∈ l -> a <> PoolAcc p) -> part_of a l = 0.
Proof.
  induction l as [|[p x] l IH]; intros H; [done|]. rewrite part_cons, decide_False by (apply (H p x); constructor). rewrite IH; [done|].
  intros q y Hq. apply (H q y). by constructor.
Qed.
Lemma part_map (f : N -> Z) l p : NoDup l -> part_of (PoolAcc p) (map (fun q => (q, f q)) l) = if decide (p ∈ l) then f p else 0.
Proof.
  induction l as [|q l IH]; intros Hn; [done|]. apply NoDup_cons in Hn as [Hq Hn]. cbn [map]. rewrite part_cons, IH by done.
  destruct (decide (p = q)) as [->|Hne].
  - rewrite decide_True by done. rewrite decide_False by done. rewrite decide_True by constructor. lia.
  - rewrite decide_False by congruence. destruct (decide (p ∈ l)), (decide (p ∈ q :: l)) as [H|H]; try lia; exfalso.
    + apply H. by constructor.
    + apply elem_of_cons in H. naive_solver.
Qed.
Lemma nodup_filter (f : N -> bool) l : NoDup l -> NoDup (List.filter f l).
Proof.
  induction l as [|p l IH]; intros H; [done|]. apply NoDup_cons in H as [Hp H]. cbn. destruct (f p); [|by apply IH].
  constructor; [|by apply IH]. rewrite elem_of_list_In, filter_In, <- elem_of_list_In. naive_solver.
Qed.
Lemma run_part c f l p : NoDup l -> p ∈ l -> part_of (PoolAcc p) (run_list c f l) = if can_run c p then f p else 0.
Proof.
  intros Hn Hp. unfold run_list. rewrite part_map by (by apply nodup_filter).
  destruct (can_run c p) eqn:E; case_decide as H; try done; rewrite elem_of_list_In, filter_In, <- elem_of_list_In in H; naive_solver congruence.
Qed.
Lemma idle_part c x l p : NoDup l -> p ∈ l -> part_of (PoolAcc p) (idle_list c x l) = if can_run c p then 0 else x.
Proof.
  intros Hn Hp. unfold idle_list. rewrite (part_map (fun _ => x)) by (by apply nodup_filter).
  destruct (can_run c p) eqn:E; case_decide as H; try done; rewrite elem_of_list_In, filter_In, <- elem_of_list_In in H; rewrite E in H; naive_solver.
Qed.
Lemma list_out c f l p : p ∉ l -> part_of (PoolAcc p) (run_list c f l) = 0.
Proof.
  intros Hp. apply part_out. intros q x Hq [= ->]. apply Hp. unfold run_list in Hq. apply elem_of_list_fmap in Hq as (y & [= -> ->] & Hy).
  rewrite elem_of_list_In, filter_In, <- elem_of_list_In in Hy. by apply Hy.
Qed.
Lemma ilist_out c x l p : p ∉ l -> part_of (PoolAcc p) (idle_list c x l) = 0.
Proof.
  intros Hp. apply part_out. intros q y Hq [= ->]. apply Hp. unfold idle_list in Hq. apply elem_of_list_fmap in Hq as (z & [= -> ->] & Hy).
  rewrite elem_of_list_In, filter_In, <- elem_of_list_In in Hy. by apply Hy.
Qed.
Lemma acc_out l a : (forall p, a <> PoolAcc p) -> part_of a l = 0.
Proof. intros H. apply part_out. intros; apply H. Qed.
Lemma fold_u64 l d : 0 <= d -> Forall (fun x => 0 <= x) l -> d + foldr Z.add 0 l < two64 -> fold_left u64_add l d = d + foldr Z.add 0 l.
Proof.
  revert d. induction l as [|x l IH]; intros d Hd Hl Hs; cbn in *; [lia|]. apply Forall_cons in Hl as [Hx Hl].
  assert (0 <= foldr Z.add 0 l). { clear -Hl. induction Hl; cbn; lia. }
  assert (E : u64_add d x = d + x) by (apply u64_add_id; lia). rewrite E, IH; [lia|lia|done|lia].
Qed.
Lemma total_snd l : foldr Z.add 0 (map snd l) = total_of l.
Proof. induction l as [|[p x] l IH]; [done|]. rewrite total_cons, <- IH. done. Qed.

(** ** The share of one pool *)
Lemma share_arith O w T P q y x : 2 <= O -> 0 <= w -> 0 < T -> 0 <= P -> 0 <= x -> 0 <= y -> 0 <= q ->
  y * T <= w * (O * O) < y * T + T -> -O <= 2 * (q * O - y) <= O -> x * O <= P * q < (x + 1) * O ->
  2 * (O * (T * x)) <= 2 * (O * (P * w)) + T * P /\ O * (P * w) < O * (T * (x + 1)) + T * P.
Proof.
  intros HO Hw HT HP Hx Hy Hq [Y1 Y2] [Q1 Q2] [X1 X2].
  assert (A1 : P * (y * T) <= P * (w * (O * O))) by (apply Z.mul_le_mono_nonneg_l; lia).
  assert (A2 : (T * P) * (2 * (q * O)) <= (T * P) * (2 * y + O)) by (apply Z.mul_le_mono_nonneg_l; nia).
  assert (A3 : (2 * T * O) * (x * O) <= (2 * T * O) * (P * q)) by (apply Z.mul_le_mono_nonneg_l; nia).
  split.
  - assert (O * (2 * (O * (T * x))) <= O * (2 * (O * (P * w)) + T * P)); [|nia]. nia.
  - assert (B1 : (2 * T * O) * (P * q) < (2 * T * O) * ((x + 1) * O)) by (apply Z.mul_lt_mono_pos_l; nia).
    assert (B2 : (T * P) * (2 * y - O) <= (T * P) * (2 * (q * O))) by (apply Z.mul_le_mono_nonneg_l; nia).
    assert (B3 : P * (w * (O * O)) <= P * (y * T + T)) by (apply Z.mul_le_mono_nonneg_l; lia).
    assert (B4 : (T * P) * 2 <= (T * P) * O) by (apply Z.mul_le_mono_nonneg_l; nia).
    assert ((2 * O) * (O * (P * w)) < (2 * O) * (O * (T * (x + 1)) + T * P)); [|nia]. nia.
Qed.
Lemma quo_one O w T q y : 2 <= O -> 0 <= w <= T -> 0 < T -> y * T <= w * (O * O) -> 2 * (q * O - y) <= O -> q <= O.
Proof.
  intros HO Hw HT Y Q. assert (y <= O * O).
  { destruct (Z.le_gt_cases y (O * O)) as [|H]; [done|]. exfalso.
    assert (w * (O * O) <= T * (O * O)) by (apply Z.mul_le_mono_nonneg_r; nia).
    assert (T * (O * O) < T * y) by (apply Z.mul_lt_mono_pos_l; lia). lia. }
  nia.
Qed.
Lemma share_ok w T P : 0 <= w <= T -> 0 < T -> 0 <= P < two63 ->
  exists x, pool_share w T P = Some x /\ 0 <= x <= P /\
    2 * (ONE * (T * x)) <= 2 * (ONE * (P * w)) + T * P /\ ONE * (P * w) < ONE * (T * (x + 1)) + T * P.
Proof.
  intros Hw HT HP. unfold pool_share. rewrite dec_mul_int_r.
  destruct (dec_quo_bounds w T ltac:(lia) HT) as (y & Hy & Hyw & Hq & Hqy). set (q := dec_quo w T) in *. clearbody q.
  assert (HO : 2 <= ONE) by (unfold ONE; lia).
  pose proof (quo_one ONE w T q y HO Hw HT ltac:(lia) ltac:(lia)) as Hq1.
  assert (0 <= P * q) by nia. destruct (trunc_int_spec (P * q)) as [T0 T1]; [done|].
  assert (Hle : trunc_int (P * q) <= P).
  { replace P with (trunc_int (dec_of_int P)) at 2 by apply trunc_int_of_int. apply trunc_int_mono. split; [done|]. unfold dec_of_int. nia. }
  unfold trunc64. destruct (_ && _) eqn:E; [|unfold two63 in *; lia]. exists (w64 (trunc_int (P * q))).
  rewrite w64_small by (unfold two63, two64 in *; lia). split; [done|]. split; [lia|].
  apply (share_arith ONE w T P q y); lia.
Qed.

(** ** The split of an amount [P] over the pools *)
Lemma lsum_nn f l : (forall p, p ∈ l -> 0 <= f p) -> 0 <= lsum f l.
Proof.
  induction l as [|p l IH]; intros H; [done|]. rewrite lsum_cons. assert (0 <= f p) by (apply H; constructor).
  assert (0 <= lsum f l); [|lia]. apply IH. intros q Hq. apply H. by constructor.
Qed.
Lemma lsum_elem f l p : (forall q, q ∈ l -> 0 <= f q) -> p ∈ l -> f p <= lsum f l.
Proof.
  induction l as [|q l IH]; intros H Hp; [by apply not_elem_of_nil in Hp|]. rewrite lsum_cons.
  assert (0 <= f q) by (apply H; constructor). assert (Hl : forall q, q ∈ l -> 0 <= f q) by (intros z Hz; apply H; by constructor).
  apply elem_of_cons in Hp as [->|Hp]; [pose proof (lsum_nn f l Hl); lia|]. specialize (IH Hl Hp). lia.
Qed.
Lemma lsum_add f g l : lsum (fun p => f p + g p) l = lsum f l + lsum g l.
Proof. induction l as [|p l IH]; [done|]. rewrite !lsum_cons. lia. Qed.
Lemma lsum_scale k f l : lsum (fun p => k * f p) l = k * lsum f l.
Proof. induction l as [|p l IH]; [cbn; lia|]. rewrite !lsum_cons. lia. Qed.
Lemma lsum_le f g l : (forall p, p ∈ l -> f p <= g p) -> lsum f l <= lsum g l.
Proof.
  induction l as [|p l IH]; intros H; [done|]. rewrite !lsum_cons. assert (f p <= g p) by (apply H; constructor).
  assert (lsum f l <= lsum g l); [|lia]. apply IH. intros q Hq. apply H. by constructor.
Qed.
Lemma total_weight_lsum c : total_weight c = lsum (runnable_weight c) (pool_ids (c_pools c)).
Proof.
  unfold total_weight. assert (H : forall l a, fold_left (fun a p => a + runnable_weight c p) l a = a + lsum (runnable_weight c) l).
  { induction l as [|p l IH]; intros a; cbn [fold_left]; [cbn; lia|]. rewrite IH, lsum_cons. lia. }
  by rewrite H.
Qed.

Section split.
Context (c : chain) (P : Z) (HP : 0 < P < two63) (Hw : forall p pl, get_pool c p = Some pl -> 0 <= pl_weight pl).
Let ids := pool_ids (c_pools c).
Let T := total_weight c.
Context (HT : 0 < T).
Definition sh (p : N) : Z := if can_run c p then default 0 (pool_share (runnable_weight c p) T P) else 0.
Lemma rw_nn p : 0 <= runnable_weight c p.
Proof. unfold runnable_weight. destruct (can_run c p); [|done]. destruct (get_pool c p) eqn:E; [by eapply Hw|done]. Qed.
Lemma sh_ok p : p ∈ ids -> can_run c p = true -> pool_share (runnable_weight c p) T P = Some (sh p) /\ 0 <= sh p <= P /\
    2 * (ONE * (T * sh p)) <= 2 * (ONE * (P * runnable_weight c p)) + T * P /\ ONE * (P * runnable_weight c p) < ONE * (T * (sh p + 1)) + T * P.
Proof.
  intros Hp Hr. assert (Hle : runnable_weight c p <= T).
  { unfold T. rewrite total_weight_lsum. apply (lsum_elem (runnable_weight c)); [intros; apply rw_nn|done]. }
  destruct (share_ok (runnable_weight c p) T P) as (x & Hx & H1 & H2 & H3); [pose proof (rw_nn p); lia|done|lia|].
  unfold sh. rewrite Hr, Hx. done.
Qed.
Lemma sh_nn p : p ∈ ids -> 0 <= sh p.
Proof. intros Hp. destruct (can_run c p) eqn:E; [by apply sh_ok|]. unfold sh. by rewrite E. Qed.
Let S := lsum sh ids.
Let n := lsum (fun p => if can_run c p then 1 else 0) ids.
Let k := lsum (fun p => if can_run c p then 0 else 1) ids.
Lemma T_sum : lsum (runnable_weight c) ids = T.
Proof. symmetry. apply total_weight_lsum. Qed.
Lemma S_upper : 2 * (ONE * S) <= 2 * (ONE * P) + n * P.
Proof.
  assert (H : lsum (fun p => 2 * ONE * T * sh p) ids <= lsum (fun p => 2 * ONE * P * runnable_weight c p + T * P * (if can_run c p then 1 else 0)) ids).
  { apply lsum_le. intros p Hp. destruct (can_run c p) eqn:E.
    - destruct (sh_ok p Hp E) as (_ & _ & H & _). nia.
    - unfold sh, runnable_weight. rewrite E. lia. }
  rewrite lsum_add, !lsum_scale in H. fold S n in H. rewrite T_sum in H.
  assert (T * (2 * (ONE * S)) <= T * (2 * (ONE * P) + n * P)); [|nia]. nia.
Qed.
Lemma S_lower : 0 < n -> ONE * P < ONE * (S + n) + n * P.
Proof.
  assert (Hs : forall l, (forall p, p ∈ l -> p ∈ ids) -> 
     lsum (fun p => ONE * P * runnable_weight c p) l + lsum (fun p => if can_run c p then 1 else 0) l <=
     lsum (fun p => ONE * T * sh p + (ONE * T + T * P) * (if can_run c p then 1 else 0)) l).
  { intros l Hl. rewrite <- lsum_add. apply lsum_le. intros p Hp. destruct (can_run c p) eqn:E.
    - destruct (sh_ok p (Hl p Hp) E) as (_ & _ & _ & H). nia.
    - unfold sh, runnable_weight. rewrite E. lia. }
  intros Hn. specialize (Hs ids (fun p H => H)). rewrite lsum_add, !lsum_scale in Hs. fold S n in Hs. rewrite T_sum in Hs.
  assert (T * (ONE * P) < T * (ONE * (S + n) + n * P)); [|nia]. nia.
Qed.

(** All shares are handed out, then the rest [P - S] to every pool that cannot run. *)
Lemma split_run : 0 <= collected c -> collected c < two63 ->
  let r := match split_loop c T P 0 ids with
           | None => None
           | Some (c1, d) => let x := u64_sub (w64 P) d in if 0 <? x then remainder_loop c1 x (pool_ids (c_pools c1)) else Some c1
           end in
  let due p := sh p + (if can_run c p then 0 else P - S) in
  (S <= P -> S + k * (P - S) <= collected c -> exists b, r = Some (cw_bank c b) /\
     forall a d, bal b a d = bal (c_bank c) a d + (if decide (d = KYVE) then
       match a with PoolAcc p => if decide (p ∈ ids) then due p else 0 | MFeeCollector => - (S + k * (P - S)) | _ => 0 end else 0)) /\
  (P < S <= collected c -> k = 0 -> exists b, r = Some (cw_bank c b) /\
     forall a d, bal b a d = bal (c_bank c) a d + (if decide (d = KYVE) then
       match a with PoolAcc p => if decide (p ∈ ids) then sh p else 0 | MFeeCollector => - S | _ => 0 end else 0)) /\
  ((forall c', r = Some c' -> c_halt c' = true) \/ (S <= P /\ S + k * (P - S) <= collected c) \/ (P < S <= collected c /\ k = 0)).
Proof.
  intros H0 H1. cbv zeta.
  rewrite (split_gives ids c T P 0 sh) by (intros p Hp Hr; by apply sh_ok).
  assert (HF : Forall (fun q => 0 <= snd q < two63) (run_list c sh ids)).
  { apply Forall_forall. intros [p x] Hx. unfold run_list in Hx. apply elem_of_list_fmap in Hx as (q & [= -> ->] & Hq).
    rewrite elem_of_list_In, filter_In, <- elem_of_list_In in Hq. destruct Hq as [Hq Hr]. cbn. destruct (sh_ok q Hq Hr) as (_ & ? & _). lia. }
  assert (HS : total_of (run_list c sh ids) = S).
  { rewrite run_total. apply lsum_ext. intros p _. unfold sh. by destruct (can_run c p). }
  assert (HS0 : 0 <= S) by (rewrite <- HS; by apply total_nn).
  assert (Hnd : NoDup ids) by apply pool_ids_nodup.
  assert (Hk : 0 <= k). { apply lsum_nn. intros p _. by destruct (can_run c p). }
  assert (Hid : forall x, total_of (idle_list c x ids) = k * x).
  { intros x. rewrite idle_total. unfold k. rewrite Z.mul_comm, <- lsum_scale. apply lsum_ext. intros p _. destruct (can_run c p); lia. }
  assert (HwP : w64 P = P) by (apply w64_small; unfold two63, two64 in *; lia).
  destruct (Z.le_gt_cases S (collected c)) as [Hc|Hc].
  2:{ destruct (gives_short (run_list c sh ids) c HF H0 ltac:(lia)) as (c1 & E & Hh). rewrite E.
      split; [nia|]. split; [lia|]. left. intros c'. destruct (0 <? _); [|by intros [= <-]]. rewrite remainder_gives. by apply gives_stays. }
  destruct (gives_ok (run_list c sh ids) c HF ltac:(lia)) as (b1 & E & Hb1). rewrite E.
  assert (Hd : fold_left u64_add (map snd (run_list c sh ids)) 0 = S).
  { rewrite fold_u64; rewrite ?total_snd, ?HS; [lia|lia| |unfold two63, two64 in *; lia].
    apply Forall_map. eapply Forall_impl; [exact HF|]. cbn. lia. }
  rewrite Hd, HwP. set (c1 := cw_bank c b1).
  change (pool_ids (c_pools c1)) with ids.
  assert (Hc1 : collected c1 = collected c - S).
  { unfold collected, c1. cbn. rewrite Hb1, HS, acc_out by done. repeat case_decide; try done; lia. }
  assert (Hrem : forall x, remainder_loop c1 x ids = gives c1 (idle_list c x ids)).
  { intros x. rewrite remainder_gives. done. }
  assert (Hb1' : forall a d, bal b1 a d = bal (c_bank c) a d + (if decide (d = KYVE) then
       match a with PoolAcc p => if decide (p ∈ ids) then sh p else 0 | MFeeCollector => - S | _ => 0 end else 0)).
  { intros a d. rewrite Hb1, HS. destruct (decide (d = KYVE)); [|lia]. destruct a; try (rewrite acc_out by done; rewrite ?decide_False by done; lia).
    - rewrite acc_out by done. rewrite decide_True by done. lia.
    - rewrite (decide_False (P := _ = MFeeCollector)) by done. destruct (decide (id ∈ ids)).
      + rewrite run_part by done. unfold sh. destruct (can_run c id); lia.
      + rewrite list_out by done. lia. }
  destruct (Z.le_gt_cases S P) as [HSP|HSP].
  - rewrite u64_sub_le by lia.
    assert (HFx : Forall (fun q => 0 <= snd q < two63) (idle_list c (P - S) ids)).
    { apply Forall_forall. intros [p x] Hx. unfold idle_list in Hx. apply elem_of_list_fmap in Hx as (q & [= -> ->] & Hq). cbn. lia. }
    split; [|split; [lia|]].
    + intros _ Hfit. destruct (0 <? P - S) eqn:Ex.
      * destruct (gives_ok (idle_list c (P - S) ids) c1 HFx) as (b & E2 & Hb); [rewrite Hid; lia|]. exists b. rewrite Hrem, E2.
        split; [done|]. intros a d. rewrite Hb, Hid. unfold c1 at 1. cbn [c_bank cw_bank]. rewrite Hb1'.
        destruct (decide (d = KYVE)); [|lia]. destruct a; try (rewrite acc_out by done; rewrite ?decide_False by done; lia).
        -- rewrite acc_out by done. rewrite decide_True by done. lia.
        -- rewrite (decide_False (P := _ = MFeeCollector)) by done. destruct (decide (id ∈ ids)).
           ++ rewrite idle_part by done. destruct (can_run c id); lia.
           ++ rewrite ilist_out by done. lia.
      * exists b1. split; [done|]. intros a d. rewrite Hb1'. destruct (decide (d = KYVE)); [|lia].
        assert (P - S = 0) as -> by lia. destruct a; try lia. destruct (decide (id ∈ ids)); [|lia]. destruct (can_run c id); lia.
    + destruct (Z.le_gt_cases (S + k * (P - S)) (collected c)) as [Hf|Hf]; [by right; left|]. left.
      assert (P - S <> 0) by nia. destruct (0 <? P - S) eqn:Ex; [|lia]. rewrite Hrem.
      destruct (gives_short (idle_list c (P - S) ids) c1 HFx) as (c2 & E2 & Hh); [lia|rewrite Hid; lia|].
      rewrite E2. by intros c' [= <-].
  - assert (Hx : u64_sub P S = two64 + P - S).
    { unfold u64_sub. destruct (S <=? P) eqn:E3; [lia|]. unfold w64. symmetry. apply (Z.mod_unique _ _ (-1)); unfold two63, two64 in *; lia. }
    rewrite Hx. assert (Hpos : (0 <? two64 + P - S) = true) by (unfold two63, two64 in *; lia). rewrite Hpos.
    split; [lia|].
    assert (Hcase : (k = 0 /\ idle_list c (two64 + P - S) ids = []) \/ gives c1 (idle_list c (two64 + P - S) ids) = None).
    { unfold idle_list. destruct (List.filter (fun p => negb (can_run c p)) ids) as [|p l] eqn:Ef.
      - left. split; [|done]. specialize (Hid 1). unfold idle_list in Hid. rewrite Ef in Hid. cbn in Hid. lia.
      - right. cbn [map gives]. unfold give. assert ((i64 (two64 + P - S) <? 0) = true) as ->; [|done].
        unfold i64. destruct (_ <? two63) eqn:E4; unfold two63, two64 in *; lia. }
    rewrite Hrem. split.
    + intros _ Hk0. destruct Hcase as [[_ E4]|E4].
      * rewrite E4. cbn. exists b1. split; [done|]. exact Hb1'.
      * exfalso. specialize (Hid (two64 + P - S)). destruct (idle_list c (two64 + P - S) ids) as [|[p x] l] eqn:E5; [done|].
        rewrite Hk0 in Hid. rewrite total_cons in Hid.
        assert (Hin : Forall (fun q => snd q = two64 + P - S) ((p, x) :: l)).
        { rewrite <- E5. apply Forall_forall. intros [q y] Hq. unfold idle_list in Hq. by apply elem_of_list_fmap in Hq as (z & [= -> ->] & _). }
        apply Forall_cons in Hin as [Hpx Hl]. cbn in Hpx.
        assert (0 <= total_of l). { clear -Hl H1 Hc HP. induction Hl as [|[q y] l Hy _ IH]; [done|]. rewrite total_cons. cbn in Hy. unfold two63, two64 in *. lia. }
        unfold two63, two64 in *. lia.
    + destruct Hcase as [[Hk0 _]|E4]; [by right; right|]. left. intros c'. by rewrite E4.
Qed.
End split.

(** ** The team's share, before and after it was paid *)
Definition claims_nn (st : tstate) : Prop := Forall (fun a => 0 <= va_claimed a) (ts_accounts st).
Lemma w64_nn x : 0 <= w64 x < two64. Proof. apply Z.mod_pos_bound. done. Qed.
Lemma u64_add_nn a b : 0 <= u64_add a b < two64. Proof. apply w64_nn. Qed.
Lemma claims_insert st i a : claims_nn st -> 0 <= va_claimed a -> Forall (fun a => 0 <= va_claimed a) (<[i := a]> (ts_accounts st)).
Proof. intros H Ha. by apply Forall_insert. Qed.
Lemma claims_step st o : claims_nn st -> claims_nn (tstep st o).
Proof.
  intros H. destruct o; cbn [tstep].
  - unfold msg_create. repeat (match goal with |- context [if ?x then _ else _] => destruct x end; try done).
    unfold claims_nn. cbn. apply Forall_app. split; [done|]. by repeat constructor.
  - unfold msg_claim_unlocked. destruct (negb _); [done|]. destruct (ts_accounts st !! id) eqn:E; [|done]. destruct (_ <? _); [done|].
    destruct (transfer _ _ _ _); [|done]. apply claims_insert; [done|]. apply u64_add_nn.
  - unfold msg_clawback. destruct (negb _); [done|]. destruct (ts_accounts st !! id) eqn:E; [|done].
    repeat (match goal with |- context [if ?x then _ else _] => destruct x end; try done).
    apply claims_insert; [done|]. unfold claims_nn in H. rewrite Forall_lookup in H. exact (H id _ E).
  - unfold msg_claim_rewards. destruct (negb _); [done|]. destruct (ts_accounts st !! id) eqn:E; [|done]. destruct (_ <? _); [done|].
    destruct (transfer _ _ _ _); [|done]. apply claims_insert; [done|]. unfold claims_nn in H. rewrite Forall_lookup in H. exact (H id _ E).
  - unfold msg_claim_authority. destruct (negb _); [done|]. destruct (_ <? _); [done|]. by destruct (transfer _ _ _ _).
  - destruct (team_begin_accounts (twith_time st t) provision supply) as [Hs _]. unfold claims_nn in *. cbn in Hs.
    rewrite Forall_lookup in *. intros i a' E. destruct (Forall2_lookup_r _ _ _ _ _ Hs E) as (a & Ea & Hsa). specialize (H i a Ea).
    destruct Hsa as (_ & _ & _ & Hc & _). cbn in *. congruence || lia.
  - done.
Qed.
Lemma claims_run st ops : claims_nn st -> claims_nn (trun st ops).
Proof. revert st. induction ops as [|o ops IH]; intros st H; cbn; [done|]. apply IH. by apply claims_step. Qed.

Definition cong (a b : Z) : Prop := exists k, a = b + k * two64.
Lemma cong_refl a : cong a a. Proof. exists 0. lia. Qed.
Lemma cong_w64 a : cong (w64 a) a.
Proof. exists (- (a / two64)). unfold w64. pose proof (Z.div_mod a two64 ltac:(done)). lia. Qed.
Lemma cong_trans a b c : cong a b -> cong b c -> cong a c.
Proof. intros [k ->] [m ->]. exists (k + m). lia. Qed.
Lemma cong_add a b c d : cong a b -> cong c d -> cong (a + c) (b + d).
Proof. intros [k ->] [m ->]. exists (k + m). lia. Qed.
Lemma cong_sub a b c d : cong a b -> cong c d -> cong (a - c) (b - d).
Proof. intros [k ->] [m ->]. exists (k - m). lia. Qed.
Lemma cong_u64_add a b : cong (u64_add a b) (a + b). Proof. apply cong_w64. Qed.
Lemma cong_u64_sub a b : cong (u64_sub a b) (a - b).
Proof. unfold u64_sub. destruct (_ <=? _); [apply cong_refl|apply cong_w64]. Qed.
Lemma cong_sym a b : cong a b -> cong b a.
Proof. intros [k ->]. exists (- k). lia. Qed.
Lemma cong_eq a b : cong a b -> 0 <= a < two64 -> 0 <= b < two64 -> a = b.
Proof. intros [k ->] H1 H2. unfold two64 in *. assert (k = 0) by lia. lia. Qed.

Definition owed (st : tstate) : Z :=
  TEAM_ALLOCATION + (ts_arewards st - ts_aclaimed st) + zsum (fun a => va_rewards a - va_rclaimed a - va_claimed a) (ts_accounts st).
Lemma required_cong st : cong (required_balance st) (owed st).
Proof.
  unfold required_balance, owed. set (x := u64_add TEAM_ALLOCATION _).
  assert (Hx : cong x (TEAM_ALLOCATION + (ts_arewards st - ts_aclaimed st))).
  { eapply cong_trans; [apply cong_u64_add|]. apply cong_add; [apply cong_refl|apply cong_u64_sub]. }
  revert Hx. generalize (TEAM_ALLOCATION + (ts_arewards st - ts_aclaimed st)). generalize x. clear x.
  induction (ts_accounts st) as [|a l IH]; intros x y Hx; [cbn; by replace (y + 0) with y by lia|].
  cbn [fold_left]. change (zsum ?f (a :: l)) with (f a + zsum f l). cbn beta.
  rewrite Z.add_assoc. apply IH. eapply cong_trans; [apply cong_u64_sub|].
  replace (y + (va_rewards a - va_rclaimed a - va_claimed a)) with (y + (va_rewards a - va_rclaimed a) - va_claimed a) by lia.
  apply cong_sub; [|apply cong_refl]. eapply cong_trans; [apply cong_u64_add|]. apply cong_add; [done|apply cong_u64_sub].
Qed.
Lemma u64_sub_range a b : 0 <= a < two64 -> 0 <= b -> 0 <= u64_sub a b < two64.
Proof. intros Ha Hb. unfold u64_sub. destruct (_ <=? _) eqn:E; [lia|apply w64_nn]. Qed.
Lemma required_range st : claims_nn st -> 0 <= required_balance st < two64.
Proof.
  unfold required_balance, claims_nn. intros H.
  assert (Hx : 0 <= u64_add TEAM_ALLOCATION (u64_sub (ts_arewards st) (ts_aclaimed st)) < two64) by apply u64_add_nn.
  revert Hx. generalize (u64_add TEAM_ALLOCATION (u64_sub (ts_arewards st) (ts_aclaimed st))).
  induction H as [|a l Ha Hl IH]; intros x Hx; [done|]. cbn [fold_left]. apply IH. apply u64_sub_range; [apply u64_add_nn|done].
Qed.
Lemma distribute_cong l t r l' s : distribute l t r = Some (l', s) ->
  cong (zsum (fun a => va_rewards a - va_rclaimed a - va_claimed a) l') (zsum (fun a => va_rewards a - va_rclaimed a - va_claimed a) l + s).
Proof.
  revert l' s. induction l as [|a l IH]; intros l' s; cbn [distribute]; [intros [= <- <-]; apply cong_refl|].
  destruct (account_reward a t r) as [x|]; [|done]. destruct (distribute l t r) as [[l1 s1]|]; [|done]. intros [= <- <-].
  specialize (IH _ _ eq_refl). change (zsum ?f (?b :: ?m)) with (f b + zsum f m). cbn [va_rewards va_rclaimed va_claimed].
  assert (H1 : cong (u64_add (va_rewards a) x - va_rclaimed a - va_claimed a) (va_rewards a + x - va_rclaimed a - va_claimed a)).
  { apply cong_sub; [|apply cong_refl]. apply cong_sub; [|apply cong_refl]. apply cong_u64_add. }
  eapply cong_trans; [apply cong_add; [exact H1|exact IH]|].
  pose proof (cong_u64_add x s1) as [k Hk]. exists (- k). lia.
Qed.

Lemma quo_mono a b t : 0 <= a <= b -> 0 < t -> dec_quo (dec_of_int a) (dec_of_int t) <= dec_quo (dec_of_int b) (dec_of_int t).
Proof.
  intros Ha Ht. unfold dec_quo, dec_of_int. pose proof ONE_pos. apply chop_round_mono.
  assert (E : forall x, 0 <= x -> (x * ONE * (ONE * ONE)) ÷ (t * ONE) = (x * ONE * (ONE * ONE)) / (t * ONE)).
  { intros x Hx. apply Z.quot_div_nonneg; nia. }
  rewrite !E by lia. split; [apply Z.div_pos; nia|]. apply Z.div_le_mono; nia.
Qed.
Lemma team_twice st p s : claims_nn st -> required_balance st <= s - p -> 0 <= p < s -> s < two63 -> p <= bal (ts_bank st) MFeeCollector KYVE ->
  let st' := team_begin st p s in ts_halt st' = false ->
  exists r, 0 <= r <= p /\ required_balance st' = required_balance st + r /\
    (forall a d, bal (ts_bank st') a d = bal (ts_bank st) a d + (if decide (d = KYVE) then (if decide (a = MTeam) then r else 0) - (if decide (a = MFeeCollector) then r else 0) else 0)) /\
    (forall h r', block_provision st' p s = Some (h, r') -> r <= r' /\ (h = false -> r' <= p)) /\
    (required_balance st' <= s - p -> exists r', block_provision st' p s = Some (false, r')).
Proof.
  intros Hn Hreq Hp Hs Hf. cbv zeta. unfold team_begin.
  pose proof (required_range st Hn) as Hr0.
  destruct (block_provision_ok st p s) as (r & Er & Hr); [lia|done|done|]. rewrite Er.
  destruct (distribute (ts_accounts st) (ts_time st) r) as [[l tot]|] eqn:Ed; [|by cbn; rewrite orb_true_r].
  cbv zeta. rewrite (w64_small r) by (unfold two63, two64 in *; lia).
  cbn [ts_bank twith_halt twith_auth twith_accounts].
  destruct (transfer_ok (ts_bank st) MFeeCollector MTeam r) as [b Eb]; [lia|lia|]. rewrite Eb.
  intros _. set (st' := twith_bank _ b). exists r. split; [done|].
  assert (Hn' : claims_nn st').
  { unfold claims_nn in *. cbn. pose proof (distribute_same _ _ _ _ _ Ed) as Hs2. rewrite Forall_lookup in *. intros i a' E.
    destruct (Forall2_lookup_r _ _ _ _ _ Hs2 E) as (a & Ea & Hsa). specialize (Hn i a Ea).
    destruct Hsa as (_ & _ & _ & Hc & _). cbn in *. congruence || lia. }
  assert (Hreq' : required_balance st' = required_balance st + r).
  { apply cong_eq; [|by apply required_range|unfold two63, two64 in *; lia].
    eapply cong_trans; [apply required_cong|]. eapply cong_trans; [|apply cong_add; [apply cong_sym, required_cong|apply cong_refl]].
    unfold owed, st'. cbn [ts_arewards ts_aclaimed ts_accounts twith_bank twith_halt twith_auth twith_accounts].
    apply distribute_cong in Ed. destruct Ed as [k1 E1]. rewrite E1.
    destruct (cong_u64_add (ts_arewards st) (u64_sub r tot)) as [k2 E2]. rewrite E2. destruct (cong_u64_sub r tot) as [k3 E3]. rewrite E3.
    exists (k1 + k2 + k3). lia. }
  split; [done|]. split.
  { intros a d. pose proof (transfer_bal _ _ _ _ _ Eb) as Hb. cbn [ts_bank st' twith_bank].
    unfold transfer in Eb. destruct (i64 r <? 0); [done|]. apply send_Some in Eb as [_ Hs2]. rewrite Hs2, amt_coin.
    repeat case_decide; subst; try done; try lia; try congruence. }
  unfold block_provision. destruct ((two63 <=? s) || (two63 <=? p)) eqn:E1; [lia|]. destruct (s - p =? 0) eqn:E2; [lia|].
  rewrite Hreq'. rewrite i64_small by lia. rewrite dec_mul_int_r.
  unfold block_provision in Er. rewrite E1, E2 in Er. rewrite i64_small in Er by lia. rewrite dec_mul_int_r in Er.
  set (q0 := dec_quo (dec_of_int (required_balance st)) _) in *. set (q1 := dec_quo (dec_of_int (required_balance st + r)) _).
  assert (Hq0 : 0 <= q0) by (apply dec_quo_int_spec; lia).
  assert (Hq : q0 <= q1) by (apply quo_mono; lia).
  assert (Hrr : trunc_int (p * q0) = r). { unfold trunc64 in Er. destruct (_ && _); [|done]. by injection Er as _ ->. }
  assert (0 <= p * q0 <= p * q1) by nia.
  assert (Hle : r <= trunc_int (p * q1)) by (rewrite <- Hrr; by apply trunc_int_mono).
  assert (Hub : q1 <= ONE -> trunc_int (p * q1) <= p).
  { intros Hq1. replace p with (trunc_int (dec_of_int p)) at 2 by apply trunc_int_of_int. apply trunc_int_mono. split; [lia|]. unfold dec_of_int. nia. }
  split.
  - intros h r'. unfold trunc64. destruct (_ && _) eqn:E3; [|done]. intros [= <- <-]. split; [done|]. intros Hh. apply Hub. lia.
  - intros Hin. assert (Hq1 : q1 <= ONE) by (apply quo_le_one; lia). specialize (Hub Hq1).
    unfold trunc64. destruct (_ && _) eqn:E3; [|unfold two63 in *; lia]. exists (trunc_int (p * q1)). f_equal. f_equal. lia.
Qed.

(** ** The begin block *)
Definition minted_state (c : chain) (t prov : Z) : chain := cw_time (cw_bank c (mint (c_bank c) MFeeCollector (coin KYVE prov))) t (c_height c + 1).
Definition team_state (c : chain) (t prov : Z) : chain :=
  let c0 := minted_state c t prov in t_out c0 (team_begin (twith_time (t_in c0) t) prov (supply (c_bank c0))).
Definition split_state (c : chain) (t prov : Z) : chain :=
  let c1 := team_state c t prov in match split_inflation c1 prov with Some x => x | None => cw_halt c1 end.
Definition after_split (c2 : chain) (t : Z) : chain :=
  let c3 := d_out c2 (fst (process_queue (with_time (d_in c2) t))) in s_out c3 (stakers_begin (with_stime (s_in c3) t)).
Lemma begin_eq c t prov : begin_block c t prov = after_split (split_state c t prov) t.
Proof.
  unfold begin_block, after_split, split_state, team_state, minted_state. cbv zeta. 
  generalize (cw_time (cw_bank c (mint (c_bank c) MFeeCollector (coin KYVE prov))) t (c_height c + 1)). intros c0.
  generalize (t_out c0 (team_begin (twith_time (t_in c0) t) prov (supply (c_bank c0)))). intros c1.
  reflexivity.
Qed.
Lemma split_t c pr c' : split_inflation c pr = Some c' -> c_t c' = c_t c.
Proof.
  assert (Hl : forall l c c', gives c l = Some c' -> c_t c' = c_t c).
  { induction l as [|[p x] l IH]; intros a a'; cbn; [by intros [= <-]|]. destruct (give a p x) as [a1|] eqn:E; [|done].
    intros H. apply IH in H. rewrite H. unfold give in E. destruct (_ <? 0); [done|]. by destruct (send _ _ _ _); injection E as <-. }
  assert (Hs : forall l c T P d c' d', split_loop c T P d l = Some (c', d') -> c_t c' = c_t c).
  { induction l as [|p l IH]; intros a T P d a' d'; cbn; [by intros [= <- <-]|]. destruct (can_run a p); [|by apply IH].
    destruct (pool_share _ _ _) as [x|]; [|done]. destruct (give a p x) as [a1|] eqn:E; [|done]. intros H. apply IH in H. rewrite H.
    apply (Hl [(p, x)]). cbn. by rewrite E. }
  unfold split_inflation. destruct (block_provision _ _ _) as [[h team]|]; [|done].
  destruct (trunc64 _) as [protocol|]; [|done].
  set (c0 := if h then cw_halt c else c). assert (Hc0 : c_t c0 = c_t c) by (unfold c0; by destruct h).
  destruct (protocol =? 0); [by intros [= <-]|]. destruct (total_weight c0 =? 0); [by intros [= <-]|].
  destruct (split_loop _ _ _ _ _) as [[c1 d]|] eqn:Es; [|done]. apply Hs in Es.
  destruct (0 <? _); [|intros [= <-]; congruence]. rewrite remainder_gives. intros H. apply Hl in H. congruence.
Qed.
Lemma begin_rest c t prov : let c2 := split_state c t prov in let c' := begin_block c t prov in
  c_halt c' = c_halt c2 /\ c_t c' = c_t (team_state c t prov) /\ supply (c_bank c') = supply (c_bank c2) /\
  (forall p d, bal (c_bank c') (PoolAcc p) d = bal (c_bank c2) (PoolAcc p) d) /\
  (forall d, bal (c_bank c') MTeam d = bal (c_bank c2) MTeam d) /\ (forall d, bal (c_bank c') MFeeCollector d = bal (c_bank c2) MFeeCollector d).
Proof.
  cbv zeta. assert (Ht : c_t (split_state c t prov) = c_t (team_state c t prov)).
  { unfold split_state. cbv zeta. destruct (split_inflation _ _) eqn:E; [by apply split_t in E|done]. }
  rewrite begin_eq. unfold after_split. cbv zeta.
  revert Ht. generalize (split_state c t prov) (team_state c t prov). intros c2 c1 Ht.
  set (d := fst (process_queue (with_time (d_in c2) t))).
  assert (Hm : moves (Ad None) (c_bank c2) (ds_bank d)) by (apply (dm_process_queue None (with_time (d_in c2) t))).
  assert (Eb : c_bank (s_out (d_out c2 d) (stakers_begin (with_stime (s_in (d_out c2 d)) t))) = ds_bank d).
  { cbn [s_out c_bank cw_s cw_bank]. rewrite sb_begin. reflexivity. }
  split; [done|]. split; [exact Ht|]. rewrite Eb. split; [by rewrite (moves_supply _ _ _ Hm)|].
  assert (Hb : forall a, ~ Ad None a -> forall x, bal (ds_bank d) a x = bal (c_bank c2) a x).
  { intros a Ha x. unfold bal. by rewrite (moves_bal_of _ _ _ _ Hm Ha). }
  split; [|split]; intros; by apply Hb.
Qed.

Lemma team_supply st p s : supply (ts_bank (team_begin st p s)) = supply (ts_bank st).
Proof.
  unfold team_begin. destruct (block_provision _ _ _) as [[h r]|]; [|done]. destruct (distribute _ _ _) as [[l tot]|]; [|done]. cbv zeta.
  destruct (transfer _ _ _ _) as [b|] eqn:E; [|done]. cbn. unfold transfer in E. destruct (_ <? 0); [done|]. by apply send_supply in E.
Qed.
Lemma b_sup c t prov : supply (c_bank (team_state c t prov)) = supply (c_bank c) + prov.
Proof.
  unfold team_state. cbv zeta. cbn [c_bank t_out cw_bank cw_t]. rewrite team_supply. unfold minted_state. cbn. unfold mint.
  rewrite supply_insert, amt_cadd, amt_coin, decide_True by done. unfold bal. lia.
Qed.
Lemma split_loop_halt l c T P d c' d' : c_halt c = true -> split_loop c T P d l = Some (c', d') -> c_halt c' = true.
Proof.
  revert c d. induction l as [|p l IH]; intros c d Hh; cbn; [by intros [= <- <-]|]. destruct (can_run c p); [|by apply IH].
  destruct (pool_share _ _ _) as [x|]; [|done]. destruct (give c p x) as [a1|] eqn:E; [|done]. apply IH. by eapply give_halt.
Qed.
Lemma split_goes_on c prov c' : split_inflation c prov = Some c' -> c_halt c' = false ->
  exists team, block_provision (c_t c) prov (supply (c_bank c)) = Some (false, team).
Proof.
  unfold split_inflation. change (block_provision (t_in c)) with (block_provision (c_t c)).
  destruct (block_provision _ _ _) as [[[|] team]|]; [|by eexists|done]. intros H Hh. exfalso. revert H.
  cbv zeta. destruct (trunc64 _) as [P|]; [|done]. destruct (P =? 0); [by intros [= <-]|]. destruct (_ =? 0); [by intros [= <-]|].
  destruct (split_loop _ _ _ _ _) as [[a d]|] eqn:E; [|done]. apply split_loop_halt in E; [|done].
  destruct (0 <? _); [|intros [= <-]; congruence]. rewrite remainder_gives. intros H. apply gives_stays in H; [congruence|done].
Qed.

Lemma provision_bounds st p s r : 0 <= required_balance st < two63 -> 0 <= p < s -> block_provision st p s = Some (false, r) ->
  fair_part r p (required_balance st) (s - p).
Proof.
  intros Hr Hp. unfold block_provision. destruct (_ || _) eqn:E1; [done|]. apply orb_false_iff in E1 as [E1 E1'].
  destruct (_ =? 0) eqn:E2; [done|]. cbv zeta. rewrite i64_small, dec_mul_int_r by lia.
  set (R := required_balance st) in *. clearbody R. pose proof ONE_pos as HO1.
  destruct (dec_quo_bounds (dec_of_int R) (dec_of_int (s - p)) ltac:(unfold dec_of_int; nia) ltac:(unfold dec_of_int; nia)) as (y & Hy & Hyw & Hq & Hqy).
  set (q := dec_quo _ _) in *. clearbody q. destruct (trunc64 (p * q)) as [x|] eqn:Ex; [|done]. intros [= Eq <-].
  assert (0 <= p * q) by nia. destruct (trunc_int_spec (p * q)) as [T0 T1]; [done|].
  unfold trunc64 in Ex. destruct (_ && _); [|done]. injection Ex as <-.
  assert (Hle : trunc_int (p * q) <= p).
  { replace p with (trunc_int (dec_of_int p)) at 2 by apply trunc_int_of_int. apply trunc_int_mono. split; [done|]. unfold dec_of_int. nia. }
  assert (HO : 2 <= ONE) by (unfold ONE; lia).
  split; [lia|]. apply (share_arith ONE R (s - p) p q y); try lia.
  unfold dec_of_int in Hyw. split; nia.
Qed.

Section block.
Context (g : gen) (Hg : genesis g) (ops : list cop) (Hok : cops_ok (gstart g) ops).
Let c := crun (gstart g) ops.
Context (t prov : Z) (Hop : cop_ok c (CBegin t prov)) (Hreq : required_balance (c_t c) <= supply (c_bank c)).
Let c' := begin_block c t prov.
Let c0 := at_time c t.
Let c1 := team_state c t prov.
Context (Hteam : ts_halt (c_t c') = false).

Lemma b_G : G g c. Proof. by apply G_run. Qed.
Lemma b_claims : claims_nn (c_t c).
Proof.
  destruct (g_t _ _ b_G) as (tops & _ & E). assert (H : claims_nn (trun (t0 g) tops)) by (apply claims_run; constructor).
  rewrite <- E in H. exact H.
Qed.
(** After the team was paid. *)
Lemma b_team : exists r, 0 <= r <= prov /\ required_balance (c_t c') = required_balance (c_t c) + r /\
  (forall a d, bal (c_bank c1) a d = bal (c_bank c) a d +
     (if decide (d = KYVE) then (if decide (a = MTeam) then r else 0) + (if decide (a = MFeeCollector) then prov - r else 0) else 0)) /\
  (forall h r', block_provision (c_t c') prov (supply (c_bank c) + prov) = Some (h, r') -> r <= r' /\ (h = false -> r' <= prov)) /\
  (required_balance (c_t c') <= supply (c_bank c) -> exists r', block_provision (c_t c') prov (supply (c_bank c) + prov) = Some (false, r')).
Proof.
  destruct Hop as (Ht & Hp & Hs0 & Hs).
  destruct (begin_rest c t prov) as (_ & Et & _). change (begin_block c t prov) with c' in Et.
  assert (Hsup : supply (c_bank (minted_state c t prov)) = supply (c_bank c) + prov).
  { unfold minted_state. cbn. unfold mint. rewrite supply_insert, amt_cadd, amt_coin, decide_True by done. unfold bal. lia. }
  assert (Hm : forall a d, bal (c_bank (minted_state c t prov)) a d = bal (c_bank c) a d + (if decide (d = KYVE) then if decide (a = MFeeCollector) then prov else 0 else 0)).
  { intros a d. unfold minted_state. cbn. unfold mint, bal. rewrite bal_of_insert. destruct (decide (MFeeCollector = a)) as [<-|].
    - rewrite amt_cadd, amt_coin. repeat case_decide; subst; try done; try lia; try congruence.
    - repeat case_decide; subst; try done; lia. }
  destruct (team_twice (twith_time (t_in (minted_state c t prov)) t) prov (supply (c_bank c) + prov)) as (r & Hr & Hq & Hb & H1 & H2).
  - exact b_claims.
  - change (required_balance (twith_time (t_in (minted_state c t prov)) t)) with (required_balance (c_t c)). lia.
  - lia.
  - lia.
  - cbn [ts_bank twith_time t_in twith_bank]. rewrite Hm. rewrite !decide_True by done. pose proof (g_nn _ _ b_G MFeeCollector KYVE). lia.
  - rewrite <- Hsup. rewrite Et in Hteam. exact Hteam.
  - exists r. split; [done|]. rewrite Et. unfold team_state. cbv zeta. rewrite Hsup. cbn [c_t t_out cw_bank cw_t].
    split; [exact Hq|]. split.
    + intros a d. change (c_bank c1) with (ts_bank (team_begin (twith_time (t_in (minted_state c t prov)) t) prov (supply (c_bank (minted_state c t prov))))).
      rewrite Hsup, Hb. cbn [ts_bank twith_time t_in twith_bank]. rewrite Hm. repeat case_decide; subst; try done; lia.
    + split; [exact H1|]. intros Hx. apply H2. change (required_balance (twith_time (t_in (minted_state c t prov)) t)) with (required_balance (c_t c)) in *. lia.
Qed.

(** The pools as the split sees them. *)
Lemma run_bank_t (x : chain) b ts p : can_run (cw_bank (cw_t x ts) b) p = can_run x p. Proof. reflexivity. Qed.
Lemma run_time_bank (x : chain) b tm h p : can_run (cw_time (cw_bank x b) tm h) p = can_run (cw_time x tm h) p. Proof. reflexivity. Qed.
Lemma b_same p : can_run c1 p = can_run c0 p.
Proof. unfold c1, team_state, t_out. cbv zeta. rewrite run_bank_t. apply run_time_bank. Qed.
Lemma b_get p : get_pool c1 p = get_pool c p. Proof. reflexivity. Qed.
Lemma b_rw p : runnable_weight c1 p = runnable_weight c0 p.
Proof. unfold runnable_weight. rewrite b_same. reflexivity. Qed.
Let ids := pool_ids (c_pools c).
Lemma b_ids : pool_ids (c_pools c1) = ids. Proof. reflexivity. Qed.
Lemma b_weights : weights c0 = total_weight c1.
Proof.
  rewrite total_weight_lsum, b_ids. apply (psum_lsum c0). intros p pl E. rewrite (eligible_run c0 p pl E), b_rw. unfold runnable_weight. rewrite E. by destruct (can_run c0 p).
Qed.
Lemma b_n : n_eligible c0 = lsum (fun p => if can_run c1 p then 1 else 0) ids.
Proof. apply psum_lsum. intros p pl E. by rewrite (eligible_run c0 p pl E), b_same. Qed.
Lemma b_k : n_other c0 = lsum (fun p => if can_run c1 p then 0 else 1) ids.
Proof. apply psum_lsum. intros p pl E. by rewrite (eligible_run c0 p pl E), b_same. Qed.
Lemma b_to_eligible x : to_eligible c0 c x = lsum (fun p => if can_run c1 p then gain c x p else 0) ids.
Proof. apply psum_lsum. intros p pl E. by rewrite (eligible_run c0 p pl E), b_same. Qed.
Lemma b_to_all x : to_all c x = lsum (gain c x) ids.
Proof. by apply psum_lsum. Qed.
Lemma b_pool p pl : get_pool c p = Some pl -> 0 <= pl_weight pl.
Proof. intros E. destruct (bi_pool _ (reach_B g ops Hg Hok) p pl E) as (_ & H & _). lia. Qed.
Lemma b_wnn : 0 <= weights c0.
Proof.
  rewrite b_weights, total_weight_lsum. apply lsum_nn. intros p _. unfold runnable_weight. destruct (can_run c1 p); [|done].
  destruct (get_pool c1 p) eqn:E; [|done]. by eapply b_pool.
Qed.

(** The protocol's part. *)
Definition protocol_part (team : Z) : Z := (prov - team) * pp_share (c_pp c) / ONE.
Lemma b_part team : 0 <= team <= prov ->
  trunc64 (dec_mul (dec_of_int (prov - team)) (pp_share (c_pp c1))) = Some (protocol_part team) /\ 0 <= protocol_part team <= prov - team.
Proof.
  intros Ht. destruct Hop as (_ & Hp & Hs0 & Hs).
  assert (Hsh : 0 <= pp_share (c_pp c) <= ONE).
  { destruct (g_par _ _ b_G) as (_ & _ & H & _). unfold pparams_valid in H. apply andb_true_iff in H as [H _]. apply andb_true_iff in H as [H _].
    unfold pct_ok in H. lia. }
  assert (HP : 0 <= protocol_part team <= prov - team).
  { unfold protocol_part. pose proof ONE_pos. split; [apply Z.div_pos; nia|]. apply Z.div_le_upper_bound; nia. }
  split; [|done]. rewrite dec_mul_int_l. unfold trunc64, trunc_int. change (c_pp c1) with (c_pp c). pose proof ONE_pos.
  rewrite Z.quot_div_nonneg by nia. change (prov - team) with (prov - team) in *. fold (protocol_part team).
  assert (0 <= supply (c_bank c)) by lia.
  destruct ((- two63 <=? protocol_part team) && (protocol_part team <? two63)) eqn:E; [done|]. unfold two63 in *. lia.
Qed.

(** What the block did when the protocol's part was [P]. *)
Lemma b_split team : block_provision (c_t c') prov (supply (c_bank c) + prov) = Some (false, team) -> 0 <= team <= prov ->
  let P := protocol_part team in
  split_state c t prov =
    if (P =? 0) || (total_weight c1 =? 0) then c1
    else match (match split_loop c1 (total_weight c1) P 0 (pool_ids (c_pools c1)) with
           | None => None
           | Some (c1, d) => let x := u64_sub (w64 P) d in if 0 <? x then remainder_loop c1 x (pool_ids (c_pools c1)) else Some c1
           end) with Some x => x | None => cw_halt c1 end.
Proof.
  intros Hb Ht P. destruct (begin_rest c t prov) as (_ & Et & _). change (begin_block c t prov) with c' in Et. fold c1 in Et.
  assert (Hsup : supply (c_bank c1) = supply (c_bank c) + prov) by apply b_sup.
  unfold split_state. fold c1. cbv zeta. unfold split_inflation. change (block_provision (t_in c1)) with (block_provision (c_t c1)).
  rewrite Hsup, <- Et, Hb. destruct (b_part team Ht) as [E _]. rewrite E. fold P.
  destruct (P =? 0); [done|]. destruct (total_weight c1 =? 0); [done|]. done.
Qed.

Lemma b_provision : c_halt c' = false -> exists team, block_provision (c_t c') prov (supply (c_bank c) + prov) = Some (false, team).
Proof.
  intros Hh. destruct (begin_rest c t prov) as (Eh & Et & _). change (begin_block c t prov) with c' in Et, Eh. rewrite Hh in Eh. fold c1 in Et.
  unfold split_state in Eh. fold c1 in Eh. cbv zeta in Eh. destruct (split_inflation c1 prov) as [x|] eqn:E; [|done].
  destruct (split_goes_on c1 prov x E (eq_sym Eh)) as (team & H). rewrite <- Et in H. unfold c1 in H. rewrite b_sup in H. by exists team.
Qed.

(** Balances after the block from those after the split. *)
Lemma b_bal : (forall p d, bal (c_bank c') (PoolAcc p) d = bal (c_bank (split_state c t prov)) (PoolAcc p) d) /\
  (forall d, bal (c_bank c') MTeam d = bal (c_bank (split_state c t prov)) MTeam d) /\
  (forall d, bal (c_bank c') MFeeCollector d = bal (c_bank (split_state c t prov)) MFeeCollector d) /\ c_halt c' = c_halt (split_state c t prov).
Proof. destruct (begin_rest c t prov) as (H1 & _ & _ & H2 & H3 & H4). done. Qed.
Lemma b_coll : exists r, 0 <= r <= prov /\ collected c1 = collected c + prov - r /\ 0 <= collected c1 < two63 /\
  (forall p, bal (c_bank c1) (PoolAcc p) KYVE = bal (c_bank c) (PoolAcc p) KYVE) /\ bal (c_bank c1) MTeam KYVE = bal (c_bank c) MTeam KYVE + r /\
  (forall h r', block_provision (c_t c') prov (supply (c_bank c) + prov) = Some (h, r') -> r <= r' /\ (h = false -> r' <= prov)) /\
  (required_balance (c_t c') <= supply (c_bank c) -> exists r', block_provision (c_t c') prov (supply (c_bank c) + prov) = Some (false, r')).
Proof.
  destruct b_team as (r & Hr & _ & Hb & H1 & H2). exists r. destruct Hop as (_ & Hp & Hs0 & Hs).
  assert (Hc : collected c1 = collected c + prov - r).
  { unfold collected. rewrite Hb. rewrite (decide_True (P := KYVE = KYVE)) by done. rewrite decide_False, decide_True by done. lia. }
  pose proof (g_nn _ _ b_G) as Hnn. pose proof (supply_ge1 _ MFeeCollector Hnn) as Hle. pose proof (Hnn MFeeCollector KYVE) as H0.
  split; [done|]. split; [done|]. split; [unfold collected in *; fold c in Hle; lia|].
  split. { intros p. rewrite Hb. rewrite (decide_True (P := KYVE = KYVE)) by done. rewrite !decide_False by done. lia. }
  split. { rewrite Hb. rewrite (decide_True (P := KYVE = KYVE)) by done. rewrite decide_True, decide_False by done. lia. }
  done.
Qed.

(** No money moved by the split. *)
Lemma b_still : split_state c t prov = c1 -> (forall p, gain c c' p = 0) /\ to_all c c' = 0 /\ to_eligible c0 c c' = 0 /\
  collected c' = collected c + prov - team_gain c c'.
Proof.
  intros E. destruct b_bal as (H1 & H2 & H3 & _). destruct b_coll as (r & Hr & Hc & _ & Hp & Ht & _).
  assert (Hg0 : forall p, gain c c' p = 0) by (intros p; unfold gain; rewrite H1, E, Hp; lia).
  assert (Hz : forall l, lsum (fun _ => 0) l = 0) by (induction l; [done|]; rewrite lsum_cons; lia).
  split; [done|]. split. { rewrite b_to_all, <- (Hz ids). apply lsum_ext. intros; apply Hg0. }
  split. { rewrite b_to_eligible, <- (Hz ids). apply lsum_ext. intros p _. rewrite Hg0. by destruct (can_run c1 p). }
  unfold team_gain, collected in *. rewrite H2, H3, E. lia.
Qed.
Lemma b_gain_out p : get_pool c p = None -> p ∉ ids.
Proof. intros E H. apply pool_ids_in in H as [x Hx]. unfold get_pool in E. congruence. Qed.
Lemma b_gain_in p pl : get_pool c p = Some pl -> p ∈ ids.
Proof. intros E. apply pool_ids_in. by eexists. Qed.

Lemma split_claim : c_halt c' = false -> exists team,
  block_provision (c_t c') prov (supply (c_bank c) + prov) = Some (false, team) /\
  fair_part team prov (required_balance (c_t c')) (supply (c_bank c)) /\
  0 <= team_gain c c' <= team /\
  collected c' = collected c + prov - team_gain c c' - to_all c c' /\
  (forall p, get_pool c p = None -> gain c c' p = 0) /\
  let P := (prov - team) * pp_share (c_pp c) / ONE in
  (P = 0 \/ weights c0 = 0 -> forall p, gain c c' p = 0) /\
  (0 < P -> 0 < weights c0 -> forall p pl, get_pool c p = Some pl ->
     if eligible_pool c0 p pl then fair_part (gain c c' p) P (pl_weight pl) (weights c0)
     else to_eligible c0 c c' <= P /\ gain c c' p = P - to_eligible c0 c c').
Proof.
  intros Hh. destruct (b_provision Hh) as (team & Eb). exists team. split; [done|].
  destruct b_team as (r0 & Hr0 & Hq & _). pose proof (required_range _ b_claims) as Hrr. pose proof Hop as (_ & Hp & Hs0 & Hs).
  split.
  { replace (supply (c_bank c)) with (supply (c_bank c) + prov - prov) by lia. apply provision_bounds; [unfold two63 in *; lia|lia|done]. }
  destruct b_coll as (r & Hr & Hc & Hcb & Hpa & Hmt & Hbp & _). destruct (Hbp _ _ Eb) as [Hrt Htp]. specialize (Htp eq_refl).
  destruct b_bal as (B1 & B2 & B3 & B4). rewrite Hh in B4.
  pose proof (b_split team Eb ltac:(lia)) as Esp. cbv zeta in Esp. fold (protocol_part team).
  destruct (b_part team ltac:(lia)) as [_ HP]. set (P := protocol_part team) in *.
  destruct ((P =? 0) || (total_weight c1 =? 0)) eqn:Ez.
  { destruct (b_still Esp) as (S1 & S2 & S3 & S4).
    split. { unfold team_gain. rewrite B2, Esp, Hmt. lia. } split; [lia|]. split; [intros; apply S1|]. cbv zeta. split; [intros; apply S1|].
    rewrite b_weights. lia. }
  apply orb_false_iff in Ez as [Ez1 Ez2]. pose proof b_wnn as Hw. rewrite b_weights in *.
  assert (HT : 0 < total_weight c1) by lia. assert (HP1 : 0 < P < two63) by (unfold two63 in *; lia).
  destruct (split_run c1 P HP1 b_pool HT ltac:(lia) ltac:(lia)) as (R1 & R2 & R3). cbv zeta in R1, R2, R3.
  set (res := match split_loop c1 _ _ _ _ with Some _ => _ | None => None end) in *.
  set (S := lsum (sh c1 P) (pool_ids (c_pools c1))) in *.
  set (k := lsum (fun p => if can_run c1 p then 0 else 1) (pool_ids (c_pools c1))) in *.
  assert (Hres : forall (f : N -> Z) b, res = Some (cw_bank c1 b) ->
     (forall a d, bal b a d = bal (c_bank c1) a d + (if decide (d = KYVE) then
        match a with PoolAcc p => if decide (p ∈ pool_ids (c_pools c1)) then f p else 0 | MFeeCollector => - lsum f ids | _ => 0 end else 0)) ->
     team_gain c c' = r /\ collected c' = collected c + prov - team_gain c c' - to_all c c' /\
     (forall p, p ∈ ids -> gain c c' p = f p) /\ (forall p, p ∉ ids -> gain c c' p = 0)).
  { intros f b E Hb. rewrite E in Esp.
    assert (Hgi : forall p, p ∈ ids -> gain c c' p = f p).
    { intros p Hpi. unfold gain. rewrite B1, Esp. cbn [c_bank cw_bank]. rewrite Hb, Hpa. rewrite decide_True by done.
      change (pool_ids (c_pools c1)) with ids. rewrite decide_True by done. lia. }
    assert (Ht : team_gain c c' = r) by (unfold team_gain; rewrite B2, Esp; cbn [c_bank cw_bank]; rewrite Hb, decide_True, Hmt by done; lia).
    split; [done|]. split.
    { rewrite Ht, b_to_all, (lsum_ext _ f) by done. unfold collected at 1. rewrite B3, Esp. cbn [c_bank cw_bank]. rewrite Hb, decide_True by done.
      unfold collected in Hc |- *. lia. }
    split; [done|]. intros p Hpi. unfold gain. rewrite B1, Esp. cbn [c_bank cw_bank]. rewrite Hb, Hpa. rewrite decide_True by done.
    change (pool_ids (c_pools c1)) with ids. rewrite decide_False by done. lia. }
  assert (Hsh : forall p pl, get_pool c p = Some pl -> can_run c1 p = true -> fair_part (sh c1 P p) P (pl_weight pl) (total_weight c1)).
  { intros p pl E Er. destruct (sh_ok c1 P HP1 b_pool HT p (b_gain_in p pl E) Er) as (_ & H1 & H2 & H3).
    unfold runnable_weight in H2, H3. rewrite Er in H2, H3. change (get_pool c1 p) with (get_pool c p) in H2, H3. rewrite E in H2, H3. done. }
  assert (Hfin : forall f : N -> Z, team_gain c c' = r /\ collected c' = collected c + prov - team_gain c c' - to_all c c' /\
     (forall p, p ∈ ids -> gain c c' p = f p) /\ (forall p, p ∉ ids -> gain c c' p = 0) ->
     (forall p, p ∈ ids -> can_run c1 p = true -> f p = sh c1 P p) ->
     (forall p, p ∈ ids -> can_run c1 p = false -> S <= P /\ f p = P - S) ->
     0 <= team_gain c c' <= team /\ collected c' = collected c + prov - team_gain c c' - to_all c c' /\
     (forall p, get_pool c p = None -> gain c c' p = 0) /\ let P0 := P in
     (P0 = 0 \/ total_weight c1 = 0 -> forall p, gain c c' p = 0) /\
     (0 < P0 -> 0 < total_weight c1 -> forall p pl, get_pool c p = Some pl ->
       if eligible_pool c0 p pl then fair_part (gain c c' p) P0 (pl_weight pl) (total_weight c1)
       else to_eligible c0 c c' <= P0 /\ gain c c' p = P0 - to_eligible c0 c c')).
  { intros f (F1 & F2 & F3 & F4) Fr Fn. split; [lia|]. split; [done|]. split; [intros p E; apply F4; by apply b_gain_out|]. cbv zeta.
    split; [lia|]. intros _ _ p pl E. rewrite (eligible_run c0 p pl E), <- b_same. pose proof (b_gain_in p pl E) as Hi.
    rewrite (F3 p Hi). destruct (can_run c1 p) eqn:Er; [rewrite (Fr p Hi Er); by apply Hsh|].
    assert (Ee : to_eligible c0 c c' = S).
    { rewrite b_to_eligible. apply lsum_ext. intros q Hqi. destruct (can_run c1 q) eqn:Eq; [|unfold sh; by rewrite Eq].
      rewrite (F3 q Hqi). by apply Fr. }
    rewrite Ee. by apply Fn. }
  destruct R3 as [R3|[[R3 R3']|[R3 R3']]].
  - exfalso. destruct res as [x|]; rewrite Esp in B4; [|done]. rewrite (R3 x eq_refl) in B4. done.
  - destruct (R1 R3 R3') as (b & E & Hb). apply (Hfin (fun p => sh c1 P p + (if can_run c1 p then 0 else P - S))).
    + apply (Hres _ b E). intros a d. rewrite Hb. destruct (decide (d = KYVE)); [|done]. destruct a; try done.
      f_equal. f_equal. change ids with (pool_ids (c_pools c1)). rewrite lsum_add. fold S. f_equal.
      unfold k. rewrite Z.mul_comm, <- lsum_scale. apply lsum_ext. intros p _. destruct (can_run c1 p); lia.
    + intros p _ Er. rewrite Er. lia.
    + intros p _ Er. rewrite Er. unfold sh. rewrite Er. fold S. lia.
  - destruct (R2 R3 R3') as (b & E & Hb). apply (Hfin (sh c1 P)).
    + by apply (Hres _ b E).
    + done.
    + intros p Hi Er. exfalso. assert (Hk : (if can_run c1 p then 0 else 1) <= k); [|rewrite Er in Hk; lia].
      apply (lsum_elem (fun p => if can_run c1 p then 0 else 1)); [|done]. intros q _. by destruct (can_run c1 q).
Qed.

Lemma safe_claim : c_halt c = false -> required_balance (c_t c') <= supply (c_bank c) -> exists team,
  block_provision (c_t c') prov (supply (c_bank c) + prov) = Some (false, team) /\
  let P := (prov - team) * pp_share (c_pp c) / ONE in
  (n_eligible c0 * P < 2 * ONE -> n_other c0 * (n_eligible c0 + 1) <= collected c + (prov - team - P) ->
   c_halt c' = false /\ to_eligible c0 c c' <= P /\
   (0 < weights c0 -> P - to_eligible c0 c c' <= n_eligible c0 + 1 /\
                      to_all c c' = to_eligible c0 c c' + n_other c0 * (P - to_eligible c0 c c'))).
Proof.
  intros Hh0 Hrq. destruct b_coll as (r & Hr & Hc & Hcb & Hpa & Hmt & Hbp & Hok2). destruct (Hok2 Hrq) as (team & Eb).
  exists team. split; [done|]. cbv zeta. fold (protocol_part team).
  destruct (Hbp _ _ Eb) as [Hrt Htp]. specialize (Htp eq_refl). destruct b_bal as (B1 & B2 & B3 & B4).
  pose proof (b_split team Eb ltac:(lia)) as Esp. cbv zeta in Esp.
  destruct (b_part team ltac:(lia)) as [_ HP]. set (P := protocol_part team) in *.
  destruct ((P =? 0) || (total_weight c1 =? 0)) eqn:Ez.
  { destruct (b_still Esp) as (S1 & S2 & S3 & S4). intros _ _. split; [by rewrite B4, Esp|]. split; [lia|]. rewrite b_weights. intros Hpos.
    assert (P = 0) as -> by lia. rewrite S2, S3. split; [|lia]. rewrite b_n.
    assert (0 <= lsum (fun p => if can_run c1 p then 1 else 0) ids); [|lia]. apply lsum_nn. intros p _. by destruct (can_run c1 p). }
  apply orb_false_iff in Ez as [Ez1 Ez2]. pose proof b_wnn as Hw. rewrite b_weights in *. destruct Hop as (_ & Hp & Hs0 & Hs).
  assert (HT : 0 < total_weight c1) by lia. assert (HP1 : 0 < P < two63) by (unfold two63 in *; lia).
  destruct (split_run c1 P HP1 b_pool HT ltac:(lia) ltac:(lia)) as (R1 & _ & _). cbv zeta in R1.
  pose proof (S_upper c1 P HP1 b_pool HT) as Hup. pose proof (S_lower c1 P HP1 b_pool HT) as Hlow.
  rewrite b_n, b_k. change (pool_ids (c_pools c1)) with ids in *.
  set (S := lsum (sh c1 P) ids) in *. set (k := lsum (fun p => if can_run c1 p then 0 else 1) ids) in *.
  set (n := lsum (fun p => if can_run c1 p then 1 else 0) ids) in *.
  assert (Hk : 0 <= k) by (apply lsum_nn; intros p _; by destruct (can_run c1 p)).
  assert (Hn0 : 0 <= n) by (apply lsum_nn; intros p _; by destruct (can_run c1 p)).
  assert (Hn : 0 < n).
  { destruct (Z.eq_dec n 0) as [E|]; [|lia]. exfalso. assert (total_weight c1 = 0); [|lia]. rewrite total_weight_lsum.
    change (pool_ids (c_pools c1)) with ids. assert (Hz : forall l, lsum (fun _ => 0) l = 0) by (induction l; [done|]; rewrite lsum_cons; lia).
    rewrite <- (Hz ids). apply lsum_ext. intros p Hpi.
    assert (Hx : (if can_run c1 p then 1 else 0) <= n).
    { apply (lsum_elem (fun p => if can_run c1 p then 1 else 0)); [|done]. intros q _. by destruct (can_run c1 q). }
    unfold runnable_weight. destruct (can_run c1 p); [lia|done]. }
  specialize (Hlow Hn). intros Hsmall Hroom. pose proof ONE_pos.
  assert (HSP : S <= P) by nia. assert (HSl : P - S <= n + 1) by nia.
  assert (Hfit : S + k * (P - S) <= collected c1).
  { assert (k * (P - S) <= k * (n + 1)) by (apply Z.mul_le_mono_nonneg_l; lia). lia. }
  destruct (R1 HSP Hfit) as (b & E & Hb). rewrite E in Esp.
  assert (Hgi : forall p, p ∈ ids -> gain c c' p = sh c1 P p + (if can_run c1 p then 0 else P - S)).
  { intros p Hpi. unfold gain. rewrite B1, Esp. cbn [c_bank cw_bank]. rewrite Hb, Hpa. rewrite !decide_True by done. lia. }
  assert (Ee : to_eligible c0 c c' = S).
  { rewrite b_to_eligible. apply lsum_ext. intros q Hqi. rewrite (Hgi q Hqi). destruct (can_run c1 q) eqn:Eq; [lia|]. unfold sh. by rewrite Eq. }
  split; [by rewrite B4, Esp|]. rewrite Ee. split; [done|]. intros _. split; [done|].
  rewrite b_to_all, (lsum_ext _ _ _ Hgi), lsum_add. fold S. f_equal. unfold k. rewrite Z.mul_comm, <- lsum_scale. apply lsum_ext.
  intros p _. destruct (can_run c1 p); lia.
Qed.
End block.

(** ** For all histories *)
Lemma r_split : forall g ops t prov, genesis g -> cops_ok (gstart g) ops -> let c := crun (gstart g) ops in
  cop_ok c (CBegin t prov) -> required_balance (c_t c) <= supply (c_bank c) ->
  let c' := cstep c (CBegin t prov) in let c0 := at_time c t in ts_halt (c_t c') = false -> c_halt c' = false ->
  exists team, block_provision (c_t c') prov (supply (c_bank c) + prov) = Some (false, team) /\
    fair_part team prov (required_balance (c_t c')) (supply (c_bank c)) /\
    0 <= team_gain c c' <= team /\
    collected c' = collected c + prov - team_gain c c' - to_all c c' /\
    (forall p, get_pool c p = None -> gain c c' p = 0) /\
    let P := (prov - team) * pp_share (c_pp c) / ONE in
    (P = 0 \/ weights c0 = 0 -> forall p, gain c c' p = 0) /\
    (0 < P -> 0 < weights c0 -> forall p pl, get_pool c p = Some pl ->
       if eligible_pool c0 p pl then fair_part (gain c c' p) P (pl_weight pl) (weights c0)
       else to_eligible c0 c c' <= P /\ gain c c' p = P - to_eligible c0 c c').
Proof. intros g ops t prov Hg Hok c Hop Hreq c' c0 Hteam. exact (split_claim g Hg ops Hok t prov Hop Hreq Hteam). Qed.
Lemma r_safe : forall g ops t prov, genesis g -> cops_ok (gstart g) ops -> let c := crun (gstart g) ops in
  cop_ok c (CBegin t prov) -> required_balance (c_t c) <= supply (c_bank c) ->
  let c' := cstep c (CBegin t prov) in let c0 := at_time c t in ts_halt (c_t c') = false -> c_halt c = false ->
  required_balance (c_t c') <= supply (c_bank c) ->
  exists team, block_provision (c_t c') prov (supply (c_bank c) + prov) = Some (false, team) /\
    let P := (prov - team) * pp_share (c_pp c) / ONE in
    (n_eligible c0 * P < 2 * ONE -> n_other c0 * (n_eligible c0 + 1) <= collected c + (prov - team - P) ->
     c_halt c' = false /\ to_eligible c0 c c' <= P /\
     (0 < weights c0 -> P - to_eligible c0 c c' <= n_eligible c0 + 1 /\
                        to_all c c' = to_eligible c0 c c' + n_other c0 * (P - to_eligible c0 c c'))).
Proof. intros g ops t prov Hg Hok c Hop Hreq c' c0 Hteam. exact (safe_claim g Hg ops Hok t prov Hop Hreq Hteam). Qed.
