(** * A full pool with one funding of a huge value accepts no further funding (C37). *)
From Verif Require Import Base BaseFacts Funders FundersInv FundersRun FundersClaims FundersExamples.

Lemma find_in l x e : wl_find l x = Some e -> In e l.
Proof.
  unfold wl_find. assert (H : forall acc, fold_left (fun acc e => if (w_denom e =? x)%N then Some e else acc) l acc = Some e -> acc = Some e \/ In e l).
  { induction l as [|y l IH]; intros acc; cbn; [by left|]. intros [H|H]%IH; [|auto]. destruct (_ =? _)%N; [|auto]. injection H as ->. auto. }
  intros E. destruct (H None E) as [H'|H']; [discriminate H'|exact H'].
Qed.
Lemma score_one_none e a : wentry_ok e -> two63 * ONE * 10 ^ w_decimals e <= w_weight e * a -> score_one e a = None.
Proof.
  intros (Hd & _ & _ & Hw) Hb. unfold score_one. set (q := trunc_int _).
  assert (Hq : two63 <= q); [|destruct (Z.ltb_spec q two63); [lia|]; by rewrite andb_false_r].
  unfold q, trunc_int, dec_quo, dec_mul_int, dec_of_int. set (T := 10 ^ w_decimals e) in *. assert (HT : 0 < T) by (apply Z.pow_pos_nonneg; lia).
  assert (HO : 0 < ONE) by done. assert (H63 : 0 < two63) by done. set (n := w_weight e * a) in *. clearbody n.
  assert (H1 : (two63 * ONE) * ONE <= (n * (ONE * ONE)) ÷ (T * ONE)).
  { rewrite Z.quot_div_nonneg by nia. apply Z.div_le_lower_bound; nia. }
  assert (H2 : two63 * ONE <= chop_round ((n * (ONE * ONE)) ÷ (T * ONE))).
  { rewrite <- (chop_round_exact (two63 * ONE)) at 1. apply chop_round_mono. nia. }
  set (z := chop_round _) in *. clearbody z. rewrite Z.quot_div_nonneg by nia. apply Z.div_le_lower_bound; nia.
Qed.
Lemma score_none l c x e v : c !! x = Some v -> wl_find l x = Some e -> score_one e v = None -> score l c = None.
Proof.
  intros Hx He Hv. unfold score. apply elem_of_map_to_list in Hx. revert Hx. generalize (map_to_list c). intros m Hx.
  induction m as [|[y w] m IH]; [by apply elem_of_nil in Hx|]. cbn [foldr fst snd].
  apply elem_of_cons in Hx as [[= <- <-]|Hx]; [|by rewrite (IH Hx)].
  destruct (foldr _ _ _); [|done]. by rewrite He, Hv.
Qed.

Lemma blocked b pr ops p c x e : freach b pr ops -> let st := fend b pr ops in
  length (actives st p) = 50%nat -> c ∈ actives st p -> wl_find (fp_list (fs_params st)) x = Some e ->
  two63 * ONE * 10 ^ w_decimals e <= w_weight e * rem st c p x ->
  forall ex a amounts apb, msg_fund st ex a p amounts apb = None.
Proof.
  intros HR st Hlen Hc He Hv ex a amounts apb. pose proof (freach_inv _ _ _ HR) as HI. fold st in HI.
  unfold msg_fund. destruct (negb (bool_decide _)); [done|]. destruct (negb ex); [done|].
  unfold actives in *. destruct (fs_active st !! p) as [act|] eqn:Ea; [|done]. cbn in Hlen, Hc.
  destruct (ensure_params _ _) as [f1|]; [|done]. unfold ensure_free_slot.
  pose proof (fun y => fi_found _ _ HI p act y Ea) as Hf. rewrite (active_fundings_length st p act Hf), Hlen.
  cbn [Nat.ltb Nat.leb MAX_FUNDERS].
  destruct (lowest_funding _ _) as [[[b0 fb] s0]|] eqn:El; [|done]. exfalso.
  destruct (lowest_spec _ _ _ _ _ El) as (_ & _ & Hmin). destruct (Hf c Hc) as [fc Efc].
  destruct (Hmin c fc) as (s' & Hs' & _); [by apply active_fundings_elem|].
  assert (Hok : wentry_ok e).
  { pose proof (fi_params _ _ HI) as [Hp _]. rewrite Forall_forall in Hp. apply Hp, elem_of_list_In. by eapply find_in. }
  unfold rem in Hv. rewrite Efc in Hv. unfold amt in Hv. destruct (fd_amounts fc !! x) as [v|] eqn:Ex; cbn in Hv.
  - pose proof (score_none _ _ x e v Ex He (score_one_none e v Hok Hv)) as Hn. change (fp_list (fs_params st)) with (wl st) in Hn. congruence.
  - assert (0 < 10 ^ w_decimals e) by (apply Z.pow_pos_nonneg; destruct Hok; lia). assert (0 < two63 * ONE) by done. nia.
Qed.

(** 50 funders; the last one's coins are worth 10^19. Number 51 brings a hundred times what the first one has. *)
Definition huge_bank : bank := <[User 50 := purse (10 ^ 26) 0]> crowd_bank.
Definition huge : list fop :=
  FCreateState 0 :: flat_map (fun i => [FCreateFunder (N.of_nat i);
     FFund true (N.of_nat i) 0 (purse (Z.of_nat i * 1000000) 0) (purse 1 0)]) (seq 1 49) ++
  [FCreateFunder 50; FFund true 50 0 (purse (10 ^ 25) 0) (purse 1 0); FCreateFunder 51].
Definition huge_st : fstate := fend huge_bank fprm huge.
Lemma huge_ok : freach huge_bank fprm huge.
Proof.
  split; [apply fparams_okb_ok; by vm_compute|]. split; [intros x; apply nonneg_empty; by vm_compute|].
  apply fops_okb_ok. by vm_compute.
Qed.
Lemma huge_case :
  length (actives huge_st 0) = 50%nat /\ bool_decide (50%N ∈ actives huge_st 0) = true /\
  wl_find (fp_list (fs_params huge_st)) KYVE = Some (mkW KYVE 6 10 1 ONE) /\
  (two63 * ONE * 10 ^ 6 <=? ONE * rem huge_st 50 0 KYVE) = true /\
  rem huge_st 1 0 KYVE = 1000000 /\ user_bal huge_st 51 KYVE = 1000000000 /\
  match msg_fund huge_st true 51 0 (purse 100000000 0) (purse 1 0) with None => true | Some _ => false end = true.
Proof. vm_compute. repeat split; reflexivity. Qed.
