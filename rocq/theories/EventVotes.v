(** * The counts of the event of a bundle (C76) are the powers of those who voted. *)
From Verif Require Import Base BaseFacts Delegation Stakers Funders Team RoundRobin Pool Bundles Chain ChainFrame ChainLift Walk ArchiveInv PaySafe PayFlow
  PayoutClaims PoolClaims TallyFacts StepCases VoteClaims TallyClaims TallyEffects Events EventWalk EventFollow EventMeaning DelegationClaims3 PoolInv PointsInv.

Section votes.
  Context (g : gen) (Hg : genesis g).
  (** The votes of [b], each with the weight [w], if they are of members; [T]: all of them together. *)
  Definition tells_votes (c : chain) (w : N -> Z) (e : finalized) : Prop :=
    let p := ef_pool e in let b := get_prop c p in let sum l := sum_of w (List.filter (in_pool c p) l) in
    ef_valid e = sum (bp_valid b) /\ ef_invalid e = sum (bp_invalid b) /\ ef_abstain e = sum (bp_abstain b) /\ ef_total e <= sum_of w (members c p).
  Definition fields (e : finalized) (v : votes) : Prop :=
    ef_valid e = v_valid v /\ ef_invalid e = v_invalid v /\ ef_abstain e = v_abstain v /\ ef_total e = v_total v /\ ef_status e = Judged (v_status v).
  Lemma in_list_voted b s l : l = bp_valid b \/ l = bp_invalid b \/ l = bp_abstain b -> s ∈ l -> voted b s = true.
  Proof.
    intros Hl Hs. unfold voted.
    assert (H : memb s l = true) by (unfold memb; apply existsb_exists; exists s; split; [by apply elem_of_list_In|by apply N.eqb_eq]).
    rewrite !orb_true_iff. destruct Hl as [-> | [-> | ->]]; auto.
  Qed.
  Lemma judged_counts c p who e v : G g c -> judged g c p (present c p who) v -> ef_pool e = p -> fields e v -> pool_power c p < two64 -> tells_votes c (power c) e.
  Proof.
    intros HG (c1 & (HG1 & HA1 & Hp & [b1 Hb1] & Ho) & ->) Hep (F1 & F2 & F3 & F4 & _) HT. unfold tells_votes. rewrite F1, F2, F3, F4, Hep.
    assert (Eb : get_prop c p = b1) by (rewrite <- Hp; unfold get_prop; by rewrite Hb1). rewrite Eb.
    change (forall s, ob c1 p s = counted_as c p who s) in Ho.
    pose proof (in_counted c c1 p who Ho) as Hin. pose proof (pool_power_weight g Hg c1 c p Hin) as HW.
    assert (HT1 : pool_power c1 p <= pool_power c p).
    { rewrite HW. rewrite (weight_ext _ _ _ Ho). rewrite (pool_power_weight g Hg c c p) by done.
      clear -HG Hg. unfold weight. induction (members c p) as [|x l IH]; [done|]. rewrite !sum_cons. cbv beta. pose proof (w1_counted g Hg c p who x HG). lia. }
    pose proof (votes_power c1 p b1 HA1 (fun x => G_power g Hg c1 x HG1) Hb1 ltac:(lia)) as (M1 & M2 & M3 & M4 & _). cbv zeta in M1, M2, M3, M4.
    assert (HL : forall l, l = bp_valid b1 \/ l = bp_invalid b1 \/ l = bp_abstain b1 -> power_of c1 p l = power_of c p l).
    { intros l Hl. rewrite !power_of_weight. rewrite (weight_ext _ _ _ Ho). unfold weight.
      assert (Hv : forall s, s ∈ l -> w1 (counted_as c p who s) = w1 (ob c p s)).
      { intros s Hs. unfold counted_as, lose. rewrite decide_False; [apply w1_present|]. intros [_ Hv]. rewrite Eb in Hv. by rewrite (in_list_voted b1 s l Hl Hs) in Hv. }
      clear -Hv. induction l as [|x l IH]; [done|]. rewrite !sum_cons. rewrite (Hv x) by apply elem_of_list_here. rewrite IH; [done|]. intros s Hs. apply Hv. by apply elem_of_list_further. }
    rewrite M1, M2, M3, M4, !HL by auto. split; [done|]. split; [done|]. split; [done|]. exact HT1.
  Qed.
  Lemma plain_counts c p e : G g c -> AInv c -> bp_storage (get_prop c p) <> 0%N -> ef_pool e = p -> fields e (distribution c p) -> pool_power c p < two64 -> tells_votes c (power c) e.
  Proof.
    intros HG HA Hs Hep (F1 & F2 & F3 & F4 & _) HT. unfold tells_votes. rewrite F1, F2, F3, F4, Hep. apply stored_some in Hs. destruct (c_prop c !! p) as [b|] eqn:Hb; [|done].
    assert (Eb : get_prop c p = b) by (unfold get_prop; by rewrite Hb). rewrite Eb.
    pose proof (votes_power c p b HA (fun x => G_power g Hg c x HG) Hb HT) as (M1 & M2 & M3 & M4 & _). cbv zeta in *. rewrite M1, M2, M3, M4. unfold power_of, here, pool_power. split; [done|]. split; [done|]. split; [done|]. lia.
  Qed.
  (** Where the counts come from. *)
  Definition other (x : event) : Prop := match x with EvFinalized _ => False | _ => True end.
  Lemma not_other l e : Forall other l -> EvFinalized e ∈ l -> False.
  Proof. intros H Hin. rewrite Forall_forall in H. by apply (H _ Hin). Qed.
  Lemma o_reset c p s : Forall other (ev_reset c p s). Proof. unfold ev_reset. destruct (_ <? _); by repeat constructor. Qed.
  Lemma o_tally c b p : Forall other (ev_tally c b p). Proof. by apply sh_tally. Qed.
  Lemma o_register c m : Forall other (ev_register c m). Proof. unfold ev_register. destruct (get_pool _ _); by repeat constructor. Qed.
  Lemma o_non c p : Forall other (ev_non_voters c p).
  Proof. pose proof (o_tally c (get_prop c p) p) as H. unfold ev_tally in H. by apply Forall_app in H as [H _]. Qed.
  Lemma o_late c p s : Forall other (ev_timeout_point c p s).
  Proof.
    unfold ev_timeout_point. destruct (in_pool c p s); [|constructor]. unfold ev_add_point. destruct (increment_points _ _ _) as [s' n]. constructor; [done|]. cbv zeta.
    destruct (_ <=? _); [|constructor]. apply Forall_app. split; [by apply sh_slash|by repeat constructor].
  Qed.
  Lemma src_submit c m c' e : msg_submit c m = Some c' -> EvFinalized e ∈ ev_submit c m ->
    ef_pool e = sb_pool m /\ bp_storage (get_prop c (sb_pool m)) <> 0%N /\ fields e (distribution (handle_non_voters (reset_pts c (sb_pool m) (sb_staker m)) (sb_pool m)) (sb_pool m)).
  Proof.
    unfold msg_submit, ev_submit. destruct (negb _); [done|]. destruct (negb _); [done|]. cbv zeta. intros Hm. set (c1 := reset_pts _ _ _) in *. rewrite elem_of_app. intros [Hx|Hx]; [by apply not_other in Hx; [|apply o_reset]|].
    destruct (N.eqb_spec (bp_storage (get_prop c (sb_pool m))) 0) as [Es|Es]; [by apply not_other in Hx; [|apply o_register]|]. apply elem_of_app in Hx as [Hx|Hx]; [by apply not_other in Hx; [|apply o_tally]|].
    pose proof (tally_v c1 (get_prop c (sb_pool m)) (sb_pool m)) as Htv. destruct (tally _ _ _); try by apply elem_of_nil in Hx.
    - destruct (choose_from _ _ _). apply elem_of_app in Hx as [Hx|Hx]; [|by apply not_other in Hx; [|apply o_register]]. apply elem_of_list_singleton in Hx as [= ->]. subst. done.
    - apply elem_of_list_singleton in Hx as [= ->]. subst. done.
  Qed.
  Lemma src_skip c p s e : EvFinalized e ∈ ev_skip c p s -> ef_pool e = p /\ fields e (distribution (handle_non_voters (reset_pts c p s) p) p).
  Proof.
    unfold ev_skip. cbv zeta. set (c1 := reset_pts _ _ _) in *. rewrite elem_of_app. intros [Hx|Hx]; [by apply not_other in Hx; [|apply o_reset]|].
    apply elem_of_app in Hx as [Hx|Hx]; [by apply not_other in Hx; [|apply o_tally]|].
    pose proof (tally_v c1 (get_prop c p) p) as Htv. destruct (tally _ _ _); try (by apply elem_of_nil in Hx); destruct (choose _ _ _).
    - apply elem_of_app in Hx as [Hx|Hx]; [|by apply elem_of_list_singleton in Hx]. apply elem_of_list_singleton in Hx as [= ->]. subst. done.
    - apply elem_of_app in Hx as [Hx|Hx]; [|by apply elem_of_list_singleton in Hx]. apply elem_of_list_singleton in Hx as [= ->]. subst. done.
    - by apply elem_of_list_singleton in Hx.
  Qed.
  Lemma src_turn c p i e : EvFinalized e ∈ ev_timeout_pool c p i -> ef_pool e = p /\
    (ef_status e = Stopped \/ (bp_storage (get_prop c p) <> 0%N /\ fields e (distribution (handle_non_voters c p) p)) \/ (bp_storage (get_prop c p) <> 0%N /\ fields e (distribution c p))).
  Proof.
    unfold ev_timeout_pool. cbv zeta. intros Hx. destruct (pool_error c p).
    { destruct (_ && _); [|by apply elem_of_nil in Hx]. apply elem_of_list_singleton in Hx as [= ->]. auto. }
    destruct (_ <? _); [by apply elem_of_nil in Hx|]. destruct (_ && _) eqn:Eq.
    { apply elem_of_app in Hx as [Hx|Hx]; [by apply not_other in Hx; [|apply o_non]|]. apply elem_of_list_singleton in Hx as [= ->].
      apply andb_true_iff in Eq as [Eq _]. apply negb_true_iff, N.eqb_neq in Eq. split; [done|]. right. right. done. }
    destruct (_ <? _); [by apply elem_of_nil in Hx|]. destruct (N.eqb_spec (bp_storage (get_prop c p)) 0) as [Es|Es]; [destruct (choose _ _ _); by apply not_other in Hx; [|apply o_late]|].
    apply elem_of_app in Hx as [Hx|Hx]; [by apply not_other in Hx; [|apply o_tally]|].
    pose proof (tally_v c (get_prop c p) p) as Htv. destruct (tally _ _ _); try by apply elem_of_nil in Hx.
    - destruct (choose_from _ _ _). apply elem_of_app in Hx as [Hx|Hx]; [|by apply not_other in Hx; [|apply o_late]]. apply elem_of_list_singleton in Hx as [= ->]. subst. split; [done|]. right. left. done.
    - destruct (choose _ _ _). apply elem_of_app in Hx as [Hx|Hx]; [|by apply not_other in Hx; [|apply o_late]]. apply elem_of_list_singleton in Hx as [= ->]. subst. split; [done|]. right. left. done.
    - destruct (choose _ _ _). apply elem_of_app in Hx as [Hx|Hx]; [|by apply not_other in Hx; [|apply o_late]]. apply elem_of_list_singleton in Hx as [= ->]. subst. split; [done|]. right. left. done.
  Qed.
  (** Powers do not grow in the turns. *)
  Definition pw (o : obs) : Z := default 0 (fst (snd o)).
  Definition lowers (h : obs -> obs) : Prop := forall o, 0 <= pw o -> 0 <= pw (h o) <= pw o.
  Lemma G_fractions c : G g c -> forall t, 0 <= slash_fraction (ds_params (c_d c)) t <= ONE.
  Proof.
    intros HG t. destruct (g_d _ _ HG) as (dl & Hdl & Ed & _).
    assert (Hv : dparams_valid (ds_params (c_d c)) = true).
    { change (ds_params (c_d c)) with (ds_params (d_in c)). rewrite Ed. apply params_valid_run; [apply Hg|done]. }
    unfold dparams_valid in Hv. repeat (apply andb_prop in Hv as [Hv ?]). destruct t; cbn; lia.
  Qed.
  Lemma low_hit fr (k : option Z * list Z) : 0 <= fr <= ONE -> 0 <= default 0 (fst k) -> 0 <= default 0 (fst (hit fr k)) <= default 0 (fst k).
  Proof.
    intros Hfr Hk. unfold hit. destruct (fst k) as [t|] eqn:Et; cbn in *; rewrite ?Et; cbn; [|lia].
    assert (0 < ONE) by (by vm_compute). assert (0 <= t * fr / ONE <= t); [|lia]. split; [apply Z.div_pos; nia|]. apply Z.div_le_upper_bound; nia.
  Qed.
  Lemma low_kick fr : 0 <= fr <= ONE -> lowers (kick fr). Proof. intros H o Ho. by apply low_hit. Qed.
  Lemma low_miss c : G g c -> lowers (one_miss c).
  Proof.
    intros HG o Ho. unfold one_miss, miss. destruct (fst o); [|lia]. destruct (_ <=? _); [|unfold pw in *; cbn; lia]. apply low_hit; [|done]. apply (G_fractions c HG SlashTimeout).
  Qed.
  Lemma low_lose c p s : G g c -> lowers (lose c p s). Proof. intros HG o Ho. unfold lose. destruct (decide _); [by apply low_miss|lia]. Qed.
  Lemma low_late c n s : G g c -> lowers (late c n s). Proof. intros HG o Ho. unfold late. destruct (decide _); [by apply low_miss|lia]. Qed.
  Lemma low_valid c p s : G g c -> lowers (when_valid c p s).
  Proof. intros HG o Ho. unfold when_valid. destruct (decide _); [|lia]. apply low_kick; [apply (G_fractions c HG SlashVote)|done]. Qed.
  Lemma low_invalid c p s : G g c -> lowers (when_invalid c p s).
  Proof. intros HG o Ho. unfold when_invalid. destruct (decide (s ∈ _)); [|lia]. apply low_kick; [destruct (decide _); [apply (G_fractions c HG SlashUpload)|apply (G_fractions c HG SlashVote)]|done]. Qed.
  Lemma turn_power c p i c' : R g c -> is_Some (get_pool c p) -> timeout_pool c p i = Some c' ->
    (forall s, 0 <= power c' s <= power c s) /\ others_same c c' p.
  Proof.
    intros HR Hpl E. pose proof HR as (HG & HA & HU).
    assert (Hnn : forall s, 0 <= pw (ob c p s)). { intros s. change (0 <= default 0 (fst (stake (c_d c) s))). rewrite <- stake_power. by apply (G_power g Hg). }
    assert (K : forall o b f, post c c' p o b f -> (forall s, 0 <= pw (o s) <= pw (ob c p s)) -> (forall s, 0 <= power c' s <= power c s) /\ others_same c c' p).
    { intros o b f HP Ho. split; [|apply (po_others _ _ _ _ _ _ HP)]. intros s. specialize (Ho s). rewrite <- (po_ob _ _ _ _ _ _ HP) in Ho. rewrite !stake_power. exact Ho. }
    pose proof (timeout_cases g Hg c p i c' HG HA E) as H. cbv zeta in H.
    destruct H as [(_ & b' & HP & _)|[(_ & -> & _)|[(_ & _ & _ & _ & n & _ & HP)|[(_ & _ & _ & n & _ & HP)|[(_ & _ & _ & _ & n & v & _ & H)|(c1 & Ht & ->)]]]]].
    - eapply K; [exact HP|]. intros s. specialize (Hnn s). lia.
    - split; [|done]. intros s. pose proof (G_power g Hg c s HG). lia.
    - eapply K; [exact HP|]. intros s. by apply low_lose.
    - eapply K; [exact HP|]. intros s. by apply low_late.
    - assert (HL : forall s, 0 <= pw (lose c p s (ob c p s)) <= pw (ob c p s)) by (intros s; by apply low_lose).
      destruct H as [(_ & _ & HP)|[(_ & _ & HP)|(_ & _ & _ & HP)]]; (eapply K; [exact HP|]); intros s; specialize (HL s); cbv beta zeta.
      + pose proof (low_valid c p s HG _ (proj1 HL)) as H1. pose proof (low_late c (bp_next (get_prop c p)) s HG _ (proj1 H1)). lia.
      + pose proof (low_invalid c p s HG _ (proj1 HL)) as H1. pose proof (low_late c (bp_next (get_prop c p)) s HG _ (proj1 H1)). lia.
      + pose proof (low_late c (bp_next (get_prop c p)) s HG _ (proj1 HL)). lia.
    - by destruct (tally_safe g Hg c p HG HA Hpl c1).
  Qed.
  (** The votes of one turn. *)
  Lemma stored_is c p : bp_storage (get_prop c p) <> 0%N -> is_Some (c_prop c !! p).
  Proof. intros H. apply stored_some in H. destruct (c_prop c !! p); [by eexists|done]. Qed.
  Lemma votes_turn c p i e : R g c -> EvFinalized e ∈ ev_timeout_pool c p i -> ef_status e <> Stopped ->
    ef_pool e = p /\ (pool_power c p < two64 -> tells_votes c (power c) e).
  Proof.
    intros (HG & HA & HU) Hx Hs. destruct (src_turn c p i e Hx) as [Hp [H|[[H1 H]|[H1 H2]]]]; [done| |]; (split; [done|]); intros HT.
    - apply (judged_counts c p None e (distribution (handle_non_voters c p) p) HG); [|done|exact H|done]. eexists. split; [apply counted_same; [done..|by apply stored_is]|done].
    - by apply (plain_counts c p).
  Qed.
  Lemma same_members c c' p : (forall s, get_val (c_s c') p s = get_val (c_s c) p s) -> (forall s, in_pool c' p s = in_pool c p s) /\ members c' p ≡ₚ members c p.
  Proof.
    intros H. assert (Hi : forall s, in_pool c' p s = in_pool c p s) by (intros s; unfold in_pool; by rewrite H). split; [done|].
    apply NoDup_Permutation; [apply members_NoDup..|]. intros s. by rewrite !members_in, Hi.
  Qed.
  Lemma tells_frame c c' w e : get_prop c' (ef_pool e) = get_prop c (ef_pool e) -> (forall s, get_val (c_s c') (ef_pool e) s = get_val (c_s c) (ef_pool e) s) ->
    tells_votes c' w e -> tells_votes c w e.
  Proof.
    intros Hb Hv. destruct (same_members c c' _ Hv) as [Hi Hm]. unfold tells_votes. rewrite Hb.
    assert (Hf : forall l, List.filter (in_pool c' (ef_pool e)) l = List.filter (in_pool c (ef_pool e)) l). { intros l. apply List.filter_ext. intros s. apply Hi. }
    rewrite !Hf, (sum_perm _ _ _ Hm). done.
  Qed.
  Lemma power_le c c' p : (forall s, get_val (c_s c') p s = get_val (c_s c) p s) -> (forall s, power c' s <= power c s) -> pool_power c' p <= pool_power c p.
  Proof.
    intros Hv Hp. destruct (same_members c c' _ Hv) as [_ Hm]. unfold pool_power. rewrite (sum_perm _ _ _ Hm). clear Hm. induction (members c p) as [|x l IH]; [done|]. rewrite !sum_cons. pose proof (Hp x). lia.
  Qed.
  Lemma turns_pools l c e : EvFinalized e ∈ ev_timeouts c l -> ef_pool e ∈ l.*1.
  Proof.
    revert c. induction l as [|[p i] l IH]; intros c; cbn [ev_timeouts]; [by intros ?%elem_of_nil|]. rewrite elem_of_app. intros [Hx|Hx].
    - destruct (src_turn c p i e Hx) as [-> _]. left.
    - right. destruct (timeout_pool c p i); [by eapply IH|by apply elem_of_nil in Hx].
  Qed.
  Lemma votes_turns l c c' e : R g c -> NoDup l.*1 -> (forall p i, (p, i) ∈ l -> is_Some (get_pool c p)) -> timeouts c l = Some c' ->
    EvFinalized e ∈ ev_timeouts c l -> ef_status e <> Stopped -> pool_power c (ef_pool e) < two64 ->
    ef_pool e ∈ l.*1 /\ exists w, (forall s, 0 <= w s <= power c s) /\ tells_votes c w e.
  Proof.
    revert c. induction l as [|[p i] l IH]; intros c HR Hnd Hl; cbn [timeouts ev_timeouts]; [by intros _ ?%elem_of_nil|]. destruct (timeout_pool c p i) as [c1|] eqn:E1; [|done]. intros E2 Hx Hs HT.
    pose proof (Hl p i (elem_of_list_here _ _)) as Hpl. destruct (turn_frame g Hg c p i c1 HR Hpl E1) as (HR1 & Hp1 & Eb & Et & Hq). cbn in Hnd. apply NoDup_cons in Hnd as [Hn Hnd].
    destruct (turn_power c p i c1 HR Hpl E1) as [Hw Ho].
    apply elem_of_app in Hx as [Hx|Hx].
    - destruct (votes_turn c p i e HR Hx Hs) as [He Ht]. rewrite He in HT. split; [rewrite He; left|]. exists (power c). split; [|by apply Ht]. intros s. pose proof (G_power g Hg c s (proj1 HR)). lia.
    - assert (Hl1 : forall q j, (q, j) ∈ l -> is_Some (get_pool c1 q)). { intros q j Hin. apply Hp1, (Hl q j). by right. }
      destruct (decide (ef_pool e = p)) as [He|He].
      + exfalso. apply turns_pools in Hx. by rewrite He in Hx.
      + assert (Hv : forall s, get_val (c_s c1) (ef_pool e) s = get_val (c_s c) (ef_pool e) s) by (intros s; by apply Ho).
        assert (HT1 : pool_power c1 (ef_pool e) < two64). { pose proof (power_le c c1 (ef_pool e) Hv (fun s => proj2 (Hw s))). lia. }
        destruct (IH c1 HR1 Hnd Hl1 E2 Hx Hs HT1) as [Hin (w & Hww & Ht)]. split; [by right|]. exists w. split; [intros s; specialize (Hw s); specialize (Hww s); lia|].
        eapply tells_frame; [by apply Hq|exact Hv|exact Ht].
  Qed.
  Lemma votes_events ops o e : cops_ok (gstart g) ops -> let c := crun (gstart g) ops in
    EvFinalized e ∈ events c o -> ef_status e <> Stopped -> pool_power c (ef_pool e) < two64 ->
    exists w, (forall s, 0 <= w s <= power c s) /\ (o <> CEnd -> forall s, w s = power c s) /\ tells_votes c w e.
  Proof.
    intros Hok c Hx Hs HT. assert (HR : R g c) by (by apply R_run). clearbody c. pose proof HR as (HG & HA & HU). unfold events in Hx. destruct (cmsg c o) as [c'|] eqn:Hc; [|by apply elem_of_nil in Hx].
    assert (Hw : forall s, 0 <= power c s <= power c s) by (intros s; pose proof (G_power g Hg c s HG); lia).
    assert (D : Forall other (emitted c o) \/ (exists m, o = CSubmit m) \/ (exists p s v f, o = CSkip p s v f) \/ o = CEnd).
    { destruct o; try (right; by eauto 10); left; cbn [emitted]; try shape; try by repeat constructor.
      unfold ev_vote. apply Forall_app. split; [|by repeat constructor]. apply o_reset. }
    destruct D as [D|[(m & ->)|[(p & s & v & f & ->)| ->]]].
    - by destruct (not_other _ _ D Hx).
    - exists (power c). split; [done|]. split; [done|]. cbn [emitted cmsg] in *. destruct (src_submit c m c' e Hc Hx) as (Hp & H1 & H2).
      apply (judged_counts c (sb_pool m) (Some (sb_staker m)) e (distribution (handle_non_voters (reset_pts c (sb_pool m) (sb_staker m)) (sb_pool m)) (sb_pool m)) HG); [|done|exact H2|congruence]. eexists. split; [apply counted_took; [done..|by apply stored_is]|done].
    - exists (power c). split; [done|]. split; [done|]. cbn [emitted] in *. destruct (src_skip c p s e Hx) as (Hp & H2).
      apply (judged_counts c p (Some s) e (distribution (handle_non_voters (reset_pts c p s) p) p) HG); [|done|exact H2|congruence]. eexists. split; [apply counted_took; [done..|by eapply skip_prop]|done].
    - cbn [emitted cmsg] in *. injection Hc as <-. unfold ev_handle_timeout in *.
      pose proof (R_upgrades g c HR) as HR1. set (c1 := cw_pools c _) in *. destruct (timeouts c1 (pool_intervals c1)) as [c2|] eqn:Et; [|by apply elem_of_nil in Hx].
      assert (Hl : forall p i, (p, i) ∈ pool_intervals c1 -> is_Some (get_pool c1 p)). { intros p i H. apply pool_intervals_in in H as (pl & -> & _). by eexists. }
      destruct (votes_turns _ c1 c2 e HR1 (intervals_NoDup c1) Hl Et Hx Hs HT) as [_ (w & H1 & H2)]. exists w. done.
  Qed.
End votes.
