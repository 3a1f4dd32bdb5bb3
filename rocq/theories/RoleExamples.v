(** * The uploader role: concrete cases and counterexamples (C68). *)
From Verif Require Import Base BaseFacts Delegation Stakers StakersInv Funders Team RoundRobin Pool Bundles Chain ChainFrame ChainLift PoolClaims TallyFacts StepCases TallyClaims TallyEffects TallyProps
  ChainExamples PoolExamples VoteExamples RoleClaims.

Lemma foremost_at c p a w l : pool_powers c p = (a, w) :: l -> 0 < w -> Forall (fun x => (a <= fst x)%N) l -> foremost c p a.
Proof.
  intros E Hw Hl. assert (H : forall s, eligible c p s <-> exists x, (s, x) ∈ pool_powers c p /\ 0 < x).
  { intros s. rewrite eligible_avail. apply avail_in. }
  split; [apply H; exists w; rewrite E; split; [by left|done]|]. intros s Hs. apply H in Hs as (x & Hx & _). rewrite E in Hx.
  apply elem_of_cons in Hx as [[= -> _]|Hx]; [done|]. rewrite Forall_forall in Hl. exact (Hl _ Hx).
Qed.
Lemma eligible_in c p l s w : pool_powers c p = l -> (s, w) ∈ l -> 0 < w -> eligible c p s.
Proof. intros <- H Hw. apply eligible_avail, avail_in. eauto. Qed.
(** The message, the role after it, the bundles finalized and the members with their stakes. *)
Definition outcome (c : chain) (o : cop) : option (N * N * list (N * Z)) :=
  (fun c' => (role c' 0, finalized c' 0, pool_powers c' 0)) <$> cmsg c o.
Lemma outcome_inv c o n k l : outcome c o = Some (n, k, l) -> exists c', cmsg c o = Some c' /\ role c' 0 = n /\ finalized c' 0 = k /\ pool_powers c' 0 = l.
Proof. unfold outcome. destruct (cmsg c o) as [c'|]; [|done]. intros [= <- <- <-]. by exists c'. Qed.
Lemma three_in (x y z : N * Z) : x ∈ [x; y; z] /\ y ∈ [x; y; z] /\ z ∈ [x; y; z]. Proof. set_solver. Qed.

(** ** A finalized bundle: 1 and 2 voted for it, the role goes to 2 *)
Definition next1 : submit := sub 1 11 52 10 20 30 70.
Lemma silent3_powers : pool_powers (after silent3) 0 = [(1%N, 1000); (2%N, 1000); (3%N, 1000)]. Proof. by vm_compute. Qed.
Lemma silent3_votes : bp_valid (get_prop (after silent3) 0) = [1; 2]%N. Proof. by vm_compute. Qed.
Lemma silent3_fin : finalized (after silent3) 0 = 0%N. Proof. by vm_compute. Qed.
Lemma silent3_outcome : outcome (after silent3) (CSubmit next1) = Some (2%N, 1%N, [(1%N, 1000); (2%N, 1000); (3%N, 1000)]). Proof. by vm_compute. Qed.
Lemma front c p l : pool_powers c p = (1%N, 1000) :: l -> Forall (fun x => (1 <= fst x)%N) l -> foremost c p 1.
Proof. intros H1 H2. by eapply foremost_at. Qed.
Lemma submit_ex : exists c', cmsg (after silent3) (CSubmit next1) = Some c' /\ finalized c' 0 <> finalized (after silent3) 0 /\ foremost (after silent3) 0 1 /\
  1%N ∈ bp_valid (get_prop (after silent3) 0) /\ role c' 0 = 2%N.
Proof.
  destruct (outcome_inv _ _ _ _ _ silent3_outcome) as (c' & H1 & H2 & H3 & _). exists c'. split; [done|]. rewrite H3, silent3_fin. split; [done|].
  split; [eapply front; [exact silent3_powers|repeat constructor; done]|]. rewrite silent3_votes. split; [by left|done].
Qed.
(** The same bundle at the end of a block, long after the deadline. *)
Definition overdue3 : list cop := setup ++ first ++ [CBegin 110 0; CVote 0 2 12 51 Valid; CEnd; CBegin 800 0].
Lemma overdue3_ok : cops_ok g0 overdue3. Proof. apply cops_okb_ok. vm_cast_no_check (eq_refl true). Qed.
Lemma overdue3_case : outcome (after overdue3) CEnd = Some (2%N, 1%N, [(1%N, 1000); (2%N, 1000); (3%N, 1000)]) /\ c_halt (after (overdue3 ++ [CEnd])) = false /\
  role (after overdue3) 0 = 1%N /\ finalized (after overdue3) 0 = 0%N /\ bp_valid (get_prop (after overdue3) 0) = [1; 2]%N.
Proof. repeat (split; [by vm_compute|]). by vm_compute. Qed.
Lemma skip_case : outcome (after late1) (CSkip 0 1 11 0) = Some (2%N, 0%N, [(1%N, 1000); (2%N, 1000); (3%N, 1000)]). Proof. by vm_compute. Qed.
Lemma skip_ex : exists c', cmsg (after late1) (CSkip 0 1 11 0) = Some c' /\ foremost c' 0 1 /\ role c' 0 = 2%N.
Proof.
  destruct (outcome_inv _ _ _ _ _ skip_case) as (c' & H1 & H2 & _ & H4). exists c'. split; [done|]. split; [|done].
  eapply front; [exact H4|repeat constructor; done].
Qed.

(** ** The staker who skips is chosen again *)
Definition duel : list cop :=
  [ CBegin 10 0; CCreatePool AUTHORITY true ca0;
    CCreateStaker 1 (ONE / 10) 1900; CCreateStaker 2 (ONE / 10) 1000; CCreateStaker 3 (ONE / 10) 1000; CJoin 1 0 11 100;
    CCreateFunder 4; CFund 4 0 (coin KYVE 1000) (coin KYVE 100); CEnd;
    CBegin 20 0; CClaimRole 0 1 11; CEnd; CBegin 100 0; CSkip 0 1 11 0; CJoin 2 0 12 100; CJoin 3 0 13 100; CEnd ].
Definition duel2 : list cop := duel ++ [CBegin 200 0].
Lemma duel2_ok : cops_ok g0 duel2. Proof. apply cops_okb_ok. vm_cast_no_check (eq_refl true). Qed.
Lemma duel2_outcome : outcome (after duel2) (CSkip 0 1 11 0) = Some (1%N, 0%N, [(1%N, 1900); (2%N, 1000); (3%N, 1000)]). Proof. by vm_compute. Qed.
Lemma skip_refutes : exists g ops p s v from c', genesis g /\ cops_ok (gstart g) ops /\ cmsg (crun (gstart g) ops) (CSkip p s v from) = Some c' /\
  role c' p = s /\ exists a, a <> s /\ eligible c' p a.
Proof.
  destruct (outcome_inv _ _ _ _ _ duel2_outcome) as (c' & H1 & H2 & _ & H4).
  assert (He : eligible c' 0 2) by (eapply eligible_in; [exact H4|apply three_in|done]).
  refine (ex_intro _ gen0 (ex_intro _ duel2 (ex_intro _ 0%N (ex_intro _ 1%N (ex_intro _ 11%N (ex_intro _ 0 (ex_intro _ c' (conj gen0_genesis (conj duel2_ok (conj H1 (conj H2 (ex_intro _ 2%N (conj _ He))))))))))))). done.
Qed.

(** ** After a finalized bundle the role goes to a member who did not vote for it *)
Definition ua_min (m : Z) : update_args := mkUA None None None None (Some m) None None None.
Definition outsider : list cop := duel ++ [CBegin 110 0; CUpdatePool AUTHORITY 0 (ua_min 9000); CEnd; CBegin 120 0; CUpdatePool AUTHORITY 0 (ua_min 100); CClaimRole 0 2 12; CEnd;
  CBegin 200 0; CSubmit (sub 2 12 51 10 0 20 60); CEnd; CBegin 210 0; CVote 0 3 13 51 Valid; CEnd; CBegin 300 0].
Lemma outsider_ok : cops_ok g0 outsider. Proof. apply cops_okb_ok. vm_cast_no_check (eq_refl true). Qed.
Lemma outsider_outcome : outcome (after outsider) (CSubmit next1) = Some (1%N, 1%N, [(1%N, 1900); (2%N, 1000); (3%N, 1000)]). Proof. by vm_compute. Qed.
Lemma outsider_votes : bp_valid (get_prop (after outsider) 0) = [2; 3]%N. Proof. by vm_compute. Qed.
Lemma outsider_fin : finalized (after outsider) 0 = 0%N. Proof. by vm_compute. Qed.
Lemma not_23 : (1%N ∉ [2; 3]%N) /\ (2%N ∈ [2; 3]%N). Proof. set_solver. Qed.
Lemma voter_refutes : exists g ops m c', genesis g /\ cops_ok (gstart g) ops /\ let c := crun (gstart g) ops in let p := sb_pool m in
  cmsg c (CSubmit m) = Some c' /\ finalized c' p <> finalized c p /\ (exists a, a ∈ bp_valid (get_prop c p) /\ eligible c' p a) /\
  role c' p ∉ bp_valid (get_prop c p).
Proof.
  destruct (outcome_inv _ _ _ _ _ outsider_outcome) as (c' & H1 & H2 & H3 & H4).
  assert (He : eligible c' 0 2) by (eapply eligible_in; [exact H4|apply three_in|done]).
  assert (Hf : finalized c' 0 <> finalized (after outsider) 0) by (by rewrite H3, outsider_fin).
  assert (Ha : 2%N ∈ bp_valid (get_prop (after outsider) 0)) by (rewrite outsider_votes; apply not_23).
  assert (Hr : role c' 0 ∉ bp_valid (get_prop (after outsider) 0)) by (rewrite outsider_votes, H2; apply not_23).
  exact (ex_intro _ gen0 (ex_intro _ outsider (ex_intro _ next1 (ex_intro _ c' (conj gen0_genesis (conj outsider_ok (conj H1 (conj Hf (conj (ex_intro _ 2%N (conj Ha He)) Hr))))))))).
Qed.

(** ** After an invalid bundle the role stays with the sender, who was just removed *)
Definition bad1 : list cop := setup ++ first ++ [CBegin 110 0; CVote 0 2 12 51 Invalid; CVote 0 3 13 51 Invalid; CEnd; CBegin 200 0].
Lemma bad1_ok : cops_ok g0 bad1. Proof. apply cops_okb_ok. vm_cast_no_check (eq_refl true). Qed.
Lemma bad1_outcome : outcome (after bad1) (CSubmit next1) = Some (1%N, 0%N, [(2%N, 1000); (3%N, 1000)]). Proof. by vm_compute. Qed.
Lemma bad1_out : (fun c' => points c' 0 1) <$> cmsg (after bad1) (CSubmit next1) = Some None. Proof. by vm_compute. Qed.
Lemma two_in (x y : N * Z) : x ∈ [x; y]. Proof. set_solver. Qed.
Lemma invalid_refutes : exists g ops m c', genesis g /\ cops_ok (gstart g) ops /\ let p := sb_pool m in
  cmsg (crun (gstart g) ops) (CSubmit m) = Some c' /\ points c' p (role c' p) = None /\ exists a, eligible c' p a.
Proof.
  destruct (outcome_inv _ _ _ _ _ bad1_outcome) as (c' & H1 & H2 & _ & H4).
  assert (He : eligible c' 0 2) by (eapply eligible_in; [exact H4|apply two_in|done]).
  assert (Hp : points c' 0 (role c' 0) = None) by (rewrite H2; pose proof bad1_out as H; rewrite H1 in H; by injection H).
  exact (ex_intro _ gen0 (ex_intro _ bad1 (ex_intro _ next1 (ex_intro _ c' (conj gen0_genesis (conj bad1_ok (conj H1 (conj Hp (ex_intro _ 2%N He))))))))).
Qed.

(** ** A member without any stake claims the free role *)
Definition idler : list cop :=
  [ CBegin 10 0; CCreatePool AUTHORITY true ca0;
    CCreateStaker 1 (ONE / 10) 1000; CCreateStaker 2 (ONE / 10) 1000; CCreateStaker 5 (ONE / 10) 0;
    CJoin 1 0 11 100; CJoin 2 0 12 100; CJoin 5 0 15 0;
    CCreateFunder 4; CFund 4 0 (coin KYVE 1000) (coin KYVE 100); CEnd; CBegin 20 0].
Lemma idler_ok : cops_ok g0 idler. Proof. apply cops_okb_ok. vm_cast_no_check (eq_refl true). Qed.
Lemma idler_outcome : outcome (after idler) (CClaimRole 0 5 15) = Some (5%N, 0%N, [(1%N, 1000); (2%N, 1000); (5%N, 0)]). Proof. by vm_compute. Qed.
Lemma not_eligible c p l s w : pool_powers c p = l -> (s, w) ∈ l -> w <= 0 -> ~ eligible c p s.
Proof.
  intros <- H Hw. rewrite eligible_power. intros [_ Hp]. unfold pool_powers in H. apply elem_of_list_fmap in H as (y & [= <- ->] & _). lia.
Qed.
Lemma claim_refutes : exists g ops p s v c', genesis g /\ cops_ok (gstart g) ops /\ cmsg (crun (gstart g) ops) (CClaimRole p s v) = Some c' /\
  ~ eligible c' p (role c' p) /\ exists a, eligible c' p a.
Proof.
  destruct (outcome_inv _ _ _ _ _ idler_outcome) as (c' & H1 & H2 & _ & H4).
  assert (He : eligible c' 0 2) by (eapply eligible_in; [exact H4|apply three_in|done]).
  assert (Hn : ~ eligible c' 0 (role c' 0)) by (rewrite H2; eapply not_eligible; [exact H4|apply three_in|done]).
  exact (ex_intro _ gen0 (ex_intro _ idler (ex_intro _ 0%N (ex_intro _ 5%N (ex_intro _ 15%N (ex_intro _ c' (conj gen0_genesis (conj idler_ok (conj H1 (conj Hn (ex_intro _ 2%N He))))))))))).
Qed.
