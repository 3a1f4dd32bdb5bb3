(** * C78: concrete histories. *)
From Verif Require Import Base BaseFacts Delegation Stakers Funders FundersInv Team RoundRobin Pool Bundles Chain ChainLift ChainExamples PoolExamples Gifts GiftsClaims.

Definition wop_okb (c : chain) (o : wop) : bool :=
  match o with
  | WOp o => cop_okb c o
  | WJoin s p v to a => cop_okb c (CJoin s p v a) && match to with User u => (u =? v)%N | _ => true end
  end.
Fixpoint wops_okb (c : chain) (l : list wop) : bool :=
  match l with [] => true | o :: t => wop_okb c o && wops_okb (wstep c o) t end.
Lemma wops_okb_ok l : forall c, wops_okb c l = true -> wops_ok c l.
Proof.
  induction l as [|o t IH]; intros c H; [done|]. cbn [wops_okb] in H. apply andb_true_iff in H as [H1 H2]. split; [|by apply IH].
  destruct o as [o|s p v to a]; [by apply cop_okb_ok|]. cbn [wop_okb] in H1. apply andb_true_iff in H1 as [H1 H3].
  split; [by apply cop_okb_ok|]. destruct to; try done. by apply N.eqb_eq.
Qed.
(** Two stakers have joined a pool and 4 funds it; then 3 joins with the address of the funders
    module as the valaddress. *)
Definition running : list wop := map WOp
  [ CBegin 10 0; CCreatePool AUTHORITY true ca0;
    CCreateStaker 1 (ONE / 10) 1000; CCreateStaker 2 (ONE / 10) 1000; CCreateStaker 3 (ONE / 10) 1000;
    CJoin 1 0 11 100; CJoin 2 0 12 100; CCreateFunder 4; CFund 4 0 (coin KYVE 1000) (coin KYVE 100); CEnd; CBegin 20 1000 ].
Definition to_funders : wop := WJoin 3 0 13 MFunders 700.
Definition to_pool : wop := WJoin 3 0 13 MPool 700.
(** The funder takes everything back and 3 leaves the pool. *)
Definition after_gift : list wop := map WOp [ CDefund 4 0 (coin KYVE 1000); CLeave 3 0; CEnd; CBegin 2000 1000; CEnd ].
Definition story : list wop := running ++ to_funders :: after_gift.
Lemma story_ok : wops_ok g0 story. Proof. apply wops_okb_ok. vm_cast_no_check (eq_refl true). Qed.
Lemma pool_story_ok : wops_ok g0 (running ++ to_pool :: after_gift). Proof. apply wops_okb_ok. vm_cast_no_check (eq_refl true). Qed.
Definition kyve_at (l : list wop) (a : acct) : Z := bal (c_bank (wrun g0 l)) a KYVE.
Definition joined3 (l : list wop) : bool := match get_val (c_s (wrun g0 l)) 0 3 with Some _ => true | None => false end.
Lemma story_case :
  map (fun l => (kyve_at l (User 3), kyve_at l MFunders, sum_rem (c_f (wrun g0 l)) KYVE, joined3 l)) [running; running ++ [to_funders]; story]
  = [(999000, 1000, 1000, false); (998300, 1700, 1000, true); (998300, 700, 0, false)].
Proof. by vm_compute. Qed.
Lemma pool_story_case : map (fun l => kyve_at l MPool) [running; running ++ [to_pool]; running ++ to_pool :: after_gift] = [0; 700; 700].
Proof. by vm_compute. Qed.
Lemma passes_ok (x : option chain) : (if x then true else false) = true -> exists c', x = Some c'.
Proof. destruct x; [eauto|done]. Qed.
Lemma gift_passes : exists c', wmsg (wrun g0 running) to_funders = Some c'.
Proof. apply passes_ok. vm_cast_no_check (eq_refl true). Qed.
Lemma pool_gift_passes : exists c', wmsg (wrun g0 running) to_pool = Some c'.
Proof. apply passes_ok. vm_cast_no_check (eq_refl true). Qed.
Lemma unowned_running : unowned (wrun g0 running) KYVE = 0. Proof. by vm_compute. Qed.
Lemma gift_lost : exists g l, genesis g /\ wops_ok (gstart g) l /\ bal (g0_bank g) MFunders KYVE = 0 /\
  forall later, wops_ok (gstart g) (l ++ later) -> let c := wrun (gstart g) (l ++ later) in
    700 <= bal (c_bank c) MFunders KYVE - sum_rem (c_f c) KYVE.
Proof.
  exists gen0, (running ++ [to_funders]). split; [exact gen0_genesis|]. change (gstart gen0) with g0.
  split; [apply wops_okb_ok; vm_cast_no_check (eq_refl true)|]. split; [by vm_compute|].
  intros later Hok. rewrite <- app_assoc in *. cbn [app] in *.
  pose proof (gift_stuck gen0 running 3%N 0%N 13%N 700 later KYVE gen0_genesis) as H. change (gstart gen0) with g0 in H.
  specialize (H Hok gift_passes). cbv zeta in H. rewrite unowned_running in H. exact H.
Qed.
