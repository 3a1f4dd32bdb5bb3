(** * What single events say (C76): concrete cases and counterexamples. *)
From Verif Require Import Base BaseFacts Delegation Stakers Funders Team RoundRobin Pool Bundles Chain ChainLift ChainExamples PoolExamples
  VoteClaims TallyClaims Events EventFollow EventCommission EventQueue EventMeaning EventVotes EventFacts EventContents EventExamples.

(** The first bundle is judged when the second one is submitted. *)
Definition upto : list cop := setup ++ first ++ take 5 second.
Lemma upto_ok : cops_ok g0 upto. Proof. apply cops_okb_ok. vm_cast_no_check (eq_refl true). Qed.
Definition again : cop := CSubmit (sub 1 11 52 10 20 30 70).
Definition counts (l : list event) : list (Z * Z * Z * Z * N * N) :=
  omap (fun x => match x with EvFinalized e => Some (ef_valid e, ef_invalid e, ef_abstain e, ef_total e, ef_uploader e, ef_next e) | _ => None end) l.
Definition slashes_in (l : list event) : list (N * N * Z * slash_type) := omap (fun x => match x with EvSlash p s a t => Some (p, s, a, t) | _ => None end) l.
Definition skipped : cop := CSkip 0 1 11 20.
(** 2 and 3 vote against the first bundle. *)
Definition rejected : list cop := setup ++ first ++ [CBegin 110 1000; CVote 0 2 12 51 Invalid; CVote 0 3 13 51 Invalid; CEnd; CBegin 200 1000].
Lemma rejected_ok : cops_ok g0 rejected. Proof. apply cops_okb_ok. vm_cast_no_check (eq_refl true). Qed.
(** An undelegation, and the time of unbonding is made longer, or shorter, before it is paid. *)
Definition asked_for (d : Z) : list cop := setup ++ [CBegin 30 0; CUndelegate 1 1 20; CParamsD AUTHORITY (mkDP d 100 5 (ONE / 10) (ONE / 5) (ONE / 50)); CEnd].
Definition longer : list cop := asked_for 500 ++ [CBegin 140 0; CEnd].
Definition shorter : list cop := asked_for 50 ++ [CBegin 90 0; CEnd].
Lemma longer_ok : cops_ok g0 longer. Proof. apply cops_okb_ok. vm_cast_no_check (eq_refl true). Qed.
Lemma shorter_ok : cops_ok g0 shorter. Proof. apply cops_okb_ok. vm_cast_no_check (eq_refl true). Qed.
Definition gen1 : gen := mkGen b0 0 dp0 50 60 (mkFP [mkW KYVE 0 10 1 ONE] 1) pp0 bp0 (ONE / 2).
Lemma gen1_genesis : genesis gen1.
Proof.
  split; [apply bank_nnb_ok; by vm_compute|]. split; [by vm_compute|]. split; [cbn; unfold two62; lia|]. split; [by vm_compute|].
  split; [apply u64b_ok; by vm_compute|]. split; [apply u64b_ok; by vm_compute|].
  split; [by apply FundersExamples.fparams_okb_ok; vm_compute|]. repeat split; by vm_compute.
Qed.
Definition poor : list cop := take 9 setup ++ [CFund 4 0 (coin KYVE 100) (coin KYVE 100); CEnd; CBegin 20 1000; CClaimRole 0 1 11; CEnd] ++ first ++ take 5 second.
Lemma poor_ok : cops_ok (gstart gen1) poor. Proof. apply cops_okb_ok. vm_cast_no_check (eq_refl true). Qed.
Definition kinds (l : list event) : list event := omap (fun x => match x with EvSkipped _ _ _ _ | EvOutOfFunds _ => Some x | _ => None end) l.
Definition last_funder : cop := CDefund 4 0 (coin KYVE 1000).
Definition two_coins : coins := <[9%N := 7]> (coin KYVE 100).
Definition too_late : cop := CSchedule AUTHORITY 7 2 3 5 10.
Definition half_way : cop := CTeam (TClawback BCP 0 (5 + VESTING / 2)).

(** ** Cases *)
Lemma votes_case : counts (events (crun g0 upto) again) = [(2000, 1000, 0, 3000, 1%N, 2%N)] /\ slashes_in (events (crun g0 upto) again) = [(0%N, 3%N, 100, SlashVote)] /\
  (bp_valid (get_prop (crun g0 upto) 0), bp_invalid (get_prop (crun g0 upto) 0), map (power (crun g0 upto)) [1; 2; 3]%N) = ([1%N; 2%N], [3%N], [1000; 1000; 1000]) /\
  next_of (crun g0 (upto ++ [again])) 0 = 2%N /\ kinds (events (crun g0 upto) skipped) = [EvSkipped 0 1 1 2].
Proof. split_and!; vm_compute; reflexivity. Qed.
Lemma rejected_case : counts (events (crun g0 rejected) again) = [(1000, 2000, 0, 3000, 1%N, 0%N)] /\ slashes_in (events (crun g0 rejected) again) = [(0%N, 1%N, 200, SlashUpload)].
Proof. split; vm_compute; reflexivity. Qed.
Definition waiting : list cop := setup ++ [CBegin 30 0; CUndelegate 1 1 20; CEnd; CBegin 40 0; CUndelegate 2 2 50; CEnd].
Lemma waiting_ok : cops_ok g0 (waiting ++ [CBegin 131 0]). Proof. apply cops_okb_ok. vm_cast_no_check (eq_refl true). Qed.
Lemma waiting_case : fst (fold_left see_unbond (elog g0 waiting) ([], true)) = [(1%N, 1%N, 20, 130); (2%N, 2%N, 50, 140)] /\
  fold_left see_unbond (elog g0 (waiting ++ [CBegin 131 0])) ([], true) = ([(2%N, 2%N, 50, 140)], true) /\
  open_at (crun g0 (waiting ++ [CBegin 131 0])) = [mkU 2 2 50 40].
Proof. split_and!; vm_compute; reflexivity. Qed.
Lemma poor_case : kinds (events (crun (gstart gen1) poor) again) = [EvOutOfFunds 0] /\ payers (crun (gstart gen1) poor) 0 = [4%N] /\ payers (crun (gstart gen1) (poor ++ [again])) 0 = [].
Proof. split_and!; vm_compute; reflexivity. Qed.
Lemma plain_case : events (crun g0 setup) too_late = [EvScheduled 7 2 3 5 10 [0%N]] /\ events (crun g0 story) half_way = [EvTeamClawback BCP 0 (5 + VESTING / 2) 500] /\
  events (crun g0 (take 12 setup)) (CClaimRole 0 1 11) = [EvClaimedRole 0 0 1] /\ events (crun g0 setup) (CCreateFunder 5) = [EvCreateFunder 5].
Proof. split_and!; vm_compute; reflexivity. Qed.

(** ** Counterexamples *)
Lemma in_b (P : event -> bool) (l : list event) : existsb P l = true -> exists x, x ∈ l /\ P x = true.
Proof. intros H. apply existsb_exists in H as (x & H1 & H2). exists x. split; [by apply elem_of_list_In|done]. Qed.
Definition is_start (x : event) : bool := match x with EvStartUndelegation 1 1 20 130 => true | _ => false end.
Definition is_paid (x : event) : bool := match x with EvUndelegate 1 1 20 => true | _ => false end.
(** The date of the event has passed and nothing is paid; or it is paid before the date. *)
Lemma dates_refute : exists g ops ops' d s a t, genesis g /\ cops_ok (gstart g) ops /\ cops_ok (gstart g) ops' /\
  EvStartUndelegation d s a t ∈ elog (gstart g) ops /\ t < c_time (crun (gstart g) ops) /\ map (fun e => (u_delegator e, u_staker e, u_amount e)) (open_at (crun (gstart g) ops)) = [(d, s, a)] /\
  EvStartUndelegation d s a t ∈ elog (gstart g) ops' /\ c_time (crun (gstart g) ops') < t /\ EvUndelegate d s a ∈ elog (gstart g) ops'.
Proof.
  exists gen0, longer, shorter, 1%N, 1%N, 20, 130. split; [exact gen0_genesis|]. split; [exact longer_ok|]. split; [exact shorter_ok|]. rewrite gen0_start.
  assert (Hs : forall l, existsb is_start l = true -> EvStartUndelegation 1 1 20 130 ∈ l).
  { intros l H. apply in_b in H as (x & Hx & H). destruct x; try discriminate H. unfold is_start in H. repeat match type of H with match ?y with _ => _ end = _ => destruct y; try discriminate H end. exact Hx. }
  assert (Hp : forall l, existsb is_paid l = true -> EvUndelegate 1 1 20 ∈ l).
  { intros l H. apply in_b in H as (x & Hx & H). destruct x; try discriminate H. unfold is_paid in H. repeat match type of H with match ?y with _ => _ end = _ => destruct y; try discriminate H end. exact Hx. }
  split; [apply Hs; vm_compute; reflexivity|]. split; [vm_compute; reflexivity|]. split; [vm_compute; reflexivity|]. split; [apply Hs; vm_compute; reflexivity|]. split; [vm_compute; reflexivity|]. apply Hp. vm_compute. reflexivity.
Qed.
(** The event of a bundle that is not valid names nobody as the next uploader, though somebody is. *)
Definition no_next (x : event) : bool := match x with EvFinalized e => (ef_next e =? 0)%N && (ef_pool e =? 0)%N && match ef_status e with Judged VInvalid => true | _ => false end | _ => false end.
Lemma no_next_is x : no_next x = true -> exists e, x = EvFinalized e /\ ef_next e = 0%N /\ ef_pool e = 0%N /\ ef_status e = Judged VInvalid.
Proof.
  destruct x; try discriminate. cbn. rewrite !andb_true_iff, !N.eqb_eq. intros [[H1 H2] H3]. exists e. split; [done|]. split; [done|]. split; [done|].
  destruct (ef_status e) as [[]|]; done.
Qed.
Lemma next_refutes : exists g ops o e, genesis g /\ cops_ok (gstart g) ops /\ let c := crun (gstart g) ops in
  EvFinalized e ∈ events c o /\ ef_status e = Judged VInvalid /\ ef_next e = 0%N /\ next_of c (ef_pool e) = 1%N /\ next_of (cstep c o) (ef_pool e) = 1%N.
Proof.
  assert (H : existsb no_next (events (crun g0 rejected) again) = true) by (vm_compute; reflexivity). assert (H1 : next_of (crun g0 rejected) 0 = 1%N) by (vm_compute; reflexivity).
  assert (H2 : next_of (cstep (crun g0 rejected) again) 0 = 1%N) by (vm_compute; reflexivity).
  apply in_b in H as (x & Hx & H). apply no_next_is in H as (e & -> & E1 & E2 & E3).
  refine (ex_intro _ gen0 (ex_intro _ rejected (ex_intro _ again (ex_intro _ e (conj gen0_genesis (conj rejected_ok _)))))).
  rewrite gen0_start. rewrite E2. cbv zeta. revert H1 H2 Hx. generalize (crun g0 rejected). intros c H1 H2 Hx. done.
Qed.
(** The last funder takes all of it back: the pool has no funds, and no event says so. *)
Lemma rest_refutes : exists g ops o p, genesis g /\ cops_ok (gstart g) ops /\ let c := crun (gstart g) ops in
  payers c p <> [] /\ payers (cstep c o) p = [] /\ EvOutOfFunds p ∉ events c o.
Proof.
  refine (ex_intro _ gen0 (ex_intro _ setup (ex_intro _ last_funder (ex_intro _ 0%N (conj gen0_genesis (conj _ _)))))); [apply cops_okb_ok; vm_cast_no_check (eq_refl true)|].
  rewrite gen0_start. cbv zeta.
  assert (H1 : payers (crun g0 setup) 0 = [4%N]) by (vm_compute; reflexivity). assert (H2 : payers (cstep (crun g0 setup) last_funder) 0 = []) by (vm_compute; reflexivity).
  assert (H3 : existsb (fun x => match x with EvOutOfFunds _ => true | _ => false end) (events (crun g0 setup) last_funder) = false) by (vm_compute; reflexivity).
  revert H1 H2 H3. generalize (crun g0 setup). intros c H1 H2 H3. split; [by rewrite H1|]. split; [done|]. intros Hin.
  assert (existsb (fun x => match x with EvOutOfFunds _ => true | _ => false end) (events c last_funder) = true); [|congruence].
  apply existsb_exists. exists (EvOutOfFunds 0). split; [by apply elem_of_list_In|done].
Qed.
(** An upgrade that is scheduled for a time that has passed: the event has this time, the plan the time of the block. *)
Lemma plan_refutes : exists g ops o r v b t d l p pl, genesis g /\ cops_ok (gstart g) ops /\ let c := crun (gstart g) ops in
  EvScheduled r v b t d l ∈ events c o /\ p ∈ l /\ get_pool (cstep c o) p = Some pl /\ pn_at (pl_plan pl) <> t.
Proof.
  assert (H1 : events (crun g0 setup) too_late = [EvScheduled 7 2 3 5 10 [0%N]]) by (vm_compute; reflexivity).
  assert (H2 : (fun pl => pn_at (pl_plan pl)) <$> get_pool (cstep (crun g0 setup) too_late) 0 = Some 20) by (vm_compute; reflexivity).
  destruct (get_pool (cstep (crun g0 setup) too_late) 0) as [pl|] eqn:Ep; [|discriminate H2]. exists gen0, setup, too_late, 7%N, 2%N, 3%N, 5, 10, [0%N], 0%N, pl.
  split; [exact gen0_genesis|]. split; [apply cops_okb_ok; vm_cast_no_check (eq_refl true)|]. rewrite gen0_start. cbv zeta. revert H1 Ep. generalize (crun g0 setup). intros c H1 Ep.
  split; [rewrite H1; by left|]. split; [by left|]. split; [done|]. injection H2 as H2. rewrite H2. done.
Qed.
(** A funder names an amount per bundle in a coin they do not fund with: it is in the event, but not kept. *)
Definition named (x : event) : bool := match x with EvFund 0 4 _ y => match y !! 9%N with Some 7 => true | _ => false end | _ => false end.
Lemma named_is x : named x = true -> exists a y, x = EvFund 0 4 a y /\ y !! 9%N = Some 7.
Proof.
  destruct x; try discriminate. unfold named. destruct p; [|discriminate]. intros H.
  destruct (decide (a = 4%N)) as [->|Hn]; [|exfalso; repeat match type of H with match ?y with _ => _ end = _ => destruct y; try discriminate H end; done].
  exists amounts, apb. split; [done|]. destruct (apb !! 9%N) as [z|]; [|discriminate]. destruct (decide (z = 7)) as [->|Hn]; [done|]. exfalso. repeat match type of H with match ?y with _ => _ end = _ => destruct y; try discriminate H end; done.
Qed.
Definition extra : cop := CFund 4 0 (coin KYVE 5) two_coins.
Lemma fund_refutes : exists g ops o p a x y d n f, genesis g /\ cops_ok (gstart g) ops /\ let c := crun (gstart g) ops in
  EvFund p a x y ∈ events c o /\ y !! d = Some n /\ 0 < n /\ fs_fundings (c_f (cstep c o)) !! (a, p) = Some f /\ amt (fd_apb f) d = 0.
Proof.
  assert (H1 : existsb named (events (crun g0 setup) extra) = true) by (vm_compute; reflexivity).
  assert (H2 : (fun f => amt (fd_apb f) 9) <$> fs_fundings (c_f (cstep (crun g0 setup) extra)) !! (4, 0)%N = Some 0) by (vm_compute; reflexivity).
  apply in_b in H1 as (z & Hz & H1). apply named_is in H1 as (x & y & -> & Hy). destruct (fs_fundings _ !! _) as [f|] eqn:Ef in H2; [|discriminate H2].
  exists gen0, setup, extra, 0%N, 4%N, x, y, 9%N, 7, f. split; [exact gen0_genesis|]. split; [apply cops_okb_ok; vm_cast_no_check (eq_refl true)|]. rewrite gen0_start. cbv zeta.
  revert Hz Ef. generalize (crun g0 setup). intros c Hz Ef. split; [done|]. split; [done|]. split; [done|]. split; [done|]. by injection H2.
Qed.
