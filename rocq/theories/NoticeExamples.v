(** * Waiting times changed while somebody waits: concrete cases. *)
From Verif Require Import Base BaseFacts ChainFrame ArchiveInv BankMoves PoolFrame PoolInv PayoutClaims Delegation F1Spec DelegationBank DelegationQueue DelegationProps DelegationRewards
  DelegationClaims DelegationClaims2 DelegationClaims3 Stakers Funders Team RoundRobin Pool Bundles Chain ChainLift ChainWide ParamsFrame ChainExamples PoolExamples EventExamples MeaningExamples TallyClaims RunsClaims NoticeClaims NoticeFrame NoticeLeave.

(** In [waiting] 1 undelegates 20 at time 30 and 2 undelegates 50 at time 40; the unbonding time is
    100. At time 50 governance changes it to 10000 or to 5, or changes other parameters. *)
Definition newp (w : Z) : dparams := mkDP w 100 5 (ONE / 10) (ONE / 5) (ONE / 50).
Definition change (w : Z) : list cop := [CBegin 50 0; CParamsD AUTHORITY (newp w); CEnd].
Definition other : list cop := [CBegin 50 0; CDelegate 5 1 7; CParamsS AUTHORITY 3 4; CEnd].
Definition first_req : uentry := mkU 1 1 20 30.
Lemma other_ok : cops_ok g0 (waiting ++ other) /\ cop_ok (crun g0 (waiting ++ other)) (CBegin 135 0).
Proof.
  assert (H : cops_ok g0 ((waiting ++ other) ++ [CBegin 135 0])) by (apply cops_okb_ok; vm_cast_no_check (eq_refl true)).
  apply cops_ok_app in H as [H1 H2]. split; [exact H1|]. exact (proj1 H2).
Qed.
Lemma other_leaves : Forall leaves_waiting other. Proof. repeat constructor. Qed.
Lemma other_case : pending (c_d (crun g0 (waiting ++ other))) = [first_req; mkU 2 2 50 40] /\ wait_now (crun g0 waiting) = 100 /\
  pending (c_d (cstep (crun g0 (waiting ++ other)) (CBegin 129 0))) = [first_req; mkU 2 2 50 40] /\
  pending (c_d (cstep (crun g0 (waiting ++ other)) (CBegin 135 0))) = [mkU 2 2 50 40].
Proof. split_and!; vm_compute; reflexivity. Qed.

Lemma longer_ok : cops_ok g0 (waiting ++ change 10000 ++ [CBegin 5000 0]). Proof. apply cops_okb_ok. vm_cast_no_check (eq_refl true). Qed.
Lemma longer_view : pending (c_d (crun g0 waiting)) = [first_req; mkU 2 2 50 40] /\ wait_now (crun g0 waiting) = 100 /\
  pending (c_d (crun g0 (waiting ++ change 10000 ++ [CBegin 5000 0]))) = [first_req; mkU 2 2 50 40].
Proof. split_and!; vm_compute; reflexivity. Qed.
Lemma longer_by (c c1 : chain) (l : list uentry) e : pending (c_d c) = e :: l -> wait_now c = 100 -> pending (c_d c1) = e :: l -> u_time e = 30 ->
  exists e, In e (pending (c_d c)) /\ In e (pending (c_d c1)) /\ u_time e + wait_now c < 5000.
Proof. intros H1 H2 H3 H4. exists e. rewrite H1, H2, H3, H4. split; [by left|]. split; [by left|lia]. Qed.
Lemma longer_refuted : exists g ops more t, genesis g /\ cops_ok (gstart g) (ops ++ more ++ [CBegin t 0]) /\
  let c := crun (gstart g) ops in let c1 := crun (gstart g) (ops ++ more ++ [CBegin t 0]) in
  exists e, In e (pending (c_d c)) /\ In e (pending (c_d c1)) /\ u_time e + wait_now c < t.
Proof.
  refine (ex_intro _ gen0 (ex_intro _ waiting (ex_intro _ (change 10000) (ex_intro _ 5000 (conj gen0_genesis _))))). rewrite gen0_start.
  split; [exact longer_ok|]. cbv zeta. destruct longer_view as (V1 & V2 & V3). exact (longer_by _ _ _ _ V1 V2 V3 eq_refl).
Qed.

Lemma sooner_ok : cops_ok g0 (waiting ++ change 5 ++ [CBegin 51 0]). Proof. apply cops_okb_ok. vm_cast_no_check (eq_refl true). Qed.
Lemma sooner_view : pending (c_d (crun g0 waiting)) = [first_req; mkU 2 2 50 40] /\ wait_now (crun g0 waiting) = 100 /\
  pending (c_d (crun g0 (waiting ++ change 5 ++ [CBegin 51 0]))) = [] /\
  bal (c_bank (crun g0 (waiting ++ change 5 ++ [CBegin 51 0]))) (User 1) KYVE = bal (c_bank (crun g0 waiting)) (User 1) KYVE + 20.
Proof. split_and!; vm_compute; reflexivity. Qed.
Lemma sooner_by (c c1 : chain) (l : list uentry) e : pending (c_d c) = e :: l -> wait_now c = 100 -> pending (c_d c1) = [] -> u_time e = 30 -> u_delegator e = 1%N -> u_amount e = 20 ->
  bal (c_bank c1) (User 1) KYVE = bal (c_bank c) (User 1) KYVE + 20 ->
  exists e, In e (pending (c_d c)) /\ ~ In e (pending (c_d c1)) /\ 51 < u_time e + wait_now c /\ bal (c_bank c1) (User (u_delegator e)) KYVE = bal (c_bank c) (User (u_delegator e)) KYVE + u_amount e.
Proof. intros H1 H2 H3 H4 H5 H6 H7. exists e. rewrite H1, H2, H3, H4, H5, H6. split; [by left|]. split; [by intros []|]. split; [lia|exact H7]. Qed.
Lemma sooner_refuted : exists g ops more t, genesis g /\ cops_ok (gstart g) (ops ++ more ++ [CBegin t 0]) /\
  let c := crun (gstart g) ops in let c1 := crun (gstart g) (ops ++ more ++ [CBegin t 0]) in
  exists e, In e (pending (c_d c)) /\ ~ In e (pending (c_d c1)) /\ t < u_time e + wait_now c /\
    bal (c_bank c1) (User (u_delegator e)) KYVE = bal (c_bank c) (User (u_delegator e)) KYVE + u_amount e.
Proof.
  refine (ex_intro _ gen0 (ex_intro _ waiting (ex_intro _ (change 5) (ex_intro _ 51 (conj gen0_genesis _))))). rewrite gen0_start.
  split; [exact sooner_ok|]. cbv zeta. destruct sooner_view as (V1 & V2 & V3 & V4). exact (sooner_by _ _ _ _ V1 V2 V3 eq_refl eq_refl eq_refl V4).
Qed.

(** Staker 2 announces a commission of 90 % at time 30; changes of commission wait 50 seconds, so the
    delegators have until 80. At time 31 governance shortens the time to 1; at 32 it applies. *)
Definition announced : list cop := setup ++ [CBegin 30 0].
Definition raised : cop := CUpdateCommission 2 (9 * ONE / 10).
Definition hurried : list cop := [CEnd; CBegin 31 0; CParamsS AUTHORITY 1 60; CEnd; CBegin 32 0].
Lemma hurried_ok : cops_ok g0 (announced ++ raised :: hurried). Proof. apply cops_okb_ok. vm_cast_no_check (eq_refl true). Qed.
Lemma hurried_view : ss_ctime (c_s (crun g0 announced)) = 50 /\ c_time (crun g0 announced) = 30 /\ c_time (crun g0 (announced ++ raised :: hurried)) = 32 /\
  commission_of (c_s (crun g0 (announced ++ [raised]))) 2 = Some (ONE / 10) /\ commission_of (c_s (crun g0 (announced ++ raised :: hurried))) 2 = Some (9 * ONE / 10).
Proof. split_and!; vm_compute; reflexivity. Qed.
Lemma hurried_by (c c1 c2 : chain) : ss_ctime (c_s c) = 50 -> c_time c = 30 -> c_time c2 = 32 -> commission_of (c_s c1) 2 = Some (ONE / 10) -> commission_of (c_s c2) 2 = Some (9 * ONE / 10) ->
  commission_of (c_s c1) 2 <> Some (9 * ONE / 10) /\ commission_of (c_s c2) 2 = Some (9 * ONE / 10) /\ c_time c2 < c_time c + ss_ctime (c_s c).
Proof. intros H1 H2 H3 H4 H5. rewrite H1, H2, H3, H4, H5. split; [|split; [done|lia]]. intros H. by vm_compute in H. Qed.
Lemma hurried_refuted : exists g ops s x more, genesis g /\ cops_ok (gstart g) (ops ++ CUpdateCommission s x :: more) /\
  let c := crun (gstart g) ops in let c1 := crun (gstart g) (ops ++ [CUpdateCommission s x]) in let c2 := crun (gstart g) (ops ++ CUpdateCommission s x :: more) in
  commission_of (c_s c1) s <> Some x /\ commission_of (c_s c2) s = Some x /\ c_time c2 < c_time c + ss_ctime (c_s c).
Proof.
  refine (ex_intro _ gen0 (ex_intro _ announced (ex_intro _ 2%N (ex_intro _ (9 * ONE / 10) (ex_intro _ hurried (conj gen0_genesis _)))))). rewrite gen0_start.
  split; [exact hurried_ok|]. cbv zeta. destruct hurried_view as (V1 & V2 & V3 & V4 & V5). exact (hurried_by _ _ _ V1 V2 V3 V4 V5).
Qed.

(** Left alone it applies in the first block after time 80. *)
Definition patient : list cop := [CEnd; CBegin 79 0; CParamsD AUTHORITY (newp 5); CEnd].
Lemma patient_ok : cops_ok g0 ((announced ++ raised :: patient) ++ [CBegin 81 0]). Proof. apply cops_okb_ok. vm_cast_no_check (eq_refl true). Qed.
Lemma patient_case : Forall leaves_notice patient /\ c_time (crun g0 announced) = 30 /\ ss_ctime (c_s (crun g0 announced)) = 50 /\
  commission_of (c_s (crun g0 (announced ++ raised :: patient))) 2 = Some (ONE / 10) /\
  commission_of (c_s (cstep (crun g0 (announced ++ raised :: patient)) (CBegin 81 0))) 2 = Some (9 * ONE / 10).
Proof. split; [repeat constructor|]. split_and!; vm_compute; reflexivity. Qed.

(** Staker 3 asks to leave the pool at time 30; that takes 60 seconds. Left alone, the block at 91 removes
    it. If governance makes it 10000 seconds at time 31, it is still in the pool at time 5000. *)
Definition asked_leave : list cop := setup ++ [CBegin 30 0].
Definition calm : list cop := [CEnd; CBegin 89 0; CEnd].
Definition held : list cop := [CEnd; CBegin 31 0; CParamsS AUTHORITY 50 10000; CEnd; CBegin 5000 0].
Lemma calm_ok : cops_ok g0 ((asked_leave ++ CLeave 3 0 :: calm) ++ [CBegin 91 0]). Proof. apply cops_okb_ok. vm_cast_no_check (eq_refl true). Qed.
Lemma calm_case : Forall leaves_notice calm /\ ss_ltime (c_s (crun g0 asked_leave)) = 60 /\
  members (crun g0 (asked_leave ++ CLeave 3 0 :: calm)) 0 = [1; 2; 3]%N /\ members (cstep (crun g0 (asked_leave ++ CLeave 3 0 :: calm)) (CBegin 91 0)) 0 = [1; 2]%N.
Proof. split; [repeat constructor|]. split_and!; vm_compute; reflexivity. Qed.
Lemma held_ok : cops_ok g0 (asked_leave ++ CLeave 3 0 :: held). Proof. apply cops_okb_ok. vm_cast_no_check (eq_refl true). Qed.
Lemma held_view : (if cmsg (crun g0 asked_leave) (CLeave 3 0) then true else false) = true /\ c_time (crun g0 asked_leave) = 30 /\ ss_ltime (c_s (crun g0 asked_leave)) = 60 /\
  members (crun g0 (asked_leave ++ CLeave 3 0 :: held)) 0 = [1; 2; 3]%N /\ c_time (crun g0 (asked_leave ++ CLeave 3 0 :: held)) = 5000.
Proof. split_and!; vm_compute; reflexivity. Qed.
Lemma held_by (c c1 : chain) : (if cmsg c (CLeave 3 0) then true else false) = true -> c_time c = 30 -> ss_ltime (c_s c) = 60 -> members c1 0 = [1; 2; 3]%N -> c_time c1 = 5000 ->
  is_Some (cmsg c (CLeave 3 0)) /\ c_time c + ss_ltime (c_s c) < c_time c1 /\ is_member c1 0 3.
Proof.
  intros H1 H2 H3 H4 H5. split; [destruct (cmsg c (CLeave 3 0)); [by eexists|done]|]. split; [rewrite H2, H3, H5; lia|].
  apply member_in. rewrite H4. by apply elem_of_list_further, elem_of_list_further, elem_of_list_here.
Qed.
Lemma held_refuted : exists g ops s p more, genesis g /\ cops_ok (gstart g) (ops ++ CLeave s p :: more) /\
  let c := crun (gstart g) ops in let c1 := crun (gstart g) (ops ++ CLeave s p :: more) in
  is_Some (cmsg c (CLeave s p)) /\ c_time c + ss_ltime (c_s c) < c_time c1 /\ is_member c1 p s.
Proof.
  refine (ex_intro _ gen0 (ex_intro _ asked_leave (ex_intro _ 3%N (ex_intro _ 0%N (ex_intro _ held (conj gen0_genesis _)))))). rewrite gen0_start.
  split; [exact held_ok|]. cbv zeta. destruct held_view as (V1 & V2 & V3 & V4 & V5). exact (held_by (crun g0 asked_leave) (crun g0 (asked_leave ++ CLeave 3 0 :: held)) V1 V2 V3 V4 V5).
Qed.
