(** * Property C86: the waiting times in force when something is requested apply to it.
    [wait_now]: the unbonding time of the parameters in force; [leaves_waiting], [leaves_notice]: not an
    update of the parameters of x/delegation, of x/stakers; [pending]: the undelegations that wait, oldest first. Cases: NoticeExamples.v. *)
From Verif Require Import Base BaseFacts Delegation DelegationClaims3 Stakers Funders Team RoundRobin Pool Bundles Chain ChainLift
  ChainExamples PoolExamples MeaningExamples TallyClaims RunsClaims NoticeClaims NoticeFrame NoticeLeave NoticeExamples.

(** As long as governance does not touch the parameters of x/delegation, whatever else happens: a block
    pays exactly the undelegations that have waited as long as was said at the beginning. *)
Theorem C86_kept_partial : forall g ops more t prov, genesis g -> cops_ok (gstart g) (ops ++ more) -> Forall leaves_waiting more ->
  let c := crun (gstart g) ops in let c1 := crun (gstart g) (ops ++ more) in let c2 := cstep c1 (CBegin t prov) in
  cop_ok c1 (CBegin t prov) -> t + wait_now c < two64 ->
  exists done, pending (c_d c1) = done ++ pending (c_d c2) /\
    Forall (fun e => u_time e + wait_now c <= t) done /\ Forall (fun e => t < u_time e + wait_now c) (pending (c_d c2)).
Proof. exact claim_kept. Qed.
Print Assumptions C86_kept_partial.
(** Requests of 30 and 40, to wait 100; other parameters change at 50: at 129 both wait, at 135 one. *)
Example C86_kept_case : genesis gen0 /\ (cops_ok g0 (waiting ++ other) /\ cop_ok (crun g0 (waiting ++ other)) (CBegin 135 0)) /\ Forall leaves_waiting other /\
  pending (c_d (crun g0 (waiting ++ other))) = [first_req; mkU 2 2 50 40] /\ wait_now (crun g0 waiting) = 100 /\
  pending (c_d (cstep (crun g0 (waiting ++ other)) (CBegin 129 0))) = [first_req; mkU 2 2 50 40] /\
  pending (c_d (cstep (crun g0 (waiting ++ other)) (CBegin 135 0))) = [mkU 2 2 50 40].
Proof. exact (conj gen0_genesis (conj other_ok (conj other_leaves other_case))). Qed.
(** A commission changes only in a block, to a value its staker asked for, and not before the time in
    force in that block has passed since; without an update of the parameters of x/stakers in between,
    that is the time in force at the request. *)
Theorem C86_commission_partial : forall g ops o s x0 x1, genesis g -> cops_ok (gstart g) (ops ++ [o]) -> let c := crun (gstart g) ops in let c' := cstep c o in
  ss_ctime (c_s c) < two62 -> commission_of (c_s c) s = Some x0 -> commission_of (c_s c') s = Some x1 -> x0 <> x1 ->
  exists t prov pre post, o = CBegin t prov /\ ops = pre ++ CUpdateCommission s x1 :: post /\ let a := crun (gstart g) pre in
    is_Some (cmsg a (CUpdateCommission s x1)) /\ c_time a + ss_ctime (c_s c) <= t /\ (Forall leaves_notice post -> c_time a + ss_ctime (c_s a) <= t).
Proof. exact claim_notice. Qed.
Print Assumptions C86_commission_partial.
Example C86_commission_case : cops_ok g0 ((announced ++ raised :: patient) ++ [CBegin 81 0]) /\ Forall leaves_notice patient /\ c_time (crun g0 announced) = 30 /\ ss_ctime (c_s (crun g0 announced)) = 50 /\
  commission_of (c_s (crun g0 (announced ++ raised :: patient))) 2 = Some (ONE / 10) /\
  commission_of (c_s (cstep (crun g0 (announced ++ raised :: patient)) (CBegin 81 0))) 2 = Some (9 * ONE / 10).
Proof. exact (conj patient_ok patient_case). Qed.
(** The same for stakers who leave: the begin block removes only members who asked for it long enough ago. *)
Theorem C86_leave_partial : forall g ops t prov p s, genesis g -> cops_ok (gstart g) (ops ++ [CBegin t prov]) -> let c := crun (gstart g) ops in let c' := cstep c (CBegin t prov) in
  ss_ltime (c_s c) < two62 -> is_member c p s -> ~ is_member c' p s ->
  exists pre post, ops = pre ++ CLeave s p :: post /\ let a := crun (gstart g) pre in
    is_Some (cmsg a (CLeave s p)) /\ c_time a + ss_ltime (c_s c) <= t /\ (Forall leaves_notice post -> c_time a + ss_ltime (c_s a) <= t).
Proof. exact claim_leaves. Qed.
Print Assumptions C86_leave_partial.
Example C86_leave_case : cops_ok g0 ((asked_leave ++ CLeave 3 0 :: calm) ++ [CBegin 91 0]) /\ Forall leaves_notice calm /\ ss_ltime (c_s (crun g0 asked_leave)) = 60 /\
  members (crun g0 (asked_leave ++ CLeave 3 0 :: calm)) 0 = [1; 2; 3]%N /\ members (cstep (crun g0 (asked_leave ++ CLeave 3 0 :: calm)) (CBegin 91 0)) 0 = [1; 2]%N.
Proof. exact (conj calm_ok calm_case). Qed.
(** A longer time holds back an undelegation asked for under the shorter one. *)
Theorem C86_longer_refuted : exists g ops more t, genesis g /\ cops_ok (gstart g) (ops ++ more ++ [CBegin t 0]) /\
  let c := crun (gstart g) ops in let c1 := crun (gstart g) (ops ++ more ++ [CBegin t 0]) in
  exists e, In e (pending (c_d c)) /\ In e (pending (c_d c1)) /\ u_time e + wait_now c < t.
Proof. exact longer_refuted. Qed.
Print Assumptions C86_longer_refuted.
(** A shorter one frees stake that was to stay until later. *)
Theorem C86_sooner_refuted : exists g ops more t, genesis g /\ cops_ok (gstart g) (ops ++ more ++ [CBegin t 0]) /\
  let c := crun (gstart g) ops in let c1 := crun (gstart g) (ops ++ more ++ [CBegin t 0]) in
  exists e, In e (pending (c_d c)) /\ ~ In e (pending (c_d c1)) /\ t < u_time e + wait_now c /\
    bal (c_bank c1) (User (u_delegator e)) KYVE = bal (c_bank c) (User (u_delegator e)) KYVE + u_amount e.
Proof. exact sooner_refuted. Qed.
Print Assumptions C86_sooner_refuted.
(** A commission applies before the notice in force when it was announced has passed. *)
Theorem C86_commission_refuted : exists g ops s x more, genesis g /\ cops_ok (gstart g) (ops ++ CUpdateCommission s x :: more) /\
  let c := crun (gstart g) ops in let c1 := crun (gstart g) (ops ++ [CUpdateCommission s x]) in let c2 := crun (gstart g) (ops ++ CUpdateCommission s x :: more) in
  commission_of (c_s c1) s <> Some x /\ commission_of (c_s c2) s = Some x /\ c_time c2 < c_time c + ss_ctime (c_s c).
Proof. exact hurried_refuted. Qed.
Print Assumptions C86_commission_refuted.
(** A staker is kept in the pool, with its duties, after the time said when it asked to leave. *)
Theorem C86_leave_refuted : exists g ops s p more, genesis g /\ cops_ok (gstart g) (ops ++ CLeave s p :: more) /\
  let c := crun (gstart g) ops in let c1 := crun (gstart g) (ops ++ CLeave s p :: more) in
  is_Some (cmsg c (CLeave s p)) /\ c_time c + ss_ltime (c_s c) < c_time c1 /\ is_member c1 p s.
Proof. exact held_refuted. Qed.
Print Assumptions C86_leave_refuted.
