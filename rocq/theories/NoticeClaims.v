(** * The time an undelegation waits is the one announced as long as governance leaves it alone. *)
From Verif Require Import Base BaseFacts ChainFrame ArchiveInv BankMoves PoolFrame PoolInv PayoutClaims Delegation F1Spec DelegationBank DelegationQueue DelegationProps DelegationRewards DelegationClaims DelegationClaims2 DelegationClaims3 Stakers Funders Team RoundRobin Pool Bundles Chain ChainLift
  ChainWide ParamsFrame.

(** The unbonding time of the parameters in force. *)
Definition wait_now (c : chain) : Z := p_unbonding (ds_params (c_d c)).
(** Not a change of the parameters of x/delegation. *)
Definition leaves_waiting (o : cop) : Prop := match o with CParamsD _ _ => False | _ => True end.

Lemma wait_step c o : leaves_waiting o -> wait_now (cstep c o) = wait_now c.
Proof.
  intros Ho. destruct (updates_params o) eqn:Eu.
  - unfold cstep. destruct o; try done; cbn [cmsg]; by destruct (_ =? _)%N.
  - apply (params_frame c o) in Eu. unfold cpar in Eu. unfold wait_now. by injection Eu as -> _.
Qed.
Lemma wait_run ops : forall c, Forall leaves_waiting ops -> wait_now (crun c ops) = wait_now c.
Proof.
  induction ops as [|o ops IH]; intros c H; [done|]. apply Forall_cons in H as [H1 H2].
  change (crun c (o :: ops)) with (crun (cstep c o) ops). rewrite (IH _ H2). by apply wait_step.
Qed.

Lemma claim_kept g ops more t prov : genesis g -> cops_ok (gstart g) (ops ++ more) -> Forall leaves_waiting more ->
  let c := crun (gstart g) ops in let c1 := crun (gstart g) (ops ++ more) in let c2 := cstep c1 (CBegin t prov) in
  cop_ok c1 (CBegin t prov) -> t + wait_now c < two64 ->
  exists done, pending (c_d c1) = done ++ pending (c_d c2) /\
    Forall (fun e => u_time e + wait_now c <= t) done /\ Forall (fun e => t < u_time e + wait_now c) (pending (c_d c2)).
Proof.
  intros Hg Hok Hm. cbv zeta. intros Ho Ht.
  assert (E : wait_now (crun (gstart g) (ops ++ more)) = wait_now (crun (gstart g) ops)) by (rewrite crun_app; by apply wait_run).
  rewrite <- E in Ht |- *. exact (w_unbonding g Hg (ops ++ more) t prov Hok Ho Ht).
Qed.
