(** * C63: the listings of delegators, stakers and unbonding requests (proofs). *)
From Verif Require Import Base BaseFacts F1Refine Delegation DelegationInv DelegationQueue DelegationClaims DelegationClaims2 DelegationClaims3
  Stakers Funders FundersInv FundersRun FundersClaims Team RoundRobin Pool Bundles Chain ChainFrame ChainLift Query QueryFacts QueryClaims Account AccountClaims.
Local Instance any : joiners := fun _ _ => True.

(** ** Clients *)
(** [page key offset limit count]: the answer to a request. A client that follows the page keys or
    adds up offsets gets the list [L], whatever the limit, and the total is its length. *)
Definition page_fun (K A : Type) : Type := option K -> Z -> Z -> bool -> option (list A * option K * Z).
Definition shows {K A} (page : page_fun K A) (L : list A) : Prop :=
  (forall limit count, 0 <= limit -> page_size limit + 1 < two64 ->
     exists n, walk n (fun key => match page key 0 limit count with Some (r, k, _) => Some (r, k) | None => None end) None = Some L) /\
  (forall offset limit, 0 <= offset -> 0 <= limit -> offset + page_size limit + 1 < two64 ->
     exists next, page None offset limit true = Some (firstn (Z.to_nat (page_size limit)) (skipn (Z.to_nat offset) L), next, Z.of_nat (length L))).

Lemma filter_all {A} (l : list A) : List.filter (fun _ => true) l = l.
Proof. induction l as [|x l IH]; cbn; [done|]. by rewrite IH. Qed.
Lemma walk_map {A B K} (h : A -> B) (ask : option K -> option (list A * option K)) (ask' : option K -> option (list B * option K)) :
  (forall k, ask' k = match ask k with Some (r, n) => Some (map h r, n) | None => None end) ->
  forall n k, walk n ask' k = match walk n ask k with Some r => Some (map h r) | None => None end.
Proof.
  intros H. induction n as [|n IH]; intros k; cbn [walk]; [done|]. rewrite H. destruct (ask k) as [[r [y|]]|]; [|done..].
  rewrite IH. destruct (walk n ask (Some y)); [|done]. by rewrite map_app.
Qed.
Lemma walk_ext {A K} (ask ask' : option K -> option (list A * option K)) : (forall k, ask k = ask' k) -> forall n k, walk n ask k = walk n ask' k.
Proof. intros H. induction n as [|n IH]; intros k; cbn [walk]; [done|]. rewrite H. destruct (ask' k) as [[r [y|]]|]; [|done..]. by rewrite IH. Qed.
Lemma keys_from_spec l l1 k l2 : StronglySorted N.le l -> NoDup l -> l = l1 ++ k :: l2 -> keys_from l k = k :: l2.
Proof.
  intros Hs Hn ->. unfold keys_from. apply (sorted_from N.le N.leb); [intros; apply N.leb_le|intros; lia|intros; lia|done|done].
Qed.
Lemma shows_list {A} (h : N -> A) l : StronglySorted N.le l -> NoDup l -> shows (list_page h l) (map h l).
Proof.
  intros Hs Hn. assert (Hf : forall l1 k l2, l = l1 ++ k :: l2 -> keys_from l k = k :: l2) by (intros; by eapply keys_from_spec).
  split.
  - intros limit count H1 H2. destruct (walk_all (fun _ => true) l (keys_from l) limit count Hf H1 H2) as [n Hw]. exists n.
    rewrite (walk_map h (ask (fun _ => true) l (keys_from l) limit count)).
    + rewrite Hw. by rewrite filter_all.
    + intros k. unfold list_page, ask. by destruct (filtered_paginate _ _ _ _ _ _ _) as [[[r n'] m]|].
  - intros o limit H1 H2 H3. destruct (filtered_offset (fun _ => true) l (keys_from l) limit true Hf H2 ltac:(lia) o H1 H3) as (n & E & En).
    eexists. unfold list_page. rewrite E, En by auto. rewrite filter_all, skipn_map, firstn_map, map_length. done.
Qed.
Lemma sorted_N l : StronglySorted N.le (merge_sort N.le l).
Proof. apply (StronglySorted_merge_sort N.le). Qed.

(** ** What is listed *)
Lemma delegators_of_in st s a : In a (delegators_of st s) <-> is_delegator st s a.
Proof.
  unfold delegators_of. rewrite <- elem_of_list_In, merge_sort_Permutation. unfold is_delegator. split.
  - intros H. apply elem_of_list_fmap in H as ([b x] & -> & H). apply elem_of_map_to_list in H. by exists x.
  - intros [x H]. change a with (fst (a, x)). apply elem_of_list_fmap_1. by apply elem_of_map_to_list.
Qed.
Lemma delegators_of_nodup st s : NoDup (delegators_of st s).
Proof. unfold delegators_of. rewrite merge_sort_Permutation. apply NoDup_fst_map_to_list. Qed.
Lemma delegators_of_length st s : length (delegators_of st s) = size (f_delegators (getf st s)).
Proof. unfold delegators_of. rewrite merge_sort_Permutation, map_length. done. Qed.

Section reach.
  Context (g : gen) (Hg : genesis g) (ops : list cop) (Hok : cops_ok (gstart g) ops).
  Let c := crun (gstart g) ops.
  Let HG : G g c := G_run g Hg ops Hok.

  (** What a record says about a delegator and a staker. *)
  Definition record_of (s a : N) (r : dresp) : Prop :=
    dr_staker r = s /\ dr_delegator r = a /\ dr_amount r = delegation_of (c_d c) s a /\
    (forall c', cmsg c (CWithdraw a s) = Some c' -> forall x,
       -1 <= bal (c_bank c') (User a) x - bal (c_bank c) (User a) x - amt (dr_rewards r) x <= 1).
  Lemma record_ok s a : record_of s a (delegator (c_d c) s a).
  Proof.
    split; [done|]. split; [done|]. split; [done|]. intros c' E x. cbn [cmsg] in E. destruct (msg_withdraw (d_in c) a s) as [st'|] eqn:Em; [|done].
    injection E as <-. destruct (chain_reached g Hg c HG) as [dops HR]. destruct (claim_after_withdraw _ _ _ _ _ HR Em) as (_ & _ & _ & Hb).
    change (c_bank (d_out c st')) with (ds_bank st'). rewrite Hb. change (ds_bank (d_in c)) with (c_bank c).
    pose proof (claim_query_bound _ _ s a x HR) as Hq. change (outstanding (d_in c) s a) with (rewards_of (c_d c) s a) in Hq.
    cbn [delegator dr_rewards]. lia.
  Qed.
  Lemma claim_delegators s : exists L,
    shows (fun key o l n => match delegators_page (c_d c) s key o l n with Some (r, k, t, _, _) => Some (r, k, t) | None => None end) L /\
    (forall key o l n r k t total count, delegators_page (c_d c) s key o l n = Some (r, k, t, total, count) ->
       total = delegation_amount (c_d c) s /\ count = Z.of_nat (length L)) /\
    NoDup (map dr_delegator L) /\ (forall a, In a (map dr_delegator L) <-> is_delegator (c_d c) s a) /\
    (forall r, In r L -> record_of s (dr_delegator r) r).
  Proof.
    exists (map (delegator (c_d c) s) (delegators_of (c_d c) s)).
    assert (Em : map dr_delegator (map (delegator (c_d c) s) (delegators_of (c_d c) s)) = delegators_of (c_d c) s).
    { rewrite map_map. cbn. apply List.map_id. }
    split; [|split; [|split; [|split]]].
    - pose proof (shows_list (delegator (c_d c) s) (delegators_of (c_d c) s) (sorted_N _) (delegators_of_nodup _ _)) as [H1 H2]. split.
      + intros limit count A B. destruct (H1 limit count A B) as [n Hn]. exists n. rewrite <- Hn.
        apply walk_ext. intros k. unfold delegators_page. by destruct (list_page _ _ _ _ _ _) as [[[r k'] t]|].
      + intros o limit A B C. destruct (H2 o limit A B C) as [next E]. exists next. unfold delegators_page. by rewrite E.
    - intros key o l n r k t total count. unfold delegators_page. destruct (list_page _ _ _ _ _ _) as [[[r' k'] t']|]; [|done]. intros [= _ _ _ <- <-].
      destruct (chain_reached g Hg c HG) as [dops HR]. destruct (reached_good _ _ HR) as (b & HGd & _). destruct (HGd s) as [HRel _].
      pose proof (r_count _ _ HRel) as Hc. change (getf (d_in c) s) with (getf (c_d c) s) in Hc. rewrite Hc, map_length, delegators_of_length. split; [|done].
      unfold delegation_amount, f1_total, get_dd. by destruct (f_data _).
    - rewrite Em. apply delegators_of_nodup.
    - intros a. rewrite Em. apply delegators_of_in.
    - intros r Hr. apply in_map_iff in Hr as (a & <- & _). apply record_ok.
  Qed.
  Lemma claim_stakers a : exists L, shows (stakers_of_page (c_d c) a) L /\ NoDup (map dr_staker L) /\
    (forall s, In s (map dr_staker L) <-> is_delegator (c_d c) s a) /\ (forall r, In r L -> record_of (dr_staker r) a r).
  Proof.
    exists (map (fun s => delegator (c_d c) s a) (stakers_of (c_d c) a)).
    assert (Em : map dr_staker (map (fun s => delegator (c_d c) s a) (stakers_of (c_d c) a)) = stakers_of (c_d c) a).
    { rewrite map_map. cbn. apply List.map_id. }
    split; [apply shows_list; [apply sorted_N|apply stakers_of_nodup]|]. rewrite Em. split; [apply stakers_of_nodup|]. split; [intros s; apply stakers_of_in|].
    intros r Hr. apply in_map_iff in Hr as (s & <- & _). apply record_ok.
  Qed.
  Lemma claim_unbondings a : shows (unbondings_page (c_d c) a)
    (map (fun e => (u_amount e, u_time e, u_staker e)) (List.filter (of_account a) (pending (c_d c)))).
  Proof.
    pose proof (unbondings_entries _ _ a (chain_queue g c HG)) as E.
    change (map (uentry_at (c_d c)) (unbondings_of (c_d c) a) = List.filter (of_account a) (pending (c_d c))) in E. rewrite <- E, map_map.
    apply shows_list; [apply sorted_N|]. pose proof (unbondings_eq _ _ a (chain_queue g c HG)) as Eu. change (unbondings_of (d_in c) a) with (unbondings_of (c_d c) a) in Eu.
    rewrite Eu. generalize (ds_low (d_in c) + 1)%N (pending (d_in c)). intros k l. revert k. induction l as [|e l IH]; intros k; cbn; [constructor|].
    destruct (of_account a e); [|apply IH]. constructor; [|apply IH]. intros Hin. apply elem_of_list_In, own_from_ge in Hin. lia.
  Qed.
End reach.
