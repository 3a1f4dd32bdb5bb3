(** * Uploader selection: the properties C25, C26 and C74 (statements; proofs are in
    RoundRobinClaims.v and RoundRobinNew.v).

    [stakers] lists the stakers of a pool with their delegation, in store order;
    [choose_next stakers stored ex] and [choose_next_from stakers stored incl] return the
    selected staker and the progress values to store. *)
From Verif Require Import Base BaseFacts RoundRobin RoundRobinClaims RoundRobinNew.

(** C25: somebody with positive delegation is selected whenever there is one. *)
Theorem C25_selected : forall stakers stored ex incl,
  (exists a w, (a, w) ∈ stakers /\ 0 < w) ->
  (exists w, (fst (choose_next stakers stored ex), w) ∈ stakers /\ 0 < w) /\
  (exists w, (fst (choose_next_from stakers stored incl), w) ∈ stakers /\ 0 < w).
Proof. intros stakers stored ex incl H. split; [by apply claim_selected|by apply claim_selected_from]. Qed.
Theorem C25_nobody : forall stakers stored ex incl, (forall a w, (a, w) ∈ stakers -> w <= 0) ->
  fst (choose_next stakers stored ex) = 0%N /\ fst (choose_next_from stakers stored incl) = 0%N.
Proof. exact claim_selected_none. Qed.
(** Missing: the staker with the smallest address among the eligible ones is assumed not to be
    the excluded one (or to be among the voters). Without this the claim is false, see below. *)
Theorem C25_excluded_partial : forall stakers stored,
  (forall s a, NoDup (map fst stakers) -> first_eligible stakers = Some a -> a <> s ->
     fst (choose_next stakers stored [s]) <> s) /\
  (forall voters a, first_eligible stakers = Some a -> a ∈ voters -> fst (choose_next_from stakers stored voters) ∈ voters).
Proof. intros stakers stored. split; [intros; by eapply claim_skip|intros; by eapply claim_from]. Qed.
(** After [n] real selections the staker selected last skips: the same staker is selected
    again although another one is eligible; the same when only the other one voted. *)
Theorem C25_excluded_refuted : exists n stakers s, let st := snd (selections n stakers ∅) in
  stakers_ok stakers /\ s ∈ map fst stakers /\
  last (fst (selections n stakers ∅)) = Some s /\
  (exists a w, a <> s /\ (a, w) ∈ stakers /\ 0 < w /\ fst (choose_next_from stakers st [a]) = s) /\
  fst (choose_next stakers st [s]) = s.
Proof. exact refute_excluded. Qed.

(** C26: whatever was stored before, after a selection progress is stored for exactly the
    eligible stakers, every value is at most three times the total delegation and the sum
    lies strictly between minus and plus the number of eligible stakers. *)
Theorem C26_bounded : forall stakers stored ex incl, stakers_ok stakers -> eligible stakers <> [] ->
  forall st, st = snd (choose_next stakers stored ex) \/ st = snd (choose_next_from stakers stored incl) ->
  (forall a, is_Some (st !! a) <-> a ∈ map fst (eligible stakers)) /\
  (forall a x, st !! a = Some x -> Z.abs x <= 3 * weight stakers) /\
  Z.abs (stored_sum stakers st) < Z.of_nat (length (eligible stakers)).
Proof.
  intros stakers stored ex incl H1 H2 st [->| ->]; [by apply claim_bounded|].
  destruct (from_is_next stakers stored incl) as [ex' ->]. by apply claim_bounded.
Qed.
(** From any state left by a selection, after any number of further selections the number
    of times a staker was selected differs from its share by at most 5, and the sum of the
    progress is conserved. Missing: the values are assumed not to spread by more than twice the
    total delegation (the protocol then does not rescale them). *)
Theorem C26_proportional_partial : forall stakers stored0 n a w, stakers_ok stakers -> (a, w) ∈ stakers -> 0 < w ->
  let st1 := snd (choose_next stakers stored0 []) in
  (forall m, (m < n)%nat -> level stakers (snd (selections m stakers st1))) ->
  Z.abs (times_selected a (fst (selections n stakers st1)) * weight stakers - Z.of_nat n * w) <= 5 * weight stakers /\
  stored_sum stakers (snd (selections n stakers st1)) = stored_sum stakers st1.
Proof. exact claim_proportional. Qed.

(** C74: somebody without progress ([stored !! a = None]) is not selected while one of those who
    were in the pool before can be. Missing: that one is assumed to have a progress of at least
    zero, and the values not to be rescaled ([even]). Case: ex_new. *)
Theorem C74_newcomer_partial : forall stakers stored a w x wx y, stakers_ok stakers -> even stakers stored ->
  (a, w) ∈ stakers -> 0 < w -> stored !! a = None ->
  (x, wx) ∈ stakers -> 0 < wx -> stored !! x = Some y -> 0 <= y ->
  (forall ex, x ∉ ex -> fst (choose_next stakers stored ex) <> a) /\
  (forall voters, x ∈ voters -> fst (choose_next_from stakers stored voters) <> a).
Proof. intros. split; intros; [by eapply claim_newcomer|by eapply claim_newcomer_from]. Qed.
(** After [n] selections from [before], somebody leaves and [a] joins: [a] is selected five times
    in a row although [x] has been there all the time. *)
Theorem C74_newcomer_refuted : exists n before now_ a x, let st := snd (selections n before ∅) in
  stakers_ok before /\ stakers_ok now_ /\ x ∈ before /\ x ∈ now_ /\ 0 < snd x /\
  a ∈ map fst now_ /\ st !! a = None /\ fst (selections 5 now_ st) = [a; a; a; a; a].
Proof. exact refute_newcomer. Qed.

Print Assumptions C25_selected.
Print Assumptions C25_nobody.
Print Assumptions C25_excluded_partial.
Print Assumptions C25_excluded_refuted.
Print Assumptions C26_bounded.
Print Assumptions C26_proportional_partial.
Print Assumptions C74_newcomer_partial.
Print Assumptions C74_newcomer_refuted.
