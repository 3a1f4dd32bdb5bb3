(** * Properties C01 to C11: the delegation module.
    [reached ops st]: [st] is reached from an empty module by the history [ops] of
    arbitrary messages, blocks, payouts, slashes and parameter changes.
    Concrete cases meeting the hypotheses: DelegationExamples.v (named beside each theorem). *)
From Verif Require Import Base BaseFacts Delegation F1Spec DelegationInv DelegationBank DelegationQueue
  DelegationProps DelegationRewards DelegationClaims DelegationClaims2 DelegationClaims3 DelegationExamples DelegationShare.

(** C01. [slack ops s] = (number of slashes) x (number of delegators). Case: h1_reached, h1_state, h1_slack_all. *)
Theorem C01_principal_le_total : forall bk p t ops,
  dparams_valid p = true -> ops_ok (dinit bk p t) ops ->
  forall s, slack ops s < ONE ->
  let st := drun (dinit bk p t) ops in
  reported_sum st s <= delegation_amount st s /\
  forall d, 0 <= delegation_of st s d <= delegation_amount st s.
Proof. exact claim_principal. Qed.
Print Assumptions C01_principal_le_total.

(** C02, while the accumulated rounding is below one base unit. Missing for the full
    statement: it is false, see C02_solvent_refuted. [donations]: coins put into the
    account from outside. Case: h1_slack_all, h1_drift_all, h1_solvent. *)
Theorem C02_solvent_partial : forall bk p t ops,
  dparams_valid p = true -> ops_ok (dinit bk p t) ops ->
  (forall x, 0 <= bal bk MDelegation x) ->
  (forall s, slack ops s < ONE) -> (forall s x, drift (dinit bk p t) ops s x < 2 * ONE) ->
  let st := drun (dinit bk p t) ops in
  let unpaid s x := received_total (dinit bk p t) ops s x - withdrawn_total (dinit bk p t) ops s x in
  ds_halt st = false /\
  (forall s x, 0 <= unpaid s x) /\
  (forall X x, sum_over X (fun s => (if (x =? KYVE)%N then delegation_amount st s else 0) + unpaid s x)
               <= bal (ds_bank st) MDelegation x - bal bk MDelegation x - donations (dinit bk p t) ops x).
Proof. exact claim_solvent. Qed.
Print Assumptions C02_solvent_partial.

(** Case: h1_drift_all, h1_delegators. *)
Theorem C02_withdraw_paid_partial : forall bk p t ops s d,
  dparams_valid p = true -> ops_ok (dinit bk p t) ops ->
  (forall x, 0 <= bal bk MDelegation x) ->
  (forall s, slack ops s < ONE) -> (forall s x, drift (dinit bk p t) ops s x + 1 < 2 * ONE) ->
  is_delegator (drun (dinit bk p t) ops) s d ->
  exists st', msg_withdraw (drun (dinit bk p t) ops) d s = Some st'.
Proof. exact claim_withdraw_paid. Qed.
Print Assumptions C02_withdraw_paid_partial.

(** Without the bound it is false: rounding overpays a staker without any slash (2002 payouts of
    one unit); everybody has left, no request is pending, a principal was not returned, the chain halts. *)
Theorem C02_solvent_refuted : exists bk p t ops s x d,
  dparams_valid p = true /\ ops_ok (dinit bk p t) ops /\ slashes ops s = 0 /\
  ds_halt (drun (dinit bk p t) ops) = true /\ pending (drun (dinit bk p t) ops) = [] /\
  reported_sum (drun (dinit bk p t) ops) s = 0 /\
  bal (ds_bank (drun (dinit bk p t) ops)) (User d) x < bal bk (User d) x.
Proof. exact refute_solvent. Qed.
Print Assumptions C02_solvent_refuted.

(** C03: no missing entry, no negative reward. Case: h1_reached, h1_delegators. *)
Theorem C03_no_halt : forall bk p t ops,
  dparams_valid p = true -> ops_ok (dinit bk p t) ops ->
  let st := drun (dinit bk p t) ops in
  forall s, f_halt (getf st s) = false /\
  forall d, snd (f1_outstanding (getf st s) d) = false /\
            (forall x, 0 <= amt (fst (f1_outstanding (getf st s) d)) x) /\
            f_halt (fst (f1_withdraw (getf st s) d)) = false /\
            (forall x, 0 <= amt (snd (f1_withdraw (getf st s) d)) x) /\
            f_halt (fst (f1_remove (getf st s) d)) = false.
Proof. exact claim_no_halt. Qed.
Print Assumptions C03_no_halt.

(** C04: exact while the staker was not slashed since the last settlement; in general off by
    at most one base unit. Missing: exactness after a slash, which is false (C04_query_refuted).
    Case: h1_outstanding. *)
Theorem C04_query_partial : forall ops st s d x, reached ops st ->
  -1 <= amt (outstanding st s d) x - amt (payable st s d) x <= 1.
Proof. exact claim_query_bound. Qed.
Print Assumptions C04_query_partial.

(** Case: h1_since. *)
Theorem C04_query_unslashed_partial : forall ops st s d, reached ops st -> slashes ops s = 0 ->
  outstanding st s d = payable st s d.
Proof. exact claim_query_unslashed. Qed.
Print Assumptions C04_query_unslashed_partial.

(** Case: h1_since. *)
Theorem C04_query_since_partial : forall bk p t ops1 ops2 s d,
  dparams_valid p = true -> ops_ok (dinit bk p t) (ops1 ++ OWithdraw d s :: ops2) ->
  msg_withdraw (drun (dinit bk p t) ops1) d s <> None -> slashes ops2 s = 0 ->
  let st := drun (dinit bk p t) (ops1 ++ OWithdraw d s :: ops2) in
  outstanding st s d = payable st s d.
Proof. exact claim_query_since. Qed.
Print Assumptions C04_query_since_partial.

(** Case: h1_outstanding. *)
Theorem C04_after_withdraw : forall ops st st' s d, reached ops st -> msg_withdraw st d s = Some st' ->
  outstanding st' s d = ∅ /\ delegation_of st' s d = delegation_of st s d /\
  delegation_amount st' s = delegation_amount st s /\
  forall x, bal (ds_bank st') (User d) x = bal (ds_bank st) (User d) x + amt (payable st s d) x.
Proof. exact claim_after_withdraw. Qed.
Print Assumptions C04_after_withdraw.

Theorem C04_query_refuted : exists ops st s d,
  reached ops st /\ is_delegator st s d /\ outstanding st s d <> payable st s d /\
  amt (outstanding st s d) KYVE = 1 /\ amt (payable st s d) KYVE = 0.
Proof. exact refute_query. Qed.
Print Assumptions C04_query_refuted.

(** C05: the excess is at most the accumulated rounding. Case: h1_drift. *)
Theorem C05_rewards_partial : forall bk p t ops,
  dparams_valid p = true -> ops_ok (dinit bk p t) ops ->
  forall s x, slack ops s < ONE ->
  2 * ONE * withdrawn_total (dinit bk p t) ops s x
  <= 2 * ONE * received_total (dinit bk p t) ops s x + drift (dinit bk p t) ops s x.
Proof. exact claim_rewards. Qed.
Print Assumptions C05_rewards_partial.

(** Case: h1_drift. *)
Theorem C05_rewards_exact_partial : forall bk p t ops,
  dparams_valid p = true -> ops_ok (dinit bk p t) ops ->
  forall s x, slack ops s < ONE -> drift (dinit bk p t) ops s x < 2 * ONE ->
  withdrawn_total (dinit bk p t) ops s x <= received_total (dinit bk p t) ops s x.
Proof. exact claim_rewards_exact. Qed.
Print Assumptions C05_rewards_exact_partial.

(** Exactly, it is false: 2002 units received, 2003 withdrawn. *)
Theorem C05_rewards_refuted : exists bk p t ops s x,
  dparams_valid p = true /\ ops_ok (dinit bk p t) ops /\ slashes ops s = 0 /\
  received_total (dinit bk p t) ops s x < withdrawn_total (dinit bk p t) ops s x.
Proof. exact refute_exact. Qed.
Print Assumptions C05_rewards_refuted.

(** C06. Case: h1_isolated. *)
Theorem C06_isolated : forall ops st o s d,
  reached ops st -> dop_ok st o ->
  actor o <> Some d -> ~ completes st o s d ->
  (forall c p, o <> OPayout s c p) -> (forall ty, o <> OSlash s ty) ->
  delegation_of (dstep st o) s d = delegation_of st s d /\
  payable (dstep st o) s d = payable st s d /\
  forall x, -1 <= amt (outstanding (dstep st o) s d) x - amt (outstanding st s d) x <= 1.
Proof. exact claim_isolated. Qed.
Print Assumptions C06_isolated.

(** C07. Cases: h1_queue, h1_queue_pending. *)
Theorem C07_fifo : forall bk p t ops,
  ops_ok (dinit bk p t) ops ->
  let st := drun (dinit bk p t) ops in
  out_entries (completed (dinit bk p t) ops) ++ pending st = requests (dinit bk p t) ops /\
  out_index (completed (dinit bk p t) ops)
  = map (fun i => 1 + N.of_nat i)%N (seq 0 (length (completed (dinit bk p t) ops))) /\
  (forall k, is_Some (ds_queue st !! k) <-> (ds_low st < k <= ds_high st)%N).
Proof. exact claim_fifo. Qed.
Print Assumptions C07_fifo.

Theorem C07_on_time_partial : forall bk p t ops dt,
  dparams_valid p = true -> 0 <= t -> ops_ok (dinit bk p t) (ops ++ [OBeginBlock dt]) ->
  ds_time (drun (dinit bk p t) ops) + dt + p_unbonding (ds_params (drun (dinit bk p t) ops)) < two64 ->
  let st := drun (dinit bk p t) ops in
  let now := ds_time st + dt in
  let wait := p_unbonding (ds_params st) in
  let done := out_entries (paid_by st (OBeginBlock dt)) in
  let left := pending (dstep st (OBeginBlock dt)) in
  pending st = done ++ left /\
  Forall (fun e => u_time e + wait <= now) done /\
  Forall (fun e => now < u_time e + wait) left.
Proof. exact claim_on_time. Qed.
Print Assumptions C07_on_time_partial.

(** Without the bound on the sum it is false: paid in the next block although the waiting time is not over. *)
Theorem C07_on_time_refuted : exists bk p t ops dt,
  dparams_valid p = true /\ 0 <= t /\ ops_ok (dinit bk p t) (ops ++ [OBeginBlock dt]) /\
  let st := drun (dinit bk p t) ops in
  exists e, In e (out_entries (paid_by st (OBeginBlock dt))) /\ ds_time st + dt < u_time e + p_unbonding (ds_params st) /\
    bal (ds_bank (dstep st (OBeginBlock dt))) (User (u_delegator e)) KYVE
    = bal (ds_bank st) (User (u_delegator e)) KYVE + u_amount e.
Proof. exact refute_on_time. Qed.
Print Assumptions C07_on_time_refuted.

Theorem C07_paid_amount : forall ops st dt, reached ops st ->
  pays_min (with_time st (ds_time st + dt)) (paid_by st (OBeginBlock dt)).
Proof. exact claim_paid_amount. Qed.
Print Assumptions C07_paid_amount.

(** C08. Cases: h8_ok, h8_times. *)
Theorem C08_redelegation_limit_partial : forall bk p t ops who lo,
  dparams_valid p = true -> p_cooldown p < two63 -> ops_ok (dinit bk p t) ops -> Forall no_params ops ->
  let ts := redel_times (dinit bk p t) ops who in
  NoDup ts /\ Z.of_nat (length (between lo (lo + p_cooldown p) ts)) <= p_maxredel p.
Proof. exact claim_redelegation_limit. Qed.
Print Assumptions C08_redelegation_limit_partial.

(** Without the bound on the cooldown it is false. *)
Theorem C08_redelegation_limit_refuted : exists bk p t ops who lo,
  dparams_valid p = true /\ ops_ok (dinit bk p t) ops /\ Forall no_params ops /\
  let ts := redel_times (dinit bk p t) ops who in
  ~ NoDup ts /\ p_maxredel p < Z.of_nat (length (between lo (lo + p_cooldown p) ts)).
Proof. exact refute_redelegation_limit. Qed.
Print Assumptions C08_redelegation_limit_refuted.

(** C09. Case: h1_redelegate. *)
Theorem C09_redelegate : forall ops st ex act d from to a st',
  reached ops st -> 0 <= a < two63 -> msg_redelegate st ex act d from to a = Some st' ->
  ex = true /\ act = true /\ a <= delegation_of st from d /\
  (from <> to -> delegation_of st' from d = delegation_of st from d - a /\
                 delegation_of st' to d = delegation_of st to d + a) /\
  (from = to -> delegation_of st' from d = delegation_of st from d) /\
  (slack ops from < ONE -> slack ops to < ONE -> forall s,
     delegation_amount st' s = delegation_amount st s
       - (if decide (from = s) then a else 0) + (if decide (to = s) then a else 0)) /\
  (ds_halt st' = false -> forall who x,
     bal (ds_bank st') who x =
     bal (ds_bank st) who x
     + (if decide (who = User d) then withdrawn st (ORedelegate ex act d from to a) from x
          + (if decide (from = to) then 0 else withdrawn st (ORedelegate ex act d from to a) to x) else 0)
     - (if decide (who = MDelegation) then withdrawn st (ORedelegate ex act d from to a) from x
          + (if decide (from = to) then 0 else withdrawn st (ORedelegate ex act d from to a) to x) else 0)).
Proof. exact claim_redelegate. Qed.
Print Assumptions C09_redelegate.

Theorem C09_redelegate_guard : forall st ex act d from to a,
  ex = false \/ act = false \/ delegation_of st from d < a \/ ~ is_delegator st from d ->
  msg_redelegate st ex act d from to a = None.
Proof. exact claim_redelegate_guard. Qed.
Print Assumptions C09_redelegate_guard.

(** C10. Case: h1_slash. *)
Theorem C10_slash : forall ops st s ty,
  reached ops st -> f_data (getf st s) <> None ->
  let fr := slash_fraction (ds_params st) ty in
  let st' := fst (slash_delegators st s ty) in
  let sl := snd (slash_delegators st s ty) in
  sl = delegation_amount st s * fr / ONE /\ 0 <= sl <= delegation_amount st s /\
  delegation_amount st' s = delegation_amount st s - sl /\
  (ds_halt st' = false -> forall who x,
     bal (ds_bank st') who x = bal (ds_bank st) who x
       + (if decide (who = Treasury) then (if (x =? KYVE)%N then sl else 0) else 0)
       - (if decide (who = MDelegation) then (if (x =? KYVE)%N then sl else 0) else 0)) /\
  (forall d, let B := delegation_of st s d in let B' := delegation_of st' s d in
     (ONE - fr) * B - ONE < ONE * B' <= (ONE - fr) * B + (ONE - fr) /\ 0 <= B' <= B) /\
  (forall s', s' <> s -> getf st' s' = getf st s') /\
  ds_queue st' = ds_queue st /\ ds_low st' = ds_low st /\ ds_high st' = ds_high st.
Proof. exact claim_slash. Qed.
Print Assumptions C10_slash.

Theorem C10_delegate_after : forall ops st ex d s a st',
  reached ops st -> 0 <= a < two63 -> msg_delegate st ex d s a = Some st' ->
  ex = true /\ delegation_of st' s d = delegation_of st s d + a /\
  (slack ops s < ONE -> delegation_amount st' s = delegation_amount st s + a).
Proof. exact claim_delegate. Qed.
Print Assumptions C10_delegate_after.

(** C11: holds for a staker nobody ever delegated to. Missing: after all delegators left it is
    false (C11_payout_refuted). Case: h1_never. *)
Theorem C11_payout_rejected_partial : forall ops st s c payer,
  reached ops st -> joined ops s = ∅ -> c <> ∅ -> payout_rewards st s c payer = None.
Proof. exact claim_payout_rejected. Qed.
Print Assumptions C11_payout_rejected_partial.

Theorem C11_payout_refuted : exists ops st ops' s c payer st',
  reached ops st /\ (forall d, ~ is_delegator st s d) /\ delegation_amount st s = 0 /\
  c <> ∅ /\ payout_rewards st s c payer = Some st' /\
  ops_ok st (OPayout s c payer :: ops') /\
  let st2 := drun st (OPayout s c payer :: ops') in
  delegation_amount st2 s = 0 /\ (forall d, ~ is_delegator st2 s d) /\
  bal (ds_bank st2) MDelegation KYVE = 50 /\
  received_total st (OPayout s c payer :: ops') s KYVE = 57 /\
  withdrawn_total st (OPayout s c payer :: ops') s KYVE = 7.
Proof. exact refute_payout. Qed.
Print Assumptions C11_payout_refuted.

(** C53: with R paid, b delegated by [d] and T in total, the claimable rewards of [d] grow by R*b/T,
    up to R/T (the fraction of a token left by slashing) plus one unit plus (2b+3)/10^18.
    Case: h1_reached, h1_delegators, h1_share. *)
Theorem C53_share : forall ops st s c payer st',
  reached ops st -> cpos c -> payer <> MDelegation -> payout_rewards st s c payer = Some st' ->
  0 < delegation_amount st s ->
  forall d x, is_delegator st s d ->
  let R := amt c x in let b := delegation_of st s d in let T := delegation_amount st s in
  R * b * ONE - T * (2 * b + 3 + ONE)
    <= (amt (payable st' s d) x - amt (payable st s d) x) * T * ONE
    <= R * (b + 1) * ONE + T * (2 * b + 3 + ONE).
Proof. exact claim_share. Qed.
Print Assumptions C53_share.
