(** * C45, C47, C56: minimum gas price, refunds and surcharges. *)
From Verif Require Import Base BaseFacts Bundles Global GlobalClaims GlobalExamples.

(** After the first block a delivered transaction that is not rejected offers at least
    price x gas limit of the base denom, whatever else it offers. *)
Theorem C45_price_partial : forall s t body r s', 1 < gs_height s -> gparams_valid (gs_par s) = true ->
  deliver s t body = (r, s') -> r <> Rejected -> gp_price (gs_par s) * tx_gas t <= amt (tx_fee t) KYVE * ONE.
Proof. exact price_enforced. Qed.
(** Its fee is taken from whoever pays, also when its messages fail; a rejected one changes nothing. *)
Theorem C45_taken_partial : forall s t body r s', deliver s t body = (r, s') ->
  (r = Rejected /\ s' = s) \/
  exists s1 g, taken s s1 t /\ gas_left s t g /\
    ((r = Failed /\ s' = s1) \/ (r = Done /\ exists s2 rest, body s1 g = Some (s2, rest))).
Proof. exact fee_taken. Qed.
(** Paying enough is enough. *)
Theorem C45_accepted_partial : forall s t body x, gparams_valid (gs_par s) = true -> 0 < tx_gas t < two63 -> cpos (tx_fee t) -> tx_auth t = true -> (forall g, ~ by_grant t g) ->
  rates (gp_adj (gs_par s)) (tx_types t) x -> x + tx_other t <= tx_gas t ->
  gp_price (gs_par s) * tx_gas t <= amt (tx_fee t) KYVE * ONE -> (forall d, amt (tx_fee t) d <= bal (gs_bank s) (User (tx_payer t)) d) ->
  fst (deliver s t body) <> Rejected.
Proof. exact paid_accepted. Qed.
(** A node's own price in the base denom is checked in addition. *)
Theorem C45_local_partial : forall s lp t, gparams_valid (gs_par s) = true -> 0 <= lp -> check_tx s (coin KYVE lp) t = true ->
  lp * tx_gas t <= amt (tx_fee t) KYVE * ONE /\ forall body, fst (deliver s t body) <> Rejected.
Proof. exact local_price. Qed.
(** One in another denom is checked instead. *)
Theorem C45_mempool_refuted : exists s local t, 1 < gs_height s /\ gparams_valid (gs_par s) = true /\ cpos local /\
  check_tx s local t = true /\ check_tx s ∅ t = false /\ forall body, deliver s t body = (Rejected, s).
Proof. exact mempool_witness. Qed.
Example C45_case :
  (let '(r, s') := deliver (ex 100) (ex_tx (coin KYVE 41) 81 None [Plain 5]) idle in (r, KV s', lim s')) = (Done, [969; 1000; 31], Some 100) /\
  (let '(r, s') := deliver (ex 100) (ex_tx (coin KYVE 40) 81 None [Plain 5]) idle in (r, KV s')) = (Rejected, [1000; 1000; 0]) /\
  (let '(r, s') := deliver (ex 100) (ex_tx (coin KYVE 41) 81 None [Plain 5; Plain 5]) idle in (r, KV s')) = (Done, [959; 1000; 41]) /\
  (let '(r, s') := deliver (ex 100) (ex_tx (coin KYVE 41) 35 None [Plain 5]) idle in (r, KV s')) = (Failed, [959; 1000; 41]).
Proof. exact ex_fee. Qed.

(** A transaction that is done has got back, from the fee collector to whoever paid, the part of
    its fee due for its only message and nothing otherwise. *)
Theorem C47_refund_partial : forall s t body s',
  (forall x g y rest, gparams_valid (gs_par x) = true -> body x g = Some (y, rest) -> gparams_valid (gs_par y) = true) ->
  gparams_valid (gs_par s) = true -> deliver s t body = (Done, s') ->
  exists s1 g s2 rest c, taken s s1 t /\ gas_left s t g /\ body s1 g = Some (s2, rest) /\ due_refund (gs_par s2) t c /\
    (forall d, 0 <= amt c d <= amt (tx_fee t) d) /\ (forall a, payer_of t a -> moved (gs_bank s2) (gs_bank s') MFeeCollector (User a) c).
Proof. exact refund_paid. Qed.
(** Without a grant the refund does not make it fail. *)
Theorem C47_never_fails_partial : forall s t body,
  (forall x g y rest, gparams_valid (gs_par x) = true -> body x g = Some (y, rest) ->
    gparams_valid (gs_par y) = true /\ tx_pgas t <= rest /\ forall d, bal (gs_bank x) MFeeCollector d <= bal (gs_bank y) MFeeCollector d) ->
  gparams_valid (gs_par s) = true -> (forall d, 0 <= bal (gs_bank s) MFeeCollector d) -> (forall g, ~ by_grant t g) ->
  forall s', deliver s t body = (Failed, s') -> exists g, gas_left s t g /\ body s' g = None.
Proof. exact no_grant_done. Qed.
(** Without a refund a grant is charged the fee once. *)
Theorem C47_grant_partial : forall s t body r s',
  (forall x g y rest, body x g = Some (y, rest) -> gparams_valid (gs_par y) = true /\ gs_grants y = gs_grants x /\ ~ refunds (gs_par y) t) ->
  deliver s t body = (r, s') -> r <> Rejected -> grants_once s s' t.
Proof. exact grant_once. Qed.
(** With one it is charged twice. *)
Theorem C47_grant_refuted : exists s t s1 s', gparams_valid (gs_par s) = true /\ deliver s t idle = (Done, s') /\
  by_grant t 11 /\ charged (gs_grants s) (gs_grants s1) (11%N, tx_payer t) (tx_fee t) /\ charged (gs_grants s1) (gs_grants s') (11%N, tx_payer t) (tx_fee t) /\
  (lim s, amt (tx_fee t) KYVE, lim s') = (Some 100, 40, Some 20) /\ ~ grants_once s s' t.
Proof. exact twice_witness. Qed.
(** A grant of less than twice the fee never lets a refundable transaction through … *)
Theorem C47_grant_exhausted : forall s t g a l d body s',
  by_grant t g -> gs_grants s !! (g, tx_payer t) = Some a -> limit_of a = Some l -> 0 < amt (tx_fee t) d -> amt l d < 2 * amt (tx_fee t) d ->
  (forall x g y rest, body x g = Some (y, rest) -> gparams_valid (gs_par y) = true /\ gs_grants y = gs_grants x /\ refunds (gs_par y) t) ->
  deliver s t body <> (Done, s').
Proof. exact grant_exhausted. Qed.
(** … but the fee is taken. *)
Theorem C47_fails_refuted : exists s t s', gparams_valid (gs_par s) = true /\ by_grant t 11 /\ lim s = Some (amt (tx_fee t) KYVE) /\
  (exists s1 g, gas_left s t g /\ taken s s1 t /\ idle s1 g <> None) /\ deliver s t idle = (Failed, s') /\ (KV s, KV s', lim s') = ([1000; 1000; 0], [1000; 960; 40], None).
Proof. exact fails_witness. Qed.
Example C47_case : (let '(r, s') := deliver ex_norefund (ex_tx (coin KYVE 50) 100 (Some 11%N) [Plain 9]) idle in (r, KV s', lim s')) = (Done, [1000; 950; 50], Some 50).
Proof. exact ex_grant. Qed.

(** The messages run with the gas that is left after the surcharges of the messages of the transaction. *)
Theorem C56_surcharge_partial : forall s t body r s', deliver s t body = (r, s') -> r <> Rejected ->
  exists s1 g, taken s s1 t /\ gas_left s t g /\ forall body', body' s1 g = body s1 g -> deliver s t body' = (r, s').
Proof. exact surcharged. Qed.
(** If they exceed the gas limit it is rejected. *)
Theorem C56_rejected_partial : forall s t body x, rates (gp_adj (gs_par s)) (tx_types t) x -> tx_gas t < x + tx_other t -> deliver s t body = (Rejected, s).
Proof. exact too_expensive. Qed.
(** Messages inside MsgExec are not charged. *)
Theorem C56_nested_refuted : exists s t body s' x, gparams_valid (gs_par s) = true /\ rates (gp_adj (gs_par s)) (all_types t) x /\ tx_gas t < x /\ deliver s t body = (Done, s').
Proof. exact nested_witness. Qed.
Example C56_case :
  (let '(r, s') := deliver (ex 100) (ex_tx (coin KYVE 300) 600 None [Plain 7; Plain 8]) idle in (r, KV s')) = (Done, [700; 1000; 300]) /\
  (let '(r, s') := deliver (ex 100) (ex_tx (coin KYVE 300) 549 None [Plain 7; Plain 8]) idle in (r, KV s')) = (Rejected, [1000; 1000; 0]) /\
  rates (gp_adj ex_par) [7%N; 8%N] 520.
Proof. exact ex_gas. Qed.

Print Assumptions C45_price_partial.
Print Assumptions C45_taken_partial.
Print Assumptions C45_accepted_partial.
Print Assumptions C45_local_partial.
Print Assumptions C45_mempool_refuted.
Print Assumptions C47_refund_partial.
Print Assumptions C47_never_fails_partial.
Print Assumptions C47_grant_partial.
Print Assumptions C47_grant_refuted.
Print Assumptions C47_grant_exhausted.
Print Assumptions C47_fails_refuted.
Print Assumptions C56_surcharge_partial.
Print Assumptions C56_rejected_partial.
Print Assumptions C56_nested_refuted.
