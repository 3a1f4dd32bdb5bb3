(** * Properties of x/bundles and x/pool (C19-C22, C31).
    [start c0]: a chain without pools, stakers and funders, with any money and parameters.
    [cops_ok c0 ops]: a history of admissible messages and blocks; [crun c0 ops] is the state
    after it. *)
From Verif Require Import Base BaseFacts Delegation Stakers Funders Team RoundRobin Pool Bundles Chain ChainFrame ArchiveInv ArchiveClaims PayoutClaims ChainExamples.

(** C19: for powers that do not exceed a total below 2^63. *)
Theorem C19_quorum : forall valid invalid total,
  0 <= valid -> 0 <= invalid -> valid + invalid <= total -> total < two63 ->
  (quorum valid invalid total = VValid <-> total < 2 * valid) /\
  (quorum valid invalid total = VInvalid <-> 0 < total /\ total <= 2 * invalid) /\
  (quorum valid invalid total = VNoQuorum <-> total = 0 \/ (2 * valid <= total /\ 2 * invalid < total)).
Proof. exact claim_quorum. Qed.
Theorem C19_more_valid : forall valid invalid total x y,
  0 <= valid -> 0 <= invalid -> 0 <= x -> 0 <= y -> valid + x + invalid <= total + y -> y <= x -> total + y < two63 ->
  quorum valid invalid total = VValid -> valid + invalid <= total -> quorum (valid + x) invalid (total + y) = VValid.
Proof. exact claim_quorum_more. Qed.

(** C20: the bundles of every pool are numbered without gaps and cover [0, current index)
    without gaps; each comes from an accepted submission of allowed size and says what that
    submission said; none is ever changed. *)
Theorem C20_archive : forall c0 ops, start c0 -> cops_ok c0 ops ->
  (forall p pl, get_pool (crun c0 ops) p = Some pl -> gapless (crun c0 ops) p pl)
  /\ (forall p id fb, c_fin (crun c0 ops) !! (p, id) = Some fb ->
        is_Some (get_pool (crun c0 ops) p) /\
        (exists m sp comp, accepted c0 ops p m sp comp /\ as_submitted m sp comp fb) /\
        forall more, cops_ok (crun c0 ops) more -> c_fin (crun c0 (ops ++ more)) !! (p, id) = Some fb).
Proof. exact claim_archive. Qed.
Example C20_case : start g0 /\ cops_ok g0 h1 /\ fbs h1 = [(0, 20, 1%N); (20, 50, 1%N); (-1, -1, 0%N)].
Proof. split; [exact g0_start|]. split; [exact h1_ok|exact h1_bundles]. Qed.

(** C21: the lookup by index returns exactly the bundle whose range contains the index. *)
Theorem C21_lookup : forall c0 ops p i, start c0 -> cops_ok c0 ops -> 0 <= i < two64 ->
  let c := crun c0 ops in
  (forall fb, find_by_index c p i = Some fb <-> exists id, c_fin c !! (p, id) = Some fb /\ contains fb i)
  /\ (forall id id' f g, c_fin c !! (p, id) = Some f -> c_fin c !! (p, id') = Some g -> contains f i -> contains g i -> id = id')
  /\ (is_Some (find_by_index c p i) <-> exists pl, get_pool c p = Some pl /\ i < pl_index pl).
Proof. exact claim_lookup. Qed.
Example C21_case : map (found h1) [0; 19; 20; 49; 50; two64 - 1] = [Some 51; Some 51; Some 52; Some 52; None; None]%N.
Proof. exact h1_found. Qed.

(** C22: the four parts add up to the charged coins in every denom, none is negative, and each
    is what the network fee, the storage cost and the commission allow. *)
Theorem C22_split : forall bp l commission delegated sp data total r,
  reward_inputs bp l commission data total ->
  calculate_payouts true commission delegated bp l sp data total = Some r ->
  forall d,
    let t := amt (r_treasury r) d in let s := amt (r_storage r) d in
    let k := amt (r_commission r) d in let g := amt (r_delegation r) d in
    t + s + k + g = amt total d /\ 0 <= t /\ 0 <= s /\ 0 <= k /\ 0 <= g /\
    t = amt total d * b_fee bp / ONE /\
    (if 0 <? delegated then k = (amt total d - t - s) * commission / ONE else g = 0) /\
    (forall rest : gmap N Z,
       (forall x, amt rest x = amt total x - amt total x * b_fee bp / ONE) -> (forall x, rest !! x <> Some 0) ->
       storage_part_ok l (storage_cost bp sp) data (Z.of_nat (size rest)) (amt total d - t) s d).
Proof. exact claim_split. Qed.
Theorem C22_split_defined : forall bp l commission delegated sp data total,
  reward_inputs bp l commission data total ->
  (forall d, is_Some (total !! d) -> is_Some (wl_find l d)) ->
  is_Some (calculate_payouts true commission delegated bp l sp data total).
Proof. exact claim_split_total. Qed.
(** The data sizes of [reward_inputs] are below 2^63. For larger ones the split is not
    defined, and the chain stops. The same happens if a charged denom is not on the whitelist. *)
Theorem C22_all_sizes_refuted : exists c0 ops m, start c0 /\ cops_ok c0 (ops ++ [CEnd]) /\
  c_halt (crun c0 ops) = false /\ c_halt (crun c0 (ops ++ [CEnd])) = true /\ cmsg (crun c0 ops) (CSubmit m) = None.
Proof. exact huge_refutes. Qed.
Theorem C22_unlisted_refuted : exists c0 ops, start c0 /\ cops_ok c0 (ops ++ [CEnd]) /\
  c_halt (crun c0 ops) = false /\ c_halt (crun c0 (ops ++ [CEnd])) = true.
Proof. exact unlisted_refutes. Qed.
Example C22_case :
  reward_inputs bp0 (fp_list fp0) (ONE / 10) 10 (coin KYVE 108) /\
  (fun r => map (fun c => amt c KYVE) [r_treasury r; r_storage r; r_commission r; r_delegation r])
    <$> calculate_payouts true (ONE / 10) 1000 bp0 (fp_list fp0) 1 10 (coin KYVE 108) = Some [1; 5; 10; 92].
Proof. exact split_case. Qed.

(** C31 *)
Theorem C31_inflation : forall balance rate,
  0 <= balance < two63 -> pct rate ->
  inflation_payout balance rate = Some (balance * rate / ONE) /\ 0 <= balance * rate / ONE <= balance.
Proof. exact claim_inflation. Qed.
Theorem C31_charge : forall c p, 0 <= bal (c_bank c) (PoolAcc p) KYVE < two63 -> pct (pp_rate (c_pp c)) ->
  let x := bal (c_bank c) (PoolAcc p) KYVE * pp_rate (c_pp c) / ONE in
  exists c', charge_inflation c p = Some (c', x) /\ c_halt c' = c_halt c /\
    forall a d, bal (c_bank c') a d = bal (c_bank c) a d
      + (if decide (d = KYVE) then (if decide (a = MPool) then x else 0) - (if decide (a = PoolAcc p) then x else 0) else 0).
Proof. exact claim_charge. Qed.
Example C31_case : inflation_payout 1005 (ONE / 10) = Some 100.
Proof. by vm_compute. Qed.

Print Assumptions C19_quorum.
Print Assumptions C19_more_valid.
Print Assumptions C20_archive.
Print Assumptions C21_lookup.
Print Assumptions C22_split.
Print Assumptions C22_split_defined.
Print Assumptions C22_all_sizes_refuted.
Print Assumptions C22_unlisted_refuted.
Print Assumptions C31_inflation.
Print Assumptions C31_charge.
