(** * Team: the properties C41-C44 (statements; proofs are in the Team* files).

    [treach b t ops]: a history from genesis with bank [b] and time [t], inputs the environment
    can produce, allocations below 2^63. [tend b t ops] is the state it ends in. *)
From Verif Require Import Base BaseFacts Team TeamInv TeamRun TeamClaims TeamExamples.

(** C41: for every account with allocation below 2^63, every commencement and clawback date and
    all times below 2^63 (every block time); beyond that, for commencements whose vesting end
    fits uint64. *)
Theorem C41_curves_partial : forall a t1 t2,
  0 <= va_total a < two63 -> 0 < va_start a < two64 ->
  va_clawback a = 0 \/ va_start a <= va_clawback a < two64 ->
  0 <= t1 <= t2 -> t2 < two64 -> t2 < two63 \/ va_start a + VESTING < two64 ->
  vested a t1 <= vested a t2 /\ unlocked a t1 <= unlocked a t2 /\
  0 <= unlocked a t2 <= vested a t2 /\ vested a t2 <= vesting_max a <= va_total a /\
  (t2 < va_start a + CLIFF -> vested a t2 = 0) /\
  (t2 < Z.max (va_start a) TGE + CLIFF -> unlocked a t2 = 0).
Proof. intros a t1 t2 H1 H2 H3 H4 H5 H6. apply curves; [by split|done|split; [lia|done]]. Qed.
(** The vested amount in closed form. *)
Theorem C41_vested_exact : forall a t,
  0 <= va_total a < two63 -> 0 < va_start a < two64 -> va_clawback a = 0 -> 0 <= t ->
  vested a t = (if t <? va_start a + CLIFF then 0
                else if t <? va_start a + VESTING then va_total a * (t - va_start a) / VESTING else va_total a).
Proof. intros a t H1 H2 H3 H4. apply curves_exact; [split; [done|split; [done|by left]]|done|done]. Qed.
(** At extreme query times the vested amount exceeds the reported maximum. *)
Theorem C41_curves_refuted : exists a t,
  (0 <= va_total a < two63 /\ 0 < va_start a < two64 /\ (va_clawback a = 0 \/ va_start a <= va_clawback a < two64)) /\
  0 <= t < two64 /\ vesting_max a < vested a t.
Proof. exact refute_curves. Qed.

(** C42: claims never exceed what is unlocked, which never exceeds what is vested. *)
Theorem C42_claims : forall b t ops i a, treach b t ops -> ts_accounts (tend b t ops) !! i = Some a ->
  0 <= va_claimed a <= unlocked a (ts_time (tend b t ops)) /\
  unlocked a (ts_time (tend b t ops)) <= vested a (ts_time (tend b t ops)) <= va_total a.
Proof. exact claims_unlocked. Qed.
(** An accepted claim moves exactly the amount from the module to the recipient. *)
Theorem C42_claim_exact : forall b t ops s i x r st', treach b t ops -> top_ok (tend b t ops) (TClaim s i x r) ->
  let st := tend b t ops in
  msg_claim_unlocked st s i x r = Some st' ->
  exists a a', ts_accounts st !! i = Some a /\ ts_accounts st' !! i = Some a' /\
    va_claimed a' = va_claimed a + x /\ va_claimed a' <= unlocked a (ts_time st) /\
    bal (ts_bank st') MTeam KYVE = bal (ts_bank st) MTeam KYVE - x /\
    bal (ts_bank st') (User r) KYVE = bal (ts_bank st) (User r) KYVE + x /\
    (forall j, j <> i -> ts_accounts st' !! j = ts_accounts st !! j) /\ (s = FOUNDATION \/ s = BCP).
Proof. exact claim_exact. Qed.
(** Messages of anyone else change nothing. *)
Theorem C42_only_authorities : forall st o s,
  match o with TCreate x _ _ | TClaim x _ _ _ | TClawback x _ _ | TClaimRewards x _ _ _ | TClaimAuthority x _ _ => x = s | _ => False end ->
  s <> FOUNDATION -> s <> BCP -> tstep st o = st.
Proof. exact only_authorities. Qed.

(** C43: the cap holds as long as clawback dates only move earlier. *)
Theorem C43_cap_partial : forall b t ops, treach b t ops -> all_earlier (tinit b t) ops ->
  zsum vesting_max (ts_accounts (tend b t ops)) <= TEAM_ALLOCATION.
Proof. exact allocation_cap. Qed.
(** Clawing back, creating an account with the freed allocation and lifting the clawback
    doubles the allocation. *)
Theorem C43_cap_refuted : exists b t ops, treach b t ops /\
  zsum vesting_max (ts_accounts (tend b t ops)) = 2 * TEAM_ALLOCATION.
Proof. exact refute_cap. Qed.
(** A huge allocation overflows the check; the whole module balance can then be claimed. *)
Theorem C43_cap_overflow_refuted : exists b t ops, 0 <= t < two63 /\ tops_ok (tinit b t) ops /\
  all_earlier (tinit b t) ops /\
  TEAM_ALLOCATION < zsum vesting_max (ts_accounts (tend b t ops)) /\
  exists st', msg_claim_unlocked (tend b t ops) FOUNDATION 1 (bal b MTeam KYVE) 3 = Some st' /\ bal (ts_bank st') MTeam KYVE = 0.
Proof. exact refute_cap_overflow. Qed.

(** C44, for histories within the cap in which every block satisfies
    accounts * provision < 2 * 10^18 and less than 2^63 is minted altogether. *)
Theorem C44_backed_partial : forall b t ops, treach44 b t ops ->
  let st := tend b t ops in
  ts_halt st = false /\
  (forall i a, ts_accounts st !! i = Some a -> 0 <= va_rclaimed a <= va_rewards a) /\
  0 <= ts_aclaimed st <= ts_arewards st /\
  required_balance st = spec_required st /\
  spec_required st <= bal (ts_bank st) MTeam KYVE.
Proof. exact rewards_backed. Qed.
Theorem C44_block_partial : forall b t ops t' p sup, treach44 b t ops ->
  let st := tend b t ops in
  top_ok st (TBegin t' p sup) -> mild st (TBegin t' p sup) -> minted ops + p < two63 ->
  let st' := tstep st (TBegin t' p sup) in
  ts_halt st' = false /\
  bal (ts_bank st') MTeam KYVE - bal (ts_bank st) MTeam KYVE = recorded st' - recorded st /\
  bal (ts_bank st) MFeeCollector KYVE - bal (ts_bank st') MFeeCollector KYVE = recorded st' - recorded st /\
  0 <= recorded st' - recorded st <= p.
Proof. exact block_conserves. Qed.
(** With 4 * 10^18 minted in one block the rounded shares add up to more than the provision and
    the chain halts. *)
Theorem C44_block_refuted : exists b t ops o, treach44 b t ops /\ top_ok (tend b t ops) o /\ minted (ops ++ [o]) < two63 /\
  in_cap (tstep (tend b t ops) o) /\ ts_halt (tstep (tend b t ops) o) = true.
Proof. exact refute_block. Qed.

(** Reward claims are paid exactly, out of the recorded rewards, to the right authority only. *)
Theorem C44_authority_claim : forall b t ops s x r st', treach44 b t ops -> 0 <= x ->
  let st := tend b t ops in
  msg_claim_authority st s x r = Some st' ->
  s = FOUNDATION /\ ts_aclaimed st' = ts_aclaimed st + x /\ ts_aclaimed st' <= ts_arewards st /\
  ts_arewards st' = ts_arewards st /\ ts_accounts st' = ts_accounts st /\
  bal (ts_bank st') MTeam KYVE = bal (ts_bank st) MTeam KYVE - x /\
  bal (ts_bank st') (User r) KYVE = bal (ts_bank st) (User r) KYVE + x.
Proof. exact authority_claim. Qed.
Theorem C44_account_claim : forall b t ops s i x r st', treach44 b t ops -> 0 <= x ->
  let st := tend b t ops in
  msg_claim_rewards st s i x r = Some st' ->
  (s = FOUNDATION \/ s = BCP) /\
  exists a a', ts_accounts st !! i = Some a /\ ts_accounts st' !! i = Some a' /\
    va_rclaimed a' = va_rclaimed a + x /\ va_rclaimed a' <= va_rewards a /\ va_rewards a' = va_rewards a /\
    va_claimed a' = va_claimed a /\
    (forall j, j <> i -> ts_accounts st' !! j = ts_accounts st !! j) /\
    bal (ts_bank st') MTeam KYVE = bal (ts_bank st) MTeam KYVE - x /\
    bal (ts_bank st') (User r) KYVE = bal (ts_bank st) (User r) KYVE + x.
Proof. exact account_reward_claim. Qed.

Print Assumptions C41_curves_partial.
Print Assumptions C41_vested_exact.
Print Assumptions C41_curves_refuted.
Print Assumptions C42_claims.
Print Assumptions C42_claim_exact.
Print Assumptions C42_only_authorities.
Print Assumptions C43_cap_partial.
Print Assumptions C43_cap_refuted.
Print Assumptions C43_cap_overflow_refuted.
Print Assumptions C44_backed_partial.
Print Assumptions C44_block_partial.
Print Assumptions C44_block_refuted.
Print Assumptions C44_authority_claim.
Print Assumptions C44_account_claim.
