(** * Properties of the account queries and of the questions of protocol nodes: C60 to C63. *)
From Verif Require Import Base BaseFacts Delegation DelegationQueue DelegationClaims DelegationClaims2 DelegationClaims3 Stakers Funders FundersClaims Team RoundRobin Pool Bundles Chain ChainFrame
  ArchiveInv ChainLift PoolClaims FundersInv VoteClaims TallyClaims Query QueryFacts Account AccountClaims AccountSlots AccountLists AskClaims.
From Verif Require Import ChainExamples PoolExamples AccountExamples.
Local Notation after ops := (crun g0 ops).

(** ** C60: the assets of an account *)
(** Balance, own delegation and the sum of all delegations (modulo 2^64). [X]: any set of stakers that
    contains everybody the account has something delegated to. *)
Theorem C60_delegation : forall g, genesis g -> forall ops, cops_ok (gstart g) ops ->
  let c := crun (gstart g) ops in forall a r, account_assets c a = Some r ->
  as_balance r = bal (c_bank c) (User a) KYVE /\ as_self r = delegation_of (c_d c) a a /\
  forall X, (forall s, delegation_of (c_d c) s a <> 0 -> s ∈ X) ->
    as_delegation r = w64 (sum_over X (fun s => delegation_of (c_d c) s a)).
Proof. intros g Hg ops Hok c a r E. apply (claim_assets_delegation g ops a r E). Qed.
(** The unbonding amounts are the sums of what the pending requests ask for (modulo 2^64). Missing for
    the full statement: it is not what will be paid, see [C60_unbonding_refuted]. *)
Theorem C60_unbonding_partial : forall g, genesis g -> forall ops, cops_ok (gstart g) ops ->
  let c := crun (gstart g) ops in forall a r, account_assets c a = Some r ->
  as_unbonding r = w64 (zsum u_amount (List.filter (of_account a) (pending (c_d c)))) /\
  as_self_unbonding r = w64 (zsum u_amount (List.filter (fun e => (u_staker e =? a)%N) (List.filter (of_account a) (pending (c_d c))))).
Proof. intros g Hg ops Hok c a r E. exact (claim_assets_unbonding g Hg ops Hok a r E). Qed.
(** The rewards are what withdrawing from every staker pays, up to one unit per staker and denom.
    Missing for the full statement: equality, which fails (C04), and that every withdrawal is accepted (C02). *)
Theorem C60_rewards_partial : forall g, genesis g -> forall ops, cops_ok (gstart g) ops ->
  let c := crun (gstart g) ops in forall a r l c', account_assets c a = Some r -> NoDup l -> (forall s, In s l <-> is_delegator (c_d c) s a) ->
  perform c (map (CWithdraw a) l) = Some c' ->
  forall x, let paid := bal (c_bank c') (User a) x - bal (c_bank c) (User a) x in
    - Z.of_nat (length l) <= paid - amt (as_rewards r) x <= Z.of_nat (length l).
Proof. intros g Hg ops Hok c a r l c' E. exact (claim_assets_rewards g Hg ops Hok a r l c' E). Qed.
(** The funding is what the account gets by defunding everything: each of these messages is accepted. *)
Theorem C60_funding : forall g, genesis g -> forall ops, cops_ok (gstart g) ops ->
  let c := crun (gstart g) ops in forall a r l, account_assets c a = Some r -> NoDup l -> (forall p, In p l <-> exists x, rem (c_f c) a p x <> 0) ->
  exists c', perform c (map (fun p => CDefund a p (funded (c_f c) a p)) l) = Some c' /\
    forall x, bal (c_bank c') (User a) x = bal (c_bank c) (User a) x + amt (as_funding r) x.
Proof. intros g Hg ops Hok c a r l E. exact (claim_assets_funding g Hg ops Hok a r l E). Qed.
Example C60_case : genesis gen0 /\ cops_ok (gstart gen0) (busy ++ busy_more) /\
  shown (after (busy ++ busy_more)) 4 = Some (998880, 0, 0, 120, 5, 6, 900) /\
  shown (after (busy ++ busy_more)) 2 = Some (998893, 1007, 3, 1007, 3, 0, 0) /\
  (fun c => user_bal c 4) <$> perform (after (busy ++ busy_more)) [CWithdraw 4 1; CWithdraw 4 2] = Some 998886 /\
  (fun c => user_bal c 4) <$> perform (after (busy ++ busy_more)) [CDefund 4 0 (coin KYVE 900)] = Some 999780.
Proof. split; [exact gen0_genesis|]. split; [exact busy_ok|exact busy_case]. Qed.
(** The same 100 can be asked back twice: 200 are reported as unbonding, 100 are paid. *)
Theorem C60_unbonding_refuted : exists g ops more a, genesis g /\ cops_ok (gstart g) ops /\ cops_ok (crun (gstart g) ops) more /\
  let c := crun (gstart g) ops in let c' := crun c more in
  as_unbonding <$> account_assets c a = Some 200 /\ pending (c_d c') = [] /\ bal (c_bank c') (User a) KYVE = bal (c_bank c) (User a) KYVE + 100.
Proof. exact unbonding_refutes. Qed.
(** The sum wraps: 2^59 will be paid, zero is reported. *)
Theorem C60_wrap_refuted : exists g ops more a, genesis g /\ cops_ok (gstart g) ops /\ cops_ok (crun (gstart g) ops) more /\
  let c := crun (gstart g) ops in let c' := crun c more in
  as_unbonding <$> account_assets c a = Some 0 /\ pending (c_d c') = [] /\ bal (c_bank c') (User a) KYVE = bal (c_bank c) (User a) KYVE + 2 ^ 59.
Proof. exact wrap_refutes. Qed.

(** ** C61: redelegation slots *)
(** The entries are the accepted redelegations that are at most one cooldown old. Missing for the full
    statement: cooldowns of 2^63 or more, and histories in which the cooldown is raised (records that have
    expired before do not come back). *)
Theorem C61_entries_partial : forall g, genesis g -> forall ops, cops_ok (gstart g) ops ->
  let c := crun (gstart g) ops in forall a, cooldown (gstart g) < two63 -> never_raised (gstart g) ops ->
  redelegation_entries (c_d c) a =
    map (fun x => (x, x + cooldown c)) (List.filter (fun x => c_time c - x <=? cooldown c) (redelegated (gstart g) ops a)).
Proof. intros g Hg ops Hok c a. exact (claim_slots_entries g Hg ops Hok a). Qed.
(** Unless the maximum is below the number of used slots: without a free slot every redelegation is
    refused; with one, it is accepted if there was none in the same block and the stakes allow it; it takes
    one slot, for one cooldown, and changes no other account's. Missing for the full statement:
    [C61_slots_refuted], [C61_lowered_refuted] and values of 2^63 or more. *)
Theorem C61_slots_partial : forall g, genesis g -> forall ops, cops_ok (gstart g) ops ->
  let c := crun (gstart g) ops in cooldown c < two63 -> max_redelegations c < two63 ->
  forall d from to a, 0 <= a < two63 -> Z.of_nat (length (redelegation_entries (c_d c) d)) <= max_redelegations c ->
  (available_slots (c_d c) d = 0 -> cmsg c (CRedelegate d from to a) = None) /\
  (0 < available_slots (c_d c) d -> ~ In (c_time c) (map fst (redelegation_entries (c_d c) d)) ->
     is_delegator (c_d c) from d -> staker_exists c to = true -> is_active (c_s c) to = true -> a <= delegation_of (c_d c) from d ->
     exists c', cmsg c (CRedelegate d from to a) = Some c') /\
  (forall c', cmsg c (CRedelegate d from to a) = Some c' ->
     redelegation_entries (c_d c') d = redelegation_entries (c_d c) d ++ [(c_time c, c_time c + cooldown c)] /\
     available_slots (c_d c') d = available_slots (c_d c) d - 1 /\
     forall b, b <> d -> redelegation_entries (c_d c') b = redelegation_entries (c_d c) b /\ available_slots (c_d c') b = available_slots (c_d c) b).
Proof.
  intros g Hg ops Hok c Hw Hm d from to a Ha Hu. split; [|split].
  - apply (claim_slots_none g Hg ops Hok Hw Hm); [apply Ha|exact Hu].
  - apply (claim_slots_some g Hg ops Hok Hw Hm); [apply Ha|exact Hu].
  - intros c'. apply (claim_slots_taken g Hg ops Hok Hw Hm d from to a c' Ha Hu).
Qed.
Example C61_case : genesis gen0 /\ cops_ok (gstart gen0) moves /\ never_raised (gstart gen0) moves /\ redelegated (gstart gen0) moves 4 = [30; 31; 32] /\
  slots (after moves) 4 = ([(30, 130); (31, 131); (32, 132)], 2) /\
  slots (after (moves ++ [CBegin 131 0])) 4 = ([(31, 131); (32, 132)], 3) /\ accepts (after (moves ++ [CBegin 131 0])) (CRedelegate 4 1 2 10) = true.
Proof.
  split; [exact gen0_genesis|]. split; [exact (proj1 (ok_app moves g0 _ moves_ok))|]. split; [exact moves_raised|].
  destruct moves_case as (H1 & H2 & H3 & H4). split; [exact H2|]. split; [exact H1|]. split; [exact H3|exact H4].
Qed.
(** Two slots are reported as free, but a second redelegation in the same block is refused. *)
Theorem C61_slots_refuted : exists g ops a from to x, genesis g /\ cops_ok (gstart g) ops /\
  let c := crun (gstart g) ops in
  available_slots (c_d c) a = 2 /\ x <= delegation_of (c_d c) from a /\ cmsg c (CRedelegate a from to x) = None /\
  cmsg (cstep c (CBegin 33 0)) (CRedelegate a from to x) <> None.
Proof. exact slot_refutes. Qed.
(** Governance lowers the maximum below what is in use: 2^64 - 2 free slots are reported, none can be used. *)
Theorem C61_lowered_refuted : exists g ops a, genesis g /\ cops_ok (gstart g) ops /\
  let c := crun (gstart g) ops in
  available_slots (c_d c) a = two64 - 2 /\ max_redelegations c = 1 /\ cmsg c (CRedelegate a 1 2 10) = None.
Proof. exact lowered_refutes. Qed.

(** ** C62: the questions of protocol nodes *)
(** CanVote names exactly the votes that are accepted. *)
Theorem C62_vote : forall g, genesis g -> forall ops, cops_ok (gstart g) ops ->
  let c := crun (gstart g) ops in forall p s v storage,
  match ask_vote c p s v storage with
  | CannotVote => ~ may_vote c p s v storage /\ forall w, cmsg c (CVote p s v storage w) = None
  | CanVote => may_vote c p s v storage /\ s ∉ bp_abstain (get_prop c p) /\
      forall w, is_Some (cmsg c (CVote p s v storage w)) <-> w = Valid \/ w = Invalid \/ w = Abstain
  | CanVoteNoAbstain => may_vote c p s v storage /\ s ∈ bp_abstain (get_prop c p) /\
      forall w, is_Some (cmsg c (CVote p s v storage w)) <-> w = Valid \/ w = Invalid
  end.
Proof. intros g _ ops _ c. exact (claim_ask_vote c). Qed.
(** A vote changes the answer for the voter in this pool as it should, and for nobody else. *)
Theorem C62_vote_seen : forall g, genesis g -> forall ops, cops_ok (gstart g) ops ->
  let c := crun (gstart g) ops in forall q x y st w c', cmsg c (CVote q x y st w) = Some c' ->
  (forall p s v st', (p, s) <> (q, x) -> ask_vote c' p s v st' = ask_vote c p s v st') /\
  ask_vote c' q x y st = match w with Abstain => CanVoteNoAbstain | _ => CannotVote end.
Proof. intros g _ ops _ c. exact (claim_vote_seen c). Qed.
(** If CanPropose says no, submitting and skipping are refused. *)
Theorem C62_propose_no : forall g, genesis g -> forall ops, cops_ok (gstart g) ops ->
  let c := crun (gstart g) ops in forall p s v from, ask_propose c p s v from = false ->
  (~ exists pl, next_up c p s v from pl) /\ cmsg c (CSkip p s v from) = None /\
  (forall m, sb_pool m = p -> sb_staker m = s -> sb_creator m = v -> sb_from m = from -> cmsg c (CSubmit m) = None).
Proof. intros g Hg ops Hok c. exact (claim_ask_no g Hg ops Hok). Qed.
(** If it says yes, skipping is accepted, and submitting valid arguments is if no bundle is stored or the
    stored one is decided. Missing for the full statement: the undecided bundle ([C62_propose_refuted]), a
    whitelist without the base denom, data of 2^63 bytes, 2^63 voting power. *)
Theorem C62_propose_yes_partial : forall g, genesis g -> forall ops, cops_ok (gstart g) ops ->
  let c := crun (gstart g) ops in forall p s v from, ask_propose c p s v from = true ->
  is_Some (wl_find (wl (c_f c)) KYVE) -> bp_data (get_prop c p) < two63 ->
  (exists pl, next_up c p s v from pl) /\ is_Some (cmsg c (CSkip p s v from)) /\
  (forall m pl, sb_pool m = p -> sb_staker m = s -> sb_creator m = v -> sb_from m = from ->
     get_pool c p = Some pl -> args_ok pl m -> pool_power c p < two63 ->
     is_Some (cmsg c (CSubmit m)) <-> bp_storage (get_prop c p) = 0%N \/ ~ verdict c p (Some s) ONone).
Proof.
  intros g Hg ops Hok c p s v from E Hk Hd. destruct (claim_ask_skip g Hg ops Hok p s v from E Hk Hd) as [H1 H2]. split; [exact H1|]. split; [exact H2|].
  intros m pl <- <- <- <- Hp Ha Hpw. exact (claim_ask_submit g Hg ops Hok m pl E Hp Ha Hk Hd Hpw).
Qed.
(** CanValidate names the one staker the address may act for. *)
Theorem C62_validate : forall g, genesis g -> forall ops, cops_ok (gstart g) ops ->
  let c := crun (gstart g) ops in forall p v,
  (get_pool c p = None -> ask_validate c p v = None) /\
  (is_Some (get_pool c p) -> forall s, ask_validate c p v = Some s <-> signs c p s v).
Proof.
  intros g Hg ops Hok c p v. split; [intros E; unfold ask_validate; rewrite E; reflexivity|]. exact (claim_ask_validate g Hg ops Hok p v).
Qed.
Example C62_case : genesis gen0 /\ cops_ok (gstart gen0) asked /\
  (ask_vote (after asked) 0 2 12 51, ask_vote (after asked) 0 3 13 51, ask_vote (cstep (after asked) (CVote 0 3 13 51 Abstain)) 0 3 13 51, ask_vote (after asked) 0 3 12 51)
    = (CannotVote, CanVote, CanVoteNoAbstain, CannotVote) /\
  (ask_propose (after asked) 0 1 11 20, accepts (after asked) (CSubmit (sub 1 11 52 10 20 30 70)), accepts (after asked) (CSkip 0 1 11 20)) = (true, true, true) /\
  (ask_propose (after asked) 0 2 12 20, ask_propose (after asked) 0 1 11 21) = (false, false) /\
  (ask_validate (after asked) 0 12, ask_validate (after asked) 0 14, ask_validate (after asked) 1 12) = (Some 2%N, None, None).
Proof. split; [exact gen0_genesis|]. split; [exact asked_ok|exact asked_case]. Qed.
(** CanPropose says yes, the arguments are fine, but the submission is refused: no quorum. *)
Theorem C62_propose_refuted : exists g ops m, genesis g /\ cops_ok (gstart g) ops /\
  let c := crun (gstart g) ops in
  ask_propose c (sb_pool m) (sb_staker m) (sb_creator m) (sb_from m) = true /\
  (exists pl, get_pool c (sb_pool m) = Some pl /\ args_ok pl m) /\ cmsg c (CSubmit m) = None.
Proof. exact propose_refutes. Qed.

(** ** C63: the listings of delegations and requests *)
Theorem C63_delegators : forall g, genesis g -> forall ops, cops_ok (gstart g) ops ->
  let c := crun (gstart g) ops in forall s, exists L,
  shows (fun key o l n => match delegators_page (c_d c) s key o l n with Some (r, k, t, _, _) => Some (r, k, t) | None => None end) L /\
  (forall key o l n r k t total count, delegators_page (c_d c) s key o l n = Some (r, k, t, total, count) ->
     total = delegation_amount (c_d c) s /\ count = Z.of_nat (length L)) /\
  NoDup (map dr_delegator L) /\ (forall a, In a (map dr_delegator L) <-> is_delegator (c_d c) s a) /\
  (forall r, In r L -> record_of g ops s (dr_delegator r) r).
Proof. intros g Hg ops Hok c s. exact (claim_delegators g Hg ops Hok s). Qed.
Theorem C63_stakers : forall g, genesis g -> forall ops, cops_ok (gstart g) ops ->
  let c := crun (gstart g) ops in forall a, exists L, shows (stakers_of_page (c_d c) a) L /\ NoDup (map dr_staker L) /\
  (forall s, In s (map dr_staker L) <-> is_delegator (c_d c) s a) /\ (forall r, In r L -> record_of g ops (dr_staker r) a r).
Proof. intros g Hg ops Hok c a. exact (claim_stakers g Hg ops Hok a). Qed.
Theorem C63_unbondings : forall g, genesis g -> forall ops, cops_ok (gstart g) ops ->
  let c := crun (gstart g) ops in forall a, shows (unbondings_page (c_d c) a)
    (map (fun e => (u_amount e, u_time e, u_staker e)) (List.filter (of_account a) (pending (c_d c)))).
Proof. intros g Hg ops Hok c a. exact (claim_unbondings g Hg ops Hok a). Qed.
Example C63_case : genesis gen0 /\ cops_ok (gstart gen0) (busy ++ busy_more) /\
  (fun x => (map rec3 (fst (fst (fst (fst x)))), snd (fst (fst (fst x))), snd (fst (fst x)), snd (fst x), snd x)) <$> delegators_page (c_d (after (busy ++ busy_more))) 1 None 0 1 true
    = Some ([(1%N, 1%N, 1000, 92)], Some 4%N, 2, 1070, 2) /\
  (fun x => (map rec3 (fst (fst x)), snd (fst x), snd x)) <$> stakers_of_page (c_d (after (busy ++ busy_more))) 4 None 0 5 true
    = Some ([(1%N, 4%N, 70, 6); (2%N, 4%N, 50, 0)], None, 2) /\
  unbondings_page (c_d (after (busy ++ busy_more))) 4 None 0 1 true = Some ([(5, 120, 2%N)], None, 1).
Proof. split; [exact gen0_genesis|]. split; [exact busy_ok|exact lists_case]. Qed.

Print Assumptions C60_delegation.
Print Assumptions C60_unbonding_partial.
Print Assumptions C60_rewards_partial.
Print Assumptions C60_funding.
Print Assumptions C60_unbonding_refuted.
Print Assumptions C60_wrap_refuted.
Print Assumptions C61_entries_partial.
Print Assumptions C61_slots_partial.
Print Assumptions C61_slots_refuted.
Print Assumptions C61_lowered_refuted.
Print Assumptions C62_vote.
Print Assumptions C62_vote_seen.
Print Assumptions C62_propose_no.
Print Assumptions C62_propose_yes_partial.
Print Assumptions C62_validate.
Print Assumptions C62_propose_refuted.
Print Assumptions C63_delegators.
Print Assumptions C63_stakers.
Print Assumptions C63_unbondings.
