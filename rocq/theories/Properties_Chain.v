(** * The modules keep their promises inside the running chain: the property C77 (statements; the
    proofs are in ChainWide.v).

    What C04, C06, C07, C12, C13, C16, C17, C32, C35-C37, C42 and C44 say about histories of one
    module, for histories of the whole chain: from any genesis, any messages to any module, any
    blocks, in any order. *)
From Verif Require Import Base BaseFacts Delegation F1Spec DelegationInv DelegationBank DelegationQueue DelegationProps DelegationRewards
  DelegationClaims DelegationClaims2 DelegationClaims3 Stakers StakersInv StakersClaims Funders FundersInv FundersRun FundersClaims
  Team TeamInv TeamRun TeamClaims RoundRobin Pool Bundles Chain ChainLift PayFlow ChainWide ChainExamples PoolExamples EventExamples MeaningExamples WideExamples.

(** Funders: the pool money is there, to the unit ([from_outside]: what transfers outside the protocol
    put into the account), and the module never halts the chain; at most 50 funders per pool, each
    listed once, and whoever has money in a pool is listed. *)
Theorem C77_funds : forall g, genesis g -> forall ops, cops_ok (gstart g) ops -> let c := crun (gstart g) ops in
  fs_halt (c_f c) = false /\
  (forall x, bal (c_bank c) MFunders x = bal (g0_bank g) MFunders x + from_outside MFunders x (gstart g) ops + sum_rem (c_f c) x) /\
  (forall p, NoDup (actives (c_f c) p) /\ (length (actives (c_f c) p) <= 50)%nat) /\
  (forall a p x, rem (c_f c) a p x <> 0 -> 0 < rem (c_f c) a p x /\ a ∈ actives (c_f c) p).
Proof. exact w_funds. Qed.
(** A funder gets everything back that is left, at any time, whatever the other modules did. *)
Theorem C77_exit : forall g, genesis g -> forall ops a p amounts, cops_ok (gstart g) ops -> let c := crun (gstart g) ops in
  (exists x, rem (c_f c) a p x <> 0) -> cpos amounts -> (forall x, rem (c_f c) a p x <= amt amounts x) ->
  exists c', cmsg c (CDefund a p amounts) = Some c' /\
    forall x, rem (c_f c') a p x = 0 /\ bal (c_bank c') (User a) x = bal (c_bank c) (User a) x + rem (c_f c) a p x.
Proof. exact w_exit. Qed.
(** The funding of another account touches nobody else, except that the 50th place may be taken:
    then the one who loses it gets the rest back. *)
Theorem C77_displaced : forall g, genesis g -> forall ops a p amounts apb u, cops_ok (gstart g) ops -> let c := crun (gstart g) ops in
  cop_ok c (CFund a p amounts apb) -> u <> a -> let c' := cstep c (CFund a p amounts apb) in
  (forall q, q <> p -> fs_fundings (c_f c') !! (u, q) = fs_fundings (c_f c) !! (u, q)) /\
  ((fs_fundings (c_f c') !! (u, p) = fs_fundings (c_f c) !! (u, p) /\ forall x, bal (c_bank c') (User u) x = bal (c_bank c) (User u) x) \/
   (length (actives (c_f c) p) = 50%nat /\ u ∈ actives (c_f c) p /\ u ∉ actives (c_f c') p /\
    forall x, rem (c_f c') u p x = 0 /\ bal (c_bank c') (User u) x = bal (c_bank c) (User u) x + rem (c_f c) u p x)).
Proof. exact w_displaced. Qed.
(** Stakers: the commission of all stakers is in the module, a claim is accepted exactly up to what is
    owed, and is paid. *)
Theorem C77_commission : forall g, genesis g -> forall ops, cops_ok (gstart g) ops -> let c := crun (gstart g) ops in
  (forall d, StakersClaims.owed_all (c_s c) d <= bal (c_bank c) MStakers d) /\
  (forall s amounts, cpos amounts -> is_Some (ss_stakers (c_s c) !! s) ->
     (is_Some (cmsg c (CClaimCommission s amounts)) <-> forall d, amt amounts d <= StakersClaims.owed (c_s c) s d)) /\
  (forall s amounts c', cpos amounts -> cmsg c (CClaimCommission s amounts) = Some c' ->
     forall d, (forall s', StakersClaims.owed (c_s c') s' d = StakersClaims.owed (c_s c) s' d - if decide (s' = s) then amt amounts d else 0) /\
       bal (c_bank c') (User s) d = bal (c_bank c) (User s) d + amt amounts d /\
       bal (c_bank c') MStakers d = bal (c_bank c) MStakers d - amt amounts d).
Proof. exact w_commission. Qed.
(** The counter of a pool is the number of its members, at most 50; a staker is active exactly if
    member of a pool; addresses of protocol nodes are not shared. *)
Theorem C77_members : forall g, genesis g -> forall ops, cops_ok (gstart g) ops -> let c := crun (gstart g) ops in
  (forall p, count_of (c_s c) p = StakersClaims.members (c_s c) p /\ StakersClaims.members (c_s c) p <= 50) /\
  (forall s, is_active (c_s c) s = true <-> exists p, member (c_s c) p s) /\
  (forall p s1 s2 v1 v2, get_val (c_s c) p s1 = Some v1 -> get_val (c_s c) p s2 = Some v2 -> vl_addr v1 = vl_addr v2 -> s1 = s2) /\
  (forall s p1 p2 v1 v2, get_val (c_s c) p1 s = Some v1 -> get_val (c_s c) p2 s = Some v2 -> vl_addr v1 = vl_addr v2 -> p1 = p2) /\
  (forall p s v, get_val (c_s c) p s = Some v -> vl_addr v <> s).
Proof. exact w_members. Qed.
(** A staker may join exactly if the pool is not disabled and there is a free place or a weaker member. *)
Theorem C77_join : forall g, genesis g -> forall ops s p v a, cops_ok (gstart g) ops -> let c := crun (gstart g) ops in
  (forall x, power c x < two63) -> 0 <= a < two63 ->
  is_Some (ss_stakers (c_s c) !! s) -> s <> v -> ~ member (c_s c) p s ->
  (forall p' x, get_val (c_s c) p' s = Some x -> vl_addr x <> v) -> (forall s' x, get_val (c_s c) p s' = Some x -> vl_addr x <> v) ->
  a <= bal (c_bank c) (User s) KYVE ->
  is_Some (cmsg c (CJoin s p v a)) <->
    (exists pl, get_pool c p = Some pl /\ pl_disabled pl = false) /\ (StakersClaims.members (c_s c) p < 50 \/ exists m, member (c_s c) p m /\ power c m < power c s).
Proof. exact w_join. Qed.
(** Delegators: what the query says is right up to one unit per coin, and the payout is what the
    ledger says. *)
Theorem C77_rewards : forall g, genesis g -> forall ops s d, cops_ok (gstart g) ops -> let c := crun (gstart g) ops in
  (forall x, -1 <= amt (outstanding (c_d c) s d) x - amt (payable (c_d c) s d) x <= 1) /\
  (forall x, 0 <= amt (payable (c_d c) s d) x) /\
  forall c', cmsg c (CWithdraw d s) = Some c' ->
    outstanding (c_d c') s d = ∅ /\ delegation_of (c_d c') s d = delegation_of (c_d c) s d /\
    delegation_amount (c_d c') s = delegation_amount (c_d c) s /\
    forall x, bal (c_bank c') (User d) x = bal (c_bank c) (User d) x + amt (payable (c_d c) s d) x.
Proof. exact w_rewards. Qed.
(** No message of somebody else changes it, evaluations of bundles and blocks excepted. *)
Theorem C77_isolated : forall g, genesis g -> forall ops o s d, cops_ok (gstart g) ops -> let c := crun (gstart g) ops in cop_ok c o -> outside d o -> let c' := cstep c o in
  delegation_of (c_d c') s d = delegation_of (c_d c) s d /\ payable (c_d c') s d = payable (c_d c) s d /\
  forall x, -1 <= amt (outstanding (c_d c') s d) x - amt (outstanding (c_d c) s d) x <= 1.
Proof. exact w_isolated. Qed.
(** Every block pays exactly the requests that are due, oldest first. *)
Theorem C77_unbonding : forall g, genesis g -> forall ops t prov, cops_ok (gstart g) ops -> let c := crun (gstart g) ops in let c' := cstep c (CBegin t prov) in
  let wait := p_unbonding (ds_params (c_d c)) in
  cop_ok c (CBegin t prov) -> t + wait < two64 ->
  exists done, pending (c_d c) = done ++ pending (c_d c') /\
    Forall (fun e => u_time e + wait <= t) done /\ Forall (fun e => t < u_time e + wait) (pending (c_d c')).
Proof. exact w_unbonding. Qed.
(** Team: nobody claims more than is unlocked; an accepted claim pays exactly what it says. *)
Theorem C77_team_claims : forall g, genesis g -> forall ops, cops_ok (gstart g) ops -> Forall small_team ops -> let c := crun (gstart g) ops in
  (forall i a, ts_accounts (c_t c) !! i = Some a ->
    0 <= va_claimed a <= unlocked a (ts_time (c_t c)) /\ unlocked a (ts_time (c_t c)) <= vested a (ts_time (c_t c)) <= va_total a) /\
  (forall s i x r c', cop_ok c (CTeam (TClaim s i x r)) -> cmsg c (CTeam (TClaim s i x r)) = Some c' ->
    exists a a', ts_accounts (c_t c) !! i = Some a /\ ts_accounts (c_t c') !! i = Some a' /\
      va_claimed a' = va_claimed a + x /\ va_claimed a' <= unlocked a (ts_time (c_t c)) /\
      bal (c_bank c') MTeam KYVE = bal (c_bank c) MTeam KYVE - x /\
      bal (c_bank c') (User r) KYVE = bal (c_bank c) (User r) KYVE + x /\
      (forall j, j <> i -> ts_accounts (c_t c') !! j = ts_accounts (c_t c) !! j) /\ (s = FOUNDATION \/ s = BCP)).
Proof. exact w_team_claims. Qed.
(** The module has what it owes and pays every claim that is due. Partial as C44: for histories
    within the allocation, with mild inflation. *)
Theorem C77_team_backed_partial : forall g, genesis g -> forall ops, cops_ok (gstart g) ops -> Forall small_team ops -> TEAM_ALLOCATION <= bal (g0_bank g) MTeam KYVE ->
  quiet (gstart g) ops -> minted_all ops < two63 -> let c := crun (gstart g) ops in
  ts_halt (c_t c) = false /\
  TEAM_ALLOCATION - zsum va_claimed (ts_accounts (c_t c)) + zsum (fun a => va_rewards a - va_rclaimed a) (ts_accounts (c_t c))
    + (ts_arewards (c_t c) - ts_aclaimed (c_t c)) <= bal (c_bank c) MTeam KYVE /\
  (forall s i a x r, (s = FOUNDATION \/ s = BCP) -> ts_accounts (c_t c) !! i = Some a -> 0 <= x ->
     va_claimed a + x <= unlocked a (ts_time (c_t c)) -> is_Some (cmsg c (CTeam (TClaim s i x r)))) /\
  (forall s i a x r, (s = FOUNDATION \/ s = BCP) -> ts_accounts (c_t c) !! i = Some a -> 0 <= x ->
     va_rclaimed a + x <= va_rewards a -> is_Some (cmsg c (CTeam (TClaimRewards s i x r)))) /\
  (forall x r, 0 <= x -> ts_aclaimed (c_t c) + x <= ts_arewards (c_t c) -> is_Some (cmsg c (CTeam (TClaimAuthority FOUNDATION x r)))).
Proof. exact w_team_backed. Qed.

(** ** Concrete cases *)
Example C77_funds_case : fs_halt (c_f (crun g0 story)) = false /\ bal (c_bank (crun g0 story)) MFunders KYVE = 700 /\
  actives (c_f (crun g0 story)) 0 = [4%N] /\ rem (c_f (crun g0 story)) 4 0 KYVE = 700 /\
  bal (c_bank (cstep (crun g0 story) leaving)) (User 4) KYVE = bal (c_bank (crun g0 story)) (User 4) KYVE + 700.
Proof. exact funds_case. Qed.
Example C77_displaced_case : cops_ok (gstart genc) full /\ let c := crun (gstart genc) full in let c' := cstep c newcomer in
  length (actives (c_f c) 0) = 50%nat /\ map (fun u => rem (c_f c) u 0 KYVE) [20; 21]%N = [2000; 2100] /\ map (fun u => rem (c_f c') u 0 KYVE) [20; 21]%N = [0; 2100] /\
  map (fun u => bal (c_bank c') (User u) KYVE - bal (c_bank c) (User u) KYVE) [20; 21]%N = [2000; 0].
Proof. exact displaced_case. Qed.
Example C77_commission_case : let c := crun g0 story in map (fun s => StakersClaims.owed (c_s c) s KYVE) [1; 2; 3]%N = [28; 0; 0] /\
  yes (cmsg c (CClaimCommission 1 (coin KYVE 28))) = true /\ yes (cmsg c (CClaimCommission 1 (coin KYVE 29))) = false.
Proof. exact commission_case. Qed.
Example C77_join_case : let c := crun g0 h1 in StakersClaims.members (c_s c) 0 = 2 /\ yes (cmsg c (CJoin 3 0 33 0)) = true /\ yes (cmsg c (CJoin 3 1 33 0)) = false /\
  yes (cmsg c (CJoin 3 0 12 0)) = false.
Proof. exact join_case. Qed.
Example C77_rewards_case : let c := crun g0 h1 in amt (payable (c_d c) 1 1) KYVE = 198 /\ yes (cmsg c (CWithdraw 1 1)) = true /\
  bal (c_bank (cstep c (CWithdraw 1 1))) (User 1) KYVE = bal (c_bank c) (User 1) KYVE + 198 /\
  amt (payable (c_d (cstep c (CDelegate 4 1 250))) 1 1) KYVE = 198.
Proof. exact rewards_case. Qed.
Example C77_unbonding_case : cops_ok g0 (waiting ++ [CBegin 135 0]) /\ map u_delegator (pending (c_d (crun g0 waiting))) = [1; 2]%N /\
  map u_delegator (pending (c_d (cstep (crun g0 waiting) (CBegin 135 0)))) = [2]%N.
Proof. exact unbonding_case. Qed.
Example C77_team_case : cops_ok (gstart gent) employed /\ Forall small_team employed /\ TEAM_ALLOCATION <= bal (g0_bank gent) MTeam KYVE /\
  quiet (gstart gent) employed /\ minted_all employed < two63 /\ let c := crun (gstart gent) employed in
  map (fun a => (va_claimed a, unlocked a (ts_time (c_t c)), va_rewards a)) (ts_accounts (c_t c)) = [(100000000000, 334704447363, 4); (0, 883978232313, 16)] /\
  ts_arewards (c_t c) = 1557918 /\ bal (c_bank c) MTeam KYVE = TEAM_ALLOCATION - 100000000000 + 4 + 16 + 1557918 /\
  map (fun x => yes (cmsg c (CTeam (TClaim FOUNDATION 0 x 7)))) [234704447363; 234704447364] = [true; false] /\
  map (fun x => yes (cmsg c (CTeam (TClaimRewards BCP 1 x 7)))) [16; 17] = [true; false] /\ yes (cmsg c (CTeam (TClaimAuthority FOUNDATION 1557918 7))) = true.
Proof. exact team_case. Qed.

Print Assumptions C77_funds.
Print Assumptions C77_exit.
Print Assumptions C77_displaced.
Print Assumptions C77_commission.
Print Assumptions C77_members.
Print Assumptions C77_join.
Print Assumptions C77_rewards.
Print Assumptions C77_isolated.
Print Assumptions C77_unbonding.
Print Assumptions C77_team_claims.
Print Assumptions C77_team_backed_partial.
