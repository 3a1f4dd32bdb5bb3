(** * Properties of x/funders (C32-C38).
    Histories are lists of admissible operations from an empty module; [freach] says that a
    history is admissible, [fend] is the state after it. *)
From Verif Require Import Base BaseFacts Funders FundersInv FundersRun FundersClaims FundersExamples FundersFull.

(** C32: the module account holds exactly what it held at first plus what others put into it
    ([fdonations]) plus the sum of what is left
    of all fundings; charging a pool never fails and pays out what it says. *)
Theorem C32_backed : forall b pr ops, freach b pr ops ->
  fs_halt (fend b pr ops) = false /\
  forall x, bal (fs_bank (fend b pr ops)) MFunders x = bal b MFunders x + fdonations (finit b pr) ops x + sum_rem (fend b pr ops) x.
Proof. exact backed. Qed.
Theorem C32_charge_succeeds : forall b pr ops p r, freach b pr ops -> fop_ok (fend b pr ops) (FCharge p r) ->
  is_Some (fs_active (fend b pr ops) !! p) ->
  exists pays, snd (charge_funders (fend b pr ops) p r) = Some pays /\
    forall x, bal (fs_bank (fstep (fend b pr ops) (FCharge p r))) r x = bal (fs_bank (fend b pr ops)) r x + amt pays x.
Proof. exact charge_ok. Qed.

(** C33: deposited = remaining + charged + returned for every funder, pool and denom; the
    total-funded figure is what was charged; over all funders of a pool it is what the
    recipients of the charges received. *)
Theorem C33_ledger : forall b pr ops a p x, freach b pr ops ->
  over (finit b pr) ops (fun s o => deposited_by s o a p x)
    = rem (fend b pr ops) a p x + over (finit b pr) ops (fun s o => charged_by s o a p x)
      + over (finit b pr) ops (fun s o => returned_by s o a p x) /\
  tot (fend b pr ops) a p x = over (finit b pr) ops (fun s o => charged_by s o a p x) /\
  sum_tot (fend b pr ops) p x = over (finit b pr) ops (fun s o => collected_by s o p x).
Proof. exact ledger. Qed.

(** C34: a charge takes exactly min(remaining, amount per bundle) of each whitelisted coin of
    each funding of the pool, nothing of other coins, nothing of other pools, and no money of
    the funder's own account. *)
Theorem C34_charge_bounded : forall b pr ops p r, freach b pr ops -> fop_ok (fend b pr ops) (FCharge p r) ->
  let st := fend b pr ops in let st' := fstep st (FCharge p r) in
  forall a q x,
  (q <> p -> rem st' a q x = rem st a q x) /\
  ((forall e, In e (fp_list (fs_params st)) -> w_denom e <> x) -> rem st' a q x = rem st a q x) /\
  (forall e, In e (fp_list (fs_params st)) -> w_denom e = x ->
     rem st a p x - rem st' a p x = Z.min (rem st a p x) (apb_of st a p x)) /\
  0 <= rem st a q x - rem st' a q x <= Z.min (rem st a q x) (apb_of st a q x) /\
  user_bal st' a x = user_bal st a x.
Proof. exact charge_bounded. Qed.

(** C35: no duplicates, at most 50, and everyone with a remaining amount is listed. Missing:
    that everyone listed has a remaining amount (see the two theorems below). *)
Theorem C35_actives_partial : forall b pr ops p, freach b pr ops ->
  NoDup (actives (fend b pr ops) p) /\ (length (actives (fend b pr ops) p) <= 50)%nat /\
  (forall a x, rem (fend b pr ops) a p x <> 0 -> a ∈ actives (fend b pr ops) p).
Proof. exact actives_spec. Qed.
(** Exactness for histories in which every fund message carries coins. *)
Theorem C35_actives_exact_partial : forall b pr ops p, freach b pr ops -> Forall carries_coins ops ->
  forall a, a ∈ actives (fend b pr ops) p <-> exists x, 0 < rem (fend b pr ops) a p x.
Proof. exact actives_exact. Qed.
Theorem C35_actives_refuted : exists b pr ops p a, freach b pr ops /\
  a ∈ actives (fend b pr ops) p /\ forall x, rem (fend b pr ops) a p x = 0.
Proof. exact refute_actives. Qed.

(** C36: a defund message for at least the remaining amounts always succeeds and pays all. *)
Theorem C36_full_exit : forall b pr ops a p amounts, freach b pr ops ->
  let st := fend b pr ops in
  (exists x, rem st a p x <> 0) -> cpos amounts -> (forall x, rem st a p x <= amt amounts x) ->
  exists st', msg_defund st a p amounts = Some st' /\
    fs_halt st' = false /\
    (forall x, rem st' a p x = 0 /\ user_bal st' a x = user_bal st a x + rem st a p x).
Proof. exact exit_ok. Qed.

(** C37: a fund message of [a] leaves the funding of every other [c] alone, or all 50 slots are
    taken, [c] has the lowest score, the new funding of [a] has at least that score, and [c]
    gets everything back. Missing: that [a] had no slot, and that their score is higher. *)
Theorem C37_displaced_partial : forall b pr ops ex a p amounts apb c, freach b pr ops ->
  let st := fend b pr ops in
  fop_ok st (FFund ex a p amounts apb) -> c <> a ->
  let st' := fstep st (FFund ex a p amounts apb) in
  (forall q, q <> p -> fs_fundings st' !! (c, q) = fs_fundings st !! (c, q)) /\
  ((fs_fundings st' !! (c, p) = fs_fundings st !! (c, p) /\ forall x, user_bal st' c x = user_bal st c x) \/
   (length (actives st p) = 50%nat /\ c ∈ actives st p /\ c ∉ actives st' p /\
    (forall x, rem st' c p x = 0 /\ user_bal st' c x = user_bal st c x + rem st c p x) /\
    exists fc fa s0 s, fs_fundings st !! (c, p) = Some fc /\ fs_fundings st' !! (a, p) = Some fa /\
      score (fp_list (fs_params st)) (fd_amounts fc) = Some s0 /\ score (fp_list (fs_params st)) (fd_amounts fa) = Some s /\
      s0 <= s /\
      forall d fd, d ∈ actives st p -> fs_fundings st !! (d, p) = Some fd ->
        exists sd, score (fp_list (fs_params st)) (fd_amounts fd) = Some sd /\ s0 <= sd)).
Proof. exact displaced. Qed.
(** A funder who holds a slot tops up and the lowest funder is thrown out, leaving 49. *)
Theorem C37_displaced_refuted : exists b pr ops ex a p amounts apb c,
  freach b pr ops /\ fop_ok (fend b pr ops) (FFund ex a p amounts apb) /\ c <> a /\
  a ∈ actives (fend b pr ops) p /\
  0 < rem (fend b pr ops) c p KYVE /\
  rem (fstep (fend b pr ops) (FFund ex a p amounts apb)) c p KYVE = 0 /\
  length (actives (fstep (fend b pr ops) (FFund ex a p amounts apb)) p) = 49%nat.
Proof. exact refute_displaced_holder. Qed.
(** A newcomer with the very same coins throws out the lowest funder. *)
Theorem C37_displaced_equal_refuted : exists b pr ops ex a p amounts apb c,
  freach b pr ops /\ fop_ok (fend b pr ops) (FFund ex a p amounts apb) /\ c <> a /\
  a ∉ actives (fend b pr ops) p /\
  (forall x, amt amounts x = rem (fend b pr ops) c p x) /\ 0 < rem (fend b pr ops) c p KYVE /\
  rem (fstep (fend b pr ops) (FFund ex a p amounts apb)) c p KYVE = 0 /\
  rem (fstep (fend b pr ops) (FFund ex a p amounts apb)) a p KYVE = amt amounts KYVE.
Proof. exact refute_displaced_equal. Qed.

(** A full pool in which one coin of one funding is worth 2^63 or more (weight times amount over
    10^decimals) accepts no fund message at all, whoever sends it. *)
Theorem C37_blocked : forall b pr ops p c x e, freach b pr ops -> let st := fend b pr ops in
  length (actives st p) = 50%nat -> c ∈ actives st p -> wl_find (fp_list (fs_params st)) x = Some e ->
  two63 * ONE * 10 ^ w_decimals e <= w_weight e * rem st c p x ->
  forall ex a amounts apb, msg_fund st ex a p amounts apb = None.
Proof. exact blocked. Qed.
Example C37_blocked_case : freach huge_bank fprm huge /\
  length (actives huge_st 0) = 50%nat /\ bool_decide (50%N ∈ actives huge_st 0) = true /\
  wl_find (fp_list (fs_params huge_st)) KYVE = Some (mkW KYVE 6 10 1 ONE) /\
  (two63 * ONE * 10 ^ 6 <=? ONE * rem huge_st 50 0 KYVE) = true /\
  rem huge_st 1 0 KYVE = 1000000 /\ user_bal huge_st 51 KYVE = 1000000000 /\
  match msg_fund huge_st true 51 0 (purse 100000000 0) (purse 1 0) with None => true | Some _ => false end = true.
Proof. split; [exact huge_ok|exact huge_case]. Qed.

(** C38: after an accepted fund or defund message every remaining coin meets the conditions. *)
Theorem C38_accepted_meets_partial : forall b pr ops o a p, freach b pr ops ->
  let st := fend b pr ops in
  fop_ok st o ->
  match o with
  | FFund ex a' p' amounts apb => a' = a /\ p' = p /\ msg_fund st ex a' p' amounts apb <> None
  | FDefund a' p' amounts => a' = a /\ p' = p /\ msg_defund st a' p' amounts <> None
  | _ => False
  end ->
  forall x, rem (fstep st o) a p x <> 0 ->
    meets (fs_params st) x (rem (fstep st o) a p x) (apb_of (fstep st o) a p x).
Proof. exact accepted_meets. Qed.
(** The converse, for whitelists that name each denom once with positive minimums. *)
Theorem C38_meets_accepted_partial : forall b pr ops a p amounts apb, freach b pr ops ->
  let st := fend b pr ops in
  fop_ok st (FFund true a p amounts apb) -> plain_list (fs_params st) ->
  a ∈ fs_funders st -> is_Some (fs_active st !! p) -> (length (actives st p) < 50)%nat ->
  (forall x, amt amounts x <= user_bal st a x) ->
  (forall x, rem st a p x + amt amounts x <> 0 ->
     meets (fs_params st) x (rem st a p x + amt amounts x) (if amt apb x =? 0 then apb_of st a p x else amt apb x)) ->
  exists st', msg_fund st true a p amounts apb = Some st' /\
    (forall x, rem st' a p x = rem st a p x + amt amounts x /\
       (rem st' a p x <> 0 -> apb_of st' a p x = if amt apb x =? 0 then apb_of st a p x else amt apb x) /\
       user_bal st' a x = user_bal st a x - amt amounts x).
Proof. exact meets_accepted. Qed.
(** Without positive minimums a funding that meets every condition is rejected. *)
Theorem C38_meets_accepted_refuted : exists b pr ops a p amounts apb,
  freach b pr ops /\ fop_ok (fend b pr ops) (FFund true a p amounts apb) /\
  a ∈ fs_funders (fend b pr ops) /\ is_Some (fs_active (fend b pr ops) !! p) /\
  (length (actives (fend b pr ops) p) < 50)%nat /\
  NoDup (map w_denom (fp_list (fs_params (fend b pr ops)))) /\ fp_multiple (fs_params (fend b pr ops)) < two63 /\
  (forall x, amt amounts x <= user_bal (fend b pr ops) a x) /\
  (forall x, rem (fend b pr ops) a p x + amt amounts x <> 0 ->
     meets (fs_params (fend b pr ops)) x (rem (fend b pr ops) a p x + amt amounts x)
       (if amt apb x =? 0 then apb_of (fend b pr ops) a p x else amt apb x)) /\
  msg_fund (fend b pr ops) true a p amounts apb = None.
Proof. exact refute_converse. Qed.

Print Assumptions C32_backed.
Print Assumptions C32_charge_succeeds.
Print Assumptions C33_ledger.
Print Assumptions C34_charge_bounded.
Print Assumptions C35_actives_partial.
Print Assumptions C35_actives_exact_partial.
Print Assumptions C35_actives_refuted.
Print Assumptions C36_full_exit.
Print Assumptions C37_displaced_partial.
Print Assumptions C37_displaced_refuted.
Print Assumptions C37_displaced_equal_refuted.
Print Assumptions C37_blocked.
Print Assumptions C38_accepted_meets_partial.
Print Assumptions C38_meets_accepted_partial.
Print Assumptions C38_meets_accepted_refuted.
