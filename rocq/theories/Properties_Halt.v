(** * What can stop the chain (C64). *)
From Verif Require Import Base BaseFacts Delegation Stakers Funders Team RoundRobin Pool Bundles Chain ChainFrame ArchiveInv ChainLift ChainExamples PoolExamples HaltClaims HaltExamples.

(** In every reachable state: no pool's timeout was left in the middle, no funding ever exceeded the
    funders' account, and no entry of the reward distribution was ever missing. *)
Theorem C64_always : forall g ops, genesis g -> cops_ok (gstart g) ops -> let c := crun (gstart g) ops in
  c_bad c = false /\ fs_halt (c_f c) = false /\ forall s, f_halt (getf (c_d c) s) = false.
Proof. exact h_always. Qed.
(** No message of anyone stops the block logic. *)
Theorem C64_messages : forall g ops, genesis g -> cops_ok (gstart g) ops -> let c := crun (gstart g) ops in
  forall o, match o with CBegin _ _ | CEnd => False | _ => True end ->
  c_halt (cstep c o) = c_halt c /\ ts_halt (c_t (cstep c o)) = ts_halt (c_t c).
Proof. exact h_messages. Qed.
(** The end of a block stops the chain only if a stored bundle states at least 2^63 bytes or the base
    denom is not on the whitelist. Full statement: without these two conditions; refuted below and by
    [C22_all_sizes_refuted] and [C22_unlisted_refuted]. *)
Theorem C64_end_partial : forall g ops, genesis g -> cops_ok (gstart g) ops -> let c := crun (gstart g) ops in
  is_Some (wl_find (fp_list (fs_params (c_f c))) KYVE) ->
  (forall p b, c_prop c !! p = Some b -> bp_storage b <> 0%N -> bp_data b < 2 ^ 63) ->
  c_halt (cstep c CEnd) = c_halt c /\ ts_halt (c_t (cstep c CEnd)) = ts_halt (c_t c).
Proof. exact h_end. Qed.
(** Hence only the start of a block can stop the block logic in a history where no submission states
    2^63 bytes and no update of the whitelist leaves the base denom out. *)
Theorem C64_history_partial : forall g ops o, genesis g -> is_Some (wl_find (fp_list (g0_fp g)) KYVE) -> cops_ok (gstart g) (ops ++ [o]) ->
  Forall (fun o => match o with CSubmit m => sb_data m < 2 ^ 63 | CParamsF _ p => is_Some (wl_find (fp_list p) KYVE) | _ => True end) ops ->
  (forall t pr, o <> CBegin t pr) -> let c := crun (gstart g) ops in
  c_halt (cstep c o) = c_halt c /\ ts_halt (c_t (cstep c o)) = ts_halt (c_t c).
Proof. exact h_history. Qed.
Example C64_case : genesis gen0 /\ cops_ok (gstart gen0) (late_end ++ [CEnd]) /\ is_Some (wl_find (fp_list (g0_fp gen0)) KYVE) /\
  Forall moderate late_end /\ n_final (crun (gstart gen0) late_end) = 0%N /\ n_final (crun (gstart gen0) (late_end ++ [CEnd])) = 1%N.
Proof.
  split; [exact gen0_genesis|]. split; [exact late_end_ok|]. split; [exact base_listed|]. split; [exact late_end_moderate|].
  split; [exact (proj1 late_end_case)|exact (proj1 (proj2 late_end_case))].
Qed.
Theorem C64_end_refuted : exists g ops, genesis g /\ cops_ok (gstart g) (ops ++ [CEnd]) /\ is_Some (wl_find (wl (c_f (crun (gstart g) ops))) KYVE) /\
  c_halt (crun (gstart g) ops) = false /\ c_halt (crun (gstart g) (ops ++ [CEnd])) = true.
Proof. exact huge_genesis. Qed.

Print Assumptions C64_always.
Print Assumptions C64_messages.
Print Assumptions C64_end_partial.
Print Assumptions C64_history_partial.
Print Assumptions C64_end_refuted.
