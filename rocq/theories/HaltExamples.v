(** * What can stop the chain: concrete cases and counterexamples (C64). *)
From Verif Require Import Base BaseFacts Delegation Stakers Funders Team RoundRobin Pool Bundles Chain ChainFrame ArchiveInv ChainLift ChainExamples PoolExamples HaltClaims.

Local Notation after ops := (crun g0 ops).
(** The uploader's time is up with a bundle that two of the three stakers accept: it is finalized,
    the third staker gets a point for not voting. *)
Definition late_end : list cop :=
  setup ++ [ CBegin 100 1000; CSubmit (sub 1 11 51 10 0 20 60); CEnd; CBegin 110 1000; CVote 0 2 12 51 Valid; CEnd; CBegin 1000 1000 ].
Lemma late_end_ok : cops_ok g0 (late_end ++ [CEnd]). Proof. apply cops_okb_ok. vm_cast_no_check (eq_refl true). Qed.
Lemma late_end_moderate : Forall moderate late_end.
Proof. unfold late_end, setup. repeat (constructor; [first [exact I|vm_compute; reflexivity]|]). constructor. Qed.
Definition n_final (c : chain) : N := match get_pool c 0 with Some pl => pl_total pl | None => 0 end.
Lemma late_end_case : n_final (after late_end) = 0%N /\ n_final (after (late_end ++ [CEnd])) = 1%N /\ c_halt (after (late_end ++ [CEnd])) = false.
Proof. split; [vm_compute; reflexivity|]. split; vm_compute; reflexivity. Qed.
Lemma base_listed : is_Some (wl_find (fp_list (g0_fp gen0)) KYVE). Proof. vm_compute. eauto. Qed.
Lemma huge_genesis : exists g ops, genesis g /\ cops_ok (gstart g) (ops ++ [CEnd]) /\ is_Some (wl_find (wl (c_f (crun (gstart g) ops))) KYVE) /\
  c_halt (crun (gstart g) ops) = false /\ c_halt (crun (gstart g) (ops ++ [CEnd])) = true.
Proof.
  exists gen0, huge. split; [exact gen0_genesis|]. split; [exact (with_end _ _ huge_ok)|]. change (gstart gen0) with g0.
  split; [vm_compute; eauto|]. split; vm_compute; reflexivity.
Qed.
