(** * Concrete cases for what messages do. *)
From Verif Require Import Base BaseFacts Delegation Stakers Funders Team RoundRobin Pool Bundles Chain ChainLift Global Params ParamsClaims
  IndexInv FundingsFrame Wire WireFrame WireClaims ChainExamples PoolExamples ParamsExamples WireExamples EffectClaims.

(** Messages that are accepted at the end of [raw1] of WireExamples. *)
Definition nexts : list rmsg :=
  [ RDelegate 5 3 70; RUndelegate 5 2 50; RRedelegate 5 2 3 50; RWithdraw 5 1; RCreateStaker 5 (Some 7) 60; RCommission 1 (Some 9); RLeave 1 0;
    RCreateFunder 5 fund1; RFund 4 0 [(KYVE, Some 400)] [(KYVE, Some 30)]; RDefund 4 0 [(KYVE, Some 300)]; RTeamCreate FOUNDATION 1000 5;
    RSchedule AUTHORITY 1 2 3 100 50; RDisablePool AUTHORITY 0; RUpdatePool AUTHORITY 0 (Some (mkUA None None (Some 77) None None None None None)) ].
Lemma nexts_ok : forall m, m ∈ nexts -> typed m /\ moderate (r_c end1) m /\ exists r', deliver gr0 end1 m = Some r'.
Proof.
  intros m Hm. assert (H : forallb (fun m => typedb m && moderateb (r_c end1) m && accepted end1 m) nexts = true) by (vm_compute; reflexivity).
  rewrite forallb_forall in H. apply elem_of_list_In, H in Hm. rewrite !andb_true_iff in Hm. destruct Hm as [[H1 H2] H3].
  split; [by apply typedb_ok|]. split; [by apply moderateb_ok|by apply accepted_spec].
Qed.
(** What is seen after each of them, before which it is [seen end1]. *)
Definition seen (r : rstate) :=
  let c := r_c r in
  ((del c 1 5, del c 2 5, del c 3 5, del c 5 5), balance c 5 KYVE, balance c 4 KYVE, remaining c 4 0 KYVE, per_bundle c 4 0 KYVE,
   (match membership c 0 1 with Some x => Some (vl_addr x, vl_leaving x) | None => None end), length (ts_accounts (c_t c))).
Definition after_msg (m : rmsg) := seen (match deliver gr0 end1 m with Some r => r | None => end1 end).
Lemma nexts_seen :
  seen end1 = (4900, 100, 0, 0, 834999999999995000, 999000, 1000, 100, Some (11%N, false), 0%nat) /\
  after_msg (RDelegate 5 3 70) = (4900, 100, 70, 0, 834999999999994930, 999000, 1000, 100, Some (11%N, false), 0%nat) /\
  after_msg (RRedelegate 5 2 3 50) = (4900, 50, 50, 0, 834999999999995000, 999000, 1000, 100, Some (11%N, false), 0%nat) /\
  after_msg (RCreateStaker 5 (Some 7) 60) = (4900, 100, 0, 60, 834999999999994940, 999000, 1000, 100, Some (11%N, false), 0%nat) /\
  after_msg (RLeave 1 0) = (4900, 100, 0, 0, 834999999999995000, 999000, 1000, 100, Some (11%N, true), 0%nat) /\
  after_msg (RFund 4 0 [(KYVE, Some 400)] [(KYVE, Some 30)]) = (4900, 100, 0, 0, 834999999999995000, 998600, 1400, 30, Some (11%N, false), 0%nat) /\
  after_msg (RDefund 4 0 [(KYVE, Some 300)]) = (4900, 100, 0, 0, 834999999999995000, 999300, 700, 100, Some (11%N, false), 0%nat) /\
  after_msg (RTeamCreate FOUNDATION 1000 5) = (4900, 100, 0, 0, 834999999999995000, 999000, 1000, 100, Some (11%N, false), 1%nat).
Proof. split_and!; vm_compute; reflexivity. Qed.
