(** * Messages on the wire: concrete cases and counterexamples. *)
From Verif Require Import Base BaseFacts Delegation Stakers Funders Team RoundRobin Pool Bundles Chain ChainFrame ChainLift Global Params ParamsFrame ParamsClaims
  ChainExamples PoolExamples ParamsExamples Wire WireFrame WireClaims.

(** 0 (the empty string) and 666 are no addresses, 666 is no denom. *)
Definition is_addr (n : N) : bool := negb (n =? 0)%N && negb (n =? 666)%N.
Definition gr0 : grammar.
Proof.
  refine (mkGr is_addr eq_refl (fun d => negb (d =? 666)%N) N.ltb N.ltb_irrefl _).
  intros x y z. rewrite !N.ltb_lt. lia.
Defined.

Definition typedb (m : rmsg) : bool :=
  match m with
  | RDelegate _ _ a | RUndelegate _ _ a | RRedelegate _ _ _ a | RCreateStaker _ _ a | RJoin _ _ _ a => u64b a
  | RTeamCreate _ t s => u64b t && u64b s
  | RTeamClaim _ _ a _ | RTeamClawback _ _ a | RTeamRewards _ _ a _ | RTeamAuthority _ a _ => u64b a
  | RSubmit m => u64b (sb_data m) && u64b (sb_from m) && u64b (sb_size m)
  | RSkip _ _ _ f => u64b f
  | RCreatePool _ _ _ a => u64b (ca_interval a) && u64b (ca_mindel a) && u64b (ca_maxsize a)
  | RUpdatePool _ _ (Some a) => ou64b (ua_interval a) && ou64b (ua_mindel a) && ou64b (ua_maxsize a)
  | RSchedule _ _ _ _ t d => u64b t && u64b d
  | _ => true
  end.
Definition moderateb (c : chain) (m : rmsg) : bool :=
  match m with
  | RUndelegate d s _ => delegation_of (c_d c) s d <? two63
  | RRedelegate d s _ _ => delegation_of (c_d c) s d <? two63
  | RJoin _ _ _ _ => powers_below c
  | RSubmit m => sb_from m + sb_size m <? two64
  | RCreatePool _ _ _ a => ca_interval a <? two62
  | RUpdatePool _ _ (Some a) => match ua_interval a with Some i => i <? two62 | None => true end
  | RParams _ (Some y) => payload_okb y
  | _ => true
  end.
Definition rop_okb (r : rstate) (o : rop) : bool :=
  match o with
  | RMsg m => typedb m && moderateb (r_c r) m
  | RBegin t x => cop_okb (r_c r) (CBegin t x)
  | REnd => true
  | RBank _ => false
  end.
Fixpoint rops_okb (gr : grammar) (r : rstate) (ops : list rop) : bool :=
  match ops with [] => true | o :: t => rop_okb r o && rops_okb gr (rstep gr r o) t end.
Lemma ou64b_opt x : ou64b x = true -> opt_u64 x.
Proof. intros H. apply ou64b_ok in H. destruct x; [|done]. exact H. Qed.
Lemma typedb_ok m : typedb m = true -> typed m.
Proof.
  destruct m; try done; cbn [typedb typed]; try (destruct payload; [|done]); rewrite ?andb_true_iff; intros;
    repeat match goal with H : _ /\ _ |- _ => destruct H end; split_and?; try (by apply u64b_ok); try (by apply ou64b_opt).
Qed.
Lemma moderateb_ok c m : moderateb c m = true -> moderate c m.
Proof.
  destruct m; try done; cbn [moderateb moderate]; try (destruct payload; [|done]); try (by apply Z.ltb_lt); try (by apply powers_below_ok);
    try (by apply payload_okb_ok).
  destruct (ua_interval _); [by apply Z.ltb_lt|done].
Qed.
Lemma rops_okb_ok gr : forall ops r, rops_okb gr r ops = true -> rops_ok gr r ops.
Proof.
  induction ops as [|o t IH]; intros r; cbn [rops_okb rops_ok]; [done|]. rewrite andb_true_iff. intros [H1 H2]. split; [|by apply IH].
  destruct o as [m|t' x| |b]; cbn [rop_okb rop_ok] in *; try done.
  - apply andb_true_iff in H1 as [H0 H1]. split; [by apply typedb_ok|by apply moderateb_ok].
  - by apply cop_okb_ok.
Qed.

(** "Foo", and an identity of sixteen digits. *)
Definition foo : list N := [70; 111; 111]%N.
Definition key : list N := [48; 49; 50; 51; 52; 53; 54; 55; 56; 57; 97; 98; 67; 68; 69; 102]%N.
Definition prof1 : sprofile := mkSPr foo [] key [] [].
Definition prof2 : sprofile := mkSPr foo foo [] [] [].
Definition bad_key : sprofile := mkSPr foo [] foo [] [].
Definition fund1 : fprofile := mkFPr foo [] [] [] [].
Definition r0 : rstate := rinit (gstart gen0) gp0.
Definition raw1 : list rop :=
  [ RBegin 10 0; RMsg (RCreatePool AUTHORITY true (Some 1000) ca0);
    RMsg (RMetadata 1 prof1) (* not yet a staker *);
    RMsg (RCreateStaker 1 (Some (ONE / 10)) 1000); RMsg (RCreateStaker 2 None 1000);
    RMsg (RCreateStaker 3 (Some (ONE + 1)) 1000) (* more than all *);
    RMsg (RCreateStaker 3 (Some (ONE / 10)) two63) (* more than there is *);
    RMsg (RCreateStaker 3 (Some (ONE / 10)) 1000);
    RMsg (RMetadata 1 prof1); RMsg (RMetadata 1 bad_key) (* three digits *); RMsg (RMetadata 2 prof1); RMsg (RMetadata 2 prof2);
    RMsg (RJoin 1 0 666 100) (* no address *); RMsg (RJoin 1 0 11 100); RMsg (RJoin 2 0 12 100); RMsg (RJoin 3 0 13 100);
    RMsg (RCreateFunder 4 (mkFPr [] [] [] [] [])) (* no name *); RMsg (RCreateFunder 4 fund1);
    RMsg (RFund 4 0 [(KYVE, Some 1000); (KYVE, Some 1)] [(KYVE, Some 100)]) (* twice the same coin *);
    RMsg (RFund 4 0 [(KYVE, Some 1000)] [(KYVE, Some 0)]) (* a zero *);
    RMsg (RFund 4 0 [(KYVE, Some 1000)] [(KYVE, Some 100)]);
    RMsg (RDelegate 5 1 5000); RMsg (RRedelegate 5 1 666 100) (* to nobody *); RMsg (RRedelegate 5 1 2 100); REnd;
    RBegin 20 1000; RMsg (RClaimRole 11 666 0) (* for nobody *); RMsg (RClaimRole 11 1 0); RMsg (RParams AUTHORITY (Some (YStakers (mkSY (Some 70) None)))); REnd ].
Definition end1 : rstate := rrun gr0 r0 raw1.
Definition accepted (r : rstate) (m : rmsg) : bool := match deliver gr0 r m with Some _ => true | None => false end.
Lemma raw1_ok : rops_ok gr0 r0 raw1.
Proof. apply rops_okb_ok. vm_cast_no_check (eq_refl true). Qed.
(** What the chain holds after that. *)
Lemma raw1_end :
  map (fun s => staker_exists (r_c end1) s) [1; 2; 3; 4; 666]%N = [true; true; true; false; false] /\
  map (fun s => r_stakers end1 !! s) [1; 2; 3; 4]%N = [Some prof1; Some prof2; Some no_profile; None] /\
  r_funders end1 !! 4%N = Some fund1 /\ bp_next (get_prop (r_c end1) 0) = 1%N /\
  map (fun s => delegation_of (c_d (r_c end1)) s 5) [1; 2]%N = [4900; 100] /\
  (st_commission <$> ss_stakers (c_s (r_c end1)) !! 2%N) = Some DEFAULT_COMMISSION /\
  ss_ctime (c_s (r_c end1)) = 70.
Proof. split_and!; vm_compute; reflexivity. Qed.
(** Messages that would be accepted next, and some that would not. *)
Lemma raw1_next :
  map (accepted end1)
    [ RRedelegate 5 2 3 50; RDefund 4 0 [(KYVE, Some 10)]; RMetadata 3 prof1; RUpdateFunder 4 fund1; RUndelegate 5 2 50; RLeave 1 0;
      RRedelegate 5 666 3 50; RSkip 11 666 0 0; RMetadata 4 prof1; RMetadata 3 bad_key; RUpdateFunder 1 fund1; RUndelegate 666 2 50 ] =
    [true; true; true; true; true; true; false; false; false; false; false; false].
Proof. vm_compute; reflexivity. Qed.
Lemma accepted_spec r m : accepted r m = true -> exists r', deliver gr0 r m = Some r'.
Proof. unfold accepted. destruct (deliver gr0 r m); eauto. done. Qed.
Lemma raw1_redelegate : exists r', deliver gr0 end1 (RRedelegate 5 2 3 50) = Some r'.
Proof. apply accepted_spec. vm_compute; reflexivity. Qed.
(** A message with two coins in the wrong order. *)
Lemma raw1_rejected : ~ wellformed gr0 (RFund 4 0 [(5%N, Some 7); (1%N, Some 7)] []).
Proof. rewrite <- claim_validate. by vm_compute. Qed.

(** ** Refutations *)
(** A funder whose name has a thousand bytes and whose identity is no key. *)
Definition long : list N := repeat 65%N 1000.
Definition fund2 : fprofile := mkFPr long foo long long long.
Lemma funder_case : r_funders (rrun gr0 r0 [RBegin 10 0; RMsg (RCreateFunder 4 fund2)]) !! 4%N = Some fund2.
Proof. vm_compute; reflexivity. Qed.
Lemma funder_limits_refuted : exists gr g gp ops a x,
  genesis g /\ valid_all (params_of (mkU (gstart g) gp)) /\ rops_ok gr (rinit (gstart g) gp) ops /\
  r_funders (rrun gr (rinit (gstart g) gp) ops) !! a = Some x /\ ((255 < length (fp_moniker x))%nat /\ ~ identity_wf (fp_identity x)).
Proof.
  exists gr0, gen0, gp0, [RBegin 10 0; RMsg (RCreateFunder 4 fund2)], 4%N, fund2.
  split; [exact gen0_genesis|]. split; [exact (proj1 u0_valid)|]. split; [apply rops_okb_ok; vm_compute; reflexivity|].
  split; [exact funder_case|]. split; [apply Nat.ltb_lt; vm_compute; reflexivity|].
  rewrite <- identity_spec. by vm_compute.
Qed.
(** Two stakers with the same name and the same identity. *)
Definition copycat : list rop :=
  [ RBegin 10 0; RMsg (RCreateStaker 1 None 1000); RMsg (RCreateStaker 2 None 1000); RMsg (RMetadata 1 prof1); RMsg (RMetadata 2 prof1) ].
Lemma identity_refuted : exists gr g gp ops s t x,
  genesis g /\ valid_all (params_of (mkU (gstart g) gp)) /\ rops_ok gr (rinit (gstart g) gp) ops /\ s <> t /\ sp_identity x <> [] /\
  r_stakers (rrun gr (rinit (gstart g) gp) ops) !! s = Some x /\ r_stakers (rrun gr (rinit (gstart g) gp) ops) !! t = Some x.
Proof.
  exists gr0, gen0, gp0, copycat, 1%N, 2%N, prof1.
  split; [exact gen0_genesis|]. split; [exact (proj1 u0_valid)|]. split; [apply rops_okb_ok; vm_compute; reflexivity|].
  split; [done|]. split; [done|]. split; vm_compute; reflexivity.
Qed.
