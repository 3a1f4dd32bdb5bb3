(** * What a valid bundle does to the stakers and the fundings, in terms of what its event reports. *)
From Verif Require Import Base BaseFacts Delegation Stakers StakersInv Funders FundersInv Team RoundRobin Pool PoolFrame Bundles Chain ChainFrame ChainLift Walk ArchiveInv PaySafe PayFlow Events EventWalk EventFollow.

(** What is left in the fundings of a pool. *)
Definition pool_funds (c : chain) (p d : N) : Z := msum (fun k f => if (snd k =? p)%N then amt (fd_amounts f) d else 0) (fs_fundings (c_f c)).

Lemma msum_same `{Countable K} {A} (f : K -> A -> Z) (m1 m2 : gmap K A) (P : K -> bool) : (forall k a, P k = false -> f k a = 0) ->
  (forall k, P k = true -> m1 !! k = m2 !! k) -> msum f m1 = msum f m2.
Proof.
  intros Hz. revert m2. induction m1 as [|k a m Hk IH] using map_ind; intros m2 He.
  - rewrite msum_empty. symmetry. transitivity (msum (fun _ _ => 0) m2).
    + apply msum_ext. intros k a Hka. destruct (P k) eqn:E; [|by apply Hz]. rewrite <- (He k E), lookup_empty in Hka. done.
    + clear. induction m2 as [|k a m Hk IH] using map_ind; [by rewrite msum_empty|]. by rewrite msum_insert_fresh, IH.
  - rewrite msum_insert_fresh by done. destruct (P k) eqn:E.
    + pose proof (He k E) as Hk2. rewrite lookup_insert in Hk2. rewrite (IH (delete k m2)); [rewrite (msum_delete f m2 k a) by done; lia|]. intros k' E'. destruct (decide (k' = k)) as [->|Hn];
        [by rewrite lookup_delete, Hk|rewrite lookup_delete_ne by done; rewrite <- (He k' E'), lookup_insert_ne by done; done].
    + rewrite (Hz k a E). rewrite (IH m2); [lia|]. intros k' E'. rewrite <- (He k' E'), lookup_insert_ne; [done|]. intros ->. congruence.
Qed.
Lemma pool_funds_eq c c' : fs_fundings (c_f c') = fs_fundings (c_f c) -> forall p d, pool_funds c' p d = pool_funds c p d.
Proof. intros H p d. unfold pool_funds. by rewrite H. Qed.

Lemma tally_named g c p c' v fp x r : genesis g -> R g c -> is_Some (get_pool c p) -> tally c (get_prop c p) p = TrValid c' v fp x r ->
  let u := bp_uploader (get_prop c p) in
  v_status v = VValid /\ (exists a a', ss_stakers (c_s c) !! u = Some a /\ ss_stakers (c_s c') = <[u := a']> (ss_stakers (c_s c)) /\ st_commission a' = st_commission a /\
    forall d, amt (st_rewards a') d = amt (st_rewards a) d + amt (cadd (r_commission r) (r_storage r)) d) /\
  (forall q d, pool_funds c' q d = pool_funds c q d - if (q =? p)%N then amt fp d else 0).
Proof.
  intros Hg (HG & HA & HU) [pl Hpl] Ht. cbv zeta. pose proof (tally_status c (get_prop c p) p) as Hvs. rewrite Ht in Hvs. pose proof (tally_valid_full _ _ _ _ _ _ _ _ HA Ht) as Hz.
  assert (Hu : is_Some (ss_stakers (c_s c) !! bp_uploader (get_prop c p))).
  { unfold get_prop in *. destruct (c_prop c !! p) as [b|] eqn:Eb; cbn in *; [by apply (HU p b)|done]. }
  set (b := get_prop c p) in *. unfold tally in Ht. pose proof (G_non_voters g c p HG) as HG1. pose proof (b_non_voters c p) as B1.
  pose proof (sl_non_voters c p) as (_ & S1 & S2).
  assert (Hpl1 : get_pool (handle_non_voters c p) p = Some pl) by (rewrite (get_pool_b c) by done; done).
  assert (HA1 : AInv (handle_non_voters c p)) by (by apply (agood_frame c)).
  rewrite <- S1 in *. assert (Hpf : forall q d, pool_funds c q d = pool_funds (handle_non_voters c p) q d) by (intros; apply pool_funds_eq; by rewrite S2).
  set (c1 := handle_non_voters c p) in *. setoid_rewrite Hpf. clearbody c1.
  split; [done|]. destruct (v_status (distribution c1 p)); try done.
  assert (Hst : is_Some (fs_active (f_in c1) !! p)).
  { change (is_Some (fs_active (c_f c1) !! p)). apply (g_link _ _ HG1). apply (ai_pools _ HA1). by rewrite Hpl1. }
  destruct Hst as [l Hl].
  destruct (charge_spec _ _ p MPool (G_FInv g Hg c1 HG1) I) as (_ & Hpar & _ & _ & HS). cbv zeta in HS.
  destruct (HS l Hl) as (pays & Hp & Hpos & _ & Hoth & _ & _ & Hsr & _). clear HS.
  destruct (charge_funders (f_in c1) p MPool) as [f o]. cbn [fst snd] in *. subst o.
  destruct (charge_inflation (f_out c1 f) p) as [[c2 y]|] eqn:Ec; [|done].
  assert (Hm2 : ss_stakers (c_s c2) = ss_stakers (c_s c1) /\ c_f c2 = c_f (f_out c1 f)).
  { unfold charge_inflation in Ec. destruct (inflation_payout _ _); [|done]. destruct (i64 _ <? 0); [done|]. by destruct (send _ _ _ _); injection Ec as <- <-. }
  destruct Hm2 as [Es2 Ef2]. destruct (payouts c2 p _) as [r'|]; [|done]. destruct Hu as [a Ha].
  destruct (pay_out c2 (bp_uploader b) r') as [c3|] eqn:Ep; [|done]. injection Ht as <- <- <- <- <-.
  rewrite <- Es2 in Ha. destruct (pay_out_rewards _ _ _ _ _ Ep Ha) as (Ef3 & x' & Ex1 & Ex2 & Ex3). rewrite Es2 in *.
  destruct (sl_removes c3 p (bp_invalid b) (fun _ => SlashVote)) as (_ & S3 & S4). split.
  - exists a, x'. split; [done|]. split; [rewrite S3; congruence|]. split; [done|]. intros d. rewrite Ex3, amt_cadd. lia.
  - intros q d. assert (Eq : pool_funds (f_out c1 f) q d = pool_funds c1 q d - if (q =? p)%N then amt pays d else 0).
    { change (sum_rem (f_in c1)) with (fun x => msum (fun _ f => amt (fd_amounts f) x) (fs_fundings (c_f c1))) in Hsr.
      assert (Hrest : forall q, q <> p -> pool_funds (f_out c1 f) q d = pool_funds c1 q d).
      { intros q' Hq. apply (msum_same _ _ _ (fun k => (snd k =? q')%N)); [by intros k a0 ->|]. intros k Hk%N.eqb_eq. apply Hoth. intros [? _]. congruence. }
      destruct (N.eqb_spec q p) as [->|Hn]; [|rewrite Hrest by done; lia].
      set (rest := fun m : gmap (N * N) funding => msum (fun k f => if (snd k =? p)%N then 0 else amt (fd_amounts f) d) m).
      assert (Hr : rest (fs_fundings f) = rest (fs_fundings (c_f c1))).
      { apply (msum_same _ _ _ (fun k => negb (snd k =? p)%N)); [intros k a0; by destruct (snd k =? p)%N|]. intros k Hk. apply Hoth. intros [He _]. rewrite He, N.eqb_refl in Hk. done. }
      assert (Hs : forall m : gmap (N * N) funding, msum (fun _ f => amt (fd_amounts f) d) m = msum (fun k f => if (snd k =? p)%N then amt (fd_amounts f) d else 0) m + rest m).
      { intros m. unfold rest. rewrite <- msum_add. apply msum_ext. intros k a0 _. destruct (snd k =? p)%N; lia. }
      specialize (Hsr d). cbv beta in Hsr. unfold sum_rem in Hsr. rewrite !Hs, Hr in Hsr.
      unfold pool_funds. change (c_f (f_out c1 f)) with f. lia. }
    rewrite <- Eq. apply pool_funds_eq. rewrite S4, Ef3, Ef2. done.
Qed.
