(** * Concrete transactions, and where the fee rules fail. *)
From Verif Require Import Base BaseFacts Bundles PayoutClaims Global GlobalClaims.

Definition HALF : Z := 500000000000000000.
Definition QUARTER : Z := 250000000000000000.
(** Price 0.5, type 7 costs 500 gas more, type 5 gets a quarter back; account 11 grants account 10 up to [l]. *)
Definition ex_par : gparams := mkGP HALF [(7%N, 500); (7%N, 9); (8%N, 20)] [(5%N, QUARTER)].
Definition ex_bank : bank := <[User 10 := (<[2%N := 1000]> (coin KYVE 1000))]> (<[User 11 := coin KYVE 1000]> ∅).
Definition ex (l : Z) : gstate := mkGS ex_bank {[ (11%N, 10%N) := AMsgs [5%N] (ABasic (mkBasic (Some (coin KYVE l)) (Some 200))) ]} ex_par 100 5.
(** The messages of the examples: they take 10 gas and change nothing. *)
Definition idle (s : gstate) (g : Z) : option (gstate * Z) := if 10 <=? g then Some (s, g - 10) else None.
Definition ex_tx (fee : coins) (gas : Z) (granter : option N) (msgs : list gmsg) : tx := mkTx fee gas 10 granter msgs 30 true 5.
Definition KV (s : gstate) : list Z := map (fun a => bal (gs_bank s) a KYVE) [User 10; User 11; MFeeCollector].
Definition lim (s : gstate) : option Z := match gs_grants s !! (11%N, 10%N) with Some a => match limit_of a with Some l => Some (amt l KYVE) | None => None end | None => None end.

Lemma idle_keeps s g y rest : idle s g = Some (y, rest) -> y = s.
Proof. unfold idle. destruct (10 <=? g); [|done]. by intros [= <- _]. Qed.

(** A fee of 41 for 81 gas pays 0.5 a unit; a fee of 40 does not. *)
Lemma ex_fee :
  (let '(r, s') := deliver (ex 100) (ex_tx (coin KYVE 41) 81 None [Plain 5]) idle in (r, KV s', lim s')) = (Done, [969; 1000; 31], Some 100) /\
  (let '(r, s') := deliver (ex 100) (ex_tx (coin KYVE 40) 81 None [Plain 5]) idle in (r, KV s')) = (Rejected, [1000; 1000; 0]) /\
  (let '(r, s') := deliver (ex 100) (ex_tx (coin KYVE 41) 81 None [Plain 5; Plain 5]) idle in (r, KV s')) = (Done, [959; 1000; 41]) /\
  (let '(r, s') := deliver (ex 100) (ex_tx (coin KYVE 41) 35 None [Plain 5]) idle in (r, KV s')) = (Failed, [959; 1000; 41]).
Proof. repeat split; vm_compute; reflexivity. Qed.
(** The surcharge of type 7 is the first one listed. *)
Lemma ex_gas :
  (let '(r, s') := deliver (ex 100) (ex_tx (coin KYVE 300) 600 None [Plain 7; Plain 8]) idle in (r, KV s')) = (Done, [700; 1000; 300]) /\
  (let '(r, s') := deliver (ex 100) (ex_tx (coin KYVE 300) 549 None [Plain 7; Plain 8]) idle in (r, KV s')) = (Rejected, [1000; 1000; 0]) /\
  rates (gp_adj ex_par) [7%N; 8%N] 520.
Proof. split; [vm_compute; reflexivity|]. split; [vm_compute; reflexivity|]. exact (surcharge_rates ex_par [7%N; 8%N]). Qed.
(** A grant without refund is charged once. *)
Definition ex_norefund : gstate := mkGS ex_bank {[ (11%N, 10%N) := ABasic (mkBasic (Some (coin KYVE 100)) None) ]} ex_par 100 5.
Lemma ex_grant : (let '(r, s') := deliver ex_norefund (ex_tx (coin KYVE 50) 100 (Some 11%N) [Plain 9]) idle in (r, KV s', lim s')) = (Done, [1000; 950; 50], Some 50).
Proof. vm_compute. reflexivity. Qed.

(** A node that asks for 1 of another denom lets transactions into its mempool that the chain rejects. *)
Lemma mempool_witness : exists s local t, 1 < gs_height s /\ gparams_valid (gs_par s) = true /\ cpos local /\
  check_tx s local t = true /\ check_tx s ∅ t = false /\ forall body, deliver s t body = (Rejected, s).
Proof.
  exists (ex 100), (coin 2 ONE), (ex_tx (coin 2 100) 100 None [Plain 5]). split; [cbn; lia|]. split; [vm_compute; reflexivity|].
  split; [apply cpos_coin; pose proof ONE_pos; lia|]. split; [vm_compute; reflexivity|]. split; [vm_compute; reflexivity|]. intros body. 
  assert (E : ante (ex 100) None (ex_tx (coin 2 100) 100 None [Plain 5]) = None) by (vm_compute; reflexivity).
  unfold deliver. rewrite E. reflexivity.
Qed.
Lemma once_lim s s' t : grants_once s s' t -> by_grant t 11 -> tx_payer t = 10%N -> forall x y, lim s = Some x -> lim s' = Some y -> y = x - amt (tx_fee t) KYVE.
Proof.
  intros [Ho _] Hbg Hp x y. destruct (Ho 11%N Hbg) as (_ & a & Ea & C). rewrite Hp in *. unfold lim. rewrite Ea.
  destruct (limit_of a) as [l|]; [|done]. destruct C as [_ C]. destruct (gs_grants s' !! (11%N, 10%N)) as [a'|]; [|done].
  destruct C as (l' & -> & C). intros [= <-] [= <-]. apply C.
Qed.
(** A refunded transaction charges the grant twice; a grant of exactly the fee makes it fail after its messages succeeded. *)
Lemma twice_witness : exists s t s1 s', gparams_valid (gs_par s) = true /\ deliver s t idle = (Done, s') /\
  by_grant t 11 /\ charged (gs_grants s) (gs_grants s1) (11%N, tx_payer t) (tx_fee t) /\ charged (gs_grants s1) (gs_grants s') (11%N, tx_payer t) (tx_fee t) /\
  (lim s, amt (tx_fee t) KYVE, lim s') = (Some 100, 40, Some 20) /\ ~ grants_once s s' t.
Proof.
  set (t := ex_tx (coin KYVE 40) 80 (Some 11%N) [Plain 5]).
  assert (Hv : gparams_valid (gs_par (ex 100)) = true) by (vm_compute; reflexivity).
  assert (Hbg : by_grant t 11) by (split; [reflexivity|intros [=]]).
  assert (Hr : refunds ex_par t).
  { split; [intros E; apply (f_equal (fun c => amt c KYVE)) in E; vm_compute in E; discriminate|].
    exists (Plain 5), QUARTER. split; [done|]. split; [|intros [=]]. left. exists [], []. split; [done|]. intros []. }
  destruct (deliver (ex 100) t idle) as [r s'] eqn:Ed.
  assert (E : (r, lim s') = (Done, Some 20)).
  { transitivity ((fun p => (fst p, lim (snd p))) (deliver (ex 100) t idle)); [by rewrite Ed|]. vm_compute. reflexivity. }
  injection E as -> El.
  assert (Ha : exists s1, ante (ex 100) None t = Some s1 /\ post s1 t = Some s').
  { apply deliver_cases in Ed as [[? _]|(s1 & g & Ha & _ & [(? & _)|(_ & s2 & rest & Eb & _ & Ep)])]; [done|done|].
    exists s1. split; [done|]. by rewrite (idle_keeps _ _ _ _ Eb) in Ep. }
  destruct Ha as (s1 & Ha & Hp). pose proof (ante_spec _ _ _ _ Ha) as ((_ & Hpar & _) & [Hg1 _] & Hpos & _).
  assert (Hv1 : gparams_valid (gs_par s1) = true) by (rewrite Hpar; exact Hv).
  assert (Hr1 : refunds (gs_par s1) t) by (rewrite Hpar; exact Hr).
  pose proof (post_spec _ _ _ Hv1 Hpos Hp) as (_ & _ & _ & _ & Hg2 & _). destruct (Hg2 Hr1) as [Hg2' _].
  exists (ex 100), t, s1, s'. split; [exact Hv|]. split; [exact Ed|]. split; [exact Hbg|]. split; [exact (Hg1 11%N Hbg)|]. split; [exact (Hg2' 11%N Hbg)|].
  split; [rewrite El; vm_compute; reflexivity|]. intros Ho.
  pose proof (once_lim _ _ _ Ho Hbg eq_refl 100 20 ltac:(vm_compute; reflexivity) El) as C. vm_compute in C. discriminate.
Qed.
Lemma fails_witness : exists s t s', gparams_valid (gs_par s) = true /\ by_grant t 11 /\ lim s = Some (amt (tx_fee t) KYVE) /\
  (exists s1 g, gas_left s t g /\ taken s s1 t /\ idle s1 g <> None) /\ deliver s t idle = (Failed, s') /\ (KV s, KV s', lim s') = ([1000; 1000; 0], [1000; 960; 40], None).
Proof.
  set (t := ex_tx (coin KYVE 40) 80 (Some 11%N) [Plain 5]).
  destruct (deliver (ex 40) t idle) as [r s'] eqn:Ed.
  assert (E : (r, KV s', lim s') = (Failed, [1000; 960; 40], None)).
  { transitivity ((fun p => (fst p, KV (snd p), lim (snd p))) (deliver (ex 40) t idle)); [by rewrite Ed|]. vm_compute. reflexivity. }
  assert (r = Failed) as -> by exact (f_equal (fun p => fst (fst p)) E).
  assert (Ek : KV s' = [1000; 960; 40]) by exact (f_equal (fun p => snd (fst p)) E). assert (El : lim s' = None) by exact (f_equal snd E).
  exists (ex 40), t, s'. split; [vm_compute; reflexivity|]. split; [split; [reflexivity|intros [=]]|]. split; [vm_compute; reflexivity|].
  split; [|split; [exact Ed|rewrite Ek, El; vm_compute; reflexivity]].
  pose proof Ed as Ed'. apply deliver_cases in Ed' as [[? _]|(s1 & g & Ha & Hg & _)]; [done|]. exists s1, g. split; [done|]. apply ante_spec in Ha as (Ht & _). split; [done|].
  destruct Hg as (x & Hx & -> & _). assert (x = 0) as ->. { eapply rates_det; [exact Hx|]. exact (surcharge_rates ex_par [5%N]). }
  unfold idle. cbn. discriminate.
Qed.
(** A message that costs 500 gas more runs for 100 gas inside MsgExec. *)
Lemma nested_witness : exists s t body s' x, gparams_valid (gs_par s) = true /\ rates (gp_adj (gs_par s)) (all_types t) x /\ tx_gas t < x /\ deliver s t body = (Done, s').
Proof.
  set (t := ex_tx (coin KYVE 50) 100 None [Exec [Plain 7]]).
  destruct (deliver (ex 100) t idle) as [r s'] eqn:Ed.
  assert (E : r = Done). { transitivity (fst (deliver (ex 100) t idle)); [by rewrite Ed|]. vm_compute. reflexivity. }
  subst r. exists (ex 100), t, idle, s', 500. split; [vm_compute; reflexivity|]. split; [exact (surcharge_rates ex_par [0%N; 7%N])|]. split; [cbn; lia|]. exact Ed.
Qed.
