(** * Genesis: what the modules export, what they accept and what they import (model only, no proofs).

    Modelled: genesis.go (InitGenesis, ExportGenesis) and types/genesis.go (Validate) of x/delegation,
    x/stakers, x/funders, x/pool, x/bundles, x/team.

    Simplifications used everywhere in this file:
    - A genesis state is a record of lists, one per repeated field of the proto message. A record is
      written with its key in front, although the proto message holds the key in its fields.
    - Validate returns an error or nil; the model says whether it is nil.
    - [map_to_list] lists a store in some order and not in the order of the byte keys. The theorems
      are about every genesis state with the same records, whatever their order.
    - The JSON codec between export and import is not modelled, nor are the genesis states of the
      modules of the SDK (among them the balances), nor BundleVersionMap, which is never changed. *)
From stdpp Require Import sorting.
From Verif Require Import Base Delegation Stakers Funders Team RoundRobin Pool Bundles Chain Params Query.

(** The loop "if _, ok := seen[key]; ok { return error }; seen[key] = struct{}{}". *)
Fixpoint fresh {K} `{Countable K} (seen : gset K) (l : list K) : bool :=
  match l with
  | [] => true
  | k :: t => if bool_decide (k ∈ seen) then false else fresh ({[k]} ∪ seen) t
  end.
(** The same loop without the insertion, as x/funders writes it. *)
Fixpoint fresh_no_insert {K} `{Countable K} (seen : gset K) (l : list K) : bool :=
  match l with
  | [] => true
  | k :: t => if bool_decide (k ∈ seen) then false else fresh_no_insert seen t
  end.
(** The check of an index against a queue state (HighIndex, LowIndex). *)
Definition within (low high i : N) : bool := negb (high <? i)%N && negb (i <? low)%N.

(** ** x/delegation *)
(** types/genesis.pb.go GenesisState. Keys: staker and delegator; staker and k-index; staker; staker and
    k-index; queue index; address and date. *)
Record dgen := mkDG {
  dg_params : dparams;
  dg_delegators : list (N * N * delegator);
  dg_entries : list (N * N * coins);
  dg_data : list (N * ddata);
  dg_slashes : list (N * N * Z);
  dg_queue : list (N * uentry);
  dg_low : N; dg_high : N;
  dg_cool : list (N * Z)
}.
(** All records of one store that is kept per staker. *)
Definition per_staker {A} (m : f1 -> list (N * A)) (st : dstate) : list (N * N * A) :=
  flat_map (fun x : N * f1 => map (fun y : N * A => (fst x, fst y, snd y)) (m (snd x))) (map_to_list (ds_f1 st)).
(** genesis.go 44-64 ExportGenesis. *)
Definition export_d (st : dstate) : dgen :=
  mkDG (ds_params st)
    (per_staker (fun f => map_to_list (f_delegators f)) st)
    (per_staker (fun f => map_to_list (f_entries f)) st)
    (omap (fun x : N * f1 => match f_data (snd x) with Some dd => Some (fst x, dd) | None => None end) (map_to_list (ds_f1 st)))
    (per_staker f_slashes st)
    (map_to_list (ds_queue st)) (ds_low st) (ds_high st)
    (flat_map (fun x : N * list Z => map (fun t => (fst x, t)) (snd x)) (map_to_list (ds_cool st))).
(** types/genesis.go 24-136 Validate with validateF1, validateUnbondingQueue, validateRedelegation. *)
Definition validate_d (g : dgen) : bool :=
  fresh ∅ (map fst (dg_delegators g))
  && fresh ∅ (map (fun x => (fst (fst x), d_k (snd x))) (dg_delegators g))
  && fresh ∅ (map fst (dg_entries g))
  && fresh ∅ (map fst (dg_data g))
  && fresh ∅ (map fst (dg_slashes g))
  && forallb (fun k => bool_decide (k ∈ map fst (dg_entries g))) (map fst (dg_slashes g))
  && fresh ∅ (map fst (dg_queue g))
  && forallb (within (dg_low g) (dg_high g)) (map fst (dg_queue g))
  && fresh ∅ (dg_cool g)
  && dparams_valid (dg_params g).
(** genesis.go 11-41 InitGenesis on an empty store; the bank and the block time come from elsewhere. *)
Definition put_delegator (st : dstate) (x : N * N * delegator) : dstate :=
  let f := getf st (fst (fst x)) in setf st (fst (fst x)) (set_delegators f (<[snd (fst x) := snd x]> (f_delegators f))).
Definition put_entry (st : dstate) (x : N * N * coins) : dstate :=
  let f := getf st (fst (fst x)) in setf st (fst (fst x)) (set_entries f (<[snd (fst x) := snd x]> (f_entries f))).
Definition put_data (st : dstate) (x : N * ddata) : dstate := setf st (fst x) (set_data (getf st (fst x)) (Some (snd x))).
Definition put_slash (st : dstate) (x : N * N * Z) : dstate :=
  let f := getf st (fst (fst x)) in setf st (fst (fst x)) (set_slashes f (kv_set (snd (fst x)) (snd x) (f_slashes f))).
Definition put_queue (st : dstate) (x : N * uentry) : dstate :=
  with_queue st (ds_low st) (ds_high st) (<[fst x := snd x]> (ds_queue st)).
Definition put_cool (st : dstate) (x : N * Z) : dstate :=
  with_cool st (<[fst x := insert_date (snd x) (default [] (ds_cool st !! fst x))]> (ds_cool st)).
Definition import_d (g : dgen) (b : bank) (t : Z) : dstate :=
  let st := mkD ∅ b 0 0 ∅ ∅ ∅ (dg_params g) t false in
  let st := fold_left put_delegator (dg_delegators g) st in
  let st := fold_left put_entry (dg_entries g) st in
  let st := fold_left put_data (dg_data g) st in
  let st := fold_left put_slash (dg_slashes g) st in
  let st := fold_left put_queue (dg_queue g) st in
  let st := with_queue st (dg_low g) (dg_high g) (ds_queue st) in
  let st := fold_left put_cool (dg_cool g) st in
  rebuild_index st.

(** ** x/stakers *)
(** Keys: staker; pool and staker; queue index; queue index. *)
Record sgen := mkSG {
  sg_ctime : Z; sg_ltime : Z;
  sg_stakers : list (N * staker);
  sg_vals : list (N * N * valacc);
  sg_centries : list (N * centry);
  sg_lentries : list (N * lentry);
  sg_clow : N; sg_chigh : N; sg_llow : N; sg_lhigh : N
}.
(** genesis.go 37-54 ExportGenesis. *)
Definition export_s (st : sstate) : sgen :=
  mkSG (ss_ctime st) (ss_ltime st) (map_to_list (ss_stakers st))
    (flat_map (fun x : N * gmap N valacc => map (fun y : N * valacc => (fst x, fst y, snd y)) (map_to_list (snd x))) (map_to_list (ss_val st)))
    (map_to_list (ss_centries st)) (map_to_list (ss_lentries st)) (ss_clow st) (ss_chigh st) (ss_llow st) (ss_lhigh st).
(** types/genesis.go 49-60: the loop over the leave entries; [m] is stakerLeaving. *)
Fixpoint leave_loop (low high : N) (m : gmap (N * N) bool) (l : list (N * lentry)) : option (gmap (N * N) bool) :=
  match l with
  | [] => Some m
  | (i, e) :: t =>
      if negb (within low high i) then None
      else if negb (default false (m !! (le_pool e, le_staker e))) then None
      else leave_loop low high (<[(le_pool e, le_staker e) := false]> m) t
  end.
(** types/genesis.go 15-69 Validate. Params.Validate accepts every pair of numbers (types/params.go 34-44). *)
Definition validate_s (g : sgen) : bool :=
  let leaving := fold_left (fun (m : gmap (N * N) bool) (x : N * N * valacc) => <[fst x := vl_leaving (snd x)]> m) (sg_vals g) ∅ in
  fresh ∅ (map fst (sg_vals g))
  && fresh ∅ (map fst (sg_centries g))
  && forallb (within (sg_clow g) (sg_chigh g)) (map fst (sg_centries g))
  && match leave_loop (sg_llow g) (sg_lhigh g) leaving (sg_lentries g) with
     | None => false
     | Some m => forallb (fun x : N * N * bool => negb (snd x)) (map_to_list m)
     end.
(** genesis.go 11-34 InitGenesis with getters_staker.go 202-205, 244-263, getters_commission.go 16-28 and
    getters_leave.go 16-30. *)
Definition put_staker (st : sstate) (x : N * staker) : sstate := with_stakers st (<[fst x := snd x]> (ss_stakers st)).
Definition put_val (st : sstate) (x : N * N * valacc) : sstate :=
  let p := fst (fst x) in let s := snd (fst x) in
  with_counts (set_val st p s (snd x)) (<[p := u64_add (count_of st p) 1]> (ss_count st))
    (<[s := default 0 (ss_active st !! s) + 1]> (ss_active st)).
Definition put_centry (st : sstate) (x : N * centry) : sstate :=
  with_cq st (<[fst x := snd x]> (ss_centries st)) (<[ce_staker (snd x) := fst x]> (ss_cindex st)) (ss_clow st) (ss_chigh st).
Definition put_lentry (st : sstate) (x : N * lentry) : sstate :=
  with_lq st (<[fst x := snd x]> (ss_lentries st)) ({[ (le_staker (snd x), le_pool (snd x)) ]} ∪ ss_lindex st) (ss_llow st) (ss_lhigh st).
Definition import_s (g : sgen) (b : bank) (t : Z) : sstate :=
  let st := mkSS ∅ ∅ ∅ ∅ ∅ ∅ 0 0 ∅ ∅ 0 0 (sg_ctime g) (sg_ltime g) t b in
  let st := fold_left put_staker (sg_stakers g) st in
  let st := fold_left put_val (sg_vals g) st in
  let st := fold_left put_centry (sg_centries g) st in
  let st := fold_left put_lentry (sg_lentries g) st in
  let st := with_cq st (ss_centries st) (ss_cindex st) (sg_clow g) (sg_chigh g) in
  with_lq st (ss_lentries st) (ss_lindex st) (sg_llow g) (sg_lhigh g).

(** ** x/funders *)
(** Keys: funder; funder and pool; pool. *)
Record fgen := mkFG {
  fg_params : fparams;
  fg_funders : list N;
  fg_fundings : list (N * N * funding);
  fg_states : list (N * list N)
}.
(** genesis.go 25-33 ExportGenesis. *)
Definition export_f (st : fstate) : fgen :=
  mkFG (fs_params st) (elements (fs_funders st)) (map_to_list (fs_fundings st)) (map_to_list (fs_active st)).
(** types/genesis.go 15-46 Validate: none of the four maps is ever written. The two keys of a funding
    are made of the same two fields. *)
Definition validate_f (g : fgen) : bool :=
  fresh_no_insert ∅ (fg_funders g)
  && fresh_no_insert ∅ (map fst (fg_fundings g))
  && fresh_no_insert ∅ (map fst (fg_states g))
  && fparams_valid (fg_params g).
(** genesis.go 10-22 InitGenesis. *)
Definition import_f (g : fgen) (b : bank) : fstate :=
  mkFS (fg_params g)
    (fold_left (fun (m : gset N) a => {[a]} ∪ m) (fg_funders g) ∅)
    (fold_left (fun (m : gmap (N * N) funding) x => <[fst x := snd x]> m) (fg_fundings g) ∅)
    (fold_left (fun (m : gmap N (list N)) x => <[fst x := snd x]> m) (fg_states g) ∅) b false.

(** ** x/pool *)
Record pgen := mkPG { pg_params : pparams; pg_pools : list (N * pool); pg_count : N }.
(** genesis.go 21-29 ExportGenesis. *)
Definition export_p (s : pstore) (pp : pparams) : pgen := mkPG pp (map_to_list (ps_pools s)) (ps_count s).
(** types/genesis.go 16-32 Validate. *)
Definition validate_p (g : pgen) : bool :=
  fresh ∅ (map fst (pg_pools g)) && forallb (fun id => id <? pg_count g)%N (map fst (pg_pools g)) && pparams_valid (pg_params g).
(** genesis.go 10-18 InitGenesis. *)
Definition import_p (g : pgen) : pstore :=
  mkPS (fold_left (fun (m : gmap N pool) x => <[fst x := snd x]> m) (pg_pools g) ∅) (pg_count g).

(** ** x/bundles *)
(** Keys: pool; pool and id; pool. *)
Record bgen := mkBG {
  bg_params : bparams;
  bg_props : list (N * proposal);
  bg_fin : list (N * N * fbundle);
  bg_rr : list (N * gmap N Z)
}.
(** genesis.go 31-44 ExportGenesis. *)
Definition export_b (c : chain) : bgen :=
  mkBG (c_bp c) (map_to_list (c_prop c)) (map_to_list (c_fin c)) (map_to_list (c_rr c)).
(** types/genesis.go 33-35: sort.Slice by id. *)
Definition id_le (x y : N * N * fbundle) : Prop := (snd (fst x) <= snd (fst y))%N.
Global Instance id_le_dec x y : Decision (id_le x y).
Proof. unfold id_le. apply _. Defined.
(** types/genesis.go 44-48: the loop over the sorted bundles; [m] is previousIndexPerPool. *)
Fixpoint gapless (m : gmap N N) (l : list (N * N * fbundle)) : bool :=
  match l with
  | [] => true
  | (p, id, _) :: t => if (default 0%N (m !! p) =? id)%N then gapless (<[p := (id + 1)%N]> m) t else false
  end.
(** types/genesis.go 17-52 Validate. *)
Definition validate_b (g : bgen) : bool :=
  fresh ∅ (map fst (bg_props g))
  && fresh ∅ (map fst (bg_fin g))
  && gapless ∅ (merge_sort id_le (bg_fin g))
  && bparams_valid (bg_params g).
(** genesis.go 11-28 InitGenesis; SetFinalizedBundle also writes the index in memory
    (getters_bundles.go 66-88). *)
Definition import_fin (l : list (N * N * fbundle)) : gmap (N * N) fbundle * gmap (N * Z) N :=
  fold_left (fun (m : gmap (N * N) fbundle * gmap (N * Z) N) (x : N * N * fbundle) =>
    (<[fst x := snd x]> (fst m), <[(fst (fst x), fb_from (snd x)) := snd (fst x)]> (snd m))) l (∅, ∅).
Definition import_props (g : bgen) : gmap N proposal := fold_left (fun (m : gmap N proposal) x => <[fst x := snd x]> m) (bg_props g) ∅.
Definition import_rr (g : bgen) : gmap N (gmap N Z) := fold_left (fun (m : gmap N (gmap N Z)) x => <[fst x := snd x]> m) (bg_rr g) ∅.

(** ** x/team *)
Record tgen := mkTG { tg_rewards : Z; tg_claimed : Z; tg_accounts : list (N * vacc); tg_count : N }.
(** genesis.go 21-29 ExportGenesis; the account with id [i] is the one at position [i]. *)
Definition export_t (st : tstate) : tgen :=
  mkTG (ts_arewards st) (ts_aclaimed st) (imap (fun i a => (N.of_nat i, a)) (ts_accounts st)) (N.of_nat (length (ts_accounts st))).
(** types/genesis.go 11-31 Validate. *)
Definition validate_t (g : tgen) : bool :=
  fresh ∅ (map fst (tg_accounts g)) && forallb (fun id => id <? tg_count g)%N (map fst (tg_accounts g))
  && negb (tg_rewards g <? tg_claimed g).
(** genesis.go 10-18 InitGenesis. The model keeps the accounts in a list, so an id below AccountCount
    without an account would be left out. *)
Definition import_t (g : tgen) (b : bank) (t : Z) : tstate :=
  let m := fold_left (fun (m : gmap N vacc) x => <[fst x := snd x]> m) (tg_accounts g) ∅ in
  mkTS (omap (fun i => m !! N.of_nat i) (seq 0 (N.to_nat (tg_count g)))) (tg_rewards g) (tg_claimed g) t b false.

(** ** The chain *)
Record cgen := mkCG { cg_d : dgen; cg_s : sgen; cg_f : fgen; cg_p : pgen; cg_b : bgen; cg_t : tgen; cg_burn : Z }.
Definition export (c : chain) : cgen :=
  mkCG (export_d (c_d c)) (export_s (c_s c)) (export_f (c_f c)) (export_p (c_pools c) (c_pp c)) (export_b c) (export_t (c_t c)) (c_burn c).
(** app/app.go InitChainer: every module imports its own state; [b], [t], [h]: the balances of x/bank, the
    genesis time and the initial height. *)
Definition import (g : cgen) (b : bank) (t h : Z) : chain :=
  mkC (import_d (cg_d g) b t) (import_s (cg_s g) b t) (import_f (cg_f g) b) (import_t (cg_t g) b t)
    (import_p (cg_p g)) (pg_params (cg_p g))
    (import_props (cg_b g)) (fst (import_fin (bg_fin (cg_b g)))) (snd (import_fin (bg_fin (cg_b g)))) (import_rr (cg_b g))
    (bg_params (cg_b g)) (cg_burn g) b t h false false.
