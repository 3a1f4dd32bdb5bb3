(** * Weighted round robin selection of uploaders: model of
    x/bundles/keeper/logic_round_robin.go and logic_bundles.go 477-506.

    Simplifications used everywhere in this file:
    - The Go map [Progress] has exactly the addresses of [Validators] as keys (both are
      filled together, 77-89, and addresses are distinct store keys), so the progress is a
      field of the validator here. The Go code only adds up, takes the extrema of and updates
      all entries of the map, so its iteration order does not matter.
    - The stored progress list (sorted, 128-145) is only read entry by entry, so it is a map.
      (A genesis file could contain an address twice; then the entries add up.)
    - int64 arithmetic is unbounded. [RoundRobinClaims.v] shows that all values fit int64 when
      the total delegation is below 2^60. *)
From Verif Require Import Base.

(** logic_round_robin.go 48-60. *)
Record rrv := mkRR { rv_addr : N; rv_power : Z; rv_prog : Z }.
Definition with_prog (v : rrv) (p : Z) : rrv := mkRR (rv_addr v) (rv_power v) p.

(** 148-153 getTotalDelegation, 158-163 getTotalProgress. *)
Definition rr_power (l : list rrv) : Z := foldr (fun v a => rv_power v + a) 0 l.
Definition rr_total (l : list rrv) : Z := foldr (fun v a => rv_prog v + a) 0 l.
(** 167-182 getMinMaxDifference. *)
Definition rr_max (l : list rrv) : Z :=
  match l with [] => 0 | v :: _ => foldr (fun v a => Z.max (rv_prog v) a) (rv_prog v) l end.
Definition rr_min (l : list rrv) : Z :=
  match l with [] => 0 | v :: _ => foldr (fun v a => Z.min (rv_prog v) a) (rv_prog v) l end.
Definition rr_diff (l : list rrv) : Z := rr_max l - rr_min l.

(** 192-216 normalize: MulInt64 and QuoInt64 act on the scaled integer, both truncate. *)
Definition rr_scaled (thr diff p : Z) : Z := trunc_int (dec_quo_int (dec_mul_int (dec_of_int p) thr) diff).
Definition rr_scale (l : list rrv) : list rrv :=
  let diff := rr_diff l in
  let thr := 2 * rr_power l in
  if thr <? diff then map (fun v => with_prog v (rr_scaled thr diff (rv_prog v))) l else l.
Definition rr_center (l : list rrv) : list rrv :=
  let avg := trunc_int (dec_quo_int (dec_of_int (rr_total l)) (Z.of_nat (length l))) in
  map (fun v => with_prog v (rv_prog v - avg)) l.
Definition rr_normalize (l : list rrv) : list rrv :=
  match l with [] => [] | _ => rr_center (rr_scale l) end.

(** 69-114 LoadRoundRobinValidatorSet: [stakers] is GetAllStakerAddressesOfPool with the
    delegation of each. New validators start at -1.125 times the total. *)
Definition PENALTY : Z := -1125000000000000000.
Definition rr_load (stakers : list (N * Z)) (stored : gmap N Z) : list rrv :=
  let act := List.filter (fun p => 0 <? snd p) stakers in
  let total := foldr (fun p a => i64 (snd p) + a) 0 act in
  rr_normalize
    (map (fun p => mkRR (fst p) (i64 (snd p))
            (match stored !! fst p with
             | Some x => x
             | None => trunc_int (dec_mul_int PENALTY total)
             end)) act).
(** 117-145 SaveRoundRobinValidatorSet. *)
Definition rr_save (l : list rrv) : gmap N Z := list_to_map (map (fun v => (rv_addr v, rv_prog v)) l).

Definition memb (a : N) (l : list N) : bool := existsb (fun x => x =? a)%N l.

(** 222-261 NextProposer. The address 0 is "". *)
Definition rr_advance (ex : list N) (l : list rrv) : list rrv :=
  map (fun v => if memb (rv_addr v) ex then v else with_prog v (rv_prog v + rv_power v)) l.
Definition rr_excluded_power (ex : list N) (l : list rrv) : Z :=
  foldr (fun v a => if memb (rv_addr v) ex then rv_power v + a else a) 0 l.
Definition rr_best (ex : list N) (cur : rrv) (l : list rrv) : rrv :=
  fold_left (fun cur v => if memb (rv_addr v) ex then cur
                          else if rv_prog cur <? rv_prog v then v else cur) l cur.
Definition rr_charge (a : N) (x : Z) (l : list rrv) : list rrv :=
  map (fun v => if (rv_addr v =? a)%N then with_prog v (rv_prog v - x) else v) l.
Definition rr_next (ex : list N) (l : list rrv) : N * list rrv :=
  match l with
  | [] => (0%N, [])
  | _ =>
      let l := rr_normalize l in
      let ex := if (length ex =? length l)%nat then [] else ex in
      let l1 := rr_advance ex l in
      match l1 with
      | [] => (0%N, [])
      | v :: _ =>
          let best := rr_best ex v l1 in
          (rv_addr best, rr_charge (rv_addr best) (rr_power l1 - rr_excluded_power ex l1) l1)
      end
  end.

(** logic_bundles.go 479-484 chooseNextUploader: the uploader and the progress to store. *)
Definition choose_next (stakers : list (N * Z)) (stored : gmap N Z) (ex : list N) : N * gmap N Z :=
  let '(u, l) := rr_next ex (rr_load stakers stored) in (u, rr_save l).
(** logic_bundles.go 488-506 chooseNextUploaderFromList. *)
Definition choose_next_from (stakers : list (N * Z)) (stored : gmap N Z) (incl : list N) : N * gmap N Z :=
  let vs := rr_load stakers stored in
  let ex := List.filter (fun a => negb (memb a incl)) (map rv_addr vs) in
  let '(u, l) := rr_next ex vs in (u, rr_save l).
