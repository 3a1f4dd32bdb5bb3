(** * Pages: what the loops of Query.v return. *)
From Verif Require Import Base BaseFacts Delegation Stakers Funders Team RoundRobin Pool Bundles Chain Query.

(** ** Clients *)
(** A client that follows the page keys: it asks without a key first and then with every key it is
    given, until there is none. [None]: an answer was an error, or [n] requests were not enough. *)
Fixpoint walk {A K} (n : nat) (ask : option K -> option (list A * option K)) (key : option K) : option (list A) :=
  match n with
  | O => None
  | S n => match ask key with
           | None => None
           | Some (r, None) => Some r
           | Some (r, Some k) => match walk n ask (Some k) with None => None | Some r' => Some (r ++ r') end
           end
  end.
(** A client that asks for the offsets 0, limit, 2 limit, ... ([n] requests). *)
Fixpoint by_offset {A} (n : nat) (ask : Z -> option (list A)) (limit offset : Z) : option (list A) :=
  match n with
  | O => Some []
  | S n => match ask offset with
           | None => None
           | Some r => match by_offset n ask limit (offset + limit) with None => None | Some r' => Some (r ++ r') end
           end
  end.

Lemma nat0 z : z <= 0 -> Z.to_nat z = 0%nat.
Proof. lia. Qed.

Section pages.
  Context {A : Type} (hit : A -> bool).
  Notation hits l := (List.filter hit l).

  Lemma keyed_spec l : forall n limit, n <= limit ->
    exists l1 l2, l = l1 ++ l2 /\ fst (keyed_loop hit l n limit) = hits l1 /\ snd (keyed_loop hit l n limit) = head l2 /\
      (l2 <> [] -> Z.of_nat (length (hits l1)) = limit - n).
  Proof.
    induction l as [|x t IH]; intros n limit Hn; cbn [keyed_loop].
    { by exists [], []. }
    destruct (n =? limit) eqn:E.
    { apply Z.eqb_eq in E. exists [], (x :: t). cbn. split; [done|]. split; [done|]. split; [done|]. intros _. lia. }
    apply Z.eqb_neq in E. destruct (hit x) eqn:Eh.
    - destruct (IH (n + 1) limit ltac:(lia)) as (l1 & l2 & -> & H1 & H2 & H3).
      destruct (keyed_loop hit (l1 ++ l2) (n + 1) limit) as [r k]. cbn [fst snd] in *. subst r k.
      exists (x :: l1), l2. cbn [List.filter app]. rewrite Eh. split; [done|]. split; [done|]. split; [done|].
      intros H. specialize (H3 H). cbn [length]. lia.
    - destruct (IH n limit Hn) as (l1 & l2 & -> & H1 & H2 & H3). exists (x :: l1), l2. cbn [List.filter app]. rewrite Eh. done.
  Qed.

  Lemma take_drop_cons_lo (x : A) l a b : (0 < a)%nat -> firstn b (skipn a (x :: l)) = firstn b (skipn (a - 1) l).
  Proof. intros. destruct a; [lia|]. cbn. by rewrite Nat.sub_0_r. Qed.

  (** From the state after [h] hits on. *)
  Lemma offset_spec l : forall o stop count h next, 0 <= h -> 0 <= o <= stop -> stop + 1 < two64 ->
    (next <> None -> stop < h) -> (stop < h -> next <> None \/ False) ->
    let '(r, k, n) := offset_loop hit l o stop count h next in
    r = firstn (Z.to_nat (stop - Z.max o h)) (skipn (Z.to_nat (o - h)) (hits l)) /\
    k = match next with Some _ => next | None => nth_error (hits l) (Z.to_nat (stop - h)) end /\
    (count = true -> n = h + Z.of_nat (length (hits l))).
  Proof.
    induction l as [|x t IH]; intros o stop count h next H0 Ho Hs Hn Hn'; cbn [offset_loop].
    { rewrite skipn_nil, firstn_nil. split; [done|]. split; [destruct next; [done|]; by destruct (Z.to_nat (stop - h))|]. cbn. lia. }
    assert (Hw : w64 (stop + 1) = stop + 1) by (unfold w64; rewrite Z.mod_small; lia).
    rewrite Hw. cbn [List.filter]. destruct (hit x) eqn:Eh; cbn [andb].
    - (* a hit *)
      assert (Hr : forall r, r = firstn (Z.to_nat (stop - Z.max o (h + 1))) (skipn (Z.to_nat (o - (h + 1))) (hits t)) ->
        (if (o <=? h) && (h <? stop) then [x] else []) ++ r = firstn (Z.to_nat (stop - Z.max o h)) (skipn (Z.to_nat (o - h)) (x :: hits t))).
      { intros r ->. destruct (Z.leb_spec o h); cbn [andb].
        - rewrite (nat0 (o - h)), (nat0 (o - (h + 1))) by lia. cbn [skipn].
          destruct (Z.ltb_spec h stop).
          + rewrite (Z.max_r o h), (Z.max_r o (h+1)) by lia. replace (Z.to_nat (stop - h)) with (S (Z.to_nat (stop - (h + 1)))) by lia. done.
          + rewrite !nat0 by lia. done.
        - rewrite take_drop_cons_lo by lia. cbn [app]. f_equal; [lia|]. f_equal. lia. }
      destruct (Z.eqb_spec (h + 1) (stop + 1)) as [E|E].
      + assert (next = None) as ->. { destruct next; [|done]. exfalso. assert (stop < h) by (by apply Hn). lia. }
        destruct count.
        * specialize (IH o stop true (h + 1) (Some x) ltac:(lia) Ho Hs ltac:(lia) ltac:(by left)).
          destruct (offset_loop hit t o stop true (h + 1) (Some x)) as [[r k] n]. destruct IH as (I1 & I2 & I3).
          split; [by apply Hr|]. split; [|intros; cbn [length]; rewrite I3 by done; lia].
          rewrite I2. replace (Z.to_nat (stop - h)) with 0%nat by lia. done.
        * split; [|split; [|done]].
          -- specialize (Hr _ eq_refl). rewrite <- Hr. replace (Z.to_nat (stop - Z.max o (h + 1))) with 0%nat by lia. by rewrite app_nil_r.
          -- replace (Z.to_nat (stop - h)) with 0%nat by lia. done.
      + specialize (IH o stop count (h + 1) next ltac:(lia) Ho Hs).
        assert (P1 : next <> None -> stop < h + 1) by (intros P; specialize (Hn P); lia).
        assert (P2 : stop < h + 1 -> next <> None \/ False) by (intros P; apply Hn'; lia).
        specialize (IH P1 P2). destruct (offset_loop hit t o stop count (h + 1) next) as [[r k] n]. destruct IH as (I1 & I2 & I3).
        split; [by apply Hr|]. split; [|intros; cbn [length]; rewrite I3 by done; lia].
        rewrite I2. destruct next; [done|]. destruct (Z.lt_ge_cases stop h) as [L|L]; [destruct (Hn' L) as [[]|[]]; done|].
        replace (Z.to_nat (stop - h)) with (S (Z.to_nat (stop - (h + 1)))) by lia. done.
    - (* no hit *)
      assert (Hn2 : next = None -> h <> stop + 1).
      { intros -> ->. destruct (Hn' ltac:(lia)) as [?|[]]. done. }
      destruct (Z.eqb_spec h (stop + 1)) as [E|E].
      + destruct next as [y|]; [|exfalso; by apply Hn2]. destruct count.
        * specialize (IH o stop true h (Some y) ltac:(lia) Ho Hs ltac:(lia) ltac:(by left)).
          destruct (offset_loop hit t o stop true h (Some y)) as [[r k] n]. done.
        * split; [|split; [done|done]]. replace (Z.to_nat (stop - Z.max o h)) with 0%nat by lia. done.
      + specialize (IH o stop count h next H0 Ho Hs Hn Hn').
        destruct (offset_loop hit t o stop count h next) as [[r k] n]. done.
  Qed.

  Lemma array_spec l lo hi : forall n, 0 <= n -> lo <= hi ->
    let '(r, m) := array_loop hit l lo hi n in
    r = firstn (Z.to_nat (hi - Z.max lo n)) (skipn (Z.to_nat (lo - n)) (hits l)) /\ m = n + Z.of_nat (length (hits l)).
  Proof.
    induction l as [|x t IH]; intros n Hn Hlo; cbn [array_loop List.filter].
    { rewrite skipn_nil, firstn_nil. split; [done|]. cbn. lia. }
    destruct (hit x); [|by apply IH]. specialize (IH (n + 1) ltac:(lia) Hlo).
    destruct (array_loop hit t lo hi (n + 1)) as [r m]. destruct IH as [-> ->]. split; [|cbn [length]; lia].
    destruct (Z.leb_spec lo n); cbn [andb].
    - rewrite (nat0 (lo - n)), (nat0 (lo - (n + 1))) by lia. cbn [skipn].
      destruct (Z.ltb_spec n hi).
      + rewrite (Z.max_r lo n), (Z.max_r lo (n+1)) by lia. replace (Z.to_nat (hi - n)) with (S (Z.to_nat (hi - (n + 1)))) by lia. done.
      + rewrite !nat0 by lia. done.
    - rewrite take_drop_cons_lo by lia. f_equal; [lia|]. f_equal. lia.
  Qed.
End pages.

(** ** What the clients get *)
Definition page_size (limit : Z) : Z := if limit =? 0 then DEFAULT_LIMIT else limit.
Lemma page_size_pos limit : 0 <= limit -> 0 < page_size limit.
Proof. unfold page_size, DEFAULT_LIMIT. destruct (Z.eqb_spec limit 0); lia. Qed.

Lemma nth_hit {A} (hit : A -> bool) l n k : nth_error (List.filter hit l) n = Some k ->
  exists l1 l2, l = l1 ++ k :: l2 /\ List.filter hit l1 = firstn n (List.filter hit l) /\
    List.filter hit (k :: l2) = skipn n (List.filter hit l).
Proof.
  revert n. induction l as [|x t IH]; intros n; cbn [List.filter]; [by destruct n|].
  destruct (hit x) eqn:E.
  - destruct n as [|n]; cbn [nth_error].
    + intros [= ->]. exists [], t. cbn [List.filter app firstn skipn]. rewrite E. done.
    + intros H. destruct (IH n H) as (l1 & l2 & -> & H1 & H2). exists (x :: l1), l2. cbn [app List.filter firstn skipn].
      rewrite E, H1, <- H2. done.
  - intros H. destruct (IH n H) as (l1 & l2 & -> & H1 & H2). exists (x :: l1), l2. cbn [app]. split; [done|]. split; [|done].
    cbn [List.filter]. by rewrite E.
Qed.

Section clients.
  Context {A : Type} (hit : A -> bool) (l : list A) (from : A -> list A) (limit : Z) (count : bool).
  Context (Hfrom : forall l1 k l2, l = l1 ++ k :: l2 -> from k = k :: l2).
  Context (Hl : 0 <= limit) (Hs : page_size limit + 1 < two64).
  Definition ask (key : option A) : option (list A * option A) :=
    match filtered_paginate hit l from key 0 limit count with Some (r, k, _) => Some (r, k) | None => None end.
  Lemma ask_key k : ask (Some k) = Some (keyed_loop hit (from k) 0 (page_size limit)).
  Proof.
    unfold ask, filtered_paginate, page_size. destruct (limit =? 0); cbn; by destruct (keyed_loop _ _ _ _).
  Qed.
  Lemma filtered_offset o : 0 <= o -> o + page_size limit + 1 < two64 ->
    exists n, filtered_paginate hit l from None o limit count =
      Some (firstn (Z.to_nat (page_size limit)) (skipn (Z.to_nat o) (List.filter hit l)),
            nth_error (List.filter hit l) (Z.to_nat (o + page_size limit)), n) /\
      (count = true \/ limit = 0 -> n = Z.of_nat (length (List.filter hit l))).
  Proof.
    intros Ho Hb. unfold filtered_paginate. pose proof (page_size_pos limit Hl) as Hp. unfold page_size in *.
    set (cnt := if limit =? 0 then true else count).
    assert (E : (if limit =? 0 then (DEFAULT_LIMIT, true) else (limit, count)) = (if limit =? 0 then DEFAULT_LIMIT else limit, cnt))
      by (unfold cnt; by destruct (limit =? 0)).
    rewrite E. clear E. set (L := if limit =? 0 then DEFAULT_LIMIT else limit) in *.
    assert (Hu : u64_add o L = o + L) by (unfold u64_add, w64; rewrite Z.mod_small; lia).
    rewrite Hu. pose proof (offset_spec hit l o (o + L) cnt 0 None ltac:(lia) ltac:(lia) ltac:(lia) ltac:(done) ltac:(lia)) as H.
    destruct (offset_loop _ _ _ _ _ _ _) as [[r k] n]. destruct H as (-> & -> & H3).
    exists (if cnt then n else 0). split.
    - f_equal. f_equal. f_equal; [|by rewrite Z.sub_0_r]. rewrite Z.max_l, Z.sub_0_r by lia. f_equal. lia.
    - intros Hc. assert (cnt = true) as E. { unfold cnt. destruct Hc as [Hc | Hc]; rewrite Hc; [by destruct (limit =? 0)|done]. }
      rewrite E in *. rewrite H3; [lia|done].
  Qed.
  Lemma walk_keyed : forall l2 l1 k, l = l1 ++ k :: l2 -> exists n, walk n ask (Some k) = Some (List.filter hit (k :: l2)).
  Proof.
    intros l2. remember (length l2) as m eqn:Em. revert l2 Em. induction m as [m IH] using lt_wf_ind. intros l2 Em l1 k E.
    pose proof (page_size_pos limit Hl) as Hp.
    destruct (keyed_spec hit (k :: l2) 0 (page_size limit) ltac:(lia)) as (a & b & Eab & H1 & H2 & H3).
    pose proof (ask_key k) as Ha. rewrite (Hfrom _ _ _ E) in Ha.
    destruct (keyed_loop hit (k :: l2) 0 (page_size limit)) as [r nx]. cbn [fst snd] in *. subst r nx.
    destruct b as [|y b].
    - exists 1%nat. cbn [walk]. rewrite Ha. cbn [head]. rewrite app_nil_r in Eab. by rewrite Eab.
    - destruct a as [|x a].
      { exfalso. specialize (H3 ltac:(done)). cbn in H3. lia. }
      cbn [app] in Eab. injection Eab as <- Eab.
      assert (El : l = (l1 ++ k :: a) ++ y :: b) by (rewrite E, Eab, <- app_assoc; done).
      destruct (IH (length b)) with (l2 := b) (l1 := l1 ++ k :: a) (k := y) as [n Hn]; [|done|done|].
      { subst m. rewrite Eab, app_length. cbn. lia. }
      exists (S n). cbn [walk]. rewrite Ha. cbn [head]. rewrite Hn. f_equal.
      change (k :: l2) with ([k] ++ l2). rewrite Eab. change (k :: a) with ([k] ++ a).
      rewrite !List.filter_app. by rewrite <- !app_assoc.
  Qed.
  Lemma walk_all : exists n, walk n ask None = Some (List.filter hit l).
  Proof.
    pose proof (page_size_pos limit Hl) as Hp.
    destruct (filtered_offset 0 ltac:(lia) ltac:(lia)) as (n & E & _). cbn [skipn Z.to_nat] in E. rewrite Z.add_0_l in E.
    assert (Ha : ask None = Some (firstn (Z.to_nat (page_size limit)) (List.filter hit l), nth_error (List.filter hit l) (Z.to_nat (page_size limit)))).
    { unfold ask. by rewrite E. }
    destruct (nth_error (List.filter hit l) (Z.to_nat (page_size limit))) as [k|] eqn:En.
    - destruct (nth_hit _ _ _ _ En) as (l1 & l2 & El & H1 & H2). destruct (walk_keyed _ _ _ El) as [m Hm].
      exists (S m). cbn [walk]. rewrite Ha, Hm, H2. by rewrite firstn_skipn.
    - exists 1%nat. cbn [walk]. rewrite Ha. apply nth_error_None in En. by rewrite firstn_all2.
  Qed.
End clients.

Lemma by_offset_all {A} (f : Z -> option (list A)) (H : list A) limit : forall n o, 0 < limit -> 0 <= o ->
  (forall i, (i < n)%nat -> f (o + Z.of_nat i * limit) =
     Some (firstn (Z.to_nat limit) (skipn (Z.to_nat (o + Z.of_nat i * limit)) H))) ->
  by_offset n f limit o = Some (firstn (n * Z.to_nat limit) (skipn (Z.to_nat o) H)).
Proof.
  induction n as [|n IH]; intros o Hl Ho Hf; cbn [by_offset]; [done|].
  pose proof (Hf 0%nat ltac:(lia)) as H0. rewrite Z.mul_0_l, Z.add_0_r in H0. rewrite H0.
  rewrite IH; [|done|lia|].
  - f_equal. cbn [Nat.mul]. rewrite Z2Nat.inj_add by lia. rewrite <- drop_drop. apply take_take_drop.
  - intros i Hi. specialize (Hf (S i) ltac:(lia)). 
    replace (o + limit + Z.of_nat i * limit) with (o + Z.of_nat (S i) * limit) by lia. done.
Qed.
