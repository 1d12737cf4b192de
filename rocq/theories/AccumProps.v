(** C29: accumulation does not depend on the order of access. *)
From Coq Require Import String List Arith Bool Reals Lra Lia.
From Coq Require Import ZifyBool ZifyNat.
From Verif Require Import Base AccumModel.
Import ListNotations.
Local Open Scope list_scope.
Local Open Scope nat_scope.

(** ** what is expected, for one cell with the values [x 0], [x 1], .. of the records *)
Fixpoint total (x : nat -> option R) (p : nat) : option R :=
  match p with
  | O => nan0 (x 0)
  | S q => vadd (total x q) (x p)
  end.
Definition accumulated (x : nat -> option R) (p : nat) : option R := if p =? 0 then x 0 else total x p.
Definition deaccumulated (x : nat -> option R) (p : nat) : option R :=
  match p with
  | O => x 0
  | S O => vsub (x 1) (nan0 (x 0))
  | S q => vsub (x p) (x q)
  end.

(** ** lists by position *)
Definition tab (n : nat) (f : nat -> option R) : list (option R) := map f (seq 0 n).
Lemma tab_length n f : length (tab n f) = n.
Proof. unfold tab. now rewrite map_length, seq_length. Qed.
Lemma tab_nth l : l = tab (length l) (fun j => nth j l None).
Proof.
  apply nth_error_ext. intro i. unfold tab. rewrite nth_error_map. destruct (Nat.lt_ge_cases i (length l)) as [ L | L ].
  - rewrite nth_error_nth' with (d := None) by exact L. rewrite (proj2 (nth_error_Some (seq 0 (length l)) i) ltac:(rewrite seq_length; exact L)) || idtac.
    rewrite nth_error_nth' with (l := seq 0 (length l)) (d := 0) by (rewrite seq_length; exact L). rewrite seq_nth by exact L. reflexivity.
  - rewrite (proj2 (nth_error_None l i)) by exact L. rewrite (proj2 (nth_error_None (seq 0 (length l)) i)) by (rewrite seq_length; exact L). reflexivity.
Qed.
Lemma tab_ext n f g : (forall j, j < n -> f j = g j) -> tab n f = tab n g.
Proof. intro H. apply map_ext_in. intros j Hj. apply in_seq in Hj. apply H. lia. Qed.
Lemma zip_map f g h (l : list nat) : zip f (map g l) (map h l) = map (fun j => f (g j) (h j)) l.
Proof. induction l as [ | a l IH ]; cbn; [ reflexivity | now rewrite IH ]. Qed.
Lemma zip_tab f n g h : zip f (tab n g) (tab n h) = tab n (fun j => f (g j) (h j)).
Proof. apply zip_map. Qed.
Lemma map_tab n f (g : option R -> option R) : map g (tab n f) = tab n (fun j => g (f j)).
Proof. apply map_map. Qed.

Lemma vadd_comm a b : vadd a b = vadd b a.
Proof. destruct a, b; cbn; try reflexivity. f_equal. ring. Qed.
Lemma vadd_assoc a b c : vadd (vadd a b) c = vadd a (vadd b c).
Proof. destruct a, b, c; cbn; try reflexivity. f_equal. ring. Qed.

(** ** the heap *)
Definition keeps (n : nat) (h h' : heap) : Prop := length h <= length h' /\ forall l, l < n -> nth l h' [] = nth l h [].
Lemma keeps_trans n h1 h2 h3 : keeps n h1 h2 -> keeps n h2 h3 -> keeps n h1 h3.
Proof. intros (L1 & K1) (L2 & K2). split; [ lia | ]. intros l Hl. rewrite K2, K1; auto. Qed.
Lemma keeps_alloc h a n : n <= length h -> keeps n h (h ++ [a]).
Proof. intro L. split; [ rewrite app_length; lia | ]. intros l Hl. apply app_nth1. lia. Qed.
Lemma nth_alloc {A} (h : list A) a d : nth (length h) (h ++ [a]) d = a.
Proof. rewrite app_nth2 by lia. now rewrite Nat.sub_diag. Qed.
Lemma nth_upd' (h : heap) i j a : j < length h -> nth i (upd h j a) [] = if i =? j then a else nth i h [].
Proof.
  intro L. destruct (Nat.eqb_spec i j) as [ -> | N ].
  - apply nth_error_nth. now apply nth_error_upd_same.
  - destruct (nth_error h i) as [ x | ] eqn:E.
    + rewrite (nth_error_nth h i [] E). apply nth_error_nth. rewrite nth_error_upd_other by auto. exact E.
    + rewrite !nth_overflow; [ reflexivity | now apply nth_error_None in E | rewrite length_upd; now apply nth_error_None in E ].
Qed.

(** [combine] with two arrays at different places, the first not below [n] *)
Lemma combine_spec f h d dP first n m g k :
  n <= loc d -> loc d < length h -> loc dP < length h -> loc d <> loc dP -> content h d = tab m g -> content h dP = tab m k -> (first = true -> n <= loc dP) ->
  exists h' d', combine f h d dP first = Ok (h', d') /\ dbl d' = true /\ n <= loc d' /\ loc d' < length h' /\ keeps n h h' /\
    content h' d' = tab m (fun j => f (g j) (if first then nan0 (k j) else k j)).
Proof.
  intros Hn Hl HlP Hne Ed EP Hf. unfold combine. rewrite Ed, EP, !tab_length, Nat.eqb_refl. unfold content in Ed, EP.
  assert (S1 : exists h1 a, as_double h d = (h1, a) /\ n <= a /\ a < length h1 /\ nth a h1 [] = tab m g /\ nth (loc dP) h1 [] = tab m k /\ a <> loc dP /\ loc dP < length h1 /\ keeps n h h1).
  { unfold as_double, alloc, content. destruct (dbl d).
    - exists h, (loc d). repeat split; auto.
    - exists (h ++ [nth (loc d) h []]), (length h). split; [ reflexivity | ]. split; [ lia | ]. split; [ rewrite app_length; cbn; lia | ]. split; [ rewrite nth_alloc; exact Ed | ].
      split; [ rewrite app_nth1 by exact HlP; exact EP | ]. split; [ lia | ]. split; [ rewrite app_length; lia | ]. apply keeps_alloc. lia. }
  destruct S1 as (h1 & a & -> & Na & La & Ga & GP & Nap & LP & K1).
  assert (S2 : exists h2 b, as_double h1 dP = (h2, b) /\ a < length h2 /\ b < length h2 /\ nth a h2 [] = tab m g /\ nth b h2 [] = tab m k /\ a <> b /\ keeps n h1 h2 /\ (first = true -> n <= b)).
  { unfold as_double, alloc, content. destruct (dbl dP).
    - exists h1, (loc dP). repeat split; auto.
    - exists (h1 ++ [nth (loc dP) h1 []]), (length h1). split; [ reflexivity | ]. rewrite app_length. cbn [length]. split; [ lia | ]. split; [ lia | ]. split; [ rewrite app_nth1 by exact La; exact Ga | ].
      split; [ rewrite nth_alloc; exact GP | ]. split; [ lia | ]. split; [ apply keeps_alloc; destruct K1; lia | ]. lia. }
  destruct S2 as (h2 & b & -> & La2 & Lb2 & Ga2 & Gb2 & Nab & K2 & Nb).
  set (h3 := if first then upd h2 b (map nan0 (nth b h2 [])) else h2).
  assert (L3 : length h3 = length h2) by (unfold h3; destruct first; [ apply length_upd | reflexivity ]).
  assert (Ga3 : nth a h3 [] = tab m g). { unfold h3. destruct first; [ | exact Ga2 ]. rewrite nth_upd' by exact Lb2. destruct (Nat.eqb_spec a b); [ congruence | exact Ga2 ]. }
  assert (Gb3 : nth b h3 [] = tab m (fun j => if first then nan0 (k j) else k j)).
  { unfold h3. destruct first; [ | exact Gb2 ]. rewrite nth_upd' by exact Lb2. rewrite Nat.eqb_refl, Gb2. apply map_tab. }
  assert (K3 : keeps n h2 h3).
  { split; [ lia | ]. intros l Hl'. unfold h3. destruct first; [ | reflexivity ]. specialize (Nb eq_refl). rewrite nth_upd' by exact Lb2. destruct (Nat.eqb_spec l b); [ lia | reflexivity ]. }
  rewrite Ga3, Gb3, zip_tab. eexists _, _. split; [ reflexivity | ]. cbn [loc dbl]. split; [ reflexivity | ]. split; [ exact Na | ].
  rewrite length_upd. split; [ lia | ]. split.
  - apply keeps_trans with h1; [ exact K1 | ]. apply keeps_trans with h2; [ exact K2 | ]. apply keeps_trans with h3; [ exact K3 | ].
    split; [ rewrite length_upd; lia | ]. intros l Hl'. rewrite nth_upd' by lia. destruct (Nat.eqb_spec l a); [ lia | reflexivity ].
  - unfold content. cbn [loc]. rewrite nth_upd' by lia. now rewrite Nat.eqb_refl.
Qed.

Section Accum.
  Variable rec : string -> nat -> list (option R).
  Variable isdbl accVars deVars : string -> bool.
  Variable size : string -> nat.
  Hypothesis Hsize : forall v p, length (rec v p) = size v.
  Hypothesis Hpos : forall v, size v > 0.
  (** cell [j] of the records of variable [v] *)
  Definition cell (v : string) (j p : nat) : option R := nth j (rec v p) None.
  Lemma rec_tab v p : rec v p = tab (size v) (fun j => cell v j p).
  Proof. unfold cell. rewrite <- (Hsize v p). apply tab_nth. Qed.

  Lemma add_data_spec h d dP first n m g k : m > 0 ->
    n <= loc d -> loc d < length h -> loc dP < length h -> loc d <> loc dP -> content h d = tab m g -> content h dP = tab m k -> (first = true -> n <= loc dP) ->
    exists h' d', add_data h d dP first = Ok (h', d') /\ dbl d' = true /\ n <= loc d' /\ loc d' < length h' /\ keeps n h h' /\
      content h' d' = tab m (fun j => vadd (g j) (if first then nan0 (k j) else k j)).
  Proof.
    intros Hm Hn Hl HlP Hne Ed EP Hf. unfold add_data. rewrite Ed, EP, !tab_length. destruct (Nat.eqb_spec m 0); [ lia | ]. cbn [negb andb].
    now apply combine_spec.
  Qed.

  Lemma add_records_spec v n g : forall m i h d,
    n <= loc d -> loc d < length h -> content h d = tab (size v) (fun j => vadd (g j) (match i with O => Some 0%R | S q => total (cell v j) q end)) -> (i = 0 -> n <= length h) ->
    exists h' d', add_records rec isdbl m i v h d = Ok (h', d') /\ (dbl d = true \/ m > 0 -> dbl d' = true) /\ n <= loc d' /\ loc d' < length h' /\ keeps n h h' /\
      content h' d' = tab (size v) (fun j => vadd (g j) (match i + m with O => Some 0%R | S q => total (cell v j) q end)).
  Proof.
    induction m as [ | m IH ]; intros i h d Hn Hl Ed Hi.
    - exists h, d. cbn. rewrite Nat.add_0_r. split; [ reflexivity | ]. split; [ intros [ Q | Q ]; [ exact Q | lia ] | ]. split; [ exact Hn | ]. split; [ exact Hl | ]. split; [ split; [ lia | reflexivity ] | exact Ed ].
    - cbn [add_records]. unfold read, alloc. cbn iota.
      set (h1 := h ++ [rec v i]). set (dP := {| loc := length h; dbl := isdbl v |}).
      assert (L1 : length h1 = S (length h)) by (unfold h1; rewrite app_length; cbn; lia).
      destruct (add_data_spec h1 d dP (i =? 0) n (size v) (fun j => vadd (g j) (match i with O => Some 0%R | S q => total (cell v j) q end)) (fun j => cell v j i)) as (h2 & d2 & E & D2 & N2 & L2 & K2 & C2).
      + apply Hpos.
      + exact Hn.
      + lia.
      + cbn. lia.
      + cbn. lia.
      + unfold content, h1. rewrite app_nth1 by exact Hl. exact Ed.
      + unfold content, h1. cbn [loc dP]. rewrite nth_alloc. apply rec_tab.
      + intros _. cbn. lia.
      + rewrite E. cbn [obind].
        destruct (IH (S i) h2 d2 N2 L2) as (h3 & d3 & E3 & D3 & N3 & L3 & K3 & C3).
        { rewrite C2. apply tab_ext. intros j _. rewrite vadd_assoc. f_equal. destruct i as [ | i ]; cbn [Nat.eqb].
          - cbn [total]. unfold nan0. destruct (cell v j 0) as [ x | ]; cbn; f_equal; ring.
          - reflexivity. }
        { lia. }
        exists h3, d3. split; [ exact E3 | ]. split; [ intros _; apply D3; now left | ]. split; [ exact N3 | ]. split; [ exact L3 | ]. split.
        { apply keeps_trans with h1; [ apply keeps_alloc | apply keeps_trans with h2; assumption ]. lia. }
        { rewrite C3. now replace (S i + m) with (i + S m) by lia. }
  Qed.

  (** the cache holds the sum up to its position *)
  Definition good (st : state) : Prop :=
    match cache st with
    | None => True
    | Some (v, c, d) => c > 0 /\ loc d < length (mem st) /\ content (mem st) d = tab (size v) (fun j => total (cell v j) c)
    end.

  Lemma accumulate_spec v u st h d : good st -> loc d < length h -> length (mem st) <= loc d -> keeps (length (mem st)) (mem st) h -> content h d = rec v u ->
    exists st' d', accumulate rec isdbl v u st h d = Ok (st', d') /\ good st' /\ keeps (length (mem st)) (mem st) (mem st') /\ loc d' < length (mem st') /\
      content (mem st') d' = tab (size v) (fun j => accumulated (cell v j) u).
  Proof.
    intros G Hl Hn K E. unfold accumulate. destruct (Nat.eqb_spec u 0) as [ -> | Hu ].
    - eexists _, d. split; [ reflexivity | ]. cbn [mem cache]. split; [ | split; [ exact K | split; [ exact Hl | ] ] ].
      + unfold good in *. cbn [cache mem]. destruct (cache st) as [ ((cv & c) & cd) | ]; [ | exact I ]. destruct G as (G1 & G2 & G3). split; [ exact G1 | ].
        destruct K as (K1 & K2). split; [ lia | ]. unfold content in *. rewrite K2 by exact G2. exact G3.
      + rewrite E. apply rec_tab.
    - set (n := length (mem st)) in *.
      assert (Fin : forall h1 d1 start, start <= u -> n <= loc d1 -> loc d1 < length h1 -> keeps n (mem st) h1 ->
                content h1 d1 = tab (size v) (fun j => vadd (cell v j u) (match start with O => Some 0%R | S q => total (cell v j) q end)) ->
                exists st' d', (do (h, d) <- add_records rec isdbl (u - start) start v h1 d1; Ok ({| mem := h; cache := Some (v, u, d) |}, d)) = Ok (st', d') /\
                  good st' /\ keeps n (mem st) (mem st') /\ loc d' < length (mem st') /\ content (mem st') d' = tab (size v) (fun j => accumulated (cell v j) u)).
      { intros h1 d1 start Hs Hn1 Hl1 K1 C1.
        destruct (add_records_spec v n (fun j => cell v j u) (u - start) start h1 d1 Hn1 Hl1 C1) as (h2 & d2 & E2 & D2 & N2 & L2 & K2 & C2); [ intros _; destruct K1; lia | ].
        rewrite E2. cbn [obind]. eexists _, _. split; [ reflexivity | ]. cbn [mem cache].
        assert (C3 : content h2 d2 = tab (size v) (fun j => total (cell v j) u)).
        { rewrite C2. apply tab_ext. intros j _. replace (start + (u - start)) with u by lia. destruct u as [ | u' ]; [ lia | ]. cbn [total]. apply vadd_comm. }
        split; [ split; [ lia | split; [ exact L2 | exact C3 ] ] | ]. split; [ apply keeps_trans with h1; assumption | ]. split; [ exact L2 | ].
        rewrite C3. unfold accumulated. destruct (Nat.eqb_spec u 0); [ lia | reflexivity ]. }
      assert (Base : exists st' d', (do (h, d) <- add_records rec isdbl (u - 0) 0 v h d; Ok ({| mem := h; cache := Some (v, u, d) |}, d)) = Ok (st', d') /\
                  good st' /\ keeps n (mem st) (mem st') /\ loc d' < length (mem st') /\ content (mem st') d' = tab (size v) (fun j => accumulated (cell v j) u)).
      { apply Fin; auto; [ lia | ]. rewrite E, rec_tab. apply tab_ext. intros j _. destruct (cell v j u); cbn; [ f_equal; ring | reflexivity ]. }
      unfold good in G. destruct (cache st) as [ ((cv & c) & cd) | ]; [ | exact Base ].
      destruct (String.eqb_spec cv v) as [ -> | N ]; [ | exact Base ]. destruct (Nat.leb_spec c u) as [ Lc | Lc ]; [ | exact Base ].
      cbn [andb]. destruct G as (Gc & Gl & Gd). fold n in Gl. unfold content in Gd.
      assert (Cd : content h cd = tab (size v) (fun j => total (cell v j) c)) by (unfold content; rewrite (proj2 K) by exact Gl; exact Gd).
      destruct (Nat.eqb_spec c u) as [ -> | Nc ].
      + cbn [obind]. replace (u - (u + 1)) with 0 by lia. cbn [add_records obind]. eexists _, _. split; [ reflexivity | ]. cbn [mem cache].
        assert (Lcd : loc cd < length h) by (destruct K; lia).
        split; [ split; [ exact Gc | split; assumption ] | ]. split; [ exact K | ]. split; [ exact Lcd | ]. rewrite Cd. unfold accumulated. destruct (Nat.eqb_spec u 0); [ lia | reflexivity ].
      + destruct (add_data_spec h d cd false n (size v) (fun j => cell v j u) (fun j => total (cell v j) c)) as (h2 & d2 & E2 & D2 & N2 & L2 & K2 & C2); auto.
        { destruct K; lia. }
        { lia. }
        { rewrite E. apply rec_tab. }
        { discriminate. }
        rewrite E2. cbn [obind]. apply (Fin h2 d2 (c + 1)); auto; [ lia | apply keeps_trans with h; assumption | ].
        rewrite C2. apply tab_ext. intros j _. now rewrite Nat.add_1_r.
  Qed.

  Hypothesis Hdisj : forall v, accVars v = true -> deVars v = true -> False.
  (** the value that is to be returned *)
  Definition expected (v : string) (u : nat) : list (option R) :=
    tab (size v) (fun j => if accVars v then accumulated (cell v j) u else if deVars v then deaccumulated (cell v j) u else cell v j u).

  Lemma get_slice_spec st v u : good st ->
    exists st' d, get_slice rec isdbl accVars deVars st v u = Ok (st', d) /\ good st' /\ keeps (length (mem st)) (mem st) (mem st') /\ loc d < length (mem st') /\ content (mem st') d = expected v u.
  Proof.
    intro G. unfold get_slice, read, alloc. cbn iota. set (h := mem st ++ [rec v u]). set (d := {| loc := length (mem st); dbl := isdbl v |}).
    assert (L : length h = S (length (mem st))) by (unfold h; rewrite app_length; cbn; lia).
    assert (K : keeps (length (mem st)) (mem st) h) by now apply keeps_alloc.
    assert (C : content h d = rec v u) by (unfold content, h, d; cbn [loc]; apply nth_alloc).
    assert (Gk : good {| mem := h; cache := cache st |}).
    { unfold good in *. cbn [cache mem]. destruct (cache st) as [ ((cv & c) & cd) | ]; [ | exact I ]. destruct G as (G1 & G2 & G3). split; [ exact G1 | ].
      destruct K as (K1 & K2). split; [ lia | ]. unfold content in *. rewrite K2 by exact G2. exact G3. }
    unfold expected. destruct (accVars v) eqn:Ha.
    - destruct (accumulate_spec v u st h d G) as (st' & d' & E & G' & K' & L' & C'); auto; [ cbn; lia | ].
      rewrite E. cbn [obind]. destruct (deVars v) eqn:Hd; [ exfalso; eauto | ]. cbn [obind]. eexists _, _. split; [ reflexivity | ]. cbn [mem cache]. destruct st'; auto.
    - cbn [obind mem cache]. destruct (deVars v) eqn:Hd.
      + unfold deaccumulate. destruct (Nat.eqb_spec u 0) as [ -> | Hu ].
        { cbn [obind]. eexists _, _. split; [ reflexivity | ]. cbn [mem cache]. split; [ exact Gk | ]. split; [ exact K | ]. split; [ cbn; lia | ]. rewrite C. apply rec_tab. }
        unfold read, alloc. cbn iota. set (h1 := h ++ [rec v (u - 1)]). set (dP := {| loc := length h; dbl := isdbl v |}).
        assert (C1 : content h1 d = tab (size v) (fun j => cell v j u)) by (unfold content, h1, d; cbn [loc]; rewrite app_nth1 by lia; unfold content, d in C; cbn [loc] in C; rewrite C; apply rec_tab).
        assert (C2 : content h1 dP = tab (size v) (fun j => cell v j (u - 1))) by (unfold content, h1, dP; cbn [loc]; rewrite nth_alloc; apply rec_tab).
        rewrite C1, C2, !tab_length. assert (P := Hpos v). destruct (Nat.eqb_spec (size v) 0); [ lia | ]. cbn [negb andb].
        assert (L1 : length h1 = S (length h)) by (unfold h1; rewrite app_length; cbn; lia).
        destruct (combine_spec vsub h1 d dP (u =? 1) (length (mem st)) (size v) (fun j => cell v j u) (fun j => cell v j (u - 1))) as (h2 & d2 & E2 & D2 & N2 & L2 & K2 & C3); auto; try (cbn; lia).
        rewrite E2. cbn [obind]. eexists _, _. split; [ reflexivity | ]. cbn [mem cache].
        assert (K3 : keeps (length (mem st)) (mem st) h2) by (apply keeps_trans with h; [ exact K | ]; apply keeps_trans with h1; [ apply keeps_alloc; lia | exact K2 ]).
        split.
        { unfold good in *. cbn [cache mem]. destruct (cache st) as [ ((cv & c) & cd) | ]; [ | exact I ]. destruct G as (G1 & G2 & G3). split; [ exact G1 | ].
          destruct K3 as (K31 & K32). split; [ lia | ]. unfold content in *. rewrite K32 by exact G2. exact G3. }
        split; [ exact K3 | ]. split; [ exact L2 | ]. rewrite C3. apply tab_ext. intros j _. destruct u as [ | [ | u ] ]; [ lia | reflexivity | ]. cbn [Nat.eqb deaccumulated]. now replace (S (S u) - 1) with (S u) by lia.
      + cbn [obind]. eexists _, _. split; [ reflexivity | ]. cbn [mem cache]. split; [ exact Gk | ]. split; [ exact K | ]. split; [ cbn; lia | ]. rewrite C. apply rec_tab.
  Qed.

  Definition reads (l : list (string * nat)) : list op := map (fun r => Read (fst r) (snd r)) l.
  (** each request of each history gets the expected values, and earlier results are not changed later *)
  Theorem C29_reads : forall l st, good st ->
    exists st' rs, run rec isdbl accVars deVars st (reads l) = Ok (st', rs) /\ good st' /\ keeps (length (mem st)) (mem st) (mem st') /\
      map fst rs = map (fun r => expected (fst r) (snd r)) l /\
      forall r, In r rs -> content (mem st') (snd r) = fst r.
  Proof.
    induction l as [ | (v & u) l IH ]; intros st G.
    - exists st, []. cbn. split; [ reflexivity | ]. split; [ exact G | ]. split; [ split; [ lia | auto ] | ]. split; [ reflexivity | intros ? [] ].
    - cbn [reads map fst snd run]. fold (reads l). destruct (get_slice_spec st v u G) as (st1 & d & E & G1 & K1 & L1 & C1). rewrite E. cbn [obind].
      destruct (IH st1 G1) as (st2 & rs & E2 & G2 & K2 & M2 & S2). rewrite E2. cbn [obind]. eexists _, _. split; [ reflexivity | ]. split; [ exact G2 | ].
      assert (L12 : length (mem st) <= length (mem st1)) by apply K1.
      split; [ apply keeps_trans with (mem st1); [ exact K1 | ]; destruct K2 as (Ka & Kb); split; [ exact Ka | intros; apply Kb; lia ] | ].
      split; [ cbn; now rewrite C1, M2 | ]. intros r [ <- | Hr ]; [ | now apply S2 ]. cbn. unfold content. now rewrite (proj2 K2) by exact L1.
  Qed.
  Theorem C29_history l1 l2 v u rs1 rs2 s1 s2 :
    run rec isdbl accVars deVars start (reads (l1 ++ [(v, u)])) = Ok (s1, rs1) -> run rec isdbl accVars deVars start (reads (l2 ++ [(v, u)])) = Ok (s2, rs2) ->
    map fst rs1 <> [] /\ last (map fst rs1) [] = last (map fst rs2) [].
  Proof.
    intros E1 E2. destruct (C29_reads (l1 ++ [(v, u)]) start I) as (t1 & q1 & F1 & _ & _ & M1 & _). destruct (C29_reads (l2 ++ [(v, u)]) start I) as (t2 & q2 & F2 & _ & _ & M2 & _).
    rewrite E1 in F1. rewrite E2 in F2. injection F1 as -> ->. injection F2 as -> ->. rewrite M1, M2, !map_app. cbn [map]. rewrite !last_last. split; [ | reflexivity ].
    intro Q. now apply app_eq_nil in Q.
  Qed.
End Accum.

(** the sum of defined values, and its inverse *)
Theorem C29_total x p : (forall i, 1 <= i <= p -> x i <> None) ->
  total x p = Some (fold_right Rplus 0%R (map (fun i => match nan0 (x i) with Some r => r | None => 0%R end) (seq 0 (S p)))).
Proof.
  assert (Sn : forall f n, fold_right Rplus 0%R (map f (seq 0 (S n))) = (fold_right Rplus 0%R (map f (seq 0 n)) + f n)%R).
  { intros f n. rewrite seq_S, map_app, fold_right_app. cbn. assert (G : forall l a, fold_right Rplus a l = (fold_right Rplus 0 l + a)%R) by (induction l as [ | b l IH ]; intro a; cbn; [ ring | rewrite (IH a); ring ]).
    rewrite G. ring. }
  induction p as [ | p IH ]; intro H.
  - cbn. destruct (x 0); cbn; f_equal; ring.
  - rewrite Sn. cbn [total]. rewrite IH by (intros; apply H; lia). assert (N := H (S p) ltac:(lia)). destruct (x (S p)) as [ r | ]; [ | congruence ]. reflexivity.
Qed.
(** an undefined value in a record after the first makes all later sums undefined *)
Theorem C29_undefined x p i : 1 <= i <= p -> x i = None -> accumulated x p = None.
Proof.
  intros H E. unfold accumulated. destruct (Nat.eqb_spec p 0); [ lia | ]. clear n. induction p as [ | p IH ]; [ lia | ]. cbn [total].
  destruct (Nat.eq_dec i (S p)) as [ -> | N ]; [ rewrite E; now destruct (total x p) | ]. now rewrite IH by lia.
Qed.
Theorem C29_inverse x p : (forall i, 1 <= i <= p -> x i <> None) -> deaccumulated (accumulated x) p = x p.
Proof.
  intro H. destruct p as [ | [ | p ] ]; [ reflexivity | | ].
  - cbn. assert (N := H 1 ltac:(lia)). destruct (x 1) as [ b | ]; [ | congruence ]. destruct (x 0) as [ a | ]; cbn; f_equal; ring.
  - cbn [deaccumulated]. unfold accumulated. cbn [Nat.eqb]. cbn [total]. assert (T := C29_total x (S p) ltac:(intros; apply H; lia)).
    cbn [total] in T. rewrite T. assert (N := H (S (S p)) ltac:(lia)). destruct (x (S (S p))) as [ b | ]; [ | congruence ]. cbn [vadd vsub]. f_equal. ring.
Qed.

(** ** findings *)
Definition none (_ : string) := false.
Definition all (_ : string) := true.
(** a variable in both lists: the second identical request differs from the first *)
Theorem C29_both_refuted : exists rec, (forall v p, length (rec v p) = 1) /\
  exists st a b da db, run rec all all all start [Read "v" 1; Read "v" 1] = Ok (st, [(a, da); (b, db)]) /\ a <> b.
Proof.
  exists (fun _ _ => [Some 1%R]). split; [ reflexivity | ]. do 5 eexists. split; [ reflexivity | ]. cbn. intro Q. injection Q as Q. lra.
Qed.
(** writing into a result changes later results: the cache is the array that was handed out *)
Theorem C29_shared_refuted : exists rec, (forall v p, length (rec v p) = 1) /\
  exists st st' a b c e da db dd de, run rec all all none start [Read "v" 1; Read "v" 2] = Ok (st, [(a, da); (b, db)]) /\
    run rec all all none start [Read "v" 1; Write da [Some 100%R]; Read "v" 2] = Ok (st', [(c, dd); (e, de)]) /\ b <> e.
Proof.
  exists (fun _ _ => [Some 1%R]). split; [ reflexivity | ]. do 10 eexists. split; [ reflexivity | ]. split; [ reflexivity | ]. cbn. intro Q. injection Q as Q. lra.
Qed.
(** with a missing (empty) record the result depends on the history: undefined values of record 0 are only
    replaced if the requested record is there *)
Theorem C29_missing_refuted : exists rec,
  exists st st' a b c da db dc, run rec all all none start [Read "v" 1; Read "v" 2] = Ok (st, [(a, da); (b, db)]) /\
    run rec all all none start [Read "v" 2] = Ok (st', [(c, dc)]) /\ b <> c.
Proof.
  exists (fun _ p => match p with 0 => [None] | 1 => [Some 1%R] | _ => [] end). do 8 eexists. split; [ reflexivity | ]. split; [ reflexivity | ]. cbn. discriminate.
Qed.
(** and an earlier result is overwritten by a later request *)
Theorem C29_overwritten_refuted : exists rec,
  exists st a b da db, run rec all all none start [Read "v" 1; Read "v" 3] = Ok (st, [(a, da); (b, db)]) /\ content (mem st) da <> a.
Proof.
  exists (fun _ p => match p with 0 | 1 | 2 => [Some 1%R] | _ => [] end). do 5 eexists. split; [ reflexivity | ]. cbn. intro Q. injection Q as Q. lra.
Qed.
(** the sum is made of packed values: with an offset it is not the sum of the scaled values *)
Theorem C29_offset_refuted : exists scale offset x, (forall p, exists r, x p = Some r) /\
  option_map (fun r => scale * r + offset)%R (accumulated x 1) <> accumulated (fun p => option_map (fun r => scale * r + offset)%R (x p)) 1.
Proof.
  exists 1%R, 273%R, (fun _ => Some 0%R). split; [ intros; now eexists | ]. cbn. intro Q. injection Q as Q. lra.
Qed.

Example C29_nonvacuous :
  let rec := fun (_ : string) p => [Some (INR p + 1)%R; None] in
  (forall v p, length (rec v p) = 2) /\ cell rec "v" 0 3 = Some (INR 3 + 1)%R /\
  total (fun p => Some (INR p + 1)%R) 2 = Some 6%R.
Proof. split; [ reflexivity | ]. split; [ reflexivity | ]. cbn. f_equal. ring. Qed.
Print Assumptions C29_reads.
Print Assumptions C29_history.
Print Assumptions C29_total.
Print Assumptions C29_undefined.
Print Assumptions C29_inverse.
Print Assumptions C29_both_refuted.
Print Assumptions C29_shared_refuted.
Print Assumptions C29_missing_refuted.
Print Assumptions C29_overwritten_refuted.
Print Assumptions C29_offset_refuted.
