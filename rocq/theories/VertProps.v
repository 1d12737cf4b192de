(** C72: vertical wind on hybrid levels. *)
From Coq Require Import Reals List Arith Bool Lia Lra.
From Coq Require Import ZifyBool ZifyNat.
From Verif Require Import Base VertModel.
Import ListNotations.
Local Open Scope nat_scope.

Lemma ofold_from {T} (P : nat -> T -> Prop) (f : T -> nat -> outcome T) a n : forall s0,
  P a s0 -> (forall k s, a <= k < a + n -> P k s -> exists s', f s k = Ok s' /\ P (k + 1) s') ->
  exists s', ofold f (seq a n) s0 = Ok s' /\ P (a + n) s'.
Proof.
  intros s0 H0 Hs.
  assert (G : forall m c s, c + m = a + n -> a <= c -> P c s -> exists s', ofold f (seq c m) s = Ok s' /\ P (a + n) s').
  { induction m as [|m IH]; intros c s E Hc Ha; cbn [seq ofold].
    - exists s. split; auto. now replace (a + n) with c by lia.
    - destruct (Hs c s) as (s' & -> & Hs'); [lia|exact Ha|]. cbn [obind].
      apply IH; [lia|lia|]. now replace (S c) with (c + 1) by lia. }
  apply (G n a s0); auto.
Qed.

Lemma wr_ok {A} (l : list A) i x : i < length l -> wr l i x = Ok (upd l i x).
Proof. intro H. unfold wr. now rewrite (proj2 (Nat.ltb_lt _ _) H). Qed.

Section Grid.
Context (nx ny nz : nat).

Lemma pos_bound i j k : i < nx -> j < ny -> k < nz -> pos nx ny i j k < nx * ny * nz.
Proof.
  intros Hi Hj Hk. unfold pos.
  assert (j + ny * k + 1 <= ny * nz) by nia.
  assert (nx * (j + ny * k) + nx <= nx * (ny * nz)) by nia. lia.
Qed.
Lemma pos_inj i j k i' j' k' : i < nx -> j < ny -> i' < nx -> j' < ny ->
  pos nx ny i j k = pos nx ny i' j' k' -> i = i' /\ j = j' /\ k = k'.
Proof.
  intros Hi Hj Hi' Hj' E. unfold pos in E.
  assert (G : forall n a q a' q', a < n -> a' < n -> a + n * q = a' + n * q' -> a = a' /\ q = q').
  { clear. intros n a q a' q' H1 H2 H. assert (q = q') by nia. subst. lia. }
  destruct (G _ _ _ _ _ Hi Hi' E) as (-> & E2). destruct (G _ _ _ _ _ Hj Hj' E2) as (-> & ->). auto.
Qed.

(** the array holds the values [f i j k] *)
Definition repr (w : list (option R)) (f : nat -> nat -> nat -> option R) : Prop :=
  length w = nx * ny * nz /\
  forall i j k, i < nx -> j < ny -> k < nz -> nth_error w (pos nx ny i j k) = Some (f i j k).

Lemma repr_ext w f g : repr w f -> (forall i j k, i < nx -> j < ny -> k < nz -> f i j k = g i j k) -> repr w g.
Proof. intros (L & H) E. split; [exact L|]. intros. now rewrite <- E, H. Qed.

Definition at3 (a b c i j k : nat) : bool := (i =? a) && (j =? b) && (k =? c).
Lemma at3_spec a b c i j k : at3 a b c i j k = true <-> i = a /\ j = b /\ k = c.
Proof. unfold at3. rewrite !andb_true_iff, !Nat.eqb_eq. tauto. Qed.

Lemma repr_wr w f a b c x : repr w f -> a < nx -> b < ny -> c < nz ->
  exists w', wr w (pos nx ny a b c) x = Ok w' /\ repr w' (fun i j k => if at3 a b c i j k then x else f i j k).
Proof.
  intros (L & H) Ha Hb Hc. pose proof (pos_bound a b c Ha Hb Hc) as B.
  rewrite wr_ok by lia. eexists. split; [reflexivity|]. split; [now rewrite length_upd|].
  intros i j k Hi Hj Hk. destruct (at3 a b c i j k) eqn:E.
  - apply at3_spec in E. destruct E as (-> & -> & ->). apply nth_error_upd_same. lia.
  - rewrite nth_error_upd_other; [now apply H|]. intro Q. apply pos_inj in Q; try assumption.
    destruct Q as (<- & <- & <-). assert (at3 a b c a b c = true) by now apply at3_spec. congruence.
Qed.

Lemma repr_copy w f a b c a' b' c' q : repr w f -> a < nx -> b < ny -> c < nz -> a' < nx -> b' < ny -> c' < nz ->
  q = pos nx ny a' b' c' ->
  exists w', copy_w w (pos nx ny a b c) q = Ok w' /\
             repr w' (fun i j k => if at3 a b c i j k then f a' b' c' else f i j k).
Proof.
  intros H Ha Hb Hc Ha' Hb' Hc' ->. unfold copy_w. destruct H as (L & H).
  rewrite H by assumption. cbn [rd obind]. now apply repr_wr.
Qed.
End Grid.

(** the inner row or column next to row or column i *)
Definition clamp (n i : nat) : nat := if i =? 0 then 1 else if i =? n - 1 then n - 2 else i.
Lemma clamp_in n i : 3 <= n -> i < n -> 1 <= clamp n i < n - 1.
Proof. intros. unfold clamp. destruct (i =? 0) eqn:A; [lia|]. destruct (i =? n - 1) eqn:B; lia. Qed.

Section Vert.
Context (nx ny nz : nat) (dx dy : R) (gx gy : nat -> R) (ap b : nat -> R) (zs ps : nat -> R) (u v t : nat -> R).
Hypothesis Hx : 3 <= nx.
Hypothesis Hy : 3 <= ny.
Hypothesis Hz : 1 <= nz.

Notation W k ij := (w_inner nx ny nz dx dy gx gy ap b zs ps u v t k ij).
Notation lev := (level nx ny nz dx dy gx gy ap b zs ps u v t).
Notation rep := (repr nx ny nz).

(** the value the cell (i, j, k) ends up with *)
Definition final (k i j : nat) : option R :=
  if k =? 0 then Some 0%R else Some (W k (clamp nx i + nx * clamp ny j)).

Lemma inner_ok w f k : k < nz -> rep w f -> exists w', inner_cells nx ny nz dx dy gx gy ap b zs ps u v t k w = Ok w' /\
  rep w' (fun i j l => if (l =? k) && (1 <=? i) && (i <? nx - 1) && (1 <=? j) && (j <? ny - 1) then Some (W k (i + nx * j)) else f i j l).
Proof.
  intros Hk H. unfold inner_cells.
  destruct (ofold_from (fun J w => rep w (fun i j l => if (l =? k) && (1 <=? i) && (i <? nx - 1) && (1 <=? j) && (j <? J)
                                                   then Some (W k (i + nx * j)) else f i j l))
     (fun w j => ofold (fun w i => wr w (pos nx ny i j k) (Some (W k (i + nx * j)))) (seq 1 (nx - 2)) w) 1 (ny - 2) w)
    as (w' & E & H').
  - eapply repr_ext; [exact H|]. intros i j l Hi Hj Hl. cbn beta.
    destruct ((l =? k) && (1 <=? i) && (i <? nx - 1) && (1 <=? j) && (j <? 1)) eqn:Q; auto. lia.
  - intros J w1 HJ H1.
    destruct (ofold_from (fun I w => rep w (fun i j l =>
        if (l =? k) && (1 <=? i) && (i <? nx - 1) && (1 <=? j) && ((j <? J) || ((j =? J) && (i <? I)))
        then Some (W k (i + nx * j)) else f i j l))
       (fun w i => wr w (pos nx ny i J k) (Some (W k (i + nx * J)))) 1 (nx - 2) w1) as (w2 & E2 & H2).
    + eapply repr_ext; [exact H1|]. intros i j l Hi Hj Hl. cbn beta.
      match goal with |- (if ?a then _ else _) = (if ?c then _ else _) => replace a with c; [reflexivity|] end. lia.
    + intros I w2 HI H2. destruct (repr_wr nx ny nz w2 _ I J k (Some (W k (I + nx * J))) H2) as (w3 & E3 & H3); try lia.
      exists w3. split; [exact E3|]. eapply repr_ext; [exact H3|]. intros i j l Hi Hj Hl. cbn beta.
      destruct (at3 I J k i j l) eqn:A.
      * apply at3_spec in A. destruct A as (-> & -> & ->).
        match goal with |- _ = (if ?c then _ else _) => replace c with true; [reflexivity|] end. lia.
      * match goal with |- (if ?a then _ else _) = (if ?c then _ else _) => replace a with c; [reflexivity|] end.
        unfold at3 in A. lia.
    + exists w2. split; [exact E2|]. eapply repr_ext; [exact H2|]. intros i j l Hi Hj Hl. cbn beta.
      match goal with |- (if ?a then _ else _) = (if ?c then _ else _) => replace a with c; [reflexivity|] end. lia.
  - exists w'. split; [exact E|]. eapply repr_ext; [exact H'|]. intros i j l Hi Hj Hl. cbn beta.
    match goal with |- (if ?a then _ else _) = (if ?c then _ else _) => replace a with c; [reflexivity|] end. lia.
Qed.

Lemma rows_ok w f k : k < nz -> rep w f -> exists w', edge_rows nx ny k w = Ok w' /\
  rep w' (fun i j l => if (l =? k) && (1 <=? i) && (i <? nx - 1) then f i (clamp ny j) l else f i j l).
Proof.
  intros Hk H. unfold edge_rows.
  destruct (ofold_from (fun I w => rep w (fun i j l => if (l =? k) && (1 <=? i) && (i <? I) then f i (clamp ny j) l else f i j l))
     (fun w i => do w <- copy_w w (pos nx ny i 0 k) (pos nx ny i 0 k + nx);
                 copy_w w (pos nx ny i (ny - 1) k) (pos nx ny i (ny - 1) k - nx)) 1 (nx - 2) w) as (w' & E & H').
  - eapply repr_ext; [exact H|]. intros i j l Hi Hj Hl. cbn beta.
    destruct ((l =? k) && (1 <=? i) && (i <? 1)) eqn:Q; auto. lia.
  - intros I w1 HI H1.
    destruct (repr_copy nx ny nz w1 _ I 0 k I 1 k (pos nx ny I 0 k + nx) H1) as (w2 & E2 & H2); try lia.
    { unfold pos. nia. }
    rewrite E2. cbn [obind].
    destruct (repr_copy nx ny nz w2 _ I (ny - 1) k I (ny - 2) k (pos nx ny I (ny - 1) k - nx) H2) as (w3 & E3 & H3); try lia.
    { unfold pos. replace (ny - 1 + ny * k) with (ny - 2 + ny * k + 1) by lia. nia. }
    exists w3. split; [exact E3|]. eapply repr_ext; [exact H3|]. intros i j l Hi Hj Hl. cbn beta.
    destruct (at3 I (ny - 1) k i j l) eqn:A.
    + apply at3_spec in A. destruct A as (-> & -> & ->).
      replace (at3 I 0 k I (ny - 2) k) with false by (unfold at3; lia).
      replace ((k =? k) && (1 <=? I) && (I <? I)) with false by lia.
      replace ((k =? k) && (1 <=? I) && (I <? I + 1)) with true by lia.
      unfold clamp. replace (ny - 1 =? 0) with false by lia. replace (ny - 1 =? ny - 1) with true by lia. reflexivity.
    + destruct (at3 I 0 k i j l) eqn:A2.
      * apply at3_spec in A2. destruct A2 as (-> & -> & ->).
        replace ((k =? k) && (1 <=? I) && (I <? I)) with false by lia.
        replace ((k =? k) && (1 <=? I) && (I <? I + 1)) with true by lia. reflexivity.
      * destruct ((l =? k) && (1 <=? i) && (i <? I)) eqn:Q.
        -- replace ((l =? k) && (1 <=? i) && (i <? I + 1)) with true by lia. reflexivity.
        -- destruct ((l =? k) && (1 <=? i) && (i <? I + 1)) eqn:Q2; auto.
           assert (i = I /\ l = k) as (-> & ->) by lia. unfold at3 in A, A2.
           unfold clamp. replace (j =? 0) with false by lia. replace (j =? ny - 1) with false by lia. reflexivity.
  - exists w'. split; [exact E|]. eapply repr_ext; [exact H'|]. intros i j l Hi Hj Hl. cbn beta.
    match goal with |- (if ?a then _ else _) = (if ?c then _ else _) => replace a with c; [reflexivity|] end. lia.
Qed.

Lemma columns_ok w f k : k < nz -> rep w f -> exists w', edge_columns nx ny k w = Ok w' /\
  rep w' (fun i j l => if l =? k then f (clamp nx i) j l else f i j l).
Proof.
  intros Hk H. unfold edge_columns.
  destruct (ofold_from (fun J w => rep w (fun i j l => if (l =? k) && (j <? J) then f (clamp nx i) j l else f i j l))
     (fun w j => do w <- copy_w w (pos nx ny 0 j k) (pos nx ny 0 j k + 1);
                 copy_w w (pos nx ny (nx - 1) j k) (pos nx ny (nx - 1) j k - 1)) 0 ny w) as (w' & E & H').
  - eapply repr_ext; [exact H|]. intros i j l Hi Hj Hl. cbn beta.
    destruct ((l =? k) && (j <? 0)) eqn:Q; auto. lia.
  - intros J w1 HJ H1.
    destruct (repr_copy nx ny nz w1 _ 0 J k 1 J k (pos nx ny 0 J k + 1) H1) as (w2 & E2 & H2); try lia.
    { unfold pos. lia. }
    rewrite E2. cbn [obind].
    destruct (repr_copy nx ny nz w2 _ (nx - 1) J k (nx - 2) J k (pos nx ny (nx - 1) J k - 1) H2) as (w3 & E3 & H3); try lia.
    { unfold pos. lia. }
    exists w3. split; [exact E3|]. eapply repr_ext; [exact H3|]. intros i j l Hi Hj Hl. cbn beta.
    destruct (at3 (nx - 1) J k i j l) eqn:A.
    + apply at3_spec in A. destruct A as (-> & -> & ->).
      replace (at3 0 J k (nx - 2) J k) with false by (unfold at3; lia).
      replace ((k =? k) && (J <? J)) with false by lia. replace ((k =? k) && (J <? J + 1)) with true by lia.
      unfold clamp. replace (nx - 1 =? 0) with false by lia. replace (nx - 1 =? nx - 1) with true by lia. reflexivity.
    + destruct (at3 0 J k i j l) eqn:A2.
      * apply at3_spec in A2. destruct A2 as (-> & -> & ->).
        replace ((k =? k) && (J <? J)) with false by lia. replace ((k =? k) && (J <? J + 1)) with true by lia. reflexivity.
      * destruct ((l =? k) && (j <? J)) eqn:Q.
        -- replace ((l =? k) && (j <? J + 1)) with true by lia. reflexivity.
        -- destruct ((l =? k) && (j <? J + 1)) eqn:Q2; auto.
           assert (j = J /\ l = k) as (-> & ->) by lia. unfold at3 in A, A2.
           unfold clamp. replace (i =? 0) with false by lia. replace (i =? nx - 1) with false by lia. reflexivity.
  - exists w'. split; [exact E|]. eapply repr_ext; [exact H'|]. intros i j l Hi Hj Hl. cbn beta.
    match goal with |- (if ?a then _ else _) = (if ?c then _ else _) => replace a with c; [reflexivity|] end. lia.
Qed.

Lemma level_ok w f k : k < nz -> rep w f -> exists w', lev w k = Ok w' /\
  rep w' (fun i j l => if l =? k then Some (W k (clamp nx i + nx * clamp ny j)) else f i j l).
Proof.
  intros Hk H. unfold level.
  destruct (inner_ok w f k Hk H) as (w1 & -> & H1). cbn [obind].
  destruct (rows_ok w1 _ k Hk H1) as (w2 & -> & H2). cbn [obind].
  destruct (columns_ok w2 _ k Hk H2) as (w3 & -> & H3). exists w3. split; [reflexivity|].
  eapply repr_ext; [exact H3|]. intros i j l Hi Hj Hl. cbn beta.
  destruct (l =? k) eqn:Q; [|cbn [andb]; reflexivity].
  pose proof (clamp_in nx i Hx Hi). pose proof (clamp_in ny j Hy Hj).
  replace (true && (1 <=? clamp nx i) && (clamp nx i <? nx - 1)) with true by lia. cbn [andb].
  replace ((1 <=? clamp ny j) && (clamp ny j <? ny - 1)) with true by lia. reflexivity.
Qed.

Lemma velocity_ok w : length w = nx * ny * nz -> exists w',
  vertical_velocity nx ny nz dx dy gx gy ap b zs ps u v t w = Ok w' /\ rep w' (fun i j k => final k i j).
Proof.
  intro L. unfold vertical_velocity. rewrite (proj2 (Nat.eqb_neq _ 0)) by nia.
  destruct (ofold_from (fun n (w : list (option R)) => length w = nx * ny * nz /\ forall p, p < n -> nth_error w p = Some (Some 0%R))
              (fun w ij => wr w ij (Some 0%R)) 0 (nx * ny) w) as (w1 & -> & L1 & H1).
  - split; [exact L|]. intros; lia.
  - intros k s Hk (Ls & Hs). rewrite wr_ok by nia. eexists. split; [reflexivity|]. split; [now rewrite length_upd|].
    intros p Hp. destruct (Nat.eq_dec p k) as [->|N].
    + apply nth_error_upd_same. nia.
    + rewrite nth_error_upd_other by lia. apply Hs. lia.
  - cbn [obind]. cbn [Nat.add] in H1.
    assert (H1' : rep w1 (fun i j k => nth (pos nx ny i j k) w1 None)).
    { split; [exact L1|]. intros i j k Hi Hj Hk. apply nth_error_nth'. rewrite L1. now apply pos_bound. }
    destruct (ofold_from (fun K w => rep w (fun i j k => if k <? K then final k i j else nth (pos nx ny i j k) w1 None))
                lev 1 (nz - 1) w1) as (w2 & E2 & H2).
    + eapply repr_ext; [exact H1'|]. intros i j k Hi Hj Hk. cbn beta. destruct (k <? 1) eqn:Q; auto.
      assert (k = 0) by lia. subst k. unfold final. cbn [Nat.eqb].
      apply nth_error_nth. apply H1. unfold pos. nia.
    + intros K s HK HP. assert (HK2 : K < nz) by lia. destruct (level_ok s _ K HK2 HP) as (s' & E & H').
      exists s'. split; [exact E|]. eapply repr_ext; [exact H'|]. intros i j k Hi Hj Hk. cbn beta.
      destruct (k =? K) eqn:Q.
      * assert (k = K) by lia. subst k. replace (K <? K + 1) with true by lia.
        unfold final. replace (K =? 0) with false by lia. reflexivity.
      * replace (k <? K + 1) with (k <? K) by lia. reflexivity.
    + exists w2. split; [exact E2|]. eapply repr_ext; [exact H2|]. intros i j k Hi Hj Hk. cbn beta.
      replace (k <? 1 + (nz - 1)) with true by lia. reflexivity.
Qed.
End Vert.

(** C72.  On a grid of at least three rows and columns every cell of the result is written whatever it held
    before: the uppermost level is zero, and the cells of the border have the value of their neighbour
    towards the inside (in the corners of the diagonal neighbour). *)
Theorem C72_all_cells nx ny nz dx dy gx gy ap b zs ps u v t w :
  3 <= nx -> 3 <= ny -> 1 <= nz -> length w = nx * ny * nz ->
  exists w', vertical_velocity nx ny nz dx dy gx gy ap b zs ps u v t w = Ok w' /\ length w' = nx * ny * nz /\
    exists val : nat -> nat -> nat -> R,
      (forall i j k, i < nx -> j < ny -> k < nz -> nth_error w' (i + nx * (j + ny * k)) = Some (Some (val i j k))) /\
      (forall i j, i < nx -> j < ny -> val i j 0 = 0%R) /\
      (forall j k, j < ny -> k < nz -> val 0 j k = val 1 j k /\ val (nx - 1) j k = val (nx - 2) j k) /\
      (forall i k, i < nx -> k < nz -> val i 0 k = val i 1 k /\ val i (ny - 1) k = val i (ny - 2) k).
Proof.
  intros Hx Hy Hz L.
  destruct (velocity_ok nx ny nz dx dy gx gy ap b zs ps u v t Hx Hy Hz w L) as (w' & E & L' & H).
  exists w'. split; [exact E|]. split; [exact L'|].
  exists (fun i j k => if k =? 0 then 0%R else w_inner nx ny nz dx dy gx gy ap b zs ps u v t k (clamp nx i + nx * clamp ny j)).
  assert (C : forall n, 3 <= n -> clamp n 0 = clamp n 1 /\ clamp n (n - 1) = clamp n (n - 2)).
  { intros n Hn. unfold clamp. replace (0 =? 0) with true by lia. replace (1 =? 0) with false by lia.
    replace (1 =? n - 1) with false by lia. replace (n - 1 =? 0) with false by lia. replace (n - 1 =? n - 1) with true by lia.
    replace (n - 2 =? 0) with false by lia. replace (n - 2 =? n - 1) with false by lia. auto. }
  split; [|split; [|split]].
  - intros i j k Hi Hj Hk. specialize (H i j k Hi Hj Hk). unfold pos in H. rewrite H. unfold final. now destruct (k =? 0).
  - reflexivity.
  - intros j k Hj Hk. destruct (C nx Hx) as (-> & ->). auto.
  - intros i k Hi Hk. destruct (C ny Hy) as (-> & ->). auto.
Qed.

(** ** the levels *)
Local Open Scope R_scope.

(** Every full level but the first lies in the middle of its half levels; the half levels begin at zero
    pressure and end at the surface pressure. *)
Theorem C72_half_levels nz ap b : (1 <= nz)%nat ->
  (forall k, (1 <= k < nz)%nat -> (ah nz ap k + ah nz ap (k + 1)) / 2 = ap k /\ (bh nz b k + bh nz b (k + 1)) / 2 = b k) /\
  (forall ps, ah nz ap 0 + bh nz b 0 * ps = 0) /\ (forall ps, ah nz ap nz + bh nz b nz * ps = ps).
Proof.
  intro Hz. split; [|split].
  - intros k Hk.
    assert (G : forall vals bot, half_up nz vals bot (nz - k) = 2 * vals k - half_up nz vals bot (nz - (k + 1))).
    { intros. replace (nz - k)%nat with (S (nz - (k + 1))) by lia. cbn [half_up].
      replace (nz - S (nz - (k + 1)))%nat with k by lia. reflexivity. }
    unfold ah, bh. rewrite (proj2 (Nat.eqb_neq k 0)) by lia. rewrite (proj2 (Nat.eqb_neq (k + 1) 0)) by lia.
    rewrite 2!G. split; lra.
  - intro ps. unfold ah, bh. cbn [Nat.eqb]. lra.
  - intro ps. unfold ah, bh. rewrite (proj2 (Nat.eqb_neq nz 0)) by lia.
    replace (nz - nz)%nat with O by lia. cbn [half_up]. lra.
Qed.

(** ** The values *)
Definition total (f : nat -> R) (a n : nat) : R := fold_right Rplus 0 (map f (seq a n)).
Section Values.
Context (nx ny nz : nat) (dx dy : R) (gx gy : nat -> R) (zs : nat -> R) (u v t : nat -> R) (p : nat -> nat -> R).
Notation g := 9.80665.
Notation rgas := (8.31432 / 0.0289644).
(** [p k c] is the pressure of half level k in column c; the layer k is between the half levels k and k + 1 *)
Definition at_level (f : nat -> R) (k c : nat) : R := f (c + nx * ny * k)%nat.
Definition thickness (k c : nat) : R := p (k + 1) c - p k c.
Definition log_ratio (k c : nat) : R := ln (p (k + 1) c / p k c).
Definition part (k c : nat) : R := 1 - p k c * log_ratio k c / thickness k c.
(** the geopotential: the ground, the layers below and the part of the layer itself *)
Definition geopotential (k c : nat) : R :=
  g * zs c + total (fun l => rgas * at_level t l c * log_ratio l c) (k + 1) (nz - 1 - k) + rgas * at_level t k c * part k c.
Definition scale_x (c : nat) : R := gx c / dx.
Definition scale_y (c : nat) : R := gy c / dy.
(** the divergence of the mass of the layer *)
Definition divergence (k c : nat) : R :=
  ((scale_y (c + 1) * at_level u k (c + 1) * thickness k (c + 1) - scale_y (c - 1) * at_level u k (c - 1) * thickness k (c - 1)) / (2 * dx)
   + (scale_x (c + nx) * at_level v k (c + nx) * thickness k (c + nx) - scale_x (c - nx) * at_level v k (c - nx) * thickness k (c - nx)) / (2 * dy))
  / (scale_x c * scale_y c).
Definition wind (k c : nat) : R :=
  (rgas * at_level t k c * (log_ratio k c * total (fun l => divergence l c) 1 (k - 1) + part k c * divergence k c) / thickness k c
   + (geopotential k (c + 1) - geopotential k (c - 1)) / (2 * dx * scale_x c)
   + (geopotential k (c + nx) - geopotential k (c - nx)) / (2 * dy * scale_y c)) / g.
End Values.

Lemma pressures nz ap b ps (p : nat -> nat -> R) c : p nz c = ps c -> (forall k, (1 <= k < nz)%nat -> p k c + p (k + 1)%nat c = 2 * (ap k + b k * ps c)) ->
  forall k, (1 <= k <= nz)%nat -> pm nz ap b ps k c = p k c.
Proof.
  intros PN PK.
  assert (G : forall m, (m < nz)%nat -> pm nz ap b ps (nz - m) c = p (nz - m)%nat c).
  { induction m as [|m IH]; intro H.
    - replace (nz - 0)%nat with nz by lia. unfold pm, ah, bh. rewrite (proj2 (Nat.eqb_neq nz 0)) by lia. replace (nz - nz)%nat with O by lia. cbn [half_up]. rewrite PN. ring.
    - specialize (IH ltac:(lia)). assert (K := PK (nz - S m)%nat ltac:(lia)). replace (nz - S m + 1)%nat with (nz - m)%nat in K by lia. rewrite <- IH in K.
      destruct (C72_half_levels nz ap b ltac:(lia)) as (HL & _). destruct (HL (nz - S m)%nat ltac:(lia)) as (HA & HB). replace (nz - S m + 1)%nat with (nz - m)%nat in HA, HB by lia.
      assert (pm nz ap b ps (nz - S m) c + pm nz ap b ps (nz - m) c = 2 * (ap (nz - S m)%nat + b (nz - S m)%nat * ps c)); [|lra].
      unfold pm. rewrite <- HA, <- HB. field. }
  intros k H. replace k with (nz - (nz - k))%nat by lia. apply G. lia.
Qed.
Lemma total_ext f h a n : (forall l, (a <= l < a + n)%nat -> f l = h l) -> total f a n = total h a n.
Proof. intro H. unfold total. f_equal. apply map_ext_in. intros l I. apply in_seq in I. apply H. lia. Qed.
Lemma total_snoc f a n : total f a (S n) = total f a n + f (a + n)%nat.
Proof.
  unfold total. rewrite seq_S, map_app, fold_right_app. cbn [map fold_right]. rewrite Rplus_0_r.
  assert (F : forall l x, fold_right Rplus x l = fold_right Rplus 0 l + x). { induction l as [|y l IH]; intro x; cbn; [ring|]. rewrite IH. ring. }
  apply F.
Qed.
(** The value of every cell inside: the vertical motion needed for the horizontal flow of mass through the layers
    above, without the uppermost, and half of the layer itself, and the slope of the level. *)
Theorem C72_value nx ny nz dx dy gx gy ap b zs ps u v t w w' (p : nat -> nat -> R) :
  (3 <= nx)%nat -> (3 <= ny)%nat -> (1 <= nz)%nat -> length w = (nx * ny * nz)%nat -> dx <> 0 -> dy <> 0 -> (forall c, gx c <> 0 /\ gy c <> 0) ->
  (forall c, p nz c = ps c /\ forall k, (1 <= k < nz)%nat -> p k c + p (k + 1)%nat c = 2 * (ap k + b k * ps c)) ->
  vertical_velocity nx ny nz dx dy gx gy ap b zs ps u v t w = Ok w' ->
  forall i j k, (1 <= i < nx - 1)%nat -> (1 <= j < ny - 1)%nat -> (1 <= k < nz)%nat ->
    nth_error w' (i + nx * (j + ny * k))%nat = Some (Some (wind nx ny nz dx dy gx gy zs u v t p k (i + nx * j)%nat)).
Proof.
  intros Hx Hy Hz L NX NY NG HP E i j k Hi Hj Hk.
  destruct (velocity_ok nx ny nz dx dy gx gy ap b zs ps u v t Hx Hy Hz w L) as (w1 & E1 & L1 & H). rewrite E in E1. injection E1 as <-.
  specialize (H i j k ltac:(lia) ltac:(lia) ltac:(lia)). unfold pos in H. rewrite H. unfold final. rewrite (proj2 (Nat.eqb_neq k 0)) by lia.
  assert (C : clamp nx i = i /\ clamp ny j = j).
  { unfold clamp. rewrite (proj2 (Nat.eqb_neq i 0)), (proj2 (Nat.eqb_neq i (nx - 1))), (proj2 (Nat.eqb_neq j 0)), (proj2 (Nat.eqb_neq j (ny - 1))) by lia. auto. }
  destruct C as (-> & ->). do 2 f_equal.
  assert (PM : forall l c, (1 <= l <= nz)%nat -> pm nz ap b ps l c = p l c) by (intros l c Hl; destruct (HP c) as (P1 & P2); now apply pressures).
  assert (DP : forall l c, (1 <= l < nz)%nat -> dp nz ap b ps l c = thickness p l c) by (intros l c Hl; unfold dp, thickness; rewrite (proj2 (Nat.eqb_neq l 0)) by lia; rewrite !PM by lia; reflexivity).
  assert (DL : forall l c, (1 <= l < nz)%nat -> dlnp nz ap b ps l c = log_ratio p l c) by (intros l c Hl; unfold dlnp, log_ratio; rewrite (proj2 (Nat.eqb_neq l 0)) by lia; rewrite !PM by lia; reflexivity).
  assert (AL : forall l c, (1 <= l < nz)%nat -> alfa nz ap b ps l c = part p l c).
  { intros l c Hl. unfold alfa, part. rewrite (proj2 (Nat.eqb_neq l 0)) by lia. rewrite DL, DP, PM by lia. reflexivity. }
  assert (BE : forall c m, (m < nz)%nat -> below nx ny nz ap b zs ps t m c = 9.80665 * zs c + total (fun l => 8.31432 / 0.0289644 * at_level nx ny t l c * log_ratio p l c) (nz - m) m).
  { intros c. induction m as [|m IH]; intro Hm.
    - cbn [below]. unfold GRAV, total. cbn [seq map fold_right]. ring.
    - cbn [below]. rewrite IH by lia. rewrite DL by lia. unfold total at 2. cbn [seq map fold_right]. replace (S (nz - S m)) with (nz - m)%nat by lia. fold (total (fun l => 8.31432 / 0.0289644 * at_level nx ny t l c * log_ratio p l c) (nz - m) m).
      unfold GAS, at_level, cell. ring. }
  assert (ZZ : forall c, z nx ny nz ap b zs ps t k c = geopotential nx ny nz zs t p k c).
  { intro c. unfold z, geopotential. rewrite BE, AL by lia. replace (nz - (nz - 1 - k))%nat with (k + 1)%nat by lia. reflexivity. }
  assert (DI : forall l c, (1 <= l < nz)%nat -> div nx ny nz dx dy gx gy ap b ps u v l c = divergence nx ny dx dy gx gy u v p l c).
  { intros l c Hl. unfold div, divergence, uu, vv. rewrite !DP by lia. unfold hx, hy, scale_x, scale_y, at_level, cell. destruct (NG c) as (N1 & N2). field. repeat split; assumption. }
  assert (SU : forall l c, (1 <= l <= nz)%nat -> div_sum nx ny nz dx dy gx gy ap b ps u v l c = total (fun l => divergence nx ny dx dy gx gy u v p l c) 1 (l - 1)).
  { intros l c. induction l as [|[|l] IH]; intro Hl; [lia|reflexivity|]. change (div_sum nx ny nz dx dy gx gy ap b ps u v (S (S l)) c) with (div_sum nx ny nz dx dy gx gy ap b ps u v (S l) c + div nx ny nz dx dy gx gy ap b ps u v (S l) c).
    rewrite IH, DI by lia. replace (S (S l) - 1)%nat with (S (S l - 1)) by lia. rewrite total_snoc. do 2 f_equal. lia. }
  unfold w_inner, wind. rewrite !ZZ, DI, SU, DL, AL, DP by lia. unfold GAS, GRAV, hx, hy, scale_x, scale_y. fold (at_level nx ny t k (i + nx * j)%nat). change (t (cell nx ny k (i + nx * j)%nat)) with (at_level nx ny t k (i + nx * j)%nat).
  destruct (NG (i + nx * j)%nat) as (N1 & N2). f_equal. rewrite <- Rplus_assoc. f_equal; [f_equal|]; try (field; repeat split; assumption).
Qed.

(** The pressure thicknesses of all levels add up to the surface pressure. *)
Theorem C72_thickness nz ap b ps ij : (1 <= nz)%nat ->
  fold_right Rplus 0 (map (fun k => dp nz ap b ps k ij) (seq 0 nz)) = ps ij.
Proof.
  intro Hz.
  assert (D : forall k, dp nz ap b ps k ij = pm nz ap b ps (k + 1) ij - pm nz ap b ps k ij).
  { intros [|k]; unfold dp; cbn [Nat.eqb]; [|reflexivity]. unfold pm. cbn [Nat.add]. ring. }
  assert (G : forall n, fold_right Rplus 0 (map (fun k => dp nz ap b ps k ij) (seq 0 n)) = pm nz ap b ps n ij - pm nz ap b ps 0 ij).
  { induction n as [|n IH]; [cbn; ring|].
    rewrite seq_S, map_app, fold_right_app. cbn [map fold_right Nat.add]. rewrite D.
    assert (F : forall l x, fold_right Rplus x l = fold_right Rplus 0 l + x).
    { induction l as [|y l IHl]; intro x; cbn; [ring|]. rewrite IHl. ring. }
    rewrite F, IH. replace (n + 1)%nat with (S n) by lia. ring. }
  rewrite G. destruct (C72_half_levels nz ap b Hz) as (_ & H0 & H1). unfold pm. rewrite H0, H1. ring.
Qed.

Lemma ln_le_minus x : 0 < x -> ln x <= x - 1.
Proof.
  intro H. destruct (Req_dec x 1) as [->|N]; [rewrite ln_1; lra|].
  assert (exp (ln x) = x) by now apply exp_ln.
  destruct (Req_dec (ln x) 0) as [Z|Z]; [rewrite Z in *; rewrite exp_0 in *; lra|].
  pose proof (exp_ineq1 (ln x) Z). lra.
Qed.

(** The geopotential of a level lies between those of its half levels. *)
Theorem C72_level_in_layer nz ap b ps k ij : (1 <= k)%nat ->
  0 < pm nz ap b ps k ij -> pm nz ap b ps k ij < pm nz ap b ps (k + 1) ij ->
  0 <= alfa nz ap b ps k ij <= dlnp nz ap b ps k ij.
Proof.
  intros Hk H0 H1. unfold alfa, dp, dlnp. rewrite (proj2 (Nat.eqb_neq k 0)) by lia.
  set (p := pm nz ap b ps k ij) in *. set (q := pm nz ap b ps (k + 1) ij) in *.
  assert (X : 0 < q / p) by (apply Rdiv_lt_0_compat; lra).
  assert (A : ln (q / p) <= q / p - 1) by now apply ln_le_minus.
  assert (B : ln (p / q) <= p / q - 1) by (apply ln_le_minus; apply Rdiv_lt_0_compat; lra).
  assert (C : ln (p / q) = - ln (q / p)).
  { replace (p / q) with (/ (q / p)) by (field; lra). apply ln_Rinv. exact X. }
  set (l := ln (q / p)) in *.
  assert (P1 : p * l <= q - p).
  { replace (q - p) with (p * (q / p - 1)) by (field; lra). apply Rmult_le_compat_l; lra. }
  assert (P2 : q - p <= q * l).
  { replace (q - p) with (q * (1 - p / q)) by (field; lra). apply Rmult_le_compat_l; lra. }
  assert (Q : 1 - p * l / (q - p) = (q - p - p * l) * / (q - p)) by (field; lra).
  assert (I : 0 < / (q - p)) by (apply Rinv_0_lt_compat; lra).
  rewrite Q. split.
  - apply Rmult_le_pos; lra.
  - apply Rmult_le_reg_r with (q - p); [lra|]. rewrite Rmult_assoc, Rinv_l, Rmult_1_r by lra. lra.
Qed.

(** An atmosphere that is the same in all columns has no vertical wind, whatever the wind speed. *)
Theorem C72_homogeneous nx ny nz dx dy gx gy ap b zs ps u v t w :
  (3 <= nx)%nat -> (3 <= ny)%nat -> (1 <= nz)%nat -> (length w = nx * ny * nz)%nat ->
  dx <> 0 -> dy <> 0 -> gx <> 0 -> gy <> 0 ->
  (forall k, (k < nz)%nat -> 0 < bh nz b (k + 1) * ps + ah nz ap (k + 1)) ->
  exists w', vertical_velocity nx ny nz dx dy (fun _ => gx) (fun _ => gy) ap b (fun _ => zs) (fun _ => ps)
               (fun p => u (p / (nx * ny))%nat) (fun p => v (p / (nx * ny))%nat) (fun p => t (p / (nx * ny))%nat) w = Ok w' /\
    forall p, (p < nx * ny * nz)%nat -> nth_error w' p = Some (Some 0).
Proof.
  intros Hx Hy Hz L Ndx Ndy Ngx Ngy Hp.
  set (fu := fun p => u (p / (nx * ny))%nat). set (fv := fun p => v (p / (nx * ny))%nat). set (ft := fun p => t (p / (nx * ny))%nat).
  destruct (velocity_ok nx ny nz dx dy (fun _ => gx) (fun _ => gy) ap b (fun _ => zs) (fun _ => ps) fu fv ft Hx Hy Hz w L)
    as (w' & E & L' & H).
  exists w'. split; [exact E|].
  assert (Dp : forall k i i', dp nz ap b (fun _ => ps) k i = dp nz ap b (fun _ => ps) k i') by reflexivity.
  assert (Dl : forall k i i', dlnp nz ap b (fun _ => ps) k i = dlnp nz ap b (fun _ => ps) k i') by reflexivity.
  assert (Da : forall k i i', alfa nz ap b (fun _ => ps) k i = alfa nz ap b (fun _ => ps) k i') by reflexivity.
  assert (Cl : forall f k i i', (i < nx * ny)%nat -> (i' < nx * ny)%nat ->
            (fun p => f (p / (nx * ny))%nat : R) (cell nx ny k i) = (fun p => f (p / (nx * ny))%nat : R) (cell nx ny k i')).
  { intros f k i i' Hi Hi'. cbn beta. f_equal. unfold cell.
    assert (forall a, (a < nx * ny)%nat -> ((a + nx * ny * k) / (nx * ny) = k)%nat).
    { intros a Ha. rewrite Nat.mul_comm, Nat.div_add by lia. rewrite Nat.div_small by exact Ha. reflexivity. }
    now rewrite 2!H0. }
  assert (Bl : forall m i i', (i < nx * ny)%nat -> (i' < nx * ny)%nat ->
            below nx ny nz ap b (fun _ => zs) (fun _ => ps) ft m i = below nx ny nz ap b (fun _ => zs) (fun _ => ps) ft m i').
  { induction m as [|m IH]; intros i i' Hi Hi'; cbn [below]; [reflexivity|].
    rewrite (IH i i') by assumption. unfold ft. rewrite (Cl t _ i i') by assumption. f_equal. }
  assert (Z : forall k i i', (i < nx * ny)%nat -> (i' < nx * ny)%nat ->
            z nx ny nz ap b (fun _ => zs) (fun _ => ps) ft k i = z nx ny nz ap b (fun _ => zs) (fun _ => ps) ft k i').
  { intros k i i' Hi Hi'. unfold z. rewrite (Bl _ i i') by assumption. f_equal. unfold ft.
    rewrite (Cl t k i i') by assumption. f_equal. }
  assert (Inn : forall i j, (1 <= i < nx - 1)%nat -> (1 <= j < ny - 1)%nat ->
            let ij := (i + nx * j)%nat in (ij + 1 < nx * ny /\ ij - 1 < nx * ny /\ ij + nx < nx * ny /\ ij - nx < nx * ny /\ ij < nx * ny)%nat).
  { intros i j Hi Hj. cbn zeta. assert (nx * j + nx + nx <= nx * ny)%nat by nia. lia. }
  assert (Dv : forall k i j, (1 <= i < nx - 1)%nat -> (1 <= j < ny - 1)%nat ->
            div nx ny nz dx dy (fun _ => gx) (fun _ => gy) ap b (fun _ => ps) fu fv k (i + nx * j) = 0).
  { intros k i j Hi Hj. destruct (Inn i j Hi Hj) as (I1 & I2 & I3 & I4 & _).
    unfold div, uu, vv. unfold fu, fv.
    rewrite (Cl u k (i + nx * j + 1)%nat (i + nx * j - 1)%nat) by assumption.
    rewrite (Cl v k (i + nx * j + nx)%nat (i + nx * j - nx)%nat) by assumption.
    unfold hx, hy. rewrite (Dp k (i + nx * j + 1)%nat (i + nx * j - 1)%nat). rewrite (Dp k (i + nx * j + nx)%nat (i + nx * j - nx)%nat). ring. }
  assert (Ds : forall k i j, (1 <= i < nx - 1)%nat -> (1 <= j < ny - 1)%nat ->
            div_sum nx ny nz dx dy (fun _ => gx) (fun _ => gy) ap b (fun _ => ps) fu fv k (i + nx * j) = 0).
  { intros k i j Hi Hj. induction k as [|k IH]; [reflexivity|]. cbn [div_sum]. destruct k; [reflexivity|].
    rewrite IH, Dv by assumption. ring. }
  assert (Wz : forall k i j, (1 <= i < nx - 1)%nat -> (1 <= j < ny - 1)%nat ->
            w_inner nx ny nz dx dy (fun _ => gx) (fun _ => gy) ap b (fun _ => zs) (fun _ => ps) fu fv ft k (i + nx * j) = 0).
  { intros k i j Hi Hj. destruct (Inn i j Hi Hj) as (I1 & I2 & I3 & I4 & _).
    unfold w_inner. rewrite Dv, Ds by assumption.
    rewrite (Z k (i + nx * j + 1)%nat (i + nx * j - 1)%nat) by assumption.
    rewrite (Z k (i + nx * j + nx)%nat (i + nx * j - nx)%nat) by assumption.
    unfold Rdiv. ring. }
  intros p Hpp.
  assert (P : exists i j k, (i < nx /\ j < ny /\ k < nz /\ p = pos nx ny i j k)%nat).
  { exists (p mod nx)%nat, ((p / nx) mod ny)%nat, (p / nx / ny)%nat. split; [apply Nat.mod_upper_bound; lia|].
    split; [apply Nat.mod_upper_bound; lia|]. split.
    - rewrite Nat.div_div by lia. apply Nat.div_lt_upper_bound; nia.
    - unfold pos. rewrite (Nat.div_mod p nx) at 1 by lia. rewrite (Nat.div_mod (p / nx) ny) at 1 by lia. nia. }
  destruct P as (i & j & k & Hi & Hj & Hk & ->).
  rewrite H by assumption. unfold final. destruct (k =? 0)%nat; [reflexivity|]. do 2 f_equal.
  apply Wz; apply clamp_in; assumption.
Qed.

(** Findings: with two columns the result is copied from cells that were never written; with one
    column or one row the copies read behind the end of the array. *)
Section Small.
Context (dx dy : R) (gx gy ap b zs ps u v t : nat -> R).
Theorem C72_two_columns w : length w = (2 * 3 * 2)%nat -> (forall p, (p < 12)%nat -> nth_error w p = Some None) ->
  exists w', vertical_velocity 2 3 2 dx dy gx gy ap b zs ps u v t w = Ok w' /\
    forall p, (6 <= p < 12)%nat -> nth_error w' p = Some None.
Proof.
  intros L H.
  assert (E : w = repeat None 12).
  { apply nth_error_ext. intro i. rewrite nth_error_repeat. destruct (i <? 12)%nat eqn:Q.
    - apply H. now apply Nat.ltb_lt.
    - apply nth_error_None_ge. apply Nat.ltb_ge in Q. lia. }
  subst w. eexists. split; [reflexivity|]. intros p Hp.
  do 12 (destruct p as [|p]; [try lia; reflexivity|]). lia.
Qed.
Theorem C72_one_column w : length w = (1 * 3 * 2)%nat -> vertical_velocity 1 3 2 dx dy gx gy ap b zs ps u v t w = UB.
Proof. intro L. do 6 (destruct w as [|? w]; [discriminate|]). destruct w; [reflexivity|discriminate]. Qed.
Theorem C72_one_row w : length w = (3 * 1 * 2)%nat -> vertical_velocity 3 1 2 dx dy gx gy ap b zs ps u v t w = UB.
Proof. intro L. do 6 (destruct w as [|? w]; [discriminate|]). destruct w; [reflexivity|discriminate]. Qed.
End Small.

(** three by three columns with two levels *)
Example C72_nonvacuous :
  exists w', vertical_velocity 3 3 2 1 1 (fun _ => 1) (fun _ => 1) (fun _ => 0) (fun k => if (k =? 1)%nat then 3 / 4 else 1 / 4)
    (fun _ => 0) (fun _ => 1000) (fun _ => 10) (fun _ => 5) (fun _ => 280) (repeat None 18) = Ok w' /\ nth_error w' 13 = Some (Some 0).
Proof.
  destruct (C72_homogeneous 3 3 2 1 1 1 1 (fun _ => 0) (fun k => if (k =? 1)%nat then 3 / 4 else 1 / 4) 0 1000 (fun _ => 10) (fun _ => 5) (fun _ => 280)
              (repeat None 18)) as (w' & E & H); try lia; try lra; try reflexivity.
  - intros k Hk. assert (k = 0 \/ k = 1)%nat as [->| ->] by lia; unfold bh, ah; cbn; lra.
  - exists w'. split; [exact E|]. apply H. lia.
Qed.

(** the pressures exist *)
Lemma half_pressures nz ap b ps c : (1 <= nz)%nat -> pm nz ap b ps nz c = ps c /\ forall k, (1 <= k < nz)%nat -> pm nz ap b ps k c + pm nz ap b ps (k + 1) c = 2 * (ap k + b k * ps c).
Proof.
  intro Hz. destruct (C72_half_levels nz ap b Hz) as (HL & _ & HB). split; [apply HB|]. intros k Hk. destruct (HL k Hk) as (A & B). unfold pm. rewrite <- A, <- B. field.
Qed.
(** Finding: the wind of the uppermost layer has no effect: its divergence is left out of the sum, although the layer
    has a thickness *)
Theorem C72_top_layer_refuted nx ny nz dx dy gx gy ap b zs ps u v u2 v2 t w w1 w2 :
  (3 <= nx)%nat -> (3 <= ny)%nat -> (1 <= nz)%nat -> length w = (nx * ny * nz)%nat -> dx <> 0 -> dy <> 0 -> (forall c, gx c <> 0 /\ gy c <> 0) ->
  (forall q, (nx * ny <= q)%nat -> u q = u2 q /\ v q = v2 q) ->
  vertical_velocity nx ny nz dx dy gx gy ap b zs ps u v t w = Ok w1 -> vertical_velocity nx ny nz dx dy gx gy ap b zs ps u2 v2 t w = Ok w2 ->
  forall i j k, (1 <= i < nx - 1)%nat -> (1 <= j < ny - 1)%nat -> (1 <= k < nz)%nat -> nth_error w1 (i + nx * (j + ny * k))%nat = nth_error w2 (i + nx * (j + ny * k))%nat.
Proof.
  intros Hx Hy Hz L NX NY NG HU E1 E2 i j k Hi Hj Hk.
  assert (HP := fun c => half_pressures nz ap b ps c Hz).
  rewrite (C72_value _ _ _ _ _ _ _ _ _ _ _ _ _ _ _ _ _ Hx Hy Hz L NX NY NG HP E1 i j k Hi Hj Hk), (C72_value _ _ _ _ _ _ _ _ _ _ _ _ _ _ _ _ _ Hx Hy Hz L NX NY NG HP E2 i j k Hi Hj Hk). do 2 f_equal.
  assert (D : forall l c, (1 <= l)%nat -> divergence nx ny dx dy gx gy u v (pm nz ap b ps) l c = divergence nx ny dx dy gx gy u2 v2 (pm nz ap b ps) l c).
  { intros l c Hl. assert (A : forall c', at_level nx ny u l c' = at_level nx ny u2 l c' /\ at_level nx ny v l c' = at_level nx ny v2 l c') by (intro c'; apply HU; nia).
    unfold divergence. rewrite (proj1 (A (c + 1)%nat)), (proj1 (A (c - 1)%nat)), (proj2 (A (c + nx)%nat)), (proj2 (A (c - nx)%nat)). reflexivity. }
  unfold wind. rewrite (D k _) by lia. rewrite (total_ext _ (fun l => divergence nx ny dx dy gx gy u2 v2 (pm nz ap b ps) l (i + nx * j)%nat)); [reflexivity|]. intros l Hl. apply D. lia.
Qed.
(** Finding: air at rest gets a vertical wind wherever the ground is not level: the slope of the levels is added
    without being multiplied by the wind *)
Theorem C72_calm_refuted nx ny nz dx dy gx gy ap b zs (ps0 : R) u v t tl w w' :
  (3 <= nx)%nat -> (3 <= ny)%nat -> (1 <= nz)%nat -> length w = (nx * ny * nz)%nat -> dx <> 0 -> dy <> 0 -> (forall c, gx c <> 0 /\ gy c <> 0) ->
  (forall q, u q = 0 /\ v q = 0) -> (forall k c, (c < nx * ny)%nat -> t (c + nx * ny * k)%nat = tl k) ->
  vertical_velocity nx ny nz dx dy gx gy ap b zs (fun _ => ps0) u v t w = Ok w' ->
  forall i j k, (1 <= i < nx - 1)%nat -> (1 <= j < ny - 1)%nat -> (1 <= k < nz)%nat -> let c := (i + nx * j)%nat in
    nth_error w' (i + nx * (j + ny * k))%nat = Some (Some ((zs (c + 1)%nat - zs (c - 1)%nat) / (2 * gx c) + (zs (c + nx)%nat - zs (c - nx)%nat) / (2 * gy c))).
Proof.
  intros Hx Hy Hz L NX NY NG HU HT E i j k Hi Hj Hk c.
  assert (HP := fun c => half_pressures nz ap b (fun _ => ps0) c Hz).
  rewrite (C72_value _ _ _ _ _ _ _ _ _ _ _ _ _ _ _ _ _ Hx Hy Hz L NX NY NG HP E i j k Hi Hj Hk). fold c. do 2 f_equal. set (p := pm nz ap b (fun _ => ps0)).
  assert (P0 : forall l a, p l a = p l 0%nat) by reflexivity.
  assert (LR : forall l a, log_ratio p l a = log_ratio p l 0%nat) by reflexivity. assert (PA : forall l a, part p l a = part p l 0%nat) by reflexivity.
  assert (D : forall l a, divergence nx ny dx dy gx gy u v p l a = 0).
  { intros l a. unfold divergence, at_level. rewrite !(proj1 (HU _)), !(proj2 (HU _)). rewrite !Rmult_0_r, !Rmult_0_l. unfold Rdiv. ring. }
  assert (S0 : forall a n, total (fun l => divergence nx ny dx dy gx gy u v p l c) a n = 0).
  { intros a n. induction n as [|n IH]; [reflexivity|]. rewrite total_snoc, IH, D. ring. }
  set (base := total (fun l => 8.31432 / 0.0289644 * tl l * log_ratio p l 0%nat) (k + 1) (nz - 1 - k) + 8.31432 / 0.0289644 * tl k * part p k 0%nat).
  assert (G : forall a, (a < nx * ny)%nat -> geopotential nx ny nz zs t p k a = 9.80665 * zs a + base).
  { intros a Ha. unfold geopotential, base, at_level. rewrite HT by exact Ha. rewrite (PA k a). rewrite (total_ext _ (fun l => 8.31432 / 0.0289644 * tl l * log_ratio p l 0%nat)); [ring|]. intros l Hl. rewrite HT by exact Ha. now rewrite (LR l a). }
  assert (B : (c + nx < nx * ny)%nat) by (unfold c; nia). assert (B2 : (c + 1 < nx * ny)%nat) by lia.
  unfold wind. rewrite S0, D, !G by lia. unfold scale_x, scale_y. destruct (NG c) as (N1 & N2). rewrite !Rmult_0_r, Rplus_0_r, Rmult_0_r. unfold Rdiv at 2. rewrite Rmult_0_l, Rplus_0_l. field. repeat split; try assumption; lra.
Qed.
(** a ground rising by 1 m in 10 m, at rest *)
Example C72_value_nonvacuous : exists w', vertical_velocity 3 3 2 1 1 (fun _ => 10) (fun _ => 10) (fun _ => 0) (fun k => if (k =? 1)%nat then 3 / 4 else 1 / 4)
    (fun c => INR (c mod 3)) (fun _ => 1000) (fun _ => 0) (fun _ => 0) (fun _ => 280) (repeat None 18) = Ok w' /\ nth_error w' 13 = Some (Some (1 / 10)).
Proof.
  destruct (velocity_ok 3 3 2 1 1 (fun _ => 10) (fun _ => 10) (fun _ => 0) (fun k => if (k =? 1)%nat then 3 / 4 else 1 / 4) (fun c => INR (c mod 3)) (fun _ => 1000) (fun _ => 0) (fun _ => 0) (fun _ => 280)
    ltac:(lia) ltac:(lia) ltac:(lia) (repeat None 18) eq_refl) as (w' & E & _). exists w'. split; [exact E|].
  assert (K := C72_calm_refuted 3 3 2 1 1 (fun _ => 10) (fun _ => 10) (fun _ => 0) (fun k => if (k =? 1)%nat then 3 / 4 else 1 / 4) (fun c => INR (c mod 3)) 1000 (fun _ => 0) (fun _ => 0) (fun _ => 280) (fun _ => 280)
    (repeat None 18) w' ltac:(lia) ltac:(lia) ltac:(lia) eq_refl ltac:(lra) ltac:(lra) ltac:(intro; lra) ltac:(intro; split; reflexivity) ltac:(reflexivity) E 1%nat 1%nat 1%nat ltac:(lia) ltac:(lia) ltac:(lia)).
  cbv zeta in K. change (1 + 3 * (1 + 3 * 1))%nat with 13%nat in K. rewrite K. do 2 f_equal. cbn. field.
Qed.

Print Assumptions C72_value.
Print Assumptions C72_top_layer_refuted.
Print Assumptions C72_calm_refuted.
Print Assumptions C72_all_cells.
Print Assumptions C72_half_levels.
Print Assumptions C72_thickness.
Print Assumptions C72_level_in_layer.
Print Assumptions C72_homogeneous.
Print Assumptions C72_two_columns.
Print Assumptions C72_one_column.
Print Assumptions C72_one_row.
