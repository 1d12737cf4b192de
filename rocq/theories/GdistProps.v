(** C71: distances between neighbouring grid points. *)
From Coq Require Import Reals List Arith Bool Lia Lra.
From Verif Require Import Base GdistModel.
Import ListNotations.
Local Open Scope nat_scope.

Lemma ofold_seq {T} (P : nat -> T -> Prop) (f : T -> nat -> outcome T) n : forall s0,
  P 0 s0 -> (forall k s, k < n -> P k s -> exists s', f s k = Ok s' /\ P (k + 1) s') ->
  exists s', ofold f (seq 0 n) s0 = Ok s' /\ P n s'.
Proof.
  intros s0 H0 Hs.
  assert (G : forall m a s, a + m = n -> P a s -> exists s', ofold f (seq a m) s = Ok s' /\ P n s').
  { induction m as [|m IH]; intros a s E Ha; cbn [seq ofold].
    - exists s. split; auto. now replace n with a by lia.
    - destruct (Hs a s) as (s' & -> & Hs'); [lia|exact Ha|]. cbn [obind].
      apply IH; [lia|]. now replace (S a) with (a + 1) by lia. }
  apply (G n 0 s0); auto.
Qed.

Lemma wr_ok {A} (l : list A) i x : i < length l -> wr l i x = Ok (upd l i x).
Proof. intro H. unfold wr. now rewrite (proj2 (Nat.ltb_lt _ _) H). Qed.

Lemma nth_ok {A} (l : list A) i : i < length l -> exists x, nth_error l i = Some x.
Proof. intro H. destruct (nth_error l i) eqn:E; eauto. apply nth_error_None in E. lia. Qed.

Section Area.
Context (off nx ny : nat) (pts : list (R * R)) (out : list R).
Hypothesis Hx : 2 <= nx.
Hypothesis Hy : 2 <= ny.
Hypothesis Ho : 1 <= off <= nx.
Hypothesis Lp : length pts = nx * ny.
Hypothesis Lo : length out = nx * ny.

Definition D (p q : nat) : option R :=
  match nth_error pts p, nth_error pts q with Some a, Some b => Some (distance a b) | _, _ => None end.

Lemma cell_bound i j : i < nx -> j < ny -> nx * j + i < nx * ny.
Proof. intros. nia. Qed.

(** after the first loops *)
Definition inner_done (J I : nat) (o : list R) : Prop :=
  length o = nx * ny /\
  forall i j, i < nx - 1 -> j < J \/ (j = J /\ i < I) -> nth_error o (nx * j + i) = D (nx * j + i) (nx * j + i + off).

Lemma put_ok o i j : length o = nx * ny -> i < nx - 1 -> j < ny - 1 ->
  exists d, put_dist pts o (i + nx * j) (i + nx * j + off) = Ok (upd o (i + nx * j) d) /\
            D (nx * j + i) (nx * j + i + off) = Some d.
Proof.
  intros L Hi Hj.
  assert (B : nx * j + i + off < nx * ny) by nia.
  unfold put_dist. replace (i + nx * j) with (nx * j + i) by lia.
  destruct (nth_ok pts (nx * j + i)) as (a & Ea); [lia|].
  destruct (nth_ok pts (nx * j + i + off)) as (b & Eb); [lia|].
  exists (distance a b). unfold D. rewrite Ea, Eb. cbn [rd obind]. rewrite wr_ok by lia. auto.
Qed.

Lemma first_loops : exists o,
  ofold (fun o j => ofold (fun o i => put_dist pts o (i + nx * j) (i + nx * j + off)) (seq 0 (nx - 1)) o) (seq 0 (ny - 1)) out = Ok o
  /\ inner_done (ny - 1) 0 o.
Proof.
  apply (ofold_seq (fun J o => inner_done J 0 o)).
  - split; [exact Lo|]. intros i j Hi [Hj|[_ Hj]]; lia.
  - intros J o HJ HP.
    destruct (ofold_seq (fun I o => inner_done J I o)
                (fun o i => put_dist pts o (i + nx * J) (i + nx * J + off)) (nx - 1) o) as (o' & E & H').
    + exact HP.
    + intros I s HI (L & Hs). destruct (put_ok s I J L HI HJ) as (d & E & Ed).
      exists (upd s (I + nx * J) d). split; [exact E|]. split; [now rewrite length_upd|].
      intros i j Hi Hc. destruct (Nat.eq_dec (I + nx * J) (nx * j + i)) as [Q|Q].
      * assert (J = j /\ I = i) as (<- & <-) by nia.
        rewrite Q, nth_error_upd_same by (rewrite L; nia). now symmetry.
      * rewrite nth_error_upd_other by exact Q. apply Hs; [exact Hi|]. nia.
    + exists o'. split; [exact E|]. destruct H' as (L & H). split; [exact L|].
      intros i j Hi [Hj|[_ Hj]]; [|lia]. apply H; [exact Hi|]. lia.
Qed.

(** after the copies into the last column *)
Definition column_done (J : nat) (o : list R) : Prop :=
  inner_done (ny - 1) 0 o /\
  forall j, j < J -> j < ny - 1 -> nth_error o (nx * j + (nx - 1)) = nth_error o (nx * j + (nx - 2)).

Lemma column_loop o1 : inner_done (ny - 1) 0 o1 -> exists o,
  ofold (fun o j => copy_dist o (j * nx + (nx - 1)) (j * nx + (nx - 1) - 1)) (seq 0 ny) o1 = Ok o /\ column_done ny o.
Proof.
  intro H1. apply (ofold_seq column_done).
  - split; [exact H1|]. intros; lia.
  - intros J o HJ ((L & Hi) & Hc). unfold copy_dist.
    assert (B : nx * J + nx <= nx * ny) by nia.
    replace (J * nx + (nx - 1) - 1) with (nx * J + (nx - 2)) by nia.
    replace (J * nx + (nx - 1)) with (nx * J + (nx - 1)) by nia.
    destruct (nth_ok o (nx * J + (nx - 2))) as (v & Ev); [lia|]. rewrite Ev. cbn [rd obind].
    rewrite wr_ok by lia. eexists. split; [reflexivity|]. split; [split|].
    + now rewrite length_upd.
    + intros i j Hi' Hj'. rewrite nth_error_upd_other; [now apply Hi|].
      intro Q. assert (J = j) by nia. subst. nia.
    + intros j Hj Hj'. destruct (Nat.eq_dec j J) as [->|N].
      * rewrite nth_error_upd_same by lia. rewrite nth_error_upd_other by lia. now symmetry.
      * rewrite 2!nth_error_upd_other by nia. apply Hc; lia.
Qed.

(** after the copies into the last row *)
Definition row_done (I : nat) (o : list R) : Prop :=
  length o = nx * ny /\
  (forall i j, i < nx - 1 -> j < ny - 1 -> nth_error o (nx * j + i) = D (nx * j + i) (nx * j + i + off)) /\
  (forall j, j < ny - 1 -> nth_error o (nx * j + (nx - 1)) = nth_error o (nx * j + (nx - 2))) /\
  (forall i, i < I -> nth_error o (nx * (ny - 1) + i) = nth_error o (nx * (ny - 1) + i - ny)).

Lemma area_ok : exists o, area_dist off nx ny pts out = Ok o /\ row_done nx o.
Proof.
  unfold area_dist. destruct first_loops as (o1 & -> & H1). cbn [obind].
  destruct (column_loop o1 H1) as (o2 & -> & H2). cbn [obind].
  assert (W : nx + ny <= nx * ny) by nia.
  assert (W2 : (ny - 1) * nx + nx = nx * ny) by nia.
  apply (ofold_seq row_done).
  - destruct H2 as ((L & Hi) & Hc). split; [exact L|]. split; [|split].
    + intros i j Ui Uj. apply Hi; lia.
    + intros j Uj. apply Hc; lia.
    + intros; lia.
  - intros I o HI (L & Hi & Hc & Hr).
    replace ((ny - 1) * nx + I) with (nx * (ny - 1) + I) by lia.
    destruct (nx * (ny - 1) + I <? ny) eqn:W3; [apply Nat.ltb_lt in W3; lia|].
    unfold copy_dist.
    destruct (nth_ok o (nx * (ny - 1) + I - ny)) as (v & Ev); [lia|]. rewrite Ev. cbn [rd obind].
    rewrite wr_ok by lia. eexists. split; [reflexivity|]. split; [now rewrite length_upd|].
    split; [|split].
    + intros i j Ui Uj. rewrite nth_error_upd_other by nia. now apply Hi.
    + intros j Uj. rewrite 2!nth_error_upd_other by nia. now apply Hc.
    + intros i Ui. destruct (Nat.eq_dec i I) as [->|N].
      * rewrite nth_error_upd_same by lia. rewrite nth_error_upd_other by lia. now symmetry.
      * rewrite nth_error_upd_other by lia.
        rewrite nth_error_upd_other by lia. apply Hr. lia.
Qed.
End Area.

(** C71.  For a grid of at least two rows and columns the call succeeds whatever the arrays held before;
    the value of each cell that has a neighbour to the right and below is the great-circle distance to
    that neighbour, the last column repeats the column before it, and a cell of the last row gets the
    value that lies [ny] places before it. *)
Theorem C71_area nx ny pts outx outy :
  2 <= nx -> 2 <= ny -> length pts = nx * ny -> length outx = nx * ny -> length outy = nx * ny ->
  exists X Y, grid_distance nx ny pts outx outy = Ok (true, X, Y) /\
    length X = nx * ny /\ length Y = nx * ny /\
    (forall i j a b c, i + 1 < nx -> j + 1 < ny ->
       nth_error pts (nx * j + i) = Some a -> nth_error pts (nx * j + (i + 1)) = Some b ->
       nth_error pts (nx * (j + 1) + i) = Some c ->
       nth_error X (nx * j + i) = Some (distance a b) /\ nth_error Y (nx * j + i) = Some (distance a c)) /\
    (forall j, j + 1 < ny ->
       nth_error X (nx * j + (nx - 1)) = nth_error X (nx * j + (nx - 2)) /\
       nth_error Y (nx * j + (nx - 1)) = nth_error Y (nx * j + (nx - 2))) /\
    (forall i, i < nx ->
       nth_error X (nx * (ny - 1) + i) = nth_error X (nx * (ny - 1) + i - ny) /\
       nth_error Y (nx * (ny - 1) + i) = nth_error Y (nx * (ny - 1) + i - ny)).
Proof.
  intros Hx Hy Lp Lx Ly. unfold grid_distance.
  rewrite (proj2 (Nat.eqb_neq (nx * ny) 1)) by nia.
  rewrite (proj2 (Nat.eqb_neq (nx * ny) 0)) by nia.
  rewrite (proj2 (Nat.eqb_neq nx 1)) by lia. rewrite (proj2 (Nat.eqb_neq ny 1)) by lia. cbn [orb].
  destruct (area_ok 1 nx ny pts outx) as (X & -> & LX & X1 & X2 & X3); try lia; try assumption.
  destruct (area_ok nx nx ny pts outy) as (Y & -> & LY & Y1 & Y2 & Y3); try lia; try assumption.
  cbn [obind]. exists X, Y. split; [reflexivity|]. split; [exact LX|]. split; [exact LY|]. split; [|split].
  - intros i j a b c Ui Uj Ea Eb Ec. split.
    + rewrite X1 by lia. unfold D. replace (nx * j + i + 1) with (nx * j + (i + 1)) by lia. now rewrite Ea, Eb.
    + rewrite Y1 by lia. unfold D. replace (nx * j + i + nx) with (nx * (j + 1) + i) by lia. now rewrite Ea, Ec.
  - intros j Uj. split; [apply X2|apply Y2]; lia.
  - intros i Ui. split; [now apply X3|now apply Y3].
Qed.

(** A square grid: the last row repeats the row above it. *)
Theorem C71_square n pts outx outy X Y : 2 <= n -> length pts = n * n -> length outx = n * n -> length outy = n * n ->
  grid_distance n n pts outx outy = Ok (true, X, Y) ->
  forall i, i < n ->
    nth_error X (n * (n - 1) + i) = nth_error X (n * (n - 2) + i) /\
    nth_error Y (n * (n - 1) + i) = nth_error Y (n * (n - 2) + i).
Proof.
  intros Hn Lp Lx Ly E i Hi.
  destruct (C71_area n n pts outx outy Hn Hn Lp Lx Ly) as (X' & Y' & E' & _ & _ & _ & _ & R).
  rewrite E in E'. injection E' as <- <-.
  destruct (R i Hi) as (R1 & R2). rewrite R1, R2. replace (n * (n - 1) + i - n) with (n * (n - 2) + i) by nia. auto.
Qed.

(** The values do not depend on what the arrays held before. *)
Theorem C71_deterministic nx ny pts ox oy ox' oy' :
  2 <= nx -> 2 <= ny -> length pts = nx * ny ->
  length ox = nx * ny -> length oy = nx * ny -> length ox' = nx * ny -> length oy' = nx * ny ->
  grid_distance nx ny pts ox oy = grid_distance nx ny pts ox' oy'.
Proof.
  intros Hx Hy Lp L1 L2 L3 L4.
  destruct (C71_area nx ny pts ox oy) as (X & Y & -> & LX & LY & A & B & C); auto.
  destruct (C71_area nx ny pts ox' oy') as (X' & Y' & -> & LX' & LY' & A' & B' & C'); auto.
  assert (G : forall p, p < nx * ny -> nth_error X p = nth_error X' p /\ nth_error Y p = nth_error Y' p).
  { induction p as [p IH] using lt_wf_ind. intro Hp.
    assert (Dm : p = nx * (p / nx) + p mod nx) by (apply Nat.div_mod; lia).
    assert (Hm : p mod nx < nx) by (apply Nat.mod_upper_bound; lia).
    assert (Hd : p / nx < ny) by (apply Nat.div_lt_upper_bound; lia).
    set (j := p / nx) in *. set (i := p mod nx) in *. clearbody i j. subst p.
    destruct (Nat.eq_dec (j + 1) ny) as [Ej|Nj].
    - replace j with (ny - 1) by lia.
      destruct (C i Hm) as (-> & ->). destruct (C' i Hm) as (-> & ->).
      apply IH; nia.
    - destruct (Nat.eq_dec (i + 1) nx) as [Ei|Ni].
      + replace i with (nx - 1) by lia.
        destruct (B j) as (-> & ->); [lia|]. destruct (B' j) as (-> & ->); [lia|]. apply IH; nia.
      + destruct (nth_ok pts (nx * j + i)) as (a & Ea); [nia|].
        destruct (nth_ok pts (nx * j + (i + 1))) as (b & Eb); [nia|].
        destruct (nth_ok pts (nx * (j + 1) + i)) as (c & Ec); [nia|].
        destruct (A i j a b c) as (-> & ->); try lia; try assumption.
        destruct (A' i j a b c) as (-> & ->); try lia; try assumption. auto. }
  assert (X = X' /\ Y = Y') as (-> & ->); [|reflexivity].
  split; apply nth_error_ext; intro p; destruct (Nat.lt_ge_cases p (nx * ny)) as [Hp|Hp].
  - now apply G.
  - rewrite 2!nth_error_None_ge by lia. reflexivity.
  - now apply G.
  - rewrite 2!nth_error_None_ge by lia. reflexivity.
Qed.

(** A single row or column: both arrays hold the distance to the next point, the last value is repeated. *)
Theorem C71_line nx ny pts outx outy n : nx * ny = n -> 2 <= n -> nx = 1 \/ ny = 1 ->
  length pts = n -> length outx = n -> length outy = n ->
  exists X Y, grid_distance nx ny pts outx outy = Ok (true, X, Y) /\ X = Y /\ length X = n /\
    (forall p a b, nth_error pts p = Some a -> nth_error pts (p + 1) = Some b -> nth_error X p = Some (distance a b)) /\
    nth_error X (n - 1) = nth_error X (n - 2).
Proof.
  intros E Hn H1 Lp Lx Ly. unfold grid_distance. rewrite E.
  rewrite (proj2 (Nat.eqb_neq n 1)) by lia. rewrite (proj2 (Nat.eqb_neq n 0)) by lia.
  replace ((nx =? 1) || (ny =? 1)) with true by (destruct H1 as [->| ->]; cbn; auto using orb_true_r).
  assert (G : forall out, length out = n -> exists o, line_dist n pts out = Ok o /\ length o = n /\
    (forall p a b, nth_error pts p = Some a -> nth_error pts (p + 1) = Some b -> nth_error o p = Some (distance a b)) /\
    nth_error o (n - 1) = nth_error o (n - 2)).
  { intros out L. unfold line_dist.
    destruct (ofold_seq (fun K o => length o = n /\ forall p a b, p < K -> nth_error pts p = Some a -> nth_error pts (p + 1) = Some b ->
                nth_error o p = Some (distance a b)) (fun o p => put_dist pts o p (p + 1)) (n - 1) out) as (o & -> & Lo & Ho).
    - split; [exact L|]. intros; lia.
    - intros k s Hk (Ls & Hs). unfold put_dist.
      destruct (nth_ok pts k) as (a & Ea); [lia|]. destruct (nth_ok pts (k + 1)) as (b & Eb); [lia|].
      rewrite Ea, Eb. cbn [rd obind]. rewrite wr_ok by lia. eexists. split; [reflexivity|].
      split; [now rewrite length_upd|]. intros p a' b' Hp Ea' Eb'. destruct (Nat.eq_dec p k) as [->|N].
      + rewrite nth_error_upd_same by lia. congruence.
      + rewrite nth_error_upd_other by lia. apply Hs; auto. lia.
    - cbn [obind]. unfold copy_dist. destruct (nth_ok o (n - 2)) as (v & Ev); [lia|]. rewrite Ev. cbn [rd obind].
      rewrite wr_ok by lia. eexists. split; [reflexivity|]. split; [now rewrite length_upd|]. split.
      + intros p a b Ea Eb. assert (p + 1 < length pts) by (apply nth_error_Some; congruence).
        rewrite nth_error_upd_other by lia. apply Ho; auto. lia.
      + rewrite nth_error_upd_same by lia. rewrite nth_error_upd_other by lia. now symmetry. }
  destruct (G outx Lx) as (X & -> & LX & AX & BX). destruct (G outy Ly) as (Y & -> & LY & AY & BY).
  cbn [obind]. exists X, Y. split; [reflexivity|]. split; [|split; [exact LX|split; [exact AX|exact BX]]].
  assert (GP : forall p, p + 1 < n -> nth_error X p = nth_error Y p).
  { intros p Hp. destruct (nth_ok pts p) as (a & Ea); [lia|]. destruct (nth_ok pts (p + 1)) as (b & Eb); [lia|].
    now rewrite (AX p a b), (AY p a b). }
  apply nth_error_ext. intro p. destruct (Nat.lt_ge_cases (p + 1) n) as [Hp|Hp]; [now apply GP|].
  destruct (Nat.eq_dec (p + 1) n) as [Ep|Np].
  - replace p with (n - 1) by lia. rewrite BX, BY. apply GP. lia.
  - rewrite 2!nth_error_None_ge by lia. reflexivity.
Qed.

(** One point gives zero distances and the error result; no point at all runs out of the arrays. *)
Theorem C71_single pts x y : grid_distance 1 1 pts [x] [y] = Ok (false, [0%R], [0%R]).
Proof. reflexivity. Qed.
Theorem C71_empty nx ny pts outx outy : nx = 0 \/ ny = 0 -> grid_distance nx ny pts outx outy = UB.
Proof. intros [-> | ->]; unfold grid_distance; rewrite ?Nat.mul_0_r; reflexivity. Qed.

(** Finding: in a grid that is not square the last row does not repeat the row above.  Two rows of
    three points on the equator at 0, 90 and 90 degrees: the first cell is a quarter of the equator wide,
    the cell below it gets the width zero of the second cell. *)
Definition eq_points : list (R * R) := [(0, 0); (0, 90); (0, 90); (0, 0); (0, 90); (0, 90)]%R.
Lemma eq_dist a b : (distance (0, a) (0, b) = RADIUS * acos (cos (radian b - radian a)))%R.
Proof.
  unfold distance, great_circle_angle. cbn [fst snd]. f_equal. f_equal.
  unfold radian at 1 2 3 4. rewrite Rmult_0_r, sin_0, cos_0. ring.
Qed.
Theorem C71_last_row_wrong : exists X Y,
  grid_distance 3 2 eq_points [0; 0; 0; 0; 0; 0]%R [0; 0; 0; 0; 0; 0]%R = Ok (true, X, Y) /\
  nth_error X 0 = Some (RADIUS * (PI / 2))%R /\ nth_error X 3 = Some 0%R.
Proof.
  destruct (C71_area 3 2 eq_points [0; 0; 0; 0; 0; 0]%R [0; 0; 0; 0; 0; 0]%R) as (X & Y & E & _ & _ & A & _ & C);
    try reflexivity; try lia.
  exists X, Y. split; [exact E|]. split.
  - change (nth_error X 0) with (nth_error X (3 * 0 + 0)).
    destruct (A 0 0 (0, 0)%R (0, 90)%R (0, 0)%R) as (-> & _); try reflexivity; try lia.
    rewrite eq_dist. unfold radian. replace (PI / 180 * 90 - PI / 180 * 0)%R with (PI / 2)%R by field.
    rewrite cos_PI2. now rewrite acos_0.
  - change (nth_error X 3) with (nth_error X (3 * (2 - 1) + 0)).
    destruct (C 0) as (-> & _); [lia|]. change (3 * (2 - 1) + 0 - 2) with (3 * 0 + 1).
    destruct (A 1 0 (0, 90)%R (0, 90)%R (0, 90)%R) as (-> & _); try reflexivity; try lia.
    rewrite eq_dist. replace (radian 90 - radian 90)%R with 0%R by ring. rewrite cos_0, acos_1. f_equal. ring.
Qed.

Example C71_nonvacuous : length eq_points = 3 * 2 /\
  exists X Y, grid_distance 3 2 eq_points (repeat 0%R 6) (repeat 0%R 6) = Ok (true, X, Y) /\ length X = 6.
Proof.
  split; [reflexivity|].
  destruct (C71_area 3 2 eq_points (repeat 0%R 6) (repeat 0%R 6)) as (X & Y & E & L & _); try reflexivity; try lia.
  now exists X, Y.
Qed.

Print Assumptions C71_area.
Print Assumptions C71_square.
Print Assumptions C71_deterministic.
Print Assumptions C71_line.
Print Assumptions C71_single.
Print Assumptions C71_empty.
Print Assumptions C71_last_row_wrong.
