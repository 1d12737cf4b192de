(** Properties C13, C16, C17. *)
From Coq Require Import ZArith QArith Qabs Lqa List Bool Lia.
From Coq Require Import ZifyBool ZifyNat.
From Verif Require Import Base SearchModel SearchProofs.
Import ListNotations.
Local Open Scope nat_scope.

(** ** C17: pairwise minimum/maximum search *)

Theorem C17_positions_of_extrema :
  forall (A : Type) (comp : A -> A -> bool) (l : list A), strict_weak comp -> l <> [] ->
  exists mi ma,
    nth_error l (fst (min_max_element comp l)) = Some mi /\
    nth_error l (snd (min_max_element comp l)) = Some ma /\
    (forall e, In e l -> comp e mi = false) /\ (forall e, In e l -> comp ma e = false).
Proof.
  intros A comp [|a l] SW NE; [congruence|].
  destruct (min_max_spec comp SW a l) as (mi & ma & [H1 H2] & [H3 H4]). exists mi, ma. auto.
Qed.
Print Assumptions C17_positions_of_extrema.

(** The largest element returned is the first of the largest ones. *)
Theorem C17_first_largest :
  forall (A : Type) (comp : A -> A -> bool) (l : list A) j e m, strict_weak comp ->
  j < snd (min_max_element comp l) -> nth_error l j = Some e ->
  nth_error l (snd (min_max_element comp l)) = Some m -> comp e m = true.
Proof.
  intros A comp [|a l] j e m SW L N NM; [destruct j; discriminate|].
  exact (max_first comp SW a l j e L N m NM).
Qed.
Print Assumptions C17_first_largest.

Theorem C17_empty_range : forall (A : Type) (comp : A -> A -> bool),
  min_max_element comp [] = (length (@nil A), length (@nil A)).
Proof. reflexivity. Qed.
Print Assumptions C17_empty_range.

(** The smallest element returned is not always the first one (std::minmax_element would
    return position 1 here). *)
Theorem C17_first_smallest_refuted : min_max_element Nat.ltb [5; 1; 1] = (2, 0).
Proof. reflexivity. Qed.
Print Assumptions C17_first_smallest_refuted.

Example C17_nonvacuous :
  strict_weak Nat.ltb /\ min_max_element Nat.ltb [4; 7; 2; 9; 9; 3] = (2, 3).
Proof.
  split; [|reflexivity]. split.
  - intros a b. rewrite Nat.ltb_lt, Nat.ltb_ge. lia.
  - intros a b c. rewrite !Nat.ltb_ge. lia.
Qed.

(** ** C16: bracketing neighbours *)

(** Inside the range (and the first element not equal to x): the largest value <= x and the
    smallest value > x. *)
Theorem C16_brackets_inside :
  forall v0 l x lo hi, ~ (v0 == x)%Q ->
  In lo (v0 :: l) -> (lo <= x)%Q -> In hi (v0 :: l) -> (x < hi)%Q ->
  let r := find_closest_neighbor (v0 :: l) x in
  exists a b, nth_error (v0 :: l) (fst r) = Some a /\ nth_error (v0 :: l) (snd r) = Some b /\
    (a <= x < b)%Q /\
    (forall e, In e (v0 :: l) -> (e <= x)%Q -> (e <= a)%Q) /\
    (forall e, In e (v0 :: l) -> (x < e)%Q -> (b <= e)%Q).
Proof. apply neighbor_bracket. Qed.
Print Assumptions C16_brackets_inside.

(** Outside: the closest elements.  When the first element is not the closest one, the result is
    the closest value and the closest among the values different from it. *)
Theorem C16_closest_two :
  forall v0 l x e, In e l -> (Qabs (x - e) < Qabs (x - v0))%Q ->
  let r := find_closest_distinct (v0 :: l) x in
  exists v1 v2, nth_error (v0 :: l) (fst r) = Some v1 /\ nth_error (v0 :: l) (snd r) = Some v2 /\
    ~ (v2 == v1)%Q /\
    (forall e, In e (v0 :: l) -> (Qabs (x - v1) <= Qabs (x - e))%Q) /\
    (forall e, In e (v0 :: l) -> ~ (e == v1)%Q -> (Qabs (x - v2) <= Qabs (x - e))%Q).
Proof.
  intros v0 l x e I LT. cbv zeta. destruct (closest_spec v0 l x) as [(_ & H & _)|H].
  - exfalso. specialize (H e (or_intror I)). lra.
  - destruct H as (v1 & v2 & H1 & H2 & H3 & H4 & H5 & H6). exists v1, v2. auto.
Qed.
Print Assumptions C16_closest_two.

Theorem C16_outside_uses_closest_two :
  forall v0 l x,
  ~ (v0 == x)%Q ->
  (forall e, In e (v0 :: l) -> (x < e)%Q) \/ (forall e, In e (v0 :: l) -> (e <= x)%Q) ->
  find_closest_neighbor (v0 :: l) x = find_closest_distinct (v0 :: l) x.
Proof. apply neighbor_fallback. Qed.
Print Assumptions C16_outside_uses_closest_two.

(** In every case the indices are in range and the first one is a closest element. *)
Theorem C16_indices_in_range :
  forall v0 l x, let r := find_closest_distinct (v0 :: l) x in
  fst r < length (v0 :: l) /\ snd r < length (v0 :: l) /\
  exists v1, nth_error (v0 :: l) (fst r) = Some v1 /\
    forall e, In e (v0 :: l) -> (Qabs (x - v1) <= Qabs (x - e))%Q.
Proof.
  intros v0 l x. cbv zeta. destruct (closest_spec v0 l x) as [(E & M & S)|H].
  - rewrite E. split; [cbn; lia|]. split.
    + destruct S as [[-> _]|(v2 & N & _)]; [cbn; lia|]. apply nth_error_Some. congruence.
    + exists v0. auto.
  - destruct H as (v1 & v2 & H1 & H2 & H3 & H4 & H5 & H6).
    split; [apply nth_error_Some; congruence|]. split; [apply nth_error_Some; congruence|]. eauto.
Qed.
Print Assumptions C16_indices_in_range.

(** Findings: an exact match with the first element, and an extrapolation next to the first
    element, return the same index twice. *)
Theorem C16_first_match_refuted :
  forall v0 l x, (v0 == x)%Q -> find_closest_neighbor (v0 :: l) x = (0, 0).
Proof. apply neighbor_first_match. Qed.
Print Assumptions C16_first_match_refuted.

Theorem C16_first_closest_refuted :
  forall v0 l x, (forall e, In e l -> (Qabs (x - v0) < Qabs (x - e))%Q) ->
  find_closest_distinct (v0 :: l) x = (0, 0).
Proof.
  intros v0 l x H. pose proof (closest_spec v0 l x) as C. cbv zeta in C.
  destruct (find_closest_distinct (v0 :: l) x) as [r1 r2]. cbn [fst snd] in C.
  destruct C as [(-> & _ & [[-> _]|(v2 & N & NE & E)])|C]; auto.
  - exfalso. apply nth_error_In in N as [->|N]; [apply NE; reflexivity|]. specialize (H v2 N). lra.
  - exfalso. destruct C as (v1 & v2 & N & _ & _ & LT & _). apply nth_error_In in N as [->|N]; [lra|].
    specialize (H v1 N). lra.
Qed.
Print Assumptions C16_first_closest_refuted.

Theorem C16_increasing_extrapolation_refuted :
  find_closest_neighbor [1; 2; 3]%Q (1#2) = (0, 0).
Proof. vm_compute. reflexivity. Qed.
Print Assumptions C16_increasing_extrapolation_refuted.

Example C16_nonvacuous :
  find_closest_neighbor [10; 4; 7; 1]%Q 5 = (1, 2) /\
  find_closest_neighbor [10; 4; 7; 1]%Q 7 = (2, 0) /\
  find_closest_neighbor [10; 4; 7; 1]%Q 0 = (3, 1).
Proof. vm_compute. auto. Qed.

(** ** C13: axis position lookup *)

Local Open Scope Z_scope.

(** Binary search: the index of a value that is present, otherwise -1-(number of elements before
    the key); no read outside the axis. *)
Theorem C13_binary_search :
  forall up axis key, monotonic up axis -> axis <> [] ->
  exists r, bsearch (cmp_of up) key axis = Ok r /\
   ((exists i a, r = Z.of_nat i /\ nth_error axis i = Some a /\ (key == a)%Q) \/
    exists ins, r = -1 - ins /\ 0 <= ins <= Z.of_nat (length axis) /\
     (forall i a, nth_error axis i = Some a -> Z.of_nat i < ins -> before up a key) /\
     (forall i a, nth_error axis i = Some a -> ins <= Z.of_nat i -> before up key a)).
Proof. intros up axis key. apply bsearch_spec. Qed.
Print Assumptions C13_binary_search.

(** Lookup of a list of points on a non-longitude axis of at least two values: every finite point
    gets its position, a non-finite one -999. *)
Theorem C13_positions :
  forall up axis points, monotonic up axis -> (2 <= length axis)%nat ->
  exists out, points2position points axis false = Ok out /\
    Forall2 (fun pt q => match pt with
                         | None => (q == -999)%Q
                         | Some v => axis_position up axis v q
                         end) points out.
Proof.
  intros up axis points MO L2. unfold points2position.
  assert (exists a0, nth_error axis 0 = Some a0) as [a0 E0].
  { destruct (nth_error axis 0) eqn:E; eauto. apply nth_error_None in E. lia. }
  assert (exists an, nth_error axis (length axis - 1) = Some an) as [an EN].
  { destruct (nth_error axis (length axis - 1)) eqn:E; eauto. apply nth_error_None in E. lia. }
  change (at_z axis 0) with (at_z axis (Z.of_nat 0)). rewrite at_z_nat, E0. cbn [rd obind].
  replace (Z.of_nat (length axis) - 1) with (Z.of_nat (length axis - 1)) by lia.
  rewrite at_z_nat, EN. cbn [rd obind].
  assert ((if qltb a0 an then ascending else descending) = cmp_of up) as ->.
  { assert (before up a0 an) as B by (apply (MO 0%nat (length axis - 1)%nat); auto; lia).
    destruct up; cbn in B |- *.
    - apply qltb_spec in B. rewrite B. reflexivity.
    - assert (qltb a0 an = false) as -> by (apply qltb_false; lra). reflexivity. }
  induction points as [|p points IH]; cbn [omapM].
  - exists []. split; auto.
  - destruct IH as (out & E & F). rewrite E. destruct p as [v|]; cbn [obind].
    + destruct (point_pos_spec up axis false v MO L2) as (q & p & -> & AP & H). cbn [obind].
      exists (q :: out). split; auto. constructor; auto.
      assert (q == p)%Q as EQ by (destruct H as [[H _]| ->]; auto; reflexivity).
      destruct AP as (i & lo & hi & A1 & A2 & A3 & A4 & A5). exists i, lo, hi.
      rewrite EQ. auto.
    + exists (-999 :: out)%Q. split; auto. constructor; auto. reflexivity.
Qed.
Print Assumptions C13_positions.

(** The i-th axis value has position i, ... *)
Theorem C13_axis_values_have_integer_positions :
  forall up axis i a p, monotonic up axis -> (2 <= length axis)%nat ->
  nth_error axis i = Some a -> axis_position up axis a p -> (p == inject_Z (Z.of_nat i))%Q.
Proof. intros up axis i a p MO L2 E. exact (axis_position_value up axis i a MO L2 E p). Qed.
Print Assumptions C13_axis_values_have_integer_positions.

(** ... positions are strictly monotone in the coordinate, hence different coordinates have
    different positions, ... *)
Theorem C13_positions_strictly_monotone :
  forall up axis v w p q, monotonic up axis ->
  axis_position up axis v p -> axis_position up axis w q -> before up v w -> (p < q)%Q.
Proof. apply axis_position_mono. Qed.
Print Assumptions C13_positions_strictly_monotone.

(** ... and evaluating the axis at the position returns the coordinate (also outside). *)
Theorem C13_position_inverts_evaluation :
  forall up axis v p, monotonic up axis -> axis_position up axis v p ->
  exists i lo hi, nth_error axis i = Some lo /\ nth_error axis (S i) = Some hi /\
    (v == lo + (p - inject_Z (Z.of_nat i)) * (hi - lo))%Q.
Proof.
  intros up axis v p MO (i & lo & hi & EL & EH & C1 & C2 & EP). exists i, lo, hi.
  split; auto. split; auto.
  assert (before up lo hi) as B by (apply (MO i (S i)); auto).
  assert (~ (lo == hi)%Q) as NE by (intro E; apply (before_irrefl up lo hi E B)).
  rewrite EP. pose proof (frac_lin v lo hi NE). lra.
Qed.
Print Assumptions C13_position_inverts_evaluation.

(** Circular longitude axes: the position differs from the plain one by 0 or one turn and lies in
    (-1/2, num-1/2] whenever the plain position is less than one turn outside. *)
Theorem C13_circular_longitude :
  forall up axis v, monotonic up axis -> (2 <= length axis)%nat ->
  let num := inject_Z (Z.of_nat (length axis)) in
  exists q p, point_pos axis (cmp_of up) true v = Ok q /\ axis_position up axis v p /\
    ((- (1#2) - num < p)%Q -> (p <= 2 * num - (1#2))%Q ->
     (- (1#2) < q <= num - (1#2))%Q /\ (q == p \/ q == p + num \/ q == p - num)%Q).
Proof.
  intros up axis v MO L2. cbv zeta.
  destruct (point_pos_spec up axis true v MO L2) as (q & p & E & AP & H). exists q, p.
  split; auto. split; auto. intros B1 B2.
  assert (0 < inject_Z (Z.of_nat (length axis)))%Q as NP.
  { change 0%Q with (inject_Z 0). rewrite <- Zlt_Qlt. lia. }
  destruct H as [[EQ (i & a & EA & EV)]| ->].
  - split; [|auto].
    assert (axis_position up axis a p) as AP2.
    { destruct AP as (j & lo & hi & A1 & A2 & A3 & A4 & A5). exists j, lo, hi.
      split; auto. split; auto. split; [|split].
      - destruct A3 as [A3|A3]; auto. right. intro C. apply A3. apply (before_comp up a v lo lo); auto. reflexivity.
      - destruct A4 as [A4|A4]; auto. right. intro C. apply A4. apply (before_comp up hi hi a v); auto. reflexivity.
      - rewrite A5, (frac_comp v a lo hi); [reflexivity|lra]. }
    pose proof (axis_position_value up axis i a MO L2 EA p AP2) as EP.
    assert (i < length axis)%nat as LI by (apply nth_error_Some; congruence).
    assert (inject_Z 0 <= inject_Z (Z.of_nat i))%Q as F1 by (rewrite <- Zle_Qle; lia).
    assert (inject_Z (Z.of_nat i + 1) <= inject_Z (Z.of_nat (length axis)))%Q as F2 by (rewrite <- Zle_Qle; lia).
    rewrite inject_Z_plus in F2. change (inject_Z 1) with 1%Q in F2. change (inject_Z 0) with 0%Q in F1. lra.
  - apply wrap_spec; auto.
Qed.
Print Assumptions C13_circular_longitude.

Theorem C13_longitude_normalisation :
  forall neg p, (-180 <= p)%Q -> (p < 360)%Q ->
  (lon_shift neg p == p \/ lon_shift neg p == p + 360 \/ lon_shift neg p == p - 360)%Q /\
  (if neg then (-180 <= lon_shift neg p <= 180)%Q else (0 <= lon_shift neg p < 360)%Q).
Proof. apply lon_shift_spec. Qed.
Print Assumptions C13_longitude_normalisation.

(** A regular longitude axis around the globe (values a0, a0+s, ..., n values with n*s = 360): every
    longitude gets a position between -1/2 and n-1/2 whose place on the axis is that longitude, up
    to whole turns. *)
Theorem C13_global_regular_axis :
  forall axis a0 s v, (2 <= length axis)%nat -> (0 < s)%Q -> (-180 <= a0 <= 180)%Q ->
  (forall i a, nth_error axis i = Some a -> (a == a0 + inject_Z (Z.of_nat i) * s)%Q) ->
  (inject_Z (Z.of_nat (length axis)) * s == 360)%Q ->
  (-180 <= v)%Q -> (v < 360)%Q ->
  exists q k, points2position [Some v] axis true = Ok [q] /\
    (- (1#2) < q <= inject_Z (Z.of_nat (length axis)) - (1#2))%Q /\
    (a0 + q * s == v + inject_Z k * 360)%Q.
Proof.
  intros axis a0 s v L2 SP AB REG TURN V1 V2.
  assert (MO : monotonic true axis).
  { intros i j a b L E1 E2. cbn. rewrite (REG i a E1), (REG j b E2).
    assert (inject_Z (Z.of_nat i) + 1 <= inject_Z (Z.of_nat j))%Q.
    { change 1%Q with (inject_Z 1). rewrite <- inject_Z_plus, <- Zle_Qle. lia. }
    nra. }
  assert (exists c0, nth_error axis 0 = Some c0) as [c0 E0].
  { destruct (nth_error axis 0) eqn:E; eauto. apply nth_error_None in E. lia. }
  assert (exists c1, nth_error axis 1 = Some c1) as [c1 E1].
  { destruct (nth_error axis 1) eqn:E; eauto. apply nth_error_None in E. lia. }
  assert (exists cn, nth_error axis (length axis - 1) = Some cn) as [cn EN].
  { destruct (nth_error axis (length axis - 1)) eqn:E; eauto. apply nth_error_None in E. lia. }
  assert (R0 := REG _ _ E0). assert (R1 := REG _ _ E1). assert (RN := REG _ _ EN).
  change (inject_Z (Z.of_nat 0)) with 0%Q in R0. change (inject_Z (Z.of_nat 1)) with 1%Q in R1.
  set (num := inject_Z (Z.of_nat (length axis))) in *.
  assert (NM : (inject_Z (Z.of_nat (length axis - 1)) == num - 1)%Q).
  { unfold num. replace (Z.of_nat (length axis)) with (Z.of_nat (length axis - 1) + 1) by lia.
    rewrite inject_Z_plus. change (inject_Z 1) with 1%Q. lra. }
  rewrite NM in RN.
  assert (LN : (c0 < cn)%Q) by (apply (MO 0%nat (length axis - 1)%nat); auto; lia).
  assert (N2 : (2 <= num)%Q) by (unfold num; change 2%Q with (inject_Z 2); rewrite <- Zle_Qle; lia).
  unfold points2position.
  change (at_z axis 0) with (at_z axis (Z.of_nat 0)). rewrite at_z_nat, E0. cbn [rd obind].
  replace (Z.of_nat (length axis) - 1) with (Z.of_nat (length axis - 1)) by lia.
  rewrite at_z_nat, EN. cbn [rd obind].
  change (at_z axis 1) with (at_z axis (Z.of_nat 1)). rewrite at_z_nat, E1. cbn [rd obind].
  assert (qltb c0 cn = true) as EQ by now apply qltb_spec.
  rewrite EQ.
  assert (lon_circular c0 c1 cn = true) as ->.
  { unfold lon_circular. rewrite EQ. apply Qle_bool_iff. rewrite R0, R1, RN. lra. }
  cbn [omapM map option_map].
  destruct (C13_longitude_normalisation (qltb c0 0 || qltb cn 0) v V1 V2) as [SH RG].
  set (v' := lon_shift (qltb c0 0 || qltb cn 0) v) in *.
  assert (BD : (-360 < v' - a0 <= 360)%Q).
  { destruct (qltb c0 0) eqn:Q0; cbn [orb] in RG.
    - apply qltb_spec in Q0. lra.
    - apply qltb_false in Q0. assert (qltb cn 0 = false) as Q1 by (apply qltb_false; lra).
      rewrite Q1 in RG. lra. }
  destruct (C13_circular_longitude true axis v' MO L2) as (q & p & EP & AP & H). fold num in H.
  change ascending with (cmp_of true). rewrite EP. cbn [obind].
  destruct (C13_position_inverts_evaluation true axis v' p MO AP) as (i & lo & hi & EL & EH & EV).
  rewrite (REG _ _ EL), (REG _ _ EH) in EV.
  assert (SI : (inject_Z (Z.of_nat (S i)) == inject_Z (Z.of_nat i) + 1)%Q).
  { change 1%Q with (inject_Z 1). rewrite <- inject_Z_plus. replace (Z.of_nat i + 1) with (Z.of_nat (S i)) by lia. reflexivity. }
  rewrite SI in EV.
  assert (PV : (a0 + p * s == v')%Q) by nra.
  assert (P1 : (- (1#2) - num < p)%Q) by nra.
  assert (P2 : (p <= 2 * num - (1#2))%Q) by nra.
  destruct (H P1 P2) as [B C].
  assert (exists k, (v' == v + inject_Z k * 360)%Q) as [k1 K1].
  { destruct SH as [ SH | [ SH | SH ] ]; [ exists 0 | exists 1 | exists (-1) ];
      change (inject_Z 0) with 0%Q; change (inject_Z 1) with 1%Q; change (inject_Z (-1)) with (-1)%Q; lra. }
  assert (exists k, (a0 + q * s == v' + inject_Z k * 360)%Q) as [k2 K2].
  { destruct C as [ C | [ C | C ] ]; [ exists 0 | exists 1 | exists (-1) ];
      change (inject_Z 0) with 0%Q; change (inject_Z 1) with 1%Q; change (inject_Z (-1)) with (-1)%Q; rewrite C; nra. }
  exists q, (k1 + k2). split; [ reflexivity | ]. split; [ exact B | ].
  rewrite inject_Z_plus. lra.
Qed.
Print Assumptions C13_global_regular_axis.

(** A longitude axis with a gap clearly larger than its step is not taken as closed: positions are
    those of the plain axis. *)
Theorem C13_regional_axis :
  forall axis a0 s v, (2 <= length axis)%nat -> (0 < s)%Q -> (0 <= a0)%Q ->
  (forall i a, nth_error axis i = Some a -> (a == a0 + inject_Z (Z.of_nat i) * s)%Q) ->
  (inject_Z (Z.of_nat (length axis)) * s < 360 - s * (1#100))%Q ->
  (0 <= v < 360)%Q ->
  exists q, points2position [Some v] axis true = Ok [q] /\ (a0 + q * s == v)%Q.
Proof.
  intros axis a0 s v L2 SP AB REG TURN V.
  assert (MO : monotonic true axis).
  { intros i j a b L E1 E2. cbn. rewrite (REG i a E1), (REG j b E2).
    assert (inject_Z (Z.of_nat i) + 1 <= inject_Z (Z.of_nat j))%Q.
    { change 1%Q with (inject_Z 1). rewrite <- inject_Z_plus, <- Zle_Qle. lia. }
    nra. }
  assert (exists c0, nth_error axis 0 = Some c0) as [c0 E0].
  { destruct (nth_error axis 0) eqn:E; eauto. apply nth_error_None in E. lia. }
  assert (exists c1, nth_error axis 1 = Some c1) as [c1 E1].
  { destruct (nth_error axis 1) eqn:E; eauto. apply nth_error_None in E. lia. }
  assert (exists cn, nth_error axis (length axis - 1) = Some cn) as [cn EN].
  { destruct (nth_error axis (length axis - 1)) eqn:E; eauto. apply nth_error_None in E. lia. }
  assert (R0 := REG _ _ E0). assert (R1 := REG _ _ E1). assert (RN := REG _ _ EN).
  change (inject_Z (Z.of_nat 0)) with 0%Q in R0. change (inject_Z (Z.of_nat 1)) with 1%Q in R1.
  set (num := inject_Z (Z.of_nat (length axis))) in *.
  assert (NM : (inject_Z (Z.of_nat (length axis - 1)) == num - 1)%Q).
  { unfold num. replace (Z.of_nat (length axis)) with (Z.of_nat (length axis - 1) + 1) by lia.
    rewrite inject_Z_plus. change (inject_Z 1) with 1%Q. lra. }
  rewrite NM in RN.
  assert (LN : (c0 < cn)%Q) by (apply (MO 0%nat (length axis - 1)%nat); auto; lia).
  unfold points2position.
  change (at_z axis 0) with (at_z axis (Z.of_nat 0)). rewrite at_z_nat, E0. cbn [rd obind].
  replace (Z.of_nat (length axis) - 1) with (Z.of_nat (length axis - 1)) by lia.
  rewrite at_z_nat, EN. cbn [rd obind].
  change (at_z axis 1) with (at_z axis (Z.of_nat 1)). rewrite at_z_nat, E1. cbn [rd obind].
  assert (qltb c0 cn = true) as EQ by now apply qltb_spec.
  rewrite EQ.
  assert (lon_circular c0 c1 cn = false) as ->.
  { unfold lon_circular. rewrite EQ. apply qleb_false. rewrite R0, R1, RN. lra. }
  assert (qltb c0 0 || qltb cn 0 = false) as ->.
  { rewrite (proj2 (qltb_false c0 0)) by lra. rewrite (proj2 (qltb_false cn 0)) by lra. reflexivity. }
  cbn [omapM map option_map]. unfold lon_shift. rewrite (proj2 (qltb_false v 0)) by lra.
  destruct (point_pos_spec true axis false v MO L2) as (q & p & EP & AP & H).
  change ascending with (cmp_of true). rewrite EP. cbn [obind].
  destruct (C13_position_inverts_evaluation true axis v p MO AP) as (i & lo & hi & EL & EH & EV).
  rewrite (REG _ _ EL), (REG _ _ EH) in EV.
  assert (SI : (inject_Z (Z.of_nat (S i)) == inject_Z (Z.of_nat i) + 1)%Q).
  { change 1%Q with (inject_Z 1). rewrite <- inject_Z_plus. replace (Z.of_nat i + 1) with (Z.of_nat (S i)) by lia. reflexivity. }
  rewrite SI in EV.
  exists q. split; [ reflexivity | ].
  assert (q == p)%Q as -> by (destruct H as [[H _]| ->]; [ exact H | reflexivity ]).
  nra.
Qed.
Print Assumptions C13_regional_axis.

(** Findings: a one-element axis is read outside for every other coordinate; every longitude axis
    with one element is read outside; on an empty array the search reports index 0 as found. *)
Theorem C13_one_element_axis_refuted :
  forall a v, ~ (v == a)%Q -> points2position [Some v] [a] false = UB.
Proof.
  intros a v NE. unfold points2position. cbn [length].
  change (at_z [a] 0) with (Ok a). change (at_z [a] (Z.of_nat 1 - 1)) with (Ok a). cbn [obind].
  assert (qltb a a = false) as -> by (apply qltb_false; lra). cbn [omapM].
  assert (point_pos [a] descending false v = UB) as ->; [|reflexivity].
  unfold point_pos, bsearch. cbn [length bs_loop]. change (Z.of_nat 1 - 1) with 0.
  change (0 <=? 0) with true. cbv iota. change ((0 + 0) / 2) with 0. change (at_z [a] 0) with (Ok a).
  cbn [obind]. unfold descending, ascending.
  destruct (Qeq_bool v a) eqn:E; [apply Qeq_bool_eq in E; contradiction|].
  destruct (qltb a v); reflexivity.
Qed.
Print Assumptions C13_one_element_axis_refuted.

Theorem C13_one_element_longitude_refuted :
  forall a pts, points2position pts [a] true = UB.
Proof. reflexivity. Qed.
Print Assumptions C13_one_element_longitude_refuted.

Theorem C13_empty_search_refuted : forall cmp key, bsearch cmp key [] = Ok 0.
Proof. reflexivity. Qed.
Print Assumptions C13_empty_search_refuted.

Example C13_nonvacuous :
  monotonic true [1; 3; 4; 10]%Q /\ monotonic false [10; 4; 3; 1]%Q /\
  (match points2position [Some 3; Some 7; Some 0; Some 22; None]%Q [1; 3; 4; 10]%Q false with
   | Ok out => forallb (fun ab => Qeq_bool (fst ab) (snd ab))
                 (combine out [1; 5#2; -1#2; 5; -999]%Q) | _ => false end) = true /\
  (match points2position [Some 3; Some 7; Some 0; Some 22; None]%Q [10; 4; 3; 1]%Q false with
   | Ok out => forallb (fun ab => Qeq_bool (fst ab) (snd ab))
                 (combine out [2; 1#2; 7#2; -2; -999]%Q) | _ => false end) = true.
Proof.
  split; [|split; [|split; vm_compute; reflexivity]].
  - intros [|[|[|[|i]]]] [|[|[|[|j]]]] a b L E1 E2; cbn in *; try lia;
      try (destruct i; discriminate); try (destruct j; discriminate);
      injection E1 as <-; injection E2 as <-; reflexivity.
  - intros [|[|[|[|i]]]] [|[|[|[|j]]]] a b L E1 E2; cbn in *; try lia;
      try (destruct i; discriminate); try (destruct j; discriminate);
      injection E1 as <-; injection E2 as <-; reflexivity.
Qed.
