(** C42 rotation of vectors. *)
From Coq Require Import Reals List ZArith Lia Lra.
From Coq Require Import ZifyBool ZifyNat.
From Verif Require Import Base FillModel FillProofs RotateModel RotateProofs.
Import ListNotations.
Local Open Scope R_scope.

(** ** applying a matrix *)

(** cell p of layer p / L is rotated with matrix entry p mod L, cells behind the layers are kept, and
    nothing outside of the arrays is touched *)
Theorem C42_values : forall (m : matrix) oz u v, (oz * length m <= length u)%nat -> length v = length u ->
  exists u' v', reproject_values m oz u v = Ok (u', v') /\ length u' = length u /\ length v' = length v /\
    forall p a b, nth_error u p = Some a -> nth_error v p = Some b ->
      ((p < oz * length m)%nat -> exists c s r, nth_error m (p mod length m)%nat = Some (c, s, r) /\
         nth_error u' p = Some (a * c - b * s) /\ nth_error v' p = Some (a * s + b * c)) /\
      ((oz * length m <= p)%nat -> nth_error u' p = Some a /\ nth_error v' p = Some b).
Proof.
  intros m oz u v H1 H2. unfold reproject_values.
  destruct (values_ok m oz 0 u v) as (u' & v' & E & L1 & L2 & R); [ exact H1 | exact H2 | ].
  exists u', v'. rewrite E. split; [ reflexivity | ]. split; [ exact L1 | ]. split; [ exact L2 | ].
  intros p a b Ea Eb. destruct (R p) as (R1 & R2). split; intro Hp.
  - assert (LM : (p mod length m < length m)%nat) by (apply Nat.mod_upper_bound; lia).
    destruct (nth_error m (p mod length m)%nat) as [ [ [ c s ] r ] | ] eqn:Em; [ | apply nth_error_None in Em; lia ].
    exists c, s, r. split; [ reflexivity | ]. apply (R1 ltac:(lia) c s r a b); auto.
  - destruct (R2 ltac:(lia)) as (-> & ->). auto.
Qed.

(** a matrix of rotations keeps the length of every vector *)
Theorem C42_length_kept : forall phis oz u v u' v', (oz * length phis <= length u)%nat -> length v = length u ->
  reproject_values (map rotation phis) oz u v = Ok (u', v') ->
  forall p a b a' b', nth_error u p = Some a -> nth_error v p = Some b ->
    nth_error u' p = Some a' -> nth_error v' p = Some b' -> a' * a' + b' * b' = a * a + b * b.
Proof.
  intros phis oz u v u' v' H1 H2 E p a b a' b' Ea Eb Ea' Eb'.
  destruct (C42_values (map rotation phis) oz u v) as (u1 & v1 & E1 & _ & _ & R); [ now rewrite map_length | exact H2 | ].
  rewrite E in E1. injection E1 as <- <-. destruct (R p a b Ea Eb) as (R1 & R2).
  destruct (Nat.lt_ge_cases p (oz * length (map rotation phis))) as [ C | C ].
  - destruct (R1 C) as (c & s & r & Em & X & Y). rewrite X in Ea'. rewrite Y in Eb'. injection Ea' as <-. injection Eb' as <-.
    rewrite nth_error_map in Em. destruct (nth_error phis _) as [ phi | ]; [ | discriminate ]. cbn in Em. injection Em as <- <- <-.
    assert (Q := sin2_cos2 phi). unfold Rsqr in Q.
    replace ((a * cos phi - b * sin phi) * (a * cos phi - b * sin phi) + (a * sin phi + b * cos phi) * (a * sin phi + b * cos phi))
      with ((a * a + b * b) * (sin phi * sin phi + cos phi * cos phi)) by ring. rewrite Q. ring.
  - destruct (R2 C) as (X & Y). congruence.
Qed.

Lemma list_ext : forall (l m : list R), length l = length m -> (forall i a, nth_error m i = Some a -> nth_error l i = Some a) -> l = m.
Proof.
  induction l as [ | x l IH ]; intros [ | y m ] L H; try discriminate; [ reflexivity | ].
  f_equal.
  - assert (E := H 0%nat y eq_refl). cbn in E. congruence.
  - apply IH; [ cbn in L; lia | ]. intros i a E. apply (H (S i) a E).
Qed.

(** the opposite rotations restore both components *)
Theorem C42_inverse : forall phis oz u v, (oz * length phis <= length u)%nat -> length v = length u ->
  exists u' v', reproject_values (map rotation phis) oz u v = Ok (u', v') /\
    reproject_values (map rotation (map Ropp phis)) oz u' v' = Ok (u, v).
Proof.
  intros phis oz u v H1 H2.
  destruct (C42_values (map rotation phis) oz u v) as (u' & v' & E & L1 & L2 & R); [ now rewrite map_length | exact H2 | ].
  exists u', v'. split; [ exact E | ].
  destruct (C42_values (map rotation (map Ropp phis)) oz u' v') as (u2 & v2 & E2 & L3 & L4 & R2);
    [ rewrite !map_length; lia | lia | ].
  rewrite E2. rewrite !map_length in *. f_equal.
  assert (G : forall i a b, nth_error u i = Some a -> nth_error v i = Some b -> nth_error u2 i = Some a /\ nth_error v2 i = Some b).
  { intros i a b Ea Eb. destruct (R i a b Ea Eb) as (A1 & A2).
    destruct (Nat.lt_ge_cases i (oz * length phis)) as [ C | C ].
    - destruct (A1 C) as (c & s & r & Em & X & Y). destruct (R2 i _ _ X Y) as (B1 & _).
      destruct (B1 C) as (c' & s' & r' & Em' & X' & Y'). rewrite X', Y'.
      rewrite nth_error_map in Em, Em'. rewrite nth_error_map in Em'.
      destruct (nth_error phis _) as [ phi | ]; [ | discriminate ]. cbn in Em, Em'.
      injection Em as <- <- <-. injection Em' as <- <- <-. rewrite cos_neg, sin_neg.
      assert (Q := sin2_cos2 phi). unfold Rsqr in Q.
      split; f_equal.
      + replace ((a * cos phi - b * sin phi) * cos phi - (a * sin phi + b * cos phi) * - sin phi)
          with (a * (sin phi * sin phi + cos phi * cos phi)) by ring. rewrite Q. ring.
      + replace ((a * cos phi - b * sin phi) * - sin phi + (a * sin phi + b * cos phi) * cos phi)
          with (b * (sin phi * sin phi + cos phi * cos phi)) by ring. rewrite Q. ring.
    - destruct (A2 C) as (X & Y). destruct (R2 i _ _ X Y) as (_ & B2). exact (B2 C). }
  f_equal; apply list_ext; try lia; intros i a Ea.
  - destruct (nth_error v i) as [ b | ] eqn:Eb; [ | apply nth_error_None in Eb; assert (i < length u)%nat by (apply nth_error_Some; rewrite Ea; discriminate); lia ].
    apply (G i a b Ea Eb).
  - destruct (nth_error u i) as [ b | ] eqn:Eb; [ | apply nth_error_None in Eb; assert (i < length v)%nat by (apply nth_error_Some; rewrite Ea; discriminate); lia ].
    apply (G i b a Eb Ea).
Qed.

(** the cached form takes as many layers as there are; with an empty matrix it divides by zero *)
Theorem C42_cached : forall (m : matrix) oz u v, m <> [] -> length u = (oz * length m)%nat ->
  cached_values m u v = reproject_values m oz u v /\ cached_directions m u = reproject_directions m oz u /\
  cached_values [] u v = UB.
Proof.
  intros m oz u v H L. unfold cached_values, cached_directions.
  assert (N : length m <> 0%nat) by (destruct m; [ contradiction | discriminate ]).
  destruct (Nat.eqb_spec (length m) 0); [ contradiction | ]. rewrite L, Nat.div_mul by exact N. repeat split.
Qed.

(** ** directions *)

(** every cell of every layer becomes angle minus rotation, folded *)
Theorem C42_directions : forall (m : matrix) oz u, (oz * length m <= length u)%nat ->
  exists u', reproject_directions m oz u = Ok u' /\ length u' = length u /\
    forall p a, nth_error u p = Some a ->
      ((p < oz * length m)%nat -> exists c s r a', nth_error m (p mod length m)%nat = Some (c, s, r) /\ nth_error u' p = Some a' /\
         (a' = a - r \/ a' = a - r + 360 \/ a' = a - r - 360) /\
         (0 <= a <= 360 -> -360 <= r <= 360 -> 0 <= a' <= 360)) /\
      ((oz * length m <= p)%nat -> nth_error u' p = Some a).
Proof.
  intros m oz u H. unfold reproject_directions.
  destruct (directions_ok m oz 0 u) as (u' & E & L1 & R); [ exact H | ].
  exists u'. rewrite E. split; [ reflexivity | ]. split; [ exact L1 | ].
  intros p a Ea. destruct (R p) as (R1 & R2). split; intro Hp.
  - assert (LM : (p mod length m < length m)%nat) by (apply Nat.mod_upper_bound; lia).
    destruct (nth_error m (p mod length m)%nat) as [ [ [ c s ] r ] | ] eqn:Em; [ | apply nth_error_None in Em; lia ].
    exists c, s, r, (new_direction r a). split; [ reflexivity | ]. split; [ apply (R1 ltac:(lia) c s r a); auto | ].
    unfold new_direction. cbv zeta.
    destruct (Rlt_dec (a - r) 0); (destruct (Rlt_dec 360 _); (split; [ | intros; lra ])).
    + left. lra.
    + right. left. reflexivity.
    + right. right. reflexivity.
    + left. reflexivity.
  - rewrite R2 by lia. exact Ea.
Qed.

(** direction and components agree: a wind towards compass direction a (u = k sin a, v = k cos a) has
    after the rotation by phi the components of the direction that the direction formula gives *)
Theorem C42_direction_agrees : forall k a phi,
  let deg := DEG_TO_RAD in
  let a' := new_direction (RAD_TO_DEG * phi) a in
  (k * sin (a * deg)) * cos phi - (k * cos (a * deg)) * sin phi = k * sin (a' * deg) /\
  (k * sin (a * deg)) * sin phi + (k * cos (a * deg)) * cos phi = k * cos (a' * deg).
Proof.
  intros k a phi deg a'.
  assert (P := PI_RGT_0).
  assert (E : (a - RAD_TO_DEG * phi) * deg = a * deg - phi) by (unfold RAD_TO_DEG, deg, DEG_TO_RAD; field; lra).
  assert (S1 : forall b, sin ((b + 360) * deg) = sin (b * deg) /\ cos ((b + 360) * deg) = cos (b * deg)).
  { intro b. replace ((b + 360) * deg) with (b * deg + 2 * PI) by (unfold deg, DEG_TO_RAD; field).
    split; rewrite ?sin_plus, ?cos_plus, sin_2PI, cos_2PI; ring. }
  assert (S2 : forall b, sin ((b - 360) * deg) = sin (b * deg) /\ cos ((b - 360) * deg) = cos (b * deg)).
  { intro b. destruct (S1 (b - 360)) as (X & Y). replace (b - 360 + 360) with b in * by ring. auto. }
  assert (A : sin (a' * deg) = sin (a * deg - phi) /\ cos (a' * deg) = cos (a * deg - phi)).
  { unfold a', new_direction. cbv zeta. rewrite <- E. set (n := a - RAD_TO_DEG * phi).
    destruct (Rlt_dec n 0); destruct (Rlt_dec 360 _); try (destruct (S2 (n + 360)) as (-> & ->)); auto; apply S1 || apply S2. }
  destruct A as (-> & ->). rewrite sin_minus, cos_minus. split; ring.
Qed.

(** 360 is not folded to 0: north is written as 0 or 360, depending on the rotation *)
Theorem C42_north_refuted : new_direction 0 360 = 360 /\ new_direction 90 90 = 0.
Proof.
  unfold new_direction. cbv zeta. split.
  - destruct (Rlt_dec (360 - 0) 0); [ lra | ]. destruct (Rlt_dec 360 (360 - 0)); lra.
  - destruct (Rlt_dec (90 - 90) 0); [ lra | ]. destruct (Rlt_dec 360 (90 - 90)); lra.
Qed.

(** ** the angle of a cell *)

(** a target that is locally a rotation by t and a scaling by k of the input plane *)
Definition conformal (fwd : R * R -> R * R) (d k t inx iny outx outy : R) : Prop :=
  fwd (inx + d, iny) = (outx + d * (k * cos t), outy + d * (k * sin t)) /\
  fwd (inx, iny + d) = (outx - d * (k * sin t), outy + d * (k * cos t)).

(** steps to the right and upwards: the angle is the rotation of the target *)
Theorem C42_angle : forall fwd d k t inx iny outx outy, 0 < d -> 0 < k -> - PI < t < PI ->
  conformal fwd d k t inx iny outx outy -> cell_angle fwd false d inx iny outx outy = t.
Proof.
  intros fwd d k t inx iny outx outy Hd Hk Ht (E1 & E2). unfold cell_angle. rewrite E1, E2.
  destruct (Rlt_dec 0 d); [ | contradiction ].
  replace (outy + d * (k * sin t) - outy) with (d * k * sin t) by ring.
  replace (outx + d * (k * cos t) - outx) with (d * k * cos t) by ring.
  replace (outx - d * (k * sin t) - outx) with (d * k * sin (- t)) by (rewrite sin_neg; ring).
  replace (outy + d * (k * cos t) - outy) with (d * k * cos (- t)) by (rewrite cos_neg; ring).
  rewrite !atan2_angle by (try split; nra || lra). field.
Qed.

(** steps to the left and downwards: the same up to a whole turn, if the target is rotated at all *)
Theorem C42_angle_negative_step : forall fwd d k t inx iny outx outy, d < 0 -> 0 < k -> - PI < t <= PI -> t <> 0 ->
  conformal fwd d k t inx iny outx outy ->
  cell_angle fwd false d inx iny outx outy = (if Rlt_dec 0 t then t else t + 2 * PI).
Proof.
  intros fwd d k t inx iny outx outy Hd Hk Ht Ht0 (E1 & E2). unfold cell_angle. rewrite E1, E2.
  assert (P := PI_RGT_0).
  destruct (Rlt_dec 0 d); [ lra | ].
  replace (outy + d * (k * sin t) - outy) with (- d * k * sin (t + PI)) by (rewrite neg_sin; ring).
  replace (outx + d * (k * cos t) - outx) with (- d * k * cos (t + PI)) by (rewrite neg_cos; ring).
  replace (outx - d * (k * sin t) - outx) with (- d * k * sin (PI - t)) by (rewrite Rtrigo_facts.sin_pi_minus; ring).
  replace (outy + d * (k * cos t) - outy) with (- d * k * cos (PI - t)) by (rewrite Rtrigo_facts.cos_pi_minus; ring).
  assert (K : 0 < - d * k) by nra.
  assert (T : forall x, cos (x + 2 * PI) = cos x /\ sin (x + 2 * PI) = sin x).
  { intro x. rewrite cos_plus, sin_plus, cos_2PI, sin_2PI. split; ring. }
  destruct (Rlt_dec 0 t) as [ L | L ].
  - rewrite (atan2_turn (- d * k) (t - PI) (t + PI)); try lra.
    + rewrite atan2_angle by lra. field.
    + destruct (T (t - PI)) as (X & _). replace (t - PI + 2 * PI) with (t + PI) in X by ring. exact X.
    + destruct (T (t - PI)) as (_ & X). replace (t - PI + 2 * PI) with (t + PI) in X by ring. exact X.
  - rewrite (atan2_angle (- d * k) (t + PI)) by lra. rewrite (atan2_turn (- d * k) (- PI - t) (PI - t)); try lra.
    + destruct (T (- PI - t)) as (X & _). replace (- PI - t + 2 * PI) with (PI - t) in X by ring. exact X.
    + destruct (T (- PI - t)) as (_ & X). replace (- PI - t + 2 * PI) with (PI - t) in X by ring. exact X.
Qed.

(** finding: the mean of two angles is taken without looking at whole turns.  With negative steps a target
    that is not rotated at all gets the angle PI, so every vector is reversed; with positive steps a target
    turned upside down gets the angle 0. *)
Theorem C42_mean_of_angles_refuted :
  (forall fwd d k inx iny outx outy, d < 0 -> 0 < k -> conformal fwd d k 0 inx iny outx outy ->
     cell_angle fwd false d inx iny outx outy = PI) /\
  (forall fwd d k inx iny outx outy, 0 < d -> 0 < k -> conformal fwd d k PI inx iny outx outy ->
     cell_angle fwd false d inx iny outx outy = 0) /\
  rotation PI = (-1, 0, 180).
Proof.
  assert (P := PI_RGT_0). repeat apply conj.
  - intros fwd d k inx iny outx outy Hd Hk (E1 & E2). unfold cell_angle. rewrite E1, E2.
    destruct (Rlt_dec 0 d); [ lra | ]. rewrite sin_0, cos_0.
    replace (outy + d * (k * 0) - outy) with (- d * k * sin PI) by (rewrite sin_PI; ring).
    replace (outx + d * (k * 1) - outx) with (- d * k * cos PI) by (rewrite cos_PI; ring).
    replace (outx - d * (k * 0) - outx) with (- d * k * sin PI) by (rewrite sin_PI; ring).
    replace (outy + d * (k * 1) - outy) with (- d * k * cos PI) by (rewrite cos_PI; ring).
    rewrite atan2_angle by (try split; nra || lra). field.
  - intros fwd d k inx iny outx outy Hd Hk (E1 & E2). unfold cell_angle. rewrite E1, E2.
    destruct (Rlt_dec 0 d); [ | contradiction ]. rewrite sin_PI, cos_PI.
    replace (outy + d * (k * 0) - outy) with (d * k * sin PI) by (rewrite sin_PI; ring).
    replace (outx + d * (k * -1) - outx) with (d * k * cos PI) by (rewrite cos_PI; ring).
    replace (outx - d * (k * 0) - outx) with (d * k * sin PI) by (rewrite sin_PI; ring).
    replace (outy + d * (k * -1) - outy) with (d * k * cos PI) by (rewrite cos_PI; ring).
    rewrite atan2_angle by (try split; nra || lra). field.
  - unfold rotation. rewrite cos_PI, sin_PI. unfold RAD_TO_DEG. f_equal. field. lra.
Qed.

(** the angle in degrees is in -360..360 for a target that is not lat-lon (so directions stay in 0..360),
    and for a lat-lon target *)
Theorem C42_angle_range : forall fwd latlon d inx iny outx outy,
  let r := RAD_TO_DEG * cell_angle fwd latlon d inx iny outx outy in -360 <= r <= 360.
Proof.
  intros fwd latlon d inx iny outx outy. cbv zeta. assert (P := PI_RGT_0).
  assert (A : - (2 * PI) <= cell_angle fwd latlon d inx iny outx outy <= 2 * PI).
  { unfold cell_angle. destruct (fwd (inx, iny + d)) as [ xy yy ]. destruct (fwd (inx + d, iny)) as [ xx yx ].
    destruct latlon.
    - assert (R := atan2_range (sin (outx * DEG_TO_RAD - xy * DEG_TO_RAD) * cos (yy * DEG_TO_RAD))
        (cos (outy * DEG_TO_RAD) * sin (yy * DEG_TO_RAD) - sin (outy * DEG_TO_RAD) * cos (yy * DEG_TO_RAD) * cos (outx * DEG_TO_RAD - xy * DEG_TO_RAD))).
      unfold bearing, bearing_rad. cbv zeta. destruct (Rlt_dec 0 d); lra.
    - assert (R1 := atan2_range (yx - outy) (xx - outx)). assert (R2 := atan2_range (xy - outx) (yy - outy)).
      destruct (Rlt_dec 0 d); lra. }
  unfold RAD_TO_DEG. assert (I : 0 < / PI) by (now apply Rinv_0_lt_compat).
  set (x := cell_angle fwd latlon d inx iny outx outy) in *.
  assert (Q : PI * / PI = 1) by (apply Rinv_r; lra).
  assert (-2 <= x * / PI <= 2) by (split; nra). unfold Rdiv. lra.
Qed.

(** ** lat-lon targets: turning north by the bearing points to the second position.  East and north
    parts of the second position are scalar products of unit vectors in space. *)
Definition dot (a b : R * R * R) : R := fst (fst a) * fst (fst b) + snd (fst a) * snd (fst b) + snd a * snd b.
Definition on_sphere (lat lon : R) : R * R * R := (cos lat * cos lon, cos lat * sin lon, sin lat).
Definition east_of (lat lon : R) : R * R * R := (- sin lon, cos lon, 0).
Definition north_of (lat lon : R) : R * R * R := (- sin lat * cos lon, - sin lat * sin lon, cos lat).

Theorem C42_bearing : forall lat0 lon0 lat1 lon1,
  let e := dot (on_sphere lat1 lon1) (east_of lat0 lon0) in
  let n := dot (on_sphere lat1 lon1) (north_of lat0 lon0) in
  e <> 0 \/ n <> 0 ->
  let phi := bearing_rad lat0 lon0 lat1 lon1 in
  - sin phi = e / sqrt (e * e + n * n) /\ cos phi = n / sqrt (e * e + n * n).
Proof.
  intros lat0 lon0 lat1 lon1 e n H phi.
  assert (E : sin (lon0 - lon1) * cos lat1 = - e).
  { unfold e, dot, on_sphere, east_of. cbn. rewrite sin_minus. ring. }
  assert (N : cos lat0 * sin lat1 - sin lat0 * cos lat1 * cos (lon0 - lon1) = n).
  { unfold n, dot, on_sphere, north_of. cbn. rewrite cos_minus. ring. }
  unfold phi, bearing_rad. cbv zeta. rewrite E, N.
  destruct (atan2_polar (- e) n) as (C & S); [ destruct H; [ right | left ]; lra | ].
  rewrite C, S. replace (n * n + - e * - e) with (e * e + n * n) by ring. split; [ | reflexivity ].
  unfold Rdiv. ring.
Qed.
(** due north: no rotation *)
Theorem C42_bearing_north : forall lat0 lat1 lon, lat0 < lat1 -> lat1 - lat0 < PI -> bearing_rad lat0 lon lat1 lon = 0.
Proof.
  intros lat0 lat1 lon H H'. unfold bearing_rad. cbv zeta. replace (lon - lon) with 0 by ring. rewrite sin_0, cos_0.
  replace (0 * cos lat1) with (sin (lat1 - lat0) * sin 0) by (rewrite sin_0; ring).
  replace (cos lat0 * sin lat1 - sin lat0 * cos lat1 * 1) with (sin (lat1 - lat0) * cos 0) by (rewrite cos_0, sin_minus; ring).
  assert (P := PI_RGT_0). apply atan2_angle; [ apply sin_gt_0; lra | lra ].
Qed.

(** ** the step width *)

(** with at least three columns and rows, or with a single one, all reads are inside and the step is not 0 *)
Theorem C42_step_width : forall in_x ox oy, (1 <= ox)%Z -> (1 <= oy)%Z -> Z.of_nat (length in_x) = (ox * oy)%Z ->
  (ox = 1 \/ oy = 1 \/ 3 <= ox /\ 3 <= oy)%Z -> exists d, step_width in_x ox oy = Ok d /\ 0.000000001 <= Rabs d.
Proof.
  intros in_x ox oy Hx Hy L H.
  assert (X : exists r, raw_step in_x ox oy = Ok r).
  { unfold raw_step. destruct (Z.ltb_spec 1 ox).
    - destruct (Z.ltb_spec 1 oy).
      + assert (C : (3 <= ox /\ 3 <= oy)%Z) by lia.
        assert (D1 : (oy / 2 + 1 <= oy - 1)%Z) by (assert (2 * (oy / 2) <= oy)%Z by (apply Z.mul_div_le; lia); lia).
        assert (D2 : (ox / 2 + 1 <= ox - 1)%Z) by (assert (2 * (ox / 2) <= ox)%Z by (apply Z.mul_div_le; lia); lia).
        assert (P1 : (0 <= oy / 2)%Z) by (apply Z.div_pos; lia). assert (P2 : (0 <= ox / 2)%Z) by (apply Z.div_pos; lia).
        destruct (getz_ok in_x (1 * ox + 1)%Z) as (? & -> & _); [ nia | ]. cbn [obind].
        destruct (getz_ok in_x 0%Z) as (? & -> & _); [ nia | ]. cbn [obind].
        destruct (getz_ok in_x ((oy / 2 + 1) * ox + (ox / 2 + 1))%Z) as (? & -> & _); [ nia | ]. cbn [obind].
        destruct (getz_ok in_x ((oy / 2) * ox + ox / 2)%Z) as (? & -> & _); [ nia | ]. cbn [obind]. eauto.
      + destruct (getz_ok in_x 1%Z) as (? & -> & _); [ nia | ]. cbn [obind].
        destruct (getz_ok in_x 0%Z) as (? & -> & _); [ nia | ]. cbn [obind]. eauto.
    - destruct (Z.ltb_spec 1 oy).
      + destruct (getz_ok in_x (1 * ox)%Z) as (? & -> & _); [ nia | ]. cbn [obind].
        destruct (getz_ok in_x 0%Z) as (? & -> & _); [ nia | ]. cbn [obind]. eauto.
      + destruct (getz_ok in_x 0%Z) as (? & -> & _); [ nia | ]. cbn [obind]. eauto. }
  destruct X as (r & E). unfold step_width. rewrite E. cbn [obind]. eexists. split; [ reflexivity | ].
  unfold default_delta. destruct (Rlt_dec (Rabs r) 0.000000001); [ | lra ].
  rewrite Rabs_right by lra. lra.
Qed.

(** finding: with two rows, and with two columns and three or four rows, a cell behind the field is read *)
Theorem C42_step_width_refuted : forall in_x ox oy, Z.of_nat (length in_x) = (ox * oy)%Z ->
  (2 <= ox /\ oy = 2 \/ ox = 2 /\ 3 <= oy <= 4)%Z -> step_width in_x ox oy = UB.
Proof.
  intros in_x ox oy L H. unfold step_width, raw_step.
  destruct (Z.ltb_spec 1 ox); [ | lia ]. destruct (Z.ltb_spec 1 oy); [ | lia ].
  destruct (getz_ok in_x (1 * ox + 1)%Z) as (? & -> & _); [ nia | ]. cbn [obind].
  destruct (getz_ok in_x 0%Z) as (? & -> & _); [ nia | ]. cbn [obind].
  assert (U : (ox * oy <= (oy / 2 + 1) * ox + (ox / 2 + 1))%Z).
  { destruct H as [ (A & ->) | (-> & A) ].
    - change (2 / 2)%Z with 1%Z. assert (0 <= ox / 2)%Z by (apply Z.div_pos; lia). lia.
    - change (2 / 2)%Z with 1%Z. assert (oy = 3 \/ oy = 4)%Z by lia. destruct H as [ -> | -> ]; vm_compute; discriminate. }
  unfold getz at 1. destruct (Z.ltb_spec ((oy / 2 + 1) * ox + (ox / 2 + 1))%Z 0%Z); [ reflexivity | ].
  destruct (nth_error in_x _) eqn:E; [ | reflexivity ].
  assert (Z.to_nat ((oy / 2 + 1) * ox + (ox / 2 + 1)) < length in_x)%nat by (apply nth_error_Some; rewrite E; discriminate).
  lia.
Qed.

Example C42_nonvacuous :
  reproject_values (map rotation [0; PI / 2]) 2 [1; 1; 2; 2] [0; 0; 3; 3] = Ok ([1 * cos 0 - 0 * sin 0; 1 * cos (PI / 2) - 0 * sin (PI / 2);
     2 * cos 0 - 3 * sin 0; 2 * cos (PI / 2) - 3 * sin (PI / 2)],
    [1 * sin 0 + 0 * cos 0; 1 * sin (PI / 2) + 0 * cos (PI / 2); 2 * sin 0 + 3 * cos 0; 2 * sin (PI / 2) + 3 * cos (PI / 2)]) /\
  conformal (fun p => (2 * fst p, 2 * snd p)) 1 2 0 5 6 10 12.
Proof.
  split; [ reflexivity | ]. unfold conformal. cbn. rewrite sin_0, cos_0. split; f_equal; ring.
Qed.

Print Assumptions C42_values.
Print Assumptions C42_length_kept.
Print Assumptions C42_inverse.
Print Assumptions C42_cached.
Print Assumptions C42_directions.
Print Assumptions C42_direction_agrees.
Print Assumptions C42_north_refuted.
Print Assumptions C42_angle.
Print Assumptions C42_angle_negative_step.
Print Assumptions C42_mean_of_angles_refuted.
Print Assumptions C42_angle_range.
Print Assumptions C42_bearing.
Print Assumptions C42_bearing_north.
Print Assumptions C42_step_width.
Print Assumptions C42_step_width_refuted.
