(** Rotation of vectors when a grid is reprojected: src/reproject.cc:240-264, 297-402, 488-530 and
    src/CachedVectorReprojection.cc:43-53.
    Floats are real numbers; MIFI_PI is exactly PI.  The projection library is a parameter: [fwd] maps a
    position of the input projection to one of the output projection. *)
From Coq Require Import Reals List ZArith.
From Verif Require Import Base FillModel.
Import ListNotations.
Local Open Scope R_scope.

(** C's atan2(y, x), the angle of (x, y) in (-PI, PI]; the sign of zero is not modelled (+0) *)
Definition atan2 (y x : R) : R :=
  if Rlt_dec 0 x then atan (y / x)
  else if Rlt_dec x 0 then (if Rle_dec 0 y then atan (y / x) + PI else atan (y / x) - PI)
  else if Rlt_dec 0 y then PI / 2 else if Rlt_dec y 0 then - (PI / 2) else 0.

Definition RAD_TO_DEG : R := 180 / PI.
Definition DEG_TO_RAD : R := PI / 180.

(** mifi_bearing_rad, 241-258 *)
Definition bearing_rad (lat0 lon0 lat1 lon1 : R) : R :=
  let dlon := lon0 - lon1 in
  atan2 (sin dlon * cos lat1) (cos lat0 * sin lat1 - sin lat0 * cos lat1 * cos dlon).
(** mifi_bearing, 261-264 *)
Definition bearing (lat0 lon0 lat1 lon1 : R) : R :=
  bearing_rad (lat0 * DEG_TO_RAD) (lon0 * DEG_TO_RAD) (lat1 * DEG_TO_RAD) (lon1 * DEG_TO_RAD).

(** the angle of one cell, get_vector_reproject_matrix_points_proj_delta 310-357: input position
    (inx, iny), output position (outx, outy), step d in both directions *)
Definition cell_angle (fwd : R * R -> R * R) (latlon : bool) (d inx iny outx outy : R) : R :=
  let add := if Rlt_dec 0 d then 0 else PI in
  let '(xy, yy) := fwd (inx, iny + d) in
  if latlon then bearing outy outx yy xy + add
  else
    let '(xx, yx) := fwd (inx + d, iny) in
    let phi_x := atan2 (yx - outy) (xx - outx) + add in
    let phi_y := - atan2 (xy - outx) (yy - outy) + add in
    (phi_y + phi_x) / 2.

(** store_rotation, 297-302 *)
Definition rotation (phi : R) : R * R * R := (cos phi, sin phi, RAD_TO_DEG * phi).

Definition matrix := list (R * R * R).
Definition rotation_matrix (fwd : R * R -> R * R) (latlon : bool) (d : R) (cells : list (R * R * (R * R))) : matrix :=
  map (fun c => rotation (cell_angle fwd latlon d (fst (fst c)) (snd (fst c)) (fst (snd c)) (snd (snd c)))) cells.

(** the step width, get_vector_reproject_matrix_proj 363-397 *)
Definition default_delta : R := 0.001.
Definition raw_step (in_x : list R) (ox oy : Z) : outcome R :=
  if (1 <? ox)%Z then
    if (1 <? oy)%Z then
      do a <- getz in_x (1 * ox + 1);
      do b <- getz in_x 0;
      do c <- getz in_x ((oy / 2 + 1) * ox + (ox / 2 + 1))%Z;
      do e <- getz in_x ((oy / 2) * ox + ox / 2)%Z;
      Ok ((default_delta * (a - b) + default_delta * (c - e)) / 2)
    else
      do a <- getz in_x 1; do b <- getz in_x 0; Ok (default_delta * (a - b))
  else if (1 <? oy)%Z then
    do a <- getz in_x (1 * ox)%Z; do b <- getz in_x 0; Ok (default_delta * (a - b))
  else
    do a <- getz in_x 0; Ok (if Rlt_dec 1 a then a * default_delta else default_delta).
Definition step_width (in_x : list R) (ox oy : Z) : outcome R :=
  do d <- raw_step in_x ox oy;
  Ok (if Rlt_dec (Rabs d) 0.000000001 then default_delta else d).

(** vector_reproject_values_by_matrix_f, 488-507: in place, layer after layer *)
Definition values_step (m : matrix) (z : nat) (st : list R * list R) (i : nat) : outcome (list R * list R) :=
  let '(u, v) := st in
  let p := (z * length m + i)%nat in
  do (c, s, _) <- rd (nth_error m i);
  do a <- rd (nth_error u p);
  do b <- rd (nth_error v p);
  do u' <- wr u p (a * c - b * s);
  do v' <- wr v p (a * s + b * c);
  Ok (u', v').
Definition reproject_values (m : matrix) (oz : nat) (u v : list R) : outcome (list R * list R) :=
  ofold (fun st z => ofold (values_step m z) (seq 0 (length m)) st) (seq 0 oz) (u, v).

(** vector_reproject_direction_by_matrix_f, 509-530 *)
Definition new_direction (rot a : R) : R :=
  let n := a - rot in
  let n := if Rlt_dec n 0 then n + 360 else n in
  if Rlt_dec 360 n then n - 360 else n.
Definition direction_step (m : matrix) (z : nat) (u : list R) (i : nat) : outcome (list R) :=
  let p := (z * length m + i)%nat in
  do (_, _, r) <- rd (nth_error m i);
  do a <- rd (nth_error u p);
  wr u p (new_direction r a).
Definition reproject_directions (m : matrix) (oz : nat) (u : list R) : outcome (list R) :=
  ofold (fun st z => ofold (direction_step m z) (seq 0 (length m)) st) (seq 0 oz) u.

(** CachedVectorReprojection::reprojectValues / reprojectDirectionValues, 43-53: the number of layers
    is the size divided by the layer size; division by zero is [UB] *)
Definition cached_values (m : matrix) (u v : list R) : outcome (list R * list R) :=
  if (length m =? 0)%nat then UB else reproject_values m (length u / length m)%nat u v.
Definition cached_directions (m : matrix) (u : list R) : outcome (list R) :=
  if (length m =? 0)%nat then UB else reproject_directions m (length u / length m)%nat u.
