(** Distances between neighbouring grid points: mifi_griddistance, src/interpolation.c:828-885, with
    mifi_great_circle_angle, 246-249.  Floats are real numbers.  The two output arrays are written by the
    same statements with another neighbour (the point to the right, the point below) and independently of
    each other, so the loops are modelled for one array.  The content of the array before the call is
    arbitrary.  Sizes are natural numbers (no wrapping of nx*ny). *)
From Coq Require Import Reals List Arith Bool.
From Verif Require Import Base.
Import ListNotations.
Local Open Scope nat_scope.

(** 246-249 *)
Definition great_circle_angle (lat0 lon0 lat1 lon1 : R) : R :=
  acos (sin lat0 * sin lat1 + cos lat0 * cos lat1 * cos (lon1 - lon0))%R.
(** CDMconstants.h:141, interpolation.c:838-842; a point is (latitude, longitude) in degrees *)
Definition RADIUS : R := 6371000%R.
Definition radian (x : R) : R := (PI / 180 * x)%R.
Definition distance (a b : R * R) : R :=
  (RADIUS * great_circle_angle (radian (fst a)) (radian (snd a)) (radian (fst b)) (radian (snd b)))%R.

(** gridDist[p] = distance of the points p and q *)
Definition put_dist (pts : list (R * R)) (out : list R) (p q : nat) : outcome (list R) :=
  do a <- rd (nth_error pts p);
  do b <- rd (nth_error pts q);
  wr out p (distance a b).
(** gridDist[p] = gridDist[q] *)
Definition copy_dist (out : list R) (p q : nat) : outcome (list R) :=
  do v <- rd (nth_error out q); wr out p v.

(** 835-847: a single row or column; both arrays get the same values *)
Definition line_dist (n : nat) (pts : list (R * R)) (out : list R) : outcome (list R) :=
  do o <- ofold (fun o p => put_dist pts o p (p + 1)) (seq 0 (n - 1)) out;
  copy_dist o (n - 1) (n - 2).

(** 848-883 for one array: [off] is 1 for the x array and nx for the y array *)
Definition area_dist (off nx ny : nat) (pts : list (R * R)) (out : list R) : outcome (list R) :=
  do o1 <- ofold (fun o j => ofold (fun o i => put_dist pts o (i + nx * j) (i + nx * j + off)) (seq 0 (nx - 1)) o)
                 (seq 0 (ny - 1)) out;                                                       (* 848-869 *)
  do o2 <- ofold (fun o j => copy_dist o (j * nx + (nx - 1)) (j * nx + (nx - 1) - 1)) (seq 0 ny) o1;  (* 871-875 *)
  ofold (fun o i => if (ny - 1) * nx + i <? ny then UB                 (* the index would wrap *)
                    else copy_dist o ((ny - 1) * nx + i) ((ny - 1) * nx + i - ny)) (seq 0 nx) o2.     (* 877-881 *)

(** 828-885: whether the result is MIFI_OK, and the two arrays.  Without any point the loop limits wrap
    and the loops run out of the arrays. *)
Definition grid_distance (nx ny : nat) (pts : list (R * R)) (outx outy : list R) : outcome (bool * list R * list R) :=
  if nx * ny =? 1 then
    do x <- wr outx 0 0%R; do y <- wr outy 0 0%R; Ok (false, x, y)
  else if nx * ny =? 0 then UB
  else if (nx =? 1) || (ny =? 1) then
    do x <- line_dist (nx * ny) pts outx; do y <- line_dist (nx * ny) pts outy; Ok (true, x, y)
  else
    do x <- area_dist 1 nx ny pts outx; do y <- area_dist nx nx ny pts outy; Ok (true, x, y).
