(** The coordinate based nearest neighbour search: getGridDistance and
    fastTranslatePointsToClosestInputCell, src/CDMInterpolator.cc:1030-1202.
    Floats are real numbers, [None] is NaN.  The loops run in parallel over independent points; the order of
    the samples does not matter since only their minimum is used.  deg_to_rad(x) = x * PI / 180. *)
From Coq Require Import Reals List ZArith Bool Lia.
From Verif Require Import Base.
Import ListNotations.
Local Open Scope R_scope.

Definition fl := option R.
Definition rltb (a b : R) : bool := if Rlt_dec a b then true else false.

Definition rad (x : R) : R := x * PI / 180.

(** LL_POINT, 1093-1107 (radians; x, y are the indices) *)
Record cell := { c_lat : R; c_lon : R; c_x : Z; c_y : Z }.

(** cosine of the great-circle distance, lines 1067 and 1155/1174 *)
Definition cos_dist (lat0 lon0 lat1 lon1 : R) : R :=
  cos lat0 * cos lat1 * cos (lon0 - lon1) + sin lat0 * sin lat1.

(** C's acos: NaN outside [-1, 1] *)
Definition c_acos (x : R) : fl :=
  if rltb x (-1) then None else if rltb 1 x then None else Some (acos x).

(** the inner double loop 1058-1073: largest cosine to another valid cell, -2 if there is none; positions
    in the order of the loops do not matter for the maximum and are taken row by row *)
Definition best_other (lons lats : list fl) (pos : nat) (lon0 lat0 : R) : R :=
  fold_left (fun m p =>
    if Nat.eqb p pos then m else
    match nth_error lons p, nth_error lats p with
    | Some (Some lon1), Some (Some lat1) =>
        let c := cos_dist (rad lat0) (rad lon0) (rad lat1) (rad lon1) in
        if rltb m c then c else m
    | _, _ => m
    end) (seq 0 (length lons)) (-2).

(** 1039-1046: the sampled positions of a grid of n cells *)
Definition sample_positions (n : nat) : list nat :=
  let '(steps, size) := if Nat.ltb 1000 n then (53%nat, (n / 53)%nat) else (n, 1%nat) in
  map (fun k => (k * size)%nat) (seq 0 steps).

(** 1052-1084 *)
Definition samples (lons lats : list fl) : list R :=
  flat_map (fun p =>
    match nth_error lons p, nth_error lats p with
    | Some (Some lon0), Some (Some lat0) => [best_other lons lats p lon0 lat0]
    | _, _ => []
    end) (sample_positions (length lons)).

(** 1088-1089; dereferencing min_element of an empty range is undefined; std::min(NaN, PI) is NaN *)
Definition grid_distance (lons lats : list fl) : outcome fl :=
  match samples lons lats with
  | [] => UB
  | s :: r =>
      let m := fold_left (fun a b => if rltb b a then b else a) r s in
      match c_acos m with
      | None => Ok None
      | Some d => Ok (Some (if rltb PI (d * 1.414) then PI else d * 1.414))
      end
  end.

(** 1129-1137: the valid cells, x outer, y inner *)
Definition cells (lons lats : list fl) (nx ny : nat) : list cell :=
  flat_map (fun ix =>
    flat_map (fun iy =>
      let pos := (ix + iy * nx)%nat in
      match nth_error lons pos, nth_error lats pos with
      | Some (Some lon), Some (Some lat) =>
          [{| c_lat := rad lat; c_lon := rad lon; c_x := Z.of_nat ix; c_y := Z.of_nat iy |}]
      | _, _ => []
      end) (seq 0 ny)) (seq 0 nx).

(** state of the search for one point: min_cos_d, min_d and the best indices *)
Definition best := (R * R * (Z * Z))%type.

(** the comparison of one cell, 1155-1161 and 1174-1180 *)
Definition visit (plat plon : R) (st : best) (c : cell) : best :=
  let '(mc, md, xy) := st in
  let cd := cos (c_lat c) * cos plat * cos (c_lon c - plon) + sin (c_lat c) * sin plat in
  if rltb mc cd then (cd, acos cd, (c_x c, c_y c)) else st.

(** one direction of the scan, 1149-1164 and 1166-1183: stop at the first cell whose latitude is further
    away than the best distance *)
Fixpoint scan (plat plon : R) (l : list cell) (st : best) : best :=
  match l with
  | [] => st
  | c :: r =>
      let '(_, md, _) := st in
      if rltb md (Rabs (c_lat c - plat)) then st
      else scan plat plon r (visit plat plon st c)
  end.

(** std::lower_bound on cells sorted by latitude, 1146: the cells below and the cells from there on *)
Fixpoint split_at_lat (l : list cell) (plat : R) : list cell * list cell :=
  match l with
  | [] => ([], [])
  | c :: r => if rltb (c_lat c) plat then let '(a, b) := split_at_lat r plat in (c :: a, b) else ([], l)
  end.

(** one point, 1141-1187, on the sorted cells; [lon], [lat] in degrees.  With a NaN coordinate or radius
    no comparison of distances succeeds and the indices stay at -1. *)
Definition closest (sorted : list cell) (radius : fl) (lon lat : fl) : Z * Z :=
  match radius, lon, lat with
  | Some r, Some lon, Some lat =>
      let plat := rad lat in
      let plon := rad lon in
      let mc := cos r in
      let '(below, above) := split_at_lat sorted plat in
      let st := scan plat plon above (mc, acos mc, ((-1)%Z, (-1)%Z)) in
      let '(_, _, xy) := scan plat plon (rev below) st in
      xy
  | _, _, _ => ((-1)%Z, (-1)%Z)
  end.

(** the whole function on a list of points; [sorted] is what std::sort made of the cells, 1139 (any
    arrangement of them that is sorted by latitude) *)
Definition translate_points (sorted : list cell) (lons lats : list fl) (pts : list (fl * fl))
  : outcome (list (Z * Z)) :=
  do d <- grid_distance lons lats;
  Ok (map (fun p => closest sorted d (fst p) (snd p)) pts).
