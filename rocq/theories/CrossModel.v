(** Interpolation to vertical cross-sections: CDMInterpolator::changeProjectionToCrossSections,
    src/CDMInterpolator.cc:492-613.
    Modelled: the choice of the points, the start positions, the names and the bounds arrays.
    Floats are rationals.  The projection is a pair of parameters: [from] maps (lon, lat) to projection
    coordinates (convertFromLonLat) and [to] back (convertToLonLat), both point by point; failures of the
    projection library and values that are not finite are not modelled.  The axes are given by their
    first values; the final reprojection (line 612) is not modelled here. *)
From Coq Require Import QArith Qabs Qminmax Qround ZArith NArith List Ascii Lia.
From Verif Require Import Base.
Import ListNotations.
Local Open Scope nat_scope.

Definition point := (Q * Q)%type.

(** CrossSectionDefinition, include/fimex/CrossSectionDefinition.h:39-53 *)
Record section := { cs_name : list ascii; cs_coords : list point }.

(** dx and dy from the first two values of an axis, 513-522 *)
Definition axis_step (vals : list Q) : outcome Q :=
  match vals with
  | a :: b :: _ => let d := (b - a)%Q in if Qeq_bool d 0 then Throw else Ok d
  | _ => Throw
  end.

Definition nq (n : nat) : Q := inject_Z (Z.of_nat n).

(** number of grid points between two converted points, 545-548; the conversion of a value of 2^64 or
    more to size_t is undefined *)
Definition gridpoints (dx dy xd yd : Q) : outcome nat :=
  let f := Qfloor (Qmax (Qabs (xd / dx)) (Qabs (yd / dy))) in
  if (f <? Z.of_N M64)%Z then Ok (Z.to_nat f) else UB.

(** the points of one part in projection coordinates, 549-564 *)
Definition part (first : bool) (num : nat) (p q : point) : list point :=
  let xd := (fst q - fst p)%Q in
  let yd := (snd q - snd p)%Q in
  (if first then [p] else [])
  ++ map (fun j => ((fst p + nq j * xd / nq num)%Q, (snd p + nq j * yd / nq num)%Q)) (seq 1 (num - 1))
  ++ [q].

(** one turn of the loop over the coordinates, 539-570 *)
Definition segment (from to : point -> point) (dx dy : Q) (first : bool) (a b : point) : outcome (list point) :=
  let p := from a in
  let q := from b in
  do num <- gridpoints dx dy (fst q - fst p) (snd q - snd p);
  Ok (map to (part first num p q)).

(** the loop 539-570 from coordinate number i on: [a] is coordinate i-1 *)
Fixpoint segments (from to : point -> point) (dx dy : Q) (first : bool) (a : point) (rest : list point)
  : outcome (list point) :=
  match rest with
  | [] => Ok []
  | b :: rest' =>
      do s <- segment from to dx dy first a b;
      do r <- segments from to dx dy false b rest';
      Ok (s ++ r)
  end.

(** points of one cross-section with at least one coordinate, 533-571; a single coordinate is taken
    as it is *)
Definition section_points (from to : point -> point) (dx dy : Q) (coords : list point) : outcome (list point) :=
  match coords with
  | [] => Ok []
  | [a] => Ok [a]
  | a :: rest => segments from to dx dy true a rest
  end.

(** lonVals/latVals, startPositions, csNames, maxNameLen; 524-527 *)
Record collected := { vals : list point; starts : list nat; names : list (list ascii); maxlen : nat }.
Definition start_state : collected := {| vals := []; starts := []; names := []; maxlen := 80 |}.

(** one turn of the loop over the cross-sections, 528-573 *)
Definition collect (from to : point -> point) (dx dy : Q) (st : collected) (c : section) : outcome collected :=
  match cs_coords c with
  | [] => Ok st
  | coords =>
      do pts <- section_points from to dx dy coords;
      Ok {| vals := vals st ++ pts; starts := starts st ++ [length (vals st)];
            names := names st ++ [cs_name c]; maxlen := Nat.max (maxlen st) (length (cs_name c) + 1) |}
  end.

(** std::string::replace(pos, len, s) *)
Definition replace (t : list ascii) (pos len : nat) (s : list ascii) : outcome (list ascii) :=
  if length t <? pos then Throw
  else Ok (firstn pos t ++ s ++ skipn (pos + Nat.min len (length t - pos)) t).

(** vcross_name, 584-589 *)
Definition cross_names (ml : nat) (ns : list (list ascii)) : outcome (list ascii) :=
  ofold (fun t i =>
           match nth_error ns i with
           | None => UB
           | Some n => replace t (i * ml) (Nat.min (ml - 1) (length n)) n
           end)
        (seq 0 (length ns)) (repeat zero (ml * length ns)).

(** conversion of size_t to int *)
Definition to_int (x : Z) : Z := ((x + 2^31) mod 2^32 - 2^31)%Z.

Definition at_ (l : list nat) (i : nat) : outcome nat :=
  match nth_error l i with Some x => Ok x | None => Throw end.

(** vcross_bnds, 600-606, row by row as pairs.  Without cross-section the loop limit nvcross-1 wraps to
    2^64-1 and the first startPositions.at(0) throws std::out_of_range. *)
Definition cross_bounds (st : list nat) (total : nat) : outcome (list (Z * Z)) :=
  match length st with
  | O => do s <- at_ st 0; Ok [(to_int (Z.of_nat s), 0%Z)]
  | S n =>
      do rows <- omapM (fun i => do s <- at_ st i; do e <- at_ st (i + 1);
                                 Ok (to_int (Z.of_nat s), to_int (Z.of_nat e - 1))) (seq 0 n);
      do s <- at_ st n;
      Ok (rows ++ [(to_int (Z.of_nat s), to_int (Z.of_nat total - 1))])
  end.

Record crossed := { x_points : list point; x_names : list ascii; x_namelen : nat; x_bounds : list (Z * Z) }.

(** 513-609 *)
Definition cross_sections (from to : point -> point) (xaxis yaxis : list Q) (cs : list section) : outcome crossed :=
  do dx <- axis_step xaxis;
  do dy <- axis_step yaxis;
  do st <- ofold (collect from to dx dy) cs start_state;
  do nm <- cross_names (maxlen st) (names st);
  do bs <- cross_bounds (starts st) (length (vals st));
  Ok {| x_points := vals st; x_names := nm; x_namelen := maxlen st; x_bounds := bs |}.
