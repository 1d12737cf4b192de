(** Rotation of vectors and directions by the processor: rotateAllVectorsToLatLon, rotateVectorToLatLon,
    rotateDirectionToLatLon and the rotation in getDataSlice, src/CDMProcessor.cc:404-510, 652-711.
    The reader is given by its records as data2InterpolationArray gives them (missing values are [None]); the systems
    found by findBestHorizontalCoordinateSystems by the horizontal id of each variable on one (C94); the matrices by
    what they do to records (C42).  Accumulation is in AccumModel.v; logging is left out; floats are real numbers. *)
From Coq Require Import Reals PeanoNat String List Bool.
From Verif Require Import Base.
Import ListNotations.
Local Open Scope string_scope.
Local Open Scope list_scope.
Local Open Scope nat_scope.

Definition record := list (option R).
(** CDMVariable::SpatialVectorDirection, include/fimex/CDMVariable.h *)
Inductive vdir := VX | VY | VLon | VLat.
Definition vdir_eqb (a b : vdir) : bool := match a, b with VX, VX | VY, VY | VLon, VLon | VLat, VLat => true | _, _ => false end.
Definition fmap (A : Type) := string -> option A.
Definition put {A} (k : string) (a : A) (f : fmap A) : fmap A := fun x => if String.eqb x k then Some a else f x.

(** the state, 91-112: standard names and vectors of the metadata, rotateLatLonVectorX and Y, rotateLatLonDirection, and
    the cached matrices, each with the direction it was made for *)
Record proc := mkProc {
  p_std : fmap string;
  p_vec : fmap (string * vdir);
  p_x : fmap (string * string);
  p_y : fmap (string * string);
  p_dir : fmap string;
  p_mat : fmap bool }.

Section Rotation.
(** the horizontal id of a variable on a system with projection *)
Variable system : fmap string.
(** whether there are such systems *)
Variable any : bool.

(** the matrix of a system is made once, 475-479, 503-507 *)
Definition with_matrix (id : string) (to_ll : bool) (f : fmap bool) : fmap bool := match f id with Some _ => f | None => put id to_ll f end.
(** addOrReplaceAttribute of standard_name if there is a name, 454-460 *)
Definition named (v : string) (n : option string) (f : fmap string) : fmap string := match n with Some s => put v s f | None => f end.

(** one pair, 449-482; the second value is whether there was no exception *)
Definition rotate_pair (to_ll : bool) (x y : string) (nx ny : option string) (s : proc) : proc * bool :=
  match system x, system y with
  | Some a, Some b =>
      let std := named y ny (named x nx (p_std s)) in
      let vec := put y (x, if to_ll then VLat else VY) (put x (y, if to_ll then VLon else VX) (p_vec s)) in
      if String.eqb a b then (mkProc std vec (put x (y, a) (p_x s)) (put y (x, a) (p_y s)) (p_dir s) (with_matrix a to_ll (p_mat s)), true)
      else (mkProc std vec (p_x s) (p_y s) (p_dir s) (p_mat s), false)
  | _, _ => (s, false)
  end.
Fixpoint rotate_pairs (to_ll : bool) (xs ys nxs nys : list string) (s : proc) : proc * bool :=
  match xs, ys with
  | x :: xs, y :: ys =>
      let '(s1, ok) := rotate_pair to_ll x y (hd_error nxs) (hd_error nys) s in
      if ok then rotate_pairs to_ll xs ys (tl nxs) (tl nys) s1 else (s1, false)
  | _, _ => (s, true)
  end.
(** rotateVectorToLatLon, 432-483 *)
Definition rotate_vectors (to_ll : bool) (xs ys nxs nys : list string) (s : proc) : proc * bool :=
  if negb (length xs =? length ys) then (s, false)
  else if length xs =? 0 then (s, true)
  else if negb any then (s, false)
  else rotate_pairs to_ll xs ys nxs nys s.

(** rotateAllVectorsToLatLon, 404-430, with the variables of the file in order *)
Definition rotate_all (to_ll : bool) (vars : list string) (s : proc) : proc * bool :=
  let new v := ((if to_ll then "LATLON_ROTATED_" else "GRID_ROTATED_") ++ match p_std s v with Some n => n | None => v end)%string in
  let found := flat_map (fun v => match p_vec s v with Some (o, d) => if vdir_eqb d (if to_ll then VX else VLon) then [(v, o)] else [] | None => [] end) vars in
  rotate_vectors to_ll (map fst found) (map snd found) (map (fun p => new (fst p)) found) (map (fun p => new (snd p)) found) s.

(** rotateDirectionToLatLon, 485-510 *)
Fixpoint rotate_each (to_ll : bool) (vs : list string) (s : proc) : proc * bool :=
  match vs with
  | [] => (s, true)
  | v :: vs =>
      match system v with
      | None => (s, false)
      | Some a => rotate_each to_ll vs (mkProc (p_std s) (p_vec s) (p_x s) (p_y s) (put v a (p_dir s)) (with_matrix a to_ll (p_mat s)))
      end
  end.
Definition rotate_directions (to_ll : bool) (vs : list string) (s : proc) : proc * bool :=
  match vs with
  | [] => (s, true)
  | _ => if any then rotate_each to_ll vs s else (s, false)
  end.

(** requests *)
Inductive request := Vectors (to_ll : bool) (xs ys nxs nys : list string) | All (to_ll : bool) (vars : list string) | Directions (to_ll : bool) (vs : list string).
Definition ask (s : proc) (r : request) : proc := fst
  match r with
  | Vectors t xs ys nxs nys => rotate_vectors t xs ys nxs nys s
  | All t vars => rotate_all t vars s
  | Directions t vs => rotate_directions t vs s
  end.
Definition asked (rs : list request) (s : proc) : proc := fold_left ask rs s.

(** ** data *)
(** the records of the reader *)
Variable rdr : string -> nat -> record.
(** reprojectValues and reprojectDirectionValues with the matrix of a system made for a direction *)
Variable turn : string -> bool -> record -> record -> record * record.
Variable turn_directions : string -> bool -> record -> record.
(** getScaleAndOffsetOf *)
Variable packing : string -> R * R.
(** interpolationArray2Data to the type of the variable, as read again *)
Variable cast : string -> option R -> option R.

Definition scaled (k : R * R) (x : option R) : option R := option_map (fun r => fst k * r + snd k)%R x.
Definition unscaled (k : R * R) (x : option R) : option R := option_map (fun r => 1 / fst k * (r - snd k))%R x.
(** a matrix that is not there is a null pointer, 680-686, 701-706 *)
Definition matrix (s : proc) (id : string) : outcome bool := match p_mat s id with Some b => Ok b | None => UB end.
Definition turned (s : proc) (id : string) (xd yd : record) : outcome (record * record) :=
  if negb (length xd =? length yd) then Throw else do b <- matrix s id; Ok (turn id b xd yd).
(** getDataSlice, 652-711 *)
Definition get_slice (s : proc) (v : string) (pos : nat) : outcome record :=
  let d := rdr v pos in
  do d1 <- match p_x s v with
           | Some (y, id) => do r <- turned s id d (rdr y pos); Ok (map (cast v) (fst r))
           | None => match p_y s v with
                     | Some (x, id) => do r <- turned s id (rdr x pos) d; Ok (map (cast v) (snd r))
                     | None => Ok d
                     end
           end;
  match p_dir s v with
  | None => Ok d1
  | Some id => do b <- matrix s id; Ok (map (fun x => cast v (unscaled (packing v) x)) (turn_directions id b (map (scaled (packing v)) d1)))
  end.
End Rotation.
