(** Grids of FELT files: src/io/felt/FeltGridDefinition.cpp, the axes in src/io/felt/Felt_File2.cc and the check
    of grids in src/io/felt/Felt_Array2.cc.  Numbers are exact; the sine of an angle in degrees and the
    projection of the library proj are parameters.  Left out: logging, the two functions
    polarStereographicProj and geographicProj (not used), the number format of the projection text. *)
From Coq Require Import ZArith QArith Qabs String List Bool.
From Verif Require Import Base FwordModel.
Import ListNotations.
Local Open Scope Z_scope.

(** ** The six parameters of a grid *)
Definition pars := list Q.
Definition q (k : nat) (l : pars) : Q := nth k l 0%Q.
(** int to double, and an int divided by 100 or 10 *)
Definition hundredth (z : Z) : Q := (inject_Z z * (1 # 100))%Q.
Definition tenth (z : Z) : Q := (inject_Z z * (1 # 10))%Q.

(** a number in two words *)
Definition two (a b : Z) : Q := (inject_Z (10000 * a + b))%Q.

(** scaleGridInfoFirst_, FeltGridDefinition.cpp:100-110: the number i of n *)
Definition first_method (scale : Q) (extra : list Z) (i : nat) : Q :=
  (two (w (2 * i) extra) (w (2 * i + 1) extra) / scale)%Q.
(** scaleGridInfoSecond_, FeltGridDefinition.cpp:113-130 *)
Definition second_method (extra : list Z) (i : nat) : Q :=
  (two (w (3 * i + 3) extra) (w (3 * i + 4) extra) * Qpower 10 (w (3 * i + 2) extra))%Q.

(** the first n parameters are replaced *)
Definition replaced (n : nat) (f : nat -> Q) (p : pars) : pars := map f (seq 0 n) ++ skipn n p.

(** scaleExtraData_, FeltGridDefinition.cpp:140-155 *)
Definition scale_extra (p : pars) (n : nat) (scale : Q) (extra : list Z) : outcome pars :=
  if (length extra =? 0)%nat then Ok p
  else if (length extra =? 2 * n)%nat then Ok (replaced n (first_method scale extra) p)
  else if (length extra =? 2 + 3 * n)%nat
  then if negb (w 0 extra =? Z.of_nat n) then Throw
       else if negb (w 1 extra =? 3) then Throw
       else Ok (replaced n (second_method extra) p)
  else Throw.

Definition zero (x : Q) : bool := Qeq_bool x 0.
Definition set (k : nat) (v : Q) (p : pars) : pars := upd p k v.
Definition below (a b : Q) : bool := negb (Qle_bool b a).

(** gridParametersPolarStereo_, FeltGridDefinition.cpp:157-193 *)
Definition polar_pars (ixp iyp idist iphi : Z) (extra : list Z) : outcome pars :=
  let p0 := if 0 <? idist
            then [hundredth ixp; hundredth iyp; tenth idist; inject_Z iphi; inject_Z 60; 0%Q]
            else [inject_Z ixp; inject_Z iyp; tenth (- idist); inject_Z iphi; inject_Z 60; 0%Q] in
  do p <- scale_extra p0 5 (inject_Z 100) extra;
  if zero (q 2 p) then Throw else
  let p := set 2 (inject_Z (79 * 150) / q 2 p)%Q p in
  if zero (q 4 p) || below (q 4 p) (inject_Z (-90)) || below (inject_Z 90) (q 4 p) then Throw else Ok p.

(** gridParametersGeographic_, FeltGridDefinition.cpp:195-226 *)
Definition geographic_pars (ilat ilon lat_dist lon_dist : Z) (extra : list Z) : outcome pars :=
  do p <- scale_extra [hundredth ilon; hundredth ilat; hundredth lon_dist; hundredth lat_dist; 0%Q; 0%Q] 6
            (inject_Z 10000) extra;
  if zero (q 2 p) || zero (q 3 p) then Throw else Ok p.

(** gridParametersMercator_, FeltGridDefinition.cpp:228-249 *)
Definition mercator_pars (west south dx dy : Z) (extra : list Z) : outcome pars :=
  do p <- scale_extra [hundredth west; hundredth south; tenth dx; tenth dy; 0%Q; 0%Q] 5 (inject_Z 10000) extra;
  if zero (q 2 p) || zero (q 3 p) then Throw else Ok p.

(** gridParametersLambertConic_, FeltGridDefinition.cpp:251-276 *)
Definition lambert_pars (west south dx dy : Z) (extra : list Z) : outcome pars :=
  do p <- scale_extra [hundredth west; hundredth south; tenth dx; tenth dy; 0%Q; 0%Q] 6 (inject_Z 10000) extra;
  if zero (q 2 p) || zero (q 3 p) then Throw
  else if Qeq_bool (q 5 p) (inject_Z 90) || Qeq_bool (q 5 p) (inject_Z (-90)) then Throw
  else if zero (q 5 p) then Throw else Ok p.

(** gridParameters, FeltGridDefinition.cpp:278-297 *)
Definition grid_pars (type a b c d : Z) (extra : list Z) : outcome pars :=
  if (type =? 1) || (type =? 4) then polar_pars a b c d extra
  else if (type =? 2) || (type =? 3) then geographic_pars a b c d extra
  else if type =? 5 then mercator_pars a b c d extra
  else if type =? 6 then lambert_pars a b c d extra
  else Throw.

(** gridParametersToProjDefinition, FeltGridDefinition.cpp:299-329: texts and numbers *)
Inductive piece := Txt (s : string) | Num (x : Q).
Definition proj_definition (type : Z) (p : pars) : outcome (list piece) :=
  do front <-
    (if (type =? 1) || (type =? 4)
     then Ok [Txt "+proj=stere +lat_0=90 +lon_0="; Num (q 3 p); Txt " +lat_ts="; Num (q 4 p); Txt " +units=m"]
     else if type =? 2 then Ok [Txt "+proj=longlat"]
     else if type =? 3
     then Ok [Txt "+proj=ob_tran +o_proj=longlat +lon_0="; Num (q 4 p); Txt " +o_lat_p="; Num (inject_Z 90 - q 5 p)%Q]
     else if type =? 5 then Ok [Txt "+proj=merc +lat_ts="; Num (q 4 p)]
     else if type =? 6
     then Ok [Txt "+proj=lcc +lon_0="; Num (q 4 p); Txt " +lat_0="; Num (q 5 p); Txt " +lat_1="; Num (q 5 p);
              Txt " +lat_2="; Num (q 5 p)]
     else Throw);
  Ok (front ++ [Txt " +R="; Num (inject_Z 6371000); Txt " +no_defs"]).

(** ** The definition of a grid *)
Record grid_def := { d_type : Z; d_pars : pars; d_upper : bool; d_x : Q; d_y : Q; d_dx : Q; d_dy : Q }.

Section Grids.
Variable sine : Q -> Q.                                          (* of an angle in degrees *)
Variable project : list piece -> Q -> Q -> outcome (Q * Q).       (* projConvert, FeltGridDefinition.cpp:62-97 *)

(** getScanMode_, FeltGridDefinition.cpp:331-341 *)
Definition scan_mode (ny : Z) (p : pars) : bool * pars :=
  let dy := q 3 p in
  if below dy 0
  then let dy' := (- dy)%Q in
       (true, set 1 (q 1 p - inject_Z ny * dy' + dy')%Q (set 3 dy' p))
  else (false, p).

(** FeltGridDefinition and its functions for each projection, FeltGridDefinition.cpp:343-470 *)
Definition define (type ny a b c d : Z) (extra : list Z) : outcome grid_def :=
  if (type =? 1) || (type =? 4)
  then do p <- grid_pars type a b c d extra;
       let incr := (inject_Z 6371000 * (1 + sine (q 4 p)) / q 2 p)%Q in
       Ok {| d_type := type; d_pars := p; d_upper := false; d_x := ((1 - q 0 p) * incr)%Q;
             d_y := ((1 - q 1 p) * incr)%Q; d_dx := incr; d_dy := incr |}
  else if (type =? 2) || (type =? 3)
  then do p <- grid_pars type a b c d extra;
       let '(upper, p) := scan_mode ny p in
       Ok {| d_type := type; d_pars := p; d_upper := upper; d_x := q 0 p; d_y := q 1 p; d_dx := q 2 p; d_dy := q 3 p |}
  else if (type =? 5) || (type =? 6)
  then do p <- grid_pars type a b c d extra;
       do t <- proj_definition type p;
       do xy <- project t (q 0 p) (q 1 p);
       Ok {| d_type := type; d_pars := p; d_upper := false; d_x := fst xy; d_y := snd xy;
             d_dx := (q 2 p * inject_Z 1000)%Q; d_dy := (q 3 p * inject_Z 1000)%Q |}
  else Throw.

(** projectionInformation of a field, FeltField.cpp:78-88: the words 14 to 17 of the header of the grid *)
Definition field_grid (ws h : list Z) : outcome grid_def :=
  do e <- extra ws h;
  let type := if 999 <? grid_type h then Z.quot (grid_type h) 1000 else grid_type h in
  do g <- grid_header ws h;
  define type (w 10 g) (w 14 g) (w 15 g) (w 16 g) (w 17 g) e.
End Grids.

(** ** Axes, Felt_File2.cc:336-363 *)
Definition axis_value (start incr : Q) (i : nat) : Q := (start + inject_Z (Z.of_nat i) * incr)%Q.
Definition x_axis (g : grid_def) (nx : nat) : list Q := map (axis_value (d_x g) (d_dx g)) (seq 0 nx).
Definition y_axis (g : grid_def) (ny : nat) : list Q :=
  let incr := if d_upper g then (- d_dy g)%Q else d_dy g in
  let start := if d_upper g then (d_y g - (inject_Z (Z.of_nat ny - 1)) * incr)%Q else d_y g in
  map (axis_value start incr) (seq 0 ny).

(** the check of getGridAllowDelta, Felt_Array2.cc:245-264: types of the default field and of the field read *)
Definition grid_class (type : Z) : Z := if 1000 <=? type then Z.quot type 1000 else type.
Definition differs (x y delta : Q) : bool := negb (Qeq_bool x y) && negb (Qle_bool (Qabs.Qabs (x - y)) delta).
Definition check_grid (type0 type1 : Z) (p0 p1 delta : pars) : outcome unit :=
  if negb (grid_class type0 =? grid_class type1) then Throw
  else if existsb (fun i => differs (q i p1) (q i p0) (q i delta)) (seq 0 6) then Throw else Ok tt.

(** getGridType of all variables, Felt_File2.cc:365-383 *)
Definition common_type (types : list Z) : outcome Z :=
  match map grid_class types with
  | [] => Ok (-1)
  | t :: r => if forallb (Z.eqb t) (t :: r) then Ok t else Throw
  end.
