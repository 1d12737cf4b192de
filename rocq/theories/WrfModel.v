(** Coordinate systems of files of the WRF model (src/coordSys/WRFCoordSysBuilder.cc): the
    projection, the axes made from the global attributes and the systems of the variables.

    Numbers are rationals; the float type of the axes and of the attributes is not modelled.  An
    undefined number (an attribute that is missing) is [None].  The library PROJ (the place of the
    centre of the grid), the sine and the length of a degree are parameters. *)
From Coq Require Import PeanoNat ZArith QArith Qcanon Ascii String List Bool Lia.
From Verif Require Import Base.
Import ListNotations.
Local Open Scope string_scope.
Local Open Scope list_scope.
Local Open Scope nat_scope.

(** a global attribute *)
Inductive att := Num (q : Qc) | Txt (s : string).

(** a variable: its data only if they are kept in memory *)
Record wvar := WVar {
  wv_name : string; wv_shape : list string;
  wv_units : option string; wv_std : option string; wv_data : option (list Qc) }.

(** the part of the metadata that is used *)
Record wcdm := WCdm {
  w_dims : list (string * nat); w_vars : list wvar; w_atts : list (string * att) }.

(** CDM::hasDimension, getDimension(..).getLength(), hasVariable *)
Definition dim_len (c : wcdm) (d : string) : option nat :=
  option_map snd (find (fun e => String.eqb (fst e) d) (w_dims c)).
Definition has_dim (c : wcdm) (d : string) : bool :=
  match dim_len c d with Some _ => true | None => false end.
Definition has_var (c : wcdm) (v : string) : bool :=
  existsb (fun x => String.eqb (wv_name x) v) (w_vars c).
Definition add_var (c : wcdm) (v : wvar) : wcdm := WCdm (w_dims c) (w_vars c ++ [v]) (w_atts c).

(** CDM::getAttribute of the file *)
Definition get_att (c : wcdm) (a : string) : option att :=
  option_map snd (find (fun e => String.eqb (fst e) a) (w_atts c)).

(** findAttributeDouble; WRFCoordSysBuilder.cc:94-102.  Simplified: a text is no number *)
Definition num_att (c : wcdm) (a : string) : option Qc :=
  match get_att c a with Some (Num q) => Some q | _ => None end.

(** an attribute that has to be there; asFloat()[0], getStringValue() *)
Definition need_num (c : wcdm) (a : string) : outcome Qc :=
  match get_att c a with Some (Num q) => Ok q | _ => Throw end.
Definition need_txt (c : wcdm) (a : string) : outcome string :=
  match get_att c a with Some (Txt s) => Ok s | _ => Throw end.

(** isMine; 63-73 *)
Definition is_wrf (c : wcdm) : bool :=
  has_dim c "south_north" && (match get_att c "MAP_PROJ" with Some _ => true | None => false end).

(** the words of the PROJ.4 text *)
Inductive word := Name (k v : string) | Number (k : string) (q : option Qc).

Definition neg_opt (q : option Qc) : option Qc := option_map (fun x => (- x)%Qc) q.
Definition qn (n : Z) : Qc := Q2Qc (n # 1).

(** the switch over MAP_PROJ: the words and whether the axes are in degrees; 120-158.
    Simplified: MAP_PROJ is a whole number (asInt) *)
Definition projection (kfun : option Qc -> option Qc) (c : wcdm) (mp : Qc) : option (list word * bool) :=
  let lat1 := num_att c "TRUELAT1" in
  let lat2 := num_att c "TRUELAT2" in
  let clat := num_att c "CEN_LAT" in
  let clon := num_att c "CEN_LON" in
  let slon := num_att c "STAND_LON" in
  let slat := num_att c "MOAD_CEN_LAT" in
  let plat := num_att c "POLE_LAT" in
  let plon := num_att c "POLE_LON" in
  let ends := [Number "R" (Some (qn 6370000)); Name "no_defs" ""] in
  if Qc_eq_dec mp (qn 1) then
    Some ([Name "proj" "lcc"; Number "lon_0" slon; Number "lat_0" slat; Number "lat_1" lat1;
           Number "lat_2" lat2] ++ ends, false)
  else if Qc_eq_dec mp (qn 2) then
    Some ([Name "proj" "stere";
           Number "lon_0" (match slon with Some q => Some q | None => clon end);
           Number "lat_0" (match clat with Some q => Some q | None => lat2 end);
           Number "k" (kfun lat1)] ++ ends, false)
  else if Qc_eq_dec mp (qn 3) then
    Some ([Name "proj" "merc"; Number "lon_0" slon; Number "lat_0" slat] ++ ends, false)
  else if Qc_eq_dec mp (qn 6) then
    Some ([Name "proj" "ob_tran"; Name "o_proj" "longlat"; Number "lon_0" (neg_opt slon);
           Number "o_lon_p" (option_map (fun q => (qn 180 - q)%Qc) plon);
           Number "o_lat_p" plat] ++ ends, true)
  else None.

(** startX + i * dx with startX = centerX - dx * (dimSize - 1) / 2; 183-187 *)
Definition axis_values (center step : Qc) (n : nat) : list Qc :=
  let start := (center - step * qn (Z.of_nat n - 1) / qn 2)%Qc in
  map (fun i => (start + qn (Z.of_nat i) * step)%Qc) (seq 0 n).

(** 0, 1, 2, ...; 295-298, 440-443 *)
Definition counting (n : nat) : list Qc := map (fun i => qn (Z.of_nat i)) (seq 0 n).

(** one of the four horizontal axes; 174-201, 202-229, 230-259, 260-289 *)
Definition horizontal (degm : Qc) (latlon : bool) (center : Qc) (attname stdll stdxy d : string)
  (c : wcdm) : outcome wcdm :=
  match dim_len c d with
  | None => Ok c
  | Some n =>
      if has_var c d then Ok c
      else
        do m <- need_num c attname;
        let step := if latlon then (m * degm)%Qc else m in
        Ok (add_var c (WVar d [d] (Some (if latlon then "degree" else "m"))
              (Some (if latlon then stdll else stdxy)) (Some (axis_values center step n))))
  end.

(** one of the two vertical axes; 290-306, 307-323 *)
Definition levels (d : string) (c : wcdm) : wcdm :=
  match dim_len c d with
  | None => c
  | Some n => if has_var c d then c
              else add_var c (WVar d [d] (Some "1") None (Some (counting n)))
  end.

(** tokenize(text, "_").at(0), .at(1); 336-340, 390-394: the parts before the first underscore and
    between the first and the second one *)
Fixpoint until (s : string) : string * option string :=
  match s with
  | EmptyString => ("", None)
  | String a r => if Ascii.eqb a "_" then ("", Some r)
                  else let (x, y) := until r in (String a x, y)
  end.
Definition date_units (s : string) : outcome string :=
  match until s with
  | (x, Some r) => Ok ("hours since " ++ x ++ " " ++ fst (until r) ++ " +0000")%string
  | (_, None) => Throw
  end.

(** the times: with a reader, which there always is, they are guessed from the attributes; 327-385.
    Simplified: date and time in START_DATE are not empty (tokenize leaves out empty parts) *)
Definition time_var (c : wcdm) (n : nat) : outcome wvar :=
  do s <- need_txt c "START_DATE";
  do u <- date_units s;
  let mn := match num_att c "TIME_STEP_MN" with Some q => q | None => qn 180 end in
  let step := (mn / qn 60)%Qc in
  Ok (WVar "Time" ["Time"] (Some u) None (Some (map (fun i => (step * qn (Z.of_nat i))%Qc) (seq 0 n)))).

(** the reference time; 386-400 *)
Definition add_reftime (c : wcdm) : outcome wcdm :=
  if has_var c "forecast_reference_time" then Ok c
  else
    do s <- need_txt c "SIMULATION_START_DATE";
    do u <- date_units s;
    Ok (add_var c (WVar "forecast_reference_time" [] (Some u) (Some "forecast_reference_time")
                     (Some [qn 0]))).

(** the dimension Time, and getVariable(Time); 325-404 *)
Definition times (c : wcdm) : outcome wcdm :=
  do c' <- match dim_len c "Time" with
           | None => Ok c
           | Some n => if has_var c "Time" then Ok c
                       else do v <- time_var c n; add_reftime (add_var c v)
           end;
  if has_var c' "Time" then Ok c' else Throw.

(** the types of the axes of a system *)
Inductive wtype := GeoX | GeoY | GeoZ | TimeT | Other.
Definition wtype_eqb (a b : wtype) : bool :=
  match a, b with
  | GeoX, GeoX | GeoY, GeoY | GeoZ, GeoZ | TimeT, TimeT | Other, Other => true
  | _, _ => false
  end.

(** the axis of a dimension; 418-450 *)
Definition type_of (d : string) : wtype :=
  if String.eqb d "west_east" then GeoX
  else if String.eqb d "west_east_stag" then GeoX
  else if String.eqb d "south_north" then GeoY
  else if String.eqb d "south_north_stag" then GeoY
  else if String.eqb d "Time" then TimeT
  else if String.eqb d "bottom_top" then GeoZ
  else if String.eqb d "bottom_top_stag" then GeoZ
  else Other.

(** CoordinateSystem::setAxis; CoordinateSystem.cc:305-323 *)
Definition set_axis (axes : list (string * wtype)) (d : string) : outcome (list (string * wtype)) :=
  let axes' := filter (fun a => negb (String.eqb (fst a) d)) axes in
  if negb (wtype_eqb (type_of d) Other) && existsb (fun a => wtype_eqb (snd a) (type_of d)) axes'
  then Throw
  else Ok (axes' ++ [(d, type_of d)]).

(** a variable for a dimension without one; 434-445 *)
Definition virtual (c : wcdm) (d : string) : outcome wcdm :=
  match type_of d with
  | Other =>
      if has_var c d then Ok c
      else match dim_len c d with
           | Some n => Ok (add_var c (WVar d [d] None None (Some (counting n))))
           | None => Throw
           end
  | _ => Ok c
  end.

Record wsys := WSys {
  ws_shape : list string; ws_axes : list (string * wtype);
  ws_deps : list string; ws_vars : list string }.

Definition mem (d : string) (l : list string) : bool := existsb (String.eqb d) l.

(** has a west-east and a south-north dimension; 412-413 *)
Definition gridded (shape : list string) : bool :=
  (mem "west_east" shape || mem "west_east_stag" shape)
  && (mem "south_north" shape || mem "south_north_stag" shape).

Definition shape_eqb (a b : list string) : bool :=
  if list_eq_dec string_dec a b then true else false.

(** setCSFor, setComplete for the variable; 454-456 *)
Definition join_sys (v : wvar) (s : wsys) : wsys :=
  if shape_eqb (ws_shape s) (wv_shape v)
  then WSys (ws_shape s) (ws_axes s) (ws_deps s) (ws_vars s ++ [wv_name v]) else s.

(** one variable; 409-458.  Simplified: the systems are told apart by the list of the dimensions, in
    the code by their names joined by commas, and kept in the order in which they are found *)
Definition sys_step (st : wcdm * list wsys) (v : wvar) : outcome (wcdm * list wsys) :=
  let (c, l) := st in
  if gridded (wv_shape v) then
    if existsb (fun s => shape_eqb (ws_shape s) (wv_shape v)) l
    then Ok (c, map (join_sys v) l)
    else
      do axes <- ofold set_axis (wv_shape v) [];
      do c' <- ofold virtual (wv_shape v) c;
      Ok (c', l ++ [WSys (wv_shape v) axes
                      (if mem "Time" (wv_shape v) then ["Times"] else []) [wv_name v]])
  else Ok st.

Record wresult := WRes { wr_proj : list word; wr_cdm : wcdm; wr_systems : list wsys }.

(** wrfListCoordinateSystems; [center]: the place of the centre of the grid in the projection, in
    degrees if the axes are; 105-465.  [None]: no systems, nothing changed *)
Definition list_systems (kfun : option Qc -> option Qc) (degm : Qc)
  (center : list word -> option Qc -> option Qc -> outcome (Qc * Qc)) (c : wcdm)
  : outcome (option wresult) :=
  if negb (is_wrf c) then Ok None
  else
    do mp <- need_num c "MAP_PROJ";
    match projection kfun c mp with
    | None => Ok None
    | Some (words, latlon) =>
        do xy <- center words (num_att c "CEN_LON") (num_att c "CEN_LAT");
        let (x, y) := (xy : Qc * Qc) in
        do c1 <- horizontal degm latlon x "DX" "grid_longitude" "projection_x_axis" "west_east" c;
        do c2 <- horizontal degm latlon x "DX" "grid_longitude" "projection_x_axis" "west_east_stag" c1;
        do c3 <- horizontal degm latlon y "DY" "grid_latitude" "projection_y_axis" "south_north" c2;
        do c4 <- horizontal degm latlon y "DY" "grid_latitude" "projection_y_axis" "south_north_stag" c3;
        let c5 := levels "bottom_top" c4 in
        let c6 := levels "bottom_top_stag" c5 in
        do c7 <- times c6;
        do r <- ofold sys_step (w_vars c7) (c7, []);
        let (c8, l) := (r : wcdm * list wsys) in
        Ok (Some (WRes words c8 l))
    end.

(** enhanceVectorProperties: a variable and its partner; 75-92.  A vector is given by the two names *)
Definition vector_step (has : string -> bool) (vs : list (string * string)) (p : string * string)
  : list (string * string) :=
  let is_vec v := existsb (fun q => String.eqb (fst q) v || String.eqb (snd q) v) vs in
  if has (fst p) && has (snd p) && negb (is_vec (fst p)) && negb (is_vec (snd p))
  then vs ++ [p] else vs.
Definition vectors (has : string -> bool) (vs : list (string * string)) : list (string * string) :=
  fold_left (vector_step has) [("U", "V"); ("UAH", "VAH")] vs.
