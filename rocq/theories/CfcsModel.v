(** Coordinate systems of files that follow the CF conventions: src/coordSys/CF1_xCoordSysBuilder.cc and
    findBestHorizontalCoordinateSystems of src/coordSys/CoordinateSystem.cc, on the axes of AxesModel.v.
    The string value of an attribute is a_text; logging is left out. *)
From Coq Require Import NArith Ascii String List Bool.
From Verif Require Import Base StdMap StringModel SpecModel FilesModel AxesModel ConvertModel CdmModel NmlModel.
Import ListNotations.
Local Open Scope string_scope.
Local Open Scope list_scope.
Local Open Scope nat_scope.

Notation ax_name := AxesModel.a_name.
Notation ax_type := AxesModel.a_type.

(** std::set<std::string> *)
Definition sset := smap unit.
Definition sadd (m : sset) (n : string) : sset := sput n tt m.
Definition sadds (l : list string) (m : sset) : sset := fold_left sadd l m.
Definition one_of (s : string) (l : list string) : bool := existsb (String.eqb s) l.
Definition lower (s : string) : outcome string := do l <- string2lowerCase (s_ s); Ok (st l).

(** std::string::find(part) != npos, for a non-empty part *)
Definition holds (part s : string) : bool := match find_sub (s_ part) (s_ s) 0 with Some _ => true | None => false end.

(** ** the formula terms, lines 480-494 *)

(** regex_search with "(\S+)\s*:\s*(\S+)" at the first character of [s] when [s] begins with the run [r] of
    non-blank characters followed by [rest]: the first group is as long as possible, so first the whole run
    with a colon after blanks, then the beginnings of the run that end before a colon, from the last one.
    The result is the term, the name and what is behind the match. *)
Fixpoint run (s : str) : str * str :=
  match s with
  | [] => ([], [])
  | x :: s' => if is_space x then ([], s) else let (a, b) := run s' in (x :: a, b)
  end.
Definition nonempty_run (s : str) : option (str * str) :=
  match run (skip_space s) with ([], _) => None | p => Some p end.
(** [split_colon pre r rest]: the last colon of [r] with something before and a name behind it *)
Fixpoint split_colon (pre r rest : str) : option (str * str * str) :=
  match r with
  | [] => None
  | x :: r' =>
      match split_colon (pre ++ [x]) r' rest with
      | Some m => Some m
      | None =>
          if Ascii.eqb x ":" then
            match pre with
            | [] => None
            | _ => match nonempty_run (r' ++ rest) with Some (v, rest') => Some (pre, v, rest') | None => None end
            end
          else None
      end
  end.
Definition match_term (s : str) : option (str * str * str) :=
  match run s with
  | ([], _) => None
  | (r, rest) =>
      match skip_space rest with
      | x :: rest' =>
          if Ascii.eqb x ":" then
            match nonempty_run rest' with
            | Some (v, rest'') => Some (r, v, rest'')
            | None => split_colon [] r rest
            end
          else split_colon [] r rest
      | [] => split_colon [] r rest
      end
  end.
Fixpoint search_term (s : str) : option (str * str * str) :=
  match match_term s with
  | Some m => Some m
  | None => match s with [] => None | _ :: s' => search_term s' end
  end.
(** the loop, [fuel] bounds the rounds *)
Fixpoint terms_loop (fuel : nat) (s : str) : outcome (list (string * string)) :=
  match search_term s with
  | None => Ok []
  | Some (t, v, rest) =>
      match fuel with
      | O => Hang
      | S f => do l <- terms_loop f rest; Ok ((st t, st v) :: l)
      end
  end.
Definition formula_terms (s : string) : outcome (list (string * string)) := terms_loop (length (s_ s)) (s_ s).

(** ** the types of axes *)

(** lines 139-166 *)
Definition of_standard_name (s : string) : option axis_type :=
  if String.eqb s "longitude" then Some Lon
  else if String.eqb s "latitude" then Some Lat
  else if String.eqb s "forecast_reference_time" then Some ReferenceTime
  else if String.eqb s "realization" then Some Realization
  else if one_of s ["projection_x_coordinate"; "grid_longitude"] then Some GeoX
  else if one_of s ["projection_y_coordinate"; "grid_latitude"] then Some GeoY
  else if one_of s ["atmosphere_sigma_coordinate"; "atmosphere_hybrid_sigma_pressure_coordinate"; "atmosphere_hybrid_height_coordinate";
                    "atmosphere_sleve_coordinate"; "ocean_sigma_coordinate"; "ocean_s_coordinate"; "ocean_sigma_z_coordinate";
                    "ocean_double_sigma_coordinate"; "ocean_s_coordinate_g1"; "ocean_s_coordinate_g2"] then Some GeoZ
  else None.

Section Cf.
Variable c : cdm.
(** Units::isTime and Units::areConvertible *)
Variable is_time : string -> bool.
Variable convertible : string -> string -> bool.
(** Projection::create *)
Variable P : Type.
Variable make_proj : list cattr -> outcome P.

(** getAttribute and getStringValue *)
Definition att (v n : string) : option string := option_map CdmModel.a_text (get_attr c v n).

(** lines 168-200 *)
Definition of_unit (u lc : string) : option axis_type :=
  if one_of lc ["degrees_east"; "degrees_e"; "degreese"; "degree_east"; "degree_e"; "degreee"] then Some Lon
  else if one_of lc ["degrees_north"; "degrees_n"; "degreesn"; "degree_north"; "degree_n"; "degreen"] then Some Lat
  else if is_time u then Some Time
  else if convertible "mbar" u then Some Pressure
  else if one_of lc ["level"; "layer"; "sigma_level"] then Some GeoZ
  else None.
(** lines 203-216 *)
Definition of_positive (p : string) (u : option string) : axis_type :=
  match u with
  | Some u => if convertible "m" u then (if String.eqb p "up" then Height else Depth) else GeoZ
  | None => GeoZ
  end.
(** lines 219-241 *)
Definition of_axis (lc : string) (u : option string) : axis_type :=
  if String.eqb lc "x" then GeoX
  else if String.eqb lc "y" then GeoY
  else if String.eqb lc "z" then
    match u with
    | Some u => if convertible u "mbar" then Pressure else if convertible u "m" then Height else GeoZ
    | None => GeoZ
    end
  else if String.eqb lc "t" then Time
  else Undefined.
(** getAxisTypeCF1_x, 135-244 *)
Definition axis_type_of (v : string) : outcome axis_type :=
  do t1 <- match att v "standard_name" with None => Ok None | Some s => do l <- lower s; Ok (of_standard_name l) end;
  match t1 with
  | Some t => Ok t
  | None =>
      do t2 <- match att v "units" with None => Ok None | Some u => do l <- lower u; Ok (of_unit u l) end;
      match t2 with
      | Some t => Ok t
      | None =>
          match att v "positive" with
          | Some p => Ok (of_positive p (att v "units"))
          | None => match att v "axis" with
                    | None => Ok Undefined
                    | Some a => do l <- lower a; Ok (of_axis l (att v "units"))
                    end
          end
      end
  end.

(** ** the axes *)

(** getCoordinateNamesCF1_x, 105-114, and getCoordinateAxesNamesCF1_x, 123-132 *)
Definition var_coords (v : cvar) : outcome sset :=
  match att (v_name v) "coordinates" with
  | None => Ok []
  | Some t => do l <- toks t " "; Ok (sadds l [])
  end.
Definition var_axes (v : cvar) : outcome sset :=
  do co <- var_coords v; Ok (sadds (skeys co) (sadds (v_shape v) [])).
(** findVariables("coordinates", ".*"): a dot matches no line end *)
Definition one_line (s : string) : bool := forallb (fun x => negb (is_newline x)) (s_ s).
(** step 1, 284-303: the names of the axes; a name without variable gets a made-up variable *)
Definition axis_names : outcome sset :=
  ofold (fun m n => match att n "coordinates" with
                    | None => Throw
                    | Some t => do l <- toks t " "; Ok (sadds l m)
                    end) (find_variables c [("coordinates", one_line)] []) (sadds (map d_name (dims c)) []).
Definition axis_shape (n : string) : list string :=
  match find_var n (vars c) with Some v => v_shape v | None => [n] end.
(** step 2, 306-318 *)
Definition explicit (n : string) : bool := has_dim c n.
Definition axes : outcome (smap axis) :=
  do ns <- axis_names;
  ofold (fun m n => do t <- axis_type_of n; Ok (sput n (mkAxis n t 0) m)) (skeys ns) [].

(** ** the coordinate systems *)

(** lines 335-349: the axes of a variable in the order of their names *)
Definition system_step (ax : smap axis) (co : sset) (cs : csys) (n : string) : outcome csys :=
  match sfind n ax with
  | None => Ok cs
  | Some a => if smem n co then Ok (set_aux cs a)
              else if snd (set_axis cs a) then Throw else Ok (fst (set_axis cs a))
  end.
Definition system_of (ax : smap axis) (v : cvar) : outcome csys :=
  do co <- var_coords v; do ns <- var_axes v;
  ofold (system_step ax co) (skeys ns) (mkCs [] []).
(** id, src/coordSys/CoordinateSystem.cc:159-164; joined with a comma *)
Definition cs_names (cs : csys) : sset := sadds (map ax_name (get_axes cs)) [].
Definition cs_id (cs : csys) : string := ("CF-1.X:" ++ st (join (map s_ (skeys (cs_names cs))) (s_ ",")))%string.
(** step 3, 323-356; map::insert keeps the first *)
Definition systems_step (ax : smap axis) (m : smap csys) (v : cvar) : outcome (smap csys) :=
  if smem (v_name v) ax then Ok m
  else do ns <- var_axes v;
       match ns with
       | [] => Ok m
       | _ => do cs <- system_of ax v; Ok (if smem (cs_id cs) m then m else sput (cs_id cs) cs m)
       end.
Definition systems : outcome (smap csys) := do ax <- axes; ofold (systems_step ax) (vars c) [].

(** step 4: isComplete and isCSFor, 362-382: the names of the variables *)
Definition covered (cs : csys) (ns : sset) : bool := forallb (fun n => smem n ns) (skeys (cs_names cs)).
Definition covers (cs : csys) (ns : sset) : bool := forallb (fun n => smem n (cs_names cs)) (skeys ns).
Definition flagged (f : sset -> bool) : outcome (list string) :=
  omap (@concat string) (omapM (fun v => do ns <- var_axes v; Ok (if f ns then [v_name v] else [])) (vars c)).
(** isSimpleSpatialGridded, 384-403 *)
Definition simple_axis (a : option axis) : bool :=
  match a with Some a => explicit (ax_name a) && (Nat.eqb (length (axis_shape (ax_name a))) 1) | None => false end.
Definition simple (cs : csys) : bool := simple_axis (geo_x cs) && simple_axis (geo_y cs).

(** horizontal transformations, 405-437: the projection and the variable it depends on *)
Definition lonlat_axes (cs : csys) : bool :=
  match geo_x cs, find_axis cs Lon, geo_y cs, find_axis cs Lat with
  | Some x, Some lon, Some y, Some lat => String.eqb (ax_name x) (ax_name lon) && String.eqb (ax_name y) (ax_name lat)
  | _, _, _, _ => false
  end.
Fixpoint proj_loop (cs : csys) (complete cs_for : list string) (l : list cvar) : outcome (option P * list string) :=
  match l with
  | [] => Ok (None, [])
  | v :: l' =>
      if one_of (v_name v) cs_for && one_of (v_name v) complete then
        match att (v_name v) "grid_mapping" with
        | Some g => if has_var c g then do p <- make_proj (attrs_of c g); Ok (Some p, [g])
                    else proj_loop cs complete cs_for l'
        | None => if simple cs && lonlat_axes cs
                  then do p <- make_proj [mkAttr "grid_mapping_name" DString [] "latitude_longitude"]; Ok (Some p, [])
                  else proj_loop cs complete cs_for l'
        end
      else proj_loop cs complete cs_for l'
  end.

(** vertical transformations, 439-545 *)
Inductive vert :=
| VHeight (z : string) (altitude : bool) | VDepth (z : string) | VPressure (z : string)
| VHybrid1 (ap b ps p0 : string) | VHybrid2 (a b ps p0 : string)
| VLnPressure (lev p0 : string) | VSigma (sigma ptop ps : string)
| VOcean1 (s C depth depth_c eta : string) | VOcean2 (s C depth depth_c eta : string)
| VHybridHeight (a b orog : string).
(** is_altitude_name, 60-73 *)
Definition is_altitude_name (n : string) : bool :=
  holds "altitude" n || one_of n ["height_above_msl"; "height_above_mean_sea_level"; "height_above_geopotential_datum"; "height_above_reference_ellipsoid"].
Definition is_altitude (z : string) : bool :=
  is_altitude_name z ||
  match (match att z "computed_standard_name" with Some s => Some s | None => att z "standard_name" end) with
  | Some s => is_altitude_name s
  | None => false
  end.
(** isCSForTerm, 256-282: the dimensions with more than one position are axes of the system *)
Definition for_term (cs : csys) (term : string) : outcome bool :=
  if isempty term then Ok true
  else match find_var term (vars c) with
       | None => Throw
       | Some v =>
           do ns <- var_axes v;
           Ok (forallb (fun n => match find_dim n (dims c) with
                                 | Some d => (d_len d =? 1)%N || smem n (cs_names cs)
                                 | None => true
                                 end) (skeys ns))
       end.
Fixpoint for_terms (cs : csys) (l : list string) : outcome bool :=
  match l with
  | [] => Ok true
  | t :: l' => do b <- for_term cs t; if b then for_terms cs l' else Ok false
  end.
(** the terms whose variable exists, 488-493; the last of a name counts *)
Definition known_terms (l : list (string * string)) : list (string * string) := filter (fun p => has_var c (snd p)) l.
Definition term (m : smap string) (t : string) : string := match sfind t m with Some v => v | None => "" end.
Definition by_formula (cs : csys) (name : string) (m : smap string) : outcome (option vert) :=
  let t := term m in
  let when l v := do b <- for_terms cs l; Ok (if b then Some v else None) in
  if String.eqb name "atmosphere_hybrid_sigma_pressure_coordinate" then
    if isempty (t "ap") then when [t "p"; t "ps"; t "p0"; t "a"] (VHybrid2 (t "a") (t "b") (t "ps") (t "p0"))
    else when [t "p"; t "ps"; t "p0"; t "ap"] (VHybrid1 (t "ap") (t "b") (t "ps") (t "p0"))
  else if String.eqb name "atmosphere_ln_pressure_coordinate" then when [t "lev"; t "p0"] (VLnPressure (t "lev") (t "p0"))
  else if String.eqb name "atmosphere_sigma_coordinate" then when [t "sigma"; t "ptop"; t "ps"] (VSigma (t "sigma") (t "ptop") (t "ps"))
  else if String.eqb name "ocean_s_coordinate_g1" then
    when [t "s"; t "C"; t "depth"; t "depth_c"; t "eta"] (VOcean1 (t "s") (t "C") (t "depth") (t "depth_c") (t "eta"))
  else if String.eqb name "ocean_s_coordinate_g2" then
    when [t "s"; t "C"; t "depth"; t "depth_c"; t "eta"] (VOcean2 (t "s") (t "C") (t "depth") (t "depth_c") (t "eta"))
  else if String.eqb name "atmosphere_hybrid_height_coordinate" then when [t "a"; t "b"; t "orog"] (VHybridHeight (t "a") (t "b") (t "orog"))
  else Ok None.
(** the transformation and the variables it depends on *)
Definition vertical (cs : csys) : outcome (option vert * list string) :=
  match geo_z cs with
  | None => Ok (None, [])
  | Some z =>
      let n := ax_name z in
      if has_var c n then
        match ax_type z with
        | Height => Ok (Some (VHeight n (is_altitude n)), [])
        | Depth => Ok (Some (VDepth n), [])
        | Pressure => Ok (Some (VPressure n), [])
        | _ =>
            do l <- match att n "formula_terms" with None => Ok [] | Some f => formula_terms f end;
            let k := known_terms l in
            do v <- match att n "standard_name" with
                    | None => Ok None
                    | Some s => by_formula cs s (fold_left (fun m p => sput (fst p) (snd p) m) k [])
                    end;
            Ok (v, map snd k)
        end
      else Ok (None, [])
  end.

(** the bounds of axes, 547-563 *)
Definition bounds (cs : csys) : list string :=
  flat_map (fun a => if has_var c (ax_name a) then
                       match att (ax_name a) "bounds" with Some b => if has_var c b then [b] else [] | None => [] end
                     else []) (get_axes cs).

(** a coordinate system with what is known of it *)
Record sys := mkSys { y_cs : csys; y_complete : list string; y_for : list string; y_simple : bool;
                      y_proj : option P; y_vert : option vert; y_deps : list string }.
Definition finish (cs : csys) : outcome sys :=
  do complete <- flagged (covered cs); do cs_for <- flagged (covers cs);
  do p <- proj_loop cs complete cs_for (vars c);
  do v <- vertical cs;
  Ok (mkSys cs complete cs_for (simple cs) (fst p) (fst v) (snd p ++ snd v ++ bounds cs)).
(** listCoordinateSystems, 282-571; simplified: the loops over the systems are made one; each does
    nothing to the other systems, but an exception can come from another place *)
Definition list_systems : outcome (list sys) :=
  do m <- systems; omapM (fun p => finish (snd p)) m.
End Cf.

Arguments mkSys {P}. Arguments y_cs {P}. Arguments y_complete {P}. Arguments y_for {P}. Arguments y_simple {P}.
Arguments y_proj {P}. Arguments y_vert {P}. Arguments y_deps {P}.

(** findCompleteCoordinateSystemFor, src/coordSys/CoordinateSystem.cc:531-538, include/fimex/coordSys/CoordinateSystem.h:279-287 *)
Definition find_complete {P} (l : list (sys P)) (n : string) : option (sys P) :=
  find (fun y => one_of n (y_complete y) && one_of n (y_for y)) l.
