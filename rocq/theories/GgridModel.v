(** Model of the description of the grid in GRIB messages: the keys set by setProjection
    (src/io/grib/GribApiCDMWriter_Impl1.cc:64-349, src/io/grib/GribApiCDMWriter_Impl2.cc:42-53, 86-346)
    and the grid the reader finds (src/io/grib/GribFileIndex.cc:140-441, 675-687, src/io/grib/GribUtils.cc:51-73)
    with the axes of the file (src/io/grib/GribCDMIndexer.cc:853-884).
    Simplifications: doubles are rationals; the GRIB library returns the values that were set (in
    files angles are rounded to 0.001 or 0.000001 degrees) and fails for keys without value. *)
From Coq Require Import ZArith NArith String List Bool QArith Qcanon Qround.
From Verif Require Import Base GribModel GwrModel.
Import ListNotations.
Local Open Scope string_scope.
Local Open Scope list_scope.
Local Open Scope nat_scope.
Local Open Scope act_scope.

Definition zq (z : Z) : Qc := Q2Qc (inject_Z z).

(** ** Loops over whole turns *)

(** while (x < lo) x += step; [n] bounds the rounds *)
Fixpoint up_from (n : nat) (step lo x : Qc) : Qc :=
  match n with
  | O => x
  | S n' => if qltb x lo then up_from n' step lo (x + step)%Qc else x
  end.
(** while (x > hi) x -= step *)
Fixpoint down_from (n : nat) (step hi x : Qc) : Qc :=
  match n with
  | O => x
  | S n' => if qltb hi x then down_from n' step hi (x - step)%Qc else x
  end.
(** a number of rounds after which the loop has ended *)
Definition rounds (step d : Qc) : nat := Z.to_nat (Qceiling (this (d / step)%Qc)).
Definition up_to (step lo x : Qc) : Qc := up_from (rounds step (lo - x)%Qc) step lo x.
Definition down_to (step hi x : Qc) : Qc := down_from (rounds step (x - hi)%Qc) step hi x.

(** GribApiCDMWriter_Impl1.cc:167-172, 230-235, 252-255 *)
Definition raise_lon (x : Qc) : Qc := up_to (zq 360) 0 x.
(** clamp_lon, GribApiCDMWriter_Impl2.cc:43-52 *)
Definition clamp_lon (x : Qc) : Qc := down_to (zq 360) (zq 360) (up_to (zq 360) 0 x).
(** normalizeLongitude180, include/fimex/MathUtils.h:140-150 *)
Definition norm180 (x : Qc) : Qc := down_to (zq 360) (zq 180) (up_to (zq 360) (zq (-180)) x).

(** ** Keys *)

(** the names under which the GRIB library knows the number of points *)
Definition canon (k : string) : string :=
  if existsb (String.eqb k) ["numberOfPointsAlongAParallel"; "Nx"; "numberOfPointsAlongXAxis"] then "Ni"
  else if existsb (String.eqb k) ["numberOfPointsAlongAMeridian"; "Ny"; "numberOfPointsAlongYAxis"] then "Nj"
  else k.
Definition setg (k : string) (v : kval) : act unit := setk (canon k) v.

(** grib_get_long, grib_get_double, grib_get_string; None: error.  The conversion of a double to
    long is not modelled. *)
Definition get_long (h : handle) (k : string) : option Z :=
  match h (canon k) with Some (KL z) => Some z | _ => None end.
Definition get_double (h : handle) (k : string) : option Qc :=
  match h (canon k) with Some (KL z) => Some (zq z) | Some (KD q) => Some q | _ => None end.
Definition get_string (h : handle) (k : string) : option string :=
  match h (canon k) with Some (KS s) => Some s | _ => None end.

(** ** Writing *)

(** The grid of a variable: name and parameters (as doubles) of the projection, if there is one;
    the axes, in m or degrees, None if they cannot be converted; longitude and latitude as stored
    (first value) and in degrees, if there are such coordinates. *)
Record lonlat := mkLL { l_rawlon : list Qc; l_rawlat : list Qc; l_lon : list Qc; l_lat : list Qc }.
Record geo := mkGeo { g_proj : option (string * list (string * list Qc));
                      g_x : option (list Qc); g_y : option (list Qc);
                      g_ll : option lonlat }.

Section Write.
  (** edition 2 *)
  Variable e2 : bool.
  (** rad_to_deg(asin(2 * scale - 1)).  The test in line 100 (Impl2: 122) is always true. *)
  Variable lat_of_scale : Qc -> Qc.

  Definition attr (ps : list (string * list Qc)) (n : string) : option (list Qc) :=
    option_map snd (find (fun a => String.eqb (fst a) n) ps).
  (** asDouble()[0] *)
  Definition first (l : list Qc) : act Qc := match l with q :: _ => ret q | [] => fail Undef end.
  Definition attr_or (ps : list (string * list Qc)) (n : string) (d : Qc) : act Qc :=
    match attr ps n with Some l => first l | None => ret d end.
  Definition axis (a : option (list Qc)) : act (list Qc) :=
    match a with Some l => ret l | None => fail Cdm end.
  (** values 0, 1 and the last one of an axis with at least two values *)
  Definition step (l : list Qc) : Qc := (nth 1 l 0 - nth 0 l 0)%Qc.
  Definition final (l : list Qc) : Qc := nth (length l - 1) l 0%Qc.
  Definition small (xs ys : list Qc) : bool := (length xs <? 2) || (length ys <? 2).
  Definition lon_in (x : Qc) : Qc := if e2 then clamp_lon x else raise_lon x.
  Definition scans (dx dy : Qc) : act unit :=
    run _ <- setg "jScansPositively" (KL (if qltb dy 0 then 0 else 1)%Z);
    setg "iScansNegatively" (KL (if qltb dx 0 then 1 else 0)%Z).

  (** Impl1: 73-141, Impl2: 95-160.  The name tested in Impl2:100 is "polar_stereograhpic". *)
  Definition stereographic (name : string) (ps : list (string * list Qc)) (g : geo) : act unit :=
    run (ts, o) <-
      (if String.eqb name (if e2 then "polar_stereograhpic" else "polar_stereographic") then
         run o <- attr_or ps "straight_vertical_longitude_from_pole" 0;
         ret ((if e2 then zq 90 else zq 60), o)
       else
         run _ <- match attr ps "latitude_of_projection_origin" with
                  | Some l => run lat <- first l;
                              if qltb (qabs lat) (Q2Qc (899995 # 10000)) then fail Cdm else ret tt
                  | None => ret tt
                  end;
         run ts <- match attr ps "scale_factor_at_projection_origin" with
                   | Some l => run s <- first l; ret (lat_of_scale s)
                   | None => ret (if e2 then zq 90 else zq 60)
                   end;
         run o <- attr_or ps "longitude_of_projection_origin" 0;
         ret (ts, o));
    let o' := if e2 then clamp_lon o else o in                                (* Impl2:136 *)
    run _ <- setg "typeOfGrid" (KS "polar_stereographic");
    run xs <- axis (g_x g);
    run ys <- axis (g_y g);
    if small xs ys then fail Cdm
    else
      run _ <- setg "numberOfPointsAlongXAxis" (KL (Z.of_nat (length xs)));
      run _ <- setg "numberOfPointsAlongYAxis" (KL (Z.of_nat (length ys)));
      run _ <- (if e2 then setg "DxInMetres" (KD (step xs))
                else run n <- lift (to_long (step xs)); setg "DxInMetres" (KL n)); (* Impl1:124 *)
      run _ <- (if e2 then setg "DyInMetres" (KD (step ys))
                else run n <- lift (to_long (step ys)); setg "DyInMetres" (KL n));
      match g_ll g with
      | None => fail Cdm
      | Some ll =>
          run lon <- first (if e2 then l_lon ll else l_rawlon ll);            (* Impl1:130: getData *)
          run lat <- first (if e2 then l_lat ll else l_rawlat ll);
          run _ <- setg "latitudeOfFirstGridPointInDegrees" (KD lat);
          run _ <- setg "longitudeOfFirstGridPointInDegrees" (KD (if e2 then clamp_lon lon else lon));
          run _ <- setg "orientationOfTheGridInDegrees" (KD o');
          if e2 then setg "latitudeWhereDxAndDyAreSpecifiedInDegrees" (KD ts)
          else if qltb (Q2Qc (1 # 100000)) (qabs (ts - zq 60)) then fail Cdm else ret tt (* Impl1:136-141 *)
      end.

  (** the keys of regular and rotated grids, Impl1: 156-198, 214-219, 226-235, 262-287,
      Impl2: 172-203, 214-228, 250-276 *)
  Definition lonlat_keys (grid : string) (xs ys : list Qc) (pole : act unit) : act unit :=
    let ni := if e2 || String.eqb grid "rotated_ll" then "numberOfPointsAlongAParallel" else "Ni" in
    let nj := if e2 || String.eqb grid "rotated_ll" then "numberOfPointsAlongAMeridian" else "Nj" in
    run _ <- setg "typeOfGrid" (KS grid);
    run _ <- setg ni (KL (Z.of_nat (length xs)));
    run _ <- setg nj (KL (Z.of_nat (length ys)));
    run _ <- setg "iDirectionIncrementInDegrees" (KD (qabs (step xs)));
    run _ <- setg "jDirectionIncrementInDegrees" (KD (qabs (step ys)));
    run _ <- pole;
    run _ <- setg "latitudeOfFirstGridPointInDegrees" (KD (nth 0 ys 0%Qc));
    run _ <- setg "longitudeOfFirstGridPointInDegrees" (KD (lon_in (nth 0 xs 0%Qc)));
    run _ <- setg "latitudeOfLastGridPointInDegrees" (KD (final ys));
    run _ <- setg "longitudeOfLastGridPointInDegrees" (KD (lon_in (final xs)));
    scans (step xs) (step ys).

  (** Impl1: 142-199 (the axes), Impl2: 161-204 (longitude and latitude) *)
  Definition regular (g : geo) : act unit :=
    run (xs, ys) <- (if e2 then match g_ll g with
                                | Some ll => ret (l_lon ll, l_lat ll)
                                | None => fail Cdm
                                end
                     else run xs <- axis (g_x g); run ys <- axis (g_y g); ret (xs, ys));
    if small xs ys then fail Cdm
    else lonlat_keys "regular_ll" xs ys (ret tt).

  (** Impl1: 200-288, Impl2: 206-277 *)
  Definition rotated (ps : list (string * list Qc)) (g : geo) : act unit :=
    run xs <- axis (g_x g);
    run ys <- axis (g_y g);
    if small xs ys then fail Cdm
    else
      match attr ps "grid_north_pole_longitude" with
      | None => fail Cdm
      | Some l =>
          run plon <- first l;
          match attr ps "grid_north_pole_latitude" with
          | None => fail Cdm
          | Some l' =>
              run plat <- first l';
              let slat := up_to (zq 180) (zq (-90)) (- plat)%Qc in            (* Impl1:245-248 *)
              let slon := lon_in (plon - zq 180)%Qc in                        (* Impl1:250-253 *)
              run zlat <- lift (to_long slat);                                (* Impl1:265-266 *)
              run zlon <- lift (to_long slon);
              lonlat_keys "rotated_ll" xs ys
                (run _ <- setg "latitudeOfSouthernPoleInDegrees" (KL zlat);
                 setg "longitudeOfSouthernPoleInDegrees" (KL zlon))
          end
      end.

  (** Impl1: 289-338, Impl2: 279-336 *)
  Definition lambert (ps : list (string * list Qc)) (g : geo) : act unit :=
    match attr ps "standard_parallel" with
    | None => fail Cdm
    | Some l =>
        let lat1 := match l with a :: _ => a | [] => zq 60 end in
        let lat2 := match l with _ :: b :: _ => b | [a] => a | [] => zq 60 end in
        run lonv <- match attr ps "longitude_of_central_meridian" with
                    | Some l' => run q <- first l'; ret (if e2 then clamp_lon q else q)
                    | None => ret 0%Qc
                    end;
        run xs <- axis (g_x g);
        run ys <- axis (g_y g);
        if small xs ys then fail Cdm
        else
          run _ <- setg "typeOfGrid" (KS "lambert");
          run _ <- setg "Nx" (KL (Z.of_nat (length xs)));
          run _ <- setg "Ny" (KL (Z.of_nat (length ys)));
          run _ <- setg "DxInMetres" (KD (qabs (step xs)));
          run _ <- setg "DyInMetres" (KD (qabs (step ys)));
          run _ <- setg "Latin1InDegrees" (KD lat1);
          run _ <- setg "Latin2InDegrees" (KD lat2);
          run _ <- setg "LoVInDegrees" (KD lonv);
          match g_ll g with
          | None => fail Cdm
          | Some ll =>
              run lon <- first (l_lon ll);
              run lat <- first (l_lat ll);
              run _ <- setg "latitudeOfFirstGridPointInDegrees" (KD lat);
              run _ <- setg "longitudeOfFirstGridPointInDegrees" (KD (if e2 then clamp_lon lon else lon));
              scans (step xs) (step ys)
          end
    end.

  Definition set_projection (g : geo) : act unit :=
    match g_proj g with
    | None => fail Cdm
    | Some (name, ps) =>
        if String.eqb name "stereographic" || String.eqb name "polar_stereographic"
        then stereographic name ps g
        else if String.eqb name "latitude_longitude" then regular g
        else if String.eqb name "rotated_latitude_longitude" then rotated ps g
        else if String.eqb name "lambert_conformal_conic" then lambert ps g
        else fail Cdm
    end.
End Write.

(** ** Reading *)

(** GridDefinition without the first longitude and latitude and their resolution, which are only
    compared (C40); the projection is its PROJ.4 text *)
Record gdef := mkG { d_proj : string; d_degree : bool; d_nx : Z; d_ny : Z;
                     d_dx : Qc; d_dy : Qc; d_x0 : Qc; d_y0 : Qc;
                     d_right : bool; d_bottom : bool; d_vertical : bool; d_alternating : bool }.

Definition obnd {A B} (o : option A) (f : A -> option B) : option B :=
  match o with Some a => f a | None => None end.
Notation "'get' x <- m ; f" := (obnd m (fun x => f))
  (at level 200, x pattern, m at level 100, f at level 200).

Section Read.
  Variable e2 : bool.
  (** type2string and operator<< of a double *)
  Variable show show6 : Qc -> string.
  (** earthFigure_, the figure given in the configuration *)
  Variable figure : string.
  (** reproject_point_from_lonlat; None: exception *)
  Variable project : string -> Qc -> Qc -> option (Qc * Qc).

  (** value * 10^factor, GribFileIndex.cc:160-167: the loops end with factor 0, so that the
      multiplication of the factor by factorToM in lines 169 and 184 has no effect *)
  Definition pow10 (f : Z) (v : Qc) : Qc :=
    match f with
    | Z0 => v
    | Zpos p => (v * zq (10 ^ Zpos p))%Qc
    | Zneg p => (v / zq (10 ^ Zpos p))%Qc
    end.
  (** getEarthsOblateFigure, lines 154-187 *)
  Definition oblate (h : handle) (factorToM : Z) : option string :=
    get mf <- get_long h "scaleFactorOfMajorAxisOfOblateSpheroidEarth";
    get mv <- get_double h "scaledValueOfMajorAxisOfOblateSpheroidEarth";
    get nf <- get_long h "scaleFactorOfMinorAxisOfOblateSpheroidEarth";
    get nv <- get_double h "scaledValueOfMinorAxisOfOblateSpheroidEarth";
    Some ("+a=" ++ show (pow10 mf mv) ++ " +b=" ++ show (pow10 nf nv))%string.
  (** getEarthsFigure, lines 196-243 *)
  Definition earth (h : handle) : option string :=
    if negb (String.eqb figure "") then Some figure
    else if negb e2 then
      get o <- get_long h "earthIsOblate";
      Some (if (o =? 0)%Z then "+a=6367470 +e=0" else "+a=6378160 +b=6356775")
    else
      get s <- get_long h "shapeOfTheEarth";
      match s with
      | 0%Z => Some "+a=6367470 +e=0"
      | 1%Z => get r <- get_double h "radiusInMetres"; Some ("+a=" ++ show r ++ " +e=0")%string
      | 2%Z => Some "+a=6378160 +b=6356775"
      | 3%Z => oblate h 1000
      | 4%Z => Some "+a=6378137 +b=6356752.314"
      | 5%Z => Some "+a=6378137 +b=6356752.314245"
      | 6%Z => Some "+a=6371229"
      | 7%Z => oblate h 1
      | 8%Z => Some "+a=6371200 +e=0"
      | _ => None
      end.

  (** gribGetGridOrientation, GribUtils.cc:51-73 *)
  Definition orientation (h : handle) : option (bool * bool * bool * bool) :=
    get i <- get_long h "iScansNegatively";
    get j <- get_long h "jScansPositively";
    get v <- get_long h "jPointsAreConsecutive";
    get a <- get_long h "alternativeRowScanning";
    let on z := negb (z =? 0)%Z in
    Some (on i, on j, on v, on a).

  Definition signed (neg : bool) (x : Qc) : Qc := if neg then (- x)%Qc else x.
  Definition thousandth : Qc := Q2Qc (1 # 1000).

  (** getGridDefRegularLL, lines 250-289.  A division by zero (a single point) is not modelled: the
      quotient is then 0. *)
  Definition read_regular (h : handle) : option gdef :=
    get nx <- get_long h "Ni";
    get ny <- get_long h "Nj";
    get x0 <- get_double h "longitudeOfFirstGridPointInDegrees";
    get y0 <- get_double h "latitudeOfFirstGridPointInDegrees";
    get (r, b, v, a) <- orientation h;
    get given <- get_long h "ijDirectionIncrementGiven";
    get x1 <- get_double h "longitudeOfLastGridPointInDegrees";
    get y1 <- get_double h "latitudeOfLastGridPointInDegrees";
    let dx := ((x1 - x0) / zq (nx - 1))%Qc in
    let dy := ((y1 - y0) / zq (ny - 1))%Qc in
    get (dx', dy') <-
      (if (given =? 0)%Z then Some (dx, dy)
       else
         get ix <- get_double h "iDirectionIncrementInDegrees";
         get iy <- get_double h "jDirectionIncrementInDegrees";
         let ix' := signed r ix in
         let iy' := signed (negb b) iy in
         Some (if qltb thousandth (qabs (ix' - dx)) then ix' else dx,
               if qltb thousandth (qabs (iy' - dy)) then iy' else dy));
    get e <- earth h;
    Some (mkG ("+proj=longlat " ++ e ++ " +no_defs") true nx ny dx' dy' x0 y0 r b v a).

  (** getGridDefRotatedLL, lines 291-329 *)
  Definition read_rotated (h : handle) : option gdef :=
    get nx <- get_long h "Ni";
    get ny <- get_long h "Nj";
    get x0 <- get_double h "longitudeOfFirstGridPointInDegrees";
    get y0 <- get_double h "latitudeOfFirstGridPointInDegrees";
    get lon <- get_double h "longitudeOfSouthernPoleInDegrees";
    get lat <- get_double h "latitudeOfSouthernPoleInDegrees";
    get (r, b, v, a) <- orientation h;
    get given <- get_long h "ijDirectionIncrementGiven";
    get (dx, dy) <-
      (if (given =? 0)%Z then
         get x1 <- get_double h "longitudeOfLastGridPointInDegrees";
         get y1 <- get_double h "latitudeOfLastGridPointInDegrees";
         Some (((x1 - x0) / zq nx)%Qc, ((y1 - y0) / zq ny)%Qc)                (* 308-309 *)
       else
         get ix <- get_double h "iDirectionIncrementInDegrees";
         get iy <- get_double h "jDirectionIncrementInDegrees";
         Some (signed r ix, signed (negb b) iy));
    get e <- earth h;
    Some (mkG ("+proj=ob_tran +o_proj=longlat +lon_0=" ++ show6 (norm180 lon) ++ " +o_lat_p="
               ++ show6 (- lat)%Qc ++ " " ++ e ++ " +no_defs")
              true nx ny dx dy x0 y0 r b v a).

  (** getGridDefMetric, lines 341-357 *)
  Definition or_else {A} (a b : option A) : option A := match a with Some _ => a | None => b end.
  Definition metric (h : handle) : option (Z * Z * Qc * Qc * Qc * Qc) :=
    get nx <- get_long h "Ni";
    get ny <- get_long h "Nj";
    get lon <- get_double h "longitudeOfFirstGridPointInDegrees";
    get lat <- get_double h "latitudeOfFirstGridPointInDegrees";
    get dx <- or_else (get_double h "DxInMetres") (get_double h "DiInMetres");
    get dy <- or_else (get_double h "DyInMetres") (get_double h "DjInMetres");
    Some (nx, ny, dx, dy, lon, lat).
  Definition projected (proj : string) (h : handle) (m : Z * Z * Qc * Qc * Qc * Qc) : option gdef :=
    let '(nx, ny, dx, dy, lon, lat) := m in
    get (x0, y0) <- project proj lon lat;
    get (r, b, v, a) <- orientation h;
    Some (mkG proj false nx ny dx dy x0 y0 r b v a).

  (** getGridDefMercator, lines 359-378 *)
  Definition read_mercator (h : handle) : option gdef :=
    get m <- metric h;
    get ts <- get_double h "LaDInDegrees";
    get o <- get_double h "orientationOfTheGridInDegrees";
    get e <- earth h;
    projected ("+proj=merc +lon_0=" ++ show6 (norm180 o) ++ " +lat_ts=" ++ show6 ts ++ " " ++ e ++ " +no_defs")
              h m.

  (** getGridDefLambert, lines 380-407 *)
  Definition read_lambert (h : handle) : option gdef :=
    get m <- metric h;
    get lonv <- get_double h "LoVInDegrees";
    get lat1 <- get_double h "Latin1InDegrees";
    get lat2 <- get_double h "Latin2InDegrees";
    get e <- earth h;
    projected ("+proj=lcc +lat_0=" ++ show6 lat1 ++ " +lon_0=" ++ show6 (norm180 lonv) ++ " +lat_1="
               ++ show6 lat1 ++ "  +lat_2=" ++ show6 lat2 ++ " " ++ e ++ " +no_defs")
              h m.

  (** getGridDefPolarStereographic, lines 409-441 *)
  Definition read_stereographic (h : handle) : option gdef :=
    get m <- metric h;
    get o <- get_double h "orientationOfTheGridInDegrees";
    get ts <- (if e2 then get_double h "latitudeWhereDxAndDyAreSpecifiedInDegrees" else Some (zq 60));
    get c <- get_long h (if e2 then "projectionCentreFlag" else "projectionCenterFlag");
    get e <- earth h;
    projected ("+proj=stere +lat_0=" ++ show6 (if (c =? 0)%Z then zq 90 else zq (-90)) ++ " +lon_0="
               ++ show6 (norm180 o) ++ " +lat_ts=" ++ show6 ts ++ " " ++ e ++ " +no_defs")
              h m.

  (** lines 675-687 *)
  Definition read_grid (h : handle) : option gdef :=
    get t <- get_string h "typeOfGrid";
    if String.eqb t "regular_ll" then read_regular h
    else if String.eqb t "lambert" || String.eqb t "lambert_lam" then read_lambert h
    else if String.eqb t "mercator" then read_mercator h
    else if String.eqb t "polar_stereographic" then read_stereographic h
    else if String.eqb t "rotated_ll" then read_rotated h
    else None.
End Read.

(** the axes of the file, GribCDMIndexer.cc:850-858, 879-882 *)
Definition points (n : Z) (x0 dx : Qc) : list Qc :=
  map (fun i => (x0 + zq (Z.of_nat i) * dx)%Qc) (seq 0 (Z.to_nat n)).
Definition x_axis (d : gdef) : list Qc :=
  points (d_nx d) (if d_degree d then norm180 (d_x0 d) else d_x0 d) (d_dx d).
Definition y_axis (d : gdef) : list Qc := points (d_ny d) (d_y0 d) (d_dy d).
