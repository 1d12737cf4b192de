(** Projections: their parameters and PROJ.4 texts.  src/coordSys/Projection.cc, src/coordSys/ProjectionImpl.cc
    and the classes of src/coordSys/*Projection.cc.  Doubles are exact rationals or NaN ([None]). *)
From Coq Require Import NArith ZArith QArith Qcanon Ascii String List Bool.
From Verif Require Import Base SliceModel RegridModel StringModel TextModel SpecModel ConvertModel CdmModel NmlModel.
Import ListNotations.
Local Open Scope string_scope.
Local Open Scope list_scope.
Local Open Scope nat_scope.

(** the classes *)
Inductive kind := Albers | Azimuthal | Geostationary | LambertAzimuthal | LambertConic | LambertCylindrical | LatLong | Mercator | Oblique
                | Orthographic | PolarStere | Rotated | Sinusoidal | Stereographic | Transverse | Unknown | Perspective.
Definition kinds : list kind := [Albers; Azimuthal; Geostationary; LambertAzimuthal; LambertConic; LambertCylindrical; LatLong; Mercator; Oblique;
  Orthographic; PolarStere; Rotated; Sinusoidal; Stereographic; Transverse; Unknown; Perspective].
(** getName: the constructors of the classes *)
Definition cf_name (k : kind) : string :=
  match k with
  | Albers => "albers_conical_equal_area" | Azimuthal => "azimuthal_equidistant" | Geostationary => "geostationary"
  | LambertAzimuthal => "lambert_azimuthal_equal_area" | LambertConic => "lambert_conformal_conic"
  | LambertCylindrical => "lambert_cylindrical_equal_area" | LatLong => "latitude_longitude" | Mercator => "mercator"
  | Oblique => "oblique_mercator" | Orthographic => "orthographic" | PolarStere => "polar_stereographic"
  | Rotated => "rotated_latitude_longitude" | Sinusoidal => "sinusoidal" | Stereographic => "stereographic"
  | Transverse => "transverse_mercator" | Unknown => "unknown_to_fgdc" | Perspective => "vertical_perspective"
  end.
(** isDegree: the constructors of the classes *)
Definition is_degree (k : kind) : bool := match k with LatLong | Rotated => true | _ => false end.

Definition dbl (n : string) (v : value) : cattr := mkAttr n DDouble [v] "".
Definition int_att (n : string) (z : Z) : cattr := mkAttr n DInt [Some (z2q z)] "".
Definition text_att (n s : string) : cattr := mkAttr n DString [] s.

(** ** the parameters *)

(** find_if with CDMNameEqual *)
Definition param (ps : list cattr) (n : string) : option cattr := find (fun a => String.eqb n (a_name a)) ps.
(** removeParameter, src/coordSys/ProjectionImpl.cc:107-112 *)
Fixpoint remove_param (n : string) (ps : list cattr) : list cattr :=
  match ps with
  | [] => []
  | a :: r => if String.eqb n (a_name a) then r else a :: remove_param n r
  end.
Fixpoint replace_param (a : cattr) (ps : list cattr) : list cattr :=
  match ps with
  | [] => [a]
  | b :: r => if String.eqb (a_name a) (a_name b) then a :: r else b :: replace_param a r
  end.
Definition semi : list string := ["semi_major_axis"; "semi_minor_axis"; "inverse_flattening"].
(** addParameter, 62-98; simplified: the value of grid_mapping_name is a string *)
Definition add_param (k : kind) (ps : list cattr) (a : cattr) : outcome (list cattr) :=
  if String.eqb (a_name a) "grid_mapping_name" && negb (String.eqb (a_text a) (cf_name k)) then Throw
  else
    let ps1 := if String.eqb (a_name a) "earth_radius" then fold_left (fun ps n => remove_param n ps) semi ps else ps in
    let ps2 := if existsb (String.eqb (a_name a)) semi then remove_param "earth_radius" ps1 else ps1 in
    Ok (replace_param a ps2).
(** the constructor, 47-53, with MIFI_EARTH_RADIUS_M of include/fimex/CDMconstants.h:141 *)
Definition default_radius : value := Some (z2q 6371000).
Definition initial : list cattr := [dbl "earth_radius" default_radius].
(** Projection::create, src/coordSys/Projection.cc:107-156 *)
Definition kind_named (n : string) : option kind := find (fun k => String.eqb n (cf_name k)) kinds.
Definition create (attrs : list cattr) : outcome (kind * list cattr) :=
  do k <- match param attrs "grid_mapping_name" with
          | None => Ok LatLong
          | Some a => match kind_named (a_text a) with Some k => Ok k | None => Throw end
          end;
  do ps <- ofold (add_param k) attrs initial;
  Ok (k, ps).

(** ** reading PROJ.4 texts *)

(** regex_search with one of the literal beginnings [ks] followed by one or more characters of a class *)
Fixpoint run_of (cls : ascii -> bool) (s : str) : str :=
  match s with
  | [] => []
  | x :: s' => if cls x then x :: run_of cls s' else []
  end.
Definition match_at (cls : ascii -> bool) (ks : list str) (s : str) : option str :=
  match find (fun k => begins k s && match run_of cls (skipn (length k) s) with [] => false | _ => true end) ks with
  | Some k => Some (run_of cls (skipn (length k) s))
  | None => None
  end.
Fixpoint search (cls : ascii -> bool) (ks : list str) (s : str) : option str :=
  match match_at cls ks s with
  | Some t => Some t
  | None => match s with [] => None | _ :: s' => search cls ks s' end
  end.
(** "\\+key=(\\S+)" *)
Definition not_space (x : ascii) : bool := negb (is_space x).
Definition key (k : string) (s : str) : option str := search not_space [s_ ("+" ++ k ++ "=")] s.
(** "\\+flag" *)
Definition flag (k : string) (s : str) : bool := match find_sub (s_ ("+" ++ k)) s 0 with Some _ => true | None => false end.

Section Proj.
(** string2type<double>, strtod, tokenizeDotted<double> (see C20) *)
Variable num : str -> outcome value.
Variable strtod : str -> value.
Variable dotted : str -> outcome (list value).
(** a double written with 16 digits, and with the 6 digits of a new stream *)
Variable show16 show6 : value -> str.
(** sqrt(major*major*(1-(ecc*ecc))) *)
Variable minor_of : value -> value -> value.
(** the rounds of normalizeLongitude180 that are waited for *)
Variable fuel : nat.

Definition opt (k n : string) (s : str) : outcome (list cattr) :=
  match key k s with Some t => do v <- num t; Ok [dbl n v] | None => Ok [] end.
Definition dflt (k n : string) (s : str) : outcome (list cattr) :=
  match key k s with Some t => do v <- num t; Ok [dbl n v] | None => Ok [dbl n (Some 0%Qc)] end.
(** the attributes in order *)
Fixpoint all (l : list (outcome (list cattr))) : outcome (list cattr) :=
  match l with
  | [] => Ok []
  | o :: r => do a <- o; do b <- all r; Ok (a ++ b)
  end.

Definition tenth (n : Z) (d : positive) : value := Some (Q2Qc (n # d)).
(** the ellipsoids, src/coordSys/ProjectionImpl.cc:253-283 *)
Definition ellipsoid (e : str) : list cattr :=
  let axes a b := [dbl "semi_major_axis" a; dbl "semi_minor_axis" b] in
  if str_eqb e (s_ "wgs84") then axes (tenth 6378137 1) (tenth 63567523142 10000)
  else if str_eqb e (s_ "nad83") then axes (tenth 6378137 1) (tenth 63567523 10)
  else if str_eqb e (s_ "grs80") || str_eqb e (s_ "etrs89") then axes (tenth 6378137 1) (tenth 63567523141 10000)
  else if str_eqb e (s_ "nad27") then axes (tenth 63782064 10) (tenth 63565838 10)
  else if str_eqb e (s_ "wgs72") then axes (tenth 6378135 1) (tenth 635675052 100)
  else if str_eqb e (s_ "iers89") then axes (tenth 6378136 1) (tenth 6356751302 1000)
  else if str_eqb e (s_ "iers03") then axes (tenth 63781366 10) (tenth 63567519 10)
  else if str_eqb e (s_ "intl") then axes (tenth 6378388 1) (tenth 6356909 1)
  else if str_eqb e (s_ "bessel") then [dbl "semi_major_axis" (tenth 6377397155 1000); dbl "inverse_flattening" (tenth 2991528128 10000000)]
  else [].
(** 286-302: 3, 6 or 7 numbers *)
Definition resized (l : list value) : list value :=
  let zeros n := firstn n (l ++ repeat (Some 0%Qc) n) in
  if length l <=? 3 then zeros 3 else if length l <=? 6 then zeros 6 else zeros 7.
Definition of_datum (d : str) : list value :=
  if str_eqb d (s_ "ggrs87") then [tenth (-19987) 100; tenth 7479 100; tenth 24662 100] else repeat (Some 0%Qc) 3.
(** proj4GetEarthAttributes, 223-317 *)
Definition axes_att (s : str) : outcome (list cattr) :=
  match search not_space [s_ "+a="; s_ "+R="] s with
  | None => Ok []
  | Some t =>
      do a <- num t;
      do r <- match key "e" s with
              | Some e => if str_eqb e (s_ "0") then Ok None else do x <- num e; Ok (Some (minor_of a x))
              | None => Ok None
              end;
      match r with
      | Some b => Ok [dbl "semi_major_axis" a; dbl "semi_major_axis" a; dbl "semi_minor_axis" b]
      | None => match key "b" s with
                | Some u => do b <- num u; Ok [dbl "semi_major_axis" a; dbl "semi_major_axis" a; dbl "semi_minor_axis" b]
                | None => Ok [dbl "semi_major_axis" a; dbl "earth_radius" a]
                end
      end
  end.
Definition ellipsoid_att (s : str) : outcome (list cattr) :=
  match (match key "ellps" s with Some t => Some t | None => key "datum" s end) with
  | None => Ok []
  | Some t => do l <- string2lowerCase t; Ok (ellipsoid l)
  end.
Definition towgs_att (s : str) : outcome (list cattr) :=
  match key "towgs84" s with
  | Some t => do l <- dotted t; Ok [mkAttr "towgs84" DDouble (resized l) ""]
  | None => match key "datum" s with
            | Some t => do l <- string2lowerCase t; Ok [mkAttr "towgs84" DDouble (of_datum l) ""]
            | None => Ok []
            end
  end.
Definition earth (s : str) : outcome (list cattr) :=
  all [opt "x_0" "false_easting" s; opt "y_0" "false_northing" s; axes_att s; ellipsoid_att s; towgs_att s].

(** std::abs(std::abs(lat0) - 90) < 1e-4, src/coordSys/PolarStereographicProjection.cc:45 *)
Definition qlt (a b : Qc) : bool := match (a ?= b)%Qc with Lt => true | _ => false end.
Definition qabs (a : Qc) : Qc := if qlt a 0 then (- a)%Qc else a.
Definition at_pole (v : value) : bool := match v with Some x => qlt (qabs (qabs x - z2q 90)) (Q2Qc (1 # 10000)) | None => false end.
(** the class that accepts a text, src/coordSys/Projection.cc:158-195, and acceptsProj4 of the classes *)
Definition simple_names : list (string * kind) :=
  [("aea", Albers); ("aeqd", Azimuthal); ("geos", Geostationary); ("laea", LambertAzimuthal); ("lcc", LambertConic); ("cea", LambertCylindrical);
   ("latlong", LatLong); ("longlat", LatLong); ("merc", Mercator); ("omerc", Oblique); ("ortho", Orthographic); ("sinu", Sinusoidal);
   ("tmerc", Transverse); ("utm", Transverse); ("gstmerc", Transverse); ("etmerc", Transverse); ("nsper", Perspective)].
Definition accepting (s : str) : outcome (option kind) :=
  match key "proj" s with
  | None => Ok None
  | Some p =>
      match find (fun x => str_eqb p (s_ (fst x))) simple_names with
      | Some x => Ok (Some (snd x))
      | None =>
          if str_eqb p (s_ "stere") then
            match key "lat_0" s with
            | Some t => do v <- num t; Ok (Some (if at_pole v then PolarStere else Stereographic))
            | None => Ok (Some Stereographic)
            end
          else if str_eqb p (s_ "ob_tran") &&
                  match key "o_proj" s with Some o => str_eqb o (s_ "latlong") || str_eqb o (s_ "longlat") | None => false end
          then Ok (Some Rotated)
          else Ok (Some Unknown)
      end
  end.

(** standard parallels, src/coordSys/AlbersConicalEqualAreaProjection.cc:56-70, src/coordSys/LambertConformalConicProjection.cc:54-68 *)
Definition parallels (s : str) : outcome (list cattr) :=
  match key "lat_1" s with
  | None => Ok []
  | Some t => do a <- num t;
              match key "lat_2" s with
              | Some u => do b <- num u; Ok [mkAttr "standard_parallel" DDouble [a; b] ""]
              | None => Ok [dbl "standard_parallel" a]
              end
  end.
(** src/coordSys/StereographicProjection.cc:51-80 *)
Definition stereo (s : str) : outcome (list cattr) :=
  let tod k n := match key k s with Some t => [dbl n (strtod t)] | None => [] end in
  do e <- earth s;
  Ok ([text_att "grid_mapping_name" "stereographic"] ++ tod "lon_0" "longitude_of_projection_origin" ++ tod "lat_0" "latitude_of_projection_origin" ++
      match tod "lat_ts" "standard_parallel" with [] => tod "k" "scale_factor_at_projection_origin" | l => l end ++ e).
(** src/coordSys/PolarStereographicProjection.cc:53-76 *)
Fixpoint rename_first (n : string) (f : cattr -> cattr) (l : list cattr) : option (list cattr) :=
  match l with
  | [] => None
  | a :: r => if String.eqb n (a_name a) then Some (f a :: r) else option_map (cons a) (rename_first n f r)
  end.
Definition polar (s : str) : outcome (list cattr) :=
  do l <- stereo s;
  match rename_first "grid_mapping_name" (fun _ => text_att "grid_mapping_name" "polar_stereographic") l with
  | None => Throw
  | Some l1 => match rename_first "longitude_of_projection_origin" (fun a => dbl "straight_vertical_longitude_from_pole" (hd None (a_nums a))) l1 with
               | None => Throw
               | Some l2 => Ok l2
               end
  end.
(** normalizeLongitude180, include/fimex/MathUtils.h:140-150 *)
Fixpoint down180 (n : nat) (x : Qc) : outcome Qc :=
  if qlt (z2q 180) x then match n with O => Hang | S n' => down180 n' (x - z2q 360)%Qc end else Ok x.
Fixpoint up180 (n : nat) (x : Qc) : outcome Qc :=
  if qlt x (z2q (-180)) then match n with O => Hang | S n' => up180 n' (x + z2q 360)%Qc end else Ok x.
Definition norm180 (v : value) : outcome value :=
  match v with None => Ok None | Some x => do y <- up180 fuel x; do z <- down180 fuel y; Ok (Some z) end.
Definition vadd (a b : value) : value := match a, b with Some x, Some y => Some (x + y)%Qc | _, _ => None end.
Definition or_num (k : string) (d : value) (s : str) : outcome value := match key k s with Some t => num t | None => Ok d end.
(** src/coordSys/RotatedLatitudeLongitudeProjection.cc:62-90 *)
Definition rotated (s : str) : outcome (list cattr) :=
  do lat <- or_num "o_lat_p" (Some (z2q 90)) s;
  do glon <- or_num "o_lon_p" (Some 0%Qc) s;
  do lon <- or_num "lon_0" (Some 0%Qc) s;
  do pole <- norm180 (vadd (Some (z2q 180)) lon);
  do e <- earth s;
  Ok ([text_att "grid_mapping_name" "rotated_latitude_longitude"; dbl "grid_north_pole_longitude" pole; dbl "grid_north_pole_latitude" lat] ++
      (if match glon with Some g => qlt (Q2Qc (1 # 10000)) g | None => false end then [dbl "north_pole_grid_longitude" glon] else []) ++ e).
(** src/coordSys/TransverseMercatorProjection.cc:51-105.  "\\d+|\\d+\\.\\d+" matches the first alternative; the
    zone is a short *)
Definition dec_value (s : str) : Z := fold_left (fun n x => n * 10 + Z.of_N (match digit_value x with Some d => d | None => 0%N end))%Z s 0%Z.
Definition utm (s : str) : outcome (list cattr) :=
  do z <- match search is_digit [s_ "+zone="] s with
          | None => Ok []
          | Some t => if (32767 <? dec_value t)%Z then Throw
                      else let zone := Z.min 60 (Z.max 1 (dec_value t)) in Ok [dbl "longitude_of_central_meridian" (Some (z2q ((zone - 1) * 6 - 180 + 3)))]
          end;
  do l <- match search is_digit [s_ "+lon_0="] s with
          | None => Ok []
          | Some t => do v <- num t; Ok [dbl "longitude_of_central_meridian" v]
          end;
  Ok ([dbl "scale_factor_at_central_meridian" (tenth 9996 10000); int_att "latitude_of_projection_origin" 0; int_att "false_easting" 500000] ++
      z ++ l ++ if flag "south" s then [int_att "false_northing" 10000000] else []).
Definition transverse (s : str) : outcome (list cattr) :=
  all [if match key "proj" s with Some p => str_eqb p (s_ "utm") | None => false end then utm s
       else all [dflt "lon_0" "longitude_of_central_meridian" s; opt "lat_0" "latitude_of_projection_origin" s; opt "k" "scale_factor_at_central_meridian" s];
       earth s].

(** parametersFromProj4 of the classes, for a text that the class accepts *)
Definition origin (s : str) : outcome (list cattr) :=
  all [dflt "lon_0" "longitude_of_projection_origin" s; dflt "lat_0" "latitude_of_projection_origin" s].
Definition from_proj4 (k : kind) (s : str) : outcome (list cattr) :=
  let named l := do a <- all l; Ok (text_att "grid_mapping_name" (cf_name k) :: a) in
  match k with
  | Albers | LambertConic => named [parallels s; dflt "lon_0" "longitude_of_central_meridian" s; dflt "lat_0" "latitude_of_projection_origin" s; earth s]
  | Azimuthal | LambertAzimuthal | Orthographic => named [origin s; earth s]
  | Geostationary => named [origin s; dflt "h" "perspective_point_height" s;
                            Ok [text_att "sweep_axis" (match key "sweep" s with Some t => st t | None => "y" end)]; earth s]
  | LambertCylindrical => named [dflt "lon_0" "longitude_of_central_meridian" s; opt "lat_ts" "standard_parallel" s;
                                 opt "k" "scale_factor_at_projection_origin" s; earth s]
  | LatLong => named [earth s]
  | Mercator => named [dflt "lon_0" "longitude_of_projection_origin" s; opt "lat_ts" "standard_parallel" s;
                       opt "k" "scale_factor_at_projection_origin" s; earth s]
  | Oblique => named [dflt "lonc" "longitude_of_projection_origin" s; opt "lat_0" "latitude_of_projection_origin" s;
                      dflt "alpha" "azimuth_of_central_line" s; dflt "gamma" "gamma" s; opt "k" "scale_factor_at_projection_origin" s;
                      Ok (if flag "no_rot" s then [text_att "no_rotation" ""] else []); earth s]
  | PolarStere => polar s
  | Rotated => rotated s
  | Sinusoidal => named [dflt "lon_0" "longitude_of_projection_origin" s; earth s]
  | Stereographic => stereo s
  | Transverse => named [transverse s]
  | Perspective => named [origin s; dflt "h" "perspective_point_height" s; earth s]
  | Unknown => named [earth s; Ok [text_att "proj4" (st s)]]
  end.
(** Projection::createByProj4, src/coordSys/Projection.cc:158-205 *)
Definition create_by_proj4 (s : str) : outcome (kind * list cattr) :=
  do k <- accepting s;
  match k with
  | None => Throw
  | Some k => do l <- from_proj4 k s; create l
  end.

(** ** writing PROJ.4 texts *)

(** addParameterToStream, src/coordSys/ProjectionImpl.cc:184-200; [None] if nothing is written *)
Definition put_opt (ps : list cattr) (n k : string) : option str :=
  match param ps n with
  | None => None
  | Some a => match CdmModel.a_type a with
              | DString => Some (s_ k ++ s_ (a_text a))
              | _ => match a_nums a with [] => None | l => Some (s_ k ++ join (map show16 l) (s_ ",")) end
              end
  end.
Definition put (ps : list cattr) (n k : string) : str := match put_opt ps n k with Some t => t | None => [] end.
(** getInverseFlatteningValue, 147-157 *)
Definition flattening (ps : list cattr) : value :=
  match param ps "inverse_flattening" with
  | Some a => match a_nums a with [v] => v | _ => Some (z2q (-1)) end
  | None => Some (z2q (-1))
  end.
(** getProj4EarthString, 160-182 *)
Definition earth_text (ps : list cattr) : str :=
  match put_opt ps "earth_radius" " +a=" with
  | Some t => t ++ s_ " +e=0"
  | None =>
      match put_opt ps "semi_major_axis" " +a=" with
      | Some t =>
          t ++ s_ " " ++ put ps "semi_minor_axis" " +b=" ++
          match flattening ps with
          | Some f => if qlt 0 f then s_ " +rf=" ++ show16 (Some f) else match put_opt ps "semi_minor_axis" " +b=" with None => s_ " +e=0" | Some _ => [] end
          | None => []
          end
      | None => s_ " +a=" ++ show6 default_radius ++ s_ " +e=0"
      end
  end ++ put ps "towgs84" " +towgs84=".

(** src/coordSys/AlbersConicalEqualAreaProjection.cc:89-102, src/coordSys/LambertConformalConicProjection.cc:87-100;
    the first element of no data is UB; simplified: the parallels are numbers *)
Definition conic_text (ps : list cattr) : outcome str :=
  match param ps "standard_parallel" with
  | None => Ok (s_ " +lat_1=0 +lat_2=0")
  | Some a => match a_nums a with
              | [] => UB
              | x :: l => Ok (s_ " +lat_1=" ++ show6 x ++ s_ " +lat_2=" ++ show6 (match l with y :: _ :: _ => y | _ => x end))
              end
  end.
(** getProj4ProjectionPart of the classes; PJ_VERSION is not defined in src/coordSys/TransverseMercatorProjection.cc,
    which includes no header of PROJ, and counts as 0 *)
Definition part (k : kind) (ps : list cattr) : outcome str :=
  let p n k := put ps n (" +" ++ k ++ "=") in
  match k with
  | Albers => do t <- conic_text ps; Ok (s_ "+proj=aea" ++ t ++ p "longitude_of_central_meridian" "lon_0" ++ p "latitude_of_projection_origin" "lat_0")
  | LambertConic => do t <- conic_text ps; Ok (s_ "+proj=lcc" ++ t ++ p "longitude_of_central_meridian" "lon_0" ++ p "latitude_of_projection_origin" "lat_0")
  | Azimuthal => Ok (s_ "+proj=aeqd" ++ p "longitude_of_projection_origin" "lon_0" ++ p "latitude_of_projection_origin" "lat_0")
  | LambertAzimuthal => Ok (s_ "+proj=laea" ++ p "longitude_of_projection_origin" "lon_0" ++ p "latitude_of_projection_origin" "lat_0")
  | Orthographic => Ok (s_ "+proj=ortho" ++ p "longitude_of_projection_origin" "lon_0" ++ p "latitude_of_projection_origin" "lat_0")
  | Geostationary => Ok (s_ "+proj=geos" ++ p "longitude_of_projection_origin" "lon_0" ++ p "latitude_of_projection_origin" "lat_0" ++
                         p "perspective_point_height" "h" ++ p "sweep_angle_axis" "sweep")
  | Perspective => Ok (s_ "+proj=nsper" ++ p "longitude_of_projection_origin" "lon_0" ++ p "latitude_of_projection_origin" "lat_0" ++
                       p "perspective_point_height" "h")
  | LambertCylindrical => Ok (s_ "+proj=cea" ++ p "longitude_of_central_meridian" "lon_0" ++ p "standard_parallel" "lat_ts" ++
                              p "scale_factor_at_projection_origin" "k")
  | LatLong => Ok (s_ "+proj=latlong")
  | Mercator => Ok (s_ "+proj=merc" ++ p "longitude_of_projection_origin" "lon_0" ++ p "standard_parallel" "lat_ts" ++
                    p "scale_factor_at_projection_origin" "k_0")
  | Oblique => Ok (s_ "+proj=omerc" ++ p "longitude_of_projection_origin" "lonc" ++ p "latitude_of_projection_origin" "lat_0" ++
                   p "azimuth_of_central_line" "alpha" ++ p "gamma" "gamma" ++ p "scale_factor_at_projection_origin" "k_0" ++ put ps "no_rotation" " +no_rot")
  | PolarStere | Stereographic => Ok (s_ "+proj=stere" ++ p "latitude_of_projection_origin" "lat_0" ++ p "straight_vertical_longitude_from_pole" "lon_0" ++
                                      p "longitude_of_projection_origin" "lon_0" ++ p "scale_factor_at_projection_origin" "k" ++ p "standard_parallel" "lat_ts")
  | Rotated => Ok (s_ "+proj=ob_tran +o_proj=longlat" ++
                   match param ps "grid_north_pole_longitude" with
                   | Some a => match a_nums a with [] => [] | x :: _ => s_ " +lon_0=" ++ show6 (vadd x (Some (z2q (-180)))) end
                   | None => []
                   end ++ p "grid_north_pole_latitude" "o_lat_p" ++ p "north_pole_grid_longitude" "o_lon_p")
  | Sinusoidal => Ok (s_ "+proj=sinu" ++ p "longitude_of_projection_origin" "lon_0")
  | Transverse => Ok (s_ "+proj=tmerc" ++ p "longitude_of_central_meridian" "lon_0" ++ p "latitude_of_projection_origin" "lat_0" ++
                      p "scale_factor_at_central_meridian" "k_0")
  | Unknown => Throw
  end.
(** getProj4String, src/coordSys/ProjectionImpl.cc:124-138, src/coordSys/UnknownToFgdcProjection.cc:49-56 *)
Definition proj4_of (k : kind) (ps : list cattr) : outcome str :=
  match k with
  | Unknown => match param ps "proj4" with None => Throw | Some a => Ok (s_ (a_text a)) end
  | _ => do p <- part k ps;
         Ok (p ++ put ps "false_easting" " +x_0=" ++ put ps "false_northing" " +y_0=" ++ s_ " " ++ earth_text ps ++ s_ " +no_defs")
  end.
(** the other side of convertToLonLat and convertFromLonLat, src/coordSys/Projection.cc:80-81, 96-97 *)
Definition lonlat_text (ps : list cattr) : str := s_ "+proj=latlong " ++ earth_text ps.
End Proj.

(** replaceProj4Earthfigure, src/coordSys/Projection.cc:207-224 *)
Definition figure_keys : list string := ["+a="; "+b="; "+e="; "+R="; "+ellps="; "+datum="].
Definition replace_earth (proj4 figure : string) : outcome string :=
  if isempty figure then Ok proj4
  else do parts <- toks proj4 " ";
       let kept := filter (fun t => negb (existsb (fun k => match find_sub (s_ k) (s_ t) 0 with Some _ => true | None => false end) figure_keys)) parts in
       Ok (st (join (map s_ (kept ++ [figure])) (s_ " "))).
