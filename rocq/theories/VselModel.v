(** The choice of vertical converters, and columns of levels (VerticalTransformation, ToVLevelConverterAdapter,
    CoordSysUtils). *)
From Coq Require Import PeanoNat NArith ZArith String List Bool.
From Verif Require Import Base StdMap SliceModel ShapeModel.
Import ListNotations.
Local Open Scope list_scope.
Local Open Scope nat_scope.

(** ** The file and the coordinate system *)

(** a variable: its standard_name, its shape, whether isCSAndCompleteFor of the coordinate system holds for it, and
    the coordinate system findCompleteCoordinateSystemFor gives for it, if any, with the shape of its vertical axis *)
Record var := mkVar { v_name : string; v_std : option string; v_shape : list string; v_here : bool;
  v_cs : option (option (list string)) }.
(** CoordinateAxis.  Simplified: its shape is that of the variable of its name. *)
Record axis := mkAx { a_name : string; a_shape : list string }.
Record world := mkW { w_vars : list var; w_len : string -> option N; w_unlim : string -> bool;
  w_x : option axis; w_y : option axis; w_z : option axis; w_t : option axis }.
Definition axes_of (w : world) : axes4 :=
  mkAxes (option_map a_shape (w_x w)) (option_map a_shape (w_y w)) (option_map a_shape (w_z w)) (option_map a_shape (w_t w)).

(** CDM::findVariables for a standard_name and dimensions, src/CDM.cc:221-242: in the order of the file *)
Definition has_std (p : string -> bool) (v : var) : bool := match v_std v with Some s => p s | None => false end.
Definition has_dims (dims : list string) (v : var) : bool := forallb (fun d => existsb (String.eqb d) (v_shape v)) dims.
Definition find_vars (w : world) (p : string -> bool) (dims : list string) : list var :=
  filter (fun v => has_std p v && has_dims dims v) (w_vars w).
(** findVariableWithDims, VerticalTransformationUtils.cc:79-88; the empty name if there is none *)
Definition with_dims (w : world) (name : string) (dims : list string) : string :=
  match find_vars w (String.eqb name) dims with v :: _ => v_name v | [] => EmptyString end.
(** findVariableWithCS, lines 90-100 *)
Definition with_cs (w : world) (p : string -> bool) : string :=
  match find v_here (find_vars w p []) with Some v => v_name v | None => EmptyString end.
(** CDM::getVariable(name).getShape() *)
Definition shape_of (w : world) (n : string) : outcome (list string) :=
  match find (fun v => String.eqb (v_name v) n) (w_vars w) with Some v => Ok (v_shape v) | None => Throw end.

(** ** Converters *)
Inductive conv :=
| Identity (v units : string)
| LnToPressure (lev p0 : string)
| SigmaToPressure (sigma ps ptop : string)
| HybridApToPressure (ap b ps : string)
| HybridToPressure (a b ps p0 : string)
| HybridToAltitude (a b orog : string)
| OceanToDepth (depth eta s : string)
| Integrated (p : conv) (t q ps gp : string)
| Standard (p : conv)
| Topography (c : conv) (topo : string) (add metres : bool)
| TopographyOfNull (topo : string) (add metres : bool).

(** ShapeMerger::merge of a variable, VerticalTransformationUtils.cc:109-115: no name, no dimensions *)
Definition merge_shape (w : world) (n : string) : outcome (list string) :=
  if String.eqb n EmptyString then Ok [] else shape_of w n.
Definition merge_vars (w : world) (l : list (bool * string)) (last : list (list string)) : outcome (list string) :=
  do shapes <- omapM (fun m => do s <- merge_shape w (snd m); Ok (fst m, s)) l;
  merges (w_len w) (axes_of w) (shapes ++ map (fun s => (false, s)) last).
(** getShape of the converters: IdentityConverter.cc:66-69, LnPressureToPressureConverter.cc:43-49,
    SigmaToPressureConverter.cc:41-48, HybridSigmaApToPressureConverter.cc:59-67, HybridSigmaToPressureConverter.cc:55-63,
    AtmosphereHybridHeight.cc:63-66, OceanSCoordinateGToDepthConverter.cc:55-62,
    PressureIntegrationToAltitudeConverter.cc:100-110, PressureToStandardAltitudeConverter.cc:58-61,
    AltitudeHeightConverter.cc:103-109 *)
Fixpoint shape (w : world) (c : conv) : outcome (list string) :=
  match c with
  | Identity v _ => shape_of w v
  | LnToPressure lev p0 => merge_vars w [(true, lev); (true, p0)] []
  | SigmaToPressure sigma ps ptop => merge_vars w [(true, ps); (true, ptop); (true, sigma)] []
  | HybridApToPressure ap b ps => merge_vars w [(true, ps); (true, ap); (true, b)] []
  | HybridToPressure a b ps p0 => merge_vars w [(true, ps); (true, p0); (true, a); (true, b)] []
  | HybridToAltitude a b orog => merge_vars w [(false, orog); (false, b); (false, a)] []
  | OceanToDepth depth eta s => merge_vars w [(false, depth); (false, eta); (false, s)] []
  | Integrated p t q ps gp => do sp <- shape w p; merge_vars w [(true, ps); (true, gp); (false, t); (false, q)] [sp]
  | Standard p => shape w p
  | Topography c topo _ _ => do sc <- shape w c; merge_vars w [(true, topo)] [sc]
  | TopographyOfNull _ _ _ => UB
  end.

(** ** The choice *)
Inductive trans :=
| THeight (v : string) (altitude : bool)
| TDepth (v : string)
| TPressure (v : string)
| TLnPressure (lev p0 : string)
| TSigma (sigma ps ptop : string)
| THybrid1 (ap b ps : string)
| THybrid2 (a b ps p0 : string)
| TOcean (depth eta s : string)
| THybridHeight (a b orog : string).

(** IdentityConverter::createConverterForVarName, IdentityConverter.cc:53-62 *)
Definition identity (v units : string) : option conv := if String.eqb v EmptyString then None else Some (Identity v units).
(** "(air_)?pressure", VerticalTransformation.cc:112 *)
Definition is_pressure (s : string) : bool := String.eqb s "pressure" || String.eqb s "air_pressure".

(** getPressureConverter of the transformations.  HybridSigmaPressure2.cc:35 exchanges ps and p0. *)
Definition own_pressure (tr : trans) : outcome (option conv) :=
  match tr with
  | THeight _ _ => Ok None
  | TDepth _ => Ok None
  | TPressure v => Ok (identity v "hPa")
  | TLnPressure lev p0 => Ok (Some (LnToPressure lev p0))
  | TSigma sigma ps ptop => Ok (Some (SigmaToPressure sigma ps ptop))
  | THybrid1 ap b ps => Ok (Some (HybridApToPressure ap b ps))
  | THybrid2 a b ps p0 => Ok (Some (HybridToPressure a b p0 ps))
  | TOcean _ _ _ => Throw
  | THybridHeight _ _ _ => Ok None
  end.
(** findPressureConverter, VerticalTransformation.cc:110-122 *)
Definition find_pressure (w : world) (tr : trans) : outcome (option conv) :=
  match identity (with_cs w is_pressure) "hPa" with
  | Some c => Ok (Some c)
  | None => own_pressure tr
  end.

(** std::remove and erase *)
Definition erase_value (v : string) (l : list string) : list string := filter (fun d => negb (String.eqb d v)) l.
Definition erase_axis (a : option axis) (l : list string) : list string :=
  match a with Some x => erase_value (a_name x) l | None => l end.
(** PressureIntegrationToAltitudeConverter::createConverter, lines 50-82: the names of the axes are erased from the
    dimensions *)
Definition integrated (w : world) (p : conv) : outcome (option conv) :=
  do ps <- shape w p;
  let t := with_dims w "air_temperature" ps in
  if String.eqb t EmptyString then Ok None
  else
    let q := with_dims w "specific_humidity" ps in
    do ts <- shape_of w t;
    let surface := remove_length1 (w_len w) (erase_axis (w_z w) ts) in
    let sap := with_dims w "surface_air_pressure" surface in
    let gp := with_dims w "surface_geopotential" (erase_axis (w_t w) surface) in
    if String.eqb sap EmptyString || String.eqb gp EmptyString then Ok None
    else Ok (Some (Integrated p t q sap gp)).

Definition is_topography (s : string) : bool :=
  existsb (String.eqb s) ["surface_geopotential"; "surface_altitude"; "altitude"; "geopotential_height"; "geopotential"]%string.
Definition is_metres (s : string) : bool := existsb (String.eqb s) ["surface_altitude"; "altitude"; "geopotential_height"]%string.
(** the loop of AltitudeHeightConverter::createConverter, lines 68-82: the first candidate with a coordinate system of
    its own whose vertical axis, if any, has length 1 *)
Fixpoint topography_loop (w : world) (l : list var) : outcome (option var) :=
  match l with
  | [] => Ok None
  | v :: r =>
      match v_cs v with
      | None => topography_loop w r
      | Some None => Ok (Some v)
      | Some (Some zs) =>
          do d <- axis_dim zs;
          match w_len w d with
          | None => Throw
          | Some n => if N.eqb n 1 then Ok (Some v) else topography_loop w r
          end
      end
  end.
(** createConverter and the constructor, lines 51-101; a null converter is not tested for *)
Definition topography (w : world) (c : option conv) (add : bool) : outcome (option conv) :=
  match w_x w, w_y w with
  | Some x, Some y =>
      do dx <- rd (nth_error (a_shape x) 0);
      do dy <- rd (nth_error (a_shape y) 0);
      do v <- topography_loop w (find_vars w is_topography [dx; dy]);
      Ok (option_map (fun v => let m := has_std is_metres v in
                                match c with
                                | Some c => Topography c (v_name v) add m
                                | None => TopographyOfNull (v_name v) add m
                                end) v)
  | _, _ => Ok None
  end.

(** VerticalTransformation::getAltitudeConverter, lines 79-96 *)
Definition default_altitude (w : world) (tr : trans) : outcome (option conv) :=
  match identity (with_cs w (String.eqb "geopotential_height")) "m" with
  | Some c => Ok (Some c)
  | None =>
      do p <- find_pressure w tr;
      match p with
      | None => Ok None
      | Some p => do c <- integrated w p; match c with Some c => Ok (Some c) | None => Ok (Some (Standard p)) end
      end
  end.
(** getAltitudeConverter of Height.cc:80-86, Depth.cc, OceanSG1.cc, AtmosphereHybridHeight.cc and the others *)
Definition altitude_converter (w : world) (tr : trans) : outcome (option conv) :=
  match tr with
  | THeight v alt => if alt then Ok (identity v "m") else topography w (identity v "m") true
  | TDepth _ => Ok None
  | TOcean _ _ _ => Throw
  | THybridHeight a b orog => Ok (Some (HybridToAltitude a b orog))
  | _ => default_altitude w tr
  end.
(** getHeightConverter: VerticalTransformation.cc:98-104, Height.cc:72-78, Depth.cc, AtmosphereHybridHeight.cc:98-102 *)
Definition height_converter (w : world) (tr : trans) : outcome (option conv) :=
  match tr with
  | THeight v alt => if alt then topography w (identity v "m") false else Ok (identity v "m")
  | TDepth _ => Ok None
  | _ =>
      do a <- altitude_converter w tr;
      match a with Some c => topography w (Some c) false | None => Ok None end
  end.
(** getDepthConverter *)
Definition depth_converter (tr : trans) : outcome (option conv) :=
  match tr with
  | TDepth v => Ok (identity v "m")
  | TOcean depth eta s => Ok (Some (OceanToDepth depth eta s))
  | _ => Ok None
  end.
(** VerticalTransformation::getConverter, lines 67-77; mifi_constants.h:168-195 *)
Definition get_converter (w : world) (tr : trans) (ty : Z) : outcome (option conv) :=
  if Z.eqb ty 0 then find_pressure w tr
  else if Z.eqb ty 1 then height_converter w tr
  else if Z.eqb ty 4 then altitude_converter w tr
  else if Z.eqb ty 2 then depth_converter tr
  else Throw.
(** getPreferredVerticalType *)
Definition preferred (tr : trans) : Z :=
  match tr with
  | THeight _ true => 4 | THeight _ false => 1
  | TDepth _ | TOcean _ _ _ => 2
  | THybridHeight _ _ _ => 4
  | _ => 0
  end%Z.

(** ** Columns *)
Definition NOTSET : N := (2 ^ 64 - 1)%N.
(** the dimensions of ToVLevelConverterAdapter, empty if unused, and the position in the unlimited time axis *)
Record adapter := mkAd { ad_shape : list string; ad_x : string; ad_y : string; ad_t : string; ad_pos : N }.
(** the dimension of an axis, if it is in the shape; front() of an empty vector is undefined *)
Definition used (sh : list string) (a : option axis) : outcome string :=
  match a with
  | None => Ok EmptyString
  | Some x => do d <- axis_dim (a_shape x); Ok (if existsb (String.eqb d) sh then d else EmptyString)
  end.
(** the constructor, ToVLevelConverterAdapter.cc:48-79 *)
Definition make_adapter (w : world) (sh : list string) (pos : N) : outcome adapter :=
  do x <- used sh (w_x w);
  do y <- used sh (w_y w);
  do t <- used sh (w_t w);
  if String.eqb t EmptyString then Ok (mkAd sh x y t NOTSET)
  else match w_len w t with
       | None => Throw
       | Some _ => Ok (mkAd sh x y t (if w_unlim w t then pos else NOTSET))
       end.
Definition set_one (d : string) (i : N) (sb : slice_builder) : outcome slice_builder :=
  if String.eqb d EmptyString then Ok sb else sb_setStartAndSize sb d i 1.
(** prepareSliceBuilder, lines 100-117 *)
Definition prepare (w : world) (a : adapter) (x y t : N) : outcome slice_builder :=
  do sb <- create_builder (w_len w) (ad_shape a);
  do sb <- set_one (ad_x a) x sb;
  do sb <- set_one (ad_y a) y sb;
  set_one (ad_t a) (if N.eqb (ad_pos a) NOTSET then t else ad_pos a) sb.

Section Values.
Variable D : Type.
Variable leb : D -> D -> bool.
(** operator(), lines 81-88: a converter without data gives a null pointer *)
Definition column (w : world) (data : slice_builder -> outcome (option (list D))) (a : adapter) (x y t : N) : outcome (list D) :=
  do sb <- prepare w a x y t;
  do d <- data sb;
  match d with Some l => Ok l | None => UB end.
(** isValid, lines 90-98 *)
Definition is_valid (w : world) (vmax vmin : slice_builder -> outcome (option (list D))) (a : adapter) (v : D) (x y t : N)
    : outcome bool :=
  do sb <- prepare w a x y t;
  do mx <- vmax sb;
  do mn <- vmin sb;
  do below <- match mx with None => Ok true | Some l => do m <- rd (nth_error l 0); Ok (leb v m) end;
  if negb below then Ok false
  else match mn with None => Ok true | Some l => do m <- rd (nth_error l 0); Ok (leb m v) end.
End Values.

(** ** getSimpleAxes, CoordSysUtils.cc:42-118 *)
Definition axis_length (w : world) (a : axis) : outcome N :=
  match a_shape a with
  | [d] => match w_len w d with Some n => Ok n | None => Throw end
  | _ => Throw
  end.
Definition optional_length (w : world) (a : option axis) : outcome N :=
  match a with Some x => axis_length w x | None => Ok 1%N end.
(** nx, ny, nz and the range of times; the time after the last is a size_t *)
Definition simple_axes (w : world) (pos : N) : outcome (N * N * N * (N * N)) :=
  match w_z w with
  | None => UB
  | Some z =>
      do nz <- axis_length w z;
      do nx <- optional_length w (w_x w);
      do ny <- optional_length w (w_y w);
      do nt <- optional_length w (w_t w);
      let unlim := match w_t w with Some a => existsb (w_unlim w) (a_shape a) | None => false end in
      Ok (nx, ny, nz, if unlim then (pos, add64 pos 1) else (0%N, nt))
  end.
