(** The metadata of a horizontally interpolated file: changeCDM of src/CDMInterpolator.cc:727-937 with
    getProjectionName (312-324), CDM::generateProjectionCoordinates (src/CDM.cc:660-702) and
    findBestCoordinateSystemsAndProjectionVars (694-725). Logging is left out, names of axes are not empty. *)
From Coq Require Import NArith Ascii String List Bool.
From Verif Require Import Base StdMap RegridModel StringModel NmlModel ConvertModel CdmModel AxesModel CfcsModel BestModel ProjModel.
Import ListNotations.
Local Open Scope string_scope.
Local Open Scope list_scope.
Local Open Scope nat_scope.

Definition from_option {A} (o : option A) : outcome A := match o with Some a => Ok a | None => Throw end.
(** CDMAttribute(name, string) *)
Definition tatt (n s : string) : cattr := mkAttr n DString [] s.

(** getProjectionName, 312-324 *)
Definition proj_name (s : str) : outcome string :=
  match key "proj" s with
  | None => Throw
  | Some p => let n := st p in Ok (if one_of n ["latlon"; "latlong"; "lonlat"; "longlat"] then "latlong" else n)
  end.

(** what is interpolated to: the text of the projection, the values, units and types of the new axes, the
    names for longitudes and latitudes *)
Record target := mkTarget { t_proj : str; t_x : list value; t_y : list value; t_xunit : string; t_yunit : string;
  t_xtype : dtype; t_ytype : dtype; t_lon : string; t_lat : string }.

(** getVariable(n) = f, src/CDM.cc:168-183 *)
Definition edit_var (n : string) (f : cvar -> cvar) (c : cdm) : outcome cdm :=
  if has_var c n then Ok (mkCdm (map (fun v => if String.eqb n (v_name v) then f v else v) (vars c)) (dims c) (attrs c)) else Throw.
(** setShape, setDataType, setData of include/fimex/CDMVariable.h *)
Definition with_shape (f : list string -> list string) (v : cvar) := mkVar (v_name v) (v_type v) (f (v_shape v)) (v_counterpart v) (v_data v).
Definition with_type (t : dtype) (v : cvar) := mkVar (v_name v) t (v_shape v) (v_counterpart v) (v_data v).
Definition with_data (d : list value) (v : cvar) := mkVar (v_name v) (v_type v) (v_shape v) (v_counterpart v) (Some d).
(** getDimension(n).setLength(len), src/CDM.cc:268-283 *)
Definition set_length (n : string) (len : N) (c : cdm) : outcome cdm :=
  if has_dim c n then Ok (mkCdm (vars c) (map (fun d => if String.eqb n (d_name d) then mkDim n len (d_unlim d) else d) (dims c)) (attrs c)) else Throw.
(** addVariable, src/CDM.cc:142-153 *)
Definition add_var (v : cvar) (c : cdm) : outcome cdm :=
  if has_var c (v_name v) then Throw else Ok (mkCdm (vars c ++ [v]) (dims c) (attrs c)).
(** removeDimension, src/CDM.cc:330-349 *)
Definition drop_dim (n : string) (c : cdm) : outcome cdm :=
  match remove_dim c n false with (c', Done _) => Ok c' | (_, Threw) => Throw end.

(** cdm.removeVariable(n), projectionVariables.erase(n) *)
Definition drop (s : cdm * smap string) (n : string) : cdm * smap string := (remove_var (fst s) n, serase n (snd s)).
Definition drops (l : list string) (s : cdm * smap string) : cdm * smap string := fold_left drop l s.

(** std::replace *)
Definition swap (a b : string) : list string -> list string := map (fun d => if String.eqb d a then b else d).

(** 756-766: the names of the old axes *)
Definition old_axes (c : cdm) (cs : csys) : outcome (string * string) :=
  match geo_x cs, geo_y cs with
  | Some x, Some y =>
      match find_axis cs Lon with
      | Some lon =>
          if String.eqb (ax_name x) (ax_name lon) then
            do v <- from_option (find_var (ax_name x) (vars c));
            match v_shape v with
            | [a; b] => Ok (a, b)
            | _ => Ok (ax_name x, ax_name y)
            end
          else Ok (ax_name x, ax_name y)
      | None => Ok (ax_name x, ax_name y)
      end
  | _, _ => UB
  end.

Section Change.
Variable P : Type.

(** one pass of the loop, 742-796: the axes of the first system are kept *)
Definition pass (s : cdm * smap string * option (string * string)) (m : mini P) : outcome (cdm * smap string * option (string * string)) :=
  let '(c, pv, new) := s in
  let '(c1, pv1) := match m_proj m with
                    | Some _ => drops (find_variables c [("grid_mapping_name", fun _ => true)] []) (c, pv)
                    | None => (c, pv)
                    end in
  do old <- old_axes c1 (m_cs m);
  let '(ox, oy) := old in
  let '(nx, ny) := match new with None => old | Some n => n end in
  do cp <- match new with
           | None => Ok (c1, pv1)
           | Some _ =>
               do c2 <- ofold (fun c v => edit_var v (with_shape (fun l => swap oy ny (swap ox nx l))) c) (skeys pv1) c1;
               Ok (drops [ox; oy] (c2, pv1))
           end;
  let '(c3, pv3) := match find_axis (m_cs m) Lat, find_axis (m_cs m) Lon with
                    | Some lat, Some lon => drops [ax_name lat; ax_name lon] cp
                    | _, _ => cp
                    end in
  do c4 <- (if String.eqb ox nx then Ok c3 else do c' <- drop_dim ox c3; drop_dim oy c');
  Ok (c4, pv3, Some (nx, ny)).

(** reading and writing numbers in PROJ.4 texts, as in ProjModel *)
Variable by_proj4 : str -> outcome (kind * list cattr).
Variable to_proj4 : kind -> list cattr -> outcome str.
(** reproject_axes to longitudes and latitudes in degrees *)
Variable lonlat : str -> list value -> list value -> outcome (list value * list value).

(** addAttribute for all *)
Definition put_attrs (n : string) (l : list cattr) (c : cdm) : outcome cdm := ofold (fun c a => from_option (add_attr c n a)) l c.
Definition repl_attrs (n : string) (l : list cattr) (c : cdm) : outcome cdm := ofold (fun c a => from_option (replace_attr c n a)) l c.

(** generateProjectionCoordinates, src/CDM.cc:660-702 *)
Definition coordinates (proj x y lon lat : string) (xs ys : list value) (c : cdm) : outcome cdm :=
  do kp <- create (attrs_of c proj);
  do text <- to_proj4 (fst kp) (snd kp);
  do ll <- lonlat text xs ys;
  do c1 <- add_var (mkVar lon DDouble [x; y] "" (Some (fst ll))) c;
  do c2 <- add_var (mkVar lat DDouble [x; y] "" (Some (snd ll))) c1;
  do c3 <- put_attrs lon [tatt "units" "degree_east"; tatt "long_name" "longitude"; tatt "standard_name" "longitude"] c2;
  put_attrs lat [tatt "units" "degree_north"; tatt "long_name" "latitude"; tatt "standard_name" "latitude"] c3.

(** 841-856: the axis variable *)
Definition axis_var (n : string) (t : dtype) (c : cdm) : outcome cdm :=
  if has_var c n then edit_var n (with_type t) c else add_var (mkVar n t [n] "" None) c.

(** createData(type, begin, end), include/fimex/Data.h:297-338 *)
Definition axis_data (t : dtype) (l : list value) : outcome (list value) := omapM (static_cast t) l.

(** 899-915: Conventions *)
Definition conventions (c : cdm) : outcome cdm :=
  let a := match get_attr c global_ns "Conventions" with
           | Some a => match find_sub (s_ "CF-") (s_ (a_text a)) 0 with
                       | None => tatt "Conventions" (a_text a ++ " CF-1.4")
                       | Some _ => a
                       end
           | None => tatt "Conventions" "CF-1.4"
           end in
  from_option (replace_attr c global_ns a).

Definition change_cdm (t : target) (systems : smap (mini P)) (c : cdm) (pv : smap string) : outcome (cdm * smap string) :=
  do proj <- proj_name (t_proj t);
  do s <- ofold (fun s p => pass s (snd p)) systems (c, pv, None);
  let '(c0, pv0, new) := s in
  match new with
  | None => UB                                                             (* 797-798: assert *)
  | Some (x, y) =>
      let geographic := String.eqb proj "latlong" in
      (* 800-814 *)
      do name <- (if geographic then Ok "latlong" else unique_var (length (vars c0)) c0 ("projection_" ++ proj));
      do c1 <- (if geographic then Ok c0
                else do c' <- add_var (mkVar name DInt [] "" (Some [])) c0;
                     do kp <- by_proj4 (t_proj t);
                     put_attrs name (snd kp) c');
      (* 821-840 *)
      let c2 := remove_attr (remove_attr c1 x "long_name") y "long_name" in
      let '(xname, yname) := if geographic then ("longitude", "latitude")
                             else if String.eqb name "projection_rotated_latitude_longitude" then ("grid_longitude", "grid_latitude")
                             else ("projection_x_coordinate", "projection_y_coordinate") in
      let xunit := if geographic && String.eqb (t_xunit t) "degree" then "degrees_east" else t_xunit t in
      let yunit := if geographic && String.eqb (t_yunit t) "degree" then "degrees_north" else t_yunit t in
      (* 841-864 *)
      do c3 <- axis_var x (t_xtype t) c2;
      do c4 <- axis_var y (t_ytype t) c3;
      do c5 <- repl_attrs x [tatt "standard_name" xname] c4;
      do c6 <- repl_attrs y [tatt "standard_name" yname] c5;
      do c7 <- repl_attrs x [tatt "units" xunit] c6;
      do c8 <- repl_attrs y [tatt "units" yunit] c7;
      do xs <- axis_data (t_xtype t) (t_x t);
      do c9 <- edit_var x (with_data xs) c8;
      do ys <- axis_data (t_ytype t) (t_y t);
      do c10 <- edit_var y (with_data ys) c9;
      do c11 <- set_length x (N.of_nat (length (t_x t))) c10;
      do c12 <- set_length y (N.of_nat (length (t_y t))) c11;
      (* 866-877 *)
      do ll <- (if geographic then Ok (t_lon t, t_lat t)
                else do lon <- unique_var (length (vars c12)) c12 (t_lon t);
                     do lat <- unique_var (length (vars c12)) c12 (t_lat t);
                     Ok (lon, lat));
      let '(lon, lat) := ll in
      do c13 <- (if geographic then Ok c12 else coordinates name x y lon lat xs ys c12);
      (* 879-891 *)
      do c14 <- ofold (fun c v => if geographic then Ok (remove_attr (remove_attr c v "coordinates") v "grid_mapping")
                                  else repl_attrs v [tatt "coordinates" (lon ++ " " ++ lat); tatt "grid_mapping" name] c) (skeys pv0) c13;
      do c15 <- conventions c14;
      (* 911-915 *)
      Ok (remove_attr c15 global_ns "MAP_PROJ", pv0)
  end.

(** 694-725 and the call of changeCDM: [c] is the reader's metadata *)
Definition interpolated (t : target) (with_proj : bool) (l : list (sys P)) (c : cdm) : outcome (cdm * smap string) :=
  do r <- best P c with_proj l;
  let '(systems, pv, bad) := r in
  match systems with
  | [] => Throw
  | _ => change_cdm t systems (fold_left remove_var bad c) pv
  end.
End Change.
