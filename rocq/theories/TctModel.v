(** The metadata of a file interpolated to the points of a template: addLonLatWithData and changeCDMToLatLonTemplate,
    src/CDMInterpolator.cc:1421-1569, with the operations of InterpModel.  Logging is left out; the template has data. *)
From Coq Require Import NArith Ascii String List Bool.
From Verif Require Import Base StdMap RegridModel StringModel NmlModel ConvertModel CdmModel AxesModel CfcsModel BestModel ProjModel InterpModel.
Import ListNotations.
Local Open Scope string_scope.
Local Open Scope list_scope.
Local Open Scope nat_scope.

(** addDimension of a limited dimension, src/CDM.cc:253-261 *)
Definition add_dim (n : string) (len : N) (c : cdm) : outcome cdm :=
  if has_dim c n then Throw else Ok (mkCdm (vars c) (dims c ++ [mkDim n len false]) (attrs c)).

Section Template.
Variable P : Type.

(** one pass of the loop, 1452-1505: the new axes are always called x and y *)
Definition tpass (s : cdm * smap string) (m : mini P) : outcome (cdm * smap string) :=
  let '(c, pv) := s in
  let '(c1, pv1) := match m_proj m with
                    | Some _ => drops (find_variables c [("grid_mapping_name", fun _ => true)] []) (c, pv)
                    | None => (c, pv)
                    end in
  do old <- old_axes c1 (m_cs m);
  let '(ox, oy) := old in
  do c2 <- (if negb (String.eqb ox "x") || negb (String.eqb oy "y")
            then ofold (fun c v => edit_var v (with_shape (fun l => swap oy "y" (swap ox "x" l))) c) (skeys pv1) c1
            else Ok c1);
  let '(c3, pv3) := match find_axis (m_cs m) Lat, find_axis (m_cs m) Lon with
                    | Some lat, Some lon => drops [ax_name lat; ax_name lon] (c2, pv1)
                    | _, _ => (c2, pv1)
                    end in
  if negb (String.eqb "x" ox) && negb (String.eqb "y" oy) then
    let '(c4, pv4) := drops [ox; oy] (c3, pv3) in
    do c5 <- drop_dim ox c4;
    do c6 <- drop_dim oy c5;
    Ok (c6, pv4)
  else Ok (c3, pv3).

(** an axis, 1519-1545: variable, dimension, attributes and values *)
Definition taxis (n : string) (t : dtype) (vals : list value) (long std unit : string) (c : cdm) : outcome cdm :=
  do c1 <- (if has_var c n then do c' <- set_length n (N.of_nat (length vals)) c; edit_var n (with_type t) c'
            else do c' <- add_dim n (N.of_nat (length vals)) c; add_var (mkVar n t [n] "" None) c');
  do c2 <- repl_attrs n [tatt "axis" n; tatt "long_name" long; tatt "standard_name" std; tatt "units" unit] c1;
  do d <- axis_data t vals;
  edit_var n (with_data d) c2.

(** values of the template: of their type, or as double *)
Definition stored (t : dtype) (data : dtype * list value) : outcome (dtype * list value) :=
  if dtype_eqb t (fst data) then Ok (t, snd data) else do d <- axis_data DDouble (snd data); Ok (DDouble, d).
(** addLonLatWithData, 1422-1437, and the unit *)
Definition points (n unit : string) (data : dtype * list value) (c : cdm) : outcome cdm :=
  do c1 <- (if has_var c n then Ok c else add_var (mkVar n DDouble ["x"; "y"] "" None) c);
  do c2 <- repl_attrs n [tatt "standard_name" n; tatt "long_name" n] c1;
  do v <- from_option (find_var n (vars c2));
  do d <- stored (v_type v) data;
  do c3 <- edit_var n (fun v => with_data (snd d) (with_type (fst d) (with_shape (fun _ => ["x"; "y"]) v))) c2;
  repl_attrs n [tatt "units" unit] c3.

(** 1439-1569 *)
Definition change_template (proj : str) (systems : smap (mini P)) (xs ys : list value) (xunit yunit : string) (xtype ytype : dtype)
    (lat lon : dtype * list value) (c : cdm) (pv : smap string) : outcome (cdm * smap string) :=
  do name <- proj_name proj;
  if negb (String.eqb name "latlong") then Throw
  else
    do s <- ofold (fun s p => tpass s (snd p)) systems (c, pv);
    let '(c0, pv0) := s in
    let c1 := remove_attr (remove_attr c0 "x" "long_name") "y" "long_name" in
    do c2 <- taxis "x" xtype xs "x-coordinate in Cartesian system" "projection_x_coordinate" xunit c1;
    do c3 <- taxis "y" ytype ys "y-coordinate in Cartesian system" "projection_y_coordinate" yunit c2;
    do c4 <- points "latitude" "degree_north" lat c3;
    do c5 <- points "longitude" "degree_east" lon c4;
    do c6 <- ofold (fun c v => do c' <- repl_attrs v [tatt "coordinates" "longitude latitude"] c; Ok (remove_attr c' v "grid_mapping")) (skeys pv0) c5;
    do c7 <- drop_dim "longitude" c6;
    do c8 <- drop_dim "latitude" c7;
    Ok (c8, pv0).
End Template.
