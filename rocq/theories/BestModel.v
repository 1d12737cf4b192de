(** The coordinate systems that horizontal interpolation works on: findBestHorizontalCoordinateSystems of
    src/coordSys/CoordinateSystem.cc:362-452. Logging is left out; the maps and the list that are filled
    are empty at the call, as in src/CDMInterpolator.cc:700-705 and src/CDMProcessor.cc:440-493. *)
From Coq Require Import NArith Ascii String List Bool.
From Verif Require Import Base StdMap AxesModel ConvertModel CdmModel CfcsModel.
Import ListNotations.
Local Open Scope string_scope.
Local Open Scope list_scope.
Local Open Scope nat_scope.

(** a minimal system: axes, projection, variables *)
Record mini (P : Type) := mkMini { m_cs : csys; m_proj : option P; m_for : list string }.
Arguments mkMini {P}. Arguments m_cs {P}. Arguments m_proj {P}. Arguments m_for {P}.

Section Best.
Variable P : Type.
Variable c : cdm.
Variable with_proj : bool.
(** listCoordinateSystems *)
Variable l : list (sys P).

(** lines 369-376 *)
Definition usable (y : sys P) : bool :=
  if with_proj then y_simple y && match y_proj y with Some _ => true | None => false end
  else has_axis_type (y_cs y) Lat && has_axis_type (y_cs y) Lon.
Definition by_id : smap (sys P) :=
  fold_left (fun m y => if usable y then sput (horizontal_id (y_cs y)) y m else m) l [].
(** lines 382-390 *)
Definition variables : smap string :=
  fold_left (fun m v => match find_complete l (v_name v) with
                        | Some y => if smem (horizontal_id (y_cs y)) by_id then sput (v_name v) (horizontal_id (y_cs y)) m else m
                        | None => m
                        end) (vars c) [].
(** lines 394-416: a null pointer if there is no axis, an exception if the axis has no variable *)
Definition shape_at (a : option axis) : outcome (list string) :=
  match a with
  | None => UB
  | Some a => match find_var (ax_name a) (vars c) with Some v => Ok (v_shape v) | None => Throw end
  end.
Definition spoilt (y : sys P) : outcome (list string) :=
  do xs <- shape_at (geo_x (y_cs y)); do ys <- shape_at (geo_y (y_cs y));
  Ok (map v_name (filter (fun v => negb (one_of (v_name v) (map ax_name (get_axes (y_cs y)))) && negb (smem (v_name v) variables) &&
                                   existsb (fun d => one_of d (xs ++ ys)) (v_shape v)) (vars c))).
Definition incompatible : outcome (list string) :=
  omap (@concat string) (omapM (fun p => spoilt (snd p)) by_id).
(** lines 419-446 *)
Definition add_axis (cs : outcome csys) (a : option axis) : outcome csys :=
  do s <- cs; match a with None => UB | Some a => if snd (set_axis s a) then Throw else Ok (fst (set_axis s a)) end.
Definition minimal (y : sys P) : outcome (mini P) :=
  let s1 := add_axis (add_axis (Ok (mkCs [] [])) (geo_x (y_cs y))) (geo_y (y_cs y)) in
  let s2 := if has_axis_type (y_cs y) Lon then add_axis s1 (find_axis (y_cs y) Lon) else s1 in
  do s3 <- (if has_axis_type (y_cs y) Lat then add_axis s2 (find_axis (y_cs y) Lat) else s2);
  Ok (mkMini s3 (y_proj y) (skeys (filter (fun p => String.eqb (horizontal_id s3) (snd p)) variables))).
(** the minimal systems, the variables with their system, the incompatible variables; the number of
    systems is returned *)
Definition best : outcome (smap (mini P) * smap string * list string) :=
  match by_id with
  | [] => Ok ([], [], [])
  | _ =>
      do bad <- incompatible;
      do ms <- omapM (fun p => do m <- minimal (snd p); Ok (fst p, m)) by_id;
      Ok (ms, variables, bad)
  end.
End Best.
