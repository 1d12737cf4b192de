(** The metadata of two merged files: makeMergedCDM and is_compatible, src/CDMMergeUtils.cc, the place the
    data of a merged variable are read from, src/CDMOverlay.cc and src/CDMBorderSmoothing.cc, and the choice
    of the target grid, src/CDMMerger.cc.  The metadata are those of CdmModel.v, the closure under
    auxiliary variables that of SelectModel.v. *)
From Coq Require Import NArith ZArith QArith String List Bool Arith.
From Verif Require Import Base StdMap CdmModel SelectModel.
Import ListNotations.
Local Open Scope string_scope.
Local Open Scope list_scope.
Local Open Scope nat_scope.

(** the axis types of checkAxesCompatibility, src/CDMMergeUtils.cc:100-108, in this order *)
Inductive mtype := MGeoZ | MTime | MPressure | MHeight | MDepth | MRefTime.
Definition mtypes : list mtype := [MGeoZ; MTime; MPressure; MHeight; MDepth; MRefTime].

(** what of CoordinateSystem is used: the variables it is a complete coordinate system for, its
    dependencies, the proj4 text of its projection if it has one and whether that is in degrees,
    isSimpleSpatialGridded, the names of the x and y axis and of the axes by type *)
Record msys := mkMsys {
  mc_for : string -> bool; mc_deps : list string; mc_proj : option string; mc_degree : bool; mc_simple : bool;
  mc_x : option string; mc_y : option string; mc_axis : mtype -> option string }.
(** findCompleteCoordinateSystemFor, src/coordSys/CoordinateSystem.cc *)
Definition sys_of (css : list msys) (n : string) : option msys := find (fun cs => mc_for cs n) css.

(** getDimension(..).getLength(), src/CDM.cc:268-276 *)
Definition dim_length (c : cdm) (n : string) : outcome N :=
  match find_dim n (dims c) with Some d => Ok (d_len d) | None => Throw end.

(** axisLength, src/CDMMergeUtils.cc:68-76: [None] is -2; the length is taken as an int, lengths of 2^31 and
    more are not modelled.  An axis that is no dimension (a scalar) throws. *)
Definition axis_len (c : cdm) (a : option string) : outcome (option N) :=
  match a with None => Ok None | Some n => omap Some (dim_length c n) end.
(** checkSingleAxisCompatibility, src/CDMMergeUtils.cc:78-96 *)
Definition axis_fits (b t : option N) : bool :=
  match b, t with
  | Some lb, Some lt => N.eqb lb lt
  | None, None => true
  | None, Some l | Some l, None => N.eqb l 1
  end.
(** checkAxesCompatibility, src/CDMMergeUtils.cc:98-119 *)
Fixpoint axes_fit (cB cT : cdm) (sB sT : msys) (ts : list mtype) : outcome bool :=
  match ts with
  | [] => Ok true
  | t :: r =>
      do lb <- axis_len cB (mc_axis sB t);
      do lt <- axis_len cT (mc_axis sT t);
      if axis_fits lb lt then axes_fit cB cT sB sT r else Ok false
  end.

(** the hops over dimensions of length 1, src/CDMMergeUtils.cc:202-210 *)
Fixpoint hop_ones (c : cdm) (s : list string) : outcome (list string) :=
  match s with
  | [] => Ok []
  | d :: r => do l <- dim_length c d; if N.eqb l 1 then hop_ones c r else Ok s
  end.
(** shape[idx] == cs->getGeoXAxis()->getName(), lines 219-222; a missing axis is a null pointer *)
Definition is_axis (a : option string) (d : string) : outcome bool :=
  match a with None => UB | Some n => Ok (String.eqb d n) end.
(** the loop over both shapes, lines 201-236 *)
Fixpoint shapes_fit (fuel : nat) (cB cT : cdm) (sB sT : msys) (b t : list string) : outcome bool :=
  match fuel with
  | O => Ok true
  | S f =>
    match b, t with
    | [], _ => Ok true
    | _, [] => Ok true
    | _, _ =>
      do b' <- hop_ones cB b;
      do t' <- hop_ones cT t;
      match b', t' with
      | [], [] => Ok true
      | [], _ :: _ => Ok false
      | _ :: _, [] => Ok false
      | db :: rb, dt :: rt =>
          do xb <- is_axis (mc_x sB) db; do xt <- is_axis (mc_x sT) dt;
          do yb <- is_axis (mc_y sB) db; do yt <- is_axis (mc_y sT) dt;
          if negb (Bool.eqb xb xt) || negb (Bool.eqb yb yt) then Ok false
          else
            do same <- (if xb || yb then Ok true
                        else do lb <- dim_length cB db; do lt <- dim_length cT dt; Ok (N.eqb lb lt));
            if same then shapes_fit f cB cT sB sT rb rt else Ok false
      end
    end
  end.
(** is_compatible, src/CDMMergeUtils.cc:164-240 *)
Definition is_compatible (cB cT : cdm) (csB csT : list msys) (n : string) : outcome bool :=
  match find_var n (vars cT), find_var n (vars cB) with
  | Some vT, Some vB =>
      match sys_of csB n, sys_of csT n with
      | None, None => Ok true
      | Some sB, Some sT =>
          do a <- axes_fit cB cT sB sT mtypes;
          if negb a then Ok false
          else if list_eq_dec string_dec (v_shape vB) (v_shape vT) then Ok true
          else shapes_fit (length (v_shape vB)) cB cT sB sT (v_shape vB) (v_shape vT)
      | _, _ => Ok false
      end
  | _, _ => Ok false
  end.

(** the arguments of CDMInterpolator::changeProjection, src/CDMMergeUtils.cc:269-270; the data type is
    double for both axes *)
Record target := mkTarget { t_proj : string; t_xs : list Q; t_ys : list Q; t_xunit : string; t_yunit : string }.

(** std::set<string> of the compatible variables, src/CDMMergeUtils.cc:279-284 *)
Fixpoint compatible_vars (compat : string -> outcome bool) (l : list string) : outcome (list string) :=
  match l with
  | [] => Ok []
  | n :: r => do b <- compat n; do k <- compatible_vars compat r; Ok (if (b : bool) then n :: k else k)
  end.

(** adding the dimensions of the outer file, lines 298-304 *)
Definition add_dims (c : cdm) (l : list cdim) : cdm :=
  fold_left (fun c d => if has_dim c (d_name d) then c else mkCdm (vars c) (dims c ++ [d]) (attrs c)) l c.
(** addVariable, src/CDM.cc:145-154 *)
Definition add_var (c : cdm) (v : cvar) : outcome cdm :=
  if has_var c (v_name v) then Throw else Ok (mkCdm (vars c ++ [v]) (dims c) (attrs c)).
(** one variable of the outer file with its attributes, lines 305-316; [cI] is the unchanged inner file *)
Definition add_outer_var (cI cO : cdm) (c : cdm) (v : cvar) : outcome cdm :=
  if has_var cI (v_name v) then Ok c
  else do c1 <- add_var c v;
       let (c2, ok) := add_attrs c1 (v_name v) (attrs_of cO (v_name v)) in
       if ok then Ok c2 else Throw.

Section Merged.
  (** getScaledDataInUnit of an axis of the inner file as doubles; [None]: no data *)
  Variable axis_values : string -> string -> outcome (option (list Q)).
  (** the metadata and coordinate systems of the outer file interpolated to a grid *)
  Variable interpolate : target -> outcome (cdm * list msys).

  (** getAxisValues, src/CDMMergeUtils.cc:49-66 *)
  Definition axis_of (cI : cdm) (name unit : string) : outcome (list Q) :=
    match find_dim name (dims cI) with
    | None => Throw
    | Some d =>
        if d_unlim d then Throw
        else do v <- axis_values name unit;
             match v with None => Throw | Some l => if length l <? 2 then Throw else Ok l end
    end.

  (** the conditions of lines 252-259 *)
  Definition gives_grid (cO : cdm) (csI : list msys) (v : cvar) : option (msys * string) :=
    if has_var cO (v_name v) then
      match sys_of csI (v_name v) with
      | Some cs => match mc_proj cs with Some p => if mc_simple cs then Some (cs, p) else None | None => None end
      | None => None
      end
    else None.
  (** the first variable of the inner file giving a grid, lines 250-274 *)
  Fixpoint first_grid (cO : cdm) (csI : list msys) (l : list cvar) : option (msys * string) :=
    match l with
    | [] => None
    | v :: r => match gives_grid cO csI v with Some g => Some g | None => first_grid cO csI r end
    end.
  (** lines 261-270: both units handed over are the one of the x axis *)
  Definition target_of (cI : cdm) (g : msys * string) : outcome target :=
    let (cs, p) := g in
    match mc_x cs, mc_y cs with
    | Some x, Some y =>
        let ux := get_units cI x in
        let uy := get_units cI y in
        do xs <- axis_of cI x ux;
        do ys <- axis_of cI y uy;
        Ok (mkTarget p xs ys ux ux)
    | _, _ => UB
    end.

  Definition dsys_of (cs : msys) : dsys := mkDsys (mc_for cs) (mc_deps cs).

  (** makeMergedCDM, src/CDMMergeUtils.cc:242-321: the merged metadata and those of the interpolated outer
      file *)
  Definition merged (fuel : nat) (cI cO : cdm) (csI : list msys) (keep_outer : bool) : outcome (cdm * cdm) :=
    match first_grid cO csI (vars cI) with
    | None => Throw
    | Some g =>
        do t <- target_of cI g;
        do i <- interpolate t;
        let (cI', csI') := i in
        do keep <- compatible_vars (is_compatible cI cI' csI csI') (map v_name (vars cI));
        do c <- select_variables fuel cI (map dsys_of csI) keep true;
        if keep_outer
        then do r <- ofold (add_outer_var cI cI') (vars cI') (add_dims c (dims cI')); Ok (r, cI')
        else Ok (c, cI')
    end.
End Merged.

(** where the data come from *)
Inductive source := FromInner | FromOuter | FromBoth.
(** CDMOverlay::getDataSlice, src/CDMOverlay.cc:94-114: [c] the metadata of the overlay, [cT] of the top
    file, [cB] of the interpolated base file *)
Definition overlay_source (c cT cB : cdm) (n : string) : outcome source :=
  if has_dim c n && has_var cT n then Ok FromInner
  else if negb (has_var cT n) then Ok FromOuter
  else if negb (has_var cB n) then Throw
  else Ok FromBoth.
(** CDMBorderSmoothing::getDataSlice, src/CDMBorderSmoothing.cc:98-105 *)
Definition smoothing_source (c cO : cdm) (n : string) : outcome source :=
  if negb (has_var c n) then Throw
  else if has_dim c n || negb (has_var cO n) then Ok FromInner
  else Ok FromBoth.

(** CDMMerger::setTargetGridFromInner, src/CDMMerger.cc:150-209: the coordinate systems of the first
    variable that gives a target grid, or none (then there is only a warning) *)
Definition gives_target (cI cO : cdm) (csI csO : list msys) (v : cvar) : option (msys * msys) :=
  let n := v_name v in
  if negb (has_var cO n) then None
  else if has_dim cI n || has_dim cO n then None
  else match sys_of csI n, sys_of csO n with
       | Some sI, Some sO =>
           if negb (mc_simple sI && mc_simple sO) then None
           else match mc_proj sI, mc_proj sO with
                | Some _, Some _ => if Bool.eqb (mc_degree sI) (mc_degree sO) then Some (sI, sO) else None
                | _, _ => None
                end
       | _, _ => None
       end.
Fixpoint target_systems (cI cO : cdm) (csI csO : list msys) (l : list cvar) : option (msys * msys) :=
  match l with
  | [] => None
  | v :: r => match gives_target cI cO csI csO v with Some g => Some g | None => target_systems cI cO csI csO r end
  end.
