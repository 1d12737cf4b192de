(** The metadata of vertical interpolation: which variables get the new vertical axis, which axes
    disappear, and what is rejected (CDMVerticalInterpolator). *)
From Coq Require Import NArith ZArith Ascii String List Bool.
From Verif Require Import Base StdMap RegridModel TextModel ConvertModel CdmModel FilesModel.
Import ListNotations.
Local Open Scope string_scope.
Local Open Scope list_scope.

(** ** removing a word from an attribute *)

(** std::regex_replace(coords, std::regex("\\b" + regex_escape(name) + "\\b"), ""),
    src/CDMVerticalInterpolator.cc:115.  [prev] is the character before the current position (if any).
    \b holds between two characters exactly one of which is in \w; the ends of the text count as not
    in \w.  The matches are taken from the left and do not overlap. *)
Definition word_opt (o : option ascii) : bool := match o with Some c => is_word c | None => false end.
Definition at_boundary (l r : option ascii) : bool := xorb (word_opt l) (word_opt r).
Definition head_opt (l : list ascii) : option ascii := match l with [] => None | c :: _ => Some c end.
Definition last_opt (o : option ascii) (l : list ascii) : option ascii := fold_left (fun _ c => Some c) l o.
(** the text after [name] if the text starts with it *)
Fixpoint strip (name text : list ascii) : option (list ascii) :=
  match name, text with
  | [], _ => Some text
  | _ :: _, [] => None
  | a :: n', b :: t' => if Ascii.eqb a b then strip n' t' else None
  end.
Definition word_here (name : list ascii) (prev : option ascii) (text : list ascii) : bool :=
  match strip name text with
  | None => false
  | Some rest => at_boundary prev (head_opt text) && at_boundary (last_opt prev name) (head_opt rest)
  end.
(** [skip] counts the characters of a match still to be left out *)
Fixpoint drop_word (name : list ascii) (prev : option ascii) (skip : nat) (text : list ascii) : list ascii :=
  match text with
  | [] => []
  | c :: t =>
    match skip with
    | S k => drop_word name (Some c) k t
    | O => if word_here name prev text && negb (Nat.eqb (List.length name) 0)
           then drop_word name (Some c) (List.length name - 1) t
           else c :: drop_word name (Some c) 0 t
    end
  end.
Definition without_word (name text : string) : string :=
  string_of_list_ascii (drop_word (list_ascii_of_string name) None 0 (list_ascii_of_string text)).

(** ** coordinate systems *)

(** the vertical axis of a coordinate system, CoordinateAxis: [z_id] stands for the object (axes are
    compared as pointers in line 327) *)
Record zaxis := mkZ { z_id : nat; z_name : string; z_shape : list string; z_explicit : bool }.
(** what of CoordinateSystem is used: getGeoXAxis and getGeoYAxis present, getGeoZAxis,
    isCSAndCompleteFor, getVerticalTransformation present *)
Record csys := mkCs { c_x : bool; c_y : bool; c_z : option zaxis; c_for : string -> bool; c_vert : bool }.

(** isSimpleZAxis, src/CDMVerticalInterpolator.cc:62-86 (without the log output) *)
Definition simple_z (c : cdm) (cs : csys) : bool :=
  match c_z cs with
  | None => false
  | Some z =>
    c_x cs && c_y cs && z_explicit z &&
    match z_shape z with
    | [d] => match find_dim d (dims c) with None => false | Some x => (1 <? d_len x)%N end
    | _ => false
    end
  end.

(** find and assignment, lines 101-107 *)
Fixpoint replace_first (old new : string) (shape : list string) : option (list string) :=
  match shape with
  | [] => None
  | d :: s => if String.eqb d old then Some (new :: s)
              else match replace_first old new s with None => None | Some s' => Some (d :: s') end
  end.
(** CDMVariable::setShape on the first variable of the name, line 108 *)
Fixpoint set_shape (n : string) (shape : list string) (l : list cvar) : list cvar :=
  match l with
  | [] => []
  | v :: l' => if String.eqb n (v_name v)
               then mkVar (v_name v) (v_type v) shape (v_counterpart v) (v_data v) :: l'
               else v :: set_shape n shape l'
  end.
(** CDMAttribute(name, string) *)
Definition sattr (n s : string) : cattr := mkAttr n DString [] s.

(** replaceZaxis, src/CDMVerticalInterpolator.cc:88-119 *)
Definition replace_z (c : cdm) (cs : csys) (n new : string) : outcome cdm :=
  if negb (c_for cs n) then Ok c
  else match c_z cs with
  | None => UB                                                    (* null pointer; callers have checked *)
  | Some z =>
    match z_shape z with
    | [] => Throw                                                 (* at(0) *)
    | z0 :: _ =>
      match find_var n (vars c) with
      | None => Throw
      | Some v =>
        match replace_first z0 new (v_shape v) with
        | None => Throw
        | Some shape =>
          let c1 := mkCdm (set_shape n shape (vars c)) (dims c) (attrs c) in
          match get_attr c1 n "coordinates" with
          | None => Ok c1
          | Some a =>
            match add_attr (remove_attr c1 n "coordinates") n (sattr "coordinates" (without_word (z_name z) (a_text a))) with
            | None => Throw
            | Some c2 => Ok c2
            end
          end
        end
      end
    end
  end.

(** ** the constructor *)

Inductive vtype := VPressure | VHeight | VAltitude | VDepth.
Inductive vmethod := MLin | MLinWeak | MLinNo | MLinConst | MLog | MLogLog | MNearest.
(** src/CDMVerticalInterpolator.cc:164-192 *)
Definition parse_type (s : string) : option vtype :=
  if String.eqb s "pressure" then Some VPressure
  else if String.eqb s "height" then Some VHeight
  else if String.eqb s "altitude" then Some VAltitude
  else if String.eqb s "depth" then Some VDepth
  else None.
Definition parse_method (s : string) : option vmethod :=
  if String.eqb s "linear" then Some MLin
  else if String.eqb s "linear_weak_extra" then Some MLinWeak
  else if String.eqb s "linear_no_extra" then Some MLinNo
  else if String.eqb s "linear_const_extra" then Some MLinConst
  else if String.eqb s "log" then Some MLog
  else if String.eqb s "loglog" then Some MLogLog
  else if String.eqb s "nearestneighbor" then Some MNearest
  else None.
(** lines 156-162: the data of all variables is dropped *)
Definition no_data (v : cvar) : cvar := mkVar (v_name v) (v_type v) (v_shape v) (v_counterpart v) None.
Definition cleared (c : cdm) : cdm := mkCdm (map no_data (vars c)) (dims c) (attrs c).

(** the object: its metadata, type and method, the final vertical axis, the changed coordinate
    systems and the template *)
Record vint := mkVint { i_cdm : cdm; i_type : vtype; i_method : vmethod; i_changed : list csys }.

(** CDMVerticalInterpolator::CDMVerticalInterpolator, src/CDMVerticalInterpolator.cc:152-193 *)
Definition vertical_interpolator (rc : cdm) (t m : string) : outcome vint :=
  match parse_type t with
  | None => Throw
  | Some ty => match parse_method m with None => Throw | Some me => Ok (mkVint (cleared rc) ty me []) end
  end.

(** ** the three targets *)

(** one coordinate system: lines 261-271, 289-300 and 324-337; [rm] tells whether the old axis goes at
    once (line 270) *)
Definition change_one (rm : bool) (names : list string) (new : string) (c : cdm) (cs : csys) : outcome cdm :=
  do c1 <- ofold (fun c n => replace_z c cs n new) names c;
  match c_z cs with
  | None => UB
  | Some z => Ok (if rm then remove_var c1 (z_name z) else c1)
  end.
(** the loop over the coordinate systems with the metadata and changeCoordSys *)
Definition change_all (rm : bool) (skip : csys -> bool) (names : list string) (new : string) (css : list csys)
  (s : cdm * list csys) : outcome (cdm * list csys) :=
  ofold (fun s cs => if negb (skip cs) && simple_z (fst s) cs
                     then do c' <- change_one rm names new (fst s) cs; Ok (c', snd s ++ [cs])
                     else Ok s) css s.

(** lines 218-231 *)
Definition base_name (t : vtype) : string :=
  match t with VPressure => "pressure" | VHeight => "height" | VAltitude => "height_above_msl" | VDepth => "depth" end.
(** lines 240-258 *)
Definition axis_attrs (t : vtype) : list cattr :=
  match t with
  | VPressure => [sattr "units" "hPa"]
  | VHeight => [sattr "units" "m"; sattr "positive" "up"; sattr "long_name" "height above ground"]
  | VAltitude => [sattr "units" "m"; sattr "positive" "up"; sattr "standard_name" "height_above_msl"]
  | VDepth => [sattr "units" "m"; sattr "positive" "down"]
  end.

Definition names_of (c : cdm) : list string := map v_name (vars c).

(** interpolateToFixed, src/CDMVerticalInterpolator.cc:209-273; [rc] is the metadata of the data
    reader and [css] its coordinate systems.  addDimension and addVariable throw for a name in use. *)
Definition to_fixed (rc : cdm) (css : list csys) (levels : list value) (i : vint) : outcome vint :=
  do v <- unique_dimvar rc (base_name (i_type i));
  if has_dim (i_cdm i) v then Throw
  else if has_var (i_cdm i) v then Throw
  else
    let c1 := mkCdm (vars (i_cdm i) ++ [mkVar v DDouble [v] "" (Some levels)])
                    (dims (i_cdm i) ++ [mkDim v (N.of_nat (List.length levels)) false]) (attrs (i_cdm i)) in
    match add_attrs c1 v (axis_attrs (i_type i)) with
    | (_, false) => Throw
    | (c2, true) =>
      do s <- change_all true (fun _ => false) (names_of rc) v css (c2, i_changed i);
      Ok (mkVint (fst s) (i_type i) (i_method i) (snd s))
    end.

(** interpolateToAxis, lines 275-305; removeZ is a set, here the names in the order of the coordinate
    systems with repetitions (removing a variable twice is the same as once) *)
Definition zname_is (v : string) (cs : csys) : bool :=
  match c_z cs with None => true | Some z => String.eqb (z_name z) v end.
Definition z_names (css : list csys) : list string :=
  flat_map (fun cs => match c_z cs with None => [] | Some z => [z_name z] end) css.
Definition to_axis (rc : cdm) (css : list csys) (v : string) (i : vint) : outcome vint :=
  if String.eqb v "" then Throw
  else
    do s <- change_all false (zname_is v) (names_of rc) v css (i_cdm i, []);
    Ok (mkVint (fold_left remove_var (z_names (snd s)) (fst s)) (i_type i) (i_method i) (i_changed i ++ snd s)).

(** interpolateByTemplateVariable, lines 307-339; findCompleteCoordinateSystemFor takes the first
    coordinate system complete for the variable *)
Definition same_z (z : option zaxis) (cs : csys) : bool :=
  match c_z cs, z with
  | Some a, Some b => Nat.eqb (z_id a) (z_id b)
  | None, None => true
  | _, _ => false
  end.
Definition by_template (rc : cdm) (css : list csys) (tv : string) (i : vint) : outcome vint :=
  match find (fun cs => c_for cs tv) css with
  | None => Throw
  | Some t =>
    if negb (simple_z (i_cdm i) t) then Throw
    else if negb (c_vert t) then Throw
    else match c_z t with
    | None => UB
    | Some zt =>
      match z_shape zt with
      | [] => Throw
      | z0 :: _ =>
        do s <- change_all false (same_z (Some zt)) (names_of rc) z0 css (i_cdm i, i_changed i);
        Ok (mkVint (fst s) (i_type i) (i_method i) (snd s))
      end
    end
  end.
