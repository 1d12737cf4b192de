(** The metadata model (CDM): variables, dimensions, attributes and the operations editing them;
    generated names and shape comparison. *)
From Coq Require Import NArith ZArith Ascii String List Bool.
From Verif Require Import Base StdMap RegridModel TextModel ConvertModel.
Import ListNotations.
Local Open Scope string_scope.
Local Open Scope list_scope.

(** CDMDimension, include/fimex/CDMDimension.h: name, length, unlimited *)
Record cdim := mkDim { d_name : string; d_len : N; d_unlim : bool }.
(** CDMAttribute, include/fimex/CDMAttribute.h: name and data; the numbers are asDouble() of the
    data, the text its string value *)
Record cattr := mkAttr { a_name : string; a_type : dtype; a_nums : list value; a_text : string }.
(** CDMVariable, include/fimex/CDMVariable.h: name, data type, shape, the name of the other component
    of a vector, and data if present *)
Record cvar := mkVar { v_name : string; v_type : dtype; v_shape : list string; v_counterpart : string; v_data : option (list value) }.

(** CDMImpl, src/CDM.cc:100-111 without the cached coordinate systems: the vectors of variables and
    dimensions and the map from variable name to attributes *)
Record cdm := mkCdm { vars : list cvar; dims : list cdim; attrs : smap (list cattr) }.

(** the cached coordinate systems, src/CDM.cc:104-105: [None] is coordsInitialized == false, [Some c]
    are the coordinate systems computed from the content [c] *)
Record state := mkState { cur : cdm; coords : option cdm }.

(** CDM::globalAttributeNS, include/fimex/CDM.h:259 *)
Definition global_ns : string := "_GLOBAL".

(** find_if with CDMNameEqual, include/fimex/CDMNamedEntity.h:58-68 *)
Definition find_var (n : string) (l : list cvar) : option cvar := find (fun v => String.eqb n (v_name v)) l.
Definition find_dim (n : string) (l : list cdim) : option cdim := find (fun d => String.eqb n (d_name d)) l.
Definition find_attr (n : string) (l : list cattr) : option cattr := find (fun a => String.eqb n (a_name a)) l.
Definition is_some {A} (o : option A) : bool := match o with Some _ => true | None => false end.

(** hasVariable, hasDimension, getAttributes, src/CDM.cc:155-158, 263-266, 450-458 *)
Definition has_var (c : cdm) (n : string) : bool := is_some (find_var n (vars c)).
Definition has_dim (c : cdm) (n : string) : bool := is_some (find_dim n (dims c)).
Definition attrs_of (c : cdm) (n : string) : list cattr := match sfind n (attrs c) with Some l => l | None => [] end.
(** getAttribute, src/CDM.cc:430-442 (and 410-421, which throws where this is [None]) *)
Definition get_attr (c : cdm) (n a : string) : option cattr :=
  match sfind n (attrs c) with None => None | Some l => find_attr a l end.

(** result of an operation: a boolean, or an exception *)
Inductive result := Done (b : bool) | Threw.

(** removeVariable, src/CDM.cc:245-250 *)
Definition remove_var (c : cdm) (n : string) : cdm :=
  mkCdm (filter (fun v => negb (String.eqb n (v_name v))) (vars c)) (dims c) (serase n (attrs c)).

(** var.setName on the first variable of the name, src/CDM.cc:191-192 *)
Fixpoint set_name (o n : string) (l : list cvar) : list cvar :=
  match l with
  | [] => []
  | v :: l' => if String.eqb o (v_name v)
               then mkVar n (v_type v) (v_shape v) (v_counterpart v) (v_data v) :: l'
               else v :: set_name o n l'
  end.

(** addAttribute, src/CDM.cc:373-386; [None] is an exception (nothing is changed then: the map entry
    exists already) *)
Definition add_attr (c : cdm) (n : string) (a : cattr) : option cdm :=
  if negb (String.eqb n global_ns) && negb (has_var c n) then None
  else if is_some (find_attr (a_name a) (attrs_of c n)) then None
  else Some (mkCdm (vars c) (dims c) (sput n (attrs_of c n ++ [a]) (attrs c))).

(** the loop over the attributes, src/CDM.cc:195-197: an exception leaves what was added before *)
Fixpoint add_attrs (c : cdm) (n : string) (l : list cattr) : cdm * bool :=
  match l with
  | [] => (c, true)
  | a :: l' => match add_attr c n a with
               | None => (c, false)
               | Some c' => add_attrs c' n l'
               end
  end.

(** renameVariable, src/CDM.cc:185-204: exceptions are turned into the result false *)
Definition rename_var (c : cdm) (o n : string) : cdm * bool :=
  let c1 := remove_var c n in
  if has_var c1 o then
    let c2 := mkCdm (set_name o n (vars c1)) (dims c1) (attrs c1) in
    let '(c3, ok) := add_attrs c2 n (attrs_of c2 o) in
    if ok then (remove_var c3 o, true) else (c3, false)
  else (c1, false).

(** testDimensionInUse, src/CDM.cc:285-295; checkDimension, src/CDMVariable.cc *)
Definition check_dim (d : string) (v : cvar) : bool := existsb (String.eqb d) (v_shape v).
Definition dim_in_use (c : cdm) (d : string) : bool := has_dim c d && existsb (check_dim d) (vars c).

(** removeDimension, src/CDM.cc:335-349 *)
Definition remove_dim (c : cdm) (n : string) (ignore : bool) : cdm * result :=
  if negb ignore && dim_in_use c n then (c, Threw)
  else (mkCdm (vars c) (filter (fun d => negb (String.eqb n (d_name d))) (dims c)) (attrs c), Done (has_dim c n)).

(** dim.setName, src/CDM.cc:313-314 *)
Fixpoint set_dname (o n : string) (l : list cdim) : list cdim :=
  match l with
  | [] => []
  | d :: l' => if String.eqb o (d_name d) then mkDim n (d_len d) (d_unlim d) :: l' else d :: set_dname o n l'
  end.
(** the shapes, src/CDM.cc:316-326 *)
Definition rename_shape (o n : string) (v : cvar) : cvar :=
  mkVar (v_name v) (v_type v) (map (fun s => if String.eqb s o then n else s) (v_shape v)) (v_counterpart v) (v_data v).

(** renameDimension, src/CDM.cc:302-328 *)
Definition rename_dim (c : cdm) (o n : string) (ignore : bool) : cdm * result :=
  if negb (has_dim c o) then (c, Done false)
  else
    let '(c1, r) := if has_dim c n
                    then (if negb ignore && dim_in_use c n then (c, Threw) else remove_dim c n ignore)
                    else (c, Done true) in
    match r with
    | Threw => (c1, Threw)
    | Done _ =>
        if has_dim c1 o                                                    (* 313: getDimension throws *)
        then (mkCdm (map (rename_shape o n) (vars c1)) (set_dname o n (dims c1)) (attrs c1), Done true)
        else (c1, Threw)
    end.

(** removeAttribute, src/CDM.cc:399-407 *)
Definition remove_attr (c : cdm) (n a : string) : cdm :=
  match sfind n (attrs c) with
  | None => c
  | Some l => mkCdm (vars c) (dims c) (sput n (filter (fun x => negb (String.eqb a (a_name x))) l) (attrs c))
  end.

(** addOrReplaceAttribute, src/CDM.cc:388-397 *)
Definition replace_attr (c : cdm) (n : string) (a : cattr) : option cdm :=
  if negb (String.eqb n global_ns) && negb (has_var c n) then None
  else let c1 := remove_attr c n (a_name a) in
       Some (mkCdm (vars c1) (dims c1) (sput n (attrs_of c1 n ++ [a]) (attrs c1))).

(** the public editing operations, and a query for coordinate systems (getProjectionOf,
    getHorizontalXAxis and so on, all of which call enhance first) *)
Inductive op :=
| AddVar (v : cvar) | RemVar (n : string) | RenVar (o n : string)
| AddDim (d : cdim) | RemDim (n : string) (ignore : bool) | RenDim (o n : string) (ignore : bool)
| AddAttr (n : string) (a : cattr) | RepAttr (n : string) (a : cattr) | RemAttr (n a : string)
| QueryCoords.

(** one operation; each sets coordsInitialized = false where the code does (addVariable 148,
    renameVariable 187, removeVariable 247, addDimension 255, renameDimension 304, removeDimension
    347 only if something was erased, addAttribute 375, addOrReplaceAttribute 390, removeAttribute
    401); enhance, 113-122 *)
Definition step (s : state) (o : op) : state * result :=
  let c := cur s in
  match o with
  | AddVar v => if has_var c (v_name v) then (mkState c None, Threw)
                else (mkState (mkCdm (vars c ++ [v]) (dims c) (attrs c)) None, Done true)
  | RemVar n => (mkState (remove_var c n) None, Done true)
  | RenVar o n => let '(c', b) := rename_var c o n in (mkState c' None, Done b)
  | AddDim d => if has_dim c (d_name d) then (mkState c None, Threw)
                else (mkState (mkCdm (vars c) (dims c ++ [d]) (attrs c)) None, Done true)
  | RemDim n ig => let '(c', r) := remove_dim c n ig in
                   (mkState c' (match r with Done true => None | _ => coords s end), r)
  | RenDim o n ig => let '(c', r) := rename_dim c o n ig in (mkState c' None, r)
  | AddAttr n a => match add_attr c n a with
                   | None => (mkState c None, Threw)
                   | Some c' => (mkState c' None, Done true)
                   end
  | RepAttr n a => match replace_attr c n a with
                   | None => (mkState c None, Threw)
                   | Some c' => (mkState c' None, Done true)
                   end
  | RemAttr n a => (mkState (remove_attr c n a) None, Done true)
  | QueryCoords => (mkState c (match coords s with None => Some c | Some x => Some x end), Done true)
  end.

Fixpoint run (s : state) (l : list op) : state :=
  match l with [] => s | o :: l' => run (fst (step s o)) l' end.

Definition empty_cdm : cdm := mkCdm [] [] [].
Definition fresh : state := mkState empty_cdm None.

(** ** queries *)

(** getUnlimitedDim, hasUnlimitedDim, src/CDM.cc:352-370 *)
Definition unlimited_dim (c : cdm) : option cdim := find d_unlim (dims c).
Definition has_unlimited (c : cdm) (v : cvar) : bool :=
  match unlimited_dim c with None => false | Some d => existsb (String.eqb (d_name d)) (v_shape v) end.

(** findVariables, src/CDM.cc:221-242; the regular expressions are given as predicates on the string
    value *)
Definition find_variables (c : cdm) (wanted : list (string * (string -> bool))) (wdims : list string) : list string :=
  map v_name (filter (fun v =>
    forallb (fun w => match get_attr c (v_name v) (fst w) with Some a => snd w (a_text a) | None => false end) wanted &&
    forallb (fun d => check_dim d v) wdims) (vars c)).

(** attr.getData()->asDouble()[0]: reading past the end for an attribute without values *)
Definition first_num (a : cattr) : outcome value := rd (nth_error (a_nums a) 0).

(** getFillValue, src/CDM.cc:477-492; defaultFillValue_ is [default_fill] *)
Definition get_fill (c : cdm) (n : string) : outcome value :=
  match (match get_attr c n "_FillValue" with Some a => Some a | None => get_attr c n "missing_value" end) with
  | Some a => match find_var n (vars c) with
              | None => Throw
              | Some v => if dtype_eqb (v_type v) (a_type a) then first_num a else Throw
              end
  | None => match find_var n (vars c) with
            | Some v => Ok (default_fill (v_type v))
            | None => Ok None
            end
  end.
(** getValidMin, getValidMax, src/CDM.cc:494-517 *)
Definition get_valid_min (c : cdm) (n : string) : outcome value :=
  match get_attr c n "valid_min" with
  | Some a => first_num a
  | None => match get_attr c n "valid_range" with Some a => first_num a | None => Ok None end
  end.
Definition get_valid_max (c : cdm) (n : string) : outcome value :=
  match get_attr c n "valid_max" with
  | Some a => first_num a
  | None => match get_attr c n "valid_range" with
            | Some a => match a_nums a with _ :: m :: _ => Ok m | _ => Ok None end
            | None => Ok None
            end
  end.
(** getAddOffset, getScaleFactor, src/CDM.cc:519-537 *)
Definition get_offset (c : cdm) (n : string) : outcome value :=
  match get_attr c n "add_offset" with Some a => first_num a | None => Ok (Some (z2q 0)) end.
Definition get_scale (c : cdm) (n : string) : outcome value :=
  match get_attr c n "scale_factor" with Some a => first_num a | None => Ok (Some (z2q 1)) end.
(** getUnits, src/CDM.cc:539-546 *)
Definition get_units (c : cdm) (n : string) : string :=
  match get_attr c n "units" with Some a => a_text a | None => "" end.

(** ** generated names *)

(** type2string of a number *)
Definition number (n : N) : string := string_of_list_ascii (dec n).

(** findUniqueDimVarName, src/CDMReaderUtils.cc:163-174 *)
Fixpoint try_numbers (taken : string -> bool) (base : string) (i : N) (todo : nat) : outcome string :=
  match todo with
  | O => Throw
  | S todo' => let name := (base ++ number i)%string in
               if taken name then try_numbers taken base (i + 1) todo' else Ok name
  end.
Definition unique_dimvar (c : cdm) (base : string) : outcome string :=
  let taken := fun n => has_var c n || has_dim c n in
  if taken base then try_numbers taken base 0 99 else Ok base.

(** findUniqueVarName, findUniqueDimName, src/CDMReaderUtils.cc:176-192: the loop has no limit (the
    counter is an int; that it overflows would need 2^31 names) *)
Fixpoint count_up (taken : string -> bool) (base name : string) (i : N) (fuel : nat) : outcome string :=
  if taken name then
    match fuel with
    | O => Hang
    | S fuel' => count_up taken base (base ++ number (i + 1))%string (i + 1) fuel'
    end
  else Ok name.
Definition unique_var (fuel : nat) (c : cdm) (name : string) : outcome string := count_up (has_var c) name name 0 fuel.
Definition unique_dim (fuel : nat) (c : cdm) (name : string) : outcome string := count_up (has_dim c) name name 0 fuel.

(** ** shapes *)

(** getCDMDimensionSizes, src/CDMReaderUtils.cc:93-101, and map::operator\[\], which gives 0 for an
    unknown name *)
Definition dim_sizes (c : cdm) : smap N := fold_left (fun m d => sput (d_name d) (d_len d) m) (dims c) [].
Definition size_of (m : smap N) (n : string) : N := match sfind n m with Some k => k | None => 0%N end.

(** the inner loop, src/CDMReaderUtils.cc:138-140 and 154-156 *)
Fixpoint skip_ones (size : string -> N) (s : list string) : list string :=
  match s with
  | [] => []
  | d :: s' => if (size d =? 1)%N then skip_ones size s' else s
  end.
(** compareCDMVarShapes, src/CDMReaderUtils.cc:131-160 *)
Fixpoint compare_shapes (size1 size2 : string -> N) (s1 s2 : list string) : bool :=
  match s1 with
  | [] => match skip_ones size2 s2 with [] => true | _ => false end
  | d1 :: s1' =>
      if (size1 d1 =? 1)%N then compare_shapes size1 size2 s1' s2
      else match skip_ones size2 s2 with
           | [] => false
           | d2 :: s2' => if (size1 d1 =? size2 d2)%N then compare_shapes size1 size2 s1' s2' else false
           end
  end.
Definition same_shape (c1 : cdm) (n1 : string) (c2 : cdm) (n2 : string) : outcome bool :=
  match find_var n1 (vars c1), find_var n2 (vars c2) with
  | Some v1, Some v2 => Ok (compare_shapes (size_of (dim_sizes c1)) (size_of (dim_sizes c2)) (v_shape v1) (v_shape v2))
  | _, _ => Throw
  end.

