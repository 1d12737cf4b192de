(** Changing a file by an NcML document: src/NcmlCDMReader.cc, src/NcmlUtils.cc.
    The XML document is given by its elements below /netcdf, each kind in document order (XPath node
    sets are in document order).  [None] is an absent XML attribute; where the code uses getXmlProp,
    which gives the empty string for an absent one, [prop] is applied. *)
From Coq Require Import NArith ZArith QArith Qcanon Ascii String List Bool.
From Verif Require Import Base StdMap SliceModel RegridModel StringModel TextModel ConvertModel CdmModel.
Import ListNotations.
Local Open Scope string_scope.
Local Open Scope list_scope.
Local Open Scope nat_scope.

(** ** the document *)

(** <remove name= type= /> *)
Record rmel := mkRm { rm_name : string; rm_type : string }.
(** <dimension name= orgName= overwriteName= length= isUnlimited= /> *)
Record dimel := mkDe { de_name : string; de_org : option string; de_over : string; de_len : option string; de_unlim : option string }.
(** <attribute name= orgName= type= value= separator= >content</attribute> *)
Record attel := mkAe { ae_name : string; ae_org : option string; ae_type : string; ae_value : string; ae_content : string; ae_sep : string }.
(** <values start= increment= separator= >content</values> *)
Record valel := mkVe { ve_start : string; ve_inc : string; ve_content : string; ve_sep : string }.
(** <variable name= orgName= shape= type= > with the elements in it; of <spatial_vector direction=
    counterpart= /> only the counterpart is kept (the direction is never refused,
    src/CDMVariable.cc:33-45) *)
Record varel := mkXe { xe_name : option string; xe_org : option string; xe_shape : option string; xe_type : option string;
                       xe_removes : list rmel; xe_atts : list attel; xe_values : list valel; xe_vectors : list string }.
Record doc := mkDoc { removes : list rmel; dimels : list dimel; varels : list varel; gatts : list attel }.

(** getXmlProp *)
Definition prop (o : option string) : string := match o with Some s => s | None => "" end.
Definition isempty (s : string) : bool := String.eqb s "".

(** ** texts *)

Definition st (s : str) : string := string_of_list_ascii s.
(** tokenize on strings *)
Definition toks (s delims : string) : outcome (list string) := do l <- tokenize (s_ s) (s_ delims); Ok (map st l).

Fixpoint begins (m s : str) : bool :=
  match m, s with
  | [], _ => true
  | a :: m', b :: s' => Ascii.eqb a b && begins m' s'
  | _ :: _, [] => false
  end.
(** std::string::find of a non-empty marker, counted from [i] *)
Fixpoint find_sub (m s : str) (i : nat) : option nat :=
  match s with
  | [] => if begins m s then Some i else None
  | _ :: s' => if begins m s then Some i else find_sub m s' (S i)
  end.
(** split_marker, src/NcmlCDMReader.cc:57-73; the marker is not empty; [fuel] bounds the rounds *)
Fixpoint marker_loop (fuel : nat) (m s : str) (previous : nat) : outcome (list str) :=
  match find_sub m (skipn previous s) previous with
  | Some current =>
      match fuel with
      | O => Hang
      | S fuel' =>
          do t <- substr s previous (Some (current - previous));
          do r <- marker_loop fuel' m s (current + length m);
          Ok (t :: r)
      end
  | None => do t <- substr s previous None; Ok [t]
  end.
Definition split_marker (s m : string) : outcome (list string) :=
  do l <- marker_loop (length (s_ s)) (s_ m) (s_ s) 0; Ok (map st l).
(** the characters separating values without an explicit separator, src/NcmlCDMReader.cc:78 *)
Definition value_seps : string := st [" "; ","; "009"; "013"; "010"]%char.
(** split_ncml_values, src/NcmlCDMReader.cc:75-81 *)
Definition split_values (values separator : string) : outcome (list string) :=
  if isempty separator then toks values value_seps else split_marker values separator.
(** fimexShapeFromXmlAtt, src/NcmlCDMReader.cc:83-94 *)
Definition shape_of_text (s : string) : outcome (list string) :=
  do l <- toks s (st [" "; "009"]%char); Ok (rev l).

(** conversion of an int to size_t, CDMDimension(name, long) and setLength, src/CDMDimension.cc *)
Definition length_of_text (s : string) : outcome N :=
  do z <- string2intT (s_ s); Ok (to_unsigned 64 z).

(** ** the reader *)

Section Source.
(** the wrapped reader: its metadata, getData(varName), and getDataSlice with, for each dimension of
    the variable's shape, first position and number of positions *)
Variable src : cdm.
Variable src_data : string -> outcome (list value).
Variable src_slice : string -> list (string * (N * N)) -> outcome (list value).
(** initDataByArray, src/DataUtils.cc:20-55: the values and, for attributes, the string value *)
Variable parse : dtype -> list string -> outcome (list value * string).
(** string2type<double> *)
Variable number_of : string -> outcome value.

(** the fields cdm_, variableNameChanges, dimensionNameChanges, variableTypeChanges *)
Record nml := mkN { n_cdm : cdm; n_vmap : smap string; n_dmap : smap string; n_tmap : smap dtype }.
Definition on_cdm (f : cdm -> outcome cdm) (s : nml) : outcome nml :=
  do c <- f (n_cdm s); Ok (mkN c (n_vmap s) (n_dmap s) (n_tmap s)).

(** initRemove, first loop, src/NcmlCDMReader.cc:164-189 *)
Definition remove_one (c : cdm) (r : rmel) : outcome cdm :=
  if isempty (rm_name r) then Throw
  else if isempty (rm_type r) then Throw
  else if String.eqb (rm_type r) "variable" then Ok (remove_var c (rm_name r))
  else if String.eqb (rm_type r) "dimension" then
    match remove_dim c (rm_name r) false with (c', Done _) => Ok c' | (_, Threw) => Throw end
  else if String.eqb (rm_type r) "attribute" then Ok (remove_attr c global_ns (rm_name r))
  else if String.eqb (rm_type r) "group" then Ok c
  else Throw.
(** second loop, 191-206 *)
Definition target (e : varel) : string := if isempty (prop (xe_org e)) then prop (xe_name e) else prop (xe_org e).
Definition remove_att (c : cdm) (er : varel * rmel) : outcome cdm :=
  let '(e, r) := er in
  if isempty (rm_name r) then Throw
  else if negb (String.eqb (rm_type r) "attribute") then Throw
  else if isempty (target e) then Throw
  else Ok (remove_attr c (target e) (rm_name r)).
Definition init_remove (d : doc) (c : cdm) : outcome cdm :=
  do c1 <- ofold remove_one (removes d) c;
  ofold remove_att (flat_map (fun e => map (pair e) (xe_removes e)) (varels d)) c1.

(** initDimensionNameChange, first loop, 431-441 *)
Definition rename_dimel (s : nml) (e : dimel) : outcome nml :=
  match de_org e with
  | None => Ok s
  | Some o =>
      if has_dim (n_cdm s) o then
        if isempty (de_name e) then Throw
        else match rename_dim (n_cdm s) o (de_name e) (String.eqb (de_over e) "true") with
             | (c', Done _) => Ok (mkN c' (n_vmap s) (sput o (de_name e) (n_dmap s)) (n_tmap s))
             | (_, Threw) => Throw
             end
      else Ok s
  end.
(** setLength on the first dimension of the name *)
Fixpoint set_len (n : string) (len : N) (l : list cdim) : list cdim :=
  match l with
  | [] => []
  | x :: l' => if String.eqb n (d_name x) then mkDim (d_name x) len (d_unlim x) :: l' else x :: set_len n len l'
  end.
(** second loop, 442-454 *)
Definition length_dimel (c : cdm) (e : dimel) : outcome cdm :=
  match de_len e with
  | None => Ok c
  | Some t =>
      do len <- length_of_text t;
      Ok (if has_dim c (de_name e) then mkCdm (vars c) (set_len (de_name e) len (dims c)) (attrs c)
          else mkCdm (vars c) (dims c ++ [mkDim (de_name e) len false]) (attrs c))
  end.
(** initDimensionUnlimited, 461-490 *)
Fixpoint set_unlim (n : string) (b : bool) (l : list cdim) : list cdim :=
  match l with
  | [] => []
  | x :: l' => if String.eqb n (d_name x) then mkDim (d_name x) (d_len x) b :: l' else x :: set_unlim n b l'
  end.
(** a change of the first variable of the name *)
Fixpoint upd_var (n : string) (f : cvar -> cvar) (l : list cvar) : list cvar :=
  match l with
  | [] => []
  | v :: l' => if String.eqb n (v_name v) then f v :: l' else v :: upd_var n f l'
  end.
Definition with_data (x : option (list value)) (v : cvar) : cvar := mkVar (v_name v) (v_type v) (v_shape v) (v_counterpart v) x.
Definition with_shape (x : list string) (v : cvar) : cvar := mkVar (v_name v) (v_type v) x (v_counterpart v) (v_data v).
Definition with_type (x : dtype) (v : cvar) : cvar := mkVar (v_name v) x (v_shape v) (v_counterpart v) (v_data v).
Definition with_counterpart (x : string) (v : cvar) : cvar := mkVar (v_name v) (v_type v) (v_shape v) x (v_data v).
Definition change_var (c : cdm) (n : string) (f : cvar -> cvar) : cdm := mkCdm (upd_var n f (vars c)) (dims c) (attrs c).
Definition unlim_dimel (c : cdm) (e : dimel) : outcome cdm :=
  match de_unlim e with
  | None => Ok c
  | Some u =>
      let n := de_name e in
      let org := if isempty (prop (de_org e)) then n else prop (de_org e) in
      match find_dim n (dims c) with
      | None => Ok c
      | Some x =>
          if String.eqb u "true" then
            if d_unlim x then Ok c
            else
              let c1 := mkCdm (vars c) (set_unlim n true (dims c)) (attrs c) in
              match find_var n (vars c1) with
              | Some v => match v_data v with
                          | None => do x <- src_data org; Ok (change_var c1 n (with_data (Some x)))
                          | Some _ => Ok c1
                          end
              | None => Ok c1
              end
          else if String.eqb u "false" then Ok (mkCdm (vars c) (set_unlim n false (dims c)) (attrs c))
          else Throw
      end
  end.

(** initVariableShapeChange, 215-234 *)
Definition shape_varel (c : cdm) (e : varel) : outcome cdm :=
  match xe_shape e with
  | None => Ok c
  | Some t =>
      if isempty (target e) then Throw
      else if has_var c (target e) then do s <- shape_of_text t; Ok (change_var c (target e) (with_shape s))
      else Ok c
  end.

(** initVariableNameChange, first loop, 404-413 *)
Definition rename_varel (s : nml) (e : varel) : outcome nml :=
  match xe_org e with
  | None => Ok s
  | Some o =>
      if has_var (n_cdm s) o then
        if isempty (prop (xe_name e)) then Throw
        else Ok (mkN (fst (rename_var (n_cdm s) o (prop (xe_name e)))) (sput (prop (xe_name e)) o (n_vmap s)) (n_dmap s) (n_tmap s))
      else Ok s
  end.
(** second loop, 415-425 *)
Definition add_varel (c : cdm) (e : varel) : outcome cdm :=
  match xe_org e with
  | Some _ => Ok c
  | None =>
      let n := prop (xe_name e) in
      let t := prop (xe_type e) in
      if negb (isempty t) && negb (has_var c n) then
        do ty <- string2datatype (s_ t);
        do sh <- shape_of_text (prop (xe_shape e));
        Ok (mkCdm (vars c ++ [mkVar n ty sh "" (Some [])]) (dims c) (attrs c))
      else Ok c
  end.

(** initVariableTypeChange, 236-265.  The attribute _Unsigned is looked up by the absolute path
    "/nc:attribute", that is, as the root of the document, which is <netcdf>: it is never found, and
    att_unsigned stays false. *)
Definition type_varel (s : nml) (e : varel) : outcome nml :=
  match xe_type e with
  | None => Ok s
  | Some t =>
      let n := prop (xe_name e) in
      if isempty n then Throw
      else match find_var n (vars (n_cdm s)) with
           | None => Ok s
           | Some v =>
               let ty := ncml_name2cdm (s_ t) false in
               if dtype_eqb ty DNat then Throw
               else if dtype_eqb ty (v_type v) then Ok s
               else Ok (mkN (change_var (n_cdm s) n (with_type ty)) (n_vmap s) (n_dmap s) (sput n ty (n_tmap s)))
           end
  end.

(** the product of the dimensions' lengths, 284-288, as size_t; an unknown dimension throws *)
Definition data_size (c : cdm) (shape : list string) : outcome N :=
  ofold (fun acc d => match find_dim d (dims c) with Some x => Ok (mul64 acc (d_len x)) | None => Throw end) shape 1%N.
(** array[0] + i * step for i below n; simplified: exact arithmetic instead of double *)
Definition progression (start step : value) (n : nat) : list value :=
  map (fun i => match i with
                | O => start
                | _ => match start, step with Some a, Some b => Some (a + z2q (Z.of_nat i) * b)%Qc | _, _ => None end
                end) (seq 0 n).
(** initVariableDataChange, 275-320; writing array[0] of an array without elements is UB *)
Definition values_one (c : cdm) (ev : varel * valel) : outcome cdm :=
  let '(e, x) := ev in
  let n := prop (xe_name e) in
  if isempty n then Throw
  else match find_var n (vars c) with
       | None => Ok c
       | Some v =>
           do size <- data_size c (v_shape v);
           if negb (Bool.eqb (isempty (ve_start x)) (isempty (ve_inc x))) then Throw
           else
             let have_start := negb (isempty (ve_start x)) && negb (isempty (ve_inc x)) in
             let have_values := negb (isempty (ve_content x)) in
             if Bool.eqb have_start have_values then Throw
             else if have_start then
               do a <- number_of (ve_start x);
               if (size =? 0)%N then UB
               else
                 do b <- number_of (ve_inc x);
                 do l <- convert_values DDouble (v_type v) (progression a b (N.to_nat size));
                 Ok (change_var c n (with_data (Some l)))
             else
               do l <- split_values (ve_content x) (ve_sep x);
               if (match v_shape v with [] => 1 <? length l | _ => negb (N.of_nat (length l) =? size)%N end) then Throw
               else do r <- parse (v_type v) l; Ok (change_var c n (with_data (Some (fst r))))
       end.

(** initVariableSpatialVector, 322-335 *)
Definition vector_one (c : cdm) (ev : varel * string) : outcome cdm :=
  let '(e, cp) := ev in
  let n := prop (xe_name e) in
  if isempty n then Throw else Ok (change_var c n (with_counterpart cp)).

(** the attribute renamed is the one at the position where orgName was found, after the attributes
    called [name] have been erased from the vector (504-506, 520-522): the reference into the vector
    is used after the erasure; past the new end it refers to a destroyed element *)
Fixpoint set_nth_name (i : nat) (n : string) (l : list cattr) : outcome (list cattr) :=
  match l with
  | [] => UB
  | a :: l' => match i with
               | O => Ok (mkAttr n (a_type a) (a_nums a) (a_text a) :: l')
               | S i' => do r <- set_nth_name i' n l'; Ok (a :: r)
               end
  end.
Fixpoint attr_pos (n : string) (l : list cattr) : option nat :=
  match l with
  | [] => None
  | a :: l' => if String.eqb n (a_name a) then Some O else option_map S (attr_pos n l')
  end.
Definition rename_att (c : cdm) (ns o n : string) : outcome cdm :=
  match attr_pos o (attrs_of c ns) with
  | None => Ok c                                                          (* the exception is caught *)
  | Some i =>
      let c1 := remove_attr c ns n in
      do l <- set_nth_name i n (attrs_of c1 ns);
      Ok (mkCdm (vars c1) (dims c1) (sput ns l (attrs c1)))
  end.
(** initAttributeNameChange, 495-529 *)
Definition rename_attel (ns : string) (c : cdm) (a : attel) : outcome cdm :=
  match ae_org a with
  | None => Ok c
  | Some o => if isempty (ae_name a) then Throw else rename_att c ns o (ae_name a)
  end.
Definition rename_vattel (c : cdm) (ea : varel * attel) : outcome cdm :=
  match xe_name (fst ea) with
  | None => Ok c                                                          (* variable[@name] *)
  | Some v => rename_attel v c (snd ea)
  end.

(** getAttributeValue, createAttributeFromXML, 338-370 *)
Definition att_value (a : attel) : string := if isempty (ae_value a) then ae_content a else ae_value a.
Definition make_att (a : attel) : outcome cattr :=
  let type := if isempty (ae_type a) then "string" else ae_type a in
  let ty := ncml_name2cdm (s_ type) false in
  if dtype_eqb ty DNat then Throw
  else
    do l <- (if String.eqb type "string" || String.eqb type "String" then Ok [att_value a] else split_values (att_value a) (ae_sep a));
    do r <- parse ty l;
    Ok (mkAttr (ae_name a) ty (fst r) (snd r)).
(** initAddReassignAttribute, 373-399 *)
Definition set_attel (ns : string) (c : cdm) (a : attel) : outcome cdm :=
  if isempty (att_value a) then Ok c
  else do x <- make_att a;
       match add_attr (remove_attr c ns (a_name x)) ns x with Some c' => Ok c' | None => Throw end.
Definition set_vattel (c : cdm) (ea : varel * attel) : outcome cdm := set_attel (prop (xe_name (fst ea))) c (snd ea).

Definition vatts (d : doc) : list (varel * attel) := flat_map (fun e => map (pair e) (xe_atts e)) (varels d).

(** init, 131-154 (the document has its root element /netcdf) *)
Definition init (d : doc) : outcome nml :=
  do c <- init_remove d src;
  do s1 <- ofold rename_dimel (dimels d) (mkN c [] [] []);
  do s2 <- on_cdm (ofold length_dimel (dimels d)) s1;
  do s3 <- on_cdm (ofold unlim_dimel (dimels d)) s2;
  do s4 <- on_cdm (ofold shape_varel (varels d)) s3;
  do s5 <- ofold rename_varel (varels d) s4;
  do s6 <- on_cdm (ofold add_varel (varels d)) s5;
  do s7 <- ofold type_varel (varels d) s6;
  do s8 <- on_cdm (ofold values_one (flat_map (fun e => map (pair e) (xe_values e)) (varels d))) s7;
  do s9 <- on_cdm (ofold vector_one (flat_map (fun e => map (pair e) (xe_vectors e)) (varels d))) s8;
  do s10 <- on_cdm (ofold (rename_attel global_ns) (gatts d)) s9;
  do s11 <- on_cdm (ofold rename_vattel (vatts d)) s10;
  do s12 <- on_cdm (ofold (set_attel global_ns) (gatts d)) s11;
  on_cdm (ofold set_vattel (vatts d)) s12.

(** ** data *)

(** SliceBuilder(dataReader->getCDM(), orgVarName): every dimension whole; the request is kept by
    dimension name, in the order of the shape *)
Definition whole (sh : list string) : outcome (list (string * (N * N))) :=
  omapM (fun d => match find_dim d (dims src) with Some x => Ok (d, (0%N, d_len x)) | None => Throw end) sh.
Definition asked (req : list (string * (N * N))) (d : string) : option (N * N) := sfind d req.
(** the name of an original dimension in the changed file, 562-563 *)
Definition new_dim (s : nml) (d : string) : string := match sfind d (n_dmap s) with Some x => x | None => d end.
(** 564-568: a dimension is asked for beyond its original end *)
Definition too_far (s : nml) (req : list (string * (N * N))) (p : string * (N * N)) : bool :=
  match asked req (new_dim s (fst p)) with Some (b, k) => (snd (snd p) <? add64 b k)%N | None => false end.
(** 569-577: the part of an original dimension that is read; setStartAndSize throws for a dimension
    without positions *)
Definition org_part (s : nml) (req : list (string * (N * N))) (p : string * (N * N)) : outcome (string * (N * N)) :=
  match asked req (new_dim s (fst p)) with
  | Some r => Ok (fst p, r)
  | None => if (snd (snd p) <? 1)%N then Throw else Ok (fst p, (0%N, 1%N))
  end.
(** a number as used by convertDataType: NaN is not modelled as scale or offset *)
Definition qc_of (v : value) : outcome Qc := match v with Some q => Ok q | None => UB end.
(** applyVariableTypeChange, 585-602 *)
Definition retype (s : nml) (n o : string) (tin : dtype) (data : list value) : outcome (list value) :=
  match sfind n (n_tmap s) with
  | None => Ok data
  | Some t =>
      do f0 <- get_fill src o; do s0' <- get_scale src o; do o0' <- get_offset src o;
      do f1 <- get_fill (n_cdm s) n; do s1' <- get_scale (n_cdm s) n; do o1' <- get_offset (n_cdm s) n;
      do s0 <- qc_of s0'; do o0 <- qc_of o0'; do s1 <- qc_of s1'; do o1 <- qc_of o1';
      convert_data_type tin t f0 s0 o0 f1 s1 o1 data
  end.
(** getDataSlice(varName, sb), 542-583, for a variable whose data are not in memory.  [req] holds, for
    each dimension of the variable, first position and number. *)
Definition get_slice (s : nml) (n : string) (req : list (string * (N * N))) : outcome (list value) :=
  match find_var n (vars (n_cdm s)) with
  | None => Throw
  | Some _ =>
      let o := match sfind n (n_vmap s) with Some x => x | None => n end in
      match find_var o (vars src) with
      | None => Throw
      | Some ov =>
          do w <- whole (v_shape ov);
          if existsb (too_far s req) w then Ok []
          else
            do r <- omapM (org_part s req) w;
            do data <- src_slice o r;
            retype s n o (v_type ov) data
      end
  end.
End Source.
