(** Writing metadata and data as an NcML document: src/NcmlCDMWriter.cc.
    The result is the document as an XML parser delivers it, in the form of NmlModel. *)
From Coq Require Import NArith ZArith QArith Qcanon Ascii String List Bool.
From Verif Require Import Base StdMap SliceModel RegridModel StringModel TextModel ConvertModel CdmModel NmlModel.
Import ListNotations.
Local Open Scope string_scope.
Local Open Scope list_scope.
Local Open Scope nat_scope.

(** attribute-value normalisation of XML 1.0 (section 3.3.3): a literal tab, line feed or carriage return
    is delivered as a space; escapeXml writes them literally (src/XMLUtils.cc:153-181) *)
Definition ws (c : ascii) : ascii :=
  if Ascii.eqb c "009" || Ascii.eqb c "010" || Ascii.eqb c "013" then " "%char else c.
(** what is read of an XML attribute written with escapeXml *)
Definition xml (s : string) : string := st (map ws (s_ s)).
Definition joined (l : list string) (sep : string) : string := st (join (map s_ l) (s_ sep)).

Section Writer.
(** the metadata, getData, getDataSlice(name, position) and the printed form of a number *)
Variable c : cdm.
Variable get_data : string -> outcome (list value).
Variable get_record : string -> N -> outcome (list value).
Variable show : dtype -> value -> string.

(** write(out, dim), src/NcmlCDMWriter.cc:168-175 *)
Definition dim_el (d : cdim) : dimel :=
  mkDe (xml (d_name d)) None "" (Some (st (dec (d_len d)))) (if d_unlim d then Some "true" else None).

(** getStringValueWithSeparator(" "), src/CDMAttribute.cc:101-106 *)
Definition att_text (a : cattr) : string :=
  match a_type a with DString => a_text a | t => joined (map (show t) (a_nums a)) " " end.
(** write(out, att), src/NcmlCDMWriter.cc:178-190; for a list of strings see [strings_el] *)
Definition att_el (a : cattr) : attel :=
  mkAe (xml (a_name a)) None (st (fst (cdm2ncml (a_type a)))) (xml (att_text a)) "" "".

(** findStringsSeparator, src/NcmlCDMWriter.cc:54-75 *)
Definition contains (m s : string) : bool := match find_sub (s_ m) (s_ s) 0 with Some _ => true | None => false end.
Definition marker : string := "---NEXT-NCML-STRING---".
Definition separators : list string := [" "; ","; "|"; "#"; marker].
Definition find_separator (l : list string) : outcome string :=
  match find (fun m => negb (existsb (contains m) l)) separators with Some m => Ok m | None => Throw end.
(** write(out, att) for an attribute of type CDM_STRINGS *)
Definition strings_el (name : string) (l : list string) : outcome attel :=
  do m <- find_separator l;
  Ok (mkAe (xml name) None "strings" (xml (joined l m)) "" (if String.eqb m " " then "" else m)).

(** the values of a record, or of the variable: when the reader has none, as many fill values as the
    dimensions that are not unlimited make, 120-125, 146-157 *)
Definition fixed_size (v : cvar) : outcome N :=
  ofold (fun acc n => match find_dim n (dims c) with
                      | None => Throw
                      | Some d => Ok (if d_unlim d then acc else mul64 acc (d_len d)) end) (v_shape v) 1%N.
Definition filled (v : cvar) (size : N) (data : list value) : outcome (list value) :=
  match data with
  | [] => if (size =? 0)%N then Ok [] else do f <- get_fill c (v_name v); Ok (repeat f (N.to_nat size))
  | _ => Ok data
  end.
(** 134-143: the records in order, or the whole variable *)
Definition records (v : cvar) : outcome (list (list value)) :=
  do size <- fixed_size v;
  if has_unlimited c v then
    omapM (fun i => do d <- get_record (v_name v) (N.of_nat i); filled v size d)
          (seq 0 (match unlimited_dim c with Some d => N.to_nat (d_len d) | None => 0 end))
  else do d <- get_data (v_name v); do r <- filled v size d; Ok [r].
(** 127-158; simplified: not for strings *)
Definition values_text (v : cvar) : outcome string :=
  do rs <- records v; Ok (joined (map (fun r => joined (map (show (v_type v)) r) " ") rs) " ").

(** write(out, var), 193-223, and shapeToXMLStream, 45-52; simplified: the names in the shape, which are
    not escaped, hold no markup *)
Definition unsigned_el : attel := mkAe "_Unsigned" None "" "true" "" "".
Definition var_el (v : cvar) (values : list valel) : varel :=
  let '(name, u) := cdm2ncml (v_type v) in
  mkXe (Some (xml (v_name v))) None
       (match v_shape v with [] => None | _ => Some (xml (joined (rev (v_shape v)) " ")) end)
       (Some (match name with [] => "int" | _ => st name end))
       []
       ((if u then [unsigned_el] else []) ++ map att_el (attrs_of c (v_name v)))
       values [].
(** write(out, withData), 94-165 *)
Definition write_var (with_data : bool) (v : cvar) : outcome varel :=
  if with_data && negb (dtype_eqb (v_type v) DNat) then do t <- values_text v; Ok (var_el v [mkVe "" "" t ""])
  else Ok (var_el v []).
Definition write_doc (with_data : bool) : outcome doc :=
  do l <- omapM (write_var with_data) (vars c);
  Ok (mkDoc [] (map dim_el (dims c)) l (map att_el (attrs_of c global_ns))).
End Writer.
