(** Metadata and the positions of GRIB messages written to an index file and read from it,
    src/ProtobufCDM.cc, src/io/grib/GribProtobufIndexWriter.cc, src/io/grib/GribProtobufIndexReader.cc.
    The messages are those of src/protobuf/cdm.proto and
    src/io/grib/protobuf/grib_index.proto; turning a message into bytes
    and back is the protobuf library's. A string's number in the table is not cut to 32 bits: a message
    with so many strings exceeds the 2 GB the library can write. *)
From Coq Require Import ZArith NArith Ascii String List Bool.
From Verif Require Import Base StdMap RegridModel StringModel ConvertModel CdmModel.
Import ListNotations.
Local Open Scope string_scope.
Local Open Scope list_scope.

(** ** metadata with their data *)

(** Data: the values of the integral types and of CDM_CHAR and CDM_UCHAR, of CDM_FLOAT and
    CDM_DOUBLE, the text of CDM_STRING, the texts of CDM_STRINGS, nothing for CDM_NAT *)
Inductive content := Ints (l : list Z) | Reals (l : list value) | Text (s : string) | Texts (l : list string) | Nothing.
Record data := mkData { d_type : dtype; d_content : content }.

(** CDMAttribute, include/fimex/CDMAttribute.h: name and data, which may be a null pointer *)
Record attribute := mkAtt { at_name : string; at_data : option data }.
(** CDMVariable, include/fimex/CDMVariable.h, with the other component and the direction of a vector *)
Record variable := mkVariable
  { va_name : string; va_type : dtype; va_shape : list string; va_data : option data; va_vector : option (string * nat) }.
(** CDMImpl, src/CDM.cc:100-111 without the cached coordinate systems *)
Record meta := mkMeta { m_dims : list cdim; m_vars : list variable; m_atts : smap (list attribute) }.
Definition no_meta : meta := mkMeta [] [] [].

(** getAttributes, hasDimension, hasVariable, src/CDM.cc:450-458, 263-266, 155-158 *)
Definition atts_of (m : meta) (n : string) : list attribute := match sfind n (m_atts m) with Some l => l | None => [] end.
Definition dim_known (m : meta) (n : string) : bool := existsb (fun d => String.eqb n (d_name d)) (m_dims m).
Definition var_known (m : meta) (n : string) : bool := existsb (fun v => String.eqb n (va_name v)) (m_vars m).
(** addDimension, addVariable, addAttribute, src/CDM.cc:253-261, 145-154, 373-386 *)
Definition add_dimension (m : meta) (d : cdim) : outcome meta :=
  if dim_known m (d_name d) then Throw else Ok (mkMeta (m_dims m ++ [d]) (m_vars m) (m_atts m)).
Definition add_variable (m : meta) (v : variable) : outcome meta :=
  if var_known m (va_name v) then Throw else Ok (mkMeta (m_dims m) (m_vars m ++ [v]) (m_atts m)).
Definition add_attribute (n : string) (m : meta) (a : attribute) : outcome meta :=
  if negb (String.eqb n global_ns) && negb (var_known m n) then Throw
  else if existsb (fun b => String.eqb (at_name a) (at_name b)) (atts_of m n) then Throw
  else Ok (mkMeta (m_dims m) (m_vars m) (sput n (atts_of m n ++ [a]) (m_atts m))).

(** CDMAttribute::getDataType, src/CDMAttribute.cc:108-111: the null pointer is followed *)
Definition attribute_type (a : attribute) : outcome dtype := match at_data a with None => UB | Some d => Ok (d_type d) end.
(** CDMVariable::setData, src/CDMVariable.cc:78-85 *)
Definition set_data (v : variable) (d : data) : outcome variable :=
  if dtype_eqb (va_type v) (d_type d)
  then Ok (mkVariable (va_name v) (va_type v) (va_shape v) (Some d) (va_vector v)) else Throw.

(** ** the messages *)

(** CDMData, cdm.proto:21-29: values_u32, values_u64, values_f32 or values_f64, strings, values_u8 *)
Record mdata := mkMData
  { x_type : dtype; x_u32 : list Z; x_u64 : list Z; x_f32 : list value; x_f64 : list value; x_strings : list nat; x_u8 : list Z }.
(** CDMAttribute, CDMDimension, CDMVariable, CDM, cdm.proto:31-54 *)
Record matt := mkMAtt { xa_name : nat; xa_data : mdata }.
Record mdim := mkMDim { xd_name : nat; xd_length : N; xd_unlimited : bool }.
Record mvar := mkMVar { xv_name : nat; xv_data : mdata; xv_shape : list nat; xv_atts : list matt }.
Record mcdm := mkMCdm { x_table : list string; x_dims : list mdim; x_vars : list mvar; x_globals : list matt }.

(** conversion of an integer to an unsigned type of 8, 32 or 64 bits *)
Definition u8 (z : Z) : Z := (z mod 256)%Z.
Definition u32 (z : Z) : Z := (z mod 4294967296)%Z.
Definition u64 (z : Z) : Z := (z mod 18446744073709551616)%Z.
(** conversion to the integral type [t] of a value of a field *)
Definition into (t : dtype) (z : Z) : Z := match int_range t with Some (lo, hi) => wrap lo hi z | None => z end.

(** the getters of src/ProtobufCDM.cc:249-300: asChar, asInt, asFloat, asStrings, asString of data of the
    written type. Data of another type are an exception here (the getters would convert them):
    attributes are written with the type of their data and variables cannot hold data of another type *)
Definition ints_of (d : data) : outcome (list Z) := match d_content d with Ints l => Ok l | _ => Throw end.
Definition reals_of (d : data) : outcome (list value) := match d_content d with Reals l => Ok l | _ => Throw end.
Definition texts_of (d : data) : outcome (list string) := match d_content d with Texts l => Ok l | _ => Throw end.
Definition text_of (d : data) : outcome string := match d_content d with Text s => Ok s | _ => Throw end.

(** ** writing *)

(** add of every string in turn, src/ProtobufCDM.cc:207-209, 290-293 *)
Fixpoint add_strings (b : slb) (l : list string) : slb * list nat :=
  match l with
  | [] => (b, [])
  | s :: l' => let '(b1, i) := slb_add b s in let '(b2, is) := add_strings b1 l' in (b2, i :: is)
  end.

(** writeData, src/ProtobufCDM.cc:238-302 *)
Definition write_data (b : slb) (t : dtype) (od : option data) : outcome (slb * mdata) :=
  match od with
  | None => Ok (b, mkMData t [] [] [] [] [] [])                              (* 240-242 *)
  | Some d =>
      match t with
      | DNat => Ok (b, mkMData t [] [] [] [] [] [])                          (* 246-248 *)
      | DChar | DUChar => do l <- ints_of d; Ok (b, mkMData t [] [] [] [] [] (map u8 l))
      | DShort | DInt | DUShort | DUInt => do l <- ints_of d; Ok (b, mkMData t (map u32 l) [] [] [] [] [])
      | DInt64 | DUInt64 => do l <- ints_of d; Ok (b, mkMData t [] (map u64 l) [] [] [] [])
      | DFloat => do l <- reals_of d; Ok (b, mkMData t [] [] l [] [] [])
      | DDouble => do l <- reals_of d; Ok (b, mkMData t [] [] [] l [] [])
      | DStrings => do l <- texts_of d; let '(b1, is) := add_strings b l in Ok (b1, mkMData t [] [] [] [] is [])
      | DString => do s <- text_of d; let '(b1, i) := slb_add b s in Ok (b1, mkMData t [] [] [] [] [i] [])
      end
  end.

(** writeAttribute, src/ProtobufCDM.cc:217-221 *)
Definition write_attribute (b : slb) (a : attribute) : outcome (slb * matt) :=
  let '(b1, i) := slb_add b (at_name a) in
  do t <- attribute_type a;
  do (b2, x) <- write_data b1 t (at_data a);
  Ok (b2, mkMAtt i x).

(** a loop writing one message after the other *)
Fixpoint write_all {A X} (w : slb -> A -> outcome (slb * X)) (b : slb) (l : list A) : outcome (slb * list X) :=
  match l with
  | [] => Ok (b, [])
  | a :: l' => do (b1, x) <- w b a; do (b2, xs) <- write_all w b1 l'; Ok (b2, x :: xs)
  end.

(** one dimension, src/ProtobufCDM.cc:193-198: the length is stored with 32 bits *)
Definition write_dimension (b : slb) (d : cdim) : outcome (slb * mdim) :=
  let '(b1, i) := slb_add b (d_name d) in
  Ok (b1, mkMDim i (d_len d mod 4294967296)%N (d_unlim d)).

(** one variable, src/ProtobufCDM.cc:200-210 *)
Definition write_variable (m : meta) (b : slb) (v : variable) : outcome (slb * mvar) :=
  let '(b1, i) := slb_add b (va_name v) in
  do (b2, atts) <- write_all write_attribute b1 (atts_of m (va_name v));
  do (b3, x) <- write_data b2 (va_type v) (va_data v);
  let '(b4, shape) := add_strings b3 (va_shape v) in
  Ok (b4, mkMVar i x shape atts).

(** writeCDM, src/ProtobufCDM.cc:186-215 *)
Definition write_cdm (m : meta) : outcome mcdm :=
  do (b1, globals) <- write_all write_attribute (slb_new false) (atts_of m global_ns);
  do (b2, ds) <- write_all write_dimension b1 (m_dims m);
  do (b3, vs) <- write_all (write_variable m) b2 (m_vars m);
  Ok (mkMCdm (slb_strings b3) ds vs globals).

(** ** reading *)

(** fcdm.strings(i): not checked by the library *)
Definition string_at (table : list string) (i : nat) : outcome string := rd (nth_error table i).

(** createDataFromBytes and createDataFromField, src/ProtobufCDM.cc:115-135: no data for an empty field *)
Definition from_ints (t : dtype) (l : list Z) : option data :=
  match l with [] => None | _ => Some (mkData t (Ints (map (into t) l))) end.
Definition from_reals (t : dtype) (l : list value) : option data :=
  match l with [] => None | _ => Some (mkData t (Reals l)) end.

(** readData, src/ProtobufCDM.cc:137-184; several strings are read from the start of the table (167) *)
Definition read_data (table : list string) (x : mdata) : outcome (option data) :=
  match x_type x with
  | DNat => Ok None
  | DChar | DUChar => Ok (from_ints (x_type x) (x_u8 x))
  | DShort | DInt | DUShort | DUInt => Ok (from_ints (x_type x) (x_u32 x))
  | DInt64 | DUInt64 => Ok (from_ints (x_type x) (x_u64 x))
  | DFloat => Ok (from_reals (x_type x) (x_f32 x))
  | DDouble => Ok (from_reals (x_type x) (x_f64 x))
  | DStrings => match x_strings x with
                | [] => Ok None
                | _ => do l <- omapM (string_at table) (seq 0 (length (x_strings x))); Ok (Some (mkData DStrings (Texts l)))
                end
  | DString => match x_strings x with
               | [] => Ok None
               | i :: _ => do s <- string_at table i; Ok (Some (mkData DString (Text s)))
               end
  end.

(** readAttribute, src/ProtobufCDM.cc:109-113 *)
Definition read_attribute (table : list string) (x : matt) : outcome attribute :=
  do d <- read_data table (xa_data x);
  do n <- string_at table (xa_name x);
  Ok (mkAtt n d).

(** one dimension, src/ProtobufCDM.cc:64-66 *)
Definition read_dimension (table : list string) (x : mdim) : outcome cdim :=
  do n <- string_at table (xd_name x); Ok (mkDim n (xd_length x) (xd_unlimited x)).

(** one variable without its attributes, src/ProtobufCDM.cc:70-80 *)
Definition read_var (table : list string) (x : mvar) : outcome variable :=
  do shape <- omapM (string_at table) (xv_shape x);
  do n <- string_at table (xv_name x);
  let v := mkVariable n (x_type (xv_data x)) shape None None in
  do od <- read_data table (xv_data x);
  match od with None => Ok v | Some d => set_data v d end.

(** one variable and its attributes, src/ProtobufCDM.cc:69-104 *)
Definition read_variable (table : list string) (m : meta) (x : mvar) : outcome meta :=
  do v <- read_var table x;
  do m1 <- add_variable m v;
  ofold (fun c y => do a <- read_attribute table y; add_attribute (va_name v) c a) (xv_atts x) m1.

(** readCDM, src/ProtobufCDM.cc:55-107, into the metadata [m] *)
Definition read_cdm (m : meta) (x : mcdm) : outcome meta :=
  do m1 <- ofold (fun c y => do a <- read_attribute (x_table x) y; add_attribute global_ns c a) (x_globals x) m;
  do m2 <- ofold (fun c y => do d <- read_dimension (x_table x) y; add_dimension c d) (x_dims x) m1;
  ofold (read_variable (x_table x)) (x_vars x) m2.

(** ** the GRIB index *)

(** grib_index, grib_var and grib_indexed, src/io/grib/GribCDMIndexer.h:51-73 *)
Record gmsg := mkGMsg { g_file : N; g_start : N; g_size : N }.
Record gvar := mkGVar { g_scale : value; g_offset : value; g_msgs : list gmsg }.
Record grib_indexed := mkGI { gi_files : list string; gi_vars : smap gvar }.
(** GribVariable and GribIndex, grib_index.proto *)
Record mgvar := mkMGVar { y_name : string; y_scale : value; y_offset : value; y_chunks : list gmsg }.
Record mgrib := mkMGrib { y_cdm : mcdm; y_files : list string; y_vars : list mgvar }.

(** find_last_of("/") and the two parts around it, src/FileUtils.cc:241-259 *)
Fixpoint split_path (s : str) : option (str * str) :=
  match s with
  | [] => None
  | c :: s' => match split_path s' with
               | Some (d, f) => Some (c :: d, f)
               | None => if Ascii.eqb c "/"%char then Some ([c], s') else None
               end
  end.
(** extractFilename, removeFilename, src/FileUtils.cc:241-259 *)
Definition extract_filename (p : string) : string :=
  match split_path (list_ascii_of_string p) with Some (_, f) => string_of_list_ascii f | None => p end.
Definition remove_filename (p : string) : string :=
  match split_path (list_ascii_of_string p) with Some (d, _) => string_of_list_ascii d | None => "" end.
(** joinFilename, src/FileUtils.cc:266-274 *)
Definition join_filename (path file : string) : string :=
  match rev (list_ascii_of_string path) with
  | [] => file
  | c :: _ => if Ascii.eqb c "/"%char then (path ++ file)%string else (path ++ "/" ++ file)%string
  end.

(** one message, src/io/grib/GribProtobufIndexWriter.cc:78-83: file and size with 32 bits, start with 64 *)
Definition write_msg (g : gmsg) : gmsg :=
  mkGMsg (g_file g mod 4294967296)%N (g_start g mod 18446744073709551616)%N (g_size g mod 4294967296)%N.
(** writeGribIndex, src/io/grib/GribProtobufIndexWriter.cc:62-86 *)
Definition write_grib (c : mcdm) (g : grib_indexed) : mgrib :=
  mkMGrib c (map extract_filename (gi_files g))
          (map (fun e => mkMGVar (fst e) (g_scale (snd e)) (g_offset (snd e)) (map write_msg (g_msgs (snd e)))) (gi_vars g)).
(** readGribIndex, src/io/grib/GribProtobufIndexReader.cc:45-70 *)
Definition read_grib_var (m : smap gvar) (y : mgvar) : smap gvar :=
  let old := match sfind (y_name y) m with Some v => g_msgs v | None => [] end in
  sput (y_name y) (mkGVar (y_scale y) (y_offset y) (old ++ y_chunks y)) m.
Definition read_grib (g : grib_indexed) (y : mgrib) : grib_indexed :=
  mkGI (gi_files g ++ y_files y) (fold_left read_grib_var (y_vars y) (gi_vars g)).

(** FIMEX_PROTO_INDEX_MAGIC, src/ProtobufCDM.cc:40; GRIB_PROTO_INDEX_MAGIC, GribProtobufIndexWriter.cc:40 *)
Definition fimex_magic : str := ["F"; "M"; "X"; "I"; "D"; "X"; "000"; "P"]%char.
Definition grib_magic : str := ["G"; "000"; "000"; "000"]%char.
(** strncmp(a, b, n) == 0: stops after n characters or at the end of the strings *)
Fixpoint strncmp_eq (a b : str) (n : nat) : bool :=
  match n, a, b with
  | S n', x :: a', y :: b' => Ascii.eqb x y && (Ascii.eqb x "000"%char || strncmp_eq a' b' n')
  | _, _, _ => true
  end.
(** checkGribProtobufIndexMagic, src/io/grib/GribProtobufIndexReader.cc:77-89 *)
Definition check_magic (l : str) : bool :=
  negb (length l <? 12)%nat && strncmp_eq fimex_magic l 8 && strncmp_eq grib_magic (skipn 8 l) 4.

(** GribProtobufIndexWriter::write, src/io/grib/GribProtobufIndexWriter.cc:48-60; [ser] is
    SerializeToOstream *)
Definition write_file (ser : mgrib -> str) (m : meta) (g : grib_indexed) : outcome str :=
  do c <- write_cdm m; Ok (fimex_magic ++ grib_magic ++ ser (write_grib c g)).
(** readGribProtobufIndex, src/io/grib/GribProtobufIndexReader.cc:91-109, into new metadata and a new
    index, src/io/grib/GribCDMReader.cc:125-141; [par] is ParseFromIstream *)
Definition read_file (par : str -> option mgrib) (bytes : str) : outcome (meta * grib_indexed) :=
  if (length bytes <? 12)%nat then Throw
  else if negb (check_magic (firstn 12 bytes)) then Throw
  else match par (skipn 12 bytes) with
       | None => Throw
       | Some y => do m <- read_cdm no_meta (y_cdm y); Ok (m, read_grib (mkGI [] []) y)
       end.

(** the file of a message, src/io/grib/GribCDMReader.cc:258: at throws beyond the end; [None] is a message
    that is not valid (245-247) *)
Definition message_file (root : string) (g : grib_indexed) (x : gmsg) : outcome (option string) :=
  if (g_file x =? 0)%N then Ok None
  else match nth_error (gi_files g) (N.to_nat (g_file x)) with
       | None => Throw
       | Some f => Ok (Some (join_filename root f))
       end.
