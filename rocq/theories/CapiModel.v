(** The C interface: src/c_fimex.cc, and the reader with C callbacks, src/C_CDMReader.cc, on top of the
    requests of SliceModel.v, the default reader of ReaderModel.v and the scaling of ConvertModel.v.

    A C function that lets a C++ exception out has the outcome [Throw]; a function that catches it has a
    code.  A null pointer or a block of memory that is too small is [UB], and so is a failing assertion
    (which ends the program).  Left out: null pointers for readers and names, log messages, the functions
    that only make a reader (each catches every exception and returns a null pointer, 86-167), and
    malloc failing. *)
From Coq Require Import PeanoNat ZArith NArith QArith Qcanon Ascii String List Bool Lia.
From Verif Require Import Base StdMap RegridModel SliceModel ReaderModel ConvertModel.
Import ListNotations.
Local Open Scope string_scope.
Local Open Scope list_scope.
Local Open Scope nat_scope.

(** writing into a block of memory *)
Definition store {A} (buf : list A) (pos : nat) (l : list A) : outcome (list A) :=
  match l with
  | [] => Ok buf
  | _ => if pos + length l <=? length buf
         then Ok (firstn pos buf ++ l ++ skipn (pos + length l) buf) else UB
  end.

Definition NUL : ascii := zero.

(** an int as size_t *)
Definition to_size (n : Z) : N := Z.to_N (n mod 2 ^ 64).

(** string_cpy; 65-74.  [buf]: the block [dest] points to.  The int is compared as size_t; a fill from
    behind the end is undefined *)
Definition string_cpy (src : list ascii) (buf : list ascii) (n : Z) : outcome (list ascii * Z) :=
  do bd <- (if (N.of_nat (length src) + 1 <=? to_size n)%N
            then do b <- store buf 0 (src ++ [NUL]); Ok (b, S (length src))
            else Ok (buf, 0));
  let (b, d) := (bd : list ascii * nat) in
  if (n <? Z.of_nat d)%Z then UB
  else do b' <- store b d (repeat NUL (Z.to_nat n - d)); Ok (b', Z.of_nat d).

(** string_dup: the C string, that is, the text up to the first NUL; 76-79 *)
Fixpoint until_nul (s : list ascii) : list ascii :=
  match s with
  | [] => []
  | a :: r => if Ascii.eqb a NUL then [] else a :: until_nul r
  end.

Definition chars (s : string) : list ascii := list_ascii_of_string s.

(** ** Names; [pair]: names of latitude and longitude, if there are any (CDM::getLatitudeLongitude) *)
(** do_mifi_get_var_longitude, .._latitude; 269-276, 289-296 *)
Definition var_longitude (pair : option (string * string)) : string :=
  match pair with Some (_, lon) => lon | None => "" end.
Definition var_latitude (pair : option (string * string)) : string :=
  match pair with Some (lat, _) => lat | None => "" end.
(** mifi_get_var_longitude_cpy, mifi_get_var_longitude; 278-287, 298-307 *)
Definition longitude_cpy (pair : option (string * string)) (buf : list ascii) (n : Z) : outcome (list ascii * Z) :=
  string_cpy (chars (var_longitude pair)) buf n.
Definition longitude_dup (pair : option (string * string)) : option (list ascii) :=
  Some (until_nul (chars (var_longitude pair))).
Definition latitude_cpy (pair : option (string * string)) (buf : list ascii) (n : Z) : outcome (list ascii * Z) :=
  string_cpy (chars (var_latitude pair)) buf n.

(** ** Requests *)
(** a mifi_slicebuilder: the request, and of a coordinate system the text of the projection, if it has
    one, and the types of the axes as numbers (C75) *)
Record csinfo := CsInfo { ci_proj : option string; ci_types : outcome (list Z) }.
Record handle := Handle { h_sb : slice_builder; h_cs : option csinfo }.

(** 335-343 *)
Definition has_cs (h : option handle) : Z :=
  match h with Some h => match h_cs h with Some _ => 1 | None => 0 end | None => 0 end%Z.
(** 345-351; the number of dimensions fits an int *)
Definition ndims (h : option handle) : Z :=
  match h with Some h => Z.of_nat (length (sb_size (h_sb h))) | None => 0 end%Z.

(** do_mifi_slicebuilder_dimname: vector::at with an int; 353-359 *)
Definition dimname (h : option handle) (pos : Z) : outcome string :=
  match h with
  | Some h => do names <- sb_getDimensionNames (h_sb h);
              if (to_size pos <? N.of_nat (length names))%N
              then at_ names (N.to_nat (to_size pos)) else Throw
  | None => Ok ""
  end.
(** 361-370 *)
Definition dimname_dup (h : option handle) (pos : Z) : outcome (list ascii) :=
  do s <- dimname h pos; Ok (until_nul (chars s)).
Definition dimname_cpy (h : option handle) (pos : Z) (buf : list ascii) (n : Z) : outcome (list ascii * Z) :=
  do s <- dimname h pos; string_cpy (chars s) buf n.

(** size_t stored as unsigned int *)
Definition to_unsigned (x : N) : N := (x mod 2 ^ 32)%N.

(** mifi_slicebuilder_get_start_size: the two arrays and the code; 372-382 *)
Definition get_start_size (h : option handle) (start size : list N) : outcome (list N * list N * Z) :=
  match h with
  | Some h => do a <- store start 0 (map to_unsigned (sb_start (h_sb h)));
              do b <- store size 0 (map to_unsigned (sb_size (h_sb h)));
              Ok (a, b, 0%Z)
  | None => Ok (start, size, (-1)%Z)
  end.

(** mifi_slicebuilder_get_axistype; 384-398 *)
Definition get_axistype (h : option handle) (types : list Z) : outcome (list Z * Z) :=
  match h with
  | Some h =>
      match h_cs h with
      | Some ci => match ci_types ci with
                   | Ok l => do t <- store types 0 l; Ok (t, 0%Z)
                   | Throw => Ok (types, (-2)%Z)
                   | UB => UB
                   | Hang => Hang
                   end
      | None => Ok (types, (-1)%Z)
      end
  | None => Ok (types, (-1)%Z)
  end.

(** do_mifi_slicebuilder_get_proj4, .._cpy; 400-422 *)
Definition proj4 (h : option handle) : string :=
  match h with
  | Some h => match h_cs h with
              | Some ci => match ci_proj ci with Some s => s | None => "" end
              | None => ""
              end
  | None => ""
  end.
Definition proj4_cpy (h : option handle) (buf : list ascii) (n : Z) : outcome (list ascii * Z) :=
  string_cpy (chars (proj4 h)) buf n.

(** mifi_slicebuilder_set_dim_start_size: the handle afterwards and the code; 424-431 *)
Definition set_dim_start_size (h : option handle) (dim : string) (start size : N)
  : outcome (option handle * Z) :=
  match h with
  | Some h => do sb <- sb_setStartAndSize (h_sb h) dim start size;
              Ok (Some (Handle sb (h_cs h)), 0%Z)
  | None => Ok (None, (-1)%Z)
  end.

(** ** Readers *)
(** a variable: type, attributes _FillValue, scale_factor, add_offset, units, whether it has the
    unlimited dimension, the number of records and the size of one, the data kept in memory *)
Record avar := AVar {
  v_name : string; v_type : dtype; v_fill : option value; v_scale : Qc; v_offset : Qc;
  v_units : string; v_unlim : bool; v_nrec : N; v_cells : N; v_mem : option (list value) }.

(** CDM::getFillValue, getScaleFactor, getAddOffset; src/CDM.cc:460-492 *)
Definition fill_of (v : avar) : value :=
  match v_fill v with Some f => f | None => default_fill (v_type v) end.
Definition pack (v : avar) : packing := mkPack (v_type v) (fill_of v) (v_scale v) (v_offset v).

(** a reader: the variables, the names of the dimensions with their lengths, the name of the unlimited
    one, and the virtual getDataSlice(varName, unLimDimPos) *)
Record reader := Reader {
  r_vars : list avar; r_dims : list (string * N); r_unl : option string;
  r_slice : string -> N -> outcome (list value) }.

Definition find_var (r : reader) (name : string) : option avar :=
  find (fun v => String.eqb (v_name v) name) (r_vars r).
(** CDM::getVariable *)
Definition get_var (r : reader) (name : string) : outcome avar :=
  match find_var r name with Some v => Ok v | None => Throw end.

(** CDMReader::getScaledDataSlice(varName, pos); src/CDMReader.cc:218-221 *)
Definition scaled_slice (r : reader) (name : string) (pos : N) : outcome (list value) :=
  do d <- r_slice r name pos;
  do v <- get_var r name;
  scale_data (pack v) 1 0 d.

(** CDMReader::getData; src/CDMReader.cc:148-168.  [Some 0] is the value a new array has *)
Definition get_data (r : reader) (name : string) : outcome (list value) :=
  do v <- get_var r name;
  match v_mem v with
  | Some d => Ok d
  | None => if v_unlim v then get_data_unlim (r_slice r name) (Some 0%Qc) (v_nrec v) (v_cells v)
            else r_slice r name 0%N
  end.

(** CDMReader::getDataSlice(varName, sb); src/CDMReader.cc:90-146 *)
Definition data_slice (r : reader) (name : string) (sb : slice_builder) : outcome (list value) :=
  do v <- get_var r name;
  match v_mem v with
  | Some d => slice d (sb_max sb) (sb_start sb) (sb_size sb)
  | None =>
      if v_unlim v then
        match r_unl r with
        | Some u => do names <- sb_getDimensionNames sb;
                    get_data_slice_unlim (r_slice r name) (fill_of v) u names
                      (sb_start sb) (sb_size sb) (sb_max sb)
        | None => UB
        end
      else do d <- get_data r name; slice d (sb_max sb) (sb_start sb) (sb_size sb)
  end.

(** *** The reader with callbacks *)
(** a callback gets the name, the record and the array; it gives a code and the array afterwards *)
Definition callback := string -> N -> list value -> outcome (Z * list value).

(** setDoubleCallbackFunction on a variable: double, without scale_factor and add_offset;
    src/C_CDMReader.cc:50-60 *)
Definition as_double (v : avar) : avar :=
  AVar (v_name v) DDouble (v_fill v) 1 0 (v_units v) (v_unlim v) (v_nrec v) (v_cells v) (v_mem v).
Definition lookup (cbs : list (string * callback)) (name : string) : option callback :=
  option_map snd (find (fun e => String.eqb (fst e) name) cbs).

(** getDataSlice(varName, unLimDimPos); src/C_CDMReader.cc:69-95 *)
Definition c_slice (src : reader) (vars : list avar) (cbs : list (string * callback)) (name : string)
  : N -> outcome (list value) :=
  match lookup cbs name with
  | None => r_slice src name
  | Some cb => fun pos =>
      match find (fun v => String.eqb (v_name v) name) vars with
      | None => Throw
      | Some v =>
          match v_mem v with
          | Some _ => UB                                          (* assert *)
          | None => do d <- scaled_slice src name pos;
                    do cd <- cb name pos d;
                    let (code, d') := (cd : Z * list value) in
                    if Z.eqb code 0 then Ok d' else Throw
          end
      end
  end.

(** a C_CDMReader: the metadata are a copy; src/C_CDMReader.cc:40-44 *)
Definition c_vars (src : reader) (cbs : list (string * callback)) : list avar :=
  map (fun v => match lookup cbs (v_name v) with Some _ => as_double v | None => v end) (r_vars src).
Definition c_reader (src : reader) (cbs : list (string * callback)) : reader :=
  let vars := c_vars src cbs in
  Reader vars (r_dims src) (r_unl src) (c_slice src vars cbs).

(** what a mifi_cdm_reader holds *)
Inductive areader := Other (r : reader) | CReader (src : reader) (cbs : list (string * callback)).
Definition reader_of (a : areader) : reader :=
  match a with Other r => r | CReader src cbs => c_reader src cbs end.

(** mifi_set_callback_double: dynamic_cast of a pointer gives a null pointer; 169-183 *)
Definition set_callback (a : areader) (name : string) (cb : callback) : outcome (areader * Z) :=
  match a with
  | Other _ => UB
  | CReader src cbs =>
      match find_var (c_reader src cbs) name with
      | None => Ok (a, (-1)%Z)
      | Some _ => Ok (CReader src ((name, cb) :: cbs), 0%Z)
      end
  end.

(** ** Reading *)
(** catch (exception&) *)
Definition catching {A} (o : outcome A) (other : A) : outcome A :=
  match o with Throw => Ok other | o => o end.

(** mifi_get_double_dataslice: the code and the new array; 435-454 *)
Definition get_double_dataslice (r : reader) (name : string) (pos : N) : outcome (Z * option (list value)) :=
  catching (do d <- scaled_slice r name pos; Ok (0%Z, Some d)) ((-1)%Z, None).
(** mifi_get_double_data; 456-475 *)
Definition get_double_data (r : reader) (name : string) : outcome (Z * option (list value)) :=
  catching (do d <- get_data r name; do v <- get_var r name; do s <- scale_data (pack v) 1 0 d;
            Ok (0%Z, Some s)) ((-1)%Z, None).

Section Units.
(** Units::getConverter for a linear conversion: factor and offset; [Throw] if there is none *)
Variable conv : string -> string -> outcome (Qc * Qc).

(** getScaledDataSliceInUnit, getScaledDataSlice with a request; src/CDMReader.cc:204-236 *)
Definition scaled_request (r : reader) (name : string) (units : string) (sb : slice_builder)
  : outcome (list value) :=
  do d <- data_slice r name sb;
  do v <- get_var r name;
  if String.eqb units "" then scale_data (pack v) 1 0 d
  else do so <- conv (v_units v) units; scale_data (pack v) (fst so) (snd so) d.

(** mifi_fill_scaled_double_dataslice: code, size (if it is set) and the block; 477-501 *)
Definition fill_dataslice (r : reader) (name : string) (sb : slice_builder) (units : string)
  (data : option (list value)) : outcome (Z * option nat * option (list value)) :=
  match data with
  | None => Ok ((-1)%Z, Some 0, None)
  | Some buf =>
      catching (do d <- scaled_request r name units sb;
                do b <- store buf 0 d;
                Ok (0%Z, Some (length d), Some b)) ((-1)%Z, None, Some buf)
  end.

(** mifi_write_scaled_double_dataslice: code and what is handed to putDataSlice; [rw]: putDataSlice, if
    the reader is a CDMReaderWriter; 503-526, src/CDMReaderWriter.cc:58-95 *)
Definition write_dataslice (rw : option (string -> slice_builder -> list value -> outcome unit)) (r : reader)
  (name : string) (sb : slice_builder) (units : string) (data : option (list value))
  : outcome (Z * option (list value)) :=
  match data with
  | Some [] => Ok (0%Z, None)
  | None => Ok ((-99)%Z, None)
  | Some d =>
      match rw with
      | None => Ok ((-98)%Z, None)
      | Some put =>
          catching (do v <- get_var r name;
                    do so <- conv units (v_units v);
                    do raw <- unscale_data DDouble (pack v) (fst so) (snd so) d;
                    do _ <- put name sb raw;
                    Ok (0%Z, Some raw)) ((-1)%Z, None)
      end
  end.
End Units.

(** ** Metadata *)
(** mifi_get_variable_number, _name, _type, mifi_get_dimension_number, _name, _size,
    mifi_get_unlimited_dimension_name; 186-267.  [None] is a null pointer *)
Definition variable_number (r : reader) : nat := length (r_vars r).
Definition variable_name (r : reader) (pos : nat) : option string :=
  option_map v_name (nth_error (r_vars r) pos).
Definition variable_type (r : reader) (name : string) : dtype :=
  match find_var r name with Some v => v_type v | None => DNat end.
Definition dimension_number (r : reader) : nat := length (r_dims r).
Definition dimension_name (r : reader) (pos : nat) : option string :=
  option_map fst (nth_error (r_dims r) pos).
Definition dimension_size (r : reader) (name : string) : N :=
  match find (fun d => String.eqb (fst d) name) (r_dims r) with Some d => snd d | None => 0%N end.
Definition unlimited_name (r : reader) : option string :=
  Some (match r_unl r with Some u => u | None => "" end).
