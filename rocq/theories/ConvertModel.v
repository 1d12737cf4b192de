(** Data types, their names, conversion between them, packing with scale and offset, missing values,
    small numeric helpers.  src/CDMDataType.cc, src/NcmlUtils.cc, src/io/netcdf/NetCDF_Utils.cc:126-195,
    include/fimex/MathUtils.h, src/MathUtils.cc, include/fimex/DataUtils.h, src/DataImpl.h:284-331,
    src/Data.cc:219-241, src/CDMReader.cc:176-216, src/CDMReaderWriter.cc:62-94, src/CDM.cc:460-492,
    src/Units.cc:73-160, src/interpolation.c:60-108, 1064-1092.
    Floating-point values are exact rationals, NaN is [None]; infinities and rounding errors are not
    modelled. *)
From Coq Require Import NArith ZArith QArith Qround Qabs Qcanon Ascii String List Bool.
From Verif Require Import Base Rounding SearchModel RegridModel StringModel.
Import ListNotations.
Local Open Scope Z_scope.

(** ** data types and their names *)

(** include/fimex/CDMDataType.h:35-49 *)
Inductive dtype :=
| DNat | DChar | DShort | DInt | DFloat | DDouble | DString
| DUChar | DUShort | DUInt | DInt64 | DUInt64 | DStrings.

Definition dtype_eqb (a b : dtype) : bool :=
  match a, b with
  | DNat, DNat | DChar, DChar | DShort, DShort | DInt, DInt | DFloat, DFloat | DDouble, DDouble
  | DString, DString | DUChar, DUChar | DUShort, DUShort | DUInt, DUInt | DInt64, DInt64
  | DUInt64, DUInt64 | DStrings, DStrings => true
  | _, _ => false
  end.

(** src/CDMDataType.cc:71-90 *)
Definition datatype2string (t : dtype) : str :=
  match t with
  | DDouble => s_ "double" | DFloat => s_ "float" | DInt => s_ "int" | DShort => s_ "short"
  | DChar => s_ "char" | DUChar => s_ "uchar" | DUShort => s_ "ushort" | DUInt => s_ "uint"
  | DInt64 => s_ "int64" | DUInt64 => s_ "uint64" | DString => s_ "string" | DStrings => s_ "strings"
  | DNat => s_ "NAT"
  end.

(** src/CDMDataType.cc:49-69 *)
Definition string2datatype (s : str) : outcome dtype :=
  do l <- string2lowerCase s;
  Ok (if str_eqb l (s_ "double") then DDouble
      else if str_eqb l (s_ "float") then DFloat
      else if str_eqb l (s_ "int") || str_eqb l (s_ "long") then DInt
      else if str_eqb l (s_ "short") then DShort
      else if str_eqb l (s_ "char") || str_eqb l (s_ "byte") then DChar
      else if str_eqb l (s_ "int64") then DInt64
      else if str_eqb l (s_ "uint64") then DUInt64
      else if str_eqb l (s_ "uint") then DUInt
      else if str_eqb l (s_ "ushort") then DUShort
      else if str_eqb l (s_ "uchar") || str_eqb l (s_ "ubyte") then DUChar
      else if str_eqb l (s_ "string") || str_eqb l (s_ "String") then DString
      else if str_eqb l (s_ "strings") then DStrings
      else DNat).

(** src/NcmlUtils.h:31-43: name and unsigned flag *)
Definition ncml_eqb (a b : str * bool) : bool := str_eqb (fst a) (fst b) && Bool.eqb (snd a) (snd b).

(** src/NcmlUtils.cc:38-53, 60-90 *)
Definition cdm2ncml (t : dtype) : str * bool :=
  match t with
  | DChar => (s_ "byte", false) | DShort => (s_ "short", false) | DInt => (s_ "int", false)
  | DInt64 => (s_ "long", false) | DUChar => (s_ "byte", true) | DUShort => (s_ "short", true)
  | DUInt => (s_ "int", true) | DUInt64 => (s_ "long", true) | DFloat => (s_ "float", false)
  | DDouble => (s_ "double", false) | DString => (s_ "string", false) | DStrings => (s_ "strings", false)
  | DNat => ([], false)
  end.

(** src/NcmlUtils.cc:92-121 *)
Definition ncml2cdm (n : str * bool) : dtype :=
  if ncml_eqb n (s_ "byte", false) then DChar
  else if ncml_eqb n (s_ "short", false) then DShort
  else if ncml_eqb n (s_ "int", false) then DInt
  else if ncml_eqb n (s_ "long", false) then DInt64
  else if ncml_eqb n (s_ "byte", true) then DUChar
  else if ncml_eqb n (s_ "short", true) then DUShort
  else if ncml_eqb n (s_ "int", true) then DUInt
  else if ncml_eqb n (s_ "long", true) then DUInt64
  else if ncml_eqb n (s_ "float", false) then DFloat
  else if ncml_eqb n (s_ "double", false) then DDouble
  else if ncml_eqb n (s_ "string", false) || ncml_eqb n (s_ "String", false) then DString
  else if ncml_eqb n (s_ "strings", false) then DStrings
  else DNat.

(** src/NcmlUtils.cc:123-132: only the listed names reach the function above *)
Definition ncml_types : list (str * bool) :=
  [(s_ "byte", false); (s_ "short", false); (s_ "int", false); (s_ "long", false);
   (s_ "byte", true); (s_ "short", true); (s_ "int", true); (s_ "long", true);
   (s_ "char", false); (s_ "float", false); (s_ "double", false); (s_ "string", false);
   (s_ "String", false); (s_ "strings", false)].
Definition ncml_name2cdm (name : str) (is_unsigned : bool) : dtype :=
  match find (fun f => ncml_eqb f (name, is_unsigned)) ncml_types with
  | Some n => ncml2cdm n
  | None => DNat
  end.

(** netCDF-4 external types *)
Inductive nctype :=
| NcNat | NcByte | NcChar | NcShort | NcInt | NcFloat | NcDouble
| NcUByte | NcUShort | NcUInt | NcInt64 | NcUInt64 | NcString.

(** src/io/netcdf/NetCDF_Utils.cc:126-159 *)
Definition cdm2nc (t : dtype) : nctype :=
  match t with
  | DChar => NcByte | DString => NcChar | DShort => NcShort | DInt => NcInt | DFloat => NcFloat
  | DDouble => NcDouble | DStrings => NcString | DUChar => NcUByte | DUShort => NcUShort
  | DUInt => NcUInt | DInt64 => NcInt64 | DUInt64 => NcUInt64 | DNat => NcNat
  end.
(** src/io/netcdf/NetCDF_Utils.cc:161-195 *)
Definition nc2cdm (t : nctype) : dtype :=
  match t with
  | NcNat => DNat | NcByte => DChar | NcChar => DString | NcShort => DShort | NcInt => DInt
  | NcFloat => DFloat | NcDouble => DDouble | NcString => DStrings | NcUByte => DUChar
  | NcUShort => DUShort | NcUInt => DUInt | NcInt64 => DInt64 | NcUInt64 => DUInt64
  end.

(** include/fimex/mifi_constants.h:52-147 *)
Inductive imethod :=
| IUnknown | INearest | IBilinear | IBicubic | ICoordNN | ICoordKD
| IFwSum | IFwMean | IFwMedian | IFwMax | IFwMin
| IFwUSum | IFwUMean | IFwUMedian | IFwUMax | IFwUMin.

(** src/interpolation.c:60-70 (equal strings) and 72-107 *)
Definition string2method (s : str) : imethod :=
  if str_eqb (s_ "bilinear") s then IBilinear
  else if str_eqb (s_ "nearestneighbor") s then INearest
  else if str_eqb (s_ "bicubic") s then IBicubic
  else if str_eqb (s_ "coord_nearestneighbor") s then ICoordNN
  else if str_eqb (s_ "coord_kdtree") s then ICoordKD
  else if str_eqb (s_ "forward_sum") s then IFwSum
  else if str_eqb (s_ "forward_mean") s then IFwMean
  else if str_eqb (s_ "forward_median") s then IFwMedian
  else if str_eqb (s_ "forward_max") s then IFwMax
  else if str_eqb (s_ "forward_min") s then IFwMin
  else if str_eqb (s_ "forward_undef_sum") s then IFwUSum
  else if str_eqb (s_ "forward_undef_mean") s then IFwUMean
  else if str_eqb (s_ "forward_undef_median") s then IFwUMedian
  else if str_eqb (s_ "forward_undef_max") s then IFwUMax
  else if str_eqb (s_ "forward_undef_min") s then IFwMin                   (* 103-104 *)
  else IUnknown.

(** ** numbers *)

Definition z2q (z : Z) : Qc := Q2Qc (inject_Z z).

(** limits of the integer types; char is signed; [None] for the floating-point (and other) types *)
Definition int_range (t : dtype) : option (Z * Z) :=
  match t with
  | DChar => Some (- 2 ^ 7, 2 ^ 7 - 1) | DShort => Some (- 2 ^ 15, 2 ^ 15 - 1)
  | DInt => Some (- 2 ^ 31, 2 ^ 31 - 1) | DInt64 => Some (- 2 ^ 63, 2 ^ 63 - 1)
  | DUChar => Some (0, 2 ^ 8 - 1) | DUShort => Some (0, 2 ^ 16 - 1)
  | DUInt => Some (0, 2 ^ 32 - 1) | DUInt64 => Some (0, 2 ^ 64 - 1)
  | _ => None
  end.

(** conversion between integer types: modulo 2^bits *)
Definition wrap (lo hi z : Z) : Z := lo + (z - lo) mod (hi - lo + 1).

(** MetNoFimex::round, include/fimex/MathUtils.h:40-51: lround (a 64-bit long, unspecified outside
    its range) converted to int *)
Definition round_int (q : Qc) : outcome Z :=
  let z := lround q in
  if (- 2 ^ 63 <=? z) && (z <? 2 ^ 63) then Ok (wrap (- 2 ^ 31) (2 ^ 31 - 1) z) else UB.

(** towards zero *)
Definition truncate (q : Q) : Z := if Qle_bool 0 q then Qfloor q else Qceiling q.

(** static_cast<t>(double): undefined outside the range of an integer type.  Simplified: exact for
    float and double *)
Definition static_cast (t : dtype) (v : value) : outcome value :=
  match int_range t with
  | None => Ok v
  | Some (lo, hi) =>
      match v with
      | None => UB
      | Some q => let z := truncate q in
                  if (lo <=? z) && (z <=? hi) then Ok (Some (z2q z)) else UB
      end
  end.

(** data_caster<OUT, IN>, include/fimex/MathUtils.h:63-102 *)
Definition data_cast (tin tout : dtype) (v : value) : outcome value :=
  match int_range tin, int_range tout with
  | None, Some (lo, hi) =>
      match v with
      | None => UB                                                        (* lround(NaN): unspecified *)
      | Some q => do z <- round_int q; Ok (Some (z2q (wrap lo hi z)))
      end
  | Some _, Some (lo, hi) =>
      match v with
      | None => UB                                                        (* not a value of tin *)
      | Some q => Ok (Some (z2q (wrap lo hi (Qfloor q))))
      end
  | _, None => Ok v
  end.

(** RoundAndClamp, src/MathUtils.cc:30-46: the int is converted to size_t *)
Definition round_and_clamp (mini maxi invalid : N) (d : Qc) : outcome N :=
  do z <- round_int d;
  let r := Z.to_N (z mod 2 ^ 64) in
  Ok (if (mini <=? r)%N && (r <=? maxi)%N then r else invalid).

(** include/fimex/MathUtils.h:53-61 *)
Definition clamp (low v high : Q) : Q :=
  if qltb v low then low else if qltb v high then v else high.

(** include/fimex/MathUtils.h:140-150; [fuel] bounds the rounds *)
Fixpoint norm_up (fuel : nat) (x : Q) : outcome Q :=
  if qltb x (-180) then match fuel with O => Hang | S f => norm_up f (x + 360) end else Ok x.
Fixpoint norm_down (fuel : nat) (x : Q) : outcome Q :=
  if qltb 180 x then match fuel with O => Hang | S f => norm_down f (x - 360) end else Ok x.
Definition normalize180 (fuel : nat) (x : Q) : outcome Q := do y <- norm_up fuel x; norm_down fuel y.

(** ** packing *)

Definition veqb (a b : value) : bool :=
  match a, b with Some x, Some y => Qc_eq_bool x y | _, _ => false end.

(** ScaleValue, include/fimex/DataUtils.h:38-62, applied to an array (src/DataImpl.h:284-292).
    A newScale of 0 gives infinities, which are not modelled (UB here). *)
Definition scale_array (tin tout : dtype) (oldFill : value) (oldScale oldOffset : Qc)
           (newFill : value) (newScale newOffset : Qc) (data : list value) : outcome (list value) :=
  do oldF <- static_cast tin oldFill;
  do newF <- static_cast tout newFill;
  if Qc_eq_bool newScale 0 then UB else
  let s := (oldScale / newScale)%Qc in
  let o := ((oldOffset - newOffset) / newScale)%Qc in
  omapM (fun v => match v with
                  | None => Ok newF
                  | Some x => if veqb v oldF then Ok newF
                              else data_cast DDouble tout (Some (s * x + o)%Qc)
                  end) data.

(** ScaleValueUnits, include/fimex/DataUtils.h:67-95; [uc] is convert(double) *)
Definition scale_array_units (tin tout : dtype) (oldFill : value) (oldScale oldOffset : Qc)
           (uc : Qc -> value) (newFill : value) (newScale newOffset : Qc) (data : list value)
  : outcome (list value) :=
  do oldF <- static_cast tin oldFill;
  do newF <- static_cast tout newFill;
  if Qc_eq_bool newScale 0 then UB else
  omapM (fun v => match v with
                  | None => Ok newF
                  | Some x => if veqb v oldF then Ok newF
                              else data_cast DDouble tout
                                     (match uc (oldScale * x + oldOffset)%Qc with
                                      | Some y => Some ((y - newOffset) * (1 / newScale))%Qc
                                      | None => None
                                      end)
                  end) data.

(** the types convertDataType and convertValues know, src/DataImpl.h:313-330, src/Data.cc:224-240 *)
Definition numeric (t : dtype) : bool :=
  match t with DString | DStrings | DNat => false | _ => true end.

(** convertValues, src/Data.cc:219-241: every element by data_caster *)
Definition convert_values (tin tout : dtype) (data : list value) : outcome (list value) :=
  if dtype_eqb tin tout then Ok data
  else if numeric tout then omapM (data_cast tin tout) data else Throw.

(** convertDataType, src/DataImpl.h:299-331 *)
Definition convert_data_type (tin tout : dtype) (oldFill : value) (oldScale oldOffset : Qc)
           (newFill : value) (newScale newOffset : Qc) (data : list value) : outcome (list value) :=
  if veqb oldFill newFill && Qc_eq_bool oldScale newScale && Qc_eq_bool oldOffset newOffset
  then convert_values tin tout data
  else if numeric tout then scale_array tin tout oldFill oldScale oldOffset newFill newScale newOffset data
  else Throw.

(** a packed variable: type, fill value, scale factor, offset (src/CDM.cc:477-537) *)
Record packing := mkPack { p_type : dtype; p_fill : value; p_scale : Qc; p_offset : Qc }.

(** src/CDMReader.cc:176-192 *)
Definition scale_data (p : packing) (us uo : Qc) (data : list value) : outcome (list value) :=
  convert_data_type (p_type p) DDouble (p_fill p) (p_scale p * us)%Qc (us * p_offset p + uo)%Qc None 1 0 data.
(** src/CDMReader.cc:194-202 *)
Definition scale_data_uc (p : packing) (uc : Qc -> value) (data : list value) : outcome (list value) :=
  scale_array_units (p_type p) DDouble (p_fill p) (p_scale p) (p_offset p) uc None 1 0 data.
(** src/CDMReaderWriter.cc:62-70; [tin] is the type of the data handed in *)
Definition unscale_data (tin : dtype) (p : packing) (us uo : Qc) (data : list value) : outcome (list value) :=
  convert_data_type tin (p_type p) None us uo (p_fill p) (p_scale p) (p_offset p) data.
(** src/CDMReaderWriter.cc:72-79 *)
Definition unscale_data_uc (tin : dtype) (p : packing) (uc : Qc -> value) (data : list value) : outcome (list value) :=
  scale_array_units tin (p_type p) None 1 0 uc (p_fill p) (p_scale p) (p_offset p) data.

(** src/CDM.cc:460-475 and include/fimex/CDMconstants.h:151-160, as double: the 64-bit constants are
    not representable and become -2^63 and 2^64 *)
Definition default_fill (t : dtype) : value :=
  match t with
  | DDouble | DFloat => Some (z2q 9969209968386869000000000000000000000)
  | DInt64 => Some (z2q (- 2 ^ 63)) | DInt => Some (z2q (-2147483647))
  | DShort => Some (z2q (-32767)) | DChar => Some (z2q (-127))
  | DUInt64 => Some (z2q (2 ^ 64)) | DUInt => Some (z2q 4294967295)
  | DUShort => Some (z2q 65535) | DUChar => Some (z2q 255)
  | _ => None
  end.
(** the constants themselves *)
Definition fill_constant (t : dtype) : option Z :=
  match t with
  | DInt64 => Some (-9223372036854775806) | DInt => Some (-2147483647)
  | DShort => Some (-32767) | DChar => Some (-127)
  | DUInt64 => Some 18446744073709551614 | DUInt => Some 4294967295
  | DUShort => Some 65535 | DUChar => Some 255
  | _ => None
  end.

(** createData(type, n, val), src/Data.cc:111-116 with setAllValues, src/DataImpl.h:136 *)
Definition create_filled (t : dtype) (n : nat) (val : value) : outcome (list value) :=
  do v <- data_cast DDouble t val; Ok (repeat v n).

(** ** missing values, src/interpolation.c:1064-1092 *)
Definition bad2nan (bad : value) (l : list value) : list value :=
  match bad with
  | None => l
  | Some b => map (fun v => if veqb v bad then None else v) l
  end.
Definition nan2bad (bad : value) (l : list value) : list value :=
  match bad with
  | None => l
  | Some b => map (fun v => match v with None => Some b | Some _ => v end) l
  end.

(** ** unit converters *)

(** Ud2UnitsConverter::isLinear, src/Units.cc:121-143; [f] is the conversion, [None] a result that
    is not finite *)
Definition near_line (f : Qc -> value) (offset slope val : Qc) : bool :=
  match f val with
  | None => false
  | Some c => negb (qltb (1 # 100000) (Qabs (c - (val * slope + offset))%Qc))
  end.
Definition is_linear (f : Qc -> value) : bool :=
  match f 0%Qc with
  | None => false
  | Some offset =>
      match f 1%Qc with
      | None => false
      | Some f1 =>
          let slope := (f1 - offset)%Qc in
          near_line f offset slope (z2q 10) && near_line f offset slope (z2q 100) &&
          near_line f offset slope (z2q 1000) && near_line f offset slope (z2q (-1000))
      end
  end.

(** getScaleOffset, src/Units.cc:144-159; a conversion to NaN at the second point leaves the first
    slope (the comparison is false) *)
Definition get_scale_offset (f : Qc -> value) : outcome (Qc * Qc) :=
  if negb (is_linear f) then Throw
  else match f 0%Qc, f 1%Qc with
       | Some offset, Some f1 =>
           let scale := (f1 - offset)%Qc in
           if negb (Qc_eq_bool scale 0) && negb (Qc_eq_bool offset 0) then
             let temp := (- offset / scale)%Qc in
             match f temp with
             | Some ft => let scale2 := ((ft - offset) / temp)%Qc in
                          if qltb (Qabs (scale - scale2)%Qc) (1 # 1000) then Ok (scale2, offset) else Ok (scale, offset)
             | None => Ok (scale, offset)
             end
           else Ok (scale, offset)
       | _, _ => Throw
       end.
