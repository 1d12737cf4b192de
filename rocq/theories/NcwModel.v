(** NetCDF_CDMWriter, src/io/netcdf/NetCDF_CDMWriter.cc: editing the metadata as configured, defining
    dimensions, variables (with chunks and compression) and attributes, converting and writing the data.
    Left out: MPI, the XML syntax of the configuration (its content is a record), the ncml reader in front.
    What the netCDF library accepts is taken from its documentation, see NcModel.v. *)
From Coq Require Import NArith ZArith QArith Qcanon Ascii String List Bool Arith.
From Verif Require Import Base StdMap RegridModel ConvertModel CdmModel NcModel.
Import ListNotations.
Local Open Scope string_scope.
Local Open Scope list_scope.
Local Open Scope nat_scope.

(** ** the configuration *)

(** an <attribute> element: the variable (or [global_ns]), the name, the new name if given, and the content
    if a type is given *)
Record att_edit := mkEdit { e_var : string; e_name : string; e_new : string; e_content : option (dtype * list value * string) }.
Record wconf := mkConf {
  k_rm_gatts : list string; k_rm_vatts : list (string * string); k_rm_vars : list string; k_rm_dims : list string;
  k_auto : bool;
  k_vnames : list (string * string); k_vtypes : list (string * dtype);
  k_level : N; k_levels : list (string * N); k_chunks : list (string * N);
  k_dnames : list (string * string); k_atts : list att_edit }.
(** the configuration used without a document: unused dimensions are removed, compression 13 *)
Definition no_conf : wconf := mkConf [] [] [] [] true [] [] 13 [] [] [] [].

(** the members of the writer *)
Record writer := mkW { w_cdm : cdm; w_vnames : smap string; w_dnames : smap string; w_types : smap dtype; w_levels : smap N; w_chunks : smap N }.

(** initRemove, lines 175-229; dimensions in use stay *)
Definition drop_dim (c : cdm) (n : string) : cdm := if dim_in_use c n then c else fst (remove_dim c n false).
Definition init_remove (k : wconf) (c : cdm) : cdm :=
  let c1 := fold_left (fun c n => remove_attr c global_ns n) (k_rm_gatts k) c in
  let c2 := fold_left (fun c p => remove_attr c (fst p) (snd p)) (k_rm_vatts k) c1 in
  let c3 := fold_left remove_var (k_rm_vars k) c2 in
  let c4 := fold_left drop_dim (k_rm_dims k) c3 in
  if k_auto k then fold_left drop_dim (map d_name (dims c4)) c4 else c4.

(** setDataType on the variable of the name *)
Definition set_type (n : string) (t : dtype) (c : cdm) : cdm :=
  mkCdm (map (fun v => if String.eqb n (v_name v) then mkVar (v_name v) t (v_shape v) (v_counterpart v) (v_data v) else v) (vars c)) (dims c) (attrs c).
(** initFillRenameVariable, lines 258-307 *)
Definition init_vars (k : wconf) (c : cdm) : outcome writer :=
  do vn <- ofold (fun m p => if has_var c (fst p) then Ok (sput (fst p) (snd p) m) else Throw) (k_vnames k) [];
  do ct <- ofold (fun s p => if has_var (fst s) (fst p) then Ok (set_type (fst p) (snd p) (fst s), sput (fst p) (snd p) (snd s)) else Throw) (k_vtypes k) (c, []);
  let lv := fold_left (fun m v => sput (v_name v) (k_level k) m) (vars c) [] in
  let lv2 := fold_left (fun m p => sput (fst p) (snd p) m) (k_levels k) lv in
  let ch := fold_left (fun m p => sput (fst p) (snd p) m) (k_chunks k) [] in
  Ok (mkW (fst ct) vn [] (snd ct) lv2 ch).
(** initFillRenameDimension, lines 231-247: the variable of the name gets the new name as well, unless it has
    one *)
Definition init_dims (k : wconf) (w : writer) : outcome writer :=
  ofold (fun w p =>
    if has_dim (w_cdm w) (fst p)
    then Ok (mkW (w_cdm w) (if smem (fst p) (w_vnames w) then w_vnames w else sput (fst p) (snd p) (w_vnames w))
                 (sput (fst p) (snd p) (w_dnames w)) (w_types w) (w_levels w) (w_chunks w))
    else Throw) (k_dnames k) w.
(** initFillRenameAttribute, lines 309-345 *)
Definition edit_attr (c : cdm) (e : att_edit) : outcome cdm :=
  let n := if String.eqb (e_new e) "" then e_name e else e_new e in
  if negb (String.eqb (e_var e) global_ns) && negb (has_var c (e_var e)) then Throw
  else
    do a <- match e_content e with
            | Some (t, l, s) => Ok (mkAttr n t l s)
            | None => match get_attr c (e_var e) (e_name e) with
                      | Some o => Ok (mkAttr n (a_type o) (a_nums o) (a_text o))
                      | None => Throw
                      end
            end;
    match add_attr (remove_attr c (e_var e) (e_name e)) (e_var e) a with Some c' => Ok c' | None => Throw end.
Definition init_atts (k : wconf) (w : writer) : outcome writer :=
  do c <- ofold edit_attr (k_atts k) (w_cdm w);
  Ok (mkW c (w_vnames w) (w_dnames w) (w_types w) (w_levels w) (w_chunks w)).
(** the constructor, lines 150-158 *)
Definition configure (k : wconf) (c : cdm) : outcome writer :=
  do w <- init_vars k (init_remove k c);
  do w2 <- init_dims k w;
  init_atts k w2.

(** getVariableName, getDimensionName, lines 760-770 *)
Definition out_name (m : smap string) (n : string) : string := match sfind n m with Some x => x | None => n end.

(** ** definitions *)

(** what nc_def_var and nc_put_att accept as types: the six classic types, all in netCDF-4 *)
Definition type_ok (f : ncfmt) (t : nctype) : bool :=
  match t with
  | NcNat => false
  | NcByte | NcChar | NcShort | NcInt | NcFloat | NcDouble => true
  | _ => fmt_eqb f Nc4
  end.
(** nc_def_dim: a name only once; one unlimited dimension only, except in netCDF-4 *)
Definition def_dim (f : ncfmt) (l : list ncdim) (d : ncdim) : outcome (list ncdim) :=
  if existsb (fun e => String.eqb (nd_name d) (nd_name e)) l then Throw
  else if nd_unlim d && negb (fmt_eqb f Nc4) && existsb nd_unlim l then Throw
  else Ok (l ++ [d]).
(** defineDimensions, lines 347-376: the length is stored in an int; a negative one is refused by the library *)
Definition nc_dim (w : writer) (d : cdim) : outcome ncdim :=
  let n := out_name (w_dnames w) (d_name d) in
  if d_unlim d then Ok (mkNd n true 0)
  else let l := (d_len d mod 2 ^ 32)%N in
       if (2 ^ 31 <=? l)%N then Throw else Ok (mkNd n false (if N.eqb l 0 then 1 else l)%N).
Definition define_dims (f : ncfmt) (w : writer) : outcome (list ncdim) :=
  ofold (fun l d => do e <- nc_dim w d; def_dim f l e) (dims (w_cdm w)) [].

(** ncDimMap: the number of the dimension of a name *)
Definition dim_id (c : cdm) (n : string) : option nat := index_of d_name n 0 (dims c).

(** clamp, include/fimex/MathUtils.h:53-61 *)
Definition clampN (low v high : N) : N := if (v <? low)%N then low else if (v <? high)%N then v else high.
Definition DEFAULT_CHUNK : N := 2 ^ 21.
Definition MIN_CHUNK : N := 2 ^ 17.
(** one dimension of the chunk strategy, lines 430-451: the chunk so far (size_t), its length in this dimension;
    the conversion of floor(..) to unsigned int is undefined from 2^32 on *)
Definition chunk_dim (conf : option N) (size total : N) : outcome (N * N) :=
  match conf with
  | Some c => let k := clampN 1 size c in Ok (mul64 total k, k)
  | None =>
      let t := mul64 total size in
      if (t <? DEFAULT_CHUNK)%N then Ok (t, size)
      else if (1 <? size)%N && (total <? MIN_CHUNK)%N
           then let q := (t / MIN_CHUNK)%N in
                if (2 ^ 32 <=? q)%N then UB else Ok (t, clampN 1 q size)
           else Ok (t, 1%N)
  end.
(** the loop over the shape, fastest dimension first, lines 427-452: dimSize is an unsigned int *)
Fixpoint chunk_loop (conf : string -> option N) (c : cdm) (shape : list string) (total : N) : outcome (N * list N) :=
  match shape with
  | [] => Ok (total, [])
  | n :: r =>
      match find_dim n (dims c) with
      | None => Throw
      | Some d =>
          do k <- chunk_dim (conf n) (if d_unlim d then 1 else d_len d mod 2 ^ 32)%N total;
          do x <- chunk_loop conf c r (fst k);
          Ok (fst x, snd k :: snd x)
      end
  end.
(** the level and shuffle, lines 413-421 *)
Definition level_of (l : option N) : N * bool :=
  match l with None => (0%N, false) | Some x => if (10 <? x)%N then ((x - 10)%N, true) else (x, false) end.
(** nc_def_var_chunking: every length at least 1, and not more than that of a dimension that is not unlimited *)
Definition chunk_ok (l : list ncdim) (ids : list nat) (ch : list N) : bool :=
  Nat.eqb (length ids) (length ch) &&
  forallb (fun p => match nth_error l (fst p) with
                    | Some d => (1 <=? snd p)%N && (nd_unlim d || (snd p <=? nd_len d)%N)
                    | None => false
                    end) (combine ids ch).
(** lines 403-464: chunks and compression, in the netCDF-4 formats; nc_def_var_deflate takes levels 0 to 9 *)
Definition compress (f : ncfmt) (w : writer) (l : list ncdim) (v : cvar) (ids : list nat) : outcome (option (list N) * option (N * bool)) :=
  let lv := level_of (sfind (v_name v) (w_levels w)) in
  if fmt_eqb f Classic || (fst lv =? 0)%N then Ok (None, None)
  else match v_shape v with
       | [] => Ok (None, None)
       | _ =>
           do x <- chunk_loop (fun n => sfind n (w_chunks w)) (w_cdm w) (v_shape v) 1;
           let ch := rev (snd x) in
           do c <- (if N.eqb (fst x) 0 then Ok None else if chunk_ok l ids ch then Ok (Some ch) else Throw);
           if (9 <? fst lv)%N then Throw else Ok (c, Some lv)
       end.
(** the type of a variable in the file, lines 388-396 *)
Definition var_type (w : writer) (v : cvar) : dtype :=
  let t := match sfind (v_name v) (w_types w) with Some DNat => v_type v | Some t => t | None => v_type v end in
  match t, v_shape v with DNat, [] => DInt | _, _ => t end.
(** nc_def_var: in the classic format only the first (slowest) dimension may be the unlimited one *)
Definition shape_ok (f : ncfmt) (l : list ncdim) (ids : list nat) : bool :=
  match ids with
  | [] => true
  | _ :: r => negb (fmt_eqb f Classic) || negb (existsb (fun i => match nth_error l i with Some d => nd_unlim d | None => false end) r)
  end.
(** defineVariables, lines 378-466, without the attributes: a dimension missing in the map is read through end() *)
Definition nc_var (f : ncfmt) (w : writer) (l : list ncdim) (vs : list ncvar) (v : cvar) : outcome (list ncvar) :=
  do ids <- omapM (fun n => rd (dim_id (w_cdm w) n)) (rev (v_shape v));
  let t := cdm2nc (var_type w v) in
  let n := out_name (w_vnames w) (v_name v) in
  if existsb (fun e => String.eqb n (nv_name e)) vs || negb (type_ok f t) || negb (shape_ok f l ids) then Throw
  else do x <- compress f w l v ids;
       Ok (vs ++ [mkNv n t ids (fst x) (snd x) []]).
Definition define_vars (f : ncfmt) (w : writer) (l : list ncdim) : outcome (list ncvar) :=
  ofold (nc_var f w l) (vars (w_cdm w)) [].

(** writeAttributes for one attribute, lines 478-541: the type in the file; several strings only in netCDF-4.  The
    number of strings is taken as the number of values *)
Definition nc_att (f : ncfmt) (a : cattr) : outcome ncatt :=
  match a_type a with
  | DNat => Throw
  | DStrings =>
      if fmt_eqb f Nc4 then Ok (mkNa (a_name a) NcString (a_nums a) (a_text a))
      else if length (a_nums a) =? 1 then Ok (mkNa (a_name a) NcChar (a_nums a) (a_text a)) else Throw
  | t => Ok (mkNa (a_name a) (cdm2nc t) (a_nums a) (a_text a))
  end.
(** nc_put_att: the type; _FillValue of a variable must have its type and one value *)
Definition nctype_eqb (a b : nctype) : bool := dtype_eqb (nc2cdm a) (nc2cdm b).
Definition att_ok (f : ncfmt) (v : option nctype) (a : ncatt) : bool :=
  type_ok f (na_type a) &&
  match v with
  | Some t => negb (String.eqb (na_name a) "_FillValue") ||
              nctype_eqb t (na_type a) && (match na_type a with NcChar => String.length (na_text a) | _ => length (na_nums a) end =? 1)
  | None => true
  end.
Definition nc_atts (f : ncfmt) (v : option nctype) (l : list cattr) : outcome (list ncatt) :=
  omapM (fun a => do x <- nc_att f a; if att_ok f v x then Ok x else Throw) l.
(** writeAttributes, lines 468-544.  The map is walked in the order of its keys, each entry being written to the
    variable of the name; a name that is no variable is read through end().  Simplified: written variable by
    variable, which gives the same file *)
Definition set_atts (f : ncfmt) (w : writer) (vs : list ncvar) : outcome (list ncvar) :=
  omapM (fun p => do a <- nc_atts f (Some (nv_type (snd p))) (attrs_of (w_cdm w) (v_name (fst p)));
                  let v := snd p in Ok (mkNv (nv_name v) (nv_type v) (nv_dims v) (nv_chunk v) (nv_deflate v) a))
        (combine (vars (w_cdm w)) vs).
Definition stray_atts (c : cdm) : bool :=
  existsb (fun e => negb (String.eqb (fst e) global_ns) && negb (has_var c (fst e))) (attrs c).
(** init, lines 741-751, up to nc_enddef *)
Definition define (f : ncfmt) (w : writer) : outcome ncmeta :=
  do l <- define_dims f w;
  do vs <- define_vars f w l;
  if stray_atts (w_cdm w) then UB
  else do vs2 <- set_atts f w vs;
       do g <- nc_atts f None (attrs_of (w_cdm w) global_ns);
       Ok (mkNm f l vs2 g).

(** ** data *)

Definition is_nan (v : value) : bool := match v with None => true | _ => false end.
(** convertData, lines 546-580.  [old] the metadata of the reader, [uc] the converter of units (none: an exception), [tin] the
    type of the data.  Exceptions of the conversion are dropped and the data kept; those of getFillValue are not.
    A packing with NaN is not modelled. *)
Definition convert_data (old : cdm) (w : writer) (uc : string -> string -> option (Qc -> value)) (v : cvar) (tin : dtype) (data : list value)
  : outcome (dtype * list value) :=
  let n := v_name v in
  let oldU := get_units old n in
  let newU := get_units (w_cdm w) n in
  let oldT := v_type v in
  let newT := match sfind n (w_types w) with Some t => t | None => oldT end in
  do oldF <- get_fill old n; do oldS <- get_scale old n; do oldO <- get_offset old n;
  do newF <- get_fill (w_cdm w) n; do newS <- get_scale (w_cdm w) n; do newO <- get_offset (w_cdm w) n;
  match oldS, oldO, newS, newO with
  | Some os, Some oo, Some ns, Some no =>
      if negb (dtype_eqb newT DNat) && negb (dtype_eqb oldT DNat) &&
         (negb (dtype_eqb newT oldT) || negb (String.eqb newU oldU) || negb (veqb oldF newF) || negb (Qc_eq_bool os ns) || negb (Qc_eq_bool oo no))
      then
        match (if String.eqb oldU newU
               then convert_data_type tin newT oldF os oo newF ns no data
               else match uc oldU newU with
                    | None => Throw
                    | Some g => if numeric newT then scale_array_units tin newT oldF os oo g newF ns no data else Throw
                    end) with
        | Ok d => Ok (newT, d)
        | Throw => Ok (tin, data)
        | UB => UB
        | Hang => Hang
        end
      else Ok (tin, data)
  | _, _, _, _ => UB
  end.

(** asShort and so on, called by ncPutValues (include/fimex/Data.h, see C24); text is handed over as it is *)
Definition as_type (tin t : dtype) (data : list value) : outcome (list value) :=
  if numeric t then (if dtype_eqb tin t then Ok data else omapM (data_cast tin t) data) else Ok data.

Section Data.
  (** getData (no position) and getDataSlice of the reader: nothing, or the type and the values *)
  Variable read : string -> option N -> outcome (option (dtype * list value)).
  Variable uc : string -> string -> option (Qc -> value).
  Variable old : cdm.
  Variable w : writer.
  Variable m : ncmeta.

  (** ncDimId, lines 97-103: the name is that of the reader, not the new one *)
  Definition unlim_id : outcome (option nat) :=
    match unlimited_dim (w_cdm w) with
    | None => Ok None
    | Some d => match index_of nd_name (d_name d) 0 (nm_dims m) with Some i => Ok (Some i) | None => Throw end
    end.
  Definition max_unlim : N := match unlimited_dim (w_cdm w) with None => 0 | Some d => d_len d end.

  (** unLimDimIdx, lines 655-657: the last dimension of the number *)
  Fixpoint last_index (u : nat) (i : nat) (ids : list nat) : option nat :=
    match ids with
    | [] => None
    | x :: r => match last_index u (S i) r with Some k => Some k | None => if Nat.eqb x u then Some i else None end
    end.
  Definition unlim_idx (u : option nat) (ids : list nat) : option nat := match u with None => None | Some j => last_index j 0 ids end.
  (** lines 667-668: no position for a variable without the unlimited dimension, or a record of one with it *)
  Definition writes (v : cvar) (idx : option nat) (pos : option N) : bool :=
    match pos, idx with
    | None, None => negb (has_unlimited (w_cdm w) v)
    | Some _, Some _ => has_unlimited (w_cdm w) v
    | _, _ => false
    end.
  (** lines 669-700: the data read and converted; an exception is [Throw] *)
  Definition job_data (v : cvar) (pos : option N) : outcome (option (dtype * list value)) :=
    do d <- read (v_name v) pos;
    match d with
    | None => Ok None
    | Some (t, l) => omap Some (convert_data old w uc v t l)
    end.
  (** count and start with the position, lines 707, 712-715 *)
  Definition at_record (idx : option nat) (x : N) (l : list N) : outcome (list N) :=
    match idx with None => Ok l | Some i => wr l i x end.

  (** one variable at one position, lines 620-730; the state is the file and whether there was an exception.
      Exceptions from the creation of the fill values leave the loop *)
  Definition write_step (u : option nat) (st : ncdata * bool) (job : option N * nat) : outcome (ncdata * bool) :=
    let (s, ex) := st in
    let (pos, vi) := job in
    if ex then Ok st
    else match nth_error (vars (w_cdm w)) vi, nth_error (nm_vars m) vi with
         | Some v, Some nv =>
             do lens <- omapM (dim_len_of m s) (nv_dims nv);
             let idx := unlim_idx u (nv_dims nv) in
             if negb (writes v idx pos) then Ok st
             else
               match job_data v pos with
               | Throw => Ok (s, true)
               | UB => UB
               | Hang => Hang
               | Ok d =>
                   do count <- at_record idx 1%N lens;
                   do start <- at_record idx (match pos with Some p => p | None => 0%N end) (map (fun _ => 0%N) lens);
                   let l := match d with Some (_, l) => l | None => [] end in
                   do d2 <- match l with
                            | [] => if fmt_eqb (nm_fmt m) Classic
                                    then do fill <- get_fill (w_cdm w) (v_name v);
                                         omap (fun x => (v_type v, x)) (create_filled (v_type v) (N.to_nat (nprod count)) fill)
                                    else Ok (v_type v, [])
                            | _ => Ok (match d with Some x => x | None => (v_type v, []) end)
                            end;
                   do l2 <- as_type (fst d2) (v_type v) (snd d2);
                   match nc_put_values m s vi (cdm2nc (v_type v)) start count l2 with
                   | Ok s' => Ok (s', false)
                   | Throw => Ok (s, false)
                   | UB => UB
                   | Hang => Hang
                   end
               end
         | _, _ => UB
         end.

  (** the loops, lines 606, 620: the position -1 first, then the records.  With OpenMP the positions are
      distributed over threads, so any order of the jobs is possible *)
  Definition jobs : list (option N * nat) :=
    let vs := seq 0 (length (vars (w_cdm w))) in
    flat_map (fun p => map (fun i => (p, i)) vs) (None :: map (fun k => Some (N.of_nat k)) (seq 0 (N.to_nat max_unlim))).
  Definition write_jobs (l : list (option N * nat)) (s : ncdata) : outcome (ncdata * bool) :=
    do u <- unlim_id; ofold (write_step u) l (s, false).
  (** writeData, lines 582-739 *)
  Definition write_data (s : ncdata) : outcome ncdata :=
    do r <- write_jobs jobs s;
    if snd r then Throw else Ok (fst r).
End Data.

(** a new file: no records, no data *)
Definition new_file : ncdata := mkNs (fun _ => 0%N) (fun _ _ => None).
(** the constructor of the writer on a reader with metadata [c] *)
Definition write_file (read : string -> option N -> outcome (option (dtype * list value))) (uc : string -> string -> option (Qc -> value))
           (f : ncfmt) (k : wconf) (c : cdm) : outcome (ncmeta * ncdata) :=
  do w <- configure k c;
  do m <- define f w;
  do s <- write_data read uc c w m new_file;
  Ok (m, s).
