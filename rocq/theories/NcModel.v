(** A netCDF file as the netCDF library keeps it, and NetCDF_CDMReader, src/io/netcdf/NetCDF_CDMReader.cc, with
    ncGetValues and ncPutValues of src/io/netcdf/NetCDF_Utils.cc.  The rules of the library itself (what
    nc_def_dim, nc_def_var, nc_put_att and nc_put_vara accept and do) are taken from its documentation and
    are not part of the fimex sources. *)
From Coq Require Import NArith ZArith Ascii String List Bool Arith.
From Verif Require Import Base StdMap RegridModel ConvertModel CdmModel.
Import ListNotations.
Local Open Scope string_scope.
Local Open Scope list_scope.
Local Open Scope nat_scope.

(** ** the file *)

(** netCDF-3 (classic or 64-bit offset), netCDF-4 with the classic model, netCDF-4 *)
Inductive ncfmt := Classic | Nc4Classic | Nc4.
Definition fmt_eqb (a b : ncfmt) : bool := match a, b with Classic, Classic | Nc4Classic, Nc4Classic | Nc4, Nc4 => true | _, _ => false end.

Record ncdim := mkNd { nd_name : string; nd_unlim : bool; nd_len : N }.
Record ncatt := mkNa { na_name : string; na_type : nctype; na_nums : list value; na_text : string }.
(** dimension numbers slowest first; chunk sizes and compression (level, shuffle) if set *)
Record ncvar := mkNv { nv_name : string; nv_type : nctype; nv_dims : list nat; nv_chunk : option (list N); nv_deflate : option (N * bool); nv_atts : list ncatt }.
Record ncmeta := mkNm { nm_fmt : ncfmt; nm_dims : list ncdim; nm_vars : list ncvar; nm_atts : list ncatt }.

(** the part of a file that changes while data are written: the length of the unlimited dimensions (by
    number) and the cells of the variables (by number); a cell never written is [None] *)
Record ncdata := mkNs { ns_recs : nat -> N; ns_cell : nat -> list N -> option value }.

(** nc_inq_dimlen *)
Definition dim_len_of (m : ncmeta) (s : ncdata) (i : nat) : outcome N :=
  match nth_error (nm_dims m) i with
  | None => Throw
  | Some d => Ok (if nd_unlim d then ns_recs s i else nd_len d)
  end.

(** the product of the counts, include/fimex/DataUtils.h, without the modulus *)
Definition nprod (l : list N) : N := fold_right N.mul 1%N l.
(** the place of a position in the box given by start and count, slowest dimension first; [None] outside *)
Fixpoint box_index (start count p : list N) : option N :=
  match start, count, p with
  | [], [], [] => Some 0%N
  | s :: start', c :: count', x :: p' =>
      if (s <=? x)%N && (x <? s + c)%N
      then option_map (fun r => (x - s) * nprod count' + r)%N (box_index start' count' p')
      else None
  | _, _, _ => None
  end.

(** the limits checked by nc_put_vara and nc_get_vara: fixed dimensions may not be exceeded *)
Fixpoint in_limits (m : ncmeta) (writing : bool) (s : ncdata) (ids : list nat) (start count : list N) : bool :=
  match ids, start, count with
  | [], [], [] => true
  | i :: ids', a :: start', c :: count' =>
      match nth_error (nm_dims m) i with
      | None => false
      | Some d => (writing && nd_unlim d || (a + c <=? (if nd_unlim d then ns_recs s i else nd_len d))%N) && in_limits m writing s ids' start' count'
      end
  | _, _, _ => false
  end.
(** the records after a write *)
Fixpoint grow_recs (m : ncmeta) (recs : nat -> N) (ids : list nat) (start count : list N) : nat -> N :=
  match ids, start, count with
  | i :: ids', a :: start', c :: count' =>
      let recs' := match nth_error (nm_dims m) i with
                   | Some d => if nd_unlim d then (fun j => if Nat.eqb j i then N.max (recs j) (a + c) else recs j) else recs
                   | None => recs
                   end in
      grow_recs m recs' ids' start' count'
  | _, _, _ => recs
  end.
(** nc_put_vara: [data] holds one value per position of the box; nothing happens if a count is zero *)
Definition put_vara (m : ncmeta) (s : ncdata) (varid : nat) (start count : list N) (data : list value) : outcome ncdata :=
  match nth_error (nm_vars m) varid with
  | None => Throw
  | Some v =>
      if negb (in_limits m true s (nv_dims v) start count) then Throw
      else if N.eqb (nprod count) 0 then Ok s
      else Ok (mkNs (grow_recs m (ns_recs s) (nv_dims v) start count)
                    (fun i p => if Nat.eqb i varid
                                then match box_index start count p with
                                     | Some k => match nth_error data (N.to_nat k) with Some x => Some x | None => ns_cell s i p end
                                     | None => ns_cell s i p
                                     end
                                else ns_cell s i p))
  end.

(** ncPutValues, NetCDF_Utils.cc:358-441: [data] are the values already converted to the type of the variable
    (asShort and so on, see C24); a scalar has start 0 and count 1, which the library ignores.  Nothing is
    written for the type NC_NAT. *)
Definition nc_put_values (m : ncmeta) (s : ncdata) (varid : nat) (type : nctype) (start count : list N) (data : list value) : outcome ncdata :=
  match data with
  | [] => Ok s
  | _ =>
      if negb (N.eqb (nprod count) (N.of_nat (length data))) then Throw
      else match type with NcNat => Ok s | _ => put_vara m s varid start count data end
  end.

(** all positions of a box, slowest dimension first *)
Fixpoint box_positions (start count : list N) : list (list N) :=
  match start, count with
  | s :: start', c :: count' =>
      flat_map (fun k => map (cons (s + N.of_nat k)%N) (box_positions start' count')) (seq 0 (N.to_nat c))
  | _, _ => [[]]
  end.
(** ncGetValues, NetCDF_Utils.cc:276-356; a cell never written reads as [fill] *)
Definition nc_get_values (m : ncmeta) (s : ncdata) (fill : value) (varid : nat) (type : nctype) (start count : list N) : outcome (list value) :=
  match nth_error (nm_vars m) varid with
  | None => Throw
  | Some v =>
      match type with
      | NcNat => Ok []
      | _ => if negb (in_limits m false s (nv_dims v) start count) then Throw
             else Ok (map (fun p => match ns_cell s varid p with Some x => x | None => fill end) (box_positions start count))
      end
  end.

(** ** NetCDF_CDMReader *)

(** nc_inq_unlimdim: the first unlimited dimension *)
Fixpoint first_unlim (i : nat) (l : list ncdim) : option nat :=
  match l with [] => None | d :: r => if nd_unlim d then Some i else first_unlim (S i) r end.
Definition rec_id (m : ncmeta) : option nat := first_unlim 0 (nm_dims m).
Definition is_rec (m : ncmeta) (i : nat) : bool := match rec_id m with Some j => Nat.eqb j i | None => false end.

(** the dimensions, NetCDF_CDMReader.cc:65-84; addDimension throws for a second one of the name *)
Fixpoint read_dims (m : ncmeta) (s : ncdata) (i : nat) (l : list ncdim) (c : cdm) : outcome cdm :=
  match l with
  | [] => Ok c
  | d :: r =>
      if has_dim c (nd_name d) then Throw
      else read_dims m s (S i) r (mkCdm (vars c) (dims c ++ [mkDim (nd_name d) (if nd_unlim d then ns_recs s i else nd_len d) (is_rec m i)]) (attrs c))
  end.
(** removal of one terminating zero character, NetCDF_Utils.cc:210-217 *)
Fixpoint strip_nul (s : string) : string :=
  match s with
  | EmptyString => EmptyString
  | String c EmptyString => if Ascii.eqb c zero then EmptyString else s
  | String c r => String c (strip_nul r)
  end.
(** ncGetAttValues, NetCDF_Utils.cc:200-272, and CDMAttribute *)
Definition read_att (a : ncatt) : cattr :=
  mkAttr (na_name a) (match na_type a with NcNat => DInt | t => nc2cdm t end) (match na_type a with NcNat => [] | _ => na_nums a end)
         (match na_type a with NcChar => strip_nul (na_text a) | NcNat => "" | _ => na_text a end).
(** addAttribute, NetCDF_CDMReader.cc:278-288, in order *)
Fixpoint read_atts (c : cdm) (n : string) (l : list ncatt) : outcome cdm :=
  match l with
  | [] => Ok c
  | a :: r => match add_attr c n (read_att a) with None => Throw | Some c' => read_atts c' n r end
  end.
(** a variable with its attributes, NetCDF_CDMReader.cc:87-118: the dimension names in reverse order *)
Definition read_var (m : ncmeta) (c : cdm) (v : ncvar) : outcome cdm :=
  do shape <- omapM (fun i => match nth_error (nm_dims m) i with Some d => Ok (nd_name d) | None => Throw end) (rev (nv_dims v));
  if has_var c (nv_name v) then Throw
  else read_atts (mkCdm (vars c ++ [mkVar (nv_name v) (nc2cdm (nv_type v)) shape "" None]) (dims c) (attrs c)) (nv_name v) (nv_atts v).
(** the constructor, NetCDF_CDMReader.cc:46-130 *)
Definition read_file (m : ncmeta) (s : ncdata) : outcome cdm :=
  do c1 <- read_dims m s 0 (nm_dims m) empty_cdm;
  do c2 <- ofold (read_var m) (nm_vars m) c1;
  read_atts c2 global_ns (nm_atts m).

(** nc_inq_varid, nc_inq_dimid *)
Fixpoint index_of {A} (name : A -> string) (n : string) (i : nat) (l : list A) : option nat :=
  match l with [] => None | x :: r => if String.eqb n (name x) then Some i else index_of name n (S i) r end.
Definition var_id (m : ncmeta) (n : string) : option nat := index_of nv_name n 0 (nm_vars m).

(** start and count of one record, NetCDF_CDMReader.cc:149-162: the unlimited dimension is expected to be the
    first (slowest) one; writing start[0] of a scalar is out of bounds *)
Definition record_box (m : ncmeta) (s : ncdata) (v : ncvar) (has_unlim : bool) (pos : N) : outcome (list N * list N) :=
  do lens <- omapM (dim_len_of m s) (nv_dims v);
  let start := map (fun _ => 0%N) (nv_dims v) in
  if has_unlim
  then match start, lens with
       | _ :: st, _ :: ct => Ok (pos :: st, 1%N :: ct)
       | _, _ => UB
       end
  else Ok (start, lens).

(** getDataSlice(name, record), NetCDF_CDMReader.cc:134-170; [c] is the metadata of the reader.  Data kept in
    memory (see C38) are left out. *)
Definition nc_slice (m : ncmeta) (s : ncdata) (fill : value) (c : cdm) (n : string) (pos : N) : outcome (list value) :=
  match find_var n (vars c), var_id m n with
  | Some cv, Some i =>
      match nth_error (nm_vars m) i with
      | Some v =>
          do b <- record_box m s v (has_unlimited c cv) pos;
          nc_get_values m s fill i (nv_type v) (fst b) (snd b)
      | None => Throw
      end
  | _, _ => Throw
  end.
(** putDataSlice(name, record, data), NetCDF_CDMReader.cc:206-245: no data, nothing written *)
Definition nc_put_slice (m : ncmeta) (s : ncdata) (c : cdm) (n : string) (pos : N) (data : list value) : outcome ncdata :=
  match find_var n (vars c) with
  | None => Throw
  | Some cv =>
      match data with
      | [] => Ok s
      | _ =>
        match var_id m n with
        | Some i =>
            match nth_error (nm_vars m) i with
            | Some v =>
                do b <- record_box m s v (has_unlimited c cv) pos;
                nc_put_values m s i (nv_type v) (fst b) (snd b) data
            | None => Throw
            end
        | None => Throw
        end
      end
  end.
(** getDataSlice and putDataSlice with a request (start and size per dimension, fastest first),
    NetCDF_CDMReader.cc:172-198, 247-276 *)
Definition nc_request (m : ncmeta) (s : ncdata) (fill : value) (n : string) (start size : list N) : outcome (list value) :=
  match var_id m n with
  | Some i => match nth_error (nm_vars m) i with
              | Some v => nc_get_values m s fill i (nv_type v) (rev start) (rev size)
              | None => Throw
              end
  | None => Throw
  end.
Definition nc_put_request (m : ncmeta) (s : ncdata) (n : string) (start size : list N) (data : list value) : outcome ncdata :=
  match data with
  | [] => Ok s
  | _ => match var_id m n with
         | Some i => match nth_error (nm_vars m) i with
                     | Some v => nc_put_values m s i (nv_type v) (rev start) (rev size) data
                     | None => Throw
                     end
         | None => Throw
         end
  end.
