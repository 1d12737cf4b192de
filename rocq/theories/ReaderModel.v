(** Model of the default implementations in src/CDMReader.cc and of src/DataIndex.cc,
    src/IndexedData.cc, createDataSlice in src/Data.cc. *)
From Coq Require Import NArith String List Bool.
From Verif Require Import Base StdMap SliceModel.
Import ListNotations.
Open Scope N_scope.

Section Reader.
  Context {A : Type}.

  (** Dimensions of a request split at the unlimited dimension, CDMReader.cc:103-122.
      [names], [start], [size], [max] are the parallel vectors of the SliceBuilder. *)
  Record split := mkSplit {
    u_start : N; u_size : N;
    o_start : list N; o_size : list N; o_max : list N;
    o_cells : N
  }.

  Fixpoint split_dims (unl : string) (names : list string) (start size max : list N) (acc : split)
    : outcome split :=
    match names with
    | [] => Ok acc
    | n :: ns =>
        match start, size, max with
        | s :: ss, z :: zs, m :: ms =>
            let acc' :=
              if String.eqb n unl
              then mkSplit s z (o_start acc) (o_size acc) (o_max acc) (o_cells acc)
              else mkSplit (u_start acc) (u_size acc) (o_start acc ++ [s])%list (o_size acc ++ [z])%list
                           (o_max acc ++ [m])%list (mul64 (o_cells acc) z)
            in split_dims unl ns ss zs ms acc'
        | _, _, _ => Throw                      (* vector::at *)
        end
    end.

  (** One iteration of the joining loop, CDMReader.cc:130-140.  [record u] is
      getDataSlice(varName, u) of the concrete reader. *)
  Definition join_one (record : N -> outcome (list A)) (sp : split) (ret : list A) (i : N)
    : outcome (list A) :=
    do r <- record (add64 i (u_start sp));
    match r with
    | [] => Ok ret
    | _ =>
        do r' <- slice r (o_max sp) (o_start sp) (o_size sp);
        if negb (N.of_nat (length r') =? o_cells sp) then Throw
        else copy_data ret r' (mul64 i (o_cells sp)) 0 (M64 - 1)
    end.

  (** CDMReader::getDataSlice(varName, sb) for a variable without data in memory and with the
      unlimited dimension in its shape, CDMReader.cc:98-140.  [fill] is the variable's fill value. *)
  Definition get_data_slice_unlim (record : N -> outcome (list A)) (fill : A) (unl : string)
             (names : list string) (start size max : list N) : outcome (list A) :=
    do sp <- split_dims unl names start size max (mkSplit 0 0 [] [] [] 1);
    if u_size sp =? 0 then Ok []
    else ofold (join_one record sp) (map N.of_nat (seq 0 (N.to_nat (u_size sp))))
               (repeat fill (N.to_nat (mul64 (o_cells sp) (u_size sp)))).

  (** CDMReader::getData for the same kind of variable, CDMReader.cc:155-163.  [zero] is the value
      0 of the data type (createData's default); [nrec] the unlimited dimension's length;
      [scells] the product of the other dimension lengths. *)
  Definition get_data_unlim (record : N -> outcome (list A)) (zero : A) (nrec scells : N)
    : outcome (list A) :=
    ofold (fun ret i => do r <- record i; copy_data ret r (mul64 i scells) 0 scells)
          (map N.of_nat (seq 0 (N.to_nat nrec)))
          (repeat zero (N.to_nat (mul64 nrec scells))).

  (** all cells written? (new C[length] leaves them indeterminate) *)
  Fixpoint all_init (l : list (option A)) : outcome (list A) :=
    match l with
    | [] => Ok []
    | Some x :: l' => do r <- all_init l'; Ok (x :: r)
    | None :: _ => UB
    end.

  (** createDataSlice, Data.cc:123-146 (same data type: no value conversion) *)
  Definition create_data_slice (data : list A) (pos len : N) : outcome (list A) :=
    do r <- copy_data (repeat None (N.to_nat len)) (map Some data) 0 pos (add64 pos len);
    all_init r.

  (** CDMReader::getDataSliceFromMemory(variable, unLimDimPos), CDMReader.cc:248-263, for a
      variable having data and the unlimited dimension *)
  Definition slice_from_memory (data : list A) (scells upos : N) : outcome (list A) :=
    match data with
    | [] => Ok []
    | _ => create_data_slice data (mul64 upos scells) scells
    end.
End Reader.

(** ** DataIndex *)

(** slices_ of DataIndex::DataIndex, DataIndex.cc:33-42: stride of each dimension, padded with
    zeros to at least 10 entries. *)
Definition di_slices (dims : list N) : list N :=
  (slice_sizes 1 dims ++ repeat 0 (10 - length dims))%list.

(** DataIndex::getPos(vector), DataIndex.h:63 *)
Fixpoint di_getPos_loop (slices pos : list N) (p : N) : outcome N :=
  match pos with
  | [] => Ok p
  | x :: pos' =>
      match slices with
      | [] => Throw                     (* slices_.at(i) *)
      | s :: slices' => di_getPos_loop slices' pos' (add64 p (mul64 x s))
      end
  end.
Definition di_getPos (dims pos : list N) : outcome N := di_getPos_loop (di_slices dims) pos 0.

(** DataIndex::getPos(a), (a,b), (a,b,c), (a,b,c,d), DataIndex.h:64-67 *)
Definition di_getPos1 (dims : list N) (a : N) : outcome N := Ok a.
Definition di_getPos2 (dims : list N) (a b : N) : outcome N :=
  do s1 <- at_ (di_slices dims) 1; Ok (add64 a (mul64 b s1)).
Definition di_getPos3 (dims : list N) (a b c : N) : outcome N :=
  do s1 <- at_ (di_slices dims) 1; do s2 <- at_ (di_slices dims) 2;
  Ok (add64 (add64 a (mul64 b s1)) (mul64 c s2)).
Definition di_getPos4 (dims : list N) (a b c d : N) : outcome N :=
  do s1 <- at_ (di_slices dims) 1; do s2 <- at_ (di_slices dims) 2; do s3 <- at_ (di_slices dims) 3;
  Ok (add64 (add64 (add64 a (mul64 b s1)) (mul64 c s2)) (mul64 d s3)).

(** product(vector), MathUtils.cc:48-53 *)
Definition product64 (l : list N) : N := fold_left mul64 l 1.

(** IndexedData::setDims, IndexedData.cc:68-78: the
    dims kept by the index *)
Definition indexed_setDims (dims : list N) (dataSize : N) : outcome (list N) :=
  if product64 dims =? dataSize then Ok dims
  else if dataSize =? 0 then Ok []
  else Throw.
