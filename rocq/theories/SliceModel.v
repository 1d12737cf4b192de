(** Model of array slicing and block writes: include/fimex/RecursiveSliceCopy.h, src/DataImpl.h,
    and of slice requests: src/SliceBuilder.cc.
    Element type is arbitrary.  [size_t] arithmetic is modulo 2^64.  Pointers into the original
    array are offsets modulo 2^64 from its start; reading a non-empty block outside it is UB. *)
From Coq Require Import NArith String List Bool.
From Verif Require Import Base StdMap.
Import ListNotations.
Open Scope N_scope.

Section Copy.
  Context {A : Type}.

  (** std::copy(&org[p], &org[p+n], new): reads n cells at p, writes n cells at the current end of
      the output buffer, which has room for [cap] cells.  RecursiveSliceCopy.h:52 *)
  Definition copy_block (org : list A) (cap : N) (p n : N) (out : list A) : outcome (list A) :=
    if n =? 0 then Ok out
    else if (p + n <=? N.of_nat (length org)) && (N.of_nat (length out) + n <=? cap)
         then Ok (out ++ firstn (N.to_nat n) (skipn (N.to_nat p) org))%list
         else UB.

  (** recursiveCopyMultiDimData, RecursiveSliceCopy.h:46-60.  State: (orgData offset, cells written). *)
  Fixpoint copy_rec (cd : nat) (org : list A) (cap : N) (dims slices start size : list N)
           (st : N * list A) {struct cd} : outcome (N * list A) :=
    let '(p, out) := st in
    do d <- rd (nth_error dims cd);
    do sl <- rd (nth_error slices cd);
    do s <- rd (nth_error start cd);
    do z <- rd (nth_error size cd);
    let p1 := add64 p (mul64 s sl) in                                         (* line 50 *)
    do st2 <-
      match cd with
      | O => do out' <- copy_block org cap p1 z out;                          (* line 52 *)
             Ok (add64 p1 z, out')                                            (* line 53 *)
      | S cd' => oiter (N.to_nat z) (copy_rec cd' org cap dims slices start size) (p1, out) (* 55-57 *)
      end;
    let '(p2, out2) := st2 in
    Ok (add64 p2 (mul64 (sub64 d (add64 s z)) sl), out2).                     (* line 59 *)

  (** the size/bounds loop, DataImpl.h:246-254: (outputSize, orgSize) *)
  Fixpoint slice_check (dims start size : list N) (outS orgS : N) : outcome (N * N) :=
    match dims with
    | [] => Ok (outS, orgS)
    | d :: ds =>
        match start, size with
        | s :: ss, z :: zs =>
            let outS' := mul64 outS z in
            let orgS' := mul64 orgS d in
            if d <? add64 s z then Throw
            else slice_check ds ss zs outS' orgS'
        | _, _ => UB                       (* vector index past the end *)
        end
    end.

  (** orgSliceSize, DataImpl.h:264-268 *)
  Fixpoint slice_sizes (acc : N) (dims : list N) : list N :=
    match dims with
    | [] => []
    | d :: ds => acc :: slice_sizes (mul64 acc d) ds
    end.

  (** DataImpl<C>::slice, DataImpl.h:239-273.  If fewer cells than outputSize were written the
      rest of the buffer is uninitialised (modelled as UB). *)
  Definition slice (data : list A) (dims start size : list N) : outcome (list A) :=
    match dims with
    | [] => Ok data                                                            (* 242-244 *)
    | _ =>
        do sz <- slice_check dims start size 1 1;
        let '(outS, orgS) := sz in
        if negb (orgS =? N.of_nat (length data)) then Throw                    (* 255-256 *)
        else
          do r <- copy_rec (length dims - 1) data outS dims (slice_sizes 1 dims) start size (0, []);
          let '(_, out) := r in
          if N.of_nat (length out) =? outS then Ok out else UB
    end.

  (** write [blk] at [pos]; outside the array is UB *)
  Definition write_block (this : list A) (pos : N) (blk : list A) : outcome (list A) :=
    if pos + N.of_nat (length blk) <=? N.of_nat (length this)
    then Ok (firstn (N.to_nat pos) this ++ blk ++ skipn (N.to_nat pos + length blk) this)%list
    else UB.

  (** DataImpl<C>::copyData, DataImpl.h:196-208, called by setValues(startPos, data, first, last)
      (src/Data.cc) after converting the other data to this type. *)
  Definition copy_data (this other : list A) (startPos first last : N) : outcome (list A) :=
    let otherSize := N.of_nat (length other) in
    if otherSize <? first then Throw
    else
      let last1 := N.min last otherSize in
      let last2 := N.min (add64 (sub64 (N.of_nat (length this)) startPos) first) last1 in
      if first <? last2
      then write_block this startPos
             (firstn (N.to_nat (last2 - first)) (skipn (N.to_nat first) other))
      else Ok this.

  (** DataImpl<C>::setValues(begin, end, dataStartPos), DataImpl.h:275-282 *)
  Definition set_values_range (this src : list A) (pos : N) : outcome (list A) :=
    if N.of_nat (length this) <? add64 (N.of_nat (length src)) pos then Throw
    else match src with [] => Ok this | _ => write_block this pos src end.

End Copy.

(** ** SliceBuilder *)

Record slice_builder := mkSB {
  sb_dimPos : smap nat;             (* dimPos_ *)
  sb_start : list N;                (* start_ *)
  sb_size : list N;                 (* size_ *)
  sb_max : list N;                  (* maxSize_ *)
  sb_unlim : list bool;             (* unlimited_ *)
  sb_set : smap unit                (* setDims_ *)
}.

(** the loop of SliceBuilder::init filling dimPos_, SliceBuilder.cc:82-83 *)
Fixpoint sb_fill (names : list string) (pos : nat) (m : smap nat) : smap nat :=
  match names with
  | [] => m
  | n :: ns => sb_fill ns (S pos) (sput n pos m)
  end.

(** SliceBuilder::init, SliceBuilder.cc:73-89 *)
Definition sb_init (names : list string) (sizes : list N) (unlim : list bool) : outcome slice_builder :=
  if negb (Nat.eqb (length names) (length sizes)) || negb (Nat.eqb (length names) (length unlim))
  then Throw
  else Ok (mkSB (sb_fill names 0 []) (map (fun _ => 0) sizes) sizes sizes unlim []).

(** SliceBuilder::getDimPos, SliceBuilder.cc:93-100 *)
Definition sb_getDimPos (sb : slice_builder) (dim : string) : outcome nat :=
  match sfind dim (sb_dimPos sb) with
  | Some p => Ok p
  | None => Throw
  end.

(** vector::at *)
Definition at_ {A} (l : list A) (p : nat) : outcome A :=
  match nth_error l p with Some x => Ok x | None => Throw end.

(** SliceBuilder::getStartAndSize, SliceBuilder.cc:102-107 *)
Definition sb_get (sb : slice_builder) (dim : string) : outcome (N * N) :=
  do p <- sb_getDimPos sb dim;
  do s <- at_ (sb_start sb) p;
  do z <- at_ (sb_size sb) p;
  Ok (s, z).

(** SliceBuilder::setStartAndSize, SliceBuilder.cc:109-118 *)
Definition sb_setStartAndSize (sb : slice_builder) (dim : string) (start size : N)
  : outcome slice_builder :=
  do p <- sb_getDimPos sb dim;
  do u <- at_ (sb_unlim sb) p;
  do m <- at_ (sb_max sb) p;
  if negb u && (m <? add64 start size) then Throw
  else Ok (mkSB (sb_dimPos sb) (upd (sb_start sb) p start) (upd (sb_size sb) p size)
                (sb_max sb) (sb_unlim sb) (sput dim tt (sb_set sb))).

(** SliceBuilder::setAll, SliceBuilder.cc:131-135 *)
Definition sb_setAll (sb : slice_builder) (dim : string) : outcome slice_builder :=
  do p <- sb_getDimPos sb dim;
  do m <- at_ (sb_max sb) p;
  sb_setStartAndSize sb dim 0 m.

(** the writes names.at(pos) = name, SliceBuilder.cc:151-153; [at] throws past the end *)
Fixpoint sb_names_loop (m : smap nat) (names : list string) : outcome (list string) :=
  match m with
  | [] => Ok names
  | (n, p) :: m' => if Nat.ltb p (length names) then sb_names_loop m' (upd names p n) else Throw
  end.

(** SliceBuilder::getDimensionNames, SliceBuilder.cc:147-155 *)
Definition sb_getDimensionNames (sb : slice_builder) : outcome (list string) :=
  sb_names_loop (sb_dimPos sb) (repeat EmptyString (length (sb_dimPos sb))).

(** SliceBuilder::getUnsetDimensionNames, SliceBuilder.cc:157-167 *)
Definition sb_getUnset (sb : slice_builder) : list string :=
  filter (fun n => negb (smem n (sb_set sb))) (skeys (sb_dimPos sb)).

(** Calls a client can make. *)
Inductive sb_op :=
| SetStartAndSize (dim : string) (start size : N)
| SetAll (dim : string).

Definition sb_apply (sb : slice_builder) (op : sb_op) : outcome slice_builder :=
  match op with
  | SetStartAndSize d s z => sb_setStartAndSize sb d s z
  | SetAll d => sb_setAll sb d
  end.

(** A client that catches exceptions: a throwing call leaves the object as it was before the
    throw; in all the functions above no member is assigned before the last throwing statement. *)
Definition sb_step (sb : slice_builder) (op : sb_op) : slice_builder :=
  match sb_apply sb op with Ok sb' => sb' | _ => sb end.

Definition sb_run (sb : slice_builder) (ops : list sb_op) : slice_builder := fold_left sb_step ops sb.
