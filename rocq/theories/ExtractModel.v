(** Model of src/CDMExtractor.cc: selection of positions along dimensions. *)
From Coq Require Import NArith ZArith String List Bool Arith.
From Verif Require Import Base StdMap SliceModel.
Import ListNotations.
Local Open Scope nat_scope.

(** ** reading a reduced variable *)

(** A SliceBuilder under construction.  The loop of getDataSlice_ visits every dimension of the
    variable once, in the builder's own order, and calls setStartAndSize for it, so a builder is
    modelled by the (start,size) pairs of the dimensions visited so far. *)
Definition box := list (nat * nat).

(** SliceBuilder::setStartAndSize for the next dimension of length [d] (SliceBuilder.cc:109-118).
    Simplified: the check is applied to the unlimited dimension, too (there an out-of-range request
    fails later, in the reader). *)
Definition set_next (d : nat) (b : box) (s z : nat) : outcome box :=
  if d <? s + z then Throw else Ok (b ++ [(s, z)]).

(** the chunk loop, CDMExtractor.cc:130-142, started with start = last = first position *)
Fixpoint chunks (start last : nat) (rest : list nat) : list (nat * nat) :=
  match rest with
  | [] => [(start, last - start + 1)]
  | p :: r => if p =? last + 1 then chunks start p r
              else (start, last - start + 1) :: chunks p p r
  end.

(** positions.at(i) for i = from, from+1, ..., from+n-1 *)
Definition at_range (positions : list nat) (from n : nat) : outcome (list nat) :=
  omapM (at_ positions) (seq from n).

(** One iteration of the dimension loop, CDMExtractor.cc:111-167.  [d]: length of the dimension in
    the original reader; [sel]: entry of dimSlices_ for the dimension; (sbStart,sbSize): request. *)
Definition dim_step (slices : list box) (x : nat * option (list nat) * (nat * nat)) : outcome (list box) :=
  let '(d, sel, (sbStart, sbSize)) := x in
  match sel with
  | None => omapM (fun b => set_next d b sbStart sbSize) slices                   (* 116-119 *)
  | Some [] => omapM (fun b => set_next d b sbStart 0) slices                     (* 120-122 *)
  | Some positions =>
      if length slices <=? 1 then                                                 (* 128-153 *)
        do first <- at_ positions sbStart;
        do rest <- at_range positions (sbStart + 1) (sbSize - 1);
        do news <- omapM (fun c => omapM (fun b => set_next d b (fst c) (snd c)) slices)
                         (chunks first first rest);
        Ok (concat news)
      else                                                                        (* 154-165 *)
        do news <- omapM (fun i =>
                     do p <- at_ positions i;
                     omapM (fun b => set_next d b p 1) slices)
                   (seq sbStart sbSize);
        Ok (concat news)
  end.

Section Join.
  Context {A : Type}.
  (** reader->getDataSlice(varName, sb) of the wrapped reader *)
  Variable read : box -> outcome (list A).
  Variable fill : A.

  Definition box_cells (b : box) : nat := fold_left Nat.mul (map snd b) 1.

  (** loop of joinSlices, CDMExtractor.cc:87-96: state (retData, dataPos) *)
  Definition join_step (st : list A * nat) (b : box) : outcome (list A * nat) :=
    let '(ret, pos) := st in
    do d <- read b;
    do ret' <- match d with
               | [] => Ok ret
               | _ => copy_data ret d (N.of_nat pos) 0 (M64 - 1)
               end;
    Ok (ret', pos + box_cells b).

  (** joinSlices, CDMExtractor.cc:67-98 *)
  Definition join_slices (slices : list box) : outcome (list A) :=
    match slices with
    | [] => Ok []
    | [b] => read b
    | _ =>
        do r <- ofold join_step slices
                  (repeat fill (fold_left Nat.add (map box_cells slices) 0), 0);
        Ok (fst r)
    end.

  (** CDMExtractor::getDataSlice_, CDMExtractor.cc:100-171.  [dims]: per dimension of the variable
      its original length, its selection and the request. *)
  Definition extract_slice (dims : list (nat * option (list nat) * (nat * nat))) : outcome (list A) :=
    do slices <- ofold dim_step dims [[]];
    join_slices slices.
End Join.

(** the wrapped reader used in the theorems: data in memory, sliced by DataImpl::slice *)
Definition read_memory {A} (data : list A) (dims : list nat) (b : box) : outcome (list A) :=
  slice data (map N.of_nat dims) (map N.of_nat (map fst b)) (map N.of_nat (map snd b)).

(** ** reducing dimensions *)

Open Scope N_scope.

(** dimension lengths of the extractor's CDM, and dimSlices_ *)
Record extractor := mkExt { x_len : smap N; x_sel : smap (list N) }.

(** CDMExtractor::reduceDimension(dimName, set), CDMExtractor.cc:259-278.  [slices]: the set in
    ascending order.  (The loop over variables only drops cached data.) *)
Definition reduce_set (x : extractor) (dim : string) (slices : list N) : outcome extractor :=
  match sfind dim (x_len x) with
  | None => Throw                                            (* getDimension *)
  | Some len =>
      if existsb (fun sz => len <? sz) slices then Throw     (* 262-265 *)
      else Ok (mkExt (sput dim (N.of_nat (length slices)) (x_len x)) (sput dim slices (x_sel x)))
  end.

(** std::set<size_t>::insert *)
Fixpoint set_insert (v : N) (l : list N) : list N :=
  match l with
  | [] => [v]
  | a :: l' => if v <? a then v :: l else if v =? a then l else a :: set_insert v l'
  end.

(** CDMExtractor::reduceDimension(dimName, start, length), CDMExtractor.cc:280-287 *)
Definition reduce_start_len (x : extractor) (dim : string) (start len : N) : outcome extractor :=
  reduce_set x dim
    (fold_left (fun s i => set_insert (add64 start (N.of_nat i)) s) (seq 0 (N.to_nat len)) []).

(** conversion long long -> size_t *)
Definition ll2size (z : Z) : N := Z.to_N (z mod 2 ^ 64).

(** the length computed by reduceDimensionStartEnd, CDMExtractor.cc:291-299 *)
Definition start_end_length (len start : N) (e : Z) : N :=
  if (0 <? e)%Z then add64 (sub64 (ll2size e) start) 1
  else add64 (sub64 len start) (ll2size e).

(** CDMExtractor::reduceDimensionStartEnd, CDMExtractor.cc:289-301 *)
Definition reduce_start_end (x : extractor) (dim : string) (start : N) (e : Z) : outcome extractor :=
  if (0 <? e)%Z then reduce_start_len x dim start (start_end_length 0 start e)
  else match sfind dim (x_len x) with
       | None => Throw
       | Some len => reduce_start_len x dim start (start_end_length len start e)
       end.
