(** Shapes and slice requests of vertical converters (VerticalTransformationUtils). *)
From Coq Require Import NArith String List Bool Arith.
From Verif Require Import Base StdMap SliceModel.
Import ListNotations.
Local Open Scope list_scope.
Local Open Scope nat_scope.

(** ** ShapeMerger *)

(** the axes getGeoXAxis, getGeoYAxis, getGeoZAxis, getTimeAxis of the coordinate system: [None] if
    absent, else the shape of the axis variable *)
Record axes4 := mkAxes { ax_x : option (list string); ax_y : option (list string); ax_z : option (list string); ax_t : option (list string) }.

(** axisDim, src/coordSys/verticalTransform/VerticalTransformationUtils.cc:122-125: front() of an empty
    vector is undefined.  (The axis variable is taken to exist.) *)
Definition axis_dim (shape : list string) : outcome string :=
  match shape with [] => UB | d :: _ => Ok d end.
(** std::find *)
Fixpoint index_of (d : string) (l : list string) : option nat :=
  match l with
  | [] => None
  | x :: l' => if String.eqb x d then Some 0 else option_map S (index_of d l')
  end.
(** findAxis, lines 127-133; [None] is end() *)
Definition find_axis (s : list string) (a : option (list string)) : outcome (option nat) :=
  match a with
  | None => Ok None
  | Some sh => do d <- axis_dim sh; Ok (index_of d s)
  end.
(** equalsAxisDim, lines 135-138 *)
Definition equals_axis (d : string) (a : option (list string)) : outcome bool :=
  match a with
  | None => Ok false
  | Some sh => do x <- axis_dim sh; Ok (String.eqb d x)
  end.
(** vector::insert *)
Definition insert_at (i : nat) (d : string) (s : list string) : list string := firstn i s ++ d :: skipn i s.

Section Merge.
  (** getDimension(d).getLength(); [None] throws *)
  Variable dim_len : string -> option N.
  Variable ax : axes4.

  (** the body of the loop, lines 155-233 *)
  Definition merge_dim (skip1 : bool) (s : list string) (d : string) : outcome (list string) :=
    do leave <- (if skip1 then match dim_len d with None => Throw | Some n => Ok (N.eqb n 1) end else Ok false);
    if leave then Ok s
    else if existsb (String.eqb d) s then Ok s
    else
      do isx <- equals_axis d (ax_x ax);
      if isx then Ok (d :: s)
      else
        do isy <- equals_axis d (ax_y ax);
        if isy then
          do fx <- find_axis s (ax_x ax);
          match fx with
          | Some i => Ok (insert_at (i + 1) d s)
          | None =>
            do fz <- find_axis s (ax_z ax);
            match fz with Some i => Ok (insert_at i d s) | None => Ok (d :: s) end
          end
        else
          do isz <- equals_axis d (ax_z ax);
          if isz then
            do fy <- find_axis s (ax_y ax);
            match fy with
            | Some i => Ok (insert_at (i + 1) d s)
            | None =>
              do fx <- find_axis s (ax_x ax);
              match fx with Some i => Ok (insert_at (i + 1) d s) | None => Ok (d :: s) end
            end
          else
            do ist <- equals_axis d (ax_t ax);
            if ist then Ok (s ++ [d])
            else
              do ft <- find_axis s (ax_t ax);
              match ft with Some i => Ok (insert_at i d s) | None => Ok (s ++ [d]) end.

  (** ShapeMerger::merge, lines 142-242 *)
  Definition merge (skip1 : bool) (s append : list string) : outcome (list string) := ofold (merge_dim skip1) append s.
  (** ShapeMerger(cdm, cs).merge(..).merge(..).shape() *)
  Definition merges (l : list (bool * list string)) : outcome (list string) :=
    ofold (fun s m => merge (fst m) s (snd m)) l [].
End Merge.

(** ** other helpers *)

(** removeDimsWithLength1, lines 68-77 *)
Fixpoint remove_length1 (dim_len : string -> option N) (dims : list string) : list string :=
  match dims with
  | [] => []
  | d :: l => match dim_len d with
              | None => remove_length1 dim_len l
              | Some n => if N.eqb n 1 then remove_length1 dim_len l else d :: remove_length1 dim_len l
              end
  end.
(** getDimSizes, lines 318-326 *)
Definition dim_sizes (dim_len : string -> option N) (names : list string) : list N :=
  map (fun d => match dim_len d with Some n => n | None => 1%N end) names.
(** createSliceBuilder, lines 328-332: no dimension is marked unlimited *)
Definition create_builder (dim_len : string -> option N) (names : list string) : outcome slice_builder :=
  sb_init names (dim_sizes dim_len names) (map (fun _ => false) names).

(** copySliceBuilder, lines 246-279 *)
Definition copy_request (sb : slice_builder) (orgNames : list string) (sbVar : slice_builder) (d : string) : outcome slice_builder :=
  if existsb (String.eqb d) orgNames then
    do r <- sb_get sb d;
    sb_setStartAndSize sbVar d (fst r) (snd r)
  else do _ <- sb_get sbVar d; Ok sbVar.
Definition adapt_builder (sbVar sb : slice_builder) : outcome slice_builder :=
  do varNames <- sb_getDimensionNames sbVar;
  do orgNames <- sb_getDimensionNames sb;
  ofold (copy_request sb orgNames) varNames sbVar.

(** setUnLimDimPos, lines 339-347 *)
Definition set_record (unlim : option string) (pos : N) (sb : slice_builder) : outcome slice_builder :=
  match unlim with
  | None => Ok sb
  | Some u =>
    do names <- sb_getDimensionNames sb;
    if existsb (String.eqb u) names then sb_setStartAndSize sb u pos 1 else Ok sb
  end.
