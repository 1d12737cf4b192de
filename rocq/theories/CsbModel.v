(** Requests by the type of an axis: src/CoordinateSystemSliceBuilder.cc, on top of the request of SliceModel.v
    and the axes of AxesModel.v.  An axis object has a shape (getShape) and the flag isExplicit
    (include/fimex/coordSys/CoordinateAxis.h:92), which are given as functions of the object; an explicit axis
    has a dimension of its own name.  Logging is left out. *)
From Coq Require Import NArith String List Bool.
From Verif Require Import Base StdMap SliceModel AxesModel.
Import ListNotations.
Local Open Scope N_scope.

Section Csb.
  Variables (shape : axis -> list string) (expl : axis -> bool).

  (** the object: the request it inherits, cs_ and tShape_ *)
  Record csb := mkCsb { b_sb : slice_builder; b_cs : csys; b_tshape : list string }.

  (** SliceBuilder::setStartAndSize(axis, start, size), SliceBuilder.cc:120-129 *)
  Definition set_by_axis (sb : slice_builder) (a : axis) (start size : N) : outcome slice_builder :=
    if expl a then sb_setStartAndSize sb (a_name a) start size else Throw.

  (** setReferenceTimePos, 64-74 *)
  Definition set_ref (cs : csys) (sb : slice_builder) (pos : N) : outcome slice_builder :=
    if has_axis_type cs ReferenceTime then
      match find_axis cs ReferenceTime with
      | None => UB                                        (* a null pointer *)
      | Some a => if expl a then set_by_axis sb a pos 1 else Ok sb
      end
    else Ok sb.

  (** setTimeStartAndSize, 75-97; the set of names is sorted, only its size and its single element are used *)
  Definition set_time (b : csb) (start size : N) : outcome slice_builder :=
    let cs := b_cs b in
    if has_axis_type cs Time then
      match time_axis cs with
      | None => UB
      | Some t =>
          if expl t then set_by_axis (b_sb b) t start size
          else
            let names := fold_left (fun m n => sput n tt m) (b_tshape b) [] in
            do names <- (if has_axis_type cs ReferenceTime then
                           match find_axis cs ReferenceTime with
                           | None => UB
                           | Some r => Ok (serase (a_name r) names)
                           end
                         else Ok names);
            match names with
            | [(d, _)] => sb_setStartAndSize (b_sb b) d start size
            | _ => Throw
            end
      end
    else Ok (b_sb b).

  (** the loop 125-132: the request after it, and whether it ended with an exception *)
  Fixpoint set_axes (t : axis_type) (l : list axis) (start size : N) (sb : slice_builder) : slice_builder * bool :=
    match l with
    | [] => (sb, false)
    | a :: l' =>
        if type_eqb (a_type a) t && expl a then
          match set_by_axis sb a start size with
          | Ok sb' => set_axes t l' start size sb'
          | _ => (sb, true)
          end
        else set_axes t l' start size sb
    end.

  (** setAxisStartAndSize, 118-137: the request after the call, and whether the call threw.  A throwing call
      leaves the request of the last successful setStartAndSize. *)
  Definition or_old (sb : slice_builder) (r : outcome slice_builder) : slice_builder * bool :=
    match r with Ok sb' => (sb', false) | _ => (sb, true) end.
  Definition set_axis_type (b : csb) (t : axis_type) (start size : N) : slice_builder * bool :=
    match t with
    | ReferenceTime => or_old (b_sb b) (set_ref (b_cs b) (b_sb b) start)
    | Time => or_old (b_sb b) (set_time b start size)
    | _ => if has_axis_type (b_cs b) t then set_axes t (get_axes (b_cs b)) start size (b_sb b) else (b_sb b, false)
    end.

  (** getCSVarFromCDM_, 42-52: [usable] is isCSAndCompleteFor, [vars] the variables with their shapes *)
  Definition cs_var (usable : string -> bool) (vars : list (string * list string)) : option (string * list string) :=
    find (fun v => usable (fst v)) vars.

  (** SliceBuilder(cdm, varName), SliceBuilder.cc:53-71: [dimlen] is the length of a dimension, if there is one *)
  Definition sb_of_var (dimlen : string -> option N) (names : list string) : outcome slice_builder :=
    do sizes <- omapM (fun n => match dimlen n with Some l => Ok l | None => Throw end) names;
    sb_init names sizes (map (fun _ => false) names).

  (** the constructor, 54-62 *)
  Definition csb_new (usable : string -> bool) (vars : list (string * list string)) (dimlen : string -> option N) (cs : csys)
    : outcome csb :=
    match cs_var usable vars with
    | None => Throw
    | Some v =>
        do sb <- sb_of_var dimlen (snd v);
        do sb <- set_ref cs sb 0;
        if has_axis_type cs Time then
          match time_axis cs with
          | None => UB
          | Some t => Ok (mkCsb sb cs (shape t))
          end
        else Ok (mkCsb sb cs [])
    end.

  (** getTimeVariableSliceBuilder, 98-116 *)
  Definition time_builder (b : csb) : outcome slice_builder :=
    do sizes <- omapM (fun n => do p <- sb_getDimPos (b_sb b) n; at_ (sb_max (b_sb b)) p) (b_tshape b);
    do sb <- sb_init (b_tshape b) sizes (map (fun _ => false) (b_tshape b));
    ofold (fun sb n => do p <- sb_getDimPos (b_sb b) n;
                       do s <- at_ (sb_start (b_sb b)) p;
                       do z <- at_ (sb_size (b_sb b)) p;
                       sb_setStartAndSize sb n s z) (b_tshape b) sb.

  (** getAxisTypes, 139-155 *)
  Definition axis_types (b : csb) : outcome (list axis_type) :=
    do names <- sb_getDimensionNames (b_sb b);
    omapM (fun n => match find (fun a => String.eqb (a_name a) n) (get_axes (b_cs b)) with
                    | Some a => Ok (a_type a)
                    | None => Throw
                    end) names.

  (** calls of a client that catches exceptions *)
  Inductive csb_op :=
  | RefTimePos (p : N)
  | TimeRange (start size : N)
  | AxisRange (t : axis_type) (start size : N)
  | Plain (op : sb_op).
  Definition csb_step (b : csb) (o : csb_op) : csb :=
    mkCsb (match o with
           | RefTimePos p => fst (or_old (b_sb b) (set_ref (b_cs b) (b_sb b) p))
           | TimeRange s z => fst (or_old (b_sb b) (set_time b s z))
           | AxisRange t s z => fst (set_axis_type b t s z)
           | Plain op => sb_step (b_sb b) op
           end) (b_cs b) (b_tshape b).
  Definition csb_run (b : csb) (ops : list csb_op) : csb := fold_left csb_step ops b.
End Csb.
