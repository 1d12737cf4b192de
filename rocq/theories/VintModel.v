(** Data of a vertical interpolation: CDMVerticalInterpolator::getLevelDataSlice, src/CDMVerticalInterpolator.cc:356-567,
    with the helpers of src/coordSys/verticalTransform/VerticalTransformationUtils.cc:317-426.
    The arrays and the loop over them are those of LoopModel.v, the neighbour search is that of SearchModel.v.
    A variable and a vertical converter are functions from positions to numbers; reading a slice of them gives the
    numbers of the positions in storage order.  Numbers are exact rationals, [None] is the undefined value (NaN) of
    the data; levels are never NaN here.  The interpolation function is a parameter (LinearModel.v has the ones of
    fimex).  Packing of the result (interpolationArray2Data) and logging are left out; the OpenMP loop over the
    target levels is run in order. *)
From Coq Require Import ZArith QArith String List Bool Arith.
From Verif Require Import Base IndexSpec LoopModel SearchModel.
Import ListNotations.
Local Open Scope nat_scope.

(** a field: the names of its dimensions, and a number for every position *)
Record field (A : Type) := mkField { f_shape : list string; f_at : list nat -> A }.
Arguments mkField {A}. Arguments f_shape {A}. Arguments f_at {A}.

(** VerticalConverter: the levels and their limits (getDataSlice, getValidityMax, getValidityMin) *)
Record vconv := mkConv { vc_levels : field Q; vc_max : option (field Q); vc_min : option (field Q) }.

(** the new levels: level1 of interpolateToFixed, or a converter (interpolateToAxis, interpolateByTemplateVariable) *)
Inductive target := Fixed (levels : list Q) | Converter (c : vconv).

Section Vint.
  (** lengths of the dimensions of the CDM (the new axis is one of them), and the unlimited dimension *)
  Variables (dim_len : string -> option nat) (unlim : option string).
  (** intFunc(value0, value1, level0, level1, new level) *)
  Variable int_func : option Q -> option Q -> Q -> Q -> Q -> option Q.

  (** getDimSizes, 317-325: a name that is not a dimension counts as length 1 *)
  Definition dim_size (n : string) : nat := match dim_len n with Some l => l | None => 1 end.

  (** makeArrayDims, 387-403 *)
  Definition array_dims (shape : list string) : outcome adims := make_dims shape (map dim_size shape).
  (** forceUnLimDimLength1, 357-385 *)
  Definition force1 (a : adims) : outcome adims :=
    match unlim with None => Ok a | Some u => set_length a u 1 end.

  Definition is_unlim (n : string) : bool := match unlim with None => false | Some u => String.eqb n u end.

  (** the numbers of a box of positions, in storage order *)
  Definition box {A} (f : list nat -> A) (start size : list nat) : list A :=
    map (fun i => f (shift start i)) (positions size).
  (** verticalData4D, 421-426, and CDMReader::getDataSlice(varName, unLimDimPos): createSliceBuilder and
      setUnLimDimPos, 327-346; setStartAndSize throws if the record does not exist *)
  Definition record_slice {A} (f : field A) (pos : nat) : outcome (list A) :=
    if existsb (fun n => is_unlim n && (dim_size n <=? pos)) (f_shape f) then Throw
    else Ok (box (f_at f) (map (fun n => if is_unlim n then pos else 0) (f_shape f))
                          (map (fun n => if is_unlim n then 1 else dim_size n) (f_shape f))).
  (** getValidityMax(createSliceBuilder(..)), CDMVerticalInterpolator.cc:420-421: all records *)
  Definition full_slice {A} (f : field A) : list A :=
    box (f_at f) (map (fun _ => 0) (f_shape f)) (map dim_size (f_shape f)).

  (** delta(name) and length(name) of ArrayDims, ArrayLoop.h:37-50 *)
  Definition dim_delta (a : adims) (n : string) : nat :=
    match index_of n (a_names a) with Some i => nth i (a_deltas a) 0 | None => 0 end.
  Definition dim_length (a : adims) (n : string) : nat :=
    match index_of n (a_names a) with Some i => nth i (a_lens a) 1 | None => 1 end.

  (** the limits: those of the new levels, and if there are none, those of the old levels, 415-467 *)
  Definition limits (ign_max ign_min : bool) (c : vconv) : option (field Q) * option (field Q) :=
    (if ign_max then None else vc_max c, if ign_min then None else vc_min c).
  Definition the_limits (ign_max ign_min : bool) (conv : vconv) (tgt : target) : option (field Q) * option (field Q) :=
    match tgt with
    | Converter c => match limits ign_max ign_min c with
                     | (None, None) => limits ign_max ign_min conv
                     | l => l
                     end
    | Fixed _ => limits ign_max ign_min conv
    end.
  (** adding the array of a limit to the group; [None] if there is no limit *)
  Definition limit_array (l : option (field Q)) : outcome (option (adims * list Q)) :=
    match l with
    | None => Ok None
    | Some f => do a <- array_dims (f_shape f); do a <- force1 a; Ok (Some (a, full_slice f))
    end.
  Definition opt_list {A} (o : option A) : list A := match o with Some x => [x] | None => [] end.

  (** group.minimizeShared(0) after adding the four arrays, 410-411 *)
  Definition separate (g : group) : group :=
    {| g_names := g_names g; g_lens := g_lens g; g_arrays := g_arrays g; g_shared := minimize (g_shared g) 0 |}.

  (** position [s] of the loop, as an index *)
  Definition at_turn (idx : list Z) (s : nat) : nat := Z.to_nat (nth s idx 0%Z).

  (** the value of one cell, 496-545: [levels] of its column, [value] at a level of its column *)
  Definition interpolate (levels : list Q) (value : nat -> outcome (option Q)) (x : Q) : outcome (option Q) :=
    let '(p, q) := find_closest_neighbor levels x in
    if negb (p =? q) then
      do v0 <- value p; do v1 <- value q;
      do l0 <- rd (nth_error levels p); do l1 <- rd (nth_error levels q);
      Ok (int_func v0 v1 l0 l1 x)
    else Ok None.
  (** the test of the limits, 502-531 *)
  Definition in_range (maxs mins : option Q) (x : Q) : bool :=
    match mins with Some m => Qle_bool m x | None => true end && match maxs with Some m => Qle_bool x m | None => true end.

  (** replace_if below valid_min and above valid_max, 549-560; NaN compares false *)
  Definition clamp (vmin vmax : option Q) (v : option Q) : option Q :=
    let v := match vmin, v with Some m, Some y => if qltb y m then Some m else v | _, _ => v end in
    match vmax, v with Some m, Some y => if qltb m y then Some m else v | _, _ => v end.

  (** getLevelDataSlice, 363-565: [var] and [conv] are the variable and its levels in the input, [zi] the name of the
      old z axis, [shape_out] the shape of the variable in the output, [zo] the name of the new axis *)
  Definition level_slice (var : field (option Q)) (conv : vconv) (zi : string) (shape_out : list string) (zo : string) (tgt : target)
             (ign_max ign_min : bool) (vmin vmax : option Q) (pos : nat) : outcome (list (option Q)) :=
    do ivert <- record_slice (vc_levels conv) pos;                                            (* 364 *)
    do overt <- match tgt with Converter c => record_slice (vc_levels c) pos | Fixed l => Ok l end;
    do si <- array_dims (f_shape var);                                                       (* 393-404 *)
    do siv <- array_dims (f_shape (vc_levels conv));
    do so <- array_dims shape_out;
    do sov <- match tgt with
              | Converter c => array_dims (f_shape (vc_levels c))
              | Fixed l => add_dim empty_dims zo (List.length l)
              end;
    do si <- force1 (set_not_shared si zi);                                                  (* 405-407 *)
    do siv <- force1 (set_not_shared siv zi);
    do so <- force1 (set_not_shared so zo);
    do sov <- force1 (set_not_shared sov zo);
    do g <- make_group [si; siv; so; sov];
    let (lmax, lmin) := the_limits ign_max ign_min conv tgt in
    do amax <- limit_array lmax;
    do amin <- limit_array lmin;
    do g <- ofold add_array (opt_list (option_map fst amax) ++ opt_list (option_map fst amin)) (separate g);
    let nzi := dim_length si zi in
    let nzo := dim_length so zo in
    do idata <- record_slice var pos;                                                        (* 481 *)
    let out0 := repeat None (volume so) in
    do turns <- loop (cells (g_lens g)) g;
    do out <- ofold (fun out k => ofold (fun out idx =>
        do x <- rd (nth_error overt (at_turn idx 3 + k * dim_delta sov zo));
        do maxs <- match amax with None => Ok None | Some am => do m <- rd (nth_error (snd am) (at_turn idx 4)); Ok (Some m) end;
        do mins <- match amin with
                   | None => Ok None
                   | Some am => do m <- rd (nth_error (snd am) (at_turn idx (match amax with None => 4 | Some _ => 5 end))); Ok (Some m)
                   end;
        do v <- (if in_range maxs mins x then
                   do levels <- omapM (fun j => rd (nth_error ivert (at_turn idx 1 + j * dim_delta siv zi))) (seq 0 nzi);
                   interpolate levels (fun p => rd (nth_error idata (at_turn idx 0 + dim_delta si zi * p))) x
                 else Ok None);
        wr out (at_turn idx 2 + k * dim_delta so zo) v) turns out) (seq 0 nzo) out0;
    Ok (map (clamp vmin vmax) out).
End Vint.
