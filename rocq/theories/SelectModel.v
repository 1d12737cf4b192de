(** Selecting variables, axis ranges and bounding boxes (CDMExtractor).  The reduction of a dimension to
    given positions is the one of ExtractModel.v. *)
From Coq Require Import NArith ZArith QArith Qabs String List Bool Arith.
From Verif Require Import Base StdMap CdmModel ExtractModel.
Import ListNotations.
Local Open Scope string_scope.
Local Open Scope list_scope.
Local Open Scope nat_scope.

(** ** selecting variables *)

(** what of CoordinateSystem is used: isCSAndCompleteFor and getDependencyVariables (the dependency
    variables and the names of the axes, src/coordSys/CoordinateSystem.cc:347-355) *)
Record dsys := mkDsys { ds_for : string -> bool; ds_deps : list string }.

(** std::set<string>::insert; only the members of the sets matter here, not their order *)
Definition has (n : string) (s : list string) : bool := existsb (String.eqb n) s.
Definition sadd (s : list string) (n : string) : list string := if has n s then s else s ++ [n].

(** the dimension variables of the variables of the set, src/CDMMergeUtils.cc:125-135 *)
Definition dim_vars (c : cdm) (s : list string) : list string :=
  flat_map (fun n => match find_var n (vars c) with
                     | None => []
                     | Some v => filter (has_var c) (v_shape v)
                     end) s.
(** findCompleteCoordinateSystemFor(..)->getDependencyVariables(), lines 143-151 *)
Definition deps_of (css : list dsys) (n : string) : list string :=
  match find (fun cs => ds_for cs n) css with None => [] | Some cs => ds_deps cs end.
(** one call of addAuxiliary without the recursion, lines 121-152 *)
Definition aux_round (c : cdm) (css : list dsys) (s : list string) : list string :=
  let s1 := fold_left sadd (dim_vars c s) s in
  fold_left sadd (flat_map (deps_of css) s1) s1.
(** addAuxiliary, src/CDMMergeUtils.cc:121-156: it calls itself as long as something was inserted *)
Fixpoint add_auxiliary (fuel : nat) (c : cdm) (css : list dsys) (s : list string) : outcome (list string) :=
  match fuel with
  | O => Hang
  | S f => let s' := aux_round c css s in
           if length s <? length s' then add_auxiliary f c css s' else Ok s'
  end.
(** CDMExtractor::selectVariables, src/CDMExtractor.cc:228-257: [c] is the metadata of the extractor,
    [css] are the coordinate systems of the data reader; the warnings are left out *)
Definition select_variables (fuel : nat) (c : cdm) (css : list dsys) (wanted : list string) (aux : bool) : outcome cdm :=
  do s <- (if aux then add_auxiliary fuel c css wanted else Ok wanted);
  Ok (fold_left remove_var (filter (fun n => negb (has n s)) (map v_name (vars c))) c).

(** ** reducing axes to a range of values *)

(** std::lower_bound and std::upper_bound: the search by halving; [p] holds for the values to be passed.
    (The standard defines the result only for data partitioned by [p].) *)
Fixpoint bound (fuel : nat) (p : Q -> bool) (l : list Q) (first len : nat) : nat :=
  match fuel with
  | O => first
  | S f =>
    if len =? 0 then first
    else let half := len / 2 in
         if p (nth (first + half) l 0%Q) then bound f p l (first + half + 1) (len - half - 1)
         else bound f p l first half
  end.
Definition qlt (a b : Q) : bool := negb (Qle_bool b a).
Definition lower_bound (l : list Q) (v : Q) : nat := bound (length l) (fun x => qlt x v) l 0 (length l).
Definition upper_bound (l : list Q) (v : Q) : nat := bound (length l) (fun x => negb (qlt v x)) l 0 (length l).

Record raxis := mkRaxis { r_name : string; r_shape : list string }.

(** the rounding delta, src/CDMExtractor.cc:339-343 *)
Definition delta_of (data : list Q) : Q :=
  match data with
  | a :: b :: _ => if Qeq_bool a b then 1 # 100000 else (1 # 100) * Qabs (a - b)
  | _ => 1 # 100000
  end.
(** lines 350-354 *)
Definition is_reverse (data : list Q) : bool :=
  match data with a :: b :: _ => qlt b a | _ => false end.

Section Axes.
  (** the types of axes; findAxisOfType of the coordinate systems of the data reader *)
  Variable T : Type.
  Variable systems : list (T -> option raxis).
  (** getUnits, Units::areConvertible, Units::convert(from, to): slope and offset *)
  Variables (units_of : string -> string) (convertible : string -> string -> bool) (convert : string -> string -> outcome (Q * Q)).
  (** getScaledData of the data reader, as doubles *)
  Variable scaled : string -> outcome (list Q).
  (** debug messages are written *)
  Variable debug : bool.

  (** lines 308-322 *)
  Definition axes_of (types : list T) (u : string) : list raxis :=
    flat_map (fun cs => flat_map (fun t => match cs t with
                                           | None => []
                                           | Some a => if convertible (units_of (r_name a)) u then [a] else []
                                           end) types) systems.

  (** position and number of the values kept, lines 344-376; the message in lines 360-364 reads *lower
      even if it is the end.  The data are reversed in place and reversed back, which is left out. *)
  Definition kept_range (data : list Q) (lo hi : Q) : outcome (nat * nat) :=
    let n := length data in
    let arr := if is_reverse data then rev data else data in
    let l := lower_bound arr lo in
    let u := upper_bound arr hi in
    if debug && (l =? n) then UB
    else let size := u - l in Ok (if is_reverse data then n - size - l else l, size).

  (** one axis, lines 332-384 *)
  Definition reduce_axis (u : string) (start stop : Q) (x : extractor) (a : raxis) (dim : string) : outcome extractor :=
    do data <- scaled (r_name a);
    match data with
    | [] => Ok x
    | _ =>
      do so <- convert u (units_of (r_name a));
      let (slope, offset) := so in
      do r <- kept_range data (start * slope + offset - delta_of data)%Q (stop * slope + offset + delta_of data)%Q;
      match sfind dim (x_sel x) with
      | Some _ => Ok x
      | None => reduce_start_len x dim (N.of_nat (fst r)) (N.of_nat (snd r))
      end
    end.
  (** the loop over the axes, lines 324-386; the second part of the state is usedDimensions *)
  Definition reduce_step (u : string) (start stop : Q) (st : extractor * list string) (a : raxis) : outcome (extractor * list string) :=
    match r_shape a with
    | [dim] => if has dim (snd st) then Ok st
               else do x <- reduce_axis u start stop (fst st) a dim; Ok (x, dim :: snd st)
    | _ => Ok st
    end.
  (** CDMExtractor::reduceAxes, src/CDMExtractor.cc:303-387 *)
  Definition reduce_axes (types : list T) (u : string) (start stop : Q) (x : extractor) : outcome extractor :=
    do st <- ofold (reduce_step u start stop) (axes_of types u) (x, []);
    Ok (fst st).

  (** a FimexTime: the special values min_date_time and max_date_time, other invalid ones, or seconds
      since 1970 (the calendar arithmetic of udunits is left out) *)
  Inductive moment := Earliest | Latest | Invalid | At (seconds : Q).
  (** numeric_limits<double>::max(); lowest() is its negative *)
  Definition DBL_MAX : Q := inject_Z (2 ^ 1024 - 2 ^ 971).
  (** TimeUnit::fimexTime2unitTime(time, invalidValue), src/TimeUnit.cc:114-122 *)
  Definition unit_time (m : moment) (invalid : Q) : Q :=
    match m with Earliest => (- DBL_MAX)%Q | Latest => DBL_MAX | Invalid => invalid | At s => s end.
  Definition EPOCH : string := "seconds since 1970-01-01 00:00:00".
  (** CDMExtractor::reduceTime, src/CDMExtractor.cc:389-396; [time] is the axis type *)
  Definition reduce_time (time : T) (from to : moment) (x : extractor) : outcome extractor :=
    reduce_axes [time] EPOCH (unit_time from (- DBL_MAX)%Q) (unit_time to DBL_MAX) x.

  (** ** bounding box *)

  (** a coordinate system: isSimpleSpatialGridded, hasProjection, the horizontal axes and the projection to
      longitude and latitude (point by point) *)
  Record bsys := mkBsys { b_simple : bool; b_proj : bool; b_x : raxis; b_y : raxis; b_lonlat : Q -> Q -> Q * Q }.

  (** lines 469-475 *)
  Definition in_box (south north west east : Q) (p : Q * Q) : bool :=
    let (lon, lat) := p in
    if qlt lat south || qlt north lat then false
    else if qlt east west then negb (qlt east lon && qlt lon west)
    else negb (qlt lon west || qlt east lon).
  (** the positions of the grid in the order of the loops, lines 457-458 and 467-468 *)
  Definition grid (nx ny : nat) : list (nat * nat) := flat_map (fun ix => map (fun iy => (ix, iy)) (seq 0 ny)) (seq 0 nx).
  (** lines 453-480: the positions kept on the x axis and on the y axis (std::set) *)
  Definition box_positions (south north west east : Q) (ll : Q -> Q -> Q * Q) (xs ys : list Q) : list N * list N :=
    fold_left (fun (s : list N * list N) (p : nat * nat) =>
      if in_box south north west east (ll (nth (fst p) xs 0%Q) (nth (snd p) ys 0%Q))
      then (set_insert (N.of_nat (fst p)) (fst s), set_insert (N.of_nat (snd p)) (snd s))
      else s) (grid (length xs) (length ys)) ([], []).

  (** the body of the loop, lines 425-486; the second part of the state is convertedAxes *)
  Definition box_step (south north west east : Q) (st : extractor * list string) (cs : bsys) : outcome (extractor * list string) :=
    if negb (b_simple cs) then Ok st
    else if negb (b_proj cs) then Ok st
    else if has (r_name (b_x cs)) (snd st) || has (r_name (b_y cs)) (snd st) then Ok st
    else if negb ((length (r_shape (b_x cs)) =? 1) && (length (r_shape (b_y cs)) =? 1)) then Ok st
    else
      do xs <- scaled (r_name (b_x cs));
      do ys <- scaled (r_name (b_y cs));
      if (length xs =? 0) || (length ys =? 0) then Ok st
      else
        let k := box_positions south north west east (b_lonlat cs) xs ys in
        do x1 <- reduce_set (fst st) (r_name (b_x cs)) (fst k);
        do x2 <- reduce_set x1 (r_name (b_y cs)) (snd k);
        Ok (x2, r_name (b_x cs) :: r_name (b_y cs) :: snd st).
  (** CDMExtractor::reduceLatLonBoundingBox, src/CDMExtractor.cc:408-488 *)
  Definition bounding_box (south north west east : Q) (css : list bsys) (x : extractor) : outcome extractor :=
    if qlt north south then Throw
    else if qlt south (-90 # 1) || qlt (90 # 1) south then Throw
    else if qlt north (-90 # 1) || qlt (90 # 1) north then Throw
    else if qlt west (-180 # 1) || qlt (180 # 1) west then Throw
    else if qlt east (-180 # 1) || qlt (180 # 1) east then Throw
    else do st <- ofold (box_step south north west east) css (x, []); Ok (fst st).
End Axes.
