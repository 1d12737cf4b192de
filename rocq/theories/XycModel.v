(** The program fiXYcontents: src/binSrc/fiXYcontents.cc.  What is printed is a list of blocks, one for each variable
    with slices: its first line and one line per slice.  Left out: the options of the command line that fimex has too
    (input.*, log4cpp, num_threads), texts (formats of printf), rounding: values of the statistics are rational
    numbers, a value that is not defined is [None]. *)
From Coq Require Import NArith ZArith QArith Ascii String List Bool.
From Verif Require Import Base StringModel StdMap SliceModel AxesModel CsbModel.
Import ListNotations.
Local Open Scope list_scope.

(** ** Statistics *)
Definition sum (l : list Q) : Q := fold_left Qplus l 0%Q.
Definition count (l : list Q) : Q := inject_Z (Z.of_nat (length l)).
Definition qmax (a b : Q) : Q := if Qle_bool b a then a else b.
Definition qmin (a b : Q) : Q := if Qle_bool a b then a else b.
Fixpoint insert (x : Q) (l : list Q) : list Q :=
  match l with [] => [x] | y :: r => if Qle_bool x y then x :: l else y :: insert x r end.
Definition sort (l : list Q) : list Q := fold_right insert [] l.
(** quantile, lines 110-115; the size times 0.5 as float is rounded from 2^24 values on, not modelled *)
Definition median (l : list Q) : outcome Q :=
  match nth_error (sort l) (Nat.div (length l) 2%nat) with Some x => Ok x | None => Throw end.

Record stats := mkStats {
  st_undef : nat; st_def : nat;
  st_sum : Q; st_mean : Q; st_min : Q; st_max : Q; st_median : Q;
  st_var : option Q             (* the square of stddev; [None]: not a number *)
}.
Definition defined (data : list (option Q)) : list Q := flat_map (fun v => match v with Some x => [x] | None => [] end) data.
(** calcStats, lines 117-156.  Of no values only the counts are set, the others are 0 when asked for (std::map). *)
Definition calc (data : list (option Q)) : outcome stats :=
  let vec := defined data in
  let undef := length (filter (fun v => match v with None => true | _ => false end) data) in
  let def := (length data - undef)%nat in
  match vec with
  | [] => Ok (mkStats undef def 0%Q 0%Q 0%Q 0%Q 0%Q (Some 0%Q))
  | x :: _ =>
      let mean := Qdiv (sum vec) (count vec) in
      let sq := fold_left (fun s v => s + (v - mean) * (v - mean))%Q vec 0%Q in
      do m <- median vec;
      Ok (mkStats undef def (sum vec) mean (fold_left qmin vec x) (fold_left qmax vec x) m
            (match vec with [_] => None | _ => Some (sq / (count vec - 1))%Q end))
  end.

Inductive shown := Def (b : bool) | Number (name : string) (v : Q) | Root (v : option Q) | Undefs (n : nat) | Unknown (name : string).
(** lines 417-441 *)
Definition show (s : stats) (name : string) : list shown :=
  let some := Nat.ltb 0%nat (st_def s) in
  let when (x : shown) := if some then [x] else [] in
  if (name =? "def")%string then [Def some]
  else if (name =? "median")%string then when (Number name (st_median s))
  else if (name =? "mean")%string then when (Number name (st_mean s))
  else if (name =? "stddev")%string then when (Root (st_var s))
  else if (name =? "sum")%string then when (Number name (st_sum s))
  else if (name =? "min")%string then when (Number name (st_min s))
  else if (name =? "max")%string then when (Number name (st_max s))
  else if (name =? "undef")%string then when (Undefs (st_undef s))
  else [Unknown name].
(** lines 409-415 *)
Definition stat_names (s : string) : outcome (list string) :=
  let s := if (s =? "all")%string || (s =? "")%string then "def,mean,median,stddev,min,max,undef"%string else s in
  do toks <- tokenize (list_ascii_of_string s) (list_ascii_of_string ",");
  Ok (map string_of_list_ascii toks).

(** ** Slices *)
Section Contents.
(** values of axes as float, their products with 60 and 10 as long; instants *)
Variables (V T : Type) (to60 to10 : V -> Z).

(** a coordinate system: its axes, isSimpleSpatialGridded, isCSAndCompleteFor *)
Record system := mkSys { y_axes : csys; y_simple : bool; y_complete : string -> bool }.
(** the data: a failing read is [Throw] *)
Record source := mkSrc {
  s_vars : list (string * list string);                (* variables with their dimensions *)
  s_dimlen : string -> option N;
  s_systems : list system;
  s_shape : axis -> list string;
  s_expl : axis -> bool;
  s_axis_size : axis -> N;                             (* the size of the values of an axis *)
  s_attr : string -> string -> option string;
  s_convertible : string -> string -> bool;            (* Units::areConvertible *)
  s_std : string -> list string;                       (* findVariables("standard_name", name + "(\s.* )?"), without the blank *)
  s_values : string -> outcome (list V);               (* getScaledData *)
  s_values_in : string -> string -> outcome (list V);  (* getScaledDataInUnit *)
  s_unique_ref : option T;                             (* getUniqueForecastReferenceTimeFT, None if it throws *)
  s_ref_times : string -> outcome (list T);
  s_first_time : string -> slice_builder -> outcome T; (* the first value of the time slice *)
  s_hours : string -> T -> slice_builder -> outcome (list V);  (* the time slice in hours since *)
  s_slice : string -> slice_builder -> outcome (list (option Q))
}.

Inductive layer := LNo | LUnit (u : string) | LStd (n : string).
(** lines 183-195 *)
Definition layer_of (s : string) : layer :=
  if (s =? "no")%string then LNo
  else if (substring 0%nat 6%nat s =? "units:")%string then LUnit (substring 6%nat (String.length s - 6)%nat s)
  else LStd s.
(** the options; the lists are read from their texts where they are used (tokenizeDotted) *)
Record options := mkOpt {
  o_vars : option (list string); o_stds : option (list string);
  o_layer : option string;
  o_times : option (outcome (list V));
  o_positions : option (outcome (list N));
  o_values : option (outcome (list V));
  o_stats : option string
}.

(** lines 160-181; the set of names *)
Definition selected (o : options) (s : source) : list string :=
  let names := match o_vars o, o_stds o with
               | None, None => map fst (s_vars s)
               | v, t => (match v with Some l => l | None => [] end) ++ flat_map (s_std s) (match t with Some l => l | None => [] end)
               end in
  skeys (fold_left (fun m n => sput n tt m) names []).

Fixpoint contains (n s : string) : bool :=
  String.prefix n s || match s with EmptyString => false | String _ r => contains n r end.
(** lines 211-237: what is called the vertical axis is the x axis *)
Definition layer_used (o : options) (s : source) (cs : csys) : bool :=
  match o_layer o with
  | None => true
  | Some l =>
      match layer_of l, geo_x cs with
      | LNo, None => true
      | LNo, Some a => (s_axis_size s a <=? 1)%N
      | _, None => false
      | LUnit u, Some a => match s_attr s (a_name a) "units" with Some v => s_convertible s v u | None => false end
      | LStd n, Some a => match s_attr s (a_name a) "standard_name" with Some v => contains n v | None => false end
      end
  end.

Definition given {A} (x : option (outcome (list A))) : outcome (list A) := match x with None => Ok [] | Some l => l end.
Definition in_set (z : Z) (l : list Z) : bool := existsb (Z.eqb z) l.
Definition positions {A} (l : list A) : list (N * A) := combine (map N.of_nat (seq 0%nat (length l))) l.
Definition dim_length (s : source) (d : string) : outcome N := match s_dimlen s d with Some n => Ok n | None => Throw end.
Definition set_all_axis (s : source) (sb : slice_builder) (a : axis) : outcome slice_builder :=
  if s_expl s a then sb_setAll sb (a_name a) else Throw.

(** all requests with the dimension set to each of the positions; setting again replaces what was set, so a copy of
    the request as it was is set *)
Definition expand (set : slice_builder -> N -> outcome slice_builder) (ps : list N) (sbs : list slice_builder)
  : outcome (list slice_builder) :=
  omap (@concat _) (omapM (fun sb => omapM (set sb) ps) sbs).

(** the time axis, lines 246-289: requests and the values in hours, and the reference time *)
Definition time_slices (o : options) (s : source) (b : csb) (x y t : axis) : outcome (list slice_builder * list V * T) :=
  let cs := b_cs b in
  do (sb, ref) <-
    (if has_axis_type cs ReferenceTime then
       match find_axis cs ReferenceTime with
       | None => UB
       | Some r =>
           do times <- s_ref_times s (a_name r);
           match rev times with
           | [] => UB                              (* the last of no values *)
           | last :: _ => do sb <- set_ref (s_expl s) cs (b_sb b) (N.of_nat (length times) - 1); Ok (sb, Some last)
           end
       end
     else Ok (b_sb b, s_unique_ref s));
  let b := mkCsb sb cs (b_tshape b) in
  do ref <- (match ref with
             | Some r => Ok r
             | None => do tb <- time_builder b; s_first_time s (a_name t) tb
             end);
  do tb <- time_builder b;
  do hours <- s_hours s (a_name t) ref tb;
  do wanted <- given (o_times o);
  let set := map to60 wanted in
  let ps := map fst (filter (fun p => match set with [] => true | _ => in_set (to60 (snd p)) set end) (positions hours)) in
  do sbs <- omapM (fun i => do sb <- set_time (s_expl s) b i 1;
                            do sb <- set_all_axis s sb x; set_all_axis s sb y) ps;
  Ok (sbs, hours, ref).

(** the vertical axis, lines 291-316 *)
Definition level_slices (o : options) (s : source) (z : axis) (sbs : list slice_builder) : outcome (list slice_builder * list V) :=
  do values <- (match option_map layer_of (o_layer o) with
                | Some (LUnit u) => s_values_in s (a_name z) u
                | _ => s_values s (a_name z)
                end);
  do ps <- given (o_positions o);
  do vs <- given (o_values o);
  let set := map to10 vs in
  let wanted := filter (fun p => match ps with [] => true | _ => existsb (N.eqb (fst p)) ps end)
                  (filter (fun p => match set with [] => true | _ => in_set (to10 (snd p)) set end) (positions values)) in
  do sbs <- expand (fun sb i => set_by_axis (s_expl s) sb z i 1) (map fst wanted) sbs;
  Ok (sbs, values).

(** all other dimensions, lines 318-333 *)
Definition other_slices (s : source) (sbs : list slice_builder) : outcome (list slice_builder * smap (list V)) :=
  match sbs with
  | [] => Ok ([], [])
  | first :: _ =>
      ofold (fun st d =>
               let '(sbs, m) := st in
               do values <- s_values s d;
               do sbs <- expand (fun sb i => sb_setStartAndSize sb d i 1) (map fst (positions values)) sbs;
               Ok (sbs, sput d values m)) (sb_getUnset first) (sbs, [])
  end.

Inductive item := TimeAt (i : N) (v : V) | LevelAt (i : N) (v : V) | DimAt (d : string) (v : V).
Definition at_position {A} (l : list A) (i : N) : outcome A := rd (nth_error l (N.to_nat i)).
(** lines 369-390: no values of a dimension is a null pointer *)
Definition item_of (hours levels : option (list V)) (dims : smap (list V)) (d : string) (t : axis_type) (i : N) : outcome (list item) :=
  match t with
  | Time => do l <- rd hours; do v <- at_position l i; Ok [TimeAt i v]
  | GeoZ | Pressure | Height | Depth => do l <- rd levels; do v <- at_position l i; Ok [LevelAt i v]
  | GeoX | GeoY | Lon | Lat => Ok []
  | _ => do l <- rd (sfind d dims); do v <- at_position l i; Ok [DimAt d v]
  end.
Record line := mkLine { l_items : list item; l_stats : list shown }.
(** lines 363-443 *)
Definition line_of (o : options) (s : source) (name : string) (cs : csys) (tshape : list string)
    (hours levels : option (list V)) (dims : smap (list V)) (sb : slice_builder) : outcome line :=
  do names <- sb_getDimensionNames sb;
  do types <- axis_types (mkCsb sb cs tshape);
  do items <- omapM (fun e => item_of hours levels dims (fst e) (fst (snd e)) (snd (snd e)))
                (rev (combine names (combine types (sb_start sb))));
  do shown <- (match o_stats o with
               | None => Ok []
               | Some n =>
                   do data <- s_slice s name sb;
                   do st <- calc data;
                   do names <- stat_names n;
                   Ok (flat_map (show st) names)
               end);
  Ok (mkLine (concat items) shown).

Record block := mkBlock { k_name : string; k_ref : T; k_nx : N; k_ny : N; k_lines : list line }.
(** one variable, lines 199-446 *)
Definition contents (o : options) (s : source) (name : string) : outcome (list block) :=
  match find (fun y => y_complete y name) (s_systems s) with
  | None => Ok []
  | Some y =>
      let cs := y_axes y in
      if negb (layer_used o s cs) then Ok []
      else if negb (y_simple y) then Ok []
      else
        do ax <- rd (geo_x cs);
        do ay <- rd (geo_y cs);
        do nx <- dim_length s (a_name ax);
        do ny <- dim_length s (a_name ay);
        do b <- csb_new (s_shape s) (s_expl s) (y_complete y) (s_vars s) (s_dimlen s) cs;
        do (sbs, times) <- (match time_axis cs with
                            | None => Ok ([], None)
                            | Some t => do (sbs, hours, ref) <- time_slices o s b ax ay t; Ok (sbs, Some (hours, ref))
                            end);
        do (sbs, levels) <- (match geo_z cs with
                             | None => Ok (sbs, None)
                             | Some z => do (sbs, values) <- level_slices o s z sbs; Ok (sbs, Some values)
                             end);
        do (sbs, dims) <- other_slices s sbs;
        match sbs, times with
        | [], _ | _, None => Ok []
        | _, Some (hours, ref) =>
            do lines <- omapM (line_of o s name cs (b_tshape b) (Some hours) levels dims) sbs;
            Ok [mkBlock name ref nx ny lines]
        end
  end.
(** runStats *)
Definition run_stats (o : options) (s : source) : outcome (list block) :=
  omap (@concat _) (omapM (contents o s) (selected o s)).
End Contents.
