(** Model of how the messages of GRIB files become variables with dimensions: the configuration
    element of a message (src/io/grib/GribReaderConfig.cc:66-103, 294-392), loading messages
    (src/io/grib/GribCDMIndexer.cc:484-600), the level axes (602-636, 264-301), the dimensions and
    shapes (638-655, 756-763, 819-846, 918-964) and the index of messages (700-754, GribModel).
    Simplifications: attributes, data types, the variables of projections and axes and the reading
    of the XML configuration are left out; a grid is compared by a given equality. *)
From Coq Require Import ZArith NArith String List Bool QArith Qcanon.
From Verif Require Import Base StdMap StringModel CdmModel GribModel.
Import ListNotations.
Local Open Scope string_scope.
Local Open Scope list_scope.
Local Open Scope nat_scope.

(** ** Configuration *)

(** VariableConfig, src/io/grib/GribReaderConfig.h *)
Record vconf := mkVC { vc_name : string; vc_const : bool; vc_direction : string; vc_counterpart : string }.
(** ParamConfig: the values allowed for keys *)
Record pconf := mkPC { pc_long : smap (list Z); pc_text : smap (list string); pc_var : vconf }.
(** GribConfig: nodeIdx1 and nodeIdx2 (elements with the number of their parameter, in order of the
    file), selectParameters, the id of vertical axes by edition and type, the names of the x and y
    axes of a type of grid, and of the time *)
Record gconf := mkGC { gc_one : list (Z * pconf); gc_two : list (Z * pconf); gc_defined : bool;
                       gc_level : Z * Z -> option string; gc_axes : string -> option (string * string);
                       gc_time : string }.

Section Index.
  (** GridDefinition and its equality; GribFileMessage's file, position and size *)
  Variable G : Type.
  Variable geqb : G -> G -> bool.
  Variable B : Type.

  (** GribFileMessage; the valid time encoded, None: invalid *)
  Record message := mkM { m_edition : Z; m_ids : Z * Z * Z; m_ltype : Z; m_level : Z; m_range : Z; m_stat : Z;
                          m_step : string; m_other : list (string * Z); m_short : string; m_time : option N;
                          m_total : nat; m_pert : nat; m_grid : G; m_gtype : string; m_pv : list Qc; m_ptr : B }.

  (** has_optionals_long, GribReaderConfig.cc:73-82 *)
  Definition has_long (p : pconf) (k : string) (v : Z) : bool :=
    match sfind k (pc_long p) with
    | None | Some [] => true
    | Some l => existsb (Z.eqb v) l
    end.
  (** has_optionals_string, lines 93-102 *)
  Definition has_text (p : pconf) (k v : string) : bool :=
    match sfind k (pc_text p) with
    | None | Some [] => true
    | Some l => existsb (String.eqb v) l
    end.

  (** the tests of findVariableConfig, lines 294-381 *)
  Definition fits (m : message) (p : pconf) : bool :=
    let '(_, a, b) := m_ids m in
    let one := (m_edition m =? 1)%Z in
    has_long p (if one then "gribTablesVersionNo" else "parameterCategory") a
    && has_long p (if one then "identificationOfOriginatingGeneratingCentre" else "discipline") b
    && has_long p "typeOfLevel" (m_ltype m)
    && has_long p "levelNo" (m_level m)
    && has_long p "timeRangeIndicator" (m_range m)
    && has_long p "typeOfStatisticalProcessing" (m_stat m)
    && has_text p "stepType" (m_step m)
    && forallb (fun o => has_long p (fst o) (snd o)) (m_other m).
  Definition find_config (cf : gconf) (m : message) : option vconf :=
    let '(n, _, _) := m_ids m in
    let l := if (m_edition m =? 1)%Z then gc_one cf else gc_two cf in
    option_map pc_var (find (fits m) (map snd (filter (fun x => (fst x =? n)%Z) l))).

  (** getVariableName, lines 394-403; typeOfLevel is not negative *)
  Definition var_name (m : message) (v : option vconf) : string :=
    match v with
    | Some v => vc_name v
    | None => ("ga_" ++ m_short m ++ "_" ++ number (Z.to_N (m_ltype m)))%string
    end.
  (** getVariableValidTime, lines 405-410 *)
  Definition valid_time (m : message) (v : option vconf) : option N :=
    match v with
    | Some v => if vc_const v then None else m_time m
    | None => m_time m
    end.

  (** ** Loading messages *)

  (** var_has, GribCDMIndexer.cc:113-133 *)
  Record vhas := mkV { h_ens : bool; h_time : bool; h_grid : G; h_ltype : Z * Z; h_levels : list Z;
                       h_pv : list Qc; h_conf : option vconf }.
  (** times, maxEnsembles, varHas, gridProjection (grids with their axes, in the order they were
      found), the dimensions, and the messages by variable *)
  Record lstate := mkS { s_times : list N; s_max : nat; s_vars : smap vhas; s_grids : list (G * (string * string));
                         s_dims : list string; s_box : list (string * gmsg B) }.
  Definition empty : lstate := mkS [] 0 [] [] [] [].

  (** std::set<long>::insert *)
  Fixpoint z_insert (x : Z) (l : list Z) : list Z :=
    match l with
    | [] => [x]
    | y :: l' => if (x <? y)%Z then x :: l else if (x =? y)%Z then l else y :: z_insert x l'
    end.

  (** addDimension, src/CDM.cc: a known name is refused *)
  Definition add_dim (n : string) (d : list string) : outcome (list string) :=
    if existsb (String.eqb n) d then Throw else Ok (d ++ [n]).

  (** loadAddProjection, lines 808-846, 862-887, 917: the axes of a new grid get its number *)
  Definition add_grid (cf : gconf) (g : G) (type : string) (s : lstate) : outcome lstate :=
    if existsb (fun x => geqb g (fst x)) (s_grids s) then Ok s
    else
      let app := match length (s_grids s) with O => "" | k => number (N.of_nat k) end in
      match gc_axes cf type with
      | None => Throw
      | Some (x, y) =>
          let x' := (x ++ app)%string in
          let y' := (y ++ app)%string in
          do d <- add_dim x' (s_dims s);
          do d' <- add_dim y' d;
          Ok (mkS (s_times s) (s_max s) (s_vars s) (s_grids s ++ [(g, (x', y'))]) d' (s_box s))
      end.

  (** lines 526-552: the number of members *)
  Definition members (total pert old : nat) : nat :=
    if 1 <? total then
      let n := if old =? 0 then total else if old <? total then total else old in
      if n <=? pert then pert + 1 else n
    else old.

  (** loadOneMessage, lines 484-600 *)
  Definition load_one (cf : gconf) (s : lstate) (m : message) : outcome lstate :=
    let vc := find_config cf m in
    if gc_defined cf && match vc with None => true | _ => false end then Ok s           (* 487-490 *)
    else
      let name := var_name m vc in
      let t := valid_time m vc in
      let has_time := match t with Some _ => true | None => false end in
      let has_ens := 1 <? m_total m in
      let pert := if has_ens then m_pert m else 0 in                                  (* 530-536 *)
      let lt := (m_edition m, m_ltype m) in
      let times := match t with Some t => set_insert t (s_times s) | None => s_times s end in
      let box := s_box s ++ [(name, GribModel.mkG (match t with Some t => t | None => 0%N end)
                                                  (m_level m) pert (m_ptr m))] in
      match sfind name (s_vars s) with
      | None =>
          let v := mkV has_ens has_time (m_grid m) lt [m_level m] (m_pv m) vc in
          do s' <- add_grid cf (m_grid m) (m_gtype m) s;
          Ok (mkS times (members (m_total m) (m_pert m) (s_max s)) (sput name v (s_vars s)) (s_grids s') (s_dims s') box)
      | Some v =>
          if negb (Bool.eqb has_time (h_time v)) then Throw                           (* 515-516 *)
          else if negb (Bool.eqb has_ens (h_ens v)) then Throw                        (* 556-558 *)
          else if negb ((fst (h_ltype v) =? fst lt)%Z && (snd (h_ltype v) =? snd lt)%Z) then Throw (* 565-571 *)
          else if negb (geqb (m_grid m) (h_grid v)) then Throw                        (* 580-582 *)
          else
            let v' := mkV (h_ens v) (h_time v) (h_grid v) (h_ltype v) (z_insert (m_level m) (h_levels v))
                          (h_pv v) (h_conf v) in
            Ok (mkS times (members (m_total m) (m_pert m) (s_max s)) (sput name v' (s_vars s)) (s_grids s) (s_dims s) box)
      end.
  Definition load (cf : gconf) (l : list message) : outcome lstate := ofold (load_one cf) l empty.

  (** ** Levels *)

  (** levelValsOfType: by edition and type (in order), the lists of levels with their pv *)
  Definition lmap := list ((Z * Z) * list (list Qc * list Z)).
  Definition type_compare (a b : Z * Z) : comparison :=
    match Z.compare (fst a) (fst b) with Eq => Z.compare (snd a) (snd b) | c => c end.
  Definition zl_eqb (a b : list Z) : bool := if list_eq_dec Z.eq_dec a b then true else false.
  Fixpoint place (lv : list Z) (l : list (list Qc * list Z)) : option nat :=
    match l with
    | [] => None
    | x :: l' => if zl_eqb (snd x) lv then Some 0 else option_map S (place lv l')
    end.
  (** one pass of buildLevels, lines 605-635, with the position *)
  Fixpoint add_levels (t : Z * Z) (pv : list Qc) (lv : list Z) (m : lmap) : lmap * nat :=
    match m with
    | [] => ([(t, [(pv, lv)])], 0)
    | (t', l) :: m' =>
        match type_compare t t' with
        | Lt => ((t, [(pv, lv)]) :: m, 0)
        | Eq => match place lv l with
                | Some p => (m, p)
                | None => ((t', l ++ [(pv, lv)]) :: m', length l)
                end
        | Gt => let '(r, p) := add_levels t pv lv m' in ((t', l) :: r, p)
        end
    end.
  Definition build_levels (vars : smap vhas) : lmap * list (string * nat) :=
    fold_left (fun s v => let '(m, ps) := s in
                          let '(m', p) := add_levels (h_ltype (snd v)) (h_pv (snd v)) (h_levels (snd v)) m in
                          (m', ps ++ [(fst v, p)]))
              vars ([], []).

  (** initLevels, lines 286-301: the names of the level dimensions *)
  Definition level_id (cf : gconf) (t : Z * Z) : string :=
    match gc_level cf t with
    | Some s => s
    | None => ("grib" ++ number (Z.to_N (fst t)) ++ "_vLevel" ++ number (Z.to_N (snd t)))%string
    end.
  Fixpoint name_each (id : string) (many : bool) (i : nat) (l : list (list Qc * list Z)) (d : list string)
    : outcome (list string * list string) :=
    match l with
    | [] => Ok ([], d)
    | _ :: l' =>
        let base := (id ++ (if many then number (N.of_nat i) else ""))%string in
        do n <- count_up (fun n => existsb (String.eqb n) d) base base 0 (length d);
        do d' <- add_dim n d;
        do r <- name_each id many (S i) l' d';
        Ok (n :: fst r, snd r)
    end.
  Fixpoint name_levels (cf : gconf) (m : lmap) (d : list string)
    : outcome (list ((Z * Z) * list string) * list string) :=
    match m with
    | [] => Ok ([], d)
    | (t, l) :: m' =>
        do r <- name_each (level_id cf t) (1 <? length l) 0 l d;
        do r' <- name_levels cf m' (snd r);
        Ok ((t, fst r) :: fst r', snd r')
    end.

  (** ** The file *)

  Definition at_type {A} (t : Z * Z) (l : list ((Z * Z) * A)) : option A :=
    option_map snd (find (fun x => (fst (fst x) =? fst t)%Z && (snd (fst x) =? snd t)%Z) l).
  Definition at_level {A} (t : Z * Z) (p : nat) (l : list ((Z * Z) * list A)) : option A :=
    match at_type t l with Some r => nth_error r p | None => None end.

  (** a variable: shape, levels and pv of its level axis, counterpart and direction (x, y, or none)
      of a vector, and the index *)
  Record gvar := mkGV { v_shape : list string; v_levels : list Z; v_pv : list Qc; v_vector : option (string * string);
                        v_index : list (option B) }.
  Record gfile := mkF { f_dims : list string; f_times : list N; f_members : nat; f_vars : list (string * gvar) }.

  (** initAddVariables, lines 918-964, and initCreateVarMessages, lines 700-754.  In 714 and 721 the
      dimensions are recognised by their names, here by the variable. *)
  Definition one_var (s : lstate) (cf : gconf) (lm : lmap) (names : list ((Z * Z) * list string)) (v : vhas) (p : nat) (name : string)
    : outcome gvar :=
    do xy <- match find (fun x => geqb (h_grid v) (fst x)) (s_grids s) with Some x => Ok (snd x) | None => Throw end;
    do ln <- match at_level (h_ltype v) p names with Some n => Ok n | None => UB end;
    do lv <- match at_level (h_ltype v) p lm with Some x => Ok x | None => Throw end;
    let shape := [fst xy; snd xy] ++ (if h_ens v then ["ensemble_member"] else []) ++ [ln]
                 ++ (if h_time v then [gc_time cf] else []) in
    let E := if h_ens v then s_max s else 1 in
    let T := if h_time v then length (s_times s) else 1 in
    do idx <- grib_index (s_times s) (snd lv) E T
                (map snd (filter (fun b => String.eqb (fst b) name) (s_box s)));
    (* 944-946: only a variable without counterpart is set as vector, with the empty counterpart *)
    let vec := match h_conf v with
               | Some c => if String.eqb (vc_counterpart c) "" then Some ("", vc_direction c) else None
               | None => Some ("", "")
               end in
    Ok (mkGV shape (snd lv) (fst lv) vec idx).

  Definition build (cf : gconf) (s : lstate) : outcome gfile :=
    let '(lm, ps) := build_levels (s_vars s) in
    do d1 <- add_dim (gc_time cf) (s_dims s);                                         (* 651 *)
    do d2 <- (if s_max s <=? 1 then Ok d1 else add_dim "ensemble_member" d1);         (* 758-763 *)
    do nm <- name_levels cf lm d2;
    do vs <- omapM (fun vp => do g <- one_var s cf lm (fst nm) (snd (fst vp)) (snd (snd vp)) (fst (fst vp));
                              Ok (fst (fst vp), g))
                   (combine (s_vars s) ps);
    Ok (mkF (snd nm) (s_times s) (s_max s) vs).

  Definition grib_file (cf : gconf) (l : list message) : outcome gfile :=
    do s <- load cf l; build cf s.
End Index.
