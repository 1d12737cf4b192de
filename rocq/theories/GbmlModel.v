(** Index files of GRIB files (grbml): writing and reading of messages (src/io/grib/GribFileIndex.cc:460-480,
    690-899, 970-1069, 1117-1310), the program fiGrbmlCat (src/binSrc/fiGrbmlCat.cc) and the options of the
    program fiIndexGribs (src/binSrc/fiIndexGribs.cc).  An XML document is the sequence of nodes which the reader
    of libxml2 delivers; the reader and the writer of libxml2 are trusted.  Left out: the texts of log messages,
    the index in the format of protobuf, the configuration and the names of members handed to the indexer. *)
From Coq Require Import ZArith NArith PeanoNat Ascii String List Bool.
From Verif Require Import Base StringModel TextModel IofModel.
Import ListNotations.
Local Open Scope list_scope.
Local Open Scope nat_scope.

(** ** Nodes *)
Inductive event := Start (name : str) (attrs : list (str * str)) (empty : bool) | End (name : str) | Other.
(** the nodes, and whether the document ends without an error of syntax *)
Definition document : Type := list event * bool.

Definition is (s : str) (t : string) : bool := str_eqb s (s_ t).

(** ** Numbers in texts *)
(** type2string of an integer, include/fimex/Type2String.h:40-75 *)
Definition show_z (z : Z) : str :=
  if (z <? 0)%Z then "-"%char :: dec (Z.to_N (- z)) else dec (Z.to_N z).
Definition LMIN : Z := (- 2 ^ 63)%Z.
Definition LMAX : Z := (2 ^ 63 - 1)%Z.
Fixpoint digits_value (s : str) (acc : N) : N :=
  match s with
  | [] => acc
  | c :: r => match digit_value c with Some d => digits_value r (10 * acc + d)%N | None => acc end
  end.
(** atol and atoll (src/XMLUtils.cc:49-57, 87-95): undefined for a value out of range; white space and a plus
    sign in front are not modelled *)
Definition atol (s : str) : outcome Z :=
  let z := match s with
           | [] => 0%Z
           | c :: r => if Ascii.eqb c "-" then (- Z.of_N (digits_value r 0))%Z else Z.of_N (digits_value s 0)
           end in
  if ((LMIN <=? z) && (z <=? LMAX))%Z then Ok z else UB.
(** long to int *)
Definition to_int (z : Z) : Z := ((z + 2 ^ 31) mod 2 ^ 32 - 2 ^ 31)%Z.
(** long long to size_t *)
Definition to_size (z : Z) : Z := (z mod 2 ^ 64)%Z.

(** gribStepUnitsToText and gribStepUnitsFromText, src/io/grib/GribUtils.cc:157-210 *)
Definition unit_table : list (Z * string) :=
  [(13, "s"); (0, "m"); (1, "h"); (10, "3h"); (11, "6h"); (12, "12h"); (2, "D"); (3, "M"); (4, "Y"); (5, "10Y");
   (6, "30Y"); (7, "C")]%Z%string.
Definition units_text (u : Z) : outcome str :=
  match find (fun p => (fst p =? u)%Z) unit_table with Some p => Ok (s_ (snd p)) | None => Throw end.
Definition units_of_text (s : str) : outcome Z :=
  match find (fun p => is s (snd p)) unit_table with Some p => Ok (fst p) | None => Throw end.

Section Doubles.
(** doubles, how type2string shows them and how atof reads them, and fmod(x + 360, 360) *)
Variable D : Type.
Variable showD : D -> str.
Variable readD : str -> D.
Variable norm : D -> D.
Variables zero thousand : D.

(** ** Messages *)
(** the accuracy of the first longitude and latitude, lonLatResolutionForEdition (lines 245-248) *)
Inductive resolution := NoRes | Res3 | Res6.
Definition resolution_of (edition : Z) : resolution := if (edition =? 1)%Z then Res3 else Res6.

(** GridDefinition, include/fimex/GridDefinition.h *)
Record grid := mkGrid { g_proj : str; g_degree : bool; g_nx : Z; g_ny : Z; g_dx : D; g_dy : D; g_x : D; g_y : D;
  g_lon : D; g_lat : D; g_res : resolution; g_scan : Z }.
(** the constructor without arguments, src/GridDefinition.cc:35-48: LeftLowerHorizontal is 64 *)
Definition grid0 : grid := mkGrid [] true 0 0 zero zero zero zero zero zero NoRes 64.

(** GribFileMessage, GribFileIndex.h:142-167.  [None] is a member which was never set: its value is indeterminate.
    The keys of the map of other keys are kept in order of insertion. *)
Record message := mkMsg {
  m_url : str; m_pos : option Z; m_size : option Z;
  m_name : str; m_short : str; m_edition : option Z; m_ids : Z * Z * Z;
  m_ltype : option Z; m_lno : option Z; m_pert : Z; m_total : Z; m_keys : list (str * Z);
  m_date : option Z; m_time : option Z; m_units : option Z; m_stype : str; m_range : option Z; m_stat : option Z;
  m_start : option Z; m_end : option Z; m_gtype : str; m_grid : grid }.

Definition att (n : string) (v : str) : str * str := (s_ n, v).

(** GribFileMessage::toString, lines 970-1069 *)
Definition parameter_events (m : message) (e : Z) : outcome (list event) :=
  let '(a, b, c) := m_ids m in
  if (e =? 1)%Z then
    Ok [Start (s_ "grib1") [att "indicatorOfParameter" (show_z a); att "gribTablesVersionNo" (show_z b);
                            att "identificationOfOriginatingGeneratingCentre" (show_z c)] true]
  else if (e =? 2)%Z then
    Ok [Start (s_ "grib2") [att "parameterNumber" (show_z a); att "parameterCategory" (show_z b);
                            att "discipline" (show_z c)] true]
  else Throw.
Definition key_event (k : str * Z) : event :=
  Start (s_ "extraKey") [att "name" (fst k); att "value" (show_z (snd k))] true.
Definition grid_event (g : grid) : event :=
  Start (s_ "gridDefinition")
    [att "proj4" (g_proj g); att "isDegree" (s_ (if g_degree g then "1" else "0")%string);
     att "startX" (showD (g_x g)); att "startY" (showD (g_y g)); att "incrX" (showD (g_dx g)); att "incrY" (showD (g_dy g));
     att "sizeX" (show_z (g_nx g)); att "sizeY" (show_z (g_ny g));
     att "startLon" (showD (g_lon g)); att "startLat" (showD (g_lat g)); att "scanMode" (show_z (g_scan g))] true.
Definition message_events (m : message) : outcome (list event) :=
  do pos <- rd (m_pos m); do size <- rd (m_size m); do e <- rd (m_edition m);
  do ps <- parameter_events m e;
  do lt <- rd (m_ltype m); do ln <- rd (m_lno m);
  do date <- rd (m_date m); do time <- rd (m_time m); do u <- rd (m_units m); do us <- units_text u;
  do range <- rd (m_range m); do stat <- rd (m_stat m); do st <- rd (m_start m); do en <- rd (m_end m);
  Ok ([Start (s_ "gribMessage") [att "url" (m_url m); att "seekPos" (show_z pos); att "messagePos" (s_ "0");
                                 att "messageSize" (show_z size)] false;
       Start (s_ "parameter") [att "shortName" (m_short m); att "name" (m_name m)] false] ++ ps ++
      [End (s_ "parameter");
       Start (s_ "level") [att "type" (show_z lt); att "no" (show_z ln)] true] ++
      (if (0 <? m_total m)%Z
       then [Start (s_ "ensemble") [att "no" (show_z (m_pert m)); att "total" (show_z (m_total m))] true] else []) ++
      map key_event (m_keys m) ++
      [Start (s_ "time") [att "dataDate" (show_z date); att "dataTime" (show_z time); att "stepUnits" us;
                          att "stepType" (m_stype m); att "timeRangeIndicator" (show_z range);
                          att "typeOfStatisticalProcessing" (show_z stat); att "stepStart" (show_z st);
                          att "stepEnd" (show_z en)] true;
       Start (s_ "typeOfGrid") [att "name" (m_gtype m)] true;
       grid_event (m_grid m);
       End (s_ "gribMessage")]).

(** ** Reading a message, lines 690-899 *)
Definition blank : message :=
  mkMsg [] None None [] [] None (0, 0, 0)%Z None None 0 0 [] None None None [] None None None None [] grid0.

Definition set_head (m : message) (u : str) (p s : option Z) : message :=
  mkMsg u p s (m_name m) (m_short m) (m_edition m) (m_ids m) (m_ltype m) (m_lno m) (m_pert m) (m_total m) (m_keys m)
    (m_date m) (m_time m) (m_units m) (m_stype m) (m_range m) (m_stat m) (m_start m) (m_end m) (m_gtype m) (m_grid m).
Definition set_names (m : message) (n s : str) : message :=
  mkMsg (m_url m) (m_pos m) (m_size m) n s (m_edition m) (m_ids m) (m_ltype m) (m_lno m) (m_pert m) (m_total m) (m_keys m)
    (m_date m) (m_time m) (m_units m) (m_stype m) (m_range m) (m_stat m) (m_start m) (m_end m) (m_gtype m) (m_grid m).
Definition set_ids (m : message) (e : Z) (i : Z * Z * Z) : message :=
  mkMsg (m_url m) (m_pos m) (m_size m) (m_name m) (m_short m) (Some e) i (m_ltype m) (m_lno m) (m_pert m) (m_total m) (m_keys m)
    (m_date m) (m_time m) (m_units m) (m_stype m) (m_range m) (m_stat m) (m_start m) (m_end m) (m_gtype m) (m_grid m).
Definition set_level (m : message) (t n : option Z) : message :=
  mkMsg (m_url m) (m_pos m) (m_size m) (m_name m) (m_short m) (m_edition m) (m_ids m) t n (m_pert m) (m_total m) (m_keys m)
    (m_date m) (m_time m) (m_units m) (m_stype m) (m_range m) (m_stat m) (m_start m) (m_end m) (m_gtype m) (m_grid m).
Definition set_member (m : message) (p t : Z) : message :=
  mkMsg (m_url m) (m_pos m) (m_size m) (m_name m) (m_short m) (m_edition m) (m_ids m) (m_ltype m) (m_lno m) p t (m_keys m)
    (m_date m) (m_time m) (m_units m) (m_stype m) (m_range m) (m_stat m) (m_start m) (m_end m) (m_gtype m) (m_grid m).
Definition set_keys (m : message) (k : list (str * Z)) : message :=
  mkMsg (m_url m) (m_pos m) (m_size m) (m_name m) (m_short m) (m_edition m) (m_ids m) (m_ltype m) (m_lno m) (m_pert m) (m_total m) k
    (m_date m) (m_time m) (m_units m) (m_stype m) (m_range m) (m_stat m) (m_start m) (m_end m) (m_gtype m) (m_grid m).
Definition set_gtype (m : message) (t : str) : message :=
  mkMsg (m_url m) (m_pos m) (m_size m) (m_name m) (m_short m) (m_edition m) (m_ids m) (m_ltype m) (m_lno m) (m_pert m) (m_total m) (m_keys m)
    (m_date m) (m_time m) (m_units m) (m_stype m) (m_range m) (m_stat m) (m_start m) (m_end m) t (m_grid m).
Definition set_grid (m : message) (g : grid) : message :=
  mkMsg (m_url m) (m_pos m) (m_size m) (m_name m) (m_short m) (m_edition m) (m_ids m) (m_ltype m) (m_lno m) (m_pert m) (m_total m) (m_keys m)
    (m_date m) (m_time m) (m_units m) (m_stype m) (m_range m) (m_stat m) (m_start m) (m_end m) (m_gtype m) g.
Definition set_date (m : message) (d : Z) : message :=
  mkMsg (m_url m) (m_pos m) (m_size m) (m_name m) (m_short m) (m_edition m) (m_ids m) (m_ltype m) (m_lno m) (m_pert m) (m_total m) (m_keys m)
    (Some d) (m_time m) (m_units m) (m_stype m) (m_range m) (m_stat m) (m_start m) (m_end m) (m_gtype m) (m_grid m).
Definition set_time (m : message) (t : Z) : message :=
  mkMsg (m_url m) (m_pos m) (m_size m) (m_name m) (m_short m) (m_edition m) (m_ids m) (m_ltype m) (m_lno m) (m_pert m) (m_total m) (m_keys m)
    (m_date m) (Some t) (m_units m) (m_stype m) (m_range m) (m_stat m) (m_start m) (m_end m) (m_gtype m) (m_grid m).
Definition set_step (m : message) (u : option Z) (t : str) : message :=
  mkMsg (m_url m) (m_pos m) (m_size m) (m_name m) (m_short m) (m_edition m) (m_ids m) (m_ltype m) (m_lno m) (m_pert m) (m_total m) (m_keys m)
    (m_date m) (m_time m) u t (m_range m) (m_stat m) (m_start m) (m_end m) (m_gtype m) (m_grid m).
Definition set_range (m : message) (r s : option Z) : message :=
  mkMsg (m_url m) (m_pos m) (m_size m) (m_name m) (m_short m) (m_edition m) (m_ids m) (m_ltype m) (m_lno m) (m_pert m) (m_total m) (m_keys m)
    (m_date m) (m_time m) (m_units m) (m_stype m) r s (m_start m) (m_end m) (m_gtype m) (m_grid m).
Definition set_steps (m : message) (s e : option Z) : message :=
  mkMsg (m_url m) (m_pos m) (m_size m) (m_name m) (m_short m) (m_edition m) (m_ids m) (m_ltype m) (m_lno m) (m_pert m) (m_total m) (m_keys m)
    (m_date m) (m_time m) (m_units m) (m_stype m) (m_range m) (m_stat m) s e (m_gtype m) (m_grid m).

(** the attributes of gribMessage, lines 692-708 *)
Definition head_attr (m : message) (a : str * str) : outcome message :=
  let '(n, v) := a in
  if is n "url" then match v with [] => Throw | _ => Ok (set_head m v (m_pos m) (m_size m)) end
  else if is n "seekPos" then
    match v with [] => Throw | _ => do z <- atol v; Ok (set_head m (m_url m) (Some z) (m_size m)) end
  else if is n "messageSize" then
    match v with [] => Throw | _ => do z <- atol v; Ok (set_head m (m_url m) (m_pos m) (Some (to_size z))) end
  else Ok m.
(** lines 720-729 *)
Definition name_attr (m : message) (a : str * str) : outcome message :=
  let '(n, v) := a in
  if is n "name" then Ok (set_names m v (m_short m))
  else if is n "shortName" then Ok (set_names m (m_name m) v) else Ok m.
(** the numbers of a parameter, lines 730-768 *)
Definition id_attr (a b c : string) (i : Z * Z * Z) (x : str * str) : outcome (Z * Z * Z) :=
  let '(n, v) := x in let '(p, q, r) := i in
  if is n a then do z <- atol v; Ok (to_int z, q, r)
  else if is n b then do z <- atol v; Ok (p, to_int z, r)
  else if is n c then do z <- atol v; Ok (p, q, to_int z)
  else Ok i.
(** lines 769-780 *)
Definition level_attr (m : message) (a : str * str) : outcome message :=
  let '(n, v) := a in
  if is n "no" then do z <- atol v; Ok (set_level m (m_ltype m) (Some z))
  else if is n "type" then do z <- atol v; Ok (set_level m (Some z) (m_lno m)) else Ok m.
(** lines 781-803 *)
Definition time_attr (m : message) (a : str * str) : outcome message :=
  let '(n, v) := a in
  if is n "dataDate" then do z <- atol v; Ok (set_date m z)
  else if is n "dataTime" then do z <- atol v; Ok (set_time m z)
  else if is n "stepUnits" then do z <- units_of_text v; Ok (set_step m (Some z) (m_stype m))
  else if is n "stepType" then Ok (set_step m (m_units m) v)
  else if is n "timeRangeIndicator" then do z <- atol v; Ok (set_range m (Some z) (m_stat m))
  else if is n "typeOfStatisticalProcessing" then do z <- atol v; Ok (set_range m (m_range m) (Some z))
  else if is n "stepStart" then do z <- atol v; Ok (set_steps m (Some z) (m_end m))
  else if is n "stepEnd" then do z <- atol v; Ok (set_steps m (m_start m) (Some z))
  else Ok m.
(** lines 804-811 *)
Definition gtype_attr (m : message) (a : str * str) : outcome message :=
  let '(n, v) := a in if is n "name" then Ok (set_gtype m v) else Ok m.
(** lines 812-821 *)
Definition member_attr (m : message) (a : str * str) : outcome message :=
  let '(n, v) := a in
  if is n "total" then do z <- atol v; Ok (set_member m (m_pert m) z)
  else if is n "no" then do z <- atol v; Ok (set_member m z (m_total m)) else Ok m.
(** lines 822-834 *)
Definition key_attr (k : str * Z) (a : str * str) : outcome (str * Z) :=
  let '(n, v) := a in
  if is n "name" then Ok (v, snd k) else if is n "value" then do z <- atol v; Ok (fst k, z) else Ok k.
Fixpoint put (l : list (str * Z)) (k : str) (v : Z) : list (str * Z) :=
  match l with
  | [] => [(k, v)]
  | (k', v') :: r => if str_eqb k' k then (k', v) :: r else (k', v') :: put r k v
  end.
(** lines 835-879; the flags say whether the first longitude and latitude are given *)
Record gridx := mkGX { x_grid : grid; x_lon : bool; x_lat : bool }.
Definition gx0 : gridx := mkGX (mkGrid [] false 0 0 zero zero zero zero thousand thousand NoRes 64) false false.
Definition with_grid (x : gridx) (g : grid) : gridx := mkGX g (x_lon x) (x_lat x).
Definition grid_attr (x : gridx) (a : str * str) : outcome gridx :=
  let '(n, v) := a in
  let g := x_grid x in
  let '(mkGrid p d nx ny dx dy x0 y0 lon lat r s) := g in
  if is n "proj4" then Ok (with_grid x (mkGrid v d nx ny dx dy x0 y0 lon lat r s))
  else if is n "isDegree" then do z <- atol v; Ok (with_grid x (mkGrid p (negb (to_int z =? 0)%Z) nx ny dx dy x0 y0 lon lat r s))
  else if is n "startX" then Ok (with_grid x (mkGrid p d nx ny dx dy (readD v) y0 lon lat r s))
  else if is n "startY" then Ok (with_grid x (mkGrid p d nx ny dx dy x0 (readD v) lon lat r s))
  else if is n "startLon" then Ok (mkGX (mkGrid p d nx ny dx dy x0 y0 (readD v) lat r s) true (x_lat x))
  else if is n "startLat" then Ok (mkGX (mkGrid p d nx ny dx dy x0 y0 lon (readD v) r s) (x_lon x) true)
  else if is n "sizeX" then do z <- atol v; Ok (with_grid x (mkGrid p d (to_size z) ny dx dy x0 y0 lon lat r s))
  else if is n "sizeY" then do z <- atol v; Ok (with_grid x (mkGrid p d nx (to_size z) dx dy x0 y0 lon lat r s))
  else if is n "incrX" then Ok (with_grid x (mkGrid p d nx ny (readD v) dy x0 y0 lon lat r s))
  else if is n "incrY" then Ok (with_grid x (mkGrid p d nx ny dx (readD v) x0 y0 lon lat r s))
  else if is n "scanMode" then do z <- atol v; Ok (with_grid x (mkGrid p d nx ny dx dy x0 y0 lon lat r z))
  else Ok x.
(** the resolution is that of the edition, which is indeterminate when no grib1 or grib2 came before *)
Definition finish_grid (m : message) (x : gridx) : outcome message :=
  let '(mkGrid p d nx ny dx dy x0 y0 lon lat _ s) := x_grid x in
  do r <- (if x_lon x && x_lat x then do e <- rd (m_edition m); Ok (resolution_of e) else Ok NoRes);
  Ok (set_grid m (mkGrid p d nx ny dx dy x0 y0 (norm lon) lat r s)).

(** one element inside of gribMessage, lines 718-883: the message and whether it has numbers of a parameter *)
Definition element (n : str) (attrs : list (str * str)) (mh : message * bool) : outcome (message * bool) :=
  let '(m, have) := mh in
  if is n "parameter" then do m' <- ofold name_attr attrs m; Ok (m', have)
  else if is n "grib1" then
    do i <- ofold (id_attr "indicatorOfParameter" "gribTablesVersionNo" "identificationOfOriginatingGeneratingCentre") attrs (0, 0, 0)%Z;
    Ok (set_ids m 1 i, true)
  else if is n "grib2" then
    do i <- ofold (id_attr "parameterNumber" "parameterCategory" "discipline") attrs (0, 0, 0)%Z;
    Ok (set_ids m 2 i, true)
  else if is n "level" then do m' <- ofold level_attr attrs m; Ok (m', have)
  else if is n "time" then do m' <- ofold time_attr attrs m; Ok (m', have)
  else if is n "typeOfGrid" then do m' <- ofold gtype_attr attrs m; Ok (m', have)
  else if is n "ensemble" then do m' <- ofold member_attr attrs m; Ok (m', have)
  else if is n "extraKey" then
    do k <- ofold key_attr attrs ([], 0%Z); Ok (set_keys m (put (m_keys m) (fst k) (snd k)), have)
  else if is n "gridDefinition" then
    do x <- ofold grid_attr attrs gx0; do m' <- finish_grid m x; Ok (m', have)
  else Ok (m, have).

(** ** Reading an index *)
(** the state of the reader: the url of the index, the messages, and the message being read *)
Record state := mkSt { st_url : str; st_msgs : list message; st_cur : option (message * bool) }.

Fixpoint lookup (n : string) (attrs : list (str * str)) : option str :=
  match attrs with [] => None | (k, v) :: r => if is k n then Some v else lookup n r end.

(** GribFileIndex::initByXMLReader, lines 1229-1278, with the constructor of a message, and the handling of
    exceptions in initByGrbml (lines 1215-1227): the messages and the result.  A gribFileIndex without url makes a
    string of a null pointer. *)
Fixpoint read_events (evs : list event) (good : bool) (s : state) : outcome (str * list message * bool) :=
  match evs with
  | [] => Ok (st_url s, st_msgs s, match st_cur s with Some _ => false | None => good end)
  | ev :: r =>
      match st_cur s with
      | Some mh =>
          match ev with
          | Start n attrs _ =>
              match element n attrs mh with
              | Ok mh' => read_events r good (mkSt (st_url s) (st_msgs s) (Some mh'))
              | Throw => Ok (st_url s, st_msgs s, false)
              | UB => UB
              | Hang => Hang
              end
          | End n =>
              if is n "gribMessage" then
                if negb (snd mh) then Ok (st_url s, st_msgs s, false)
                else match m_url (fst mh) with
                     | [] => Ok (st_url s, st_msgs s, false)
                     | _ => read_events r good (mkSt (st_url s) (st_msgs s ++ [fst mh]) None)
                     end
              else read_events r good s
          | Other => read_events r good s
          end
      | None =>
          match ev with
          | Start n attrs _ =>
              if is n "gribFileIndex" then
                match lookup "url" attrs with
                | Some u => read_events r good (mkSt u (st_msgs s) None)
                | None => UB
                end
              else if is n "gribMessage" then
                match ofold head_attr attrs blank with
                | Ok m => read_events r good (mkSt (st_url s) (st_msgs s) (Some (m, false)))
                | Throw => Ok (st_url s, st_msgs s, false)
                | UB => UB
                | Hang => Hang
                end
              else read_events r good s
          | End n => if is n "gribFileIndex" then Ok (st_url s, st_msgs s, true) else read_events r good s
          | Other => read_events r good s
          end
      end
  end.
(** a file which is missing is [None], lines 1218-1226 *)
Definition read_grbml (f : option document) : outcome (str * list message * bool) :=
  match f with
  | Some (evs, good) => read_events evs good (mkSt [] [] None)
  | None => Ok ([], [], false)
  end.
(** GribFileIndex(ca, grbml), lines 1131-1135 *)
Definition open_grbml (f : option document) : outcome (str * list message) :=
  do (u, ms, ok) <- read_grbml f; if ok then Ok (u, ms) else Throw.

(** ** Writing an index *)
(** A piece of text of a file: a node, and whether the values of its attributes were written without escapes *)
Definition piece : Type := event * bool.

(** an attribute's value read back from a text written without escapes: [None] is an error of syntax.  Simplified:
    a quotation mark inside of the value always is an error, and so is a reference to a character by its number. *)
Definition entities : list (string * ascii) :=
  [("&amp;", "&"%char); ("&lt;", "<"%char); ("&gt;", ">"%char); ("&quot;", ascii_of_N 34); ("&apos;", "'"%char)]%string.
Definition begins (p : string) (s : str) : bool := str_eqb (firstn (String.length p) s) (s_ p).
Fixpoint unescape_loop (fuel : nat) (s : str) : option str :=
  match fuel with
  | O => Some []
  | S f =>
      match s with
      | [] => Some []
      | c :: r =>
          if Ascii.eqb c "<" || Ascii.eqb c (ascii_of_N 34) then None
          else if Ascii.eqb c "&" then
            match find (fun e => begins (fst e) s) entities with
            | Some e => option_map (cons (snd e)) (unescape_loop f (skipn (String.length (fst e)) s))
            | None => None
            end
          else
            let c' := if Ascii.eqb c (ascii_of_N 9) || Ascii.eqb c (ascii_of_N 10) || Ascii.eqb c (ascii_of_N 13)
                      then " "%char else c in
            option_map (cons c') (unescape_loop f r)
      end
  end.
Definition unescape (s : str) : option str := unescape_loop (length s) s.

Fixpoint unescape_attrs (l : list (str * str)) : option (list (str * str)) :=
  match l with
  | [] => Some []
  | (n, v) :: r =>
      match unescape v, unescape_attrs r with Some v', Some r' => Some ((n, v') :: r') | _, _ => None end
  end.
(** reading a text back: up to the first error *)
Fixpoint parse_pieces (ps : list piece) : document :=
  match ps with
  | [] => ([], true)
  | (ev, raw) :: r =>
      let ev' := match ev with
                 | Start n attrs e =>
                     if raw then option_map (fun a => Start n a e) (unescape_attrs attrs) else Some ev
                 | _ => Some ev
                 end in
      match ev' with
      | Some e => let '(es, good) := parse_pieces r in (e :: es, good)
      | None => ([], false)
      end
  end.
(** an empty text is no document *)
Definition parse (ps : list piece) : document := match ps with [] => ([], false) | _ => parse_pieces ps end.

Definition xmlns : str * str := (s_ "xmlns", s_ "http://www.met.no/schema/fimex/gribFileIndex").
Definition header (url : str) : list piece := [(Start (s_ "gribFileIndex") [att "url" url; xmlns] false, true); (Other, false)].
Definition footer : list piece := [(End (s_ "gribFileIndex"), false)].

(** operator<< of messages and of an index, lines 1282-1298; GribIndexWriter, fiIndexGribs.cc:102-121 *)
Definition message_pieces (m : message) : outcome (list piece) := do evs <- message_events m; Ok (map (fun e => (e, false)) evs).
Definition write_index (url : str) (ms : list message) : outcome (list piece) :=
  do ps <- omapM message_pieces ms; Ok (header url ++ concat ps ++ footer).

(** ** Indexing a file *)
(** readGribMessageSize, lines 460-480: 16 bytes are read; for other editions than 1 and 2 the first byte and
    their number are indeterminate *)
Fixpoint big_endian (l : list N) (acc : N) : N :=
  match l with [] => acc | b :: r => big_endian r (256 * acc + b)%N end.
Definition message_size (file : list N) (off : nat) : outcome nat :=
  let b := firstn 16 (skipn off file) in
  if length b <? 16 then Throw
  else
    let e := nth 7 b 0%N in
    if (e =? 1)%N then Ok (N.to_nat (big_endian (firstn 3 (skipn 4 b)) 0))
    else if (e =? 2)%N then Ok (N.to_nat (big_endian (firstn 8 (skipn 8 b)) 0))
    else UB.

(** what the constructor of a message makes of the bytes: a message, an exception of the class CDMException, or
    another exception, e.g. if the bytes are no message *)
Inductive decoded := Good (m : message) | Ignored | Fatal.

(** GribFileIndex::initByGrib, lines 1167-1188; a message of size 0 is read again and again, if it is ignored *)
Fixpoint index_loop (fuel : nat) (decode : list N -> nat -> nat -> decoded) (file : list N) (off : nat)
    : outcome (list message) :=
  match fuel with
  | O => Hang
  | S f =>
      if length file <=? off then Ok []
      else
        do n <- message_size file off;
        if length file <? off + n then Throw
        else
          match decode (firstn n (skipn off file)) off n with
          | Good m => do r <- index_loop f decode file (off + n); Ok (m :: r)
          | Ignored => index_loop f decode file (off + n)
          | Fatal => Throw
          end
  end.
Definition index_file (decode : list N -> nat -> nat -> decoded) (file : list N) : outcome (list message) :=
  index_loop (S (length file)) decode file 0.

(** GribFileIndex::init with an index to append to, lines 1136-1165: the result of reading it is not looked at *)
Definition append_index (old : option document) (input : str) (new : outcome (list message)) : outcome (list message) :=
  do (_, ms, _) <- read_grbml old;
  do n <- new;
  Ok (filter (fun m => negb (str_eqb (m_url m) input)) ms ++ n).

End Doubles.
Arguments mkMsg {D}.
Arguments mkGrid {D}.
Arguments m_url {D}.
Arguments m_pos {D}.
Arguments m_size {D}.
Arguments m_name {D}.
Arguments m_short {D}.
Arguments m_edition {D}.
Arguments m_ids {D}.
Arguments m_ltype {D}.
Arguments m_lno {D}.
Arguments m_pert {D}.
Arguments m_total {D}.
Arguments m_keys {D}.
Arguments m_date {D}.
Arguments m_time {D}.
Arguments m_units {D}.
Arguments m_stype {D}.
Arguments m_range {D}.
Arguments m_stat {D}.
Arguments m_start {D}.
Arguments m_end {D}.
Arguments m_gtype {D}.
Arguments m_grid {D}.
Arguments g_proj {D}.
Arguments g_degree {D}.
Arguments g_nx {D}.
Arguments g_ny {D}.
Arguments g_dx {D}.
Arguments g_dy {D}.
Arguments g_x {D}.
Arguments g_y {D}.
Arguments g_lon {D}.
Arguments g_lat {D}.
Arguments g_res {D}.
Arguments g_scan {D}.
Arguments set_head {D}.
Arguments set_names {D}.
Arguments set_ids {D}.
Arguments set_level {D}.
Arguments set_member {D}.
Arguments set_keys {D}.
Arguments set_gtype {D}.
Arguments set_grid {D}.
Arguments set_date {D}.
Arguments set_time {D}.
Arguments set_step {D}.
Arguments set_range {D}.
Arguments set_steps {D}.
Arguments mkSt {D}.
Arguments st_url {D}.
Arguments st_msgs {D}.
Arguments st_cur {D}.
Arguments mkGX {D}.
Arguments x_grid {D}.
Arguments x_lon {D}.
Arguments x_lat {D}.
Arguments Good {D}.
Arguments Ignored {D}.
Arguments Fatal {D}.

(** ** The program fiGrbmlCat *)
(** the text written so far, whether no index was seen yet, and the open elements of a message *)
Record cat_state := mkCat { c_out : list piece; c_first : bool; c_open : list str }.

(** grbmlExtract and printNode, fiGrbmlCat.cc:48-129: text is not copied; the attributes are written without escapes.
    A gribFileIndex without url writes a null pointer to the stream. *)
Fixpoint cat_events (evs : list event) (s : cat_state) : outcome cat_state :=
  match evs with
  | [] => Ok (mkCat (c_out s) (c_first s) [])
  | ev :: r =>
      match c_open s with
      | [] =>
          match ev with
          | Start n attrs e =>
              if is n "gribFileIndex" then
                if c_first s then
                  match lookup "url" attrs with
                  | Some u => cat_events r (mkCat (c_out s ++ header u) false [])
                  | None => UB
                  end
                else cat_events r s
              else if is n "gribMessage" then
                cat_events r (mkCat (c_out s ++ [(ev, true)]) (c_first s) (if e then [] else [n]))
              else cat_events r s
          | End n => if is n "gribFileIndex" then Ok s else cat_events r s
          | Other => cat_events r s
          end
      | o :: os =>
          match ev with
          | Start n attrs e => cat_events r (mkCat (c_out s ++ [(ev, true)]) (c_first s) (if e then o :: os else n :: o :: os))
          | End _ => cat_events r (mkCat (c_out s ++ [(End o, false)]) (c_first s) os)
          | Other => cat_events r s
          end
      end
  end.
(** extractToStream, lines 131-137; a file which cannot be opened is skipped *)
Definition cat (files : list (option document)) : outcome (list piece) :=
  do s <- ofold (fun s f => match f with Some d => cat_events (fst d) s | None => Ok s end) files (mkCat [] true []);
  Ok (c_out s ++ (if c_first s then [] else footer)).

(** ** The options of fiIndexGribs *)
Record options := mkOpt { o_none : bool; o_help : bool; o_version : bool; o_inputs : list str;
  o_append : option str; o_output : option str; o_otype : option str; o_itype : option str }.
Inductive action :=
| Exit (code : Z)
| Append (input : str) (index : str)
| CreateGrbml (inputs : list str) (index : str)
| CreateFpFromGrbml (input : str) (index : str)
| CreateFp (inputs : list str) (index : str).

(** ensureScheme, lines 93-100 *)
Definition ensure_scheme (url : str) : str :=
  if begins "http://" url || begins "https://" url || begins "file://" url then url else s_ "file:" ++ url.
Definition finishes (s : str) (e : string) : bool :=
  (String.length e <=? length s) && str_eqb (skipn (length s - String.length e) s) (s_ e).

(** main, lines 246-346, built with protobuf *)
Definition fi_index (o : options) : action :=
  if o_none o || o_help o then Exit 0
  else if o_version o then Exit 0
  else
    match o_append o, o_output o with
    | Some _, Some _ => Exit 1
    | Some a, None =>
        if (match o_otype o with Some t => negb (is t "grbml") | None => false end) then Exit 1
        else match o_inputs o with [i] => Append i a | _ => Exit 1 end
    | None, out =>
        match o_inputs o with
        | [] => Exit 1
        | i :: _ =>
            let '(ty, file) :=
              match out with
              | Some f =>
                  (match o_otype o with
                   | Some t => t
                   | None => if finishes f "grbml" then s_ "grbml" else if finishes f "grbfp" then s_ "grbfp" else []
                   end, f)
              | None => (s_ "grbml", i ++ s_ ".grbml")
              end in
            if is ty "grbml" then
              if (match o_itype o with Some t => isGribType t | None => false end) then Exit 1
              else CreateGrbml (o_inputs o) file
            else if is ty "grbfp" then
              if (length (o_inputs o) =? 1) &&
                 ((match o_itype o with Some t => is t "grbml" | None => false end) || finishes i "grbml")
              then CreateFpFromGrbml i file
              else if (match o_itype o with None => true | Some t => isGribType t end) then CreateFp (o_inputs o) file
              else Exit 1
            else Exit 1
        end
    end.
