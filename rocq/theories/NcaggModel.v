(** Aggregations in NcML documents: src/NcmlAggregationReader.cc.  The XML document is given by the
    elements and attributes that are looked up; a missing attribute is an empty text (getXmlProp).
    Left out: log messages, the check of the root element, exceptions that are no CDMException. *)
From Coq Require Import PeanoNat ZArith Ascii String List Bool Decimal DecimalString.
From Verif Require Import Base StringModel FilesModel.
From Verif Require AggModel.
Import ListNotations.
Local Open Scope string_scope.
Local Open Scope list_scope.
Local Open Scope nat_scope.

Definition name_of (s : str) : string := string_of_list_ascii s.
(** type2string of a size_t *)
Definition number (n : nat) : str := list_ascii_of_string (NilZero.string_of_uint (Nat.to_uint n)).

(** getFileTypeConfig: file, type, configuration; 61-67 *)
Definition file_type_config (location : str) : outcome (str * str * str) :=
  do ts <- tokenize location (s_ " ");
  Ok (nth 0 ts [], nth 1 ts (s_ "netcdf"), nth 2 ts []).

(** the elements <netcdf>, with what the reader of the element gives, and <scan> of an <aggregation> *)
Record netel := NetEl { n_coord : str; n_open : outcome AggModel.file }.
Record scanel := ScanEl { sc_location : str; sc_suffix : str; sc_regexp : str; sc_subdirs : str }.
Record aggel := AggEl {
  ag_type : str; ag_dim : str; ag_vars : list str; ag_nets : list netel; ag_scans : list scanel }.
Record ncml := Ncml { nc_id : str; nc_location : option str; nc_aggs : list aggel }.

(** AggregationReader(type); src/AggregationReader.cc:47-63; 99-110 of this file *)
Definition kind_of (e : aggel) : outcome AggModel.kind :=
  if str_eqb (ag_type e) (s_ "joinExisting") then Ok AggModel.JoinExisting
  else if str_eqb (ag_type e) (s_ "joinNew") then
    Ok (AggModel.JoinNew (name_of (ag_dim e)) (map name_of (ag_vars e)))
  else if str_eqb (ag_type e) (s_ "union") then Ok AggModel.Union
  else Throw.
Definition join_new (k : AggModel.kind) : bool :=
  match k with AggModel.JoinNew _ _ => true | _ => false end.

(** addReader: the aggregation so far ([None]: no file yet) and one file; the coordinate values are
    split at blanks; src/AggregationReader.cc:91-104, 170-178 *)
Definition add (k : AggModel.kind) (st : option AggModel.agg) (f : AggModel.file) (coord : str)
  : outcome (option AggModel.agg) :=
  do cs <- match coord with
           | [] => Ok None
           | _ => do ts <- tokenize coord (s_ " "); Ok (Some (map name_of ts))
           end;
  match st with
  | None => do a <- AggModel.add_first k f cs; Ok (Some a)
  | Some a => do a' <- AggModel.add_other k a f cs; Ok (Some a')
  end.

(** what an exception in addReader leaves: the file is in the list (src/AggregationReader.cc:97), its
    records have no positions.  For the first file the metadata are those of the file, 109; for others
    dimensions added before the exception are not followed here *)
Definition broken (k : AggModel.kind) (st : option AggModel.agg) (f : AggModel.file) : option AggModel.agg :=
  match st with
  | None =>
      Some {| AggModel.a_dims := map (fun d => {| AggModel.d_name := AggModel.d_name d; AggModel.d_len := AggModel.d_len d;
                                                  AggModel.d_unlim := AggModel.d_unlim d && negb (join_new k) |}) (AggModel.f_dims f);
              AggModel.a_vars := AggModel.f_vars f;
              AggModel.a_join := match k with AggModel.JoinNew _ jv => jv | _ => [] end;
              AggModel.a_union := []; AggModel.a_pos := []; AggModel.a_coords := [];
              AggModel.a_files := [f] |}
  | Some a =>
      Some {| AggModel.a_dims := AggModel.a_dims a; AggModel.a_vars := AggModel.a_vars a;
              AggModel.a_join := AggModel.a_join a; AggModel.a_union := AggModel.a_union a;
              AggModel.a_pos := AggModel.a_pos a; AggModel.a_coords := AggModel.a_coords a;
              AggModel.a_files := AggModel.a_files a ++ [f] |}
  end.

(** one <netcdf> element with its number; 112-133 *)
Definition add_net (k : AggModel.kind) (st : option AggModel.agg) (e : nat * netel) : outcome (option AggModel.agg) :=
  let coord := match n_coord (snd e) with
               | [] => if join_new k then s_ "location_" ++ number (fst e) else []
               | c => c
               end in
  do f <- n_open (snd e);
  add k st f coord.

Section World.
(** the tree below a directory, CDMFileReaderFactory::create(type, file, config), and std::regex with
    regex_match; a text that is no expression is an exception *)
Variable fs : str -> tree.
Variable create : str -> str -> str -> outcome AggModel.file.
Variable regex : str -> outcome (str -> bool).

(** std::regex(".*" + regex_escape(suffix) + "$"): with regex_match the end is reached anyway;
    147-148 *)
Definition suffix_regex (suffix : str) : outcome (str -> bool) :=
  match re_parse (s_ ".*" ++ regex_escape suffix) with Some p => Ok (re_match p) | None => Throw end.

(** one scanned file; [idx] the number of the <scan> element; 160-169 *)
Definition add_file (k : AggModel.kind) (idx : nat) (type config : str) (st : option AggModel.agg) (file : str)
  : outcome (option AggModel.agg) :=
  match create type file config with
  | Ok f =>
      match add k st f (if join_new k then s_ "location_" ++ number idx else []) with
      | Throw => Ok (broken k st f)
      | o => o
      end
  | Throw => Ok st
  | UB => UB
  | Hang => Hang
  end.

(** the depth: 0 without sub-directories, otherwise unlimited; 152-156 *)
Definition scan_depth (e : scanel) : Z :=
  if existsb (str_eqb (sc_subdirs e)) [s_ "false"; s_ "FALSE"; s_ "False"] then 0%Z else (-1)%Z.
(** the files of a <scan> element; 143-158 *)
Definition scan_files (e : scanel) : outcome (str * str * list str) :=
  do loc <- file_type_config (sc_location e);
  let '(dir, type, config) := (loc : str * str * str) in
  do re <- match sc_suffix e with [] => regex (sc_regexp e) | s => suffix_regex s end;
  do files <- scanFiles re true dir (scan_depth e) (fs dir);
  Ok (type, config, files).
(** 135-171 *)
Definition add_scan (k : AggModel.kind) (st : option AggModel.agg) (e : nat * scanel) : outcome (option AggModel.agg) :=
  do tcf <- scan_files (snd e);
  let '(type, config, files) := (tcf : str * str * list str) in
  ofold (add_file k (fst e) type config) files st.

Definition numbered {A} (l : list A) : list (nat * A) := combine (seq 0 (length l)) l.

(** what the reader reads from *)
Inductive source :=
| Nothing                                                     (* NullCDMReader: no dimensions, no variables *)
| Single (f : AggModel.file)
| Aggregated (k : AggModel.kind) (a : option AggModel.agg).

(** the constructor; 69-177 *)
Definition open (d : ncml) : outcome source :=
  match nc_aggs d with
  | [] =>
      match nc_location d with
      | None => Ok Nothing
      | Some l => do loc <- file_type_config l;
                  let '(file, type, config) := (loc : str * str * str) in
                  do f <- create type file config; Ok (Single f)
      end
  | [e] =>
      do k <- kind_of e;
      do st <- ofold (add_net k) (numbered (ag_nets e)) None;
      do st <- ofold (add_scan k) (numbered (ag_scans e)) st;
      Ok (Aggregated k st)
  | _ => Ok Nothing
  end.
End World.
