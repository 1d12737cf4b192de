(** Which driver reads or writes a file, and what it is asked to open: src/CDMFileReaderFactory.cc,
    src/IoFactory.cc and the drivers NcmlIoFactory.cc, NullIoFactory.cc, io/netcdf/NetCDFIoFactory.cc,
    io/grib/GribIoFactory.cc, io/felt/FeltIoFactory.cc.
    Not modelled: the search for plugin libraries (CDMFileReaderFactory.cc:65-108, IoPlugin.cc; the list
    of installed drivers is an input), what the readers and writers do afterwards (the result is the
    constructor call with its arguments), the content of the configuration (only whether there is one),
    http transfers (the bytes behind a URL are part of the world).  starts_with is the plain prefix test
    (C18 has its limits). *)
From Coq Require Import NArith ZArith Ascii String List Bool.
From Verif Require Import Base StringModel FilesModel PbufModel.
Import ListNotations.
Local Open Scope list_scope.
Local Open Scope nat_scope.

(** the outside: what can be read from a path or URL (None: it cannot be opened), and the files that
    globFiles finds for a pattern *)
Record world := { content : str -> option str; globbed : str -> list str }.

Fixpoint prefixed (p s : str) : bool :=
  match p, s with
  | [], _ => true
  | a :: p', b :: s' => Ascii.eqb a b && prefixed p' s'
  | _ :: _, [] => false
  end.

Definition one_of (l : list string) (t : str) : bool := existsb (fun s => str_eqb t (s_ s)) l.

(** what a driver is asked to construct for reading *)
Inductive opened : Type :=
| OpenFelt (file : str) (default_config : bool)                         (* FeltCDMReader2 *)
| OpenGribIndex (file : str) (members : list (str * str))               (* GribCDMReader(fileName, ...) *)
| OpenGrib (files : list str) (members : list (str * str))              (* GribCDMReader(files, ...) *)
| OpenNcml (file : str)                                                 (* NcmlCDMReader(XMLInputFile) *)
| OpenJoin (files : list str) (ncml : bool)                             (* joinExisting of the files *)
| OpenNetcdf (file : str) (writable : bool) (ncml : bool).              (* NetCDF_CDMReader; ncml: wrapped with config *)

(** what a driver is asked to write *)
Inductive written : Type :=
| WriteNcml (file : str)
| WriteNull (file : str)
| WriteNetcdf (file : str) (version : Z)
| WriteGrib (file : str) (version : Z).

(** class IoFactory, include/fimex/IoFactory.h:43-63; [config]: !config.isEmpty().  Arguments of the
    create functions: type name, file name, config, args *)
Record factory := {
  fid : string;
  matchMagicSize : nat;
  matchMagic : str -> outcome Z;           (* the buffer has [count] characters *)
  matchFileTypeName : str -> Z;
  matchFileName : str -> Z;
  createReader : world -> str -> str -> bool -> list str -> outcome opened;
  createReaderWriter : str -> str -> bool -> outcome opened;
  createWriter : str -> str -> outcome written
}.

(** src/IoFactory.cc:35-38: the default name match *)
Definition name_by_type (f : str -> Z) (fileName : str) : Z := f (getExtension fileName).
(** src/IoFactory.cc:40-48: defaults *)
Definition no_reader_writer (_ _ : str) (_ : bool) : outcome opened := Throw.
Definition no_writer (_ _ : str) : outcome written := Throw.
Definition no_magic (_ : str) : outcome Z := Ok 0%Z.
Definition flag (b : bool) : Z := if b then 1%Z else 0%Z.

(** ** netcdf *)
(** the loops at NetCDFIoFactory.cc:52-70; reading behind the buffer is undefined *)
Fixpoint same_bytes (want magic : str) : outcome bool :=
  match want with
  | [] => Ok true
  | a :: want' =>
      match magic with
      | [] => UB
      | b :: magic' => if Ascii.eqb a b then same_bytes want' magic' else Ok false
      end
  end.
(** 54 *)
Definition hdf5 : str := ["137"; "H"; "D"; "F"; "013"; "010"; "026"]%char.
(** 64 *)
Definition netcdf1 : str := ["C"; "D"; "F"; "001"]%char.
(** 120-125 *)
Definition nc_magic (magic : str) : outcome Z :=
  do h <- (if 4 <=? length magic then same_bytes hdf5 magic else Ok false);
  if h then Ok 1%Z
  else do n <- (if 7 <=? length magic then same_bytes netcdf1 magic else Ok false);
       Ok (flag n).

(** 72-99 *)
Definition getNetCDFVersion (type : str) : Z :=
  if one_of ["nc4"; "nc"; "netcdf4"; "netcdf"]%string type then 5%Z
  else if one_of ["nc4c"; "nc4classic"; "netcdf4classic"]%string type then 4%Z
  else if one_of ["nc3"; "cdf"; "netcdf3"]%string type then 3%Z
  else 0%Z.

(** regex_match of (\w+)(\+rw)? (131): what[1] and whether what[2] matched.  \w has no plus sign, so the
    first group ends at the first plus sign *)
Definition rw_type (type : str) : option (str * bool) :=
  let w := match find_from (fun c => Ascii.eqb c "+"%char) type 0 with
           | Some i => firstn i type | None => type end in
  let r := skipn (length w) type in
  match w with
  | [] => None
  | _ => if forallb is_word w then
           match r with
           | [] => Some (w, false)
           | _ => if str_eqb r (s_ "+rw") then Some (w, true) else None
           end
         else None
  end.
(** 127-138: the answer and is_rw *)
Definition matchFileType (type : str) : bool * bool :=
  match rw_type type with
  | Some (nc, rw) => (negb (getNetCDFVersion nc =? 0)%Z, rw)
  | None => (negb (getNetCDFVersion [] =? 0)%Z, false)
  end.
(** 140-144 *)
Definition nc_type (type : str) : Z := flag (fst (matchFileType type)).

(** the rest of the text behind the first place where [p] stands *)
Fixpoint behind (p s : str) : option str :=
  if prefixed p s then Some (skipn (length p) s)
  else match s with [] => None | _ :: s' => behind p s' end.
(** .*p1.*p2 ... .* matches *)
Fixpoint in_order (ps : list str) (s : str) : bool :=
  match ps with
  | [] => true
  | p :: ps' => match behind p s with Some r => in_order ps' r | None => false end
  end.
(** 106-111; "." matches no line break *)
Definition isNetCDFZarrFile (file : str) : bool :=
  prefixed (s_ "file:") file && negb (existsb is_newline file)
  && in_order [s_ "#"; s_ "mode="; s_ "zarr"] (skipn 5 file).

(** 154: the word before "://" at the start of the name *)
Fixpoint word_prefix (s : str) : str :=
  match s with
  | c :: s' => if is_word c then c :: word_prefix s' else []
  | [] => []
  end.
Definition url_scheme (s : str) : option str :=
  let w := word_prefix s in
  match w with
  | [] => None
  | _ => if prefixed (s_ "://") (skipn (length w) s) then Some w else None
  end.
(** 146-165 *)
Definition nc_name (fileName : str) : Z :=
  let ext := getExtension fileName in
  if one_of ["nc"; "nc4"]%string ext then 1%Z
  else
    let url := match url_scheme fileName with
               | Some w => one_of ["https"; "http"; "dods"]%string w
               | None => false end in
    if url then 2%Z
    else if isNetCDFZarrFile fileName then 1%Z else 0%Z.

(** 209-214 *)
Definition nc_reader_writer (_ fileName : str) (config : bool) : outcome opened :=
  if config then Throw else Ok (OpenNetcdf fileName true false).
(** 192-202: the name that is opened *)
Definition nc_file (fileName : str) : str :=
  let file := if negb (isNetCDFZarrFile fileName) && prefixed (s_ "file:") fileName
              then skipn 5 fileName else fileName in
  if prefixed (s_ "dods:") file then s_ "http:" ++ skipn 5 file else file.
(** 167-207 *)
Definition nc_reader (w : world) (type fileName : str) (config : bool) (_ : list str) : outcome opened :=
  if snd (matchFileType type) then nc_reader_writer type fileName config
  else if prefixed (s_ "glob:") fileName then Ok (OpenJoin (globbed w (skipn 5 fileName)) config)
  else Ok (OpenNetcdf (nc_file fileName) false config).
(** 216-223 *)
Definition nc_writer (type fileName : str) : outcome written :=
  let version := getNetCDFVersion type in
  Ok (WriteNetcdf fileName (if (version =? 0)%Z then 5%Z else version)).

Definition netcdf : factory := {|
  fid := "netcdf"; matchMagicSize := 7; matchMagic := nc_magic; matchFileTypeName := nc_type;
  matchFileName := nc_name; createReader := nc_reader; createReaderWriter := nc_reader_writer;
  createWriter := nc_writer |}.

(** ** grib *)
(** src/io/grib/GribIoFactory.cc:54-57 *)
Definition isGrib2Type (type : str) : bool := one_of ["grb2"; "grib2"]%string type.
(** 64-67 *)
Definition isGribType (type : str) : bool := one_of ["grb"; "grib"; "grb1"; "grib1"]%string type || isGrib2Type type.
(** 93-100; [pb]: HAVE_PROTOBUF *)
Definition grib_magic_size (pb : bool) : nat := if pb then Nat.max 4 (length fimex_magic + length grib_magic) else 4.
(** 102-114 *)
Definition grib_match_magic (pb : bool) (magic : str) : outcome Z :=
  if (4 <=? length magic) && strncmp_eq magic (s_ "GRIB") 4 then Ok 1%Z
  else if pb && check_magic magic then Ok 1%Z
  else Ok 0%Z.
(** 116-123 *)
Definition grib_type (type : str) : Z :=
  if one_of ["grbml"; "grbfp"]%string type then 1%Z else flag (isGribType type).

(** 69-91 *)
Definition grib_arg (acc : list (str * str) * list str) (arg : str) : outcome (list (str * str) * list str) :=
  let '(members, files) := acc in
  let parts (n : nat) := do ps <- tokenize (skipn n arg) (s_ ":");
                         let ps := match ps with [p] => [p; p] | _ => ps end in
                         match ps with p0 :: p1 :: _ => Ok (p0, p1) | _ => Throw end in   (* at(1), at(0) *)
  if prefixed (s_ "memberRegex:") arg then
    do p <- parts 12; Ok (members ++ [(snd p, fst p)], files)
  else if prefixed (s_ "memberName:") arg then
    do p <- parts 11; Ok (members ++ [(snd p, s_ ".*" ++ regex_escape (fst p) ++ s_ ".*")], files)
  else Ok (members, files ++ [arg]).
Definition parseGribArgs (args : list str) (members : list (str * str)) (files : list str) :=
  ofold grib_arg args (members, files).

(** the lines that std::getline reads from a text *)
Fixpoint getlines (s cur : str) : list str :=
  match s with
  | [] => match cur with [] => [] | _ => [cur] end
  | c :: s' => if Ascii.eqb c "010"%char then cur :: getlines s' [] else getlines s' (cur ++ [c])
  end.

(** 139-159 *)
Definition grib_files (w : world) (fileName : str) : outcome (list str) :=
  if prefixed (s_ "glob:") fileName then Ok (globbed w (skipn 5 fileName))
  else if prefixed (s_ "many:") fileName && (6 <? length fileName) then
    tokenize (skipn 6 fileName) (firstn 1 (skipn 5 fileName))
  else if prefixed (s_ "list:") fileName then
    Ok (match content w (skipn 5 fileName) with Some t => getlines t [] | None => [] end)
  else Ok [fileName].
(** 125-167 *)
Definition grib_reader (w : world) (type fileName : str) (config : bool) (args : list str) : outcome opened :=
  let ext := getExtension fileName in
  if one_of ["grbml"%string] type || one_of ["grbml"%string] ext then
    do mf <- parseGribArgs args [] [];
    if config then Ok (OpenGribIndex fileName (fst mf)) else Throw
  else if one_of ["grbfp"%string] type || one_of ["grbfp"%string] ext then Ok (OpenGribIndex fileName [])
  else
    do files <- grib_files w fileName;
    do mf <- parseGribArgs args [] files;
    if config then Ok (OpenGrib (snd mf) (fst mf)) else Throw.
(** 169-184 *)
Definition grib_writer (type fileName : str) : outcome written :=
  let ext := getExtension fileName in
  if one_of ["grbml"%string] type || one_of ["grbml"%string] ext then Throw
  else if isGrib2Type type || isGrib2Type ext then Ok (WriteGrib fileName 2)
  else if isGribType type || isGribType ext then Ok (WriteGrib fileName 1)
  else Throw.

Definition grib (pb : bool) : factory := {|
  fid := "grib-api"; matchMagicSize := grib_magic_size pb; matchMagic := grib_match_magic pb;
  matchFileTypeName := grib_type; matchFileName := name_by_type grib_type;
  createReader := grib_reader; createReaderWriter := no_reader_writer; createWriter := grib_writer |}.

(** ** felt: src/io/felt/FeltIoFactory.cc *)
(** 46-61 *)
Definition felt_type (type : str) : Z := flag (one_of ["flt"; "dat"; "felt"; "flt2"; "dat2"; "felt2"]%string type).
(** 63-71 *)
Definition felt_reader (_ : world) (_ fileName : str) (config : bool) (_ : list str) : outcome opened :=
  Ok (OpenFelt fileName (negb config)).
Definition felt : factory := {|
  fid := "felt"; matchMagicSize := 0; matchMagic := no_magic; matchFileTypeName := felt_type;
  matchFileName := name_by_type felt_type; createReader := felt_reader;
  createReaderWriter := no_reader_writer; createWriter := no_writer |}.

(** ** ncml: src/NcmlIoFactory.cc:42-55 *)
Definition ncml_type (type : str) : Z := flag (one_of ["ncml"%string] type).
Definition ncml : factory := {|
  fid := "ncml"; matchMagicSize := 0; matchMagic := no_magic; matchFileTypeName := ncml_type;
  matchFileName := name_by_type ncml_type; createReader := fun _ _ fileName _ _ => Ok (OpenNcml fileName);
  createReaderWriter := no_reader_writer; createWriter := fun _ fileName => Ok (WriteNcml fileName) |}.

(** ** null: src/NullIoFactory.cc:42-60 *)
Definition null_type (type : str) : Z := flag (one_of ["null"%string] type).
Definition null : factory := {|
  fid := "null"; matchMagicSize := 0; matchMagic := no_magic; matchFileTypeName := null_type;
  matchFileName := fun _ => 0%Z; createReader := fun _ _ _ _ _ => Throw;
  createReaderWriter := no_reader_writer; createWriter := fun _ fileName => Ok (WriteNull fileName) |}.

(** ** the choice *)
(** IoFactory::factories is a std::map, so the loops see the drivers in the order of their names; [felt_in],
    [grib_in] (with or without protobuf) and [nc_in] say which plugins are there *)
Definition installed (felt_in : bool) (grib_in : option bool) (nc_in : bool) : list factory :=
  (if felt_in then [felt] else []) ++ match grib_in with Some pb => [grib pb] | None => [] end ++ [ncml]
  ++ (if nc_in then [netcdf] else []) ++ [null].

(** the loops at CDMFileReaderFactory.cc:117-123, 149-155, 160-166 with maximize (min_max.h:87-96) *)
Definition better (score : factory -> outcome Z) (st : Z * option factory) (f : factory) : outcome (Z * option factory) :=
  do s <- score f; Ok (if (fst st <? s)%Z then (s, Some f) else st).
Definition best (score : factory -> outcome Z) (fs : list factory) : outcome (option factory) :=
  omap snd (ofold (better score) fs (0%Z, None)).

(** 115-124 *)
Definition findFactoryFromFileType (fs : list factory) (type : str) : outcome (option factory) :=
  best (fun f => Ok (matchFileTypeName f type)) fs.
(** DefaultChunkReaderFactory.cc:41-51: what is read for a name *)
Definition reader_for (url : str) : str :=
  if prefixed (s_ "http://") url || prefixed (s_ "https://") url then url
  else if prefixed (s_ "file:") url then skipn 5 url else url.
(** CDMFileReaderFactory.cc:126-156; a read beyond the end of the file throws (FileChunkReader.cc:67-82)
    and is caught *)
Definition findFactoryFromMagic (w : world) (fs : list factory) (fileName : str) : outcome (option factory) :=
  let magicSize := fold_left (fun m f => Nat.max m (matchMagicSize f)) fs 0 in
  match content w (reader_for fileName) with
  | None => Ok None
  | Some bytes => if length bytes <? magicSize then Ok None
                  else best (fun f => matchMagic f (firstn magicSize bytes)) fs
  end.
(** 158-167 *)
Definition findFactoryFromFileName (fs : list factory) (fileName : str) : outcome (option factory) :=
  best (fun f => Ok (matchFileName f fileName)) fs.
(** 169-184 *)
Definition findFactory (w : world) (fs : list factory) (type fileName : str) (write : bool) : outcome (option factory) :=
  do f1 <- match type with [] => Ok None | _ => findFactoryFromFileType fs type end;
  match f1 with
  | Some f => Ok (Some f)
  | None =>
      do f2 <- (if write then Ok None else findFactoryFromMagic w fs fileName);
      match f2 with
      | Some f => Ok (Some f)
      | None => findFactoryFromFileName fs fileName
      end
  end.

(** 206-212 *)
Definition create (w : world) (fs : list factory) (type fileName : str) (config : bool) (args : list str) : outcome opened :=
  do f <- findFactory w fs type fileName false;
  match f with Some d => createReader d w type fileName config args | None => Throw end.
(** 189-195 *)
Definition create_rw (w : world) (fs : list factory) (type fileName : str) (config : bool) : outcome opened :=
  do f <- findFactory w fs type fileName false;
  match f with Some d => createReaderWriter d type fileName config | None => Throw end.
(** 222-227 *)
Definition create_writer (w : world) (fs : list factory) (type fileName : str) : outcome written :=
  do f <- findFactory w fs type fileName true;
  match f with Some d => createWriter d type fileName | None => Throw end.
