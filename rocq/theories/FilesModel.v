(** Paths, directory scans and glob patterns: src/FileUtils.cc.
    A directory tree is what directory_contents (98-121) and file_type (123-149) report: the entries
    of each directory in sorted order.  Symbolic links that form a cycle are not modelled (the tree
    is finite); a directory that cannot be opened has no entries. *)
From Coq Require Import NArith ZArith Ascii String List Bool.
From Verif Require Import Base SearchModel StringModel TextModel.
Import ListNotations.
Local Open Scope nat_scope.

Definition slash : ascii := "/"%char.
Definition is_slash (c : ascii) : bool := Ascii.eqb c slash.

(** std::string::find_last_of *)
Definition find_last_of (s set : str) : option nat :=
  match find_from (fun c => mem c set) (rev s) 0 with
  | Some i => Some (length s - 1 - i)
  | None => None
  end.

(** src/FileUtils.cc:241-249, and path_filename_string 76-87 *)
Definition extractFilename (path : str) : str :=
  match find_last_of path (s_ "/") with
  | Some i => skipn (i + 1) path
  | None => path
  end.

(** src/FileUtils.cc:251-259 *)
Definition removeFilename (path : str) : str :=
  match find_last_of path (s_ "/") with
  | Some i => firstn (i + 1) path
  | None => []
  end.

(** src/FileUtils.cc:261-264 *)
Definition replaceFilename (path filename : str) : str := removeFilename path ++ filename.

(** src/FileUtils.cc:266-274; the same rule makes the path of a directory entry, 104-112 *)
Definition joinFilename (path filename : str) : str :=
  match rev path with
  | [] => filename                                                        (* 269: path.empty() *)
  | c :: _ => if is_slash c then path ++ filename else path ++ slash :: filename
  end.

(** the class \w of std::regex in the C locale *)
Definition is_word (c : ascii) : bool :=
  let n := N_of_ascii c in
  ((48 <=? n) && (n <=? 57) || (65 <=? n) && (n <=? 90) || (97 <=? n) && (n <=? 122) || (n =? 95))%N.
(** what "." does not match in an ECMAScript std::regex *)
Definition is_newline (c : ascii) : bool := ((N_of_ascii c =? 10) || (N_of_ascii c =? 13))%N.
Definition lower_char (c : ascii) : ascii :=
  let n := N_of_ascii c in if ((65 <=? n) && (n <=? 90))%N then ascii_of_N (n + 32) else c.

(** src/FileUtils.cc:229-239, regex_match with ".*\.(\w+)$": the class \w has no dot, so the dot of
    the pattern can only be the last dot of the name *)
Definition getExtension (fileName : str) : str :=
  match find_last_of fileName (s_ ".") with
  | Some i =>
      let ext := skipn (i + 1) fileName in
      match ext with
      | [] => []
      | _ => if forallb is_word ext && negb (existsb is_newline (firstn i fileName))
             then map lower_char ext else []
      end
  | None => []
  end.

(** ** the directory tree: the entries in order *)
Inductive tree : Type :=
| End
| File (name : str) (rest : tree)                 (* REGULAR_FILE *)
| Special (name : str) (rest : tree)              (* OTHER, ERROR *)
| Sub (name : str) (sub rest : tree).             (* DIRECTORY *)

(** src/FileUtils.cc:154-179.  [re] is regex_match with the pattern.  [rel] is currentRelDir, a local
    variable of the call that is changed by each sub-directory (168); [dc] is depthCount. *)
Fixpoint scanFiles_ (re : str -> bool) (fileOnly : bool) (dir : str) (depth : Z) (rel : str)
    (dc : nat) (t : tree) : outcome (list str) :=
  match t with
  | End => Ok []
  | Special _ r => scanFiles_ re fileOnly dir depth rel dc r
  | File n r =>
      let filename := (if fileOnly then [] else rel) ++ n in                              (* 173 *)
      do fs <- scanFiles_ re fileOnly dir depth rel dc r;
      Ok (if re filename then joinFilename dir n :: fs else fs)                           (* 175 *)
  | Sub n s r =>
      if (depth =? 0)%Z then scanFiles_ re fileOnly dir depth rel dc r                    (* 165 *)
      else
        let rel' := if fileOnly then rel else rel ++ n ++ [slash] in                      (* 168 *)
        do a <- (if 1000 <? dc + 1 then Throw                                             (* 158 *)
                 else scanFiles_ re fileOnly (joinFilename dir n) (depth - 1) rel' (dc + 1) s);
        do b <- scanFiles_ re fileOnly dir depth rel' dc r;
        Ok (a ++ b)
  end.

(** src/FileUtils.cc:180-183 *)
Definition scanFiles (re : str -> bool) (fileOnly : bool) (dir : str) (depth : Z) (t : tree)
  : outcome (list str) := scanFiles_ re fileOnly dir depth [] 0 t.

(** ** glob patterns *)

Definition is_wild (c : ascii) : bool := Ascii.eqb c "*" || Ascii.eqb c "?".

Fixpoint take_while (f : ascii -> bool) (s : str) : str :=
  match s with
  | c :: s' => if f c then c :: take_while f s' else []
  | [] => []
  end.

(** src/FileUtils.cc:190-196: regex_match with "^([^*?]*/)(.*)"; the first group is greedy, so it ends
    at the last slash before the first wildcard, and the second must not hold a line break *)
Definition glob_split (glob : str) : str * str :=
  match find_last_of (take_while (fun c => negb (is_wild c)) glob) (s_ "/") with
  | Some i =>
      if existsb is_newline (skipn (i + 1) glob) then (s_ ".", glob)
      else (firstn (i + 1) glob, skipn (i + 1) glob)
  | None => (s_ ".", glob)
  end.

(** reg.find("**") != npos, src/FileUtils.cc:200 *)
Fixpoint has_double (s : str) : bool :=
  match s with
  | c :: ((d :: _) as s') => Ascii.eqb c "*" && Ascii.eqb d "*" || has_double s'
  | _ => false
  end.

Definition count_slash (s : str) : nat := length (filter is_slash s).

(** src/FileUtils.cc:199-202 *)
Definition glob_depth (reg : str) : Z :=
  if has_double reg then (-1)%Z else Z.of_nat (count_slash reg).

(** src/FileUtils.cc:208-224: the text of the regular expression *)
Fixpoint glob_regex (reg : str) : str :=
  match reg with
  | [] => []
  | c :: r =>
      if Ascii.eqb c "?" then s_ "[^/]" ++ glob_regex r
      else if Ascii.eqb c "*" then
        match r with
        | d :: r' => if Ascii.eqb d "*" then s_ ".*" ++ glob_regex r'
                     else s_ "[^/]*" ++ glob_regex r
        | [] => s_ "[^/]*"
        end
      else regex_escape_char c ++ glob_regex r
  end.

(** std::regex: the part of ECMAScript syntax that occurs here.  An item is a set of characters,
    taken once or repeated. *)
Inductive item : Type :=
| One (f : ascii -> bool)
| Star (f : ascii -> bool).

Definition is_special (c : ascii) : bool := mem c ESCAPE_THESE.
Definition not_slash (c : ascii) : bool := negb (is_slash c).
Definition not_newline (c : ascii) : bool := negb (is_newline c).

(** reading the pattern: an escaped character, a class [^/], a dot, or a plain character, each
    possibly followed by a star.  Anything else is refused; [fuel] bounds the number of items. *)
Fixpoint re_parse_loop (fuel : nat) (s : str) : option (list item) :=
  match fuel with
  | O => None
  | S fuel' =>
      let add (f : ascii -> bool) (r : str) :=
        match r with
        | c :: r' => if Ascii.eqb c "*" then option_map (cons (Star f)) (re_parse_loop fuel' r')
                     else option_map (cons (One f)) (re_parse_loop fuel' r)
        | [] => option_map (cons (One f)) (re_parse_loop fuel' r)
        end in
      match s with
      | [] => Some []
      | c :: r =>
          if Ascii.eqb c "\" then
            match r with d :: r' => add (Ascii.eqb d) r' | [] => None end
          else if Ascii.eqb c "[" then
            match r with
            | c1 :: c2 :: c3 :: r' =>
                if Ascii.eqb c1 "^" && Ascii.eqb c3 "]" then add (fun x => negb (Ascii.eqb x c2)) r'
                else None
            | _ => None
            end
          else if Ascii.eqb c "." then add not_newline r
          else if is_special c then None
          else add (Ascii.eqb c) r
      end
  end.
Definition re_parse (s : str) : option (list item) := re_parse_loop (S (length s)) s.

(** std::regex_match: the whole string must match *)
Fixpoint re_match (p : list item) (s : str) : bool :=
  match p with
  | [] => match s with [] => true | _ => false end
  | One f :: p' => match s with c :: s' => f c && re_match p' s' | [] => false end
  | Star f :: p' =>
      (fix run (s : str) : bool :=
         re_match p' s || match s with c :: s' => f c && run s' | [] => false end) s
  end.

(** src/FileUtils.cc:185-227; [fs d] is the tree below directory d.  A pattern that std::regex refuses
    is an exception. *)
Definition globFiles (fs : str -> tree) (glob : str) : outcome (list str) :=
  let (dir, reg) := glob_split glob in
  match re_parse (glob_regex reg) with
  | None => Throw
  | Some p => scanFiles (re_match p) false dir (glob_depth reg) (fs dir)
  end.
