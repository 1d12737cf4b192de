(** The parameters of FELT files: src/io/felt/FeltParameters.cc, the identifiers in a configuration
    (src/io/felt/FeltCDMReader2.cc:245-273), the options of a file and the fields in use (src/io/felt/Felt_File2.cc:102-180).
    The regular expressions are those of TmplModel.  Left out: setup files of diana (FeltParameters::init), the
    words to the log, getProjString (nothing calls it). *)
From Coq Require Import NArith ZArith QArith Ascii String List Bool.
From Verif Require Import Base StringModel TextModel SpecModel StdMap TmplModel.
Import ListNotations.
Local Open Scope list_scope.
Local Open Scope Z_scope.

(** ** Numbers in texts *)
(** ANY_VALUE, src/io/felt/FeltParameters.h:75-78 *)
Definition ANY : Z := -32767.
(** int to short *)
Definition to_short (z : Z) : Z := (z + 2 ^ 15) mod 2 ^ 16 - 2 ^ 15.
Fixpoint value_loop (s : str) (acc : Z) : Z :=
  match s with
  | [] => acc
  | c :: r => match digit_value c with Some d => value_loop r (10 * acc + Z.of_N d) | None => acc end
  end.
(** std::atoi: undefined for a number which is no int *)
Definition atoi (s : str) : outcome Z :=
  let s' := skip_space s in
  let z := match s' with
           | c :: r => if Ascii.eqb c "-" then - value_loop r 0
                       else if Ascii.eqb c "+" then value_loop r 0 else value_loop s' 0
           | [] => 0
           end in
  if (- 2 ^ 31 <=? z) && (z <? 2 ^ 31) then Ok z else UB.

(** ** The sixteen words of a parameter *)
Definition words := list Z.
Definition any_words : words := repeat ANY 16.
Definition set_word (i : nat) (v : Z) (w : words) : words := firstn i w ++ v :: skipn (S i) w.

(** lines 166-180: the numbers in front are parameter, vertical coordinate and level *)
Fixpoint set_front (positions : list nat) (l : list str) (w : words) : outcome words :=
  match l with
  | [] => Ok w
  | s :: l' =>
      do z <- atoi s;
      match positions with
      | i :: ps => set_front ps l' (set_word i (to_short z) w)
      | [] => set_front [] l' w
      end
  end.

Definition is_word (c : ascii) : bool :=
  let n := N_of_ascii c in
  (is_digit c || (n =? 95) || ((65 <=? n) && (n <=? 90)) || ((97 <=? n) && (n <=? 122)))%N.
(** blanks, a name (group 1), an equal sign, digits (group 2) and blanks, line 156 *)
Definition equal_re : re :=
  Cat (Star is_space) (Cat (Grp 1 (Star is_word)) (Cat (is "=")
    (Cat (Grp 2 (Cat (Chr is_digit) (Star is_digit))) (Star is_space)))).
(** std::regex_match: the first match of the whole text *)
Definition full_match (r : re) (s : str) : option (list capture) :=
  option_map (fun x => fst (fst x)) (find (fun x => match snd x with [] => true | _ => false end) (matches_at r s)).

Definition restriction_words : list (string * nat) :=
  [("prod", 0); ("grid", 1); ("dtype", 8); ("level", 12); ("idnum", 13); ("param", 11); ("vcoord", 10)]%string%nat.
Definition word_of (name : str) : option nat :=
  option_map snd (find (fun p => str_eqb (s_ (fst p)) name) restriction_words).
(** lines 182-207; another name is only written to the log *)
Definition set_restriction (tok : str) (w : words) : outcome words :=
  match full_match equal_re tok with
  | None => Ok w
  | Some c =>
      do z <- atoi (group 2 c);
      Ok (match word_of (group 1 c) with Some i => set_word i (to_short z) w | None => w end)
  end.
(** diana2feltparameters, lines 154-210 *)
Definition diana_words (s : str) : outcome words :=
  do parts <- split_any s (s_ ":");
  match parts with
  | [] => UB
  | front :: toks =>
      do l <- split_any front (s_ ",");
      do w <- set_front [11; 10; 12]%nat l any_words;
      ofold (fun w t => set_restriction t w) toks w
  end.

(** ** Lists of parameters *)
(** std::regex_replace with an empty text *)
Fixpoint remove_loop (fuel : nat) (r : re) (s : str) : str :=
  match fuel with
  | O => s
  | S f => match search r s with Some (pre, _, rest) => pre ++ remove_loop f r rest | None => s end
  end.
Definition remove (r : re) (s : str) : str := remove_loop (S (length s)) r s.

Definition is_lower (c : ascii) : bool := let n := N_of_ascii c in ((97 <=? n) && (n <=? 122))%N.
Definition not_colon (c : ascii) : bool := negb (Ascii.eqb c ":").
Definition nothing : re := Star (fun _ => false).
(** :dataType= and small letters (group 1), line 59 *)
Definition type_re : re := lit (s_ ":dataType=") (Grp 1 (Star is_lower)).
(** an optional colon, fillValue= and what is not a colon (group 1), line 76 *)
Definition fill_re : re := Cat (Opt (is ":")) (lit (s_ "fillValue=") (Grp 1 (Cat (Chr not_colon) (Star not_colon)))).
(** :? and the escaped restrictions, line 72; an escaped text stands for itself (C59) *)
Definition global_re (g : str) : re := Cat (Opt (is ":")) (lit g nothing).

Section Doubles.
Variable D : Type.
Variable readD : str -> D.          (* a stringstream read into a double: 0 if there is no number *)
Variable anyD : D.                  (* ANY_VALUE as a double *)

Record params := mkP { p_words : smap words; p_types : smap string; p_fills : smap D }.
Definition key (s : str) : string := string_of_list_ascii s.

(** the constructor with a list, lines 52-96.  For an unknown type an exception is made but not thrown (line 64);
    the type "none" is that of a parameter without type. *)
Definition add_param (g : str) (p : params) (text : str) : outcome params :=
  let '(type, name) :=
    match search type_re text with
    | Some (_, c, _) => (key (group 1 c), remove type_re text)
    | None => ("none"%string, text)
    end in
  let clean := match g with [] => name | _ => remove (global_re g) name end in
  let '(clean, fills) :=
    match search fill_re name with
    | Some (_, c, _) =>
        let clean' := remove fill_re clean in (clean', sput (key clean') (readD (group 1 c)) (p_fills p))
    | None => (clean, p_fills p)
    end in
  do w <- diana_words name;
  let ws := sput (key clean) w (p_words p) in
  Ok (if (type =? "none")%string then mkP ws (p_types p) fills
      else mkP ws (sput (key clean) type (p_types p))
             (match sfind (key name) fills with Some v => sput (key clean) v fills | None => fills end)).
Definition make_params (g : str) (texts : list str) : outcome params := ofold (add_param g) texts (mkP [] [] []).

(** getParameters, lines 212-222 *)
Definition get_words (p : params) (n : string) : words :=
  match sfind n (p_words p) with Some w => w | None => any_words end.
(** getParameterName, lines 224-242; the empty text is UNDEFINED *)
Definition fits (w header : words) : bool :=
  forallb (fun i => (nth i w 0 =? ANY) || (nth i w 0 =? nth i header 0)) (seq 0 16).
Definition get_name (p : params) (header : words) : string :=
  match find (fun e => fits (snd e) header) (p_words p) with Some e => fst e | None => ""%string end.
(** getParameterDatatype and getParameterFillValue, lines 244-262 *)
Definition get_type (p : params) (n : string) : string := match sfind n (p_types p) with Some t => t | None => "short"%string end.
Definition get_fill (p : params) (n : string) : D := match sfind n (p_fills p) with Some v => v | None => anyD end.

(** ** A configuration *)
(** a parameter: id, type ([] if there is none) and the value of its first attribute _FillValue *)
Record conf := mkC { c_id : str; c_type : str; c_fill : option str }.
(** initGetKnownFeltIdsFromXML, FeltCDMReader2.cc:245-273.  Simplified: ids are unique. *)
Definition known_id (g : option str) (c : conf) : str :=
  c_id c ++ (match c_type c with [] => [] | t => s_ ":dataType=" ++ t end)
         ++ (match c_fill c with None | Some [] => [] | Some v => s_ ":fillValue=" ++ v end)
         ++ (match g with Some g => ":"%char :: g | None => [] end).
(** Felt_File2::setOptions, Felt_File2.cc:111-146, and the constructor, lines 102-109 *)
Definition of_config (g : option str) (cs : list conf) : outcome params :=
  make_params (match g with Some g => g | None => [] end) (map (known_id g) cs).

(** the fields of a file by name, Felt_File2.cc:155-180, 184-199: headers without a name are left out *)
Definition add_field {F} (p : params) (header : F -> words) (m : smap (list F)) (f : F) : smap (list F) :=
  let n := get_name p (header f) in
  if (n =? "")%string then m
  else sput n (match sfind n m with Some l => l ++ [f] | None => [f] end) m.
Definition by_name {F} (p : params) (header : F -> words) (fs : list F) : smap (list F) :=
  fold_left (add_field p header) fs [].

(** the type of the values read, getScaledDataSlice, Felt_File2.cc:241-263 *)
Definition read_type (p : params) (n : string) : outcome string :=
  let t := get_type p n in
  if (t =? "short")%string || (t =? "float")%string || (t =? "double")%string then Ok t else Throw.
End Doubles.
Arguments mkP {D}.
Arguments p_words {D}.
Arguments p_types {D}.
Arguments p_fills {D}.

(** gridParameterDelta, Felt_File2.cc:111-127: at most six numbers, between blanks *)
Definition deltas (number : str -> outcome Q) (option : option str) : outcome (list Q) :=
  match option with
  | None => Ok (repeat 0%Q 6)
  | Some s =>
      do toks <- tokenize s (s_ " ");
      do l <- omapM number (firstn 6 toks);
      Ok (l ++ repeat 0%Q (6 - length l))
  end.
