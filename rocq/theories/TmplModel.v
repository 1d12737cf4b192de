(** Templates in the attributes of configuration files, such as %MAX_DATETIME(%Y-%m-%d,86400)%:
    src/CDM_XMLConfigHelper.cc, src/ReplaceStringTimeObject.cc, include/fimex/ReplaceStringTimeObject.h,
    include/fimex/ReplaceStringTemplateObject.h.  std::regex is modelled by the list of all its matches in
    the order of ECMAScript (a backtracking search).  Left out: readXPathNodeWithCDMAttributes (the XML
    attributes of a node), the constructor of CDMAttribute. *)
From Coq Require Import NArith ZArith Ascii String List Bool.
From Verif Require Import Base StringModel TimeModel TextModel InstantModel.
Import ListNotations.
Local Open Scope list_scope.
Local Open Scope Z_scope.

(** ** The part of the regular expressions of ECMAScript in use *)
Inductive re :=
| Chr (f : ascii -> bool)          (* one character of a class *)
| Star (f : ascii -> bool)         (* as many characters of a class as possible *)
| Cat (a b : re)
| Opt (a : re)                     (* a, otherwise nothing *)
| Grp (n : nat) (a : re).          (* captured as the group n *)

Definition capture := (nat * str)%type.

(** the prefixes of a class, the longest first, with what follows *)
Fixpoint stars (f : ascii -> bool) (s : str) : list (str * str) :=
  match s with
  | c :: s' => (if f c then map (fun mr => (c :: fst mr, snd mr)) (stars f s') else []) ++ [([], s)]
  | [] => [([], s)]
  end.

(** the matches at the begin of a text in the order of the search: captures, matched text, text behind it.
    Simplified: an optional group matched with the empty text counts as matched; its text is the same. *)
Fixpoint matches_at (r : re) (s : str) : list (list capture * str * str) :=
  match r with
  | Chr f => match s with c :: s' => if f c then [([], [c], s')] else [] | [] => [] end
  | Star f => map (fun mr => ([], fst mr, snd mr)) (stars f s)
  | Cat a b =>
      flat_map (fun x => let '(ca, ma, ra) := x in
        map (fun y => let '(cb, mb, rb) := y in (ca ++ cb, ma ++ mb, rb)) (matches_at b ra)) (matches_at a s)
  | Opt a => matches_at a s ++ [([], [], s)]
  | Grp n a => map (fun x => let '(c, m, r) := x in ((n, m) :: c, m, r)) (matches_at a s)
  end.

(** std::regex_search: the first match at the first position with one, and the text before it *)
Fixpoint search (r : re) (s : str) : option (str * list capture * str) :=
  match matches_at r s with
  | (c, _, rest) :: _ => Some ([], c, rest)
  | [] =>
      match s with
      | [] => None
      | x :: s' => option_map (fun y => let '(pre, c, rest) := y in (x :: pre, c, rest)) (search r s')
      end
  end.

(** the text of a group; a group without match has begin and end at the end of the text *)
Definition group (n : nat) (c : list capture) : str :=
  match find (fun x => Nat.eqb (fst x) n) c with Some x => snd x | None => [] end.

Definition is (c : ascii) : re := Chr (Ascii.eqb c).
Fixpoint lit (s : str) (r : re) : re := match s with [] => r | c :: s' => Cat (is c) (lit s' r) end.

(** a newline or carriage return, not matched by a dot *)
Definition newline (c : ascii) : bool := Ascii.eqb c "010" || Ascii.eqb c "013".

(** the expression for a name, src/CDM_XMLConfigHelper.cc:46.  Simplified: the name stands for itself, as all
    names in use (MIN_DATETIME, MAX_DATETIME, EXT) do. *)
Definition template_re (name : str) : re :=
  lit ("%"%char :: name)
    (Cat (Opt (Grp 1 (Cat (is "(")
                     (Cat (Grp 2 (Star (fun c => negb (Ascii.eqb c ","))))
                     (Cat (Opt (is ","))
                     (Cat (Opt (Grp 3 (Star (fun c => negb (newline c)))))
                          (is ")")))))))
         (is "%")).

(** ** The objects put in the place of a template *)
Inductive robj :=
| TimeObj (t offset : Z) (format : str)        (* ReplaceStringTimeObject *)
| TextObj (text : str).                         (* ReplaceStringTemplateObject<std::string> *)

(** include/fimex/ReplaceStringTimeObject.h:45-50 *)
Definition time_obj (t : Z) : robj := TimeObj t 0 (s_ "%Y-%m-%d %H:%M:%S%F%Q").

(** string2type<time_t> *)
Definition string2time := string2int (- 2 ^ 63) (2 ^ 63 - 1).

(** setFormatStringAndOptions, src/ReplaceStringTimeObject.cc:49-55 and
    include/fimex/ReplaceStringTemplateObject.h:58 *)
Definition set_options (o : robj) (format : str) (options : list str) : outcome robj :=
  match o with
  | TimeObj t offset _ =>
      match options with
      | [] => Ok (TimeObj t offset format)
      | a :: _ => do k <- string2time a; Ok (TimeObj t k format)
      end
  | TextObj _ => Ok o
  end.

Section Put.
(** conversions of strftime other than %Y %m %d %H %M %S %% *)
Variable other : ascii -> Z -> str.

(** a conversion of strftime for the UTC time t.  Simplified: years are taken as not negative, no flags and
    modifiers *)
Definition conversion (c : ascii) (t : Z) : str :=
  let '(y, m, d) := civil_from_days (t / 86400) in
  let s := t mod 86400 in
  if Ascii.eqb c "Y" then dec (Z.to_N y)
  else if Ascii.eqb c "m" then padded 2 m
  else if Ascii.eqb c "d" then padded 2 d
  else if Ascii.eqb c "H" then padded 2 (s / 3600)
  else if Ascii.eqb c "M" then padded 2 (s mod 3600 / 60)
  else if Ascii.eqb c "S" then padded 2 (s mod 60)
  else if Ascii.eqb c "%" then s_ "%"
  else other c t.

(** strftime without its limit *)
Fixpoint strftime (f : str) (t : Z) : str :=
  match f with
  | [] => []
  | c :: f' =>
      if Ascii.eqb c "%"
      then match f' with
           | [] => [c]
           | k :: f'' => conversion k t ++ strftime f'' t
           end
      else c :: strftime f' t
  end.

(** operator<<, src/ReplaceStringTimeObject.cc:34-47: the sum of two time_t, gmtime (a null pointer if the year
    is no int), strftime into a buffer of 80 characters, whose content is unspecified if the text and its end
    do not fit.  include/fimex/ReplaceStringTemplateObject.h:48-52. *)
Definition put (o : robj) : outcome str :=
  match o with
  | TimeObj t offset format =>
      let n := t + offset in
      let y := fst (fst (civil_from_days (n / 86400))) - 1900 in
      if ((- 2 ^ 63 <=? n) && (n <? 2 ^ 63) && (- 2 ^ 31 <=? y) && (y <? 2 ^ 31))%bool
      then let text := strftime format n in
           if (length text <? 80)%nat then Ok text else UB
      else UB
  | TextObj text => Ok text
  end.

(** the rounds for one name, src/CDM_XMLConfigHelper.cc:47-67.  matches.size() counts the groups of the
    expression, so both conditions on it hold for every match. *)
Fixpoint rounds (fuel : nat) (r : re) (o : robj) (s out : str) : outcome (str * robj) :=
  match search r s with
  | None => Ok (out ++ s, o)
  | Some (pre, c, rest) =>
      match fuel with
      | O => Hang
      | S fuel' =>
          do options <- tokenize (group 3 c) (s_ ",");
          do o' <- set_options o (group 2 c) options;
          do text <- put o';
          rounds fuel' r o' rest (out ++ pre ++ text)
      end
  end.
Definition replace_one (name : str) (o : robj) (value : str) : outcome (str * robj) :=
  rounds (S (length value)) (template_re name) o value [].

(** replaceTemplateAttribute, src/CDM_XMLConfigHelper.cc:42-71: one name after the other in the order of the
    map; the objects are shared, so what was set stays for the next call *)
Fixpoint replace_all (value : str) (m : list (str * robj)) : outcome (str * list (str * robj)) :=
  match m with
  | [] => Ok (value, [])
  | (name, o) :: m' =>
      do vo <- replace_one name o value;
      do vm <- replace_all (fst vo) m';
      Ok (fst vm, (name, snd vo) :: snd vm)
  end.

(** ** Lists of attributes *)
Record xattr := { x_element : bool; x_tag : str; x_name : str; x_value : str; x_type : str }.

(** fillAttributeListFromXMLNode, src/CDM_XMLConfigHelper.cc:73-87: name, type and value of the attributes *)
Fixpoint fill_attributes (nodes : list xattr) (m : list (str * robj))
  : outcome (list (str * str * str) * list (str * robj)) :=
  match nodes with
  | [] => Ok ([], m)
  | n :: nodes' =>
      if (x_element n && str_eqb (x_tag n) (s_ "attribute"))%bool
      then do vm <- replace_all (x_value n) m;
           do r <- fill_attributes nodes' (snd vm);
           Ok ((x_name n, x_type n, fst vm) :: fst r, snd r)
      else fill_attributes nodes' m
  end.

(** the times of a GRIB file, src/io/grib/GribCDMIndexer.cc:224-231, in the order of the set; MAX_DATETIME is
    the first name of the map *)
Definition time_objects (times : list Z) : list (str * robj) :=
  match times with
  | [] => []
  | t :: _ => [(s_ "MAX_DATETIME", time_obj (last times t)); (s_ "MIN_DATETIME", time_obj t)]
  end.

(** initUpdateTemplatedAttributeValues, src/io/grib/GribCDMIndexer.cc:242-255: texts only *)
Fixpoint update_values (atts : list (bool * str)) (m : list (str * robj))
  : outcome (list (bool * str) * list (str * robj)) :=
  match atts with
  | [] => Ok ([], m)
  | (text, v) :: atts' =>
      if text
      then do vm <- replace_all v m;
           do r <- update_values atts' (snd vm);
           Ok ((text, fst vm) :: fst r, snd r)
      else do r <- update_values atts' m; Ok ((text, v) :: fst r, snd r)
  end.
End Put.
