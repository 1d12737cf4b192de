(** String utilities: src/StringUtils.cc, include/fimex/StringUtils.h, src/XMLUtils.cc:135-181,
    include/fimex/TokenizeDotted.h.  A std::string is the list of its characters. *)
From Coq Require Import NArith ZArith QArith Ascii String List Bool.
From Verif Require Import Base StdMap SearchModel.
Import ListNotations.
Local Open Scope nat_scope.

Definition str := list ascii.
(** for examples and literals *)
Definition s_ (s : string) : str := list_ascii_of_string s.

(** character in a set given as a string *)
Definition mem (c : ascii) (set : str) : bool := existsb (Ascii.eqb c) set.

(** position of the first character satisfying [f], counted from [i] *)
Fixpoint find_from (f : ascii -> bool) (s : str) (i : nat) : option nat :=
  match s with
  | [] => None
  | c :: s' => if f c then Some i else find_from f s' (S i)
  end.

(** std::string::find_first_of / find_first_not_of with a start position; npos is [None] *)
Definition find_first_of (s set : str) (pos : option nat) : option nat :=
  match pos with
  | None => None
  | Some p => find_from (fun c => mem c set) (skipn p s) p
  end.
Definition find_first_not_of (s set : str) (pos : option nat) : option nat :=
  match pos with
  | None => None
  | Some p => find_from (fun c => negb (mem c set)) (skipn p s) p
  end.
(** std::string::find_last_not_of *)
Definition find_last_not_of (s set : str) : option nat :=
  match find_from (fun c => negb (mem c set)) (rev s) 0 with
  | Some i => Some (length s - 1 - i)
  | None => None
  end.

(** std::string::substr(pos, n); [None] is a count reaching the end *)
Definition substr (s : str) (pos : nat) (n : option nat) : outcome str :=
  if length s <? pos then Throw
  else Ok (match n with Some n => firstn n (skipn pos s) | None => skipn pos s end).

(** src/StringUtils.cc:116-123; [fuel] bounds the rounds *)
Fixpoint tok_loop (fuel : nat) (s delims : str) (lastPos pos : option nat) (tokens : list str)
  : outcome (list str) :=
  match lastPos, pos with
  | None, None => Ok tokens
  | _, _ =>
      match fuel with
      | O => Hang
      | S fuel' =>
          do t <- match lastPos with
                  | None => Throw                                         (* substr(npos, ..) *)
                  | Some l => substr s l (option_map (fun p => p - l) pos)
                  end;
          let lastPos' := find_first_not_of s delims pos in               (* 120 *)
          let pos' := find_first_of s delims lastPos' in                  (* 122 *)
          tok_loop fuel' s delims lastPos' pos' (tokens ++ [t])
      end
  end.

(** tokenize, src/StringUtils.cc:108-125 *)
Definition tokenize (s delims : str) : outcome (list str) :=
  let lastPos := find_first_not_of s delims (Some 0) in
  let pos := find_first_of s delims lastPos in
  tok_loop (S (length s)) s delims lastPos pos [].

(** include/fimex/StringUtils.h:112-117 *)
Fixpoint split_loop (fuel : nat) (s delims : str) (previous : nat) : outcome (list str) :=
  match find_first_of s delims (Some previous) with
  | Some current =>
      match fuel with
      | O => Hang
      | S fuel' =>
          do t <- substr s previous (Some (current - previous));
          do r <- split_loop fuel' s delims (current + 1);
          Ok (t :: r)
      end
  | None => do t <- substr s previous None; Ok [t]
  end.

(** split_any, include/fimex/StringUtils.h:109-118, src/StringUtils.cc:127-132 *)
Definition split_any (s delims : str) : outcome (list str) := split_loop (length s) s delims 0.

(** join of strings, include/fimex/StringUtils.h:47-61, 70-74 *)
Fixpoint join_loop (current : str) (rest : list str) (delim : str) (buffer : str) : str :=
  match rest with
  | [] => buffer ++ current
  | next :: rest' => join_loop next rest' delim (buffer ++ current ++ delim)
  end.
Definition join (l : list str) (delim : str) : str :=
  match l with
  | [] => []
  | c :: rest => join_loop c rest delim []
  end.

(** trim, src/StringUtils.cc:39-49 *)
Definition trim (s ws : str) : outcome str :=
  match find_first_not_of s ws (Some 0) with
  | None => Ok []
  | Some b =>
      match find_last_not_of s ws with
      | None => substr s b None
      | Some e => substr s b (Some (e + 1 - b))
      end
  end.

(** the default of trim's second argument, include/fimex/StringUtils.h:39 *)
Definition blanks : str := [" "; "009"; "010"; "013"]%char.

Definition str_eqb (a b : str) : bool :=
  if list_eq_dec Ascii.ascii_dec a b then true else false.

(** conversion of a size_t to int *)
Definition size2int (n : nat) : Z := ((Z.of_nat n + 2 ^ 31) mod 2 ^ 32 - 2 ^ 31)%Z.

(** src/StringUtils.cc:60-67.  compare(pos, n, sub) with a negative or too large pos throws *)
Definition starts_or_ends_with (txt sub : str) (startcompare : Z) : outcome bool :=
  match sub with
  | [] => Ok true
  | _ =>
      if length txt <? length sub then Ok false
      else if (startcompare <? 0)%Z || (Z.of_nat (length txt) <? startcompare)%Z then Throw
      else Ok (str_eqb (firstn (length sub) (skipn (Z.to_nat startcompare) txt)) sub)
  end.

(** src/StringUtils.cc:69-77; an int subtraction that overflows is undefined *)
Definition starts_with (txt start : str) : outcome bool := starts_or_ends_with txt start 0.
Definition ends_with (txt e : str) : outcome bool :=
  let d := (size2int (length txt) - size2int (length e))%Z in
  if (d <? - 2 ^ 31)%Z || (2 ^ 31 <=? d)%Z then UB else starts_or_ends_with txt e d.

(** src/StringUtils.cc:79-84 *)
Definition replace_all_copy (s : str) (thys that : ascii) : str :=
  map (fun c => if Ascii.eqb c thys then that else c) s.

(** tolower of the C locale; a char above 127 is negative and no valid argument *)
Definition to_lower (c : ascii) : outcome ascii :=
  let n := N_of_ascii c in
  if (128 <=? n)%N then UB
  else if ((65 <=? n) && (n <=? 90))%N then Ok (ascii_of_N (n + 32)) else Ok c.

(** src/StringUtils.cc:51-58 *)
Definition string2lowerCase (s : str) : outcome str := omapM to_lower s.

(** src/StringUtils.cc:86 and 88-99 *)
Definition ESCAPE_THESE : str := s_ "*?\+.()[]{}|^$".
Definition regex_escape_char (c : ascii) : str :=
  if mem c ESCAPE_THESE then ["\"%char; c] else [c].
Definition regex_escape (s : str) : str := flat_map regex_escape_char s.

(** ** XML *)

(** src/XMLUtils.cc:136-139 *)
Definition xml_special : str := ["&"; "<"; ">"; """"; "'"]%char.
Definition needs_xml_escape (s : str) : bool :=
  match find_first_of s xml_special (Some 0) with Some _ => true | None => false end.

(** src/XMLUtils.cc:157-176 *)
Definition escape_char (c : ascii) : str :=
  if Ascii.eqb c "&" then s_ "&amp;"
  else if Ascii.eqb c "<" then s_ "&lt;"
  else if Ascii.eqb c ">" then s_ "&gt;"
  else if Ascii.eqb c """" then s_ "&quot;"
  else if Ascii.eqb c "'" then s_ "&apos;"
  else [c].

(** src/XMLUtils.cc:153-181 (appended to the stream) and 142-151 *)
Definition escape_xml_to_stream (out s : str) : str :=
  if needs_xml_escape s then fold_left (fun o c => o ++ escape_char c) s out else out ++ s.
Definition escape_xml_string (s : str) : str :=
  if needs_xml_escape s then escape_xml_to_stream [] s else s.

(** ** StringListBuilder *)

Record slb := mkSlb { slb_idx : smap nat; slb_strings : list string }.

(** src/StringUtils.cc:134-140 *)
Definition slb_new (no_index_0 : bool) : slb := mkSlb [] (if no_index_0 then [EmptyString] else []).

(** src/StringUtils.cc:146-147 *)
Fixpoint slb_fill (l : list string) (i : nat) (m : smap nat) : smap nat :=
  match l with
  | [] => m
  | s :: l' => slb_fill l' (S i) (sput s i m)
  end.
(** src/StringUtils.cc:142-148 *)
Definition slb_from (l : list string) (no_index_0 : bool) : slb :=
  let i0 := if no_index_0 then 1 else 0 in
  mkSlb (slb_fill (skipn i0 l) i0 []) l.

(** src/StringUtils.cc:150-161 *)
Definition slb_add (b : slb) (key : string) : slb * nat :=
  match sfind key (slb_idx b) with
  | None => let i := length (slb_strings b) in
            (mkSlb (sput key i (slb_idx b)) (slb_strings b ++ [key]), i)
  | Some i => (b, i)
  end.

(** ** tokenizeDotted *)

(** A token after trimming: the dots, a number, or something string2type refuses.
    Numbers are exact rationals (include/fimex/TokenizeDotted.h is a template over the type). *)
Inductive dtok := Dots | Num (q : Q) | Bad.

(** the while loop of lines 63-66 *)
Fixpoint dot_loop (fuel : nat) (curVal dist after direction roundError : Q) (vals : list Q)
  : outcome (list Q) :=
  if qltb ((curVal - after) * direction) roundError then
    match fuel with
    | O => Hang
    | S fuel' => dot_loop fuel' (curVal + dist) dist after direction roundError (vals ++ [curVal])
    end
  else Ok vals.

(** include/fimex/TokenizeDotted.h:47-75.  After dots at the end of the list, ++tok is done on
    the end iterator. *)
Fixpoint dotted (fuel : nat) (toks : list dtok) (vals : list Q) {struct toks} : outcome (list Q) :=
  match toks with
  | [] => Ok vals
  | Num v :: toks' => dotted fuel toks' (vals ++ [v])
  | Bad :: _ => Throw
  | Dots :: toks' =>
      match rev vals with
      | last :: prev :: _ =>
          let dist := (last - prev)%Q in                                  (* 55 *)
          let direction := if qltb 0 dist then 1%Q else (-1)%Q in         (* 58 *)
          match toks' with
          | [] => UB                                                      (* 59, 47 *)
          | Num after :: toks'' =>
              let roundError := (direction * dist * (-1 # 100000))%Q in   (* 62 *)
              do vals' <- dot_loop fuel (last + dist) dist after direction roundError vals;
              dotted fuel toks'' (vals' ++ [after])
          | _ :: _ => Throw
          end
      | _ => Throw                                                        (* 51-53 *)
      end
  end.
Definition tokenize_dotted (fuel : nat) (toks : list dtok) : outcome (list Q) := dotted fuel toks [].
