(** Axis specifications: src/TimeSpec.cc, src/SpatialAxisSpec.cc.
    Doubles are exact rationals.  string2type<double> is the parameter [s2d]; numbers are written by
    type2string and read back by tokenizeDotted in the code, here they are kept.  The units library is
    the parameter [to_unit]: the value of a text or of the start and end time in a time unit. *)
From Coq Require Import NArith ZArith QArith Qround Ascii String List Bool.
From Verif Require Import Base SearchModel StringModel TextModel ConvertModel.
Import ListNotations.
Local Open Scope nat_scope.

Definition is_space (c : ascii) : bool :=
  let n := N_of_ascii c in ((n =? 32) || (9 <=? n) && (n <=? 13))%N.
Definition is_digit (c : ascii) : bool := match digit_value c with Some _ => true | None => false end.

Fixpoint skip_space (s : str) : str :=
  match s with c :: s' => if is_space c then skip_space s' else s | [] => [] end.
Fixpoint digits (s : str) : str :=
  match s with c :: s' => if is_digit c then c :: digits s' else [] | [] => [] end.

(** regex_search with "x\s*([+-])?\s*(\d\.?\d*)?\s*" (TimeSpec.cc:62-63, SpatialAxisSpec.cc:62-64): the
    groups 1 and 2; everything behind the first x is optional and greedy *)
Definition x_match (s : str) : option (option ascii * str) :=
  match find_from (Ascii.eqb "x") s 0 with
  | None => None
  | Some i =>
      let r := skip_space (skipn (i + 1) s) in
      let '(sign, r1) := match r with
                         | c :: r' => if Ascii.eqb c "+" || Ascii.eqb c "-" then (Some c, r') else (None, r)
                         | [] => (None, r)
                         end in
      let r2 := skip_space r1 in
      let num := match r2 with
                 | d :: r' =>
                     if is_digit d then
                       match r' with
                       | p :: r'' => if Ascii.eqb p "." then d :: p :: digits r'' else d :: digits r'
                       | [] => [d]
                       end
                     else []
                 | [] => []
                 end in
      Some (sign, num)
  end.

Definition sign_is (c : ascii) (s : option ascii) : bool :=
  match s with Some d => Ascii.eqb d c | None => false end.
Definition dots (s : str) : bool := str_eqb s (s_ "...").

(** translateRelativeTime, TimeSpec.cc:58-83 *)
Definition translate_time (s2d : str -> outcome Q) (value : str) (startOffset finalValue : Q) : outcome Q :=
  match x_match value with
  | Some (sign, num) =>
      match num with
      | [] => Ok finalValue                                                          (* 65-67 *)
      | _ =>
          if sign_is "+" sign then do v <- s2d num; Ok (finalValue + v)%Q            (* 69-70 *)
          else if negb (sign_is "-" sign) then do v <- s2d num; Ok (finalValue - v)%Q (* 71-72 *)
          else Ok 0%Q                                                                (* 73-76 *)
      end
  | None => do v <- s2d value; Ok (startOffset + v)%Q                                (* 79 *)
  end.

(** TranslateRelativePlace, SpatialAxisSpec.cc:57-85 *)
Definition translate_place (s2d : str -> outcome Q) (value : str) (startOffset finalValue : Q) : outcome Q :=
  match x_match value with
  | Some (sign, num) =>
      if sign_is "+" sign then do v <- s2d num; Ok (finalValue + v)%Q
      else if sign_is "-" sign then do v <- s2d num; Ok (finalValue - v)%Q
      else Ok finalValue
  | None => do v <- s2d value; Ok (startOffset + v)%Q
  end.

(** static_cast<int>(t / delta) * delta, TimeSpec.cc:152, 160, SpatialAxisSpec.cc:137, 145; a quotient
    that int cannot hold is undefined *)
Definition on_grid (t delta : Q) : outcome Q :=
  if Qeq_bool delta 0 then UB
  else let z := truncate (t / delta) in
       if ((- 2 ^ 31 <=? z) && (z <? 2 ^ 31))%Z then Ok (inject_Z z * delta)%Q else UB.

(** TimeSpec.cc:152-157, SpatialAxisSpec.cc:137-142 *)
Definition start_offset (t delta : Q) : outcome Q :=
  do o <- on_grid t delta;
  Ok (if qltb t o then (o + delta)%Q else o).

(** the relative part, TimeSpec.cc:144-169, SpatialAxisSpec.cc:127-149 *)
Definition relative_steps (translate : str -> Q -> Q -> outcome Q) (s2d : str -> outcome Q) (fuel : nat)
    (steps : str) (start fin : Q) : outcome (list Q) :=
  do times <- tokenize steps (s_ ",");
  match times with
  | t0 :: t1 :: _ =>
      do v1 <- s2d t1;
      do v0 <- s2d t0;
      let delta := (v1 - v0)%Q in
      do startOffset <- start_offset start delta;
      do finalU <- on_grid fin delta;
      do toks <- omapM (fun t => if dots t then Ok Dots
                                 else do v <- translate t startOffset finalU; Ok (Num v)) times;
      tokenize_dotted fuel toks
  | _ => Throw                                                                       (* < 2 values *)
  end.

(** the parameters: sections "steps" or "key=value", TimeSpec.cc:109-131, SpatialAxisSpec.cc:92-119;
    the state is (steps, unit, relative unit or start) *)
Definition sections := (str * str * str)%type.
Fixpoint parse_sections (relKey : str) (unitAllowed : bool) (toks : list str) (st : sections) : outcome sections :=
  match toks with
  | [] => Ok st
  | t :: r =>
      let '(steps, unit, rel) := st in
      do p <- tokenize t (s_ "=");
      match p with
      | [v] => match steps with
               | [] => parse_sections relKey unitAllowed r (v, unit, rel)
               | _ => Throw
               end
      | [k; v] =>
          if str_eqb k (s_ "unit") then
            (if unitAllowed then parse_sections relKey unitAllowed r (steps, v, rel) else Throw)
          else if str_eqb k relKey then parse_sections relKey unitAllowed r (steps, unit, v)
          else Throw
      | _ => Throw
      end
  end.

(** tokenizeDotted<double> on a text; TokenizeDotted.h:42-76 *)
Definition q_token (s2d : str -> outcome Q) (t : str) : outcome dtok :=
  do c <- trim t blanks;
  if dots c then Ok Dots else match s2d c with Ok q => Ok (Num q) | _ => Ok Bad end.
Definition dotted_text (s2d : str -> outcome Q) (fuel : nat) (s : str) : outcome (list Q) :=
  do toks <- tokenize s (s_ ",");
  do ds <- omapM (q_token s2d) toks;
  tokenize_dotted fuel ds.

Definition default_unit : str := s_ "seconds since 1970-01-01 00:00:00".

(** TimeSpec::TimeSpec, TimeSpec.cc:105-176: the unit and the times in it (in the relative unit when
    there is one).  [range u] is the start and end time in unit u, [iso u t] a calendar time in unit u. *)
Definition time_spec (s2d : str -> outcome Q) (range : str -> outcome (Q * Q)) (iso : str -> str -> outcome Q)
    (fuel : nat) (spec : str) : outcome (str * list Q) :=
  do toks <- tokenize spec (s_ ";");
  do st <- parse_sections (s_ "relativeUnit") true toks ([], default_unit, []);
  let '(steps, unit, rel) := st in
  match rel with
  | [] =>                                                                            (* 133-140 *)
      do times <- tokenize steps (s_ ",");
      do ds <- omapM (fun t => if dots t then Ok Dots else do v <- iso unit t; Ok (Num v)) times;
      do vs <- tokenize_dotted fuel ds;
      Ok (unit, vs)
  | _ =>                                                                             (* 142-172 *)
      do (start, fin) <- range rel;
      do vs <- relative_steps (translate_time s2d) s2d fuel steps start fin;
      Ok (rel, vs)
  end.

(** str.find(sub) != npos *)
Fixpoint prefix_of (p s : str) : bool :=
  match p, s with
  | [], _ => true
  | a :: p', b :: s' => Ascii.eqb a b && prefix_of p' s'
  | _, [] => false
  end.
Fixpoint contains (p s : str) : bool :=
  prefix_of p s || match s with _ :: s' => contains p s' | [] => false end.

(** SpatialAxisSpec::init, SpatialAxisSpec.cc:88-154; [range] is [None] when start and end are not given *)
Definition spatial_spec (s2d : str -> outcome Q) (range : option (Q * Q)) (fuel : nat) (spec : str)
  : outcome (list Q) :=
  match range, contains (s_ "relativeStart") spec with
  | None, true => Throw                                                              (* 91, 156-161 *)
  | _, _ =>
      do toks <- tokenize spec (s_ ";");
      do st <- parse_sections (s_ "relativeStart") false toks ([], [], []);
      let '(steps, _, rel) := st in
      match rel, range with
      | [], _ => dotted_text s2d fuel steps
      | _, Some (start, fin) => relative_steps (translate_place s2d) s2d fuel steps start fin
      | _, None => UB                                                                (* start not set *)
      end
  end.
