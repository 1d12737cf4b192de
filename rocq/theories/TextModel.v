(** Text forms of values: calendar times (src/FimexTime.cc:37-49, 94-142, 205-241), integers and
    booleans (include/fimex/String2Type.h, src/String2Type.cc). *)
From Coq Require Import NArith ZArith QArith Qround Ascii String List Bool.
From Verif Require Import Base Rounding SearchModel StringModel TimeModel.
Import ListNotations.
Local Open Scope N_scope.

Definition digit (n : N) : ascii := ascii_of_N (48 + n).
Definition digit_value (c : ascii) : option N :=
  let n := N_of_ascii c in
  if (48 <=? n) && (n <=? 57) then Some (n - 48) else None.

(** operator<< of an unsigned integer: decimal digits; [fuel] bounds their number *)
Fixpoint dec_loop (fuel : nat) (n : N) (acc : str) : str :=
  match fuel with
  | O => acc
  | S f => if n <? 10 then digit n :: acc else dec_loop f (n / 10) (digit (n mod 10) :: acc)
  end.
Definition dec (n : N) : str := dec_loop (S (N.to_nat (N.log2 n))) n [].

(** value of a string of digits; [None] when it is empty or holds another character *)
Fixpoint undec_loop (s : str) (acc : N) : option N :=
  match s with
  | [] => Some acc
  | c :: s' => match digit_value c with Some d => undec_loop s' (10 * acc + d) | None => None end
  end.
Definition undec (s : str) : option N := match s with [] => None | _ => undec_loop s 0 end.

(** string2type<T> for a signed integer type with the given bounds, String2Type.h:63-84: the whole
    string must be an optional minus sign and digits, and the value in range *)
Definition string2int (lo hi : Z) (s : str) : outcome Z :=
  match s with
  | [] => Throw
  | c :: r =>
      let v := if Ascii.eqb c "-" then option_map (fun n => (- Z.of_N n)%Z) (undec r)
               else option_map Z.of_N (undec s) in
      match v with
      | Some z => if ((lo <=? z) && (z <=? hi))%Z then Ok z else Throw
      | None => Throw
      end
  end.
Definition string2short := string2int (- 2 ^ 15) (2 ^ 15 - 1).
Definition string2intT := string2int (- 2 ^ 31) (2 ^ 31 - 1).

(** string2type<double>("." + s) for a string of digits.  Simplified: exponents are not modelled
    (the result is Throw) and the value is exact. *)
Definition string2frac (s : str) : outcome Q :=
  match undec s with
  | Some n => Ok (Z.of_N n # Pos.pow 10 (Pos.of_nat (length s)))
  | None => Throw
  end.

(** ** booleans, src/String2Type.cc:40-53 *)
Definition string2bool (s : str) : outcome bool :=
  if str_eqb s (s_ "0") then Ok false
  else if str_eqb s (s_ "1") then Ok true
  else
    do l <- string2lowerCase s;
    if str_eqb l (s_ "on") || str_eqb l (s_ "true") then Ok true
    else if str_eqb l (s_ "off") || str_eqb l (s_ "false") then Ok false
    else Throw.

(** ** calendar times *)

(** src/FimexTime.cc:37-49; the argument is one of the char fields, an int after promotion *)
Definition two_digits (i : Z) : str :=
  if ((i <? 0) || (100 <=? i))%Z then ["?"; "?"]%char
  else if (i <? 10)%Z then ["0"%char; digit (Z.to_N i)]
  else [digit (Z.to_N (i / 10)); digit (Z.to_N (i mod 10))].

(** the getters return (signed) char: FimexTime.h:82-94 *)
Definition to_char (n : N) : Z := ((Z.of_N n + 128) mod 256 - 128)%Z.

(** operator<<, src/FimexTime.cc:205-220 *)
Definition print_time (t : ftime) : str :=
  dec (year t) ++ ["-"%char] ++ two_digits (to_char (month t)) ++ ["-"%char] ++
  two_digits (to_char (mday t)) ++ ["T"%char] ++
  two_digits (to_char (hour t)) ++ [":"%char] ++ two_digits (to_char (minute t)) ++ [":"%char] ++
  two_digits (to_char (second t)) ++
  (if 0 <? msecond t then
     ["."%char] ++ (if msecond t <? 10 then ["0"; "0"]%char else if msecond t <? 100 then ["0"%char] else []) ++
     dec (msecond t)
   else []).

(** a token of tokenizeDotted<int> (TokenizeDotted.h:48-73).  Simplified: the token after the dots
    is trimmed, too. *)
Definition int_token (t : str) : outcome dtok :=
  do c <- trim t blanks;
  if str_eqb c (s_ "...") then Ok Dots
  else match string2intT c with Ok z => Ok (Num (inject_Z z)) | _ => Ok Bad end.

Definition dotted_ints (fuel : nat) (s delims : str) : outcome (list Z) :=
  do toks <- tokenize s delims;
  do ds <- omapM int_token toks;
  do vs <- tokenize_dotted fuel ds;
  Ok (map Qfloor vs).

(** conversion to an unsigned type of the given number of bits *)
Definition to_unsigned (bits : Z) (z : Z) : N := Z.to_N (z mod 2 ^ bits).

(** FimexTime::parseISO8601, src/FimexTime.cc:94-142; [None] is the result false *)
Definition parse_iso8601 (fuel : nat) (iso : str) : outcome (option ftime) :=
  do s <- trim iso blanks;
  match s with
  | [] => Ok None                                                          (* 98 *)
  | _ =>
      do dt1 <- tokenize s (s_ "T");                                       (* 102 *)
      do dt <- (if Nat.eqb (length dt1) 1 then tokenize s (s_ " ") else Ok dt1);
      do p <- match dt with
              | [d] =>                                                     (* 111-120 *)
                  do date <- dotted_ints fuel d (s_ "-");
                  Ok (if Nat.eqb (length date) 3 then Some (date, [s_ "0"; s_ "0"; s_ "0.0"]) else None)
              | [d; t] =>                                                  (* 121-123 *)
                  do date <- dotted_ints fuel d (s_ "-");
                  do time <- tokenize t (s_ ":");
                  Ok (Some (date, time))
              | _ => Ok None                                               (* 124-126 *)
              end;
      match p with
      | None => Ok None
      | Some (date, time) =>
          let time := match time with [h; m] => [h; m; s_ "0"] | _ => time end in  (* 128-129 *)
          match date, time with
          | [y; mo; d], [h; mi; sec] =>
              do seconds <- tokenize sec (s_ ".");                         (* 132 *)
              do ms <- match seconds with
                       | _ :: f :: _ => do q <- string2frac f; Ok (lround (q * 1000))
                       | _ => Ok 0%Z
                       end;
              do hh <- string2short h;
              do mm <- string2short mi;
              do s0 <- rd (nth_error seconds 0);                           (* 137: seconds[0] *)
              do ss <- string2short s0;
              Ok (Some (mkTime (to_unsigned 16 y) (to_unsigned 8 mo) (to_unsigned 8 d)
                               (to_unsigned 8 hh) (to_unsigned 8 mm) (to_unsigned 8 ss)
                               (to_unsigned 16 ms)))
          | _, _ => Ok None                                                (* 139-141 *)
          end
      end
  end.
