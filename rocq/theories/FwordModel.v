(** The words of a FELT file, its index and its fields: src/io/felt/FeltFile.cpp, src/io/felt/FeltField.cpp,
    src/io/felt/FeltField.h, src/io/felt/FeltTime.cpp.  The machine stores the low byte of a word first.
    Simplified: a read beyond the end of the file, which leaves the words as they were before and the stream
    unusable, is undefined behaviour.  Left out: logging, information(), isSane (not used). *)
From Coq Require Import ZArith List Bool.
From Verif Require Import Base TimeModel InstantModel.
Import ListNotations.
Local Open Scope Z_scope.

(** ** Words *)
(** a short int from two bytes *)
Definition short_of (low high : Z) : Z := (low + 256 * high + 2 ^ 15) mod 2 ^ 16 - 2 ^ 15.
Fixpoint words_of (swap : bool) (bytes : list Z) : list Z :=
  match bytes with
  | a :: b :: r => (if swap then short_of b a else short_of a b) :: words_of swap r
  | _ => []
  end.

Definition block_words : nat := 1024.                              (* FeltConstants.h:38 *)
Definition undefined_word : Z := -32767.

(** n words from a position *)
Definition read (ws : list Z) (from n : nat) : outcome (list Z) :=
  if (length ws <? from + n)%nat then UB else Ok (firstn n (skipn from ws)).

(** getBlock_, FeltFile.cpp:181-192 *)
Definition block (ws : list Z) (b : nat) : outcome (list Z) := read ws (b * block_words) block_words.

Definition w (k : nat) (l : list Z) : Z := nth k l 0.

(** size_t *)
Definition size (z : Z) : Z := z mod 2 ^ 64.

(** ** The header of a field, 16 words *)
(** gridType, FeltField.h:91 *)
Definition grid_type (h : list Z) : Z := w 14 h.

(** number of words behind the grid, FeltField.cpp:222-226 *)
Definition extra_size (h : list Z) : Z := if 1000 <? grid_type h then Z.rem (grid_type h) 1000 else 0.

(** gridSize, FeltField.cpp:214-230 *)
Definition grid_size (h : list Z) : Z :=
  if w 7 h =? undefined_word then 0
  else size (w 7 h + Z.quot (w 15 h) 100 * 32767 - (20 + extra_size h)).

(** valid, FeltField.h:57 *)
Definition valid (h : list Z) : bool := negb (grid_size h =? 0).

(** startingGridBlock, FeltField.cpp:203-212 *)
Definition start_block (h : list Z) : Z :=
  if w 5 h =? undefined_word then 0 else size (w 5 h - 1 + Z.rem (w 15 h) 100 * 32767).

(** the first word of a field, FeltField.cpp:242-249 *)
Definition start_word (h : list Z) : Z :=
  size (start_block h * 1024 + (if 1 <? w 6 h then w 6 h - 1 else 0)).

(** parameter, level1, level2, dataVersion and isEpsRunParameter, FeltField.cpp:67-76, 175-185, 232-237 *)
Definition is_eps (h : list Z) : bool := (2000 <=? w 11 h) && (w 11 h <? 6000).
Definition parameter (h : list Z) : Z := if is_eps h then Z.rem (w 11 h) 1000 else w 11 h.
Definition level1 (h : list Z) : Z := w 12 h.
Definition level2 (h : list Z) : Z := if is_eps h then 0 else w 13 h.
Definition data_version (h : list Z) : Z := if is_eps h then w 13 h else 0.

(** parseTime, FeltTime.cpp:59-62: year, month, day, hour, minute *)
Definition parse_time (y md hm : Z) : Z * Z * Z * (Z * Z) :=
  (y, Z.quot md 100, Z.rem md 100, (Z.quot hm 100, Z.rem hm 100)).

(** addHours, FeltTime.cpp:40-57.  Simplified: month and day must be ones an unsigned char holds. *)
Definition add_hours (t : Z * Z * Z * (Z * Z)) (n : Z) : outcome (Z * Z * Z * (Z * Z * Z)) :=
  let '((y, m, d), (h, mi)) := t in
  utc (days_from_civil (to_short y) m d * 86400 + h * 3600 + mi * 60 + n * 3600).

(** referenceTime and validTime, FeltField.cpp:57-65 *)
Definition reference_time (h : list Z) := parse_time (w 2 h) (w 3 h) (w 4 h).
Definition valid_time (h : list Z) := add_hours (reference_time h) (w 9 h).

(** ** The data of a field: feltFile_.get_, FeltFile.cpp:194-203.  A number of words that cannot be
    allocated throws. *)
Definition get (ws : list Z) (from n : Z) : outcome (list Z) :=
  if 2 ^ 62 <? n then Throw else
  if Z.of_nat (length ws) <? from + n then UB else Ok (firstn (Z.to_nat n) (skipn (Z.to_nat from) ws)).

(** getGridHeader_, FeltField.cpp:239-253 *)
Definition grid_header (ws h : list Z) : outcome (list Z) := get ws (start_word h) 20.
(** grid, FeltField.cpp:187-201 *)
Definition grid (ws h : list Z) : outcome (list Z) :=
  do _ <- grid_header ws h;
  get ws (size (start_word h + 20)) (grid_size h).
(** getExtraGeometrySpecification_, FeltField.cpp:255-273 *)
Definition extra (ws h : list Z) : outcome (list Z) :=
  if 1000 <? grid_type h
  then if extra_size h =? 0 then Ok [] else get ws (size (start_word h + grid_size h + 20)) (extra_size h)
  else Ok [].

(** ** The file *)
(** the header of the entry number i of the index, FeltField.cpp:40-53 *)
Definition entry (ws : list Z) (i : nat) : outcome (list Z) :=
  do b <- block ws (i / 64 + 2);
  Ok (firstn 16 (skipn (i mod 64 * 16) b)).

(** the loop of the constructor, FeltFile.cpp:62-66, with at most [fuel] rounds *)
Fixpoint load (fuel : nat) (ws : list Z) (count : nat) (i : nat) (fields : list (list Z)) : outcome (list (list Z)) :=
  if (length fields <? count)%nat
  then match fuel with
       | O => Hang
       | S fuel' =>
           do h <- entry ws i;
           load fuel' ws count (S i) (if valid h then fields ++ [h] else fields)
       end
  else Ok fields.

(** the byte order: the first word is 997, 998 or 999, FeltFile.cpp:48-51 *)
Definition swapped (bytes : list Z) : outcome bool :=
  match bytes with
  | a :: b :: _ => Ok ((short_of a b <? 997) || (999 <? short_of a b))
  | _ => UB
  end.

(** FeltFile, FeltFile.cpp:43-67: words and fields; a negative number of fields cannot be reserved *)
Definition open_file (bytes : list Z) : outcome (list Z * list (list Z)) :=
  do sw <- swapped bytes;
  let ws := words_of sw bytes in
  do b1 <- block ws 0;
  if negb (w 14 b1 =? 0) then Throw else
  if w 9 b1 <? 0 then Throw else
  do fields <- load (S (length ws)) ws (Z.to_nat (w 9 b1)) 0 [];
  Ok (ws, fields).
