(** Calendar times: src/FimexTime.cc, include/fimex/FimexTime.h. *)
From Coq Require Import NArith ZArith List Bool.
From Verif Require Import Base.
Import ListNotations.
Open Scope N_scope.

(** include/fimex/FimexTime.h:44-57: year and msecond are 16 bits, the others 8 bits wide *)
Record ftime := mkTime {
  year : N; month : N; mday : N; hour : N; minute : N; second : N; msecond : N }.

(** values the members can have *)
Definition representable (t : ftime) : Prop :=
  year t < 2 ^ 16 /\ month t < 2 ^ 8 /\ mday t < 2 ^ 8 /\ hour t < 2 ^ 8 /\
  minute t < 2 ^ 8 /\ second t < 2 ^ 8 /\ msecond t < 2 ^ 16.

(** src/FimexTime.cc:75-87 *)
Definition min_date_time : ftime := mkTime 0 0 0 0 0 0 0.
Definition max_date_time : ftime := mkTime 65535 255 255 255 255 255 65535.

(** src/FimexTime.cc:89-92 *)
Definition invalid (t : ftime) : bool := (month t <=? 0) || (12 <? month t).

(** src/FimexTime.cc:144-148 *)
Definition ft_eqb (a b : ftime) : bool :=
  (year a =? year b) && (month a =? month b) && (mday a =? mday b) && (hour a =? hour b) &&
  (minute a =? minute b) && (second a =? second b) && (msecond a =? msecond b).

(** uint64_t(v) << n *)
Definition shl64 (v n : N) : N := N.shiftl v n mod M64.
(** v << n for an unsigned char promoted to a (32-bit) int, then converted to uint64_t: a result
    of 2^31 or more is a negative int and is sign-extended *)
Definition shl_int (v n : N) : N :=
  let w := N.shiftl v n mod 2 ^ 32 in
  if w <? 2 ^ 31 then w else w + (M64 - 2 ^ 32).

(** src/FimexTime.cc:153-175, 179-190 *)
Definition to_encoded (t : ftime) : N :=
  N.lor (N.lor (N.lor (N.lor (N.lor (N.lor
    (shl64 (year t) 52)
    (shl64 (month t) 48))
    (shl64 (mday t) 40))
    (shl64 (hour t) 32))
    (shl_int (minute t) 24))
    (shl_int (second t) 16))
    (msecond t).

(** (enc >> shift) & ((1 << width) - 1) *)
Definition field (enc shift width : N) : N := N.land (N.shiftr enc shift) (2 ^ width - 1).

(** src/FimexTime.cc:193-203 *)
Definition from_encoded (enc : N) : ftime :=
  mkTime (field enc 52 12) (field enc 48 4) (field enc 40 8) (field enc 32 8)
         (field enc 24 8) (field enc 16 8) (field enc 0 16).

(** include/fimex/FimexTime.h:101-109 *)
Definition ft_neb (a b : ftime) : bool := negb (ft_eqb a b).
Definition ft_gtb (a b : ftime) : bool := to_encoded b <? to_encoded a.
Definition ft_ltb (a b : ftime) : bool := ft_gtb b a.
Definition ft_geb (a b : ftime) : bool := negb (ft_gtb b a).
Definition ft_leb (a b : ftime) : bool := negb (ft_gtb a b).
