(** Instants, seconds since 1970-01-01T00:00:00: src/TimeUtils.cc.  The calendar of the library date (date.h,
    not part of the source) is its algorithm for the number of days of a date; gmtime is the inverse
    algorithm.  Left out: make_time_utc_now (the clock). *)
From Coq Require Import NArith ZArith Ascii String List Bool.
From Verif Require Import Base StringModel TimeModel TextModel.
Import ListNotations.
Local Open Scope Z_scope.

(** date::year_month_day::to_days of date.h; 1970-01-01 is 0 *)
Definition days_from_civil (y m d : Z) : Z :=
  let y := if m <=? 2 then y - 1 else y in
  let era := y / 400 in
  let yoe := y - era * 400 in
  let doy := (153 * (if 2 <? m then m - 3 else m + 9) + 2) / 5 + d - 1 in
  era * 146097 + (yoe * 365 + yoe / 4 - yoe / 100 + doy) - 719468.

(** the date of a day (tm_year + 1900, tm_mon + 1, tm_mday of gmtime) *)
Definition civil_from_days (n : Z) : Z * Z * Z :=
  let z := n + 719468 in
  let era := z / 146097 in
  let doe := z - era * 146097 in
  let yoe := (doe - doe / 1460 + doe / 36524 - doe / 146096) / 365 in
  let doy := doe - (365 * yoe + yoe / 4 - yoe / 100) in
  let mp := (5 * doy + 2) / 153 in
  let d := doy - (153 * mp + 2) / 5 + 1 in
  let m := if mp <? 10 then mp + 3 else mp - 9 in
  ((if m <=? 2 then yoe + era * 400 + 1 else yoe + era * 400), m, d).

(** a date::year holds a short, month and day an unsigned char *)
Definition to_short (z : Z) : Z := (z + 2 ^ 15) mod 2 ^ 16 - 2 ^ 15.
(** make_time_point, 45-49; the sum is made with 64 bits *)
Definition make_time_point (y m d h mi s : Z) : Z :=
  days_from_civil (to_short y) (m mod 256) (d mod 256) * 86400 + h * 3600 + mi * 60 + s.

(** make_invalid_time_point, 51-54: time_point::max(), seconds are held in 64 bits; 56-59 *)
Definition invalid_instant : Z := 2 ^ 63 - 1.
Definition is_invalid (p : Z) : bool := p =? invalid_instant.

(** asTimePoint, 112-120; the getters of FimexTime return char *)
Definition as_time_point (t : ftime) : Z :=
  if invalid t then invalid_instant
  else make_time_point (Z.of_N (year t)) (to_char (month t)) (to_char (mday t)) (to_char (hour t)) (to_char (minute t))
         (to_char (second t)).

(** conversion to system_clock::time_point: nanoseconds in 64 bits; a signed overflow is undefined *)
Definition to_clock (p : Z) : outcome Z :=
  if (- 2 ^ 63 <=? p * 1000000000) && (p * 1000000000 <? 2 ^ 63) then Ok (p * 1000000000) else UB.
(** make_time_from_timet, 70-74 *)
Definition from_timet (t : Z) : outcome Z := do c <- to_clock t; Ok (Z.quot c 1000000000).

(** to_time_t and gmtime, 81-82 and 127-128: year, month, day, hour, minute, second *)
Definition utc (p : Z) : outcome (Z * Z * Z * (Z * Z * Z)) :=
  do c <- to_clock p;
  let tt := Z.quot c 1000000000 in
  let s := tt mod 86400 in
  Ok (civil_from_days (tt / 86400), (s / 3600, s mod 3600 / 60, s mod 60)).

(** fromTimePoint, 122-130; the arguments of the constructor are narrowed *)
Definition from_time_point (p : Z) : outcome ftime :=
  if is_invalid p then Ok min_date_time
  else do u <- utc p;
       let '((y, m, d), (h, mi, s)) := u in
       Ok (mkTime (to_unsigned 16 y) (to_unsigned 8 m) (to_unsigned 8 d) (to_unsigned 8 h) (to_unsigned 8 mi)
             (to_unsigned 8 s) 0).

(** %04d and %02d for a number that is not negative *)
Definition padded (width : nat) (z : Z) : str :=
  let ds := dec (Z.to_N z) in repeat "0"%char (width - length ds) ++ ds.
(** make_time_string, 76-98, with the texts between the numbers of its format *)
Definition time_string (dash colon : str) (p : Z) : outcome str :=
  if is_invalid p then Ok (s_ "invalid-date-time")
  else do u <- utc p;
       let '((y, m, d), (h, mi, s)) := u in
       Ok (padded 4 y ++ dash ++ padded 2 m ++ dash ++ padded 2 d ++ s_ "T" ++
           padded 2 h ++ colon ++ padded 2 mi ++ colon ++ padded 2 s).
Definition make_time_string := time_string [] [].
Definition make_time_string_extended := time_string (s_ "-") (s_ ":").

(** make_time_from_string, 61-68 *)
Definition from_string (fuel : nat) (s : str) : outcome Z :=
  do t <- parse_iso8601 fuel s;
  Ok (match t with Some t => as_time_point t | None => invalid_instant end).

(** timePoint2epochTime and fimexTime2epochTime, 132-140 *)
Definition epoch_of_instant (p : Z) : Z := p - days_from_civil 1970 1 1 * 86400.
Definition epoch_of_time (t : ftime) : Z := epoch_of_instant (as_time_point t).
