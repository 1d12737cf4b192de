(** Model of reading and writing GRIB: placement of messages in a slice
    (src/io/grib/GribCDMReader.cc), the message index of a variable (src/io/grib/GribCDMIndexer.cc),
    step units (src/io/grib/GribUtils.cc), the step written for a time
    (src/io/grib/GribApiCDMWriter_ImplAbstract.cc), the time read from a message
    (src/io/grib/GribFileIndex.cc) and the time encoding used as key (src/FimexTime.cc).
    Cell values are arbitrary.  Decoding a message (ecCodes) is not modelled: a message is the list
    of the values it decodes to. *)
From Coq Require Import ZArith NArith String List Bool.
From Verif Require Import Base IndexSpec SliceModel.
Import ListNotations.
Local Open Scope list_scope.
Local Open Scope nat_scope.

Section Slice.
  Context {A : Type}.

  (** what ends up at data_out for one valid message, GribCDMReader.cc:251-270: the whole field, or
      the requested part of it copied by recursiveCopyMultiDimData with the slice sizes {1, max x};
      missing values if the message has another size.  (A longer message makes the decoder report
      an error, readGribData then returns 0: GribFileIndex.cc:502.) *)
  Definition grib_block (missing : A) (xyslice : bool) (mx my x0 y0 sx sy : nat) (field : list A)
    : outcome (list A) :=
    if negb (length field =? mx * my) then Ok (repeat missing (sx * sy))              (* 265-267 *)
    else if xyslice then
      do r <- copy_rec 1 field (N.of_nat (sx * sy)) [N.of_nat mx; N.of_nat my]
                 [1%N; N.of_nat mx] [N.of_nat x0; N.of_nat y0] [N.of_nat sx; N.of_nat sy]
                 (0%N, []);                                                           (* 268-270 *)
      Ok (snd r)
    else Ok field.                                                                    (* 252 *)

  (** writing a block into the array allocated in line 213 *)
  Definition put_block (out : list A) (pos : nat) (blk : list A) : outcome (list A) :=
    if pos + length blk <=? length out
    then Ok (firstn pos out ++ blk ++ skipn (pos + length blk) out)
    else UB.

  (** the order of the three loops, GribCDMReader.cc:239-241: (t, l, e) *)
  Definition grib_order (t0 st l0 sl e0 se : nat) : list (nat * nat * nat) :=
    flat_map (fun t => flat_map (fun l => map (fun e => (t, l, e)) (seq e0 se)) (seq l0 sl))
             (seq t0 st).

  (** body of the loops, GribCDMReader.cc:242-271.  [None] is a message that is not valid. *)
  Definition grib_step (missing : A) (mx my x0 y0 sx sy E e0 L l0 t0 : nat)
             (msgs : list (option (list A))) (out : list A) (tle : nat * nat * nat)
    : outcome (list A) :=
    let '(t, l, e) := tle in
    match nth_error msgs (t * L * E + l * E + e) with                                 (* 242-243 *)
    | None => Throw                                                                   (* .at() *)
    | Some None => Ok out                                                             (* 244-246 *)
    | Some (Some field) =>
        do blk <- grib_block missing (negb (mx * my =? sx * sy)) mx my x0 y0 sx sy field;
        put_block out (((t - t0) * L * E + (l - l0) * E + (e - e0)) * (sx * sy)) blk  (* 248-249 *)
    end.

  Definition grib_loop (missing : A) (mx my x0 y0 sx sy E e0 se L l0 sl t0 st : nat)
             (msgs : list (option (list A))) : outcome (list A) :=
    ofold (grib_step missing mx my x0 y0 sx sy E e0 L l0 t0 msgs)
          (grib_order t0 st l0 sl e0 se)
          (repeat missing (sx * sy * st * sl * se)).                                  (* 210-224 *)

  (** the dimensions read from the request, GribCDMReader.cc:175-205: for one dimension the
      triple (maximum, start, size) *)
  Definition rd3 (maxs start sizes : list nat) (k : nat) : outcome (nat * nat * nat) :=
    do m <- rd (nth_error maxs k);
    do s <- rd (nth_error start k);
    do z <- rd (nth_error sizes k);
    Ok (m, s, z).

  (** GribCDMReader::getDataSlice for a variable stored in messages, GribCDMReader.cc:165-274.
      [has_time]: the variable has the unlimited dimension. *)
  Definition grib_slice (missing : A) (has_time : bool) (maxs start sizes : list nat)
             (msgs : list (option (list A))) : outcome (list A) :=
    let has_ens := length maxs =? (if has_time then 5 else 4) in                      (* 180-183 *)
    let k0 := 2 in
    do (E, e0, se) <- (if has_ens then rd3 maxs start sizes k0 else Ok (1, 0, 1));    (* 186-191 *)
    let k1 := if has_ens then k0 + 1 else k0 in
    do (L, l0, sl) <- rd3 maxs start sizes k1;                                        (* 194-197 *)
    let k2 := k1 + 1 in
    do (T, t0, st) <- (if has_time then rd3 maxs start sizes k2 else Ok (1, 0, 1));   (* 199-204 *)
    let k3 := if has_time then k2 + 1 else k2 in
    if negb (k3 =? length maxs) then Throw                                            (* 205-206 *)
    else
      do (mx, x0, sx) <- rd3 maxs start sizes 0;
      do (my, y0, sy) <- rd3 maxs start sizes 1;
      grib_loop missing mx my x0 y0 sx sy E e0 se L l0 sl t0 st msgs.
End Slice.

(** ** The messages of one variable *)

(** find_index, GribCDMIndexer.cc:689-697 *)
Fixpoint find_index {K} (eqb : K -> K -> bool) (l : list K) (k : K) : outcome nat :=
  match l with
  | [] => Throw
  | x :: l' => if eqb x k then Ok 0 else do i <- find_index eqb l' k; Ok (S i)
  end.

(** One message as seen by the index: encoded time (0 for a variable without time), level,
    perturbation number, and the pointer to the message. *)
Record gmsg (B : Type) := mkG { g_time : N; g_level : Z; g_ens : nat; g_msg : B }.
Arguments mkG {B}. Arguments g_time {B}. Arguments g_level {B}.
Arguments g_ens {B}. Arguments g_msg {B}.

(** initCreateVarMessages, GribCDMIndexer.cc:700-754, for one variable.  Simplification: the
    nested maps time -> level -> member -> message built by loadOneMessage (line 598; a later
    message with the same key replaces the earlier one) and then traversed are replaced by one
    pass over the messages in the order they were found. *)
Definition grib_index {B} (times : list N) (levels : list Z) (E T : nat) (ms : list (gmsg B))
  : outcome (list (option B)) :=
  let L := length levels in
  let size := E * L * T in                                                            (* 727 *)
  ofold (fun msgs m =>
           do t <- find_index N.eqb times (g_time m);                                 (* 735 *)
           do l <- find_index Z.eqb levels (g_level m);                               (* 739 *)
           let idx := (t * L + l) * E + g_ens m in                                    (* 745 *)
           if size <=? idx then Throw                                                 (* 746-748 *)
           else Ok (upd msgs idx (Some (g_msg m))))
        ms (repeat None size).

(** the times of all variables with time, loadOneMessage lines 513-519: hasTime iff the time is
    valid; a message of a variable without time has encoded time 0 and inserts nothing *)
Fixpoint set_insert (x : N) (l : list N) : list N :=
  match l with
  | [] => [x]
  | y :: l' => if (x <? y)%N then x :: l else if (x =? y)%N then l else y :: set_insert x l'
  end.
Definition grib_times {B} (ms : list (bool * gmsg B)) : list N :=
  fold_left (fun acc (m : bool * gmsg B) => if fst m then set_insert (g_time (snd m)) acc else acc) ms [].

(** ** Step units *)

(** gribStepUnits2seconds, GribUtils.cc:75-107 *)
Definition units_seconds (u : string) : outcome N :=
  if String.eqb u "s" then Ok 1%N
  else if String.eqb u "m" then Ok 60%N
  else if String.eqb u "h" then Ok (60 * 60)%N
  else if String.eqb u "3h" then Ok (3 * 60 * 60)%N
  else if String.eqb u "6h" then Ok (6 * 60 * 60)%N
  else if String.eqb u "12h" then Ok (12 * 60 * 60)%N
  else if String.eqb u "D" then Ok (24 * 60 * 60)%N
  else if String.eqb u "M" then Ok (24 * 60 * 60 * 30)%N
  else if String.eqb u "Y" then Ok (24 * 60 * 60 * 365)%N
  else if String.eqb u "10Y" then Ok (24 * 60 * 60 * 365 * 10)%N
  else if String.eqb u "30Y" then Ok (24 * 60 * 60 * 365 * 30)%N
  else if String.eqb u "C" then Ok (24 * 60 * 60 * 365 * 100)%N
  else Throw.

(** gribSeconds2stepUnits, GribUtils.cc:109-144 *)
Definition seconds_units (s : N) : outcome string :=
  if (s <=? 0)%N then Throw
  else if (s mod (24 * 60 * 60 * 365 * 100) =? 0)%N then Ok "C"%string
  else if (s mod (24 * 60 * 60 * 365 * 30) =? 0)%N then Ok "30Y"%string
  else if (s mod (24 * 60 * 60 * 365 * 10) =? 0)%N then Ok "10Y"%string
  else if (s mod (24 * 60 * 60 * 365) =? 0)%N then Ok "Y"%string
  else if (s mod (24 * 60 * 60 * 30) =? 0)%N then Ok "M"%string
  else if (s mod (24 * 60 * 60) =? 0)%N then Ok "D"%string
  else if (s mod (12 * 60 * 60) =? 0)%N then Ok "12h"%string
  else if (s mod (6 * 60 * 60) =? 0)%N then Ok "6h"%string
  else if (s mod (3 * 60 * 60) =? 0)%N then Ok "3h"%string
  else if (s mod (60 * 60) =? 0)%N then Ok "h"%string
  else if (s mod 60 =? 0)%N then Ok "m"%string
  else Ok "s"%string.

(** gribStepUnitsFromText, GribUtils.cc:161-190 *)
Definition units_code (u : string) : outcome N :=
  if String.eqb u "s" then Ok 13%N
  else if String.eqb u "m" then Ok 0%N
  else if String.eqb u "h" then Ok 1%N
  else if String.eqb u "3h" then Ok 10%N
  else if String.eqb u "6h" then Ok 11%N
  else if String.eqb u "12h" then Ok 12%N
  else if String.eqb u "D" then Ok 2%N
  else if String.eqb u "M" then Ok 3%N
  else if String.eqb u "Y" then Ok 4%N
  else if String.eqb u "10Y" then Ok 5%N
  else if String.eqb u "30Y" then Ok 6%N
  else if String.eqb u "C" then Ok 7%N
  else Throw.

(** gribStepUnitsToText, GribUtils.cc:192-213 *)
Definition code_units (c : N) : outcome string :=
  match c with
  | 13%N => Ok "s"%string
  | 0%N => Ok "m"%string
  | 1%N => Ok "h"%string
  | 10%N => Ok "3h"%string
  | 11%N => Ok "6h"%string
  | 12%N => Ok "12h"%string
  | 2%N => Ok "D"%string
  | 3%N => Ok "M"%string
  | 4%N => Ok "Y"%string
  | 5%N => Ok "10Y"%string
  | 6%N => Ok "30Y"%string
  | 7%N => Ok "C"%string
  | _ => Throw
  end.

(** ** Writing and reading times *)

Local Open Scope Z_scope.

(** conversion of a 64-bit signed value to unsigned long *)
Definition to_ulong (z : Z) : N := Z.to_N (z mod 2 ^ 64).

(** the step unit chosen for a time axis (seconds since the reference time),
    GribApiCDMWriter_ImplAbstract.cc:202, 240-242, 285-287: only the first two times count *)
Definition step_unit (times : list Z) : outcome string :=
  match times with
  | t0 :: t1 :: _ => seconds_units (to_ulong (t1 - t0))
  | _ => Ok "s"%string
  end.

(** the step written for a time [diff] seconds after the reference time,
    GribApiCDMWriter_ImplAbstract.cc:390.  The quotient is computed in unsigned long (the divisor
    is unsigned long), then 0.5 is added in double and the sum truncated to long.  Below 2^52 this
    is exact; larger quotients are not modelled (UB). *)
Definition write_step (unit : string) (diff : Z) : outcome Z :=
  do s <- units_seconds unit;
  let q := Z.of_N (to_ulong diff / s) in
  if q <? 2 ^ 52 then Ok q else UB.

(** all steps written for one variable, lines 290-295 *)
Definition write_steps (times : list Z) : outcome (string * list Z) :=
  do u <- step_unit times;
  do steps <- omapM (write_step u) times;
  Ok (u, steps).

(** GribFileMessage::getValidTime, GribFileIndex.cc:940-967, as seconds after the reference time.
    For the codes 2 to 7 the computed offset is not assigned: the variable timeOffset is used
    uninitialised.  Overflow of the 64-bit seconds is not modelled. *)
Definition valid_offset (code : N) (stepEnd : Z) : outcome Z :=
  match code with
  | 13%N => Ok stepEnd
  | 0%N => Ok (60 * stepEnd)
  | 1%N => Ok (3600 * stepEnd)
  | 10%N => Ok (3600 * (3 * stepEnd))
  | 11%N => Ok (3600 * (6 * stepEnd))
  | 12%N => Ok (3600 * (12 * stepEnd))
  | 2%N | 3%N | 4%N | 5%N | 6%N | 7%N => UB
  | _ => Throw
  end.

(** A file written by the writer and read by the reader: the times (seconds after the reference
    time) of the messages in the order they were written.  Assumes that the GRIB library returns
    the stored unit and step unchanged. *)
Definition write_read (times : list Z) : outcome (list Z) :=
  do (u, steps) <- write_steps times;
  do c <- units_code u;
  omapM (valid_offset c) steps.

(** ** Encoding of times *)

Local Open Scope N_scope.

Record ftime := mkT { f_year : N; f_month : N; f_mday : N; f_hour : N;
                      f_minute : N; f_second : N; f_msecond : N }.

(** FimexTime::toEncoded, src/FimexTime.cc:178-190.  The 32-bit shifts of minute and second are
    exact for minute < 128. *)
Definition ft_encode (t : ftime) : N :=
  N.lor (N.lor (N.lor (N.lor (N.lor (N.lor
    (w64 (N.shiftl (f_year t) 52)) (N.shiftl (f_month t) 48)) (N.shiftl (f_mday t) 40))
    (N.shiftl (f_hour t) 32)) (N.shiftl (f_minute t) 24)) (N.shiftl (f_second t) 16))
    (f_msecond t).

(** FimexTime::fromEncoded, src/FimexTime.cc:193-204 *)
Definition ft_decode (e : N) : ftime :=
  mkT (N.land (N.shiftr e 52) (2 ^ 12 - 1)) (N.land (N.shiftr e 48) (2 ^ 4 - 1))
      (N.land (N.shiftr e 40) (2 ^ 8 - 1)) (N.land (N.shiftr e 32) (2 ^ 8 - 1))
      (N.land (N.shiftr e 24) (2 ^ 8 - 1)) (N.land (N.shiftr e 16) (2 ^ 8 - 1))
      (N.land e (2 ^ 16 - 1)).

(** FimexTime::invalid, src/FimexTime.cc:89-92 *)
Definition ft_invalid (t : ftime) : bool := (f_month t <=? 0) || (12 <? f_month t).
