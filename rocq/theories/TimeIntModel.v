(** Model of time interpolation: src/CDMTimeInterpolator.cc.
    Times are integers (seconds); the conversion between FimexTime, the old unit and the new unit
    is taken to be exact and order preserving (see C15, C69).  Only time on the unlimited dimension
    is modelled, as in the code (line 135).  Field values are reals or NaN. *)
From Coq Require Import ZArith Reals List.
From Verif Require Import Base LinearModel.
Import ListNotations.
Local Open Scope nat_scope.

(** std::lower_bound(begin + first, begin + first + len, x) by halving the range; [fuel] bounds
    the number of rounds.  Result: index of the position found. *)
Fixpoint lower_bound (fuel : nat) (l : list Z) (first len : nat) (x : Z) : outcome nat :=
  match fuel with
  | O => Hang
  | S fuel' =>
      if len =? 0 then Ok first
      else
        let half := len / 2 in
        do v <- rd (nth_error l (first + half));
        if (v <? x)%Z then lower_bound fuel' l (first + half + 1) (len - half - 1) x
        else lower_bound fuel' l first half x
  end.

(** one new time, CDMTimeInterpolator.cc:168-190: the pair of old positions and the new lastPos *)
Definition map_time (old : list Z) (lastPos : nat) (x : Z) : outcome (nat * nat * nat) :=
  let n := length old in
  do pos0 <- lower_bound (S n) old lastPos (n - lastPos) x;                    (* 169-170 *)
  if n =? 0 then UB                                    (* oldTimes[0], line 160 *)
  else
    let pos := if pos0 =? n then pos0 - 1 else pos0 in                         (* 172-175 *)
    if negb (pos =? 0) then Ok (pos - 1, pos, pos)                             (* 176-178 *)
    else if negb (pos + 1 =? n) then Ok (pos, pos + 1, pos)                    (* 179-182 *)
    else Ok (pos, pos, pos).                                                   (* 183-185 *)

(** the loop over the new times, 163-190 *)
Fixpoint map_times (old : list Z) (lastPos : nat) (news : list Z) : outcome (list (nat * nat)) :=
  match news with
  | [] => Ok []
  | x :: r =>
      do (t1, t2, pos) <- map_time old lastPos x;
      do rest <- map_times old pos r;
      Ok ((t1, t2) :: rest)
  end.

(** state after construction ([None]) or changeTimeAxis: new times and their mapping,
    timeChangeMap_ and the time variable, lines 191-203 *)
Definition change_time_axis (old news : list Z) : outcome (option (list (Z * (nat * nat)))) :=
  match old with
  | [] => UB                                                                   (* 160 *)
  | _ => do m <- map_times old 0 news; Ok (Some (combine news m))
  end.

Definition time (z : Z) : num := Some (IZR z).

(** getDataSlice of a variable with time axis, 89-139; [records] are the slices of the input *)
Definition get_slice (old : list Z) (records : list (list num)) (st : option (list (Z * (nat * nat)))) (pos : nat)
  : outcome (list num) :=
  match st with
  | None => UB                 (* 93: the entry of the time axis is dereferenced, but there is none *)
  | Some m =>
      match nth_error m pos with
      | None => Throw                                                          (* .at, 112 *)
      | Some (x, (i, j)) =>
          match nth_error old i, nth_error old j, nth_error records i, nth_error records j with
          | Some t1, Some t2, Some d1, Some d2 =>                              (* 113-116 *)
              if length d1 =? 0 then Ok d2                                     (* 119-120 *)
              else if length d2 =? 0 then Ok d1                                (* 121-122 *)
              else if length d1 =? length d2 then Ok (linear_weak d1 d2 (time t1) (time t2) (time x)) (* 123-126 *)
              else Throw                                                       (* 128 *)
          | _, _, _, _ => Throw
          end
      end
  end.
