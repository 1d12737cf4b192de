(** Accumulation along the unlimited dimension: src/CDMProcessor.cc, getDataSlice with the cache of one slice.
    Arrays live in a heap, since the code shares arrays between the cache, the results and its temporaries.
    The reader below hands out a new array at each request.  Rotation is in RotateModel.v. *)
From Coq Require Import String List Arith Bool Reals.
From Verif Require Import Base.
Import ListNotations.
Local Open Scope list_scope.
Local Open Scope nat_scope.

(** double, [None] is NaN *)
Definition vadd (a b : option R) : option R := match a, b with Some x, Some y => Some (x + y)%R | _, _ => None end.
Definition vsub (a b : option R) : option R := match a, b with Some x, Some y => Some (x - y)%R | _, _ => None end.
(** mifi_nand2bad with 0, interpolation.c:1084-1092 *)
Definition nan0 (a : option R) : option R := match a with None => Some 0%R | _ => a end.

Definition heap := list (list (option R)).
(** a DataPtr: the place of its array and whether the type is double *)
Record data := { loc : nat; dbl : bool }.
Definition content (h : heap) (d : data) : list (option R) := nth (loc d) h [].
Definition alloc (h : heap) (a : list (option R)) : heap * nat := (h ++ [a], length h).
(** asDouble, DataImpl.h:111, 129: data of type double give out their own array *)
Definition as_double (h : heap) (d : data) : heap * nat := if dbl d then (h, loc d) else alloc h (content h d).
Fixpoint zip (f : option R -> option R -> option R) (a b : list (option R)) : list (option R) :=
  match a, b with
  | x :: a', y :: b' => f x y :: zip f a' b'
  | _, _ => []
  end.
(** the common part of 544-552 and 640-648: [f] is plus or minus *)
Definition combine (f : option R -> option R -> option R) (h : heap) (d dP : data) (first : bool) : outcome (heap * data) :=
  if length (content h d) =? length (content h dP) then
    let '(h, a) := as_double h d in
    let '(h, b) := as_double h dP in
    let h := if first then upd h b (map nan0 (nth b h [])) else h in
    let h := upd h a (zip f (nth a h []) (nth b h [])) in
    Ok (h, {| loc := a; dbl := true |})
  else UB.
(** addDataP2Data, 541-556 *)
Definition add_data (h : heap) (d dP : data) (first : bool) : outcome (heap * data) :=
  if negb (length (content h d) =? 0) && negb (length (content h dP) =? 0) then combine vadd h d dP first
  else if negb (length (content h dP) =? 0) then Ok (h, dP)
  else Ok (h, d).

(** SliceCache, 65-69; [None] is the empty name at the start *)
Record state := { mem : heap; cache : option (string * nat * data) }.

Section Processor.
  (** the reader: records and type of each variable *)
  Context (rec : string -> nat -> list (option R)) (isdbl : string -> bool).
  (** accumulateVars, deaccumulateVars *)
  Context (accVars deVars : string -> bool).

  Definition read (h : heap) (v : string) (p : nat) : heap * data := let '(h', l) := alloc h (rec v p) in (h', {| loc := l; dbl := isdbl v |}).
  (** 622-625: [m] turns from [i] *)
  Fixpoint add_records (m i : nat) (v : string) (h : heap) (d : data) : outcome (heap * data) :=
    match m with
    | O => Ok (h, d)
    | S m' =>
        let '(h, dP) := read h v i in
        do (h, d) <- add_data h d dP (i =? 0);
        add_records m' (S i) v h d
    end.
  (** 608-631 *)
  Definition accumulate (v : string) (u : nat) (st : state) (h : heap) (d : data) : outcome (state * data) :=
    if u =? 0 then Ok ({| mem := h; cache := cache st |}, d)
    else
      do (hd, start) <-
        match cache st with
        | Some (cv, c, cd) =>
            if String.eqb cv v && (c <=? u) then
              if c =? u then Ok ((h, cd), c + 1) else do hd <- add_data h d cd false; Ok (hd, c + 1)
            else Ok ((h, d), 0)
        | None => Ok ((h, d), 0)
        end;
      let '(h, d) := hd in
      do (h, d) <- add_records (u - start) start v h d;
      Ok ({| mem := h; cache := Some (v, u, d) |}, d).
  (** 634-651 *)
  Definition deaccumulate (v : string) (u : nat) (h : heap) (d : data) : outcome (heap * data) :=
    if u =? 0 then Ok (h, d)
    else
      let '(h, dP) := read h v (u - 1) in
      if negb (length (content h d) =? 0) && negb (length (content h dP) =? 0) then combine vsub h d dP (u =? 1) else Ok (h, d).
  (** getDataSlice, 558-651 *)
  Definition get_slice (st : state) (v : string) (u : nat) : outcome (state * data) :=
    let '(h, d) := read (mem st) v u in
    do (st, d) <- (if accVars v then accumulate v u st h d else Ok ({| mem := h; cache := cache st |}, d));
    do (h, d) <- (if deVars v then deaccumulate v u (mem st) d else Ok (mem st, d));
    Ok ({| mem := h; cache := cache st |}, d).

  Definition start : state := {| mem := []; cache := None |}.
  (** a caller reads slices and may write into arrays it got *)
  Inductive op := Read (v : string) (u : nat) | Write (d : data) (a : list (option R)).
  (** the results at the time they are returned *)
  Fixpoint run (st : state) (ops : list op) : outcome (state * list (list (option R) * data)) :=
    match ops with
    | [] => Ok (st, [])
    | Read v u :: ops' =>
        do (st, d) <- get_slice st v u;
        do (st', rs) <- run st ops';
        Ok (st', (content (mem st) d, d) :: rs)
    | Write d a :: ops' => run {| mem := upd (mem st) (loc d) a; cache := cache st |} ops'
    end.
End Processor.
