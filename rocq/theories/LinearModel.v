(** Interpolation between two fields: src/interpolation.c:416-546.
    Floats are real numbers, [None] is NaN; infinities are not modelled.  A field is a list of n
    values, so memcpy and the loops are over the whole list. *)
From Coq Require Import Reals List.
Import ListNotations.
Local Open Scope R_scope.

Definition num := option R.

(** a + b, and so on: NaN if one of them is *)
Definition lift2 (f : R -> R -> R) (a b : num) : num :=
  match a, b with Some x, Some y => Some (f x y) | _, _ => None end.

(** comparisons are false for NaN *)
Definition cmp (P : R -> R -> Prop) (D : forall x y, {P x y} + {~ P x y}) (a b : num) : bool :=
  match a, b with Some x, Some y => if D x y then true else false | _, _ => false end.
Definition eqb_ := cmp eq Req_EM_T.
Definition leb_ := cmp Rle Rle_dec.

(** (a == b) ? 0 : (x - a) / (b - a), lines 441, 477, 507 *)
Definition ratio (a b x : num) : num :=
  if eqb_ a b then Some 0 else lift2 Rdiv (lift2 Rminus x a) (lift2 Rminus b a).

(** mifi_get_values_linear_f_simple_, 429-438 *)
Definition simple (A B : list num) (f : num) : list num :=
  map (fun p => lift2 Rplus (fst p) (lift2 Rmult f (lift2 Rminus (snd p) (fst p)))) (combine A B).

(** mifi_get_values_nearest_f, 416-425 *)
Definition nearest (A B : list num) (a b x : num) : list num := A.

(** mifi_get_values_linear_f, 439-452; mifi_get_values_linear_d, 454-473 is the same for double *)
Definition linear (A B : list num) (a b x : num) : list num :=
  let f := ratio a b x in
  if eqb_ f (Some 0) then A else if eqb_ f (Some 1) then B else simple A B f.

(** mifi_get_values_linear_conf_extrapol_f, 475-494 *)
Definition linear_conf (left right : R) (A B : list num) (a b x : num) : list num :=
  let f := ratio a b x in
  if eqb_ f (Some 0) then A
  else if eqb_ f (Some 1) then B
  else if andb (leb_ (Some left) f) (leb_ f (Some right)) then simple A B f
  else map (fun _ => None) A.

(** 496-503 *)
Definition linear_weak := linear_conf (-1) 2.
Definition linear_no := linear_conf 0 1.

(** mifi_get_values_linear_const_extrapol_f, 505-516 *)
Definition linear_const (A B : list num) (a b x : num) : list num :=
  let f := ratio a b x in
  if leb_ (Some 1) f then B else if leb_ f (Some 0) then A else simple A B f.

Definition log_ (a : num) : num := option_map ln a.

(** mifi_get_values_log_f, 521-532; [None] is the result MIFI_ERROR with nothing written *)
Definition log_f (A B : list num) (a b x : num) : option (list num) :=
  if orb (orb (leb_ a (Some 0)) (leb_ b (Some 0))) (leb_ x (Some 0)) then None
  else Some (linear A B (log_ a) (log_ b) (log_ x)).

(** M_E, line 49 *)
Definition M_E : R := 2.7182818284590452354.

(** mifi_get_values_log_log_f, 534-546: the result of the inner call is not looked at, so an error of
    it would leave the output as it was ([out]) *)
Definition log_log_f (A B out : list num) (a b x : num) : option (list num) :=
  if orb (orb (leb_ a (Some 0)) (leb_ b (Some 0))) (leb_ x (Some 0)) then None
  else
    let l v := log_ (lift2 Rplus v (Some M_E)) in
    Some (match log_f A B (l a) (l b) (l x) with Some r => r | None => out end).
