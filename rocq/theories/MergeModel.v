(** Merging an inner and an outer grid: CDMMergerPrivate::extendInnerAxis, src/CDMMerger.cc:244-288 with
    its caller 200-206, and the compatibility checks of src/CDMMergeUtils.cc:66-112, 158-232 and
    CDMMergeUtils.h:52-55.  Floats are rationals. *)
From Coq Require Import QArith Qabs ZArith List Bool Lia.
From Verif Require Import Base.
Import ListNotations.
Local Open Scope nat_scope.

Definition qlt (a b : Q) : bool := negb (Qle_bool b a).

(** equal, CDMMergeUtils.h:52-55 *)
Definition close (a b : Q) : bool := qlt (Qabs (a - b)) (1 # 1000000).

(** the loops for(i=2; ...) 264-271: every further difference is [close] to the first *)
Fixpoint const_step (step : Q) (l : list Q) : bool :=
  match l with
  | a :: ((b :: _) as r) => close (b - a) step && const_step step r
  | _ => true
  end.

(** 280-285: for (nO = x; nO >= lo && nO <= hi; nO += step) push_back(nO), with fuel *)
Fixpoint grow (fuel : nat) (lo hi step x : Q) : outcome (list Q) :=
  match fuel with
  | O => Hang
  | S f =>
      if Qle_bool lo x && Qle_bool x hi
      then do r <- grow f lo hi step (x + step); Ok (x :: r)
      else Ok []
  end.

(** extendInnerAxis, 244-288; [unlimI], [unlimO]: the dimensions are unlimited.  The lists are the axis
    values in the common unit. *)
Definition extend_axis (fuel : nat) (unlimI unlimO : bool) (vi vo : list Q) : outcome (list Q) :=
  if negb (Bool.eqb unlimI unlimO) then Throw else
  match vi, vo with
  | i0 :: ((i1 :: ri) as vi'), o0 :: ((o1 :: ro) as vo') =>
      let stepI := (i1 - i0)%Q in
      let stepO := (o1 - o0)%Q in
      let lastI := last vi' i0 in
      let lastO := last vo' o0 in
      if negb (const_step stepI vi') then Throw else
      if negb (const_step stepO vo') then Throw else
      let minI := if qlt 0 stepI then i0 else lastI in
      let minO := if qlt 0 stepO then o0 else lastO in
      let maxI := if qlt stepI 0 then i0 else lastI in
      let maxO := if qlt stepO 0 then o0 else lastO in
      if qlt minI minO || qlt maxO maxI then Throw else
      do rev_ <- grow fuel minO maxO (- stepI) (i0 - stepI);
      do app_ <- grow fuel minO maxO stepI (lastI + stepI);
      Ok (rev rev_ ++ vi ++ app_)
  | _, _ => Throw
  end.

(** setTargetGridFromInner, 198-206: the axes are read in "m" or "degree" ([scale] file units are one of
    those), but the target grid is declared with the unit of the inner file; the result is the list of
    values in the file's unit *)
Definition target_axis (fuel : nat) (scale : Q) (vi : list Q) (vo_common : list Q) : outcome (list Q) :=
  extend_axis fuel false false (map (fun v => v * scale)%Q vi) vo_common.

(** axisLength, CDMMergeUtils.cc:66-74: -2 without axis (the case -1 is commented out); lengths up to
    2^31-1 *)
Definition axis_length (a : option nat) : Z := match a with None => (-2)%Z | Some n => Z.of_nat n end.

(** checkSingleAxisCompatibility, 76-94 *)
Definition axis_compatible (b t : option nat) : bool :=
  let lb := axis_length b in
  let lt_ := axis_length t in
  if (-1 <=? lb)%Z && (-1 <=? lt_)%Z && negb (lb =? lt_)%Z then false
  else if (lb =? -2)%Z && (lt_ =? -2)%Z then true
  else if ((lb =? -2)%Z && negb (lt_ =? 1)%Z) || (negb (lb =? 1)%Z && (lt_ =? -2)%Z) then false
  else true.

(** checkAxesCompatibility, 96-116: the six axis types in order *)
Definition axes_compatible (bt : list (option nat * option nat)) : bool :=
  forallb (fun p => axis_compatible (fst p) (snd p)) bt.

(** One entry of the shape of a variable: name, length, and whether it is the geo-x or geo-y axis of
    the variable's coordinate system.  (A coordinate system without such an axis, whose null pointer is
    dereferenced in line 206, is not modelled.) *)
Record sdim := { s_name : nat; s_len : nat; s_isx : bool; s_isy : bool }.

(** the hops over dimensions of length 1, 191-199 *)
Fixpoint hop (s : list sdim) : list sdim :=
  match s with
  | d :: r => if s_len d =? 1 then hop r else s
  | [] => []
  end.

(** the loop 189-228 over the two remaining shapes; [fuel] at least the length of the first.  With one
    of them used up the loop ends and the shapes count as compatible. *)
Fixpoint shapes_loop (fuel : nat) (b t : list sdim) : bool :=
  match fuel with
  | O => true
  | S f =>
      match b, t with
      | [], _ => true
      | _, [] => true
      | _, _ =>
          match hop b, hop t with
          | [], [] => true
          | [], _ :: _ => false
          | _ :: _, [] => false
          | db :: rb, dt :: rt =>
              if negb (Bool.eqb (s_isx db) (s_isx dt)) || negb (Bool.eqb (s_isy db) (s_isy dt)) then false
              else if negb (s_isx db || s_isy db) && negb (s_len db =? s_len dt) then false
              else shapes_loop f rb rt
          end
      end
  end.

Definition names_eq (b t : list sdim) : bool :=
  if list_eq_dec Nat.eq_dec (map s_name b) (map s_name t) then true else false.

(** 187-229 *)
Definition shapes_compatible (b t : list sdim) : bool :=
  if names_eq b t then true else shapes_loop (length b) b t.

(** is_compatible, 158-232: [cs]: presence of the coordinate systems in base and top *)
Definition compatible (has_b has_t cs_b cs_t : bool) (axes : list (option nat * option nat)) (b t : list sdim) : bool :=
  if negb (has_t && has_b) then false
  else if negb (Bool.eqb cs_b cs_t) then false
  else if negb cs_b then true
  else if negb (axes_compatible axes) then false
  else shapes_compatible b t.
