(** Searching in unsorted and sorted coordinate lists.
    include/fimex/min_max.h, include/fimex/FindNeighborElements.h, src/interpolation.c:109-227.
    Floating-point numbers are exact rationals; NaN is [None] where it is treated specially. *)
From Coq Require Import ZArith QArith List Bool Lia.
From Verif Require Import Base.
Import ListNotations.

(** ** min_max_element *)

Section MinMax.
  Context {A : Type} (comp : A -> A -> bool).

  (** include/fimex/min_max.h:47-72.  [mini], [maxi]: position and value of the current extrema;
      [i]: position of the first element of [l].  Two elements are taken per round. *)
  Fixpoint mm_loop (l : list A) (i : nat) (mini maxi : nat * A) {struct l}
    : (nat * A) * (nat * A) :=
    match l with
    | [] => (mini, maxi)
    | [e1] =>                                                              (* 67-72 *)
        (if comp e1 (snd mini) then (i, e1) else mini,
         if comp (snd maxi) e1 then (i, e1) else maxi)
    | e1 :: e2 :: l' =>                                                    (* 48-66 *)
        if comp e1 e2 then
          mm_loop l' (S (S i))
            (if comp e1 (snd mini) then (i, e1) else mini)
            (if comp (snd maxi) e2 then (S i, e2) else maxi)
        else
          mm_loop l' (S (S i))
            (if comp e2 (snd mini) then (S i, e2) else mini)
            (if comp (snd maxi) e1 then (i, e1) else maxi)
    end.

  (** include/fimex/min_max.h:39-74: positions relative to [begin]; the end is [length l] *)
  Definition min_max_element (l : list A) : nat * nat :=
    match l with
    | [] => (O, O)
    | a :: l' => let '(mi, ma) := mm_loop l' 1 (O, a) (O, a) in (fst mi, fst ma)
    end.
End MinMax.

(** ** Closest elements *)

Definition qltb (a b : Q) : bool := negb (Qle_bool b a).

(** include/fimex/FindNeighborElements.h:60-74, one loop round at position [i] *)
Record cstate := mkC { c_ret1 : nat; c_ret2 : nat; c_v1 : Q; c_d1 : Q; c_d2 : Q }.

Definition qabs (q : Q) : Q := if qltb q 0 then Qopp q else q.

Definition closest_step (x : Q) (s : cstate) (i : nat) (cur : Q) : cstate :=
  let d := qabs (x - cur) in
  if Qle_bool d (c_d2 s) then                                              (* 62 *)
    if qltb d (c_d1 s) then mkC i (c_ret1 s) cur d (c_d1 s)                (* 63-68 *)
    else if negb (Qeq_bool cur (c_v1 s)) then                              (* 69 *)
      mkC (c_ret1 s) i (c_v1 s) (c_d1 s) d                                 (* 70-71 *)
    else s
  else s.

Fixpoint closest_loop (x : Q) (l : list Q) (i : nat) (s : cstate) : cstate :=
  match l with
  | [] => s
  | c :: l' => closest_loop x l' (S i) (closest_step x s i c)
  end.

(** include/fimex/FindNeighborElements.h:46-76 find_closest_distinct_elements *)
Definition find_closest_distinct (l : list Q) (x : Q) : nat * nat :=
  match l with
  | [] => (O, O)
  | v :: _ =>
      let d := qabs (x - v) in
      let s := closest_loop x l 0 (mkC 0 0 v d d) in
      (c_ret1 s, c_ret2 s)
  end.

(** a difference; [None] is std::numeric_limits::max(), larger than all differences *)
Definition diff := option Q.
(** minimize(a, b) with b finite (include/fimex/min_max.h:76-85) *)
Definition less_diff (b : Q) (a : diff) : bool :=
  match a with None => true | Some a => qltb b a end.

(** lines 109-118; state: lowest, lowDiff, highest, highDiff *)
Record nstate := mkNS { n_low : nat; n_lowD : diff; n_high : nat; n_highD : diff }.

Definition neighbor_step (x : Q) (s : nstate) (i : nat) (cur : Q) : nstate :=
  let d := (x - cur)%Q in
  if Qle_bool 0 d then
    if less_diff d (n_lowD s) then mkNS i (Some d) (n_high s) (n_highD s) else s
  else
    if less_diff (- d) (n_highD s) then mkNS (n_low s) (n_lowD s) i (Some (- d)%Q) else s.

Fixpoint neighbor_loop (x : Q) (l : list Q) (i : nat) (s : nstate) : nstate :=
  match l with
  | [] => s
  | c :: l' => neighbor_loop x l' (S i) (neighbor_step x s i c)
  end.

(** include/fimex/FindNeighborElements.h:91-125 find_closest_neighbor_distinct_elements *)
Definition find_closest_neighbor (l : list Q) (x : Q) : nat * nat :=
  match l with
  | [] => (O, O)
  | v :: l' =>
      let lowD := (x - v)%Q in                                             (* 102 *)
      let highD := (- lowD)%Q in                                           (* 103 *)
      let lowD' := if qltb lowD 0 then None else Some lowD in              (* 105-106 *)
      let highD' := if qltb highD 0 then None else Some highD in           (* 107-108 *)
      let s := neighbor_loop x l' 1 (mkNS 0 lowD' 0 highD') in
      match n_lowD s, n_highD s with
      | Some _, Some _ => (n_low s, n_high s)                              (* 124 *)
      | _, _ => find_closest_distinct l x                                  (* 119-121 *)
      end
  end.

(** ** Binary search and axis positions *)

Local Open Scope Z_scope.

(** src/interpolation.c:109-117 and 119-122 *)
Definition ascending (a b : Q) : Z :=
  if Qeq_bool a b then 0 else if qltb b a then 1 else -1.
Definition descending (a b : Q) : Z := -1 * ascending a b.

(** reading axis[i] *)
Definition at_z (axis : list Q) (i : Z) : outcome Q :=
  if i <? 0 then UB else rd (nth_error axis (Z.to_nat i)).

(** src/interpolation.c:135-145; state: first, last, pos, comp; [fuel] bounds the rounds *)
Fixpoint bs_loop (fuel : nat) (cmp : Q -> Q -> Z) (key : Q) (base : list Q)
         (first last pos comp : Z) : outcome (Z * Z) :=
  match fuel with
  | O => Hang
  | S fuel' =>
      if first <=? last then
        let pos := (first + last) / 2 in
        do b <- at_z base pos;
        let comp := cmp key b in
        if comp =? 0 then Ok (pos, comp)
        else if 0 <? comp then bs_loop fuel' cmp key base (pos + 1) last pos comp
        else bs_loop fuel' cmp key base first (pos - 1) pos comp
      else Ok (pos, comp)
  end.

(** src/interpolation.c:129-152 bsearchDoubleIndex; num = length base *)
Definition bsearch (cmp : Q -> Q -> Z) (key : Q) (base : list Q) : outcome Z :=
  do pc <- bs_loop (S (length base)) cmp key base 0 (Z.of_nat (length base) - 1) 0 0;
  let '(pos, comp) := pc in
  if comp =? 0 then Ok pos
  else if 0 <? comp then Ok (-1 + (-1 * (pos + 1)))
  else Ok (-1 + (-1 * pos)).

(** src/interpolation.c:197-224: the position of one finite point *)
Definition point_pos (axis : list Q) (cmp : Q -> Q -> Z) (circular : bool) (p : Q) : outcome Q :=
  let num := Z.of_nat (length axis) in
  do pos <- bsearch cmp p axis;
  if 0 <=? pos then Ok (inject_Z pos)
  else
    let n := -1 * (pos + 1) in
    let n := if n =? num then n - 1 else if n =? 0 then n + 1 else n in    (* 203-207 *)
    do hi <- at_z axis n;
    do lo <- at_z axis (n - 1);
    let slope := (hi - lo)%Q in                                            (* 209 *)
    let offset := (hi - slope * inject_Z n)%Q in                           (* 210 *)
    let ap := ((p - offset) / slope)%Q in                                  (* 211 *)
    let ap := if circular && Qle_bool ap (-1#2) then (ap + inject_Z num)%Q else ap in
    let ap := if circular && qltb (inject_Z num - (1#2)) ap then (ap - inject_Z num)%Q else ap in
    Ok ap.

(** src/interpolation.c:163-190: shift of a point on a longitude axis, and the test whether the
    axis goes around the globe *)
Definition lon_shift (negative : bool) (p : Q) : Q :=
  if negative then (if qltb 180 p then (p - 360)%Q else p)
  else (if qltb p 0 then (p + 360)%Q else p).

Definition lon_circular (a0 a1 last : Q) : bool :=
  let next := (last + (a1 - a0) * (101#100))%Q in
  if qltb a0 last then Qle_bool a0 (next - 360) else Qle_bool (next + 360) a0.

(** src/interpolation.c:154-227 mifi_points2position; [None] is a non-finite point *)
Definition points2position (points : list (option Q)) (axis : list Q) (longitude : bool)
  : outcome (list Q) :=
  let num := Z.of_nat (length axis) in
  do a0 <- at_z axis 0;
  do last <- at_z axis (num - 1);
  let cmp := if qltb a0 last then ascending else descending in             (* 158-161 *)
  do pc <- (if longitude then
              do a1 <- at_z axis 1;
              let neg := qltb a0 0 || qltb last 0 in                       (* 165 *)
              Ok (map (option_map (lon_shift neg)) points, lon_circular a0 a1 last)
            else Ok (points, false));
  let '(pts, circular) := pc in
  omapM (fun p => match p with
                  | None => Ok (-999)%Q                                    (* 193-196 *)
                  | Some p => point_pos axis cmp circular p
                  end) pts.
