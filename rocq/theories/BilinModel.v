(** Bilinear and bicubic interpolation of one point, and the cached interpolation of a grid with
    its reduced input domain.  src/interpolation.c:267-414, src/CachedInterpolation.cc:165-253.
    Floating-point numbers are exact rationals ([Q] for positions, [Qc] for weights and field
    values); NaN is [None]; rounding errors are not modelled. *)
From Coq Require Import ZArith NArith QArith Qcanon Qround List Bool Lia.
From Verif Require Import Base Rounding RegridModel SearchModel.
Import ListNotations.
Local Open Scope Z_scope.

(** weight times field value; 0 * NaN is NaN *)
Definition vmul (w : Qc) (v : value) : value :=
  match v with Some x => Some (w * x)%Qc | None => None end.

(** [(int) floor(x)]: undefined when the value does not fit an int *)
Definition floor_int (x : Q) : outcome Z :=
  let f := Qfloor x in
  if (- 2 ^ 31 <=? f) && (f <? 2 ^ 31) then Ok f else UB.

(** [infield[pos]] *)
Definition cell_at (infield : list value) (pos : Z) : outcome value :=
  if pos <? 0 then UB else rd (nth_error infield (Z.to_nat pos)).

(** src/interpolation.c:229-233; overflow of the int position is not modelled *)
Definition array_pos (x y z ix iy : Z) : Z := (z * iy + y) * ix + x.

Definition undefined_levels (iz : nat) : outcome (list value) := Ok (repeat None iz).

Definition level (iy ix pos : Z) (z : nat) : Z := pos + Z.of_nat z * (iy * ix).

(** src/interpolation.c:267-343 mifi_get_values_bilinear_f.  [xfrac] is the fraction. *)
Definition bilinear (infield : list value) (x y : Q) (ix iy : Z) (iz : nat)
  : outcome (list value) :=
  do x0 <- floor_int x;                                                    (* 269 *)
  let x1 := x0 + 1 in
  let xfrac := Q2Qc (x - inject_Z x0) in
  do y0 <- floor_int y;                                                    (* 272 *)
  let y1 := y0 + 1 in
  let yfrac := Q2Qc (y - inject_Z y0) in
  if (0 <=? x0) && (x1 <? ix) then                                         (* 275 *)
    if (0 <=? y0) && (y1 <? iy) then                                       (* 276 *)
      let pos := array_pos x0 y0 0 ix iy in
      omapM (fun z =>
        let p := level iy ix pos z in
        do s00 <- cell_at infield p;
        do s01 <- cell_at infield (p + 1);
        do s10 <- cell_at infield (p + ix);
        do s11 <- cell_at infield (p + ix + 1);
        Ok (vadd (vmul (1 - yfrac) (vadd (vmul (1 - xfrac) s00) (vmul xfrac s01)))
                 (vmul yfrac (vadd (vmul (1 - xfrac) s10) (vmul xfrac s11)))))
        (seq 0 iz)
    else
      let y0 := to_int32 (lround y) in                                     (* 290 *)
      if (0 <=? y0) && (y0 <? iy) then                                     (* 291 *)
        let pos := array_pos x0 y0 0 ix iy in
        omapM (fun z =>
          let p := level iy ix pos z in
          do s00 <- cell_at infield p;
          do s01 <- cell_at infield (p + 1);
          Ok (vadd (vmul (1 - xfrac) s00) (vmul xfrac s01))) (seq 0 iz)
      else undefined_levels iz                                             (* 302 *)
  else
    let x0 := to_int32 (lround x) in                                       (* 308 *)
    if (0 <=? x0) && (x0 <? ix) then                                       (* 309 *)
      if (0 <=? y0) && (y1 <? iy) then                                     (* 311 *)
        let pos := array_pos x0 y0 0 ix iy in
        omapM (fun z =>
          let p := level iy ix pos z in
          do s00 <- cell_at infield p;
          do s10 <- cell_at infield (p + ix);
          Ok (vadd (vmul (1 - yfrac) s00) (vmul yfrac s10))) (seq 0 iz)
      else
        let y0 := to_int32 (lround y) in                                   (* 321 *)
        if (0 <=? y0) && (y0 <=? iy) then                                  (* 322 *)
          let pos := array_pos x0 y0 0 ix iy in
          omapM (fun z => cell_at infield (level iy ix pos z)) (seq 0 iz)
        else undefined_levels iz                                           (* 330 *)
    else undefined_levels iz.                                              (* 336 *)

(** ** Bicubic *)

(** src/interpolation.c:348-354, the matrix before halving *)
Definition M4 : list (list Z) :=
  [[ 0;  2;  0;  0];
   [-1;  0;  1;  0];
   [ 2; -5;  4; -1];
   [-1;  3; -3;  1]].

Definition qz (z : Z) : Qc := Q2Qc (inject_Z z).

Definition sum_q (l : list Qc) : Qc := fold_left Qcplus l 0%Qc.
Definition sum_v (l : list value) : value := fold_left vadd l (Some 0%Qc).

(** src/interpolation.c:367-376 (and 377-386): X*M for X = (1, f, f^2, f^3) *)
Definition conv_weights (f : Qc) : list Qc :=
  let X := [1; f; f * f; f * f * f]%Qc in
  map (fun i => sum_q (map (fun j =>
        (nth j X 0 * (qz (nth i (nth j M4 []) 0%Z) * Q2Qc (1#2)))%Qc) (seq 0 4))) (seq 0 4).

(** src/interpolation.c:345-414 mifi_get_values_bicubic_f *)
Definition bicubic (infield : list value) (x y : Q) (ix iy : Z) (iz : nat)
  : outcome (list value) :=
  do x0 <- floor_int x;                                                    (* 356 *)
  let xfrac := Q2Qc (x - inject_Z x0) in
  do y0 <- floor_int y;                                                    (* 358 *)
  let yfrac := Q2Qc (y - inject_Z y0) in
  if (1 <=? x0) && (x0 + 2 <? ix) && ((1 <=? y0) && (y0 + 2 <? iy)) then   (* 361 *)
    let XM := conv_weights xfrac in
    let MY := conv_weights yfrac in
    omapM (fun z =>
      do F <- omapM (fun i => omapM (fun j =>                              (* 392-396 *)
                cell_at infield (array_pos (x0 + Z.of_nat i - 1) (y0 + Z.of_nat j - 1)
                                           (Z.of_nat z) ix iy)) (seq 0 4)) (seq 0 4);
      let XMF := map (fun i => sum_v (map (fun j =>                        (* 398-403 *)
                   vmul (nth j XM 0%Qc) (nth i (nth j F []) None)) (seq 0 4))) (seq 0 4) in
      Ok (sum_v (map (fun i => vmul (nth i MY 0%Qc) (nth i XMF None)) (seq 0 4))))  (* 404-406 *)
      (seq 0 iz)
  else undefined_levels iz.

(** ** CachedInterpolation *)

Definition point_fun := list value -> Q -> Q -> Z -> Z -> nat -> outcome (list value).

Record cached := mkCached {
  ci_pts : list (Q * Q);          (* pointsOnXAxis, pointsOnYAxis *)
  ci_x0 : Z; ci_y0 : Z;           (* ReducedInterpolationDomain *)
  ci_inX : Z; ci_inY : Z }.

(** include/fimex/MathUtils.h:54-61 *)
Definition clamp_z (low v high : Z) : Z :=
  if v <? low then low else if v <? high then v else high.

(** src/CachedInterpolation.cc:215-219 *)
Definition clamp_ex (low : Z) (v : Q) (extend high : Z) : Z :=
  clamp_z low ((if 0 <? extend then Qceiling v else Qfloor v) + extend) high.

Definition EXTEND : Z := 2.

(** dereferencing the positions min_max_element returned: past the end for an empty range *)
Definition min_max_values (l : list Q) : outcome (Q * Q) :=
  let '(i, j) := min_max_element qltb l in
  do mi <- rd (nth_error l i); do ma <- rd (nth_error l j); Ok (mi, ma).

(** src/CachedInterpolation.cc:222-253 createReducedDomain *)
Definition create_reduced (pts : list (Q * Q)) (inX inY : Z) : outcome cached :=
  do mmx <- min_max_values (map fst pts);                                  (* 229 *)
  do mmy <- min_max_values (map snd pts);
  let minX := clamp_ex 0 (fst mmx) (- EXTEND) (inX - 1) in                 (* 233-236 *)
  let minY := clamp_ex 0 (fst mmy) (- EXTEND) (inY - 1) in
  let maxX := clamp_ex 0 (snd mmx) EXTEND (inX - 1) in
  let maxY := clamp_ex 0 (snd mmy) EXTEND (inY - 1) in
  if (maxX - minX <? 1) || (maxY - minY <? 1)                              (* 239 *)
  then Ok (mkCached pts 0 0 inX inY)
  else Ok (mkCached (map (fun p => (fst p - inject_Z minX, snd p - inject_Z minY)%Q) pts)
                    minX minY (maxX - minX + 1) (maxY - minY + 1)).        (* 243-252 *)

(** src/CachedInterpolation.cc:173-209 interpolateValues *)
Definition cached_interpolate (func : point_fun) (g : cached) (field : list value)
  : outcome (list value) :=
  let layer := ci_inX g * ci_inY g in
  if layer =? 0 then UB
  else
    let inZ := Z.to_nat (Z.of_nat (length field) / layer) in
    do cols <- omapM (fun p => func field (fst p) (snd p) (ci_inX g) (ci_inY g) inZ) (ci_pts g);
    Ok (concat (map (fun z => map (fun col => nth z col None) cols) (seq 0 inZ))).
