(** Filling undefined cells: mifi_fill2d_f, mifi_creepfill2d_f, mifi_creepfillval2d_f in
    src/interpolation.c:548-826.  Floats are exact rationals; [None] is an undefined value (NaN, or what
    a division by zero gives).  malloc does not fail. *)
From Coq Require Import NArith ZArith QArith Qcanon List Bool.
From Verif Require Import Base RegridModel.
Import ListNotations.

(** field[i] with an index that may be negative after pointer arithmetic *)
Definition getz {A} (l : list A) (i : Z) : outcome A :=
  if (i <? 0)%Z then UB else rd (nth_error l (Z.to_nat i)).
Definition setz {A} (l : list A) (i : Z) (a : A) : outcome (list A) :=
  if (i <? 0)%Z then UB else wr l (Z.to_nat i) a.

Definition vsub (a b : value) : value :=
  match a, b with Some x, Some y => Some (x - y)%Qc | _, _ => None end.
Definition vmul (a b : value) : value :=
  match a, b with Some x, Some y => Some (x * y)%Qc | _, _ => None end.
Definition qc (z : Z) : Qc := Q2Qc (inject_Z z).
(** division by an integer; by zero is infinite or NaN *)
Definition vdivz (a : value) (n : Z) : value :=
  if (n =? 0)%Z then None else match a with Some x => Some (x / qc n)%Qc | None => None end.
Definition vabs (a : value) : value :=
  match a with Some x => Some (if Qclt_le_dec x 0 then (- x)%Qc else x) | None => None end.

Definition undef (v : value) : bool := match v with None => true | Some _ => false end.
Definition count_undef (l : list value) : N := N.of_nat (length (filter undef l)).
(** the sum of the defined cells, 557-563, 799-805 *)
Definition sum_defined (l : list value) : Qc :=
  fold_left (fun s (v : value) => match v with Some x => (s + x)%Qc | None => s end) l 0%Qc.

(** the inner cells in the order of the loops, 626-633, 735-756.  The pointers start at the second row,
    are moved before each cell and by two at the end of a row: the position is y*nx+x *)
Definition inner (nx ny : nat) : list Z :=
  flat_map (fun y => map (fun x => Z.of_nat (y * nx + x)) (seq 1 (nx - 2))) (seq 1 (ny - 2)).

(** the border cells in the order of the loops, each with the neighbour it is updated from, 660-667, 760-783 *)
Definition border (nx ny : nat) : list (Z * Z) :=
  let x_ := Z.of_nat nx in
  let y_ := Z.of_nat ny in
  (flat_map (fun y => [(Z.of_nat y * x_, Z.of_nat y * x_ + 1);
                       (Z.of_nat y * x_ + (x_ - 1), Z.of_nat y * x_ + (x_ - 2))]) (seq 1 (ny - 2)) ++
   flat_map (fun x => [(Z.of_nat x, x_ + Z.of_nat x);
                       ((y_ - 1) * x_ + Z.of_nat x, (y_ - 1 - 1) * x_ + Z.of_nat x)]) (seq 0 nx))%Z.

(** ** mifi_fill2d_f *)

(** field, weights, errors *)
Definition fill_state := (list value * list Qc * list value)%type.

(** one cell of the relaxation, 628-630 *)
Definition relax (nx : nat) (s : fill_state) (p : Z) : outcome fill_state :=
  let '(f, w, e) := s in
  do a <- getz f (p + 1);
  do b <- getz f (p - 1);
  do c <- getz f (p + Z.of_nat nx);
  do d <- getz f (p - Z.of_nat nx);
  do x <- getz f p;
  let err := vsub (vmul (vadd (vadd (vadd a b) c) d) (Some (Q2Qc (1 # 4)))) x in
  do e' <- setz e p err;
  do wp <- getz w p;
  do f' <- setz f p (vadd x (vmul err (Some wp)));
  Ok (f', w, e').

(** one border cell, 661-662, 665-666 *)
Definition fill_border (s : fill_state) (ts : Z * Z) : outcome fill_state :=
  let '(f, w, e) := s in
  let '(t, src) := ts in
  do a <- getz f src;
  do x <- getz f t;
  do wt <- getz w t;
  do f' <- setz f t (vadd x (vmul (vsub a x) (Some wt)));
  Ok (f', w, e).

(** the convergence test, 636-657: true when some inner cell still changes by more than [crtest]; the
    test leaves the loop over the rows early, which does not change the result *)
Definition not_converged (nx ny : nat) (crtest : value) (s : fill_state) : outcome bool :=
  let '(f, w, e) := s in
  ofold (fun bad p => do ep <- getz e p; do wp <- getz w p;
                      Ok (bad || vlt crtest (vabs (vmul ep (Some wp))))) (inner nx ny) false.

(** the loop, 621-668; [k] rounds are left and [n] is the loop variable *)
Fixpoint fill_loop (k : nat) (n maxLoop : N) (nx ny : nat) (crtest : value) (s : fill_state) : outcome fill_state :=
  match k with
  | O => Ok s
  | S k' =>
      do s1 <- ofold (relax nx) (inner nx ny) s;
      do go <- (if (n <? sub64 maxLoop 5)%N && (n mod 10 =? 0)%N then not_converged nx ny crtest s1 else Ok true);
      if go then
        do s2 <- ofold fill_border (border nx ny) s1;
        fill_loop k' (n + 1) maxLoop nx ny crtest s2
      else Ok s1
  end.

(** mifi_fill2d_f, 548-673: the field and *nChanged, which holds [nc0] before the call *)
Definition fill2d (nx ny : nat) (field : list value) (relaxCrit corrEff : Qc) (maxLoop : N) (nc0 : N)
  : outcome (list value * N) :=
  if (nx * ny =? 0)%nat then Ok (field, nc0)
  else
    let nChanged := count_undef field in
    let nUnchanged := (N.of_nat (nx * ny) - nChanged)%N in
    if ((nUnchanged =? 0) || (nChanged =? 0))%N then Ok (field, nChanged)
    else
      let average := (sum_defined field / qc (Z.of_N nUnchanged))%Qc in
      let dev := fold_left (fun s (v : value) => match v with
                                       | Some x => vadd s (vabs (Some (x - average)%Qc))
                                       | None => s end) field (Some 0%Qc) in
      let crit := vmul (Some relaxCrit) (vdivz dev (Z.of_N nUnchanged)) in
      let f := map (fun v : value => match v with None => Some average | Some _ => v end) field in
      let w0 := map (fun v : value => match v with None => 1%Qc | Some _ => 0%Qc end) field in
      do w <- ofold (fun w p => do x <- getz w p; setz w p (x * corrEff)%Qc) (inner nx ny) w0;   (* 608-612 *)
      do s <- fill_loop (N.to_nat maxLoop) 0 maxLoop nx ny (vmul crit (Some corrEff)) (f, w, repeat None (length field));
      Ok (fst (fst s), nChanged).

(** ** mifi_creepfillval2dImpl_f *)

(** field, weights (char), number of changes (unsigned short), cells changed in this round *)
Definition creep_state := (list value * list Z * list N * N)%type.

Definition to_size_t (z : Z) : Z := (z mod 2 ^ 64)%Z.

(** one inner cell, 737-753 *)
Definition creep_cell (nx : nat) (rep : N) (s : creep_state) (p : Z) : outcome creep_state :=
  let '(f, w, r, ch) := s in
  do rp <- getz r p;
  if (rp <? rep)%N then
    do w1 <- getz w (p + 1);
    do w2 <- getz w (p - 1);
    do w3 <- getz w (p + Z.of_nat nx);
    do w4 <- getz w (p - Z.of_nat nx);
    let wsum := to_size_t (w1 + w2 + w3 + w4) in
    if (wsum =? 0)%Z then Ok s
    else
      do f1 <- getz f (p + 1);
      do f2 <- getz f (p - 1);
      do f3 <- getz f (p + Z.of_nat nx);
      do f4 <- getz f (p - Z.of_nat nx);
      do x <- getz f p;
      let v := vadd x (vadd (vadd (vadd (vmul (Some (qc w1)) f1) (vmul (Some (qc w2)) f2))
                                  (vmul (Some (qc w3)) f3)) (vmul (Some (qc w4)) f4)) in
      do f' <- setz f p (vdivz v (to_size_t (1 + wsum)));
      do w' <- setz w p 1%Z;
      do r' <- setz r p (rp + 1)%N;
      Ok (f', w', r', (ch + 1)%N)
  else Ok s.

(** the while loop, 723-757; at most [k] = nUnchanged rounds *)
Fixpoint creep_loop (k : nat) (nx ny : nat) (rep : N) (s : creep_state) : outcome creep_state :=
  match k with
  | O => Ok s
  | S k' =>
      let '(f, w, r, ch) := s in
      if (ch =? 0)%N then Ok s
      else do s' <- ofold (creep_cell nx rep) (inner nx ny) (f, w, r, 0%N); creep_loop k' nx ny rep s'
  end.

(** one border cell, 761-765 and alike *)
Definition creep_border (rep : N) (s : creep_state) (ts : Z * Z) : outcome creep_state :=
  let '(f, w, r, ch) := s in
  let '(t, src) := ts in
  do rt <- getz r t;
  if (rt <? rep)%N then
    do a <- getz f src;
    do ws <- getz w src;
    do x <- getz f t;
    do f' <- setz f t (vdivz (vadd x (vmul a (Some (qc ws)))) (1 + ws));
    do w' <- setz w t 1%Z;
    Ok (f', w', r, ch)
  else Ok s.

(** 675-788 *)
Definition creepfill_impl (nx ny : nat) (field : list value) (defaultVal : value) (rep : N) (setWeight : Z)
    (nChanged : N) : outcome (list value) :=
  if (nx * ny =? 0)%nat then Ok field
  else
    let nUnchanged := (N.of_nat (nx * ny) - nChanged)%N in
    if ((nUnchanged =? 0) || (nChanged =? 0))%N then Ok field
    else
      let f := map (fun v : value => match v with None => defaultVal | Some _ => v end) field in
      let w := map (fun v : value => match v with None => 0%Z | Some _ => setWeight end) field in
      let r := map (fun v : value => match v with None => 0%N | Some _ => rep end) field in
      do s <- creep_loop (N.to_nat nUnchanged) nx ny rep (f, w, r, 1%N);
      do s' <- oiter (N.to_nat rep) (ofold (creep_border rep) (border nx ny)) s;
      let '(f', _, _, _) := s' in Ok f'.

(** mifi_creepfill2d_f, 790-811 *)
Definition creepfill2d (nx ny : nat) (field : list value) (rep : N) (setWeight : Z) (nc0 : N)
  : outcome (list value * N) :=
  if (nx * ny =? 0)%nat then Ok (field, nc0)
  else
    let nChanged := count_undef field in
    let nUnchanged := (N.of_nat (nx * ny) - nChanged)%N in
    if (nUnchanged =? 0)%N then Ok (field, nChanged)
    else
      do f <- creepfill_impl nx ny field (Some (sum_defined field / qc (Z.of_N nUnchanged))%Qc) rep setWeight nChanged;
      Ok (f, nChanged).

(** mifi_creepfillval2d_f, 813-826 *)
Definition creepfillval2d (nx ny : nat) (field : list value) (defaultVal : value) (rep : N) (setWeight : Z) (nc0 : N)
  : outcome (list value * N) :=
  if (nx * ny =? 0)%nat then Ok (field, nc0)
  else
    let nChanged := count_undef field in
    do f <- creepfill_impl nx ny field defaultVal rep setWeight nChanged;
    Ok (f, nChanged).
