(** Vertical wind from horizontal wind on hybrid levels: mifi_compute_vertical_velocity,
    src/interpolation.c:887-1062.
    Floats are real numbers.  Input arrays are functions of the index; ap and b of the level, ps, zs and the
    grid distances of the horizontal index i + nx*j, and t, u, v of i + nx*j + nx*ny*k.  The temporary arrays
    (map ratios, dp, dlnp, alfa, z, sum, uu, vv) are written in full before they are read and are modelled as
    functions of level and horizontal index.  The result w is an array whose cells hold [None] until they are
    written.  malloc does not fail. *)
From Coq Require Import Reals List Arith.
From Verif Require Import Base.
Import ListNotations.
Local Open Scope nat_scope.

(** 889-890, mifi_constants.h *)
Definition GAS : R := (8.31432 / 0.0289644)%R.
Definition GRAV : R := 9.80665%R.

Section Vert.
Context (nx ny nz : nat) (dx dy : R) (gridDistX gridDistY : nat -> R) (ap b : nat -> R)
        (zs ps : nat -> R) (u v t : nat -> R).

(** 926-944: half levels; [m] is the distance from the lowest half level nz *)
Fixpoint half_up (vals : nat -> R) (bottom : R) (m : nat) : R :=
  match m with
  | O => bottom
  | S m' => (2 * vals (nz - m)%nat - half_up vals bottom m')%R
  end.
Definition ah (k : nat) : R := if k =? 0 then 0%R else half_up ap 0 (nz - k).
Definition bh (k : nat) : R := if k =? 0 then 0%R else half_up b 1 (nz - k).

(** 952-977: dp, dlnp, alfa *)
Definition pm (k ij : nat) : R := (ah k + bh k * ps ij)%R.
Definition dp (k ij : nat) : R :=
  if k =? 0 then ((ah 1 - ah 0) + (bh 1 - bh 0) * ps ij)%R else (pm (k + 1) ij - pm k ij)%R.
Definition dlnp (k ij : nat) : R := if k =? 0 then 0%R else ln (pm (k + 1) ij / pm k ij).
Definition alfa (k ij : nat) : R := if k =? 0 then ln 2 else (1 - pm k ij * dlnp k ij / dp k ij)%R.

Definition cell (k ij : nat) : nat := ij + nx * ny * k.

(** 983-1003: geopotential at the lower boundary of the level [m] levels from the bottom, and of the level *)
Fixpoint below (m ij : nat) : R :=
  match m with
  | O => (zs ij * GRAV)%R
  | S m' => (below m' ij + GAS * t (cell (nz - m) ij) * dlnp (nz - m) ij)%R
  end.
Definition z (k ij : nat) : R := (below (nz - 1 - k) ij + GAS * t (cell k ij) * alfa k ij)%R.

(** 915-924, 1017-1020 *)
Definition hx (ij : nat) : R := (gridDistX ij / dx)%R.
Definition hy (ij : nat) : R := (gridDistY ij / dy)%R.
Definition uu (k ij : nat) : R := (hy ij * u (cell k ij) * dp k ij)%R.
Definition vv (k ij : nat) : R := (hx ij * v (cell k ij) * dp k ij)%R.
(** 1025-1026 *)
Definition div (k ij : nat) : R :=
  (1 / hx ij * (1 / hy ij) *
   (1 / (2 * dx) * (uu k (ij + 1) - uu k (ij - 1)) + 1 / (2 * dy) * (vv k (ij + nx) - vv k (ij - nx))))%R.
(** sum[ij] when level k is reached, 1007-1012, 1033 *)
Fixpoint div_sum (k ij : nat) : R :=
  match k with
  | O | 1 => 0%R
  | S k' => (div_sum k' ij + div k' ij)%R
  end.
(** 1027-1032 *)
Definition w_inner (k ij : nat) : R :=
  ((GAS * t (cell k ij) * (dlnp k ij * div_sum k ij + alfa k ij * div k ij) / dp k ij
    + (1 / hx ij * (1 / (2 * dx)) * (z k (ij + 1) - z k (ij - 1))
       + 1 / hy ij * (1 / (2 * dy)) * (z k (ij + nx) - z k (ij - nx)))) / GRAV)%R.

Definition pos (i j k : nat) : nat := i + nx * (j + ny * k).
(** w[p] = w[q] *)
Definition copy_w (w : list (option R)) (p q : nat) : outcome (list (option R)) :=
  do x <- rd (nth_error w q); wr w p x.

(** one turn of the loop over the levels, 1014-1047 *)
Definition inner_cells (k : nat) (w : list (option R)) : outcome (list (option R)) :=
  ofold (fun w j => ofold (fun w i => wr w (pos i j k) (Some (w_inner k (i + nx * j)))) (seq 1 (nx - 2)) w) (seq 1 (ny - 2)) w.
Definition edge_rows (k : nat) (w : list (option R)) : outcome (list (option R)) :=
  ofold (fun w i => do w <- copy_w w (pos i 0 k) (pos i 0 k + nx);
                    copy_w w (pos i (ny - 1) k) (pos i (ny - 1) k - nx)) (seq 1 (nx - 2)) w.
Definition edge_columns (k : nat) (w : list (option R)) : outcome (list (option R)) :=
  ofold (fun w j => do w <- copy_w w (pos 0 j k) (pos 0 j k + 1);
                    copy_w w (pos (nx - 1) j k) (pos (nx - 1) j k - 1)) (seq 0 ny) w.
Definition level (w : list (option R)) (k : nat) : outcome (list (option R)) :=
  do w <- inner_cells k w; do w <- edge_rows k w; edge_columns k w.

(** 1007-1047; sizes of zero, where the loop limits wrap, are not modelled in detail ([UB]) *)
Definition vertical_velocity (w : list (option R)) : outcome (list (option R)) :=
  if (nx * ny * nz =? 0) then UB
  else
    do w <- ofold (fun w ij => wr w ij (Some 0%R)) (seq 0 (nx * ny)) w;
    ofold level (seq 1 (nz - 1)) w.
End Vert.
