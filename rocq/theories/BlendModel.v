(** Merging of two fields: src/CDMOverlay.cc, src/CDMBorderSmoothing.cc, src/CDMBorderSmoothing_Linear.cc *)
From Coq Require Import List Arith ZArith Bool Reals.
From Verif Require Import Base IndexSpec.
Import ListNotations.

(** ** overlay *)
Section Overlay.
  (** any type of values, with the test for nan and the comparison == *)
  Context {A : Type} (isnan : A -> bool) (eqb : A -> A -> bool).

  (** one cell, CDMOverlay.cc:79-84 *)
  Definition overlay_cell (fillT fillB top base : A) : A :=
    let b := if negb (isnan top || eqb top fillT) then top else base in
    if isnan b || eqb b fillB then fillT else b.
  (** overlayDataSlices, 72-87: the loop runs over the base, the top is read without a check of its size *)
  Fixpoint overlay_slices (fillT fillB : A) (top base : list A) : outcome (list A) :=
    match base with
    | [] => Ok []
    | b :: base' =>
        match top with
        | [] => UB
        | t :: top' => do r <- overlay_slices fillT fillB top' base'; Ok (overlay_cell fillT fillB t b :: r)
        end
    end.
  (** the scaled path, 147-151 *)
  Fixpoint overlay_scaled (top base : list A) : outcome (list A) :=
    match base with
    | [] => Ok []
    | b :: base' =>
        match top with
        | [] => UB
        | t :: top' => do r <- overlay_scaled top' base'; Ok ((if negb (isnan t) then t else b) :: r)
        end
    end.
End Overlay.

(** ** border smoothing *)
(** size_t *)
Definition u64 (z : Z) : Z := (z mod 2 ^ 64)%Z.
Definition dist (dx dy : Z) : R := sqrt (IZR dx * IZR dx + IZR dy * IZR dy).

(** the weight of the outer value in CDMBorderSmoothing_Linear::operator(), CDMBorderSmoothing_Linear.cc:43-87:
    [sx], [sy] the sizes, [tw] the transition width, [b] the border width, [x], [y] the position.
    The result [None] is "return valueO", [Some 0] stands for "return valueI"; the difference of the
    two values is looked at in [smooth]. *)
Definition alpha (sx sy tw b x y : Z) : option R :=
  if ((sx =? 0) || (sy =? 0))%Z then None
  else
    let xmin1 := b in let xmax1 := u64 (b + tw) in
    let ymin1 := b in let ymax1 := u64 (b + tw) in
    let xmax2 := u64 (sx - b) in let xmin2 := u64 (xmax2 - tw) in
    let ymax2 := u64 (sy - b) in let ymin2 := u64 (ymax2 - tw) in
    if ((x <? xmin1) || (x >=? xmax2) || (y <? ymin1) || (y >=? ymax2))%Z then None
    else if ((x >=? xmax1) && (x <? xmin2) && (y >=? ymax1) && (y <? ymin2))%Z then Some 0%R
    else
      let a :=
        if (x <? xmax1)%Z then
          if (y <? ymax1)%Z then dist (u64 (xmax1 - x)) (u64 (ymax1 - y))
          else if (y >=? ymin2)%Z then dist (u64 (xmax1 - x)) (u64 (y - ymin2))
          else IZR (u64 (xmax1 - x))
        else if (x >=? xmin2)%Z then
          if (y <? ymax1)%Z then dist (u64 (x - xmin2)) (u64 (ymax1 - y))
          else if (y >=? ymin2)%Z then dist (u64 (x - xmin2)) (u64 (y - ymin2))
          else IZR (u64 (x - xmin2))
        else if (y <? ymax1)%Z then IZR (u64 (ymax1 - y))
        else if (y >=? ymin2)%Z then IZR (u64 (y - ymin2))
        else 0%R in
      let a := (a / IZR tw)%R in
      Some (if Rlt_dec 1 a then 1 else if Rlt_dec a 0 then 0 else a)%R.
Definition smooth (sx sy tw b x y : Z) (inner outer : R) : R :=
  match alpha sx sy tw b x y with
  | None => outer
  | Some a => (inner + a * (outer - inner))%R
  end.

(** CDMBorderSmoothing_LinearFactory, 91-97, with the int parameters of createSmoothingFactory
    (CDMBorderSmoothing.cc:187-190) converted to size_t *)
Definition factory (transition border : Z) : outcome (Z * Z) :=
  if (u64 transition =? 0)%Z then Throw else Ok (u64 transition, u64 border).

(** CDMBorderSmoothing::getDataSlice, CDMBorderSmoothing.cc:136-167; undefined is [None] *)
Definition merge_cell (use_outer : bool) (sm : nat -> nat -> R -> R -> R) (x y : nat) (inner outer : option R) : option R :=
  match inner with
  | None => if use_outer then outer else None
  | Some vi => match outer with None => Some vi | Some vo => Some (sm x y vi vo) end
  end.
(** the increment, 153-166: [None] if all positions are done *)
Fixpoint incr (dims cur : list nat) : option (list nat) :=
  match dims, cur with
  | d :: dims', c :: cur' => if d <=? c + 1 then option_map (cons 0%nat) (incr dims' cur') else Some ((c + 1)%nat :: cur')
  | _, _ => None
  end.
Fixpoint merge_loop (fuel : nat) (use_outer : bool) (sm : nat -> nat -> R -> R -> R) (dims : list nat) (ix iy : nat)
    (inner : list (option R)) (cur : list nat) (outer : list (option R)) : outcome (list (option R)) :=
  match fuel with
  | O => Hang
  | S n =>
      let pos := lin dims cur in
      do vi <- rd (nth_error inner pos);
      do vo <- rd (nth_error outer pos);
      do x <- rd (nth_error cur ix);
      do y <- rd (nth_error cur iy);
      let outer' := upd outer pos (merge_cell use_outer sm x y vi vo) in
      match incr dims cur with
      | None => Ok outer'
      | Some cur' => merge_loop n use_outer sm dims ix iy inner cur' outer'
      end
  end.
(** the whole slice; [ix], [iy] are the places of x and y among the dimensions, [None] if the variable
    has no such dimension: dimSizes[-1], 134 *)
Definition merge_slice (use_outer : bool) (tw b : Z) (dims : list nat) (ix iy : option nat) (inner outer : list (option R)) : outcome (list (option R)) :=
  match dims with
  | [] => Ok inner
  | d :: _ =>
      do jx <- rd ix;
      do jy <- rd iy;
      do sx <- rd (nth_error dims jx);
      do sy <- rd (nth_error dims jy);
      if d =? 0 then Ok outer
      else merge_loop (S (cells dims)) use_outer
             (fun x y vi vo => smooth (Z.of_nat sx) (Z.of_nat sy) tw b (Z.of_nat x) (Z.of_nat y) vi vo)
             dims jx jy inner (map (fun _ => 0%nat) dims) outer
  end.
