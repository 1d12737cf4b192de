(** Grid definitions as keys of a std::map: src/GridDefinition.cc, include/fimex/GridDefinition.h.
    Doubles are exact rationals; NaN is not modelled. *)
From Coq Require Import NArith ZArith QArith Qround String List Bool.
From Verif Require Import Base SearchModel.
Import ListNotations.
Local Open Scope Q_scope.

(** the members that take part in comparisons, include/fimex/GridDefinition.h *)
Record grid : Type := mkGrid {
  g_proj : string;
  g_xSize : N; g_ySize : N;
  g_xIncr : Q; g_yIncr : Q;
  g_xStart : Q; g_yStart : Q;
  g_lonStart : Q; g_latStart : Q;
  g_res : Q                                          (* lonLatResolution_ *)
}.

(** C fmod: the remainder has the sign of the dividend *)
Definition fmod (x y : Q) : Q :=
  let q := x / y in
  x - y * inject_Z (if Qle_bool 0 q then Qfloor q else Qceiling q).

(** constructor, src/GridDefinition.cc:50-65 *)
Definition make_grid (proj : string) (xSize ySize : N) (xIncr yIncr xStart yStart lonStart latStart res : Q) : grid :=
  mkGrid proj xSize ySize xIncr yIncr xStart yStart (fmod (lonStart + 360) 360) latStart res.

(** src/GridDefinition.cc:67-70 *)
Definition deltaCompare (a b delta : Q) : bool :=
  if Qeq_bool a 0 then Qle_bool (qabs b) delta else Qle_bool (qabs (1 - b / a)) delta.

(** src/GridDefinition.cc:72-87 *)
Definition comparableTo (g rhs : grid) (delta : Q) : bool :=
  if negb (g_xSize g =? g_xSize rhs)%N then false
  else if negb (g_ySize g =? g_ySize rhs)%N then false
  else if negb (deltaCompare (g_xIncr g) (g_xIncr rhs) delta) then false
  else if negb (deltaCompare (g_yIncr g) (g_yIncr rhs) delta) then false
  else if negb (deltaCompare (g_xStart g) (g_xStart rhs) delta) then false
  else if negb (deltaCompare (g_yStart g) (g_yStart rhs) delta) then false
  else true.

(** std::string operator< *)
Definition str_lt (a b : string) : bool := match String.compare a b with Lt => true | _ => false end.
Definition qmax (a b : Q) : Q := if qltb a b then b else a.

(** operator<, src/GridDefinition.cc:102-156 *)
Definition grid_lt (g rhs : grid) : bool :=
  if str_lt (g_proj g) (g_proj rhs) then true
  else if str_lt (g_proj rhs) (g_proj g) then false
  else if (g_xSize g <? g_xSize rhs)%N then true
  else if (g_xSize rhs <? g_xSize g)%N then false
  else if (g_ySize g <? g_ySize rhs)%N then true
  else if (g_ySize rhs <? g_ySize g)%N then false
  else if qltb (g_xIncr g) (g_xIncr rhs) then true
  else if qltb (g_xIncr rhs) (g_xIncr g) then false
  else if qltb (g_yIncr g) (g_yIncr rhs) then true
  else if qltb (g_yIncr rhs) (g_yIncr g) then false
  else if qltb 0 (g_res g) then                                                     (* 129 *)
    let res := qmax (g_res g) (g_res rhs) in
    if qltb (g_lonStart g + res) (g_lonStart rhs) then true
    else if qltb (g_lonStart rhs + res) (g_lonStart g) then false
    else if qltb (g_latStart g + res) (g_latStart rhs) then true
    else if qltb (g_latStart rhs + res) (g_latStart g) then false
    else false
  else
    let delta := (1#20) * (qabs (g_xIncr g) + qabs (g_xIncr rhs) + qabs (g_yIncr g) + qabs (g_yIncr rhs)) / 4 in
    if qltb (g_xStart g + delta) (g_xStart rhs) then true
    else if qltb (g_xStart rhs + delta) (g_xStart g) then false
    else if qltb (g_yStart g + delta) (g_yStart rhs) then true
    else if qltb (g_yStart rhs + delta) (g_yStart g) then false
    else false.
