(** Loops over groups of arrays: include/fimex/ArrayLoop.h and src/ArrayLoop.cc.
    Lengths and strides are natural numbers; the positions in the arrays are size_t (reduced modulo
    2^64), and the step back at the end of a dimension goes through an int as in the code. *)
From Coq Require Import List String Arith ZArith Bool.
From Verif Require Import Base.
Import ListNotations.

(** ArrayDims, ArrayLoop.h:16-75 *)
Record adims := { a_names : list string; a_lens : list nat; a_deltas : list nat; a_shared : list bool }.
Definition empty_dims : adims := {| a_names := []; a_lens := []; a_deltas := []; a_shared := [] |}.

(** ArrayDims::add, ArrayLoop.cc:84-95; delta_.back() and length_.back() of an empty vector are not
    used there *)
Definition add_dim (a : adims) (name : string) (len : nat) : outcome adims :=
  if len =? 0 then Throw
  else Ok {| a_names := a_names a ++ [name]; a_lens := a_lens a ++ [len];
             a_deltas := a_deltas a ++ [match a_lens a with [] => 1 | _ => last (a_deltas a) 0 * last (a_lens a) 0 end];
             a_shared := a_shared a ++ [true] |}.

(** the constructor, 66-82: the first length and the lengths before the last are checked.
    [go] is the loop 77-80; [prev] is length_[i-1] *)
Fixpoint strides (d prev : nat) (rest : list nat) : outcome (list nat) :=
  match rest with
  | [] => Ok []
  | l :: rest' => if prev =? 0 then Throw else do r <- strides (d * prev) l rest'; Ok (d * prev :: r)
  end.
Definition make_dims (names : list string) (lens : list nat) : outcome adims :=
  if negb (List.length names =? List.length lens) then Throw
  else match lens with
       | [] => Ok {| a_names := names; a_lens := lens; a_deltas := []; a_shared := [] |}
       | l :: rest => if l =? 0 then Throw
                      else do ds <- strides 1 l rest;
                           Ok {| a_names := names; a_lens := lens; a_deltas := 1 :: ds; a_shared := map (fun _ => true) lens |}
       end.

(** dim_index, 103-110; INVALID_SIZE is [None] *)
Fixpoint index_of (n : string) (l : list string) : option nat :=
  match l with
  | [] => None
  | x :: l' => if String.eqb n x then Some 0 else option_map S (index_of n l')
  end.
(** set_length, 97-101: the strides are not recomputed *)
Definition set_length (a : adims) (name : string) (len : nat) : outcome adims :=
  match index_of name (a_names a) with
  | None => Ok a
  | Some i => if len =? 0 then Throw
              else Ok {| a_names := a_names a; a_lens := upd (a_lens a) i len; a_deltas := a_deltas a; a_shared := a_shared a |}
  end.
(** set_not_shared, 112-116 *)
Definition set_not_shared (a : adims) (name : string) : adims :=
  match index_of name (a_names a) with
  | None => a
  | Some i => {| a_names := a_names a; a_lens := a_lens a; a_deltas := a_deltas a; a_shared := upd (a_shared a) i false |}
  end.
Definition rank (a : adims) : nat := List.length (a_lens a).
(** volume, 126-132 *)
Definition volume (a : adims) : nat := match a_lens a with [] => 1 | _ => last (a_deltas a) 0 * last (a_lens a) 0 end.

(** ArrayGroup, ArrayLoop.h:93-158: the names and lengths of the group's dimensions, the arrays with
    their dim_index_map, sharedDims_ *)
Record group := { g_names : list string; g_lens : list nat; g_arrays : list (adims * list (option nat)); g_shared : option nat }.
Definition empty_group : group := {| g_names := []; g_lens := []; g_arrays := []; g_shared := None |}.
(** minimizeShared, 216-222; sharedVolume_ is the product of the first sharedDims_ lengths *)
Definition minimize (s : option nat) (n : nat) : option nat :=
  match s with None => Some n | Some x => if n <? x then Some n else Some x end.

(** one turn of the loop in ArrayGroup::add, 243-277: the group without the new array, and the map of
    the new array *)
Definition add_one (a : adims) (st : group * list (option nat)) (j : nat) : outcome (group * list (option nat)) :=
  let '(g, m) := st in
  do sh <- rd (nth_error (a_shared a) j);
  if negb sh then
    Ok ({| g_names := g_names g; g_lens := g_lens g; g_arrays := g_arrays g; g_shared := minimize (g_shared g) j |}, m)
  else
    do len <- rd (nth_error (a_lens a) j);
    do name <- rd (nth_error (a_names a) j);
    match index_of name (g_names g) with
    | Some i =>
        do gl <- rd (nth_error (g_lens g) i);
        if negb (len =? gl) then Throw
        else Ok ({| g_names := g_names g; g_lens := g_lens g; g_arrays := g_arrays g;
                    g_shared := if i =? j then g_shared g else minimize (g_shared g) (Nat.min j i) |},
                 upd m i (Some j))
    | None =>
        Ok ({| g_names := g_names g ++ [name]; g_lens := g_lens g ++ [len];
               g_arrays := map (fun am => (fst am, snd am ++ [None])) (g_arrays g);
               g_shared := match g_arrays g with [] => g_shared g | _ => minimize (g_shared g) j end |},
            m ++ [Some j])
    end.
(** ArrayGroup::add, 238-280 *)
Definition add_array (g : group) (a : adims) : outcome group :=
  do (g', m) <- ofold (add_one a) (seq 0 (rank a)) (g, repeat None (List.length (g_lens g)));
  Ok {| g_names := g_names g'; g_lens := g_lens g'; g_arrays := g_arrays g' ++ [(a, m)]; g_shared := minimize (g_shared g') (rank a) |}.
Definition make_group (l : list adims) : outcome group := ofold add_array l empty_group.

Definition shared_dims (g : group) : nat := match g_shared g with Some n => n | None => 0 end.
Definition shared_volume (g : group) : nat := fold_right Nat.mul 1 (firstn (shared_dims g) (g_lens g)).
(** ArrayMap::delta and ArrayDims::delta, ArrayLoop.h:43-44, 98-99 *)
Definition delta (am : adims * list (option nat)) (i : nat) : nat :=
  match nth i (snd am) None with None => 0 | Some j => nth j (a_deltas (fst am)) 0 end.

(** conversion of -(length-1) (size_t) to int *)
Definition to_int (z : Z) : Z := ((z + 2 ^ 31) mod 2 ^ 32 - 2 ^ 31)%Z.
Definition W64 : Z := (2 ^ 64)%Z.

(** Loop::next, ArrayLoop.h:188-207, on the dimensions from sharedDims(): lengths, strides of the
    arrays, positions, positions in the arrays; the result is false if the carry leaves the last
    dimension *)
Definition move (ds : list nat) (step : Z) (idx : list Z) : list Z :=
  map (fun di => ((snd di + Z.of_nat (fst di) * step) mod W64)%Z) (combine ds idx).
Fixpoint next (lens : list nat) (deltas : list (list nat)) (pos : list nat) (idx : list Z) : list nat * list Z * bool :=
  match lens, deltas, pos with
  | l :: lens', d :: deltas', p :: pos' =>
      if p + 1 =? l then
        let '(pos'', idx', more) := next lens' deltas' pos' (move d (to_int (- (Z.of_nat l - 1))) idx) in
        (0 :: pos'', idx', more)
      else (p + 1 :: pos', move d 1 idx, true)
  | _, _, _ => (pos, idx, false)
  end.
(** the dimensions of the loop and the strides in them *)
Definition outer_lens (g : group) : list nat := skipn (shared_dims g) (g_lens g).
Definition outer_deltas (g : group) : list (list nat) :=
  map (fun i => map (fun am => delta am i) (g_arrays g)) (seq (shared_dims g) (List.length (g_lens g) - shared_dims g)).
(** the positions in the arrays at every turn of  do { .. } while (loop.next()) *)
Fixpoint turns (fuel : nat) (lens : list nat) (deltas : list (list nat)) (pos : list nat) (idx : list Z) : outcome (list (list Z)) :=
  match fuel with
  | O => Hang
  | S n => let '(pos', idx', more) := next lens deltas pos idx in
           if more : bool then do r <- turns n lens deltas pos' idx'; Ok (idx :: r) else Ok [idx]
  end.
Definition loop (fuel : nat) (g : group) : outcome (list (list Z)) :=
  turns fuel (outer_lens g) (outer_deltas g) (map (fun _ => 0) (outer_lens g)) (map (fun _ => 0%Z) (g_arrays g)).
