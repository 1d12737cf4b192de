(** Aggregation of files: src/AggregationReader.cc.
    Dimensions, variables with shapes, and the answers of the files' readers are modelled; attributes
    and data types are not.  A file answers a record request (getDataSlice(name, pos)) and a request
    for a part (getDataSlice(name, SliceBuilder)) with a list of numbers. *)
From Coq Require Import List String Arith ZArith Bool.
From Verif Require Import Base StdMap.
Import ListNotations.

Record dim := { d_name : string; d_len : nat; d_unlim : bool }.
Definition part := list (string * (nat * nat)).
Record file := {
  f_dims : list dim;
  f_vars : list (string * list string);
  f_get : string -> nat -> list Z;
  f_part : string -> part -> list Z
}.

(** the aggregation types, lines 47-58; AGG_JOIN_NEW has the name of the new dimension and the set of
    variables to join (members joinNewDim and joinVars, set by NcmlAggregationReader) *)
Inductive kind := JoinExisting | JoinNew (dimension : string) (vars : list string) | Union.

(** the members *)
Record agg := {
  a_dims : list dim;
  a_vars : list (string * list string);
  a_join : list string;                  (** joinVars *)
  a_union : smap nat;                    (** unionReaders_ *)
  a_pos : list nat;                      (** readerUdimPos_ *)
  a_coords : list string;                (** joinCoordValues *)
  a_files : list file                    (** readers_ *)
}.

Definition mem (n : string) (l : list string) : bool := existsb (String.eqb n) l.
(** CDM::getDimension, hasDimension, CDM.cc:263-276 *)
Definition get_dim (ds : list dim) (n : string) : option dim := find (fun d => String.eqb n (d_name d)) ds.
Definition has_dim (ds : list dim) (n : string) : bool := match get_dim ds n with Some _ => true | None => false end.
Definition get_shape (vs : list (string * list string)) (n : string) : option (list string) :=
  option_map snd (find (fun v => String.eqb n (fst v)) vs).
Definition has_var (vs : list (string * list string)) (n : string) : bool :=
  match get_shape vs n with Some _ => true | None => false end.
(** CDM::getUnlimitedDim, hasUnlimitedDim, CDM.cc:352-370 *)
Definition unlim (ds : list dim) : option dim := find d_unlim ds.
Definition has_unlim (ds : list dim) (shape : list string) : bool :=
  match unlim ds with None => false | Some u => mem (d_name u) shape end.
(** CDM::addDimension, CDM.cc:253-261 *)
Definition add_dim (ds : list dim) (d : dim) : outcome (list dim) :=
  if has_dim ds (d_name d) then Throw else Ok (ds ++ [d]).
(** CDM::addVariable, CDM.cc:145-154 *)
Definition add_var (vs : list (string * list string)) (v : string * list string) : outcome (list (string * list string)) :=
  if has_var vs (fst v) then Throw else Ok (vs ++ [v]).
(** getDimension(name).setLength(l) *)
Definition set_len (ds : list dim) (n : string) (l : nat) : list dim :=
  map (fun d => if String.eqb n (d_name d) then {| d_name := d_name d; d_len := l; d_unlim := d_unlim d |} else d) ds.

(** extendJoinedUnLimDimBy, 160-179; the coordinate values are tokenized, [None] is an empty string *)
Definition extend (len : nat) (coords : option (list string)) (a : agg) : outcome agg :=
  let total := last (a_pos a) 0 + len in
  let dims := match unlim (a_dims a) with Some u => set_len (a_dims a) (d_name u) total | None => a_dims a end in
  do cs <- match coords with
           | None => Ok (a_coords a)
           | Some l => if Nat.eqb (List.length l) len then Ok (a_coords a ++ l) else Throw
           end;
  Ok {| a_dims := dims; a_vars := a_vars a; a_join := a_join a; a_union := a_union a;
        a_pos := a_pos a ++ [total]; a_coords := cs; a_files := a_files a |}.

Definition with_dims a ds := {| a_dims := ds; a_vars := a_vars a; a_join := a_join a; a_union := a_union a;
  a_pos := a_pos a; a_coords := a_coords a; a_files := a_files a |}.
Definition with_vars a vs := {| a_dims := a_dims a; a_vars := vs; a_join := a_join a; a_union := a_union a;
  a_pos := a_pos a; a_coords := a_coords a; a_files := a_files a |}.
Definition with_join a j := {| a_dims := a_dims a; a_vars := a_vars a; a_join := j; a_union := a_union a;
  a_pos := a_pos a; a_coords := a_coords a; a_files := a_files a |}.
Definition with_union a u := {| a_dims := a_dims a; a_vars := a_vars a; a_join := a_join a; a_union := u;
  a_pos := a_pos a; a_coords := a_coords a; a_files := a_files a |}.

(** addFirstReader, 106-158 *)
Definition add_first (k : kind) (f : file) (coords : option (list string)) : outcome agg :=
  let a0 := {| a_dims := f_dims f; a_vars := f_vars f; a_join := []; a_union := []; a_pos := [];
               a_coords := []; a_files := [f] |} in
  do a1 <- match k with
    | JoinExisting =>
        match unlim (f_dims f) with
        | Some u =>
            extend (d_len u) coords
              (with_join a0 (map fst (filter (fun v => has_unlim (f_dims f) (snd v)) (f_vars f))))
        | None => extend 0 None a0
        end
    | JoinNew jd jv =>
        let ds := match unlim (f_dims f) with
                  | Some u => map (fun d => if String.eqb (d_name u) (d_name d)
                                            then {| d_name := d_name d; d_len := d_len d; d_unlim := false |} else d) (f_dims f)
                  | None => f_dims f
                  end in
        do ds' <- add_dim ds {| d_name := jd; d_len := 0; d_unlim := true |};
        let vs := map (fun v => if mem (fst v) jv then (fst v, snd v ++ [jd]) else v) (f_vars f) in
        extend 1 coords (with_vars (with_dims (with_join a0 jv) ds') vs)
    | Union => Ok a0
    end;
  Ok (with_union a1 (fold_left (fun m v => if mem (fst v) (a_join a1) then m else sput (fst v) 0 m) (a_vars a1) [])).

(** the loop 233-243 over the shape of a new joined variable: adds missing dimensions, returns whether
    all lengths agree *)
Definition join_dims (f : file) (uname : string) (st : list dim * bool) (n : string) : outcome (list dim * bool) :=
  let '(ds, ok) := st in
  if String.eqb n uname then Ok st
  else match get_dim (f_dims f) n with
       | None => Throw
       | Some rd =>
           match get_dim ds n with
           | None => do ds' <- add_dim ds rd; Ok (ds', ok)
           | Some ad => Ok (ds, ok && Nat.eqb (d_len ad) (d_len rd))
           end
       end.
(** 227-252 *)
Definition join_var (f : file) (uname : string) (a : agg) (v : string * list string) : outcome agg :=
  if has_var (a_vars a) (fst v) then Ok a
  else if has_unlim (f_dims f) (snd v) then
    do (ds, ok) <- ofold (join_dims f uname) (snd v) (a_dims a, true);
    let a := with_dims a ds in
    if ok : bool then
      do vs <- add_var (a_vars a) v;
      Ok (with_join (with_vars a vs) (a_join a ++ [fst v]))
    else Ok a
  else Ok a.

(** 290-309 *)
Definition union_dims (f : file) (st : list dim * bool) (n : string) : outcome (list dim * bool) :=
  let '(ds, ok) := st in
  match get_dim (f_dims f) n with
  | None => Throw
  | Some rd =>
      match get_dim ds n with
      | Some ad => Ok (ds, ok && Bool.eqb (d_unlim ad) (d_unlim rd) && Nat.eqb (d_len rd) (d_len ad))
      | None => if d_unlim rd && match unlim ds with Some _ => true | None => false end then Ok (ds, false)
                else do ds' <- add_dim ds rd; Ok (ds', ok)
      end
  end.
(** 277-315 *)
Definition union_var (f : file) (idx : nat) (a : agg) (v : string * list string) : outcome agg :=
  if mem (fst v) (a_join a) then Ok a
  else if smem (fst v) (a_union a) then Ok a
  else
    do (ds, ok) <- ofold (union_dims f) (snd v) (a_dims a, true);
    let a := with_dims a ds in
    if ok : bool then
      do vs <- add_var (a_vars a) v;
      Ok (with_vars (with_union a (sput (fst v) idx (a_union a))) vs)
    else Ok a.

(** addOtherReader, 198-316 (addReader, 91-104, pushes the reader first) *)
Definition add_other (k : kind) (a : agg) (f : file) (coords : option (list string)) : outcome agg :=
  let a := {| a_dims := a_dims a; a_vars := a_vars a; a_join := a_join a; a_union := a_union a;
              a_pos := a_pos a; a_coords := a_coords a; a_files := a_files a ++ [f] |} in
  do a1 <- match k with
    | JoinExisting =>
        match unlim (f_dims f) with
        | None => extend 0 None a
        | Some ru =>
            match unlim (a_dims a) with
            | Some au =>
                if negb (String.eqb (d_name ru) (d_name au)) then extend 0 None a
                else do a' <- ofold (join_var f (d_name ru)) (f_vars f) a; extend (d_len ru) coords a'
            | None =>
                do ds <- add_dim (a_dims a) ru;
                do a' <- ofold (join_var f (d_name ru)) (f_vars f) (with_dims a ds); extend (d_len ru) coords a'
            end
        end
    | JoinNew jd jv =>
        do a' <- ofold (fun a v => if negb (has_var (a_vars a) (fst v)) && mem (fst v) (a_join a)
                                   then do vs <- add_var (a_vars a) (fst v, snd v ++ [jd]); Ok (with_vars a vs)
                                   else Ok a) (f_vars f) a;
        extend 1 coords a'
    | Union => Ok a
    end;
  ofold (union_var f (List.length (a_files a) - 1)) (f_vars f) a1.

Definition aggregate (k : kind) (first : file * option (list string)) (others : list (file * option (list string))) : outcome agg :=
  do a <- add_first k (fst first) (snd first);
  ofold (fun a fc => add_other k a (fst fc) (snd fc)) others a.

(** findJoinReader, 346-358: std::upper_bound gives the first entry above [u]; the new position is
    relative to the entry before *)
Fixpoint upper_bound (l : list nat) (u : nat) : nat :=
  match l with [] => 0 | x :: l' => if u <? x then 0 else S (upper_bound l' u) end.
Definition find_join (pos : list nat) (u : nat) : option (nat * nat) :=
  let i := upper_bound pos u in
  if i =? List.length pos then None
  else Some (i, u - match i with O => 0 | S j => nth j pos 0 end).

Fixpoint list_eqb (a b : list string) : bool :=
  match a, b with
  | [], [] => true
  | x :: a', y :: b' => String.eqb x y && list_eqb a' b'
  | _, _ => false
  end.
(** all dimensions of the shape satisfying [P] have equal length in the file and the aggregation; a
    dimension that is missing in the aggregation is an exception *)
Fixpoint same_lengths (ads rds : list dim) (skip : string -> bool) (shape : list string) : outcome bool :=
  match shape with
  | [] => Ok true
  | n :: s => if skip n then same_lengths ads rds skip s
              else match get_dim ads n, get_dim rds n with
                   | Some ad, Some rd => if Nat.eqb (d_len ad) (d_len rd) then same_lengths ads rds skip s else Ok false
                   | _, _ => Throw
                   end
  end.
(** checkJoinExistingDims, 360-382 *)
Definition check_existing (a : agg) (f : file) (v : string) : outcome bool :=
  match get_shape (f_vars f) v with
  | None => Ok false
  | Some rs =>
      match get_shape (a_vars a) v with
      | None => Throw
      | Some s => if list_eqb rs s
                  then same_lengths (a_dims a) (f_dims f)
                         (fun n => match unlim (f_dims f) with Some u => String.eqb n (d_name u) | None => false end) rs
                  else Ok false
      end
  end.
(** checkJoinNewDims, 384-406 *)
Definition check_new (a : agg) (f : file) (v : string) : outcome bool :=
  match get_shape (f_vars f) v with
  | None => Ok false
  | Some rs =>
      match get_shape (a_vars a) v with
      | None => Throw
      | Some s => if list_eqb rs (removelast s)
                  then same_lengths (a_dims a) (f_dims f) (fun _ => false) rs
                  else Ok false
      end
  end.

(** product of lengths over a shape without the dimensions [skip] *)
Fixpoint volume (ds : list dim) (skip : string -> bool) (shape : list string) : outcome nat :=
  match shape with
  | [] => Ok 1
  | n :: s => do r <- volume ds skip s;
              if skip n then Ok r else match get_dim ds n with Some d => Ok (d_len d * r) | None => Throw end
  end.
Definition is_udim (ds : list dim) (n : string) : bool :=
  match unlim ds with Some u => String.eqb n (d_name u) | None => false end.

(** the whole variable of a file: SliceBuilder(cdm, name), all of every dimension *)
Definition whole (f : file) (shape : list string) : part :=
  map (fun n => (n, (0, match get_dim (f_dims f) n with Some d => d_len d | None => 0 end))) shape.

(** getDataSlice(varName, unLimDimPos), 418-467; [None] is a null pointer *)
Definition get_slice (k : kind) (fill : Z) (a : agg) (v : string) (u : nat) : outcome (option (list Z)) :=
  match get_shape (a_vars a) v with
  | None => Throw
  | Some shape =>
      if mem v (a_join a) then
        match find_join (a_pos a) u with
        | None => Ok None
        | Some (i, l) =>
            match nth_error (a_files a) i with
            | None => UB
            | Some f =>
                match k with
                | JoinExisting =>
                    do ok <- check_existing a f v;
                    if ok : bool then Ok (Some (f_get f v l))
                    else do n <- volume (a_dims a) (is_udim (a_dims a)) shape; Ok (Some (repeat fill n))
                | JoinNew _ _ =>
                    do ok <- check_new a f v;
                    if ok : bool then Ok (Some (f_part f v (whole f (match get_shape (f_vars f) v with Some s => s | None => [] end))))
                    else do n <- volume (a_dims a) (fun _ => false) shape; Ok (Some (repeat fill n))
                | Union => Ok None
                end
            end
        end
      else match sfind v (a_union a) with
           | None => Ok None
           | Some i => do f <- rd (nth_error (a_files a) i); Ok (Some (f_get f v u))
           end
  end.

(** getDataSlice(varName, sb), 469-547 *)
Definition block (k : kind) (fill : Z) (a : agg) (v : string) (p : part) (uname : string) (n : nat) (u : nat) : outcome (list Z) :=
  match find_join (a_pos a) u with
  | None => Ok (repeat fill n)
  | Some (i, l) =>
      do f <- rd (nth_error (a_files a) i);
      do d <- match k with
              | JoinExisting =>
                  do ok <- check_existing a f v;
                  if ok : bool
                  then Ok (f_part f v (map (fun e => if String.eqb (fst e) uname then (fst e, (l, 1)) else e) p))
                  else Ok []
              | JoinNew _ _ =>
                  do ok <- check_new a f v;
                  if ok : bool then Ok (f_part f v (filter (fun e => negb (String.eqb (fst e) uname)) p)) else Ok []
              | Union => Ok []
              end;
      if (List.length d =? 0)%nat then Ok (repeat fill n) else Ok d
  end.
Definition get_part (k : kind) (fill : Z) (a : agg) (v : string) (p : part) : outcome (option (list Z)) :=
  match get_shape (a_vars a) v with
  | None => Throw
  | Some _ =>
      if mem v (a_join a) then
        match unlim (a_dims a) with
        | None => UB
        | Some u =>
            let n := fold_left (fun n e => if String.eqb (fst e) (d_name u) then n else n * snd (snd e)) p 1 in
            let '(ustart, usize) := fold_left (fun s e => if String.eqb (fst e) (d_name u) then snd e else s) p (0, 0) in
            if (usize =? 0) || (n =? 0) then Ok (Some [])
            else do bs <- omapM (fun i => block k fill a v p (d_name u) n (ustart + i)) (seq 0 usize); Ok (Some (List.concat bs))
        end
      else match sfind v (a_union a) with
           | None => Ok None
           | Some i => do f <- rd (nth_error (a_files a) i); Ok (Some (f_part f v p))
           end
  end.
