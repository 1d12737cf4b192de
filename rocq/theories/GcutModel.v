(** The program fiGribCut: src/binSrc/fiGribCut.cc.  Numbers are exact.  A message of the library grib_api is
    a record of the keys in use.  Left out: the texts written to the error stream, --debug, the packing of
    the values. *)
From Coq Require Import ZArith NArith QArith String List Bool.
From Verif Require Import Base SliceModel.
Import ListNotations.
Local Open Scope nat_scope.

(** ** A range of a regular axis *)
Definition at_index (start incr : Q) (i : nat) : Q := (start + inject_Z (Z.of_nat i) * incr)%Q.
Definition margin : Q := 1 # 100000.
Definition lt (a b : Q) : bool := negb (Qle_bool b a).

(** the last index with a property, in the way of the loop: 0 if there is none *)
Definition position (test : nat -> bool) (n : nat) : nat :=
  fold_left (fun p i => if test i then i else p) (seq 0 n) 0.

(** findFirstLastIndex, lines 84-115.  Simplified: an empty axis, where n - 1 is 2^64 - 1, is given by 0. *)
Definition first_last (start incr : Q) (n : nat) (first last : Q) : outcome (nat * nat) :=
  let up := lt 0 incr in
  let first' := if up then (first - margin)%Q else (first + margin)%Q in
  let last' := (last + margin)%Q in
  if (if up then lt last' first' else lt first' last') then Throw
  else
    let f := position (fun i => let c := at_index start incr i in if up then Qle_bool c first' else Qle_bool first' c) n in
    let l := position (fun i => let c := at_index start incr i in if up then lt c last' else lt last' c) n in
    let l' := l + 1 in
    Ok (f, if n <=? l' then n - 1 else l').

(** ** Messages *)
Section Values.
Variable V : Type.
Record message := mkM { m_param : Z; m_type : string;
  m_right : bool; m_bottom : bool; m_vertical : bool; m_alternating : bool;      (* scanning mode *)
  m_lat : Q; m_lat_last : Q; m_dlat : Q; m_nj : nat; m_lon : Q; m_lon_last : Q; m_dlon : Q; m_ni : nat;
  m_values : list V }.
Record box := mkB { b_north : Q; b_east : Q; b_south : Q; b_west : Q }.

(** gribMatchParameters, lines 62-68 *)
Definition wanted (params : list Z) (m : message) : bool :=
  match params with [] => true | _ => existsb (Z.eqb (m_param m)) params end.

(** cutBoundingBox, lines 117-211 *)
Definition cut (bb : option box) (m : message) : outcome message :=
  match bb with
  | None => Ok m
  | Some b =>
      if negb (m_type m =? "regular_ll")%string then Throw
      else if m_right m || m_vertical m || m_alternating m then Throw
      else
        let dlat := if m_bottom m then (m_dlat m * -1)%Q else m_dlat m in
        do lats <- (if m_bottom m then first_last (m_lat m) dlat (m_nj m) (b_north b) (b_south b)
                    else first_last (m_lat m) dlat (m_nj m) (b_south b) (b_north b));
        do lons <- first_last (m_lon m) (m_dlon m) (m_ni m) (b_west b) (b_east b);
        if negb (length (m_values m) =? m_nj m * m_ni m) then Throw
        else
          let nj := ((N.of_nat (snd lats) + M64 - N.of_nat (fst lats)) mod M64)%N in
          let ni := ((N.of_nat (snd lons) + M64 - N.of_nat (fst lons)) mod M64)%N in
          do out <- slice (m_values m) [N.of_nat (m_ni m); N.of_nat (m_nj m)]
                      [N.of_nat (fst lons); N.of_nat (fst lats)] [ni; nj];
          Ok (mkM (m_param m) (m_type m) (m_right m) (m_bottom m) (m_vertical m) (m_alternating m)
                (at_index (m_lat m) dlat (fst lats)) (at_index (m_lat m) dlat (snd lats)) (m_dlat m) (N.to_nat nj)
                (at_index (m_lon m) (m_dlon m) (fst lons)) (at_index (m_lon m) (m_dlon m) (snd lons)) (m_dlon m) (N.to_nat ni)
                out)
  end.

(** ** Files *)
(** what grib_handle_new_from_file gives: a message, a message with an error, no message *)
Inductive event := Read (m : message) | Damaged | Nothing.

(** gribCutHandle and the body of the loop, lines 214-229, 254-266: messages written and errors *)
Definition handle (params : list Z) (bb : option box) (e : event) : outcome (list message * nat) :=
  match e with
  | Read m =>
      if wanted params m
      then match cut bb m with Ok m' => Ok ([m'], 0) | Throw => Ok ([], 1) | UB => UB | Hang => Hang end
      else Ok ([], 0)
  | Damaged => Ok ([], 1)
  | Nothing => Ok ([], 0)
  end.
(** gribCut, lines 232-269.  A file that cannot be opened leaves a null pointer, and its deleter fclose is
    called with it. *)
Fixpoint cut_files (params : list Z) (bb : option box) (files : list (option (list event))) : outcome (list message * nat) :=
  match files with
  | [] => Ok ([], 0)
  | None :: _ => UB
  | Some l :: r =>
      do hs <- omapM (handle params bb) l;
      do rest <- cut_files params bb r;
      Ok (flat_map fst hs ++ fst rest, fold_right (fun h k => snd h + k) 0 hs + snd rest)
  end.

(** ** main, lines 271-390 *)
Record options := { o_help : bool; o_version : bool; o_input : list (option (list event)); o_output : bool;
                    o_params : list (option Z);          (* None: not a number *)
                    o_box : option (list (option Q)) }.   (* the parts between commas *)
Inductive result := Stop (code : Z) | Done (out : list message) (code : Z).

(** strings2types and string2type throw for a text that is not a number; nothing catches it *)
Fixpoint numbers {X} (l : list (option X)) : outcome (list X) :=
  match l with
  | [] => Ok []
  | Some x :: r => do y <- numbers r; Ok (x :: y)
  | None :: _ => Throw
  end.
Definition box_of (l : list (option Q)) : outcome (option box) :=
  match l with
  | n :: e :: s :: w :: _ =>
      do v <- numbers [n; e; s; w];
      match v with
      | [n; e; s; w] =>
          let out x a := lt a x || lt x (- a)%Q in
          if out n (inject_Z 90) || out s (inject_Z 90) || lt n s || out e (inject_Z 180) || out w (inject_Z 180) || lt e w
          then Ok None else Ok (Some (mkB n e s w))
      | _ => Throw
      end
  | _ => Ok None
  end.
(** the exit code of a process has eight bits *)
Definition main (argc : nat) (o : options) : outcome result :=
  if (argc =? 1) || o_help o then Ok (Stop 0)
  else if o_version o then Ok (Stop 0)
  else match o_input o with
  | [] => Ok (Stop 1)
  | files =>
      if negb (o_output o) then Ok (Stop 1)
      else
        do params <- numbers (o_params o);
        do bb <- match o_box o with
                 | None => Ok (inl None)
                 | Some l => omap (fun b => match b with Some b => inl (Some b) | None => inr tt end) (box_of l)
                 end;
        match bb with
        | inr _ => Ok (Stop 1)
        | inl bb => do r <- cut_files params bb files; Ok (Done (fst r) (Z.of_nat (snd r) mod 256))
        end
  end.
End Values.
