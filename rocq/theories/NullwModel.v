(** The writer that writes nothing: src/Null_CDMWriter.cc.  The reader is given by what it returns for a
    request; data are given by their number of values, [None] is an empty pointer.  Left out: log
    messages, the counters of the constructor that nothing reads; the conversions data->asX() of present
    values are taken to succeed (C02 says what they give). *)
From Coq Require Import ZArith String List Bool.
From Verif Require Import Base ConvertModel.
Import ListNotations.
Local Open Scope Z_scope.

(** what is asked from the reader: getData(name) or getDataSlice(name, record) *)
Inductive request := Whole (v : string) | Record_ (v : string) (r : Z).
Record var := Var { v_name : string; v_type : dtype; v_unlimited : bool }.
Record attr := Attr { a_type : dtype; a_size : nat }.

(** convertData: is the type known; 46-69 *)
Definition convert (t : dtype) (size : nat) : bool :=
  match size with
  | O => true
  | _ => match t with DStrings => false | _ => true end
  end.

(** the attributes, 98-111 *)
Definition attributes (l : list attr) : outcome unit :=
  ofold (fun _ a => if convert (a_type a) (a_size a) then Ok tt else Throw) l tt.

(** the positions -1, 0, ... of the loop; 114-119 *)
Definition positions (records : nat) : list Z := (-1) :: map Z.of_nat (seq 0 records).
(** with MPI ([Some (size, rank)]): unLimDimPos % mifi_mpi_size == mifi_mpi_rank, the remainder of C;
    121-129 *)
Definition mine (mpi : option (Z * Z)) (p : Z) : bool :=
  match mpi with None => true | Some (size, rank) => Z.rem p size =? rank end.

Section World.
Variable read : request -> outcome (option nat).

(** one variable at one position, with the requests so far; 131-144 *)
Definition visit (p : Z) (done : list request) (v : var) : outcome (list request) :=
  let get r := do d <- read r;
               do n <- rd d;
               if convert (v_type v) n then Ok (done ++ [r]) else Throw in
  if (p =? -1) && negb (v_unlimited v) then get (Whole (v_name v))
  else if (0 <=? p) && v_unlimited v then get (Record_ (v_name v) p)
  else Ok done.

(** one position, 119-146 *)
Definition work (mpi : option (Z * Z)) (vars : list var) (done : list request) (p : Z) : outcome (list request) :=
  if mine mpi p then ofold (visit p) vars done else Ok done.

(** the constructor: the requests made, in order; with OpenMP the positions [ps] are those of 114-119 in any
    order; 73-147 *)
Definition null_write (mpi : option (Z * Z)) (attrs : list attr) (vars : list var) (ps : list Z)
  : outcome (list request) :=
  do _ <- attributes attrs;
  ofold (work mpi vars) ps [].
End World.
