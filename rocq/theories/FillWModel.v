(** Model of filling a file from another one: src/FillWriter.cc, constructor.
    Coordinate values are of any type with an equality test ([eqb] is operator== on doubles, so NaN
    need not equal itself).  Values of variables are of any type and are copied unchanged: the code
    reads and writes unscaled data (getDataSlice, putDataSlice) of the same name.
    Not modelled: the parsing of the configuration file, the log, OpenMP (the variables are written
    one after the other), the conversion of the data type when writing.  Dimension names within a
    file and within a shape are assumed distinct. *)
From Coq Require Import String List Bool Arith.
From Verif Require Import Base IndexSpec.
Import ListNotations.
Local Open Scope list_scope.
Local Open Scope nat_scope.

Section FillW.
Context {V : Type} (eqb : V -> V -> bool).

(** a dimension and the scaled values of its coordinate variable, if there is one *)
Record dim := Dim { d_name : string; d_len : nat; d_unlim : bool; d_coord : option (list V) }.

Definition find_dim (n : string) (ds : list dim) : option dim :=
  find (fun d => String.eqb (d_name d) n) ds.

(** std::find over the first [n] values, as a distance from the begin; FillWriter.cc:143-144 *)
Fixpoint find_pos (l : list V) (n : nat) (v : V) : nat :=
  match n, l with
  | S n', x :: l' => if eqb x v then 0 else S (find_pos l' n' v)
  | _, _ => 0
  end.

(** state of the loop 142-160: slices so far, number of appended ones, number of changes, unusable *)
Record mstate := MS { m_slices : list (nat * nat); m_count : nat; m_changes : nat; m_bad : bool }.

Definition map_one (ic oc : list V) (olen : nat) (ounlim : bool) (s : mstate) (i : nat) : outcome mstate :=
  do v <- rd (nth_error ic i);
  let found := find_pos oc olen v in
  let put o c := MS (m_slices s ++ [(i, o)]) c
                    (if negb (i =? o) then S (m_changes s) else m_changes s) (m_bad s) in  (* 155-159 *)
  if found =? olen then
    if ounlim then Ok (put (olen + m_count s) (S (m_count s)))                             (* 147-148 *)
    else Ok (MS (m_slices s) (m_count s) (m_changes s) true)                               (* 149-152 *)
  else Ok (put found (m_count s)).

(** one input dimension, 129-188: its entry in dimSlices (if any) and whether it is unusable *)
Definition map_dim (odims : list dim) (d : dim) : outcome (option (list (nat * nat)) * bool) :=
  match find_dim (d_name d) odims with
  | None => Ok (None, false)                                                               (* 131-134 *)
  | Some o =>
      do (sl, bad) <-
        match d_coord d, d_coord o with
        | Some ic, Some oc =>
            if length oc <? d_len o then UB else
            do s <- ofold (map_one ic oc (d_len o) (d_unlim o)) (seq 0 (d_len d)) (MS [] 0 0 false);
            Ok (if (0 <? m_changes s) || negb (d_len d =? d_len o) then Some (m_slices s) else None,
                m_bad s)                                                                   (* 161-164 *)
        | _, _ =>
            if d_unlim o then
              Ok (if d_len d =? 0 then None
                  else Some (map (fun i => (i, d_len o + i)) (seq 0 (d_len d))), false)    (* 166-170 *)
            else if d_len d =? d_len o then Ok (None, false)                               (* 171-172 *)
            else Ok (None, true)                                                           (* 173-176 *)
        end;
      Ok (match sl with
          | None => if bad && d_unlim d && negb (d_len d =? 0)
                    then Some (map (fun i => (i, i)) (seq 0 (d_len d))) else None          (* 178-187 *)
          | Some l => Some l
          end, bad)
  end.

(** dimSlices and unusableIDims for all input dimensions *)
Definition map_dims (idims odims : list dim) : outcome (list (string * (option (list (nat * nat)) * bool))) :=
  omapM (fun d => do r <- map_dim odims d; Ok (d_name d, r)) idims.

Definition lookup {B} (n : string) (l : list (string * B)) : option B :=
  option_map snd (find (fun e => String.eqb (fst e) n) l).

(** ** SliceBuilder, by dimension name (see SliceModel for the array form) *)
Record ent := Ent { e_name : string; e_start : nat; e_size : nat; e_max : nat; e_unlim : bool }.

(** SliceBuilder(cdm, varName, setUnlimited), SliceBuilder.cc:52-90; an unknown dimension throws *)
Definition new_sb (ds : list dim) (setUnlim : bool) (shape : list string) : outcome (list ent) :=
  omapM (fun n => match find_dim n ds with
                  | None => Throw
                  | Some d => Ok (Ent n 0 (d_len d) (d_len d) (setUnlim && d_unlim d))
                  end) shape.

Definition set_ent (n : string) (st sz : nat) (e : ent) : ent :=
  if String.eqb (e_name e) n then Ent (e_name e) st sz (e_max e) (e_unlim e) else e.

(** setStartAndSize, SliceBuilder.cc:110-119 *)
Definition set_ss (sb : list ent) (n : string) (st sz : nat) : outcome (list ent) :=
  match find (fun e => String.eqb (e_name e) n) sb with
  | None => Throw
  | Some e => if negb (e_unlim e) && (e_max e <? st + sz) then Throw
              else Ok (map (set_ent n st sz) sb)
  end.

(** positions addressed by a slice, in storage order *)
Definition block (sb : list ent) : list (list nat) :=
  map (shift (map e_start sb)) (positions (map e_size sb)).

(** ** one variable, 190-278 *)
Record translation := Tr { t_in : string; t_out : string; t_ins : list nat; t_outs : list nat }.

Definition mem (n : string) (l : list string) : bool := existsb (String.eqb n) l.
Definition without (names : list string) (shape : list string) : list string :=
  filter (fun n => negb (mem n names)) shape.

(** equal(i.begin(), i.end(), o.begin()), 220; reading past the end of [o] is undefined *)
Fixpoint shape_eq (i o : list string) : outcome bool :=
  match i, o with
  | [], _ => Ok true
  | _ :: _, [] => UB
  | a :: i', b :: o' => if String.eqb a b then shape_eq i' o' else Ok false
  end.

(** 229-250 for one builder: the dimensions of [shape] that are translated are set to one slice *)
Definition translate (shape : list string) (trs : list (string * list nat)) (sb : list ent) : outcome (list ent) :=
  ofold (fun s (t : string * list nat) =>
           if mem (fst t) shape then
             match snd t with [k] => set_ss s (fst t) k 1 | _ => Throw end
           else Ok s) trs sb.

(** 252-271 *)
Fixpoint expand (ms : list (string * (option (list (nat * nat)) * bool))) (names : list string)
    (prs : list (list ent * list ent)) : outcome (list (list ent * list ent)) :=
  match names with
  | [] => Ok prs
  | n :: names' =>
      match lookup n ms with
      | Some (Some sl, _) =>
          do new <- omapM (fun pr : list ent * list ent =>
                      omapM (fun io : nat * nat =>
                               do i <- set_ss (fst pr) n (fst io) 1;
                               do o <- set_ss (snd pr) n (snd io) 1;
                               Ok (i, o)) sl) prs;
          expand ms names' (concat new)
      | _ => expand ms names' prs
      end
  end.

(** reading one slice and writing it, 274-277 and NetCDF_Utils.cc:358-376: no data, no write; a
    different number of values throws.  Result: which input position goes to which output position *)
Definition copy_slice (pr : list ent * list ent) : outcome (list (list nat * list nat)) :=
  let bi := block (fst pr) in let bo := block (snd pr) in
  if length bi =? 0 then Ok []
  else if length bi =? length bo then Ok (combine bi bo) else Throw.

(** [None]: the variable is skipped *)
Definition fill_var (idims odims : list dim) (trs : list translation)
    (ms : list (string * (option (list (nat * nat)) * bool))) (ishape : list string) (oshape : option (list string))
  : outcome (option (list (list nat * list nat))) :=
  match oshape with
  | None => Ok None                                                                        (* 199-202 *)
  | Some oshape =>
      if existsb (fun n => match lookup n ms with Some (_, true) => true | _ => false end) ishape
      then Ok None                                                                         (* 204-208 *)
      else
        let it := without (map t_in trs) ishape in
        let ot := without (map t_out trs) oshape in
        do same <- shape_eq it ot;
        if negb same then Ok None                                                          (* 220-223 *)
        else
          do isb <- new_sb idims false ishape;
          do osb <- new_sb odims true oshape;
          do isb <- translate ishape (map (fun t => (t_in t, t_ins t)) trs) isb;
          do osb <- translate oshape (map (fun t => (t_out t, t_outs t)) trs) osb;
          do prs <- expand ms it [(isb, osb)];
          do cs <- omapM copy_slice prs;
          Ok (Some (concat cs))
  end.

(** the values of the output variable after the copies, made in order *)
Definition store (A : Type) := list nat -> A.
Definition pos_dec : forall p q : list nat, {p = q} + {p <> q} := list_eq_dec Nat.eq_dec.
Definition write {A} (inp : store A) (st : store A) (c : list nat * list nat) : store A :=
  fun q => if pos_dec q (snd c) then inp (fst c) else st q.
Definition apply_copies {A} (inp : store A) (cs : list (list nat * list nat)) (st : store A) : store A :=
  fold_left (write inp) cs st.

(** the whole constructor: the copies made for each input variable, and whether it ends with the
    exception of 279-280 *)
Definition fill (idims odims : list dim) (trs : list translation)
    (vars : list (list string * option (list string)))
  : outcome (list (option (list (list nat * list nat))) * bool) :=
  do ms <- map_dims idims odims;
  do r <- omapM (fun v : list string * option (list string) => fill_var idims odims trs ms (fst v) (snd v)) vars;
  Ok (r, existsb (fun m : string * (option (list (nat * nat)) * bool) => snd (snd m)) ms).

End FillW.
Arguments dim V : clear implicits.
