(** Model of the index of a Felt file and of reading slices from it:
    src/io/felt/Felt_Array2.cc, Felt_File2.cc, FeltCDMReader2.cc.
    Times are integers in the order of FimexTime; levels, versions, data types and parameter numbers
    are integers.  Not modelled: reading the words of the file, the names given by FeltParameters,
    scaling of the values (the values of a field are given as they come out of getScaledDataSlice). *)
From Coq Require Import ZArith List Bool.
From Verif Require Import Base.
Import ListNotations.
Local Open Scope Z_scope.

(** ** std::map with an ordering given by [cmp] *)
Section OMap.
Context {K V : Type} (cmp : K -> K -> comparison).

(** map::find *)
Fixpoint ofind (k : K) (m : list (K * V)) : option V :=
  match m with
  | [] => None
  | (k', v) :: m' => match cmp k k' with Eq => Some v | _ => ofind k m' end
  end.

(** m[k] = v; insert when the key is known to be absent *)
Fixpoint oput (k : K) (v : V) (m : list (K * V)) : list (K * V) :=
  match m with
  | [] => [(k, v)]
  | (k', v') :: m' =>
      match cmp k k' with
      | Lt => (k, v) :: m
      | Eq => (k, v) :: m'
      | Gt => (k', v') :: oput k v m'
      end
  end.
End OMap.

(** std::set::insert *)
Definition oins {K} (cmp : K -> K -> comparison) (m : list (K * unit)) (k : K) := oput cmp k tt m.

Definition level := (Z * Z)%type.

(** LevelPairLess, Felt_Types.h:43-51 *)
Definition lcmp (a b : level) : comparison :=
  if fst a =? fst b then snd a ?= snd b else fst a ?= fst b.

Section Felt.
Context {A : Type}.

(** the header of a field as seen through FeltField.h; [f_word13] is header word 13,
    [f_params] stands for projectionInformation()->getGridParameters() *)
Record field := Field {
  f_time : Z; f_dtype : Z; f_param : Z; f_vcoord : Z;
  f_eps : bool; f_level1 : Z; f_word13 : Z; f_valid : bool;
  f_gridtype : Z; f_params : list Z; f_data : list A }.

(** FeltField::level2 180-185, FeltField::dataVersion 232-237 *)
Definition f_level2 (f : field) : Z := if f_eps f then 0 else f_word13 f.
Definition f_version (f : field) : Z := if f_eps f then f_word13 f else 0.

(** Felt_Array2: default field and feltFields_ *)
Record farray := FArray { a_default : field; a_fields : list (Z * list (level * field)) }.

(** the key of a field, Felt_Array2.cc:64-69 *)
Definition f_level (f : field) : level :=
  if f_eps f then (f_level1 f, f_version f) else (f_level1 f, f_level2 f).

(** addField_, Felt_Array2.cc:61-99 *)
Definition add_field (m : list (Z * list (level * field))) (f : field)
  : outcome (list (Z * list (level * field))) :=
  match ofind Z.compare (f_time f) m with
  | Some lm =>
      match ofind lcmp (f_level f) lm with
      | Some old =>
          if f_dtype old =? f_dtype f then Throw                                   (* 79-83 *)
          else Ok (oput Z.compare (f_time f) (oput lcmp (f_level f) f lm) m)       (* 84-90 *)
      | None => Ok (oput Z.compare (f_time f) (oput lcmp (f_level f) f lm) m)      (* 91-94 *)
      end
  | None => Ok (oput Z.compare (f_time f) (oput lcmp (f_level f) f []) m)          (* 95-99 *)
  end.

(** constructor, 49-56 *)
Definition new_array (d : field) : outcome farray :=
  do m <- add_field [] d; Ok (FArray d m).

(** addInformationByField, 102-119 *)
Definition add_info (a : farray) (f : field) : outcome farray :=
  if negb (f_valid f) then Ok a
  else if negb ((f_param (a_default a) =? f_param f) && (f_vcoord (a_default a) =? f_vcoord f)) then Throw
  else do m <- add_field (a_fields a) f; Ok (FArray (a_default a) m).

(** hasTime, 274-282 *)
Definition has_time (a : farray) : bool :=
  negb ((length (a_fields a) =? 1)%nat && (f_dtype (a_default a) =? 4)).

(** getTimes, 134-145 *)
Definition get_times (a : farray) : list Z :=
  if has_time a then map fst (a_fields a) else [].

(** all (level, field) entries in the order of the two nested loops *)
Definition entries (a : farray) : list (level * field) := flat_map snd (a_fields a).

(** getLevelPairs, 147-165 *)
Definition get_levels (a : farray) : list level :=
  map fst (fold_left (oins lcmp)
             (map (fun e : level * field => if f_eps (a_default a) then (fst (fst e), 0) else fst e) (entries a)) []).

(** getEnsembleMembers, 167-178 *)
Definition get_members (a : farray) : list Z :=
  if f_eps (a_default a)
  then map fst (fold_left (oins Z.compare) (map (fun e : level * field => snd (fst e)) (entries a)) [])
  else [].

(** getField, 180-195; [None]: NoSuchField_Felt_File_Error *)
Definition get_field (a : farray) (t : Z) (l : level) : option field :=
  let tlm := if has_time a then ofind Z.compare t (a_fields a)
             else match a_fields a with [] => None | (_, lm) :: _ => Some lm end in
  match tlm with Some lm => ofind lcmp l lm | None => None end.

(** getGridType, 268-273: division of C++ ints *)
Definition grid_type (f : field) : Z :=
  if 1000 <=? f_gridtype f then Z.quot (f_gridtype f) 1000 else f_gridtype f.

(** the checks of getGridAllowDelta, 240-266: all six parameters within the allowed difference *)
Fixpoint params_ok (new def delta : list Z) : bool :=
  match new, def, delta with
  | n :: new', d :: def', x :: delta' =>
      negb (negb (n =? d) && (x <? Z.abs (n - d))) && params_ok new' def' delta'
  | _, _, _ => true
  end.

(** getGridAllowDelta, 240-266; [None]: no such field *)
Definition get_grid (a : farray) (t : Z) (l : level) (delta : list Z) : outcome (option (list A)) :=
  match get_field a t l with
  | None => Ok None
  | Some f =>
      if negb (grid_type (a_default a) =? grid_type f) then Throw
      else if negb (params_ok (f_params f) (f_params (a_default a)) delta) then Throw
      else Ok (Some (f_data f))
  end.

(** the level/member pairs read for one slice, FeltCDMReader2.cc:676-704.
    [layers]: the values of the level dimension, if the variable has one (and it is not empty);
    [members]: the members of the file if the variable has the ensemble dimension *)
Definition slice_pairs (a : farray) (layers : option (list level)) (members : option (list Z)) : outcome (list level) :=
  do ls <- match layers with
           | Some ls => Ok ls
           | None => match get_levels a with [l] => Ok [l] | _ => Throw end
           end;
  Ok (match members with
      | Some ms => flat_map (fun l : level => map (fun m => (fst l, m)) ms) ls
      | None => ls
      end).

(** FeltCDMReader2::getDataSlice, 623-736: the values of one slice; [xy] = getX() * getY() of the
    array.  A field with another number of values trips the assertion of line 727 and is modelled as UB. *)
Definition get_slice (a : farray) (timeVec : list Z) (pos : nat) (layers : option (list level))
    (members : option (list Z)) (delta : list Z) (xy : nat) (fill : A) : outcome (list A) :=
  if (length timeVec <? pos)%nat then Throw                                         (* 631-633 *)
  else
    do contains <- match get_times a with
                   | [] => Ok true
                   | ts => do t <- rd (nth_error timeVec pos); Ok (existsb (Z.eqb t) ts)
                   end;                                                             (* 657-671 *)
    if negb contains then Ok []                                                     (* 672-675 *)
    else
      do ps <- slice_pairs a layers members;
      do blocks <- omapM (fun l =>
        do t <- match timeVec with [] => Ok 0 | _ => rd (nth_error timeVec pos) end; (* 712-715 *)
        do g <- get_grid a t l delta;
        match g with
        | None => Ok (repeat fill xy)                                               (* 723-725 *)
        | Some d => if (length d =? xy)%nat then Ok d else UB                       (* 727 *)
        end) ps;
      Ok (concat blocks).

(** does FeltCDMReader2 give the variable an ensemble dimension?  FeltCDMReader2.cc:577-579 *)
Definition has_member_dim (a : farray) : bool := (1 <? length (get_members a))%nat.

End Felt.
Arguments field A : clear implicits.
Arguments farray A : clear implicits.
