(** Quality masking: src/CDMQualityExtractor.cc.
    Values of the status are exact rational numbers, [None] is NaN; infinities are left out. *)
From Coq Require Import String Ascii List Arith ZArith QArith Bool.
From Verif Require Import Base IndexSpec.
Import ListNotations.
Local Open Scope list_scope.
Local Open Scope nat_scope.

(** < , > and == of double; false with NaN *)
Definition qlt (a b : Q) : bool := match Qcompare a b with Lt => true | _ => false end.
Definition qeq (a b : Q) : bool := match Qcompare a b with Eq => true | _ => false end.
Definition vlt (a b : option Q) : bool := match a, b with Some x, Some y => qlt x y | _, _ => false end.
Definition veq (a b : option Q) : bool := match a, b with Some x, Some y => qeq x y | _, _ => false end.
(** std::isnan *)
Definition vnan (v : option Q) : bool := match v with None => true | Some _ => false end.

(** the loops that set status values to undefined, 300-326, 332-350, 366-372 *)
Definition undefine (p : option Q -> bool) (sd : list (option Q)) : list (option Q) := map (fun v => if p v then None else v) sd.

(** findDefinedExtreme, 214-233, with the two loops; [pick] is min or max *)
Fixpoint forward (sd : list (option Q)) : list (option Q) :=
  match sd with
  | [] => []
  | v :: sd' => if negb (vnan v) then forward sd' else sd
  end.
Fixpoint extreme_loop (fuel : nat) (pick : option Q -> option Q -> option Q) (extreme : option Q) (pos : list (option Q)) : outcome (option Q) :=
  match fuel with
  | O => Hang
  | S n =>
      match pos with
      | [] => Ok extreme
      | v :: _ => extreme_loop n pick (if negb (vnan v) then pick extreme v else extreme) pos
      end
  end.
Definition defined_extreme (pick : option Q -> option Q -> option Q) (sd : list (option Q)) : outcome (option Q) :=
  match forward sd with
  | [] => Ok None
  | v :: _ => extreme_loop (S (length sd)) pick v (forward sd)
  end.
(** std::max, std::min *)
Definition vmax (a b : option Q) : option Q := if vlt a b then b else a.
Definition vmin (a b : option Q) : option Q := if vlt b a then b else a.

(** std::sort; any sorting function gives the same answers of the search below *)
Fixpoint insert (v : Q) (l : list Q) : list Q :=
  match l with
  | [] => [v]
  | u :: l' => if qlt u v then u :: insert v l' else v :: l
  end.
Definition sort (l : list Q) : list Q := fold_right insert [] l.
(** std::binary_search in a sorted vector: the first element that is not less (std::lower_bound), and whether
    the value is not less than it *)
Definition search (l : list Q) (v : option Q) : bool :=
  match find (fun u => negb (vlt (Some u) v)) l with
  | Some u => negb (vlt v (Some u))
  | None => false
  end.

(** the attributes of the status variable, 286-299 *)
Record info := { valid_min : option Q; valid_max : option Q; valid_range : option (Q * Q); status_fill : option Q }.
(** what the configuration gives, 202-209 *)
Inductive rule := Values (vs : list Q) | Use (flag : string).

Definition newline (c : ascii) : bool := Ascii.eqb c (ascii_of_nat 10) || Ascii.eqb c (ascii_of_nat 13).
Fixpoint has_newline (s : string) : bool :=
  match s with
  | EmptyString => false
  | String c s' => newline c || has_newline s'
  end.
(** regex_match with a literal of four characters and (.+), 330, 340 *)
Definition match_prefix (pre s : string) : option string :=
  let rest := substring 4 (String.length s - 4) s in
  if String.prefix pre s && negb (String.eqb rest "") && negb (has_newline rest) then Some rest else None.

Section Mask.
  (** string2type<double> *)
  Context (number : string -> outcome Q).

  (** getDataSlice, 280-373: the values of the status after the rule *)
  Definition apply_rule (r : rule) (nfo : info) (sd : list (option Q)) : outcome (list (option Q)) :=
    do (useVals, sd) <-
      match r with
      | Values vs => Ok (sort vs, sd)
      | Use flag =>
          let minFlag := match valid_range nfo with Some (a, _) => Some a | None => valid_min nfo end in
          let maxFlag := match valid_range nfo with Some (_, b) => Some b | None => valid_max nfo end in
          let sd := match minFlag with Some m => undefine (fun v => vlt v (Some m)) sd | None => sd end in
          let sd := match maxFlag with Some m => undefine (fun v => vlt (Some m) v) sd | None => sd end in
          let sd := match status_fill nfo with Some f => undefine (fun v => veq v (Some f)) sd | None => sd end in
          if String.eqb flag "all" then Ok ([], sd)
          else
            match match_prefix "max:" flag with
            | Some t => do m <- number t; Ok ([], undefine (fun v => vlt (Some m) v) sd)
            | None =>
                match match_prefix "min:" flag with
                | Some t => do m <- number t; Ok ([], undefine (fun v => vlt v (Some m)) sd)
                | None =>
                    if String.eqb flag "highest" then
                      do t <- defined_extreme vmax sd; Ok (match t with Some v => [v] | None => [] end, sd)
                    else if String.eqb flag "lowest" then
                      do t <- defined_extreme vmin sd; Ok (match t with Some v => [v] | None => [] end, sd)
                    else Throw
                end
            end
      end;
    Ok (match useVals with [] => sd | _ => undefine (fun v => negb (search useVals v)) sd end).

  (** the values of the data: any type, [dbl] is asDouble for one value and [setv] the conversion of setValue *)
  Context {A : Type} (dbl : A -> option Q) (setv : option Q -> A).

  (** 375-383: [k] turns over the status *)
  Fixpoint mask_loop (fill : option Q) (all sd : list (option Q)) (data : list A) {struct data} : list A :=
    match data with
    | [] => []
    | d :: data' =>
        match sd with
        | [] => data
        | s :: sd' =>
            (if vnan s then setv fill else d) :: mask_loop fill all (match sd' with [] => all | _ => sd' end) data'
        end
    end.

  (** 263-388: data and status are read; [slice_length] is the product of 268-272.  sizeRatio is modelled as the
      exact quotient (the same for sizes below 2^53); int() of 2^31 or more is undefined, as is int(inf). *)
  Definition mask (r : rule) (nfo : info) (fill : option Q) (slice_length : nat) (data : list A) (status : list (option Q)) : outcome (list A) :=
    let sizeD := length data in
    let sizeS := length status in
    if (sizeD =? 0) && (sizeS =? 0) then Ok (repeat (setv fill) slice_length)
    else if (sizeS =? 0) || (Z.of_nat (sizeD / sizeS) >=? 2 ^ 31)%Z then UB
    else if (sizeD mod sizeS =? 0) && (sizeS <=? sizeD) then
      do sd <- apply_rule r nfo status;
      Ok (mask_loop fill sd sd data)
    else Ok data.

  (** the configuration of one variable: status variable, the reader of another file if one is given, rule,
      attributes, fill value, length of a slice *)
  Record entry := { e_status : string; e_other : option (string -> nat -> outcome (list A)); e_rule : rule; e_info : info; e_fill : option Q; e_length : nat }.
  (** getDataSlice, 235-261, with the recursion for the status variable *)
  Fixpoint get_slice (fuel : nat) (read : string -> nat -> outcome (list A)) (conf : string -> option entry) (var : string) (pos : nat) : outcome (list A) :=
    match fuel with
    | O => Hang
    | S n =>
        do data <- read var pos;
        match conf var with
        | None => Ok data
        | Some e =>
            do status <-
              match e_other e with
              | Some rd => do s <- rd (e_status e) pos; (match s with [] => rd (e_status e) 0 | _ => Ok s end)
              | None =>
                  if String.eqb (e_status e) var then Ok data
                  else do s <- get_slice n read conf (e_status e) pos; (match s with [] => get_slice n read conf (e_status e) 0 | _ => Ok s end)
              end;
            mask (e_rule e) (e_info e) (e_fill e) (e_length e) data (map dbl status)
        end
    end.
End Mask.

(** findCorrespondingVariables, 54-71: the inner vector of the same name takes the result of the search *)
Definition corresponding (find_standard_name : string -> list string) (standard_name : option (list string)) : list string :=
  let correspondingVars : list string := [] in
  match standard_name with
  | Some (foreign :: _ :: _) => let _ := find_standard_name foreign in correspondingVars
  | _ => correspondingVars
  end.
(** the automatic configuration, 108-127: the names of the variables that get a status variable *)
Definition autoconf (find_standard_name : string -> list string) (flag_vars : list (string * option (list string))) (conf : string) : outcome (list (string * string)) :=
  if String.eqb conf "all" || String.eqb conf "highest" || String.eqb conf "lowest" then
    Ok (flat_map (fun v => map (fun c => (c, fst v)) (corresponding find_standard_name (snd v))) flag_vars)
  else Throw.

(** the check of the shapes, 190-197: lengths of the dimensions, the same shapes are not looked at *)
Fixpoint check_lengths (var status : list nat) {struct status} : outcome unit :=
  match status with
  | [] => Ok tt
  | s :: status' =>
      match var with
      | [] => Throw (* 191: more dimensions *)
      | v :: var' => if s =? v then check_lengths var' status' else Throw
      end
  end.
