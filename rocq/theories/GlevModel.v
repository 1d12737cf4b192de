(** Model of the values of vertical axes read from GRIB files:
    src/io/grib/GribCDMIndexer.cc:357-484 (readValuesFromXPath_, initSpecialLevels_).
    Simplifications: numbers are rational; level numbers are not negative; the conversion of the
    values to the type of the variable, shapes and values of attributes are left out; the elements of
    the configuration are given as parsed, a text that is not a number is [None]. *)
From Coq Require Import PeanoNat String List Bool QArith Qcanon.
From Verif Require Import Base StdMap.
Import ListNotations.
Local Open Scope string_scope.
Local Open Scope list_scope.
Local Open Scope nat_scope.

(** the attribute mode of an element [values], lines 373-426 *)
Inductive mode := Inline (l : list (option Qc)) | Extra1 | Extra2 | Half1 | Half2 | Sigma | Unknown.
Record vnode := mkN { n_mode : mode; n_scale : option (option Qc) }.

(** the variables of the CDM: data, if set, and names of attributes *)
Definition cvars := smap (option (list Qc) * list string).
Definition data_of (vs : cvars) (n : string) : outcome (list Qc) :=
  match sfind n vs with
  | None => Throw                                     (* getVariable *)
  | Some (None, _) => UB                              (* getData() is a null pointer *)
  | Some (Some l, _) => Ok l
  end.

(** string2type<double>, refusing other texts *)
Definition to_number (x : option Qc) : outcome Qc := match x with Some q => Ok q | None => Throw end.

(** lines 380-391: [off] is the offset, [k] a level number *)
Definition extra_value (pv : list Qc) (off k : nat) : outcome Qc :=
  let pos := off + k in
  if pos <? length pv then rd (nth_error pv (if pos =? 0 then 0 else pos - 1)) else Throw.
(** lines 402-417; offset + level - 1 wraps around for 0 *)
Definition half_value (pv : list Qc) (off k : nat) : outcome Qc :=
  if off + k =? 0 then Throw
  else
    let pos := off + k - 1 in
    if pos <? length pv then
      if pos + 1 <? length pv then
        do x <- rd (nth_error pv pos);
        do y <- rd (nth_error pv (pos + 1));
        Ok ((x + y) / Q2Qc (2 # 1))%Qc
      else rd (nth_error pv (length pv - 1))
    else Throw.
(** lines 418-428 *)
Definition sigma_value (p0 a b : Qc) : Qc := (a / p0 + b)%Qc.

Definition node_values (vs : cvars) (ext : string) (levels : list nat) (pv : list Qc) (m : mode) : outcome (list Qc) :=
  match m with
  | Inline l => omapM to_number l
  | Extra1 => omapM (extra_value pv 0) levels
  | Extra2 => omapM (extra_value pv (length pv / 2)) levels
  | Half1 => if length pv / 2 <? length levels then Throw else omapM (half_value pv 0) levels
  | Half2 => if length pv / 2 <? length levels then Throw else omapM (half_value pv (length pv / 2)) levels
  | Sigma =>
      do p0 <- data_of vs ("p0" ++ ext)%string;
      do ap <- data_of vs ("ap" ++ ext)%string;
      do b <- data_of vs ("b" ++ ext)%string;
      omapM (fun i => do a <- rd (nth_error ap i);
                      do p <- rd (nth_error p0 0);
                      do c <- rd (nth_error b i);
                      Ok (sigma_value p a c)) (seq 0 (length ap))
  | Unknown => Throw
  end.
(** one pass of the loop, lines 368-435 *)
Definition node_step (vs : cvars) (ext : string) (levels : list nat) (pv acc : list Qc) (n : vnode) : outcome (list Qc) :=
  do l <- node_values vs ext levels pv (n_mode n);
  match n_scale n with
  | None => Ok (acc ++ l)
  | Some s => do s <- to_number s; Ok (map (fun x => (x * s)%Qc) (acc ++ l))
  end.
Definition of_nat (k : nat) : Qc := Q2Qc (inject_Z (Z.of_nat k)).
(** readValuesFromXPath_ *)
Definition read_values (vs : cvars) (ext : string) (levels : list nat) (pv : list Qc) (nodes : list vnode) : outcome (list Qc) :=
  match nodes with
  | [] => Ok (map of_nat levels)                                               (* 362-365 *)
  | _ => ofold (node_step vs ext levels pv) nodes []
  end.

(** an element additional_axis_variable: name, names of its attributes, its values *)
Record aux := mkA { a_name : string; a_attributes : list string; a_values : list vnode }.

(** addAttributes, src/CDMUtils.cc:35-40, and CDM::addAttribute, src/CDM.cc:373-386 *)
Definition add_attributes (n : string) (l : list string) (vs : cvars) : outcome cvars :=
  ofold (fun vs a => match sfind n vs with
                     | None => Throw
                     | Some (d, as_) => if existsb (String.eqb a) as_ then Throw else Ok (sput n (d, as_ ++ [a]) vs)
                     end) l vs.

(** lines 447-475: errors while reading values or adding the variable are logged *)
Definition add_aux (ext : string) (levels : list nat) (pv : list Qc) (vs : cvars) (a : aux) : outcome cvars :=
  let name := (a_name a ++ ext)%string in
  do vs' <- match read_values vs ext levels pv (a_values a) with
            | Ok l => Ok (if smem name vs then vs else sput name (Some l, []) vs)
            | Throw => Ok vs
            | UB => UB
            | Hang => Hang
            end;
  add_attributes name (a_attributes a) vs'.

(** initSpecialLevels_: the variables, and the values of the axis *)
Definition special_levels (axis : list vnode) (auxs : list aux) (ext : string) (levels : list nat) (pv : list Qc) (vs : cvars)
  : outcome (cvars * list Qc) :=
  match auxs with
  | [] => Ok (vs, map of_nat levels)                                           (* 444 *)
  | _ =>
      do vs' <- ofold (add_aux ext levels pv) auxs vs;
      match read_values vs' ext levels pv axis with                            (* 477-482 *)
      | Ok l => Ok (vs', l)
      | Throw => Ok (vs', map of_nat levels)
      | UB => UB
      | Hang => Hang
      end
  end.
