(** Model of writing GRIB files: the loops over coordinate systems, times, variables and levels
    (src/io/grib/GribApiCDMWriter_ImplAbstract.cc), and the parameter, level and value keys of both
    editions (src/io/grib/GribApiCDMWriter_Impl1.cc, GribApiCDMWriter_Impl2.cc).
    The GRIB library (ecCodes) is a store of keys: setting a key replaces its value and nothing
    else, a message is a copy of the store.  Keys the library refuses (GRIB_CHECK ends the program)
    are not modelled.  Doubles are rationals. *)
From Coq Require Import ZArith NArith String List Bool QArith Qcanon.
From Verif Require Import Base GribModel.
Import ListNotations.
Local Open Scope list_scope.
Local Open Scope nat_scope.

(** ** The GRIB handle *)

(** a value set with grib_set_long, grib_set_double, grib_set_string or grib_set_double_array *)
Inductive kval := KL (z : Z) | KD (q : Qc) | KS (s : string) | KA (l : list Qc).

(** GribApiCDMWriter_ImplAbstract.h: gribHandle *)
Definition handle := string -> option kval.

Definition hset (h : handle) (k : string) (v : kval) : handle :=
  fun k' => if String.eqb k k' then Some v else h k'.

Definition hsets (h : handle) (kvs : list (string * kval)) : handle :=
  fold_left (fun h kv => hset h (fst kv) (snd kv)) kvs h.

(** The ways a call can end without result: a CDMException (caught in line 321), another exception
    (string2type_error, std::out_of_range: not caught anywhere in run), undefined behaviour. *)
Inductive exc := Cdm | Other | Undef.

(** gribHandle and gribFile *)
Record wstate := mkW { w_h : handle; w_out : list handle }.

Definition act (A : Type) := wstate -> wstate * (A + exc).
Definition ret {A} (a : A) : act A := fun s => (s, inl a).
Definition fail {A} (e : exc) : act A := fun s => (s, inr e).
Definition bnd {A B} (m : act A) (f : A -> act B) : act B :=
  fun s => match m s with
           | (s', inl a) => f a s'
           | (s', inr e) => (s', inr e)
           end.
Definition setk (k : string) (v : kval) : act unit :=
  fun s => (mkW (hset (w_h s) k v) (w_out s), inl tt).

Declare Scope act_scope.
Notation "'run' x <- m ; f" := (bnd m (fun x => f))
  (at level 200, x pattern, m at level 100, f at level 200) : act_scope.
Local Open Scope act_scope.

(** writeGribHandleToFile, GribApiCDMWriter_ImplAbstract.cc:521-530: the message is appended *)
Definition emit : act unit := fun s => (mkW (w_h s) (w_out s ++ [w_h s]), inl tt).

(** try { m } catch (CDMException&) {}, lines 301-323: the keys set before the exception stay *)
Definition try_cdm (m : act unit) : act unit :=
  fun s => match m s with
           | (s', inr Cdm) => (s', inl tt)
           | r => r
           end.

Fixpoint each {A} (f : A -> act unit) (l : list A) : act unit :=
  match l with
  | [] => ret tt
  | a :: l' => run _ <- f a; each f l'
  end.

(** number texts of the configuration: None is an absent or empty attribute, Some None a text that
    is no number.  string2type throws a string2type_error for both, String2Type.h:62-85. *)
Definition need {A} (t : option (option A)) : act A :=
  match t with
  | Some (Some a) => ret a
  | _ => fail Other
  end.

(** ** Configuration *)

(** an attribute to set: its value; a value that is no number of its type; an unknown type *)
Inductive aval := ASet (v : kval) | ABadNumber | ABadType.

(** setNodesAttributes, GribApiCDMWriter_ImplAbstract.cc:351-369 *)
Definition set_attr (a : string * aval) : act unit :=
  match snd a with
  | ASet v => setk (fst a) v                                                  (* 358-364 *)
  | ABadNumber => fail Other                                                  (* 359, 361 *)
  | ABadType => fail Cdm                                                      (* 366 *)
  end.

(** an element variables/parameter/grib1 or grib2 with the attributes of its parent: name,
    standard_name and level; p_vattrs are the elements g1attribute or g2attribute *)
Record pnode := mkP { p_name : option string; p_std : option string;
                      p_level : option (option Qc);
                      p_number : option (option Z); p_table : option (option Z);
                      p_category : option (option Z); p_discipline : option (option Z);
                      p_units : string;
                      p_attrs : list (string * aval); p_vattrs : list (string * aval) }.

(** an element axes/vertical_axis/grib1 or grib2 with the attributes of its parent *)
Record anode := mkA { a_std : option string; a_compat : option string;
                      a_id : option (option Z); a_value : option (option Qc);
                      a_units : string;
                      a_scale : option (option Qc); a_offset : option (option Qc) }.

(** the configuration as seen by a writer of one edition: the elements of that edition, in
    document order *)
Record wconf := mkC { c_edition2 : bool; c_omit : bool;
                      c_gattrs : list (string * aval); c_gvattrs : list (string * aval);
                      c_params : list pnode; c_axes : list anode }.

(** ** The file to write *)

(** v_field: the values of the slice at the positions of reference time, time and level, all other
    dimensions at their first position (lines 263-269); None if getDataSlice throws *)
Record wvar := mkV { v_name : string; v_std : option string; v_unit : string;
                     v_fill : Qc; v_scale : Qc; v_offset : Qc;
                     v_field : nat -> nat -> nat -> option (list Qc) }.

(** the vertical axis; z_hybrid: the variables ap (in Pa) and b, if the coordinate system has a
    complete hybrid-sigma-pressure transformation of type 1 *)
Record vaxis := mkZ { z_std : option string; z_unit : option string; z_data : list Qc;
                      z_scale : Qc; z_offset : Qc;
                      z_hybrid : option (list Qc * list Qc) }.

(** A coordinate system: isSimpleSpatialGridded; the variables it is complete for; the keys set by
    setProjection and whether it succeeds; the reference times of an axis of that type; the times
    at each position of the reference time (a time axis without values cannot be requested);
    the vertical axis.  s_tset: setTimeStartAndSize finds the dimension of the time.
    Times are seconds since 1970.  Simplification: getVerticalAxis of a variable is the vertical
    axis of its coordinate system. *)
Record wcs := mkCS { s_gridded : bool; s_vars : list wvar;
                     s_proj : list (string * kval); s_projok : bool;
                     s_ref : option (list Z); s_times : option (nat -> list Z); s_tset : bool;
                     s_z : option vaxis }.

Definition oseqb (a : option string) (b : string) : bool :=
  match a with Some x => String.eqb x b | None => false end.

Section Writer.
  (** Units::convert, slope and offset of the unit library; None: UnitException *)
  Variable conv : string -> string -> option (Qc * Qc).
  (** year*10000 + month*100 + day and hour*100 + minute of a time, lines 382-383, 388-389 *)
  Variables date_of time_of : Z -> Z.
  Variable cf : wconf.
  (** getUniqueForecastReferenceTimeFT, None if it throws *)
  Variable unique : option Z.

  (** hasNodePtr, GribApiCDMWriter_ImplAbstract.cc:532-558: the elements found by name, or else
      those found by standard name *)
  Definition nodes_of (v : wvar) : list pnode :=
    match filter (fun p => oseqb (p_name p) (v_name v)) (c_params cf) with
    | [] => match v_std v with
            | Some s => filter (fun p => oseqb (p_std p) s) (c_params cf)     (* 547-555 *)
            | None => []
            end
    | l => l                                                                  (* 539-543 *)
    end.
  Definition has_node (v : wvar) : bool :=
    match nodes_of v with [] => false | _ => true end.

  Definition qabs (q : Qc) : Qc := if Qclt_le_dec q 0 then (- q)%Qc else q.
  Definition qltb (a b : Qc) : bool := if Qclt_le_dec a b then true else false.

  (** getNodePtr, lines 560-589 *)
  Definition get_node (v : wvar) (lv : Qc) : act pnode :=
    match nodes_of v with
    | [p] =>
        match p_level p with
        | None => ret p                                                       (* 575-578 *)
        | Some None => fail Other                                             (* 581 *)
        | Some (Some x) =>
            if qltb (qabs (lv - x)) (Q2Qc (1 # 1000000) * lv)%Qc              (* 582 *)
            then ret p else fail Cdm                                          (* 587 *)
        end
    | _ => fail Cdm                                                           (* 563-565, 568-570 *)
    end.

  (** setParameter, GribApiCDMWriter_Impl1.cc:50-62 and GribApiCDMWriter_Impl2.cc:66-84 *)
  Definition is_absent {A} (t : option A) : bool := match t with None => true | _ => false end.
  Definition set_parameter (v : wvar) (lv : Qc) : act unit :=
    run p <- get_node v lv;
    run _ <- (if c_edition2 cf then
                if is_absent (p_number p) || is_absent (p_category p)
                   || is_absent (p_discipline p) then fail Cdm                (* Impl2:74-76 *)
                else
                  run n <- need (p_number p);
                  run _ <- setk "parameterNumber" (KL n);
                  run c <- need (p_category p);
                  run _ <- setk "parameterCategory" (KL c);
                  run d <- need (p_discipline p);
                  setk "discipline" (KL d)                                    (* Impl2:77-79 *)
              else
                run n <- need (p_number p);
                run _ <- setk "indicatorOfParameter" (KL n);
                run t <- need (p_table p);
                setk "gribTablesVersionNo" (KL t));                           (* Impl1:54-57 *)
    run _ <- each set_attr (p_attrs p);
    each set_attr (p_vattrs p).                                               (* 60-61, 82-83 *)

  (** the element of the configuration for the vertical axis, GribApiCDMWriter_ImplAbstract.cc:418-444,
      451, and the same lines in setLevel (Impl1:357-381, Impl2:366-391): by standard name if the
      axis has one, otherwise by its units *)
  Definition convertible (u w : string) : bool :=
    match conv u w with Some _ => true | None => false end.
  Definition axis_nodes (z : option vaxis) : list anode + exc :=
    match z with
    | None => inl (filter (fun a => oseqb (a_std a) "") (c_axes cf))
    | Some ax =>
        match z_std ax with
        | Some s => inl (filter (fun a => oseqb (a_std a) s) (c_axes cf))
        | None =>
            match z_unit ax with
            | Some u =>
                if convertible u "m" then inl (filter (fun a => oseqb (a_compat a) "m") (c_axes cf))
                else if convertible u "Pa"
                     then inl (filter (fun a => oseqb (a_compat a) "Pa") (c_axes cf))
                     else inr Cdm
            | None => inr Cdm
            end
        end
    end.

  (** GribApiCDMWriter_ImplAbstract.cc:475-486 *)
  Definition ndef (t : option (option Qc)) (d : Qc) : Qc + exc :=
    match t with
    | None => inl d
    | Some (Some q) => inl q
    | Some None => inr Other
    end.

  (** Scale and UnScale, lines 55-79 *)
  Definition scale (a b : Qc) (x : Qc) : Qc := (x * a + b)%Qc.

  (** getLevels, lines 408-494.  A scale factor 0 of the configuration gives infinite levels, whose
      conversion to long is undefined. *)
  Definition get_levels (z : option vaxis) : list Qc + exc :=
    match axis_nodes z with
    | inr e => inr e
    | inl nodes =>
        let lv0 := match z with
                   | Some ax => map (scale (z_scale ax) (z_offset ax)) (z_data ax) (* 446-448 *)
                   | None => []
                   end in
        match nodes with
        | [] => inl lv0                                                       (* 491 *)
        | [a] =>
            match (match lv0 with
                   | [] => match a_value a with                               (* 455-464 *)
                           | None => inr Cdm
                           | Some None => inr Other
                           | Some (Some q) => inl [q]
                           end
                   | _ => inl lv0
                   end) with
            | inr e => inr e
            | inl lv1 =>
                match (if String.eqb (a_units a) "" then inl lv1              (* 466-475 *)
                       else match z with
                            | Some ax =>
                                match z_unit ax with
                                | Some u =>
                                    match conv u (a_units a) with
                                    | Some (sl, off) => inl (map (scale sl off) lv1)
                                    | None => inr Cdm
                                    end
                                | None => inl lv1
                                end
                            | None => inl lv1
                            end) with
                | inr e => inr e
                | inl lv2 =>
                    match ndef (a_scale a) 1, ndef (a_offset a) 0 with
                    | inl sf, inl off =>
                        if Qc_eq_dec sf 0 then inr Undef
                        else inl (map (scale (1 / sf)%Qc (- off / sf)%Qc) lv2) (* 487 *)
                    | inr e, _ => inr e
                    | _, inr e => inr e
                    end
                end
            end
        | _ => inr Cdm                                                        (* 488-489 *)
        end
    end.

  (** static_cast<long>(double): undefined outside of the range of long *)
  Definition trunc (q : Qc) : Z := Z.quot (Qnum (this q)) (Z.pos (Qden (this q))).
  Definition to_long (q : Qc) : Z + exc :=
    let n := trunc q in
    if ((- 2 ^ 63 <=? n) && (n <? 2 ^ 63))%Z then inl n else inr Undef.
  Definition lift {A} (r : A + exc) : act A :=
    match r with inl a => ret a | inr e => fail e end.

  (** ** The coefficients of hybrid levels *)

  (** apD[i], bD[i]: reading outside of the array is undefined *)
  Definition rdz (l : list Qc) (i : Z) : Qc + exc :=
    if (i <? 0)%Z then inr Undef
    else match nth_error l (Z.to_nat i) with Some q => inl q | None => inr Undef end.
  (** pvAp[i] = ..., pvB[i] = ... *)
  Definition wrz (l : list Qc) (i : Z) (q : Qc) : list Qc + exc :=
    if (i <? 0)%Z then inr Undef
    else if Z.to_nat i <? length l then inl (upd l (Z.to_nat i) q) else inr Undef.

  Definition ebind {A B} (m : A + exc) (f : A -> B + exc) : B + exc :=
    match m with inl a => f a | inr e => inr e end.

  (** one line of the loop body, GribApiCDMWriter_Impl2.cc:425-426 *)
  Definition pv_put (src : list Qc) (i di : Z) (pv : list Qc) : list Qc + exc :=
    ebind (rdz src i) (fun a =>
    ebind (rdz pv (i - di)) (fun b =>
    wrz pv i (Q2Qc (2 # 1) * a - b)%Qc)).

  (** the loop, line 424; [j] steps remain.  Simplification: pvAp and pvB, the two halves of one
      array, are two arrays. *)
  Fixpoint pv_loop (j : nat) (i di : Z) (ap b pa pb : list Qc) : (list Qc * list Qc) + exc :=
    match j with
    | O => inl (pa, pb)
    | S j' =>
        ebind (pv_put ap i di pa) (fun pa' =>
        ebind (pv_put b i di pb) (fun pb' => pv_loop j' (i + di)%Z di ap b pa' pb'))
    end.

  (** lines 403-430 *)
  Definition pv_of (ap b : list Qc) : list Qc + exc :=
    let n := length ap in
    if negb (length b =? n) then inr Cdm                                      (* 408-410 *)
    else
      ebind (rdz b 0) (fun b0 =>
      ebind (rdz b (Z.of_nat n - 1)) (fun bn =>
      let '(i0, di) := if qltb b0 bn then ((Z.of_nat n - 1)%Z, (-1)%Z) else (1%Z, 1%Z) in (* 413-418 *)
      ebind (pv_loop n i0 di ap b (repeat 0%Qc (S n)) (repeat 0%Qc (S n))) (fun '(pa, pb) =>
      inl (pa ++ pb)))).

  (** reading the coefficients of full levels back, GribCDMIndexer.cc:394-417: mode extraHalvLevel1
      ([second] = false) or extraHalvLevel2; [lv] are the level numbers of the messages *)
  Definition half_read (second : bool) (pv : list Qc) (lv : list nat) : option (list Qc) :=
    if length pv / 2 <? length lv then None                                   (* 396-398 *)
    else
      let off := if second then length pv / 2 else 0 in                       (* 401 *)
      let one (l : nat) : option Qc :=
        let pos := off + l - 1 in                                             (* 403 *)
        match nth_error pv pos with
        | Some x => match nth_error pv (S pos) with
                    | Some y => Some ((x + y) / Q2Qc (2 # 1))%Qc              (* 409-410 *)
                    | None => Some x                                          (* 412 *)
                    end
        | None => None                                                        (* 415 *)
        end in
      fold_right (fun l acc => match one l, acc with
                               | Some q, Some qs => Some (q :: qs)
                               | _, _ => None
                               end) (Some []) lv.

  (** ** Levels *)

  Definition set_hybrid (z : option vaxis) : act unit :=
    match z with
    | Some ax =>
        match z_hybrid ax with
        | Some (ap, b) =>
            run pv <- lift (pv_of ap b);
            run _ <- setk "PVPresent" (KL 1);
            setk "pv" (KA pv)
        | None => ret tt                                                      (* Impl2:431-433 *)
        end
    | None => ret tt
    end.

  (** setLevel, GribApiCDMWriter_Impl1.cc:351-391 and GribApiCDMWriter_Impl2.cc:360-446 *)
  Definition set_level (z : option vaxis) (lv : Qc) (pos : nat) : act unit :=
    run nodes <- lift (axis_nodes z);
    match nodes with
    | [a] =>
        run id <- need (a_id a);
        run _ <- setk (if c_edition2 cf then "levelType" else "indicatorOfTypeOfLevel") (KL id);
        if c_edition2 cf && (id =? 105)%Z then
          run _ <- set_hybrid z;
          setk "level" (KL (Z.of_nat pos + 1))                                (* Impl2:440-442 *)
        else
          run n <- lift (to_long lv);
          setk "level" (KL n)                                                 (* Impl1:390, Impl2:444 *)
    | _ => fail Cdm                                                           (* Impl1:385-389 *)
    end.

  (** ** Times *)

  (** setTime, GribApiCDMWriter_ImplAbstract.cc:376-406; None is an invalid time.  The invalid time
      used for a missing time axis is 0000-00-00, line 395. *)
  Definition set_time (rt vt : option Z) (ut : string) : act unit :=
    run (d, t, st) <-
      match rt, vt with
      | None, None => ret (10101%Z, 0%Z, 0%Z)                                 (* 395-398 *)
      | None, Some v => ret (date_of v, time_of v, 0%Z)                       (* 380-385 *)
      | Some r, Some v =>
          match write_step ut (v - r) with                                  (* 386-393 *)
          | Ok st => ret (date_of r, time_of r, st)
          | _ => fail Undef
          end
      | Some _, None => fail Undef                                            (* does not occur *)
      end;
    run _ <- setk "dataDate" (KL d);
    run _ <- setk "dataTime" (KL t);
    run _ <- setk "stepUnits" (KS ut);
    run _ <- setk "startStep" (KL st);
    setk "endStep" (KL st).

  (** ** Values *)

  Definition qeqb (a b : Qc) : bool := if Qc_eq_dec a b then true else false.

  (** handleTypeScaleAndMissingData, Impl1:393-425 and Impl2:448-480; convertDataType keeps fill
      values and scales the others *)
  Definition handle_type (v : wvar) (lv : Qc) (data : list Qc) : act (list Qc) :=
    run _ <- setk "missingValue" (KD (v_fill v));
    run _ <- setk "bitmapPresent" (KL 1);
    run (sc, off) <-
      (if String.eqb (v_unit v) "" then ret (v_scale v, v_offset v)
       else
         run p <- get_node v lv;
         if String.eqb (p_units p) "" then ret (v_scale v, v_offset v)
         else match conv (v_unit v) (p_units p) with
              | Some (sl, uo) => ret ((v_scale v * sl)%Qc, (v_offset v * sl + uo)%Qc)
              | None => fail Cdm
              end);
    ret (map (fun x => if qeqb x (v_fill v) then v_fill v else scale sc off x) data).

  (** the body of the innermost loop, GribApiCDMWriter_ImplAbstract.cc:297-323; [tpos] is the
      position set by setTimeStartAndSize *)
  Definition one_level (cs : wcs) (tpos : nat) (v : wvar) (kl : nat * Qc) : act unit :=
    let (k, lv) := kl in
    try_cdm
      (run _ <- set_level (s_z cs) lv k;
       run _ <- set_parameter v lv;
       match v_field v 0 tpos (match s_z cs with Some _ => k | None => 0 end) with
       | None => fail Cdm
       | Some [] => ret tt                                                    (* 306 *)
       | Some data =>
           if c_omit cf && forallb (fun x => qeqb x (v_fill v)) data then ret tt (* 309-312 *)
           else
             run out <- handle_type v lv data;
             run _ <- setk "values" (KA out);
             emit                                                             (* 313-316 *)
       end).

  Fixpoint number {A} (k : nat) (l : list A) : list (nat * A) :=
    match l with
    | [] => []
    | a :: l' => (k, a) :: number (S k) l'
    end.

  (** lines 290-326 *)
  Definition one_time (cs : wcs) (vars : list wvar) (levels : list Qc) (ut : string)
             (rt : option Z) (many : bool) (it : nat * option Z) : act unit :=
    let (i, vt) := it in
    each (fun v =>
            run _ <- set_time rt vt ut;
            each (one_level cs (if many then i else 0) v) (number 0 levels)) vars.

  (** the reference times and the valid times, lines 207-255: (reference times, times, unit).
      The times are those at the first reference time. *)
  Definition cs_times (cs : wcs) : (list (option Z) * list (option Z) * string) + exc :=
    match s_times cs with
    | None => inl ([unique], [unique], "s"%string)
    | Some times =>
        let refs := match s_ref cs with
                    | Some l => map Some l
                    | None => [unique]
                    end in
        match refs with
        | [] => inr Other                                                     (* 230: at(0) *)
        | _ =>
            match step_unit (times 0) with                                    (* 240-242 *)
            | Ok u => if s_tset cs && negb (length (times 0) =? 0)
                      then inl (refs, map Some (times 0), u)                  (* 244 *)
                      else inr Cdm
            | Throw => inr Cdm
            | _ => inr Undef
            end
        end
    end.

  (** the times read again for each of several reference times, lines 275-288: the position rtPos
      stays 0, and of the time dimension only the first element is requested since line 244 *)
  Definition again (cs : wcs) (refs vts : list (option Z)) : list (option Z) :=
    match s_times cs with
    | Some times => if 1 <? length refs then map Some (firstn 1 (times 0)) else vts
    | None => vts
    end.

  (** the body of the loop over coordinate systems, lines 173-331 *)
  Definition one_cs (cs : wcs) : act unit :=
    if negb (s_gridded cs) then ret tt
    else
      let vars := filter has_node (s_vars cs) in                              (* 176-185 *)
      match vars with
      | [] => ret tt
      | _ =>
          run _ <- each (fun kv => setk (fst kv) (snd kv)) (s_proj cs);       (* 189-191 *)
          if negb (s_projok cs) then ret tt                                   (* 192-196 *)
          else
            run (refs, vts0, ut) <- lift (cs_times cs);
            run levels <- lift (get_levels (s_z cs));
            each (fun rt =>
                    let vts := again cs refs vts0 in
                    each (one_time cs vars levels ut rt (1 <? length vts)) (number 0 vts))
                 refs
      end.

  (** run, lines 151-338, with setGlobalAttributes, lines 340-349 *)
  Definition write_grib (css : list wcs) : act unit :=
    run _ <- each set_attr (c_gattrs cf);
    run _ <- each set_attr (c_gvattrs cf);
    each one_cs css.
End Writer.
