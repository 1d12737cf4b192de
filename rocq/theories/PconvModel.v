(** CDMPressureConversions: parsing of the operations, the four converter factories and the converted
    data.  src/CDMPressureConversions.cc.  Values are exact reals, [None] is a missing value (NaN). *)
From Coq Require Import NArith ZArith Reals Ascii String List Bool Arith.
From Verif Require Import Base StdMap ConvertModel CdmModel StringModel PhysModel.
Import ListNotations.
Local Open Scope string_scope.
Local Open Scope list_scope.
Local Open Scope nat_scope.

(** ** the operations *)

(** std::string::find(c, pos) *)
Definition find_char (c : ascii) (s : str) (pos : nat) : option nat := find_from (Ascii.eqb c) (skipn pos s) pos.
Definition name_ (s : str) : string := string_of_list_ascii s.
(** map.insert, 651, 662: an existing entry stays *)
Definition insert {A} (k : string) (v : A) (m : smap A) : smap A := if smem k m then m else sput k v m.

(** the options, 646-664; [pos] is pos_sep, [fuel] bounds the rounds *)
Fixpoint options_loop (fuel : nat) (s : str) (pos : nat) (opts : smap string) : outcome (smap string) :=
  match fuel with
  | O => Hang
  | S fuel' =>
      if pos + 1 <? length s then
        let start := pos + 1 in
        match find_char "=" s start with
        | None => do key <- substr s start None; Ok (insert (name_ key) EmptyString opts)           (* 649-654 *)
        | Some eq =>
            let sep := find_char ";" s eq in                                                       (* 656 *)
            let fin := match sep with Some p => p | None => length s end in                          (* 658-659 *)
            do key <- substr s start (Some (eq - start));
            do val <- substr s (eq + 1) (Some (fin - eq - 1));
            let opts' := insert (name_ key) (name_ val) opts in
            match sep with None => Ok opts' | Some p => options_loop fuel' s p opts' end
        end
      else Ok opts
  end.

(** Operation, 138-147 *)
Record operation := { conversion : string; options : smap string }.
(** 639-666 *)
Definition parse_operation (s : str) : outcome operation :=
  match find_char ";" s 0 with
  | None => Ok {| conversion := name_ s; options := [] |}
  | Some p => do o <- options_loop (length s) s p []; Ok {| conversion := name_ (firstn p s); options := o |}
  end.

(** option(key, default), 143-146 *)
Definition option_or (o : operation) (key default : string) : string :=
  match sfind key (options o) with Some v => v | None => default end.
(** deriveVariableName, 185-198: the result of regex_replace is not used, so that [derived == base] *)
Definition derive_name (o : operation) (key : string) : string := option_or o key key.

(** ** the environment *)

(** what getConverter gives for pressure, 563: a null pointer, an exception, or a converter of a shape *)
Inductive vresult := VNull | VThrow | VConv (shape : list string).
(** CoordinateSystem: isCSAndCompleteFor, the shapes of the axes if present, and the vertical
    transformation if present *)
Record csys := { cs_complete : string -> bool;
                 cs_x : option (list string); cs_y : option (list string);
                 cs_z : option (list string); cs_t : option (list string);
                 cs_trans : option vresult }.

(** findCompleteCoordinateSystemFor, src/coordSys/CoordinateSystem.cc:531-538 *)
Definition find_cs (css : list csys) (n : string) : option csys := find (fun c => cs_complete c n) css.

(** a std::string in a vector of an operation: number of the operation and position *)
Definition ref := (nat * nat)%type.

(** the converters, 202-218, 293-311, 403-421, 491-507 *)
Inductive converter :=
| Theta (name : string) (cs : csys) (theta : ref)
| Humidity (name : string) (cs : csys) (specific temperature : string)
| Omega (name : string) (cs : csys) (omega temperature : string)
| Pressure4D (name : string) (vshape shape : list string).
Definition conv_name (c : converter) : string :=
  match c with Theta n _ _ => n | Humidity n _ _ _ => n | Omega n _ _ _ => n | Pressure4D n _ _ => n end.

(** regular expressions of the standard names: 89-96 *)
Definition is_name (n : string) (s : string) : bool := String.eqb s n.
Definition is_omega (s : string) : bool :=
  String.eqb s "omega" || String.eqb s "lagrangian_tendency_of_air_pressure"
  || String.eqb s "vertical_air_velocity_expressed_as_tendency_of_pressure".

(** findVariables, 158-183 *)
Definition find_candidates (inp : cdm) (o : operation) (key : string) (standard_name : string -> bool) : list string :=
  match sfind key (options o) with
  | Some n => if has_var inp n then [n] else []
  | None => find_variables inp [("standard_name", standard_name)] []
  end.

Definition text_attr (n s : string) : cattr := mkAttr n DString [] s.

(** addVariable, src/CDM.cc:146-153, getVariable, and addAttribute of a list *)
Definition add_var (c : cdm) (v : cvar) : outcome cdm :=
  if has_var c (v_name v) then Throw else Ok (mkCdm (vars c ++ [v]) (dims c) (attrs c)).
Definition get_var (c : cdm) (n : string) : outcome cvar :=
  match find_var n (vars c) with Some v => Ok v | None => Throw end.
Definition add_all (c : cdm) (n : string) (l : list cattr) : outcome cdm :=
  let '(c', ok) := add_attrs c n l in if ok then Ok c' else Throw.

Definition not_in (names : list string) (a : cattr) : bool := negb (existsb (String.eqb (a_name a)) names).

(** ** the factories; each gives the new output metadata and the converters *)
Section Factories.
Context (inp : cdm) (css : list csys) (warn : bool).

(** ThetaTemperatureConverterFactory, 258-287; the converter keeps a reference to the string in thetaV *)
Definition theta_body (o : operation) (frame : nat) (acc : cdm * list converter) (it : nat * string)
  : outcome (cdm * list converter) :=
  let '(out, convs) := acc in
  let '(i, theta) := it in
  match find_cs css theta with
  | None => Ok acc                                                                     (* 260-263 *)
  | Some cs =>
      let t := derive_name o "air_temperature" in
      if has_var out t then Ok acc                                                     (* 266-269 *)
      else
        do v <- get_var inp theta;
        do out <- add_var out (mkVar t (v_type v) (v_shape v) "" None);
        do out <- add_all out t (filter (not_in ["standard_name"; "long_name"]) (attrs_of inp theta));
        do out <- add_all out t [text_attr "standard_name" "air_temperature"];
        Ok (remove_var out theta, convs ++ [Theta t cs (frame, i)])                    (* 283-286 *)
  end.
Definition theta_candidates (o : operation) : list string :=
  find_candidates inp o "air_potential_temperature" (is_name "air_potential_temperature").
Definition create_theta (o : operation) (frame : nat) (out : cdm) : outcome (cdm * list converter) :=
  let l := theta_candidates o in
  ofold (theta_body o frame) (combine (seq 0 (length l)) l) (out, []).

Definition humidity_dropped : list string :=
  ["standard_name"; "long_name"; "units"; "scale_factor"; "add_offset"; "_FillValue"; "valid_min"; "valid_max"; "valid_range"].

(** HumidityConverterFactory, 354-396.  The loop of 361-362 advances the wrong iterator: unless the
    first temperature fits it runs behind the end of the vector.  Without any temperature the message of
    364 reads behind the end of the vector if it is written at all. *)
Definition humidity_body (o : operation) (temps : list string) (acc : cdm * list converter) (specific : string)
  : outcome (cdm * list converter) :=
  let '(out, convs) := acc in
  match find_cs css specific with
  | None => Ok acc
  | Some cs =>
      match temps with
      | [] => if warn then UB else Ok acc
      | t :: _ =>
          if negb (cs_complete cs t) then UB else
          let rh := derive_name o "relative_humidity" in
          if has_var out rh then Ok acc
          else
            do v <- get_var out specific;
            do out' <- add_var out (mkVar rh DShort (v_shape v) "" None);
            do out' <- add_all out' rh (filter (not_in humidity_dropped) (attrs_of out specific));
            do out' <- add_all out' rh [text_attr "standard_name" "relative_humidity";
                                        text_attr "long_name" ("relative humidity derived from " ++ specific ++ " and " ++ t)%string;
                                        text_attr "units" "1";
                                        mkAttr "valid_min" DInt [Some (z2q 0)] "0"; mkAttr "valid_max" DShort [Some (z2q 25000)] "25000";
                                        mkAttr "scale_factor" DFloat [Some (Qcanon.Qcdiv (z2q 1) (z2q 25000))] "4e-05"];
            Ok (out', convs ++ [Humidity rh cs specific t])
      end
  end.
Definition create_humidity (o : operation) (out : cdm) : outcome (cdm * list converter) :=
  ofold (humidity_body o (find_candidates inp o "air_temperature" (is_name "air_temperature")))
        (find_candidates inp o "specific_humidity" (is_name "specific_humidity")) (out, []).

(** OmegaVerticalConverterFactory, 448-487 *)
Definition create_omega (o : operation) (out : cdm) : outcome (cdm * list converter) :=
  match find_candidates inp o "omega" is_omega, find_candidates inp o "air_temperature" (is_name "air_temperature") with
  | [omega], [t] =>
      match find_cs css omega with
      | None => Ok (out, [])
      | Some cs =>
          if negb (cs_complete cs t) then Ok (out, []) else
          let w := derive_name o "upward_air_velocity" in
          if has_var out w then Ok (out, [])
          else
            do v <- get_var inp omega;
            do out <- add_var out (mkVar w DFloat (v_shape v) "" None);
            do out <- add_all out w [text_attr "standard_name" "upward_air_velocity"; text_attr "units" "m/s"];
            do out <- add_all out w (match get_attr inp w "coordinates" with Some a => [a] | None => [] end);     (* 480-483 *)
            Ok (remove_var out omega, [Omega w cs omega t])
      end
  | _, _ => Ok (out, [])
  end.

(** getDimension(n).getLength() *)
Definition dim_len (n : string) : outcome N :=
  match find_dim n (dims inp) with Some d => Ok (d_len d) | None => Throw end.

(** AddPressure4DConverterFactory, 544-595; the state is the converter found so far: its shape, the
    length of its z axis and shape4d *)
Definition pressure_body (best : option (list string * N * list string)) (c : csys)
  : outcome (option (list string * N * list string)) :=
  match cs_x c, cs_y c, cs_z c, cs_t c with
  | Some x, Some y, Some z, Some t =>
      do z0 <- rd (nth_error z 0);
      do n <- dim_len z0;
      if (match best with Some (_, old, _) => (n <=? old)%N | None => false end) then Ok best        (* 555-556 *)
      else match cs_trans c with
      | None => Ok best                                                                         (* 558-559 *)
      | Some VNull => Ok best                                                                   (* 564-565 *)
      | Some vr =>
          do x0 <- rd (nth_error x 0);
          do y0 <- rd (nth_error y 0);
          do t0 <- rd (nth_error t 0);
          let pshape := [x0; y0; z0; t0] in
          match vr with
          | VConv vshape =>
              do other <- omapM (fun d => if existsb (String.eqb d) pshape then Ok false
                                          else do k <- dim_len d; Ok (1 <? k)%N) vshape;
              if existsb (fun b => b) other then Ok best else Ok (Some (vshape, n, pshape))
          | _ => UB                                                       (* 577: null pointer after the exception *)
          end
      end
  | _, _, _, _ => Ok best                                                                       (* 550-551 *)
  end.
Definition create_pressure (o : operation) (out : cdm) : outcome (cdm * list converter) :=
  let p := option_or o "air_pressure4D" "air_pressure4D" in
  if has_var out p then Ok (out, [])
  else
    do best <- ofold pressure_body css None;
    match best with
    | None => Throw                                                                             (* 597 *)
    | Some (vshape, _, shape) =>
        do out <- add_var out (mkVar p DFloat shape "" None);
        do out <- add_all out p [text_attr "units" "hPa"; text_attr "standard_name" "air_pressure"];
        Ok (out, [Pressure4D p vshape shape])
    end.

(** ** the constructor, 630-689 *)
(** the output metadata, the converters, and for every operation the strings it has allocated ([None] when
    its vector is gone) *)
Record conversions := { c_out : cdm; c_convs : smap converter; c_frames : list (option (list string)) }.

(** the factory of a conversion, 248, 342, 442, 527, 668-676 *)
Definition create (o : operation) (frame : nat) (out : cdm) : outcome (cdm * list converter) :=
  if String.eqb (conversion o) "specific2relative" then create_humidity o out
  else if String.eqb (conversion o) "theta2T" then create_theta o frame out
  else if String.eqb (conversion o) "omega2vwind" then create_omega o out
  else if String.eqb (conversion o) "add4Dpressure" then create_pressure o out
  else Throw.                                                                                   (* 686 *)

Definition operation_step (st : conversions) (op : str) : outcome conversions :=
  do o <- parse_operation op;
  do (out, convs) <- create o (length (c_frames st)) (c_out st);
  Ok {| c_out := out;
        c_convs := fold_left (fun m c => insert (conv_name c) c m) convs (c_convs st);          (* 681-684 *)
        c_frames := c_frames st ++ [None] |}.                                                   (* thetaV is destroyed *)

Definition construct (ops : list str) : outcome conversions :=
  ofold operation_step ops {| c_out := inp; c_convs := []; c_frames := [] |}.
End Factories.

(** ** the data *)
Local Open Scope R_scope.
Definition floats := list (option R).

Record source := { s_pressure : csys -> outcome floats;                       (* verticalData4D in hPa *)
                   s_pressure4d : list string -> outcome floats;
                   s_slice : string -> outcome floats;                            (* getDataSlice *)
                   s_scaled : string -> string -> outcome floats;                 (* getScaledDataSliceInUnit *)
                   s_offset : string -> R }.                                      (* getAddOffset *)

(** checkData, VerticalTransformationUtils.cc:440-445 *)
Definition check_size (n : nat) (d : floats) : outcome floats := if Nat.eqb (length d) n then Ok d else Throw.

Definition RCP : R := GAS_CONSTANT / MOLAR_MASS / 1004.
(** pow(x, RCP) *)
Definition pow_rcp (x : R) : option R :=
  if Rlt_dec 0 x then Some (Rpower x RCP) else if Req_EM_T x 0 then Some 0 else None.

Definition lift2 (f : R -> R -> option R) (a b : option R) : option R :=
  match a, b with Some a, Some b => f a b | _, _ => None end.
(** 236 *)
Definition theta_value (offset theta p : R) : option R :=
  match pow_rcp (p * (1 / 1000)) with Some f => Some ((theta + offset) * f - offset) | None => None end.

(** (short) of a float: truncation; not defined for NaN and outside the range *)
Definition trunc (x : R) : Z := if Rle_dec 0 x then Int_part x else (- Int_part (- x))%Z.
Definition to_short (x : R) : outcome Z :=
  let z := trunc x in if (-32768 <=? z)%Z && (z <=? 32767)%Z then Ok z else UB.
(** 328-330 with c100 = 1 *)
Definition humidity_value (sh t p : R) : outcome Z := to_short (25000 * specific_to_relative sh t p + 1 / 2).
Definition humidity_cell (c : option R * (option R * option R)) : outcome Z :=
  match c with
  | (Some sh, (Some t, Some p)) => humidity_value sh t p
  | _ => UB
  end.
(** mifi_omega_to_vertical_wind *)
Definition omega_cell (c : option R * (option R * option R)) : option R :=
  match c with
  | (Some o, (Some p, Some t)) => Some ((- BAROMETRIC_FACTOR) * o * t / p)
  | _ => None
  end.

Inductive pdata := Shorts (l : list Z) | Floats (l : floats).

(** the string a reference points to *)
Definition deref (frames : list (option (list string))) (r : ref) : outcome string :=
  match nth_error frames (fst r) with
  | Some (Some l) => rd (nth_error l (snd r))
  | _ => UB
  end.

(** getDataSlice, 693-701 with 220-239, 313-333, 423-433, 509-518 *)
Definition convert (src : source) (frames : list (option (list string))) (c : converter) : outcome pdata :=
  match c with
  | Theta _ cs r =>
      do p <- s_pressure src cs;
      do theta <- deref frames r;
      do raw <- s_slice src theta;
      do raw <- check_size (length p) raw;
      Ok (Floats (map (fun x => lift2 (theta_value (s_offset src theta)) (fst x) (snd x)) (combine raw p)))
  | Humidity _ cs sp t =>
      do p <- s_pressure src cs;
      do sh <- s_scaled src sp "1"; do sh <- check_size (length p) sh;
      do airt <- s_scaled src t "K"; do airt <- check_size (length p) airt;
      do l <- omapM humidity_cell (combine sh (combine airt p)); Ok (Shorts l)
  | Omega _ cs om t =>
      do p <- s_pressure src cs;
      do airt <- s_scaled src t "K"; do airt <- check_size (length p) airt;
      do o <- s_scaled src om "hPa/s"; do o <- check_size (length p) o;
      Ok (Floats (map omega_cell (combine o (combine p airt))))
  | Pressure4D _ vshape _ => do p <- s_pressure4d src vshape; Ok (Floats p)
  end.
Definition get_slice (src : source) (st : conversions) (name : string) : outcome pdata :=
  match sfind name (c_convs st) with
  | None => do d <- s_slice src name; Ok (Floats d)
  | Some c => convert src (c_frames st) c
  end.
