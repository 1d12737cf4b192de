(** Vertical coordinate transformations: src/vertical_coordinate_transformations.c:29-232 and the
    hypsometric integration of src/coordSys/verticalTransform/PressureIntegrationToAltitudeConverter.cc.
    Floats are real numbers (no rounding, NaN or infinities).  The C functions loop over n values; the
    loop is the map of the one-value function over the list. *)
From Coq Require Import Reals List ZArith.
From Verif Require Import Base FillModel.
Import ListNotations.
Local Open Scope R_scope.

(** 29-35 *)
Definition ln_pressure (p0 : R) (lev : list R) : list R := map (fun l => p0 * exp (- l)) lev.
(** 37-44 *)
Definition sigma_pressure (ptop ps : R) (sigma : list R) : list R := map (fun s => ptop + s * (ps - ptop)) sigma.
(** 46-54 *)
Definition pressure_sigma (ptop ps : R) (p : list R) : list R := map (fun v => (v - ptop) * (1 / (ps - ptop))) p.

(** two input lists read in step *)
Definition map2 (f : R -> R -> R) (a b : list R) : list R := map (fun p => f (fst p) (snd p)) (combine a b).

(** 56-62, 64-70, 72-78 *)
Definition hybrid_sigma (p0 ps : R) (a b : list R) : list R := map2 (fun a b => a * p0 + b * ps) a b.
Definition hybrid_sigma_ap (ps : R) (ap b : list R) : list R := map2 (fun ap b => ap + b * ps) ap b.
Definition hybrid_height (orog : R) (a b : list R) : list R := map2 (fun a b => a + b * orog) a b.

(** mifi_constants.h:235-244 and lines 80-84 *)
Definition GAS_CONSTANT : R := 8.31432.
Definition GRAVITY : R := 9.80665.
Definition MOLAR_MASS : R := 0.0289644.
Definition T0 : R := 273.15.
Definition BAROMETRIC_FACTOR : R := GAS_CONSTANT / (GRAVITY * MOLAR_MASS).
Definition MOL_WEIGHT_RATIO : R := 0.622.
Definition Z_MOL_WEIGHT_RATIO : R := 0.60771704180064308681.

(** 86-93, 95-98 *)
Definition barometric_pressure (Pb : R) (h : list R) (Tb : R) : list R :=
  let C := - (1) / (BAROMETRIC_FACTOR * Tb) in map (fun z => Pb * exp (C * z)) h.
Definition standard_pressure (h : list R) : list R := barometric_pressure 1013.25 h 288.15.
(** 101-108, 110-113 *)
Definition barometric_height (Pb : R) (p : list R) (Tb : R) : list R :=
  let K := - BAROMETRIC_FACTOR * Tb in map (fun v => K * ln (v / Pb)) p.
Definition standard_altitude (p : list R) : list R := barometric_height 1013.25 p 288.15.
(** 115-118 *)
Definition virtual_temperature (q T : R) : R := (1 + Z_MOL_WEIGHT_RATIO * q) * T.
(** mifi_humidity_es, 120-128 *)
Definition humidity_es (t : R) : R := 610.78 * exp ((17.269 * (t - 273.16)) / (t - 35.86)).
(** 130-137 *)
Definition relative_to_specific (rh t p : R) : R :=
  let sh := rh * 0.01 * humidity_es t * MOL_WEIGHT_RATIO / p in
  if Rlt_dec sh 0 then 0 else sh.
(** 139-148 *)
Definition specific_to_relative (sh t p : R) : R :=
  let rh := 100 * sh * p / (humidity_es t * MOL_WEIGHT_RATIO) in
  if Rlt_dec rh 0 then 0 else if Rlt_dec 100 rh then 100 else rh.
(** 150-158 *)
Definition dewpoint_to_relative (dew t : R) : R :=
  let tc := t - T0 in
  let dc := dew - T0 in
  let rh := 100 * exp (17.625 * dc / (243.04 + dc) - 17.625 * tc / (243.04 + tc)) in
  if Rlt_dec 100 rh then 100 else rh.
(** 161-164 *)
Definition layer_thickness (plow phigh T : R) : R := ln (plow / phigh) * T * BAROMETRIC_FACTOR.
(** 166-174 *)
Definition ocean_g1 (h hc zeta : R) (sigma C : list R) : list R :=
  map2 (fun s c => let S := hc * s + (h - hc) * c in S + zeta * (1 + S * (1 / h))) sigma C.
(** 175-183 *)
Definition ocean_g2 (h hc zeta : R) (sigma C : list R) : list R :=
  map2 (fun s c => let S := 1 / (h + hc) * (hc * s + h * c) in zeta + (zeta + h) * S) sigma C.
(** three input lists read in step *)
Definition map3 (f : R -> R -> R -> R) (a b c : list R) : list R :=
  map (fun p => f (fst (fst p)) (snd (fst p)) (snd p)) (combine (combine a b) c).
(** 186-200; 202-216 is the same for float *)
Definition omega_to_w (omega p t : list R) : list R := map3 (fun o p t => (- BAROMETRIC_FACTOR) * o * t / p) omega p t.
(** 218-232 *)
Definition w_to_omega (w p t : list R) : list R := map3 (fun w p t => (w * p) / ((- BAROMETRIC_FACTOR) * t)) w p t.

(** ** Altitude of the levels of one column by the hypsometric equation:
    PressureIntegrationToAltitudeConverter::getDataSlice (84-213 of the file), for one turn of the
    outer loop.  The pressure is read for the whole column ([pressure], n_z values, line 100-101);
    [temps] holds the (virtual) temperatures of the levels [sb_z_begin, sb_z_begin + sb_z_size) that the
    widened slice asks for, so index [iz_in] is relative to [sb_z_begin].  The requested levels are
    [zs, zs + zn).  Reads and writes outside of an array are [UB]. *)
Local Open Scope Z_scope.

(** 127-148: whether the pressure is highest at the first level, the levels to read, and the start
    positions *)
Record plan := { z_step : Z; p_in0 : Z; in0 : Z; out0 : Z; z_begin : Z; z_size : Z }.
Definition make_plan (start_high : bool) (n_z zs zn : Z) : plan :=
  if start_high then {| z_step := 1; p_in0 := 0; in0 := 0; out0 := - zs; z_begin := 0; z_size := zs + zn |}
  else {| z_step := -1; p_in0 := n_z - 1; in0 := n_z - zs - 1; out0 := n_z - zs - 1; z_begin := zs; z_size := n_z - zs |}.

(** the loop over the levels, 191-210; state: altitude, lower pressure, and the output *)
Definition level_step (pl : plan) (zn : Z) (pressure temps : list R) (i : Z) (st : R * R * list R)
  : outcome (R * R * list R) :=
  let '(a, plow, out) := st in
  do phigh <- getz pressure (p_in0 pl + i * z_step pl);
  do T <- getz temps (in0 pl + i * z_step pl);
  let a' := (a + layer_thickness plow phigh T)%R in
  let o := out0 pl + i * z_step pl in
  do out' <- (if andb (0 <=? o) (o <? zn) then setz out o a' else Ok out);
  Ok (a', phigh, out').

Fixpoint levels (pl : plan) (zn : Z) (pressure temps : list R) (k : nat) (i : Z) (st : R * R * list R)
  : outcome (R * R * list R) :=
  match k with
  | O => Ok st
  | S k' => do st' <- level_step pl zn pressure temps i st; levels pl zn pressure temps k' (i + 1) st'
  end.

(** [temp] is the temperature of the whole column; the reader cuts [z_begin, z_begin + z_size) out of it *)
Definition column_altitude (sgp sap : R) (pressure temp : list R) (zs zn : nat) : outcome (list R) :=
  match pressure with
  | [] => UB
  | pfirst :: _ =>
      let n_z := Z.of_nat (length pressure) in
      let start_high := if Rlt_dec (last pressure pfirst) pfirst then true else false in
      let pl := make_plan start_high n_z (Z.of_nat zs) (Z.of_nat zn) in
      let temps := firstn (Z.to_nat (z_size pl)) (skipn (Z.to_nat (z_begin pl)) temp) in
      do r <- levels pl (Z.of_nat zn) pressure temps (Z.to_nat (z_size pl)) 0
                ((sgp / GRAVITY)%R, sap, repeat 0%R zn);
      Ok (snd r)
  end.
