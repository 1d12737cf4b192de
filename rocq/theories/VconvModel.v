(** The vertical converters that evaluate a formula in every cell:
    src/coordSys/verticalTransform/*Converter.cc and AtmosphereHybridHeight.cc, getDataSlice.
    Variables of the reader are given by their values in the unit of the converter (doubles are any
    type [V]; real numbers in the instances at the end). *)
From Coq Require Import String List Arith NArith ZArith Bool Reals.
From Verif Require Import Base IndexSpec SliceModel LoopModel PhysModel.
Import ListNotations.
Local Open Scope string_scope.
Local Open Scope list_scope.
Local Open Scope nat_scope.

(** ArrayGroup::minimizeShared, src/ArrayLoop.cc:216-222, on a finished group *)
Definition lower (n : nat) (g : group) : group :=
  {| g_names := g_names g; g_lens := g_lens g; g_arrays := g_arrays g; g_shared := minimize (g_shared g) n |}.

Section Converter.
  Context {V : Type}.

  (** a variable of the reader (or the result of another converter): names and lengths of its
      dimensions, its values; [None]: the reader returns no data *)
  Record var := mkVar { v_names : list string; v_dims : list nat; v_data : option (list V) }.

  (** a request: the dimensions of the SliceBuilder in order, with start and size *)
  Definition request := list (string * (nat * nat)).
  Fixpoint asked (d : string) (rq : request) : option (nat * nat) :=
    match rq with
    | [] => None
    | (n, r) :: rq' => if String.eqb d n then Some r else asked d rq'
    end.
  (** adaptSliceBuilder and copySliceBuilder, VerticalTransformationUtils.cc:246-288, for one dimension
      of the variable (C78): the start and size of the request, or the whole dimension.  A part outside
      of the dimension throws (for the unlimited dimension only in the reader). *)
  Definition part_of (rq : request) (nd : string * nat) : outcome (nat * nat) :=
    match asked (fst nd) rq with
    | Some (s, z) => if snd nd <? s + z then Throw else Ok (s, z)
    | None => Ok (0, snd nd)
    end.

  (** Var and VarDouble, VerticalTransformationUtils.cc:447-483: dimensions with their sizes in the
      request, values if the reader has data *)
  Record input := mkInput { i_names : list string; i_lens : list nat; i_vals : option (list V) }.
  Definition read_var (rq : request) (v : var) : outcome input :=
    do rs <- omapM (part_of rq) (combine (v_names v) (v_dims v));
    match v_data v with
    | None => Ok {| i_names := v_names v; i_lens := map snd rs; i_vals := None |}
    | Some data =>
        do part <- slice data (map N.of_nat (v_dims v)) (map (fun r => N.of_nat (fst r)) rs) (map (fun r => N.of_nat (snd r)) rs);
        Ok {| i_names := v_names v; i_lens := map snd rs; i_vals := Some part |}
    end.

  (** a term of a formula: the variable; whether the formula function gets a pointer to its values
      (&x.values[loop[X]], read in step with the output) or one value (x.values[loop[X]]); whether
      getDataSlice checks that it has data *)
  Record term := mkTerm { t_var : var; t_each : bool; t_checked : bool }.

  (** the value of a term for element [j] of the turn with position [p] *)
  Definition value_at (x : bool * input * Z) (j : nat) : outcome V :=
    let '(each, i, p) := x in
    do vals <- rd (i_vals i);
    rd (nth_error vals (Z.to_nat p + (if each : bool then j else 0))).

  (** one turn of the loop: [f] for every element of the shared volume, written to the output at
      [p_out] + j; the output is uninitialised before *)
  Definition turn (f : list V -> V) (sv : nat) (ins : list (bool * input)) (at_out : nat)
    (out : list (option V)) (idx : list Z) : outcome (list (option V)) :=
    do p_out <- rd (nth_error idx at_out);
    let ps := firstn at_out idx ++ skipn (at_out + 1) idx in
    ofold (fun o j => do vs <- omapM (fun x => value_at x j) (combine ins ps); wr o (Z.to_nat p_out + j) (Some (f vs)))
          (seq 0 sv) out.

  (** the body common to the getDataSlice methods: the inputs [pre] are added to the group before the
      output, [post] (only eta of the ocean coordinates) after it; [low] is minimizeShared(0) of
      AltitudeHeightConverter.cc:122.  The null DataPtr is [Ok None]. *)
  Definition convert (f : list V -> V) (low : bool) (pre post : list term) (rq : request) : outcome (option (list V)) :=
    do is <- omapM (fun t => read_var rq (t_var t)) pre;
    do is' <- omapM (fun t => read_var rq (t_var t)) post;
    if existsb (fun ti => t_checked (fst ti) && match i_vals (snd ti) with None => true | Some _ => false end)
         (combine (pre ++ post) (is ++ is'))
    then Ok None
    else
      do ds <- omapM (fun i => make_dims (i_names i) (i_lens i)) is;
      do o <- make_dims (map fst rq) (map (fun r => snd (snd r)) rq);
      do ds' <- omapM (fun i => make_dims (i_names i) (i_lens i)) is';
      do g0 <- make_group (ds ++ o :: ds');
      let g := if low then lower 0 g0 else g0 in
      do r <- loop (cells (outer_lens g)) g;
      do out <- ofold (turn f (shared_volume g) (combine (map t_each (pre ++ post)) (is ++ is')) (List.length pre))
                      r (repeat None (volume o));
      do vals <- omapM rd out;
      Ok (Some vals).
End Converter.
Arguments var : clear implicits.
Arguments input : clear implicits.
Arguments term : clear implicits.

(** ** the converters *)
Local Open Scope R_scope.
Definition one (l : list R) : R := hd 0 l.
Definition each (v : var R) : term R := mkTerm v true true.
Definition single (v : var R) : term R := mkTerm v false true.
(** a term whose data are not checked *)
Definition unchecked (t : term R) : term R := mkTerm (t_var t) (t_each t) false.

(** SigmaToPressureConverter.cc:50-72 (members sigma_, ptop_, ps_) *)
Definition sigma_converter (sigma ptop ps : var R) (rq : request) : outcome (option (list R)) :=
  convert (fun vs => match vs with [ps; ptop; s] => one (sigma_pressure ptop ps [s]) | _ => 0 end)
          false [single ps; single ptop; each sigma] [] rq.
(** HybridSigmaApToPressureConverter.cc:71-101; p0_ is not used *)
Definition hybrid_ap_converter (ap b ps : var R) (rq : request) : outcome (option (list R)) :=
  convert (fun vs => match vs with [ps; ap; b] => one (hybrid_sigma_ap ps [ap] [b]) | _ => 0 end)
          false [single ps; each ap; each b] [] rq.
(** HybridSigmaToPressureConverter.cc:65-91: p0 is the first value of its variable at position 0 of
    the unlimited dimension (getDataSliceInUnit, src/CDMReaderUtils.cc:86-91; [p0_record] are the
    values there).  Without data a null pointer is dereferenced, front() of no values is undefined.
    (The check of the other inputs comes first.) *)
Definition hybrid_converter (a b ps : var R) (p0_record : option (list R)) (rq : request) : outcome (option (list R)) :=
  match p0_record with
  | Some (p0 :: _) =>
      convert (fun vs => match vs with [ps; a; b] => one (hybrid_sigma p0 ps [a] [b]) | _ => 0 end)
              false [single ps; each a; each b] [] rq
  | _ =>
      do r <- convert (fun _ => 0) false [single ps; each a; each b] [] rq;
      match r with None => Ok None | Some _ => UB end
  end.
(** LnPressureToPressureConverter.cc:51-72 *)
Definition ln_converter (lnp p0 : var R) (rq : request) : outcome (option (list R)) :=
  convert (fun vs => match vs with [p0; l] => one (ln_pressure p0 [l]) | _ => 0 end)
          false [single p0; each lnp] [] rq.
(** HybridToAltitudeConverter::getDataSlice, AtmosphereHybridHeight.cc:66-88: line 71 tests [a] twice
    and [b] never *)
Definition hybrid_height_converter (a b orog : var R) (rq : request) : outcome (option (list R)) :=
  convert (fun vs => match vs with [orog; b; a] => one (hybrid_height orog [a] [b]) | _ => 0 end)
          false [single orog; unchecked (each b); each a] [] rq.
(** OceanSCoordinateGToDepthConverter.cc:64-107: [func] is mifi_ocean_s_g1_z or mifi_ocean_s_g2_z;
    depth_c is one value, 0 without data (71-72); eta is optional and added after the output (86-92),
    its data are not checked; the result is negated (101-102) *)
Definition ocean_converter (func : R -> R -> R -> list R -> list R -> list R)
  (s c depth : var R) (depth_c : option R) (eta : option (var R)) (rq : request) : outcome (option (list R)) :=
  let hc := match depth_c with Some x => x | None => 0 end in
  match eta with
  | None => convert (fun vs => match vs with [s; c; h] => - one (func h hc 0 [s] [c]) | _ => 0 end)
                    false [each s; each c; single depth] [] rq
  | Some e => convert (fun vs => match vs with [s; c; h; z] => - one (func h hc z [s] [c]) | _ => 0 end)
                      false [each s; each c; single depth] [unchecked (single e)] rq
  end.
(** AltitudeHeightConverter.cc:110-130 with the factor of 83-100: +1 to get the altitude, -1 to get the
    height, divided by the gravity if the topography variable is a geopotential *)
Definition height_converter (add geopotential : bool) (topo other : var R) (rq : request) : outcome (option (list R)) :=
  let factor := (if add then 1 else -1) / (if geopotential then GRAVITY else 1) in
  convert (fun vs => match vs with [topo; x] => x + factor * topo | _ => 0 end)
          true [single topo; single other] [] rq.

(** ** from the formula terms of a file to the converters *)

(** CF1_xCoordSysBuilder.cc:504-507 calls the constructor of AtmosphereSigma
    (include/fimex/coordSys/verticalTransform/AtmosphereSigma.h:52: sigma, ps, ptop) *)
Record atmosphere_sigma := mkSigma { as_sigma : var R; as_ps : var R; as_ptop : var R }.
Definition cf_sigma (sigma ptop ps : var R) : atmosphere_sigma := {| as_sigma := sigma; as_ps := ptop; as_ptop := ps |}.
(** AtmosphereSigma.cc:34-37, getPressureConverter: the arguments of the constructor of
    SigmaToPressureConverter (SigmaToPressureConverter.h:49: sigma, ptop, ps) are sigma, ps, ptop *)
Definition sigma_pressures (t : atmosphere_sigma) : request -> outcome (option (list R)) :=
  sigma_converter (as_sigma t) (as_ps t) (as_ptop t).

(** a variable with the values getDataSliceInUnit(.., 0) returns for it *)
Record recvar := mkRec { rv_var : var R; rv_record : option (list R) }.
(** HybridSigmaPressure2.h:55 (a, b, ps, p0) as called by CF1_xCoordSysBuilder.cc:494 *)
Record hybrid2 := mkHybrid2 { h2_a : var R; h2_b : var R; h2_ps : recvar; h2_p0 : recvar }.
Definition cf_hybrid2 (a b : var R) (ps p0 : recvar) : hybrid2 := mkHybrid2 a b ps p0.
(** createConverter and the constructor, HybridSigmaToPressureConverter.h:44-61 and .cc:49-53:
    a, b, ps, p0 *)
Definition create_hybrid (a b : var R) (ps p0 : recvar) : request -> outcome (option (list R)) :=
  hybrid_converter a b (rv_var ps) (rv_record p0).
(** HybridSigmaPressure2.cc:33-36: the arguments are a, b, p0, ps *)
Definition hybrid2_pressures (t : hybrid2) : request -> outcome (option (list R)) :=
  create_hybrid (h2_a t) (h2_b t) (h2_p0 t) (h2_ps t).
(** HybridSigmaPressure1.cc:32-35 *)
Definition hybrid1_pressures (ap b ps : var R) : request -> outcome (option (list R)) := hybrid_ap_converter ap b ps.
