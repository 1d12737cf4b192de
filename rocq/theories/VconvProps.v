(** C103: vertical converters evaluate their formula in every cell of the request. *)
From Coq Require Import String List Arith NArith ZArith Bool Lia Reals Lra.
From Verif Require Import Base IndexSpec SliceModel LoopModel PhysModel VconvModel VconvProofs.
Import ListNotations.
Local Open Scope string_scope.
Local Open Scope list_scope.
Local Open Scope R_scope.

(** [sound len rq]: the request lies inside of the dimensions (lengths [len]).
    [stored len rq v data]: the variable [v] of the file with its complete data; a dimension the request
    does not have has length 1.
    [value_of rq v t]: the stored value of [v] for the cell [t] of the request: in every dimension the
    start of the request plus the position in the request. *)
(** not all variables and the output have the same first (fastest) dimension *)
Definition spread (rq : request) (vs : list (var R)) : Prop :=
  exists a b, In a (map fst rq :: map v_names vs) /\ In b (map fst rq :: map v_names vs) /\ hd_error a <> hd_error b.

(** the result: in every cell [h] of the values of the variables *)
Definition gives (r : outcome (option (list R))) (rq : request) (vs : list (var R)) (h : list R -> R) : Prop :=
  exists out, r = Ok (Some out) /\ List.length out = cells (sizes rq) /\
    forall t, inside (sizes rq) t -> exists xs, Forall2 (fun v x => value_of rq v t = Some x) vs xs /\
      nth_error out (lin (sizes rq) t) = Some (h xs).

Lemma gives_convert len rq f low (pre post : list (term R)) : sound len rq ->
  (forall te, In te (pre ++ post) -> exists data, stored len rq (t_var te) data) ->
  low = true \/ spread rq (map t_var (pre ++ post)) ->
  gives (convert f low pre post rq) rq (map t_var (pre ++ post)) f.
Proof.
  intros SO ST K. destruct (convert_ok len rq SO f low pre post ST) as (out & E & L & H).
  - destruct K as [ K | (a & b & A & B & N) ]; [ now left | right; right ]. exists a, b. unfold name_lists. rewrite map_map in A, B. auto.
  - exists out. split; [ exact E | ]. split; [ exact L | ]. intros t It. destruct (H t It) as (vs & F & Hv). exists vs. split; [ | exact Hv ].
    clear - F. induction F; cbn; constructor; auto.
Qed.
Lemma gives_ext r rq vs h h' : (forall xs, List.length xs = List.length vs -> h xs = h' xs) -> gives r rq vs h -> gives r rq vs h'.
Proof.
  intros H (out & E & L & V). exists out. split; [ exact E | ]. split; [ exact L | ]. intros t It. destruct (V t It) as (xs & F & Hv). exists xs. split; [ exact F | ].
  rewrite Hv, H; [ reflexivity | ]. symmetry. clear - F. induction F; cbn; auto.
Qed.

Ltac each_term := let te := fresh in let I := fresh in intros te I; cbn in I;
  repeat match goal with H : _ \/ _ |- _ => destruct H as [ <- | H ] | H : False |- _ => destruct H end; cbn; eauto.
Ltac by_length := let xs := fresh "xs" in let L := fresh in intros xs L; cbn in L;
  repeat (destruct xs as [ | ? xs ]; [ try discriminate L | ]; try (exfalso; discriminate L)); cbn; try reflexivity.

(** ** the transformations set up from the formula terms of a file *)
Theorem C103_sigma len rq sigma ptop ps d1 d2 d3 : sound len rq -> stored len rq sigma d1 -> stored len rq ptop d2 -> stored len rq ps d3 ->
  spread rq [ps; ptop; sigma] ->
  gives (sigma_pressures (cf_sigma sigma ptop ps) rq) rq [ps; ptop; sigma]
    (fun xs => let ps := nth 0 xs 0 in let ptop := nth 1 xs 0 in let s := nth 2 xs 0 in ptop + s * (ps - ptop)).
Proof.
  intros SO S1 S2 S3 SP. unfold sigma_pressures, cf_sigma, sigma_converter. cbn [as_sigma as_ps as_ptop]. eapply gives_ext; [ | apply (gives_convert len); [ exact SO | each_term | right; exact SP ] ].
  by_length.
Qed.
Theorem C103_hybrid_ap len rq ap b ps d1 d2 d3 : sound len rq -> stored len rq ap d1 -> stored len rq b d2 -> stored len rq ps d3 ->
  spread rq [ps; ap; b] ->
  gives (hybrid1_pressures ap b ps rq) rq [ps; ap; b] (fun xs => let ps := nth 0 xs 0 in let ap := nth 1 xs 0 in let b := nth 2 xs 0 in ap + b * ps).
Proof.
  intros SO S1 S2 S3 SP. unfold hybrid1_pressures, hybrid_ap_converter. eapply gives_ext; [ | apply (gives_convert len); [ exact SO | each_term | right; exact SP ] ].
  by_length.
Qed.
Theorem C103_ln len rq lnp p0 d1 d2 : sound len rq -> stored len rq lnp d1 -> stored len rq p0 d2 -> spread rq [p0; lnp] ->
  gives (ln_converter lnp p0 rq) rq [p0; lnp] (fun xs => nth 0 xs 0 * exp (- nth 1 xs 0)).
Proof.
  intros SO S1 S2 SP. unfold ln_converter. eapply gives_ext; [ | apply (gives_convert len); [ exact SO | each_term | right; exact SP ] ]. by_length.
Qed.
Theorem C103_hybrid_height len rq a b orog d1 d2 d3 : sound len rq -> stored len rq a d1 -> stored len rq b d2 -> stored len rq orog d3 ->
  spread rq [orog; b; a] ->
  gives (hybrid_height_converter a b orog rq) rq [orog; b; a] (fun xs => let orog := nth 0 xs 0 in let b := nth 1 xs 0 in let a := nth 2 xs 0 in a + b * orog).
Proof.
  intros SO S1 S2 S3 SP. unfold hybrid_height_converter. eapply gives_ext; [ | apply (gives_convert len); [ exact SO | each_term | right; exact SP ] ]. by_length.
Qed.

(** ocean s-coordinates: the depth, positive down; without eta its value is 0 *)
Definition g1_height (h hc zeta s c : R) : R := let S := hc * s + (h - hc) * c in S + zeta * (1 + S / h).
Definition g2_height (h hc zeta s c : R) : R := let S := (hc * s + h * c) / (h + hc) in zeta + (zeta + h) * S.
Theorem C103_ocean len rq s c depth eta hc d1 d2 d3 d4 : sound len rq -> stored len rq s d1 -> stored len rq c d2 -> stored len rq depth d3 -> stored len rq eta d4 ->
  spread rq [s; c; depth] ->
  gives (ocean_converter ocean_g1 s c depth (Some hc) (Some eta) rq) rq [s; c; depth; eta]
    (fun xs => - g1_height (nth 2 xs 0) hc (nth 3 xs 0) (nth 0 xs 0) (nth 1 xs 0)) /\
  gives (ocean_converter ocean_g2 s c depth (Some hc) (Some eta) rq) rq [s; c; depth; eta]
    (fun xs => - g2_height (nth 2 xs 0) hc (nth 3 xs 0) (nth 0 xs 0) (nth 1 xs 0)) /\
  gives (ocean_converter ocean_g1 s c depth (Some hc) None rq) rq [s; c; depth]
    (fun xs => - g1_height (nth 2 xs 0) hc 0 (nth 0 xs 0) (nth 1 xs 0)) /\
  gives (ocean_converter ocean_g2 s c depth (Some hc) None rq) rq [s; c; depth]
    (fun xs => - g2_height (nth 2 xs 0) hc 0 (nth 0 xs 0) (nth 1 xs 0)).
Proof.
  intros SO S1 S2 S3 S4 SP.
  assert (SP4 : spread rq [s; c; depth; eta]).
  { destruct SP as (x & y & X & Y & N). exists x, y. cbn in *. tauto. }
  unfold ocean_converter.
  split; [ | split; [ | split ] ]; (eapply gives_ext; [ | apply (gives_convert len); [ exact SO | each_term | right; first [ exact SP4 | exact SP ] ] ]);
    by_length; unfold one, ocean_g1, ocean_g2, g1_height, g2_height; cbn; unfold Rdiv; ring.
Qed.

(** altitude from height and height from altitude: no condition on the dimensions *)
Theorem C103_height len rq topo other d1 d2 (add geopotential : bool) : sound len rq -> stored len rq topo d1 -> stored len rq other d2 ->
  gives (height_converter add geopotential topo other rq) rq [topo; other]
    (fun xs => let z := if geopotential then nth 0 xs 0 / 9.80665 else nth 0 xs 0 in if add then nth 1 xs 0 + z else nth 1 xs 0 - z).
Proof.
  intros SO S1 S2. unfold height_converter. eapply gives_ext; [ | apply (gives_convert len); [ exact SO | each_term | now left ] ].
  by_length. unfold GRAVITY. destruct add, geopotential; cbn; field; lra.
Qed.

(** the hybrid coordinate with a and p0: the converter alone, created with surface pressure and
    reference pressure in the order of its declaration *)
Theorem C103_hybrid len rq a b ps p0 p rest d1 d2 d3 : sound len rq -> stored len rq a d1 -> stored len rq b d2 -> stored len rq (rv_var ps) d3 ->
  rv_record p0 = Some (p :: rest) -> spread rq [rv_var ps; a; b] ->
  gives (create_hybrid a b ps p0 rq) rq [rv_var ps; a; b] (fun xs => let ps := nth 0 xs 0 in let a := nth 1 xs 0 in let b := nth 2 xs 0 in a * p + b * ps).
Proof.
  intros SO S1 S2 S3 R SP. unfold create_hybrid, hybrid_converter. rewrite R. eapply gives_ext; [ | apply (gives_convert len); [ exact SO | each_term | right; exact SP ] ].
  by_length.
Qed.
(** the transformation of a file exchanges them: a times the first surface pressure of the file plus b
    times the reference pressure *)
Theorem C103_hybrid_exchanged len rq a b ps p0 p rest d1 d2 d3 : sound len rq -> stored len rq a d1 -> stored len rq b d2 -> stored len rq (rv_var p0) d3 ->
  rv_record ps = Some (p :: rest) -> spread rq [rv_var p0; a; b] ->
  gives (hybrid2_pressures (cf_hybrid2 a b ps p0) rq) rq [rv_var p0; a; b] (fun xs => let p0 := nth 0 xs 0 in let a := nth 1 xs 0 in let b := nth 2 xs 0 in a * p + b * p0).
Proof.
  intros SO S1 S2 S3 R SP. exact (C103_hybrid len rq a b p0 ps p rest d1 d2 d3 SO S1 S2 S3 R SP).
Qed.

(** ** a result does not depend on how the cells were requested: what two requests return for the same
    place is the same *)
Definition same_place (rq1 : request) (t1 : list nat) (rq2 : request) (t2 : list nat) : Prop := forall d, at_dim d rq1 t1 = at_dim d rq2 t2.
Theorem C103_parts (r1 r2 : outcome (option (list R))) rq1 rq2 vs h out1 out2 t1 t2 :
  gives r1 rq1 vs h -> gives r2 rq2 vs h -> r1 = Ok (Some out1) -> r2 = Ok (Some out2) ->
  inside (sizes rq1) t1 -> inside (sizes rq2) t2 -> same_place rq1 t1 rq2 t2 ->
  nth_error out1 (lin (sizes rq1) t1) = nth_error out2 (lin (sizes rq2) t2).
Proof.
  intros (o1 & E1 & _ & H1) (o2 & E2 & _ & H2) Q1 Q2 I1 I2 SP.
  assert (o1 = out1) by congruence. assert (o2 = out2) by congruence. subst o1 o2.
  destruct (H1 t1 I1) as (x1 & F1 & V1). destruct (H2 t2 I2) as (x2 & F2 & V2). rewrite V1, V2. f_equal. f_equal.
  assert (Eq : forall v : var R, value_of rq1 v t1 = value_of rq2 v t2).
  { intro v. unfold value_of. destruct (v_data v); [ | reflexivity ]. f_equal. f_equal. apply map_ext. exact SP. }
  clear - F1 F2 Eq. revert x2 F2. induction F1 as [ | v x vs xs E F IH ]; intros x2 F2; inversion F2; subst; [ reflexivity | ]. f_equal; [ | now apply IH ].
  rewrite Eq in E. congruence.
Qed.

(** ** missing data: if a term that is looked at has no data the result is the null pointer *)
Definition empty_var (len : string -> nat) (rq : request) (v : var R) : Prop :=
  v_dims v = map len (v_names v) /\ v_data v = None /\ (forall d, In d (v_names v) -> In d (map fst rq) \/ len d = 1%nat).
Theorem C103_missing len rq f low (pre post : list (term R)) te : sound len rq ->
  (forall te, In te (pre ++ post) -> (exists data, stored len rq (t_var te) data) \/ empty_var len rq (t_var te)) ->
  In te (pre ++ post) -> t_checked te = true -> v_data (t_var te) = None ->
  convert f low pre post rq = Ok None.
Proof.
  intros SO ST I Ck Nd.
  set (Rd := fun (te : term R) (i : input R) => v_data (t_var te) = None -> i_vals i = None).
  assert (RD : forall te, In te (pre ++ post) -> exists i, read_var rq (t_var te) = Ok i /\ Rd te i).
  { intros x Ix. destruct (ST x Ix) as [ (data & S) | (E1 & E2 & E3) ].
    - destruct (read_ok len rq SO (t_var x) data S) as (part & E & _). eexists. split; [ exact E | ]. intro N. destruct S as (_ & _ & S & _). congruence.
    - unfold read_var. rewrite E1, (parts_ok len rq SO) by exact E3. cbn [obind]. rewrite E2. eexists. split; [ reflexivity | ]. intros _. reflexivity. }
  destruct (omapM_each (fun t => read_var rq (t_var t)) Rd pre) as (is & E1 & F1); [ intros; apply RD; apply in_app_iff; now left | ].
  destruct (omapM_each (fun t => read_var rq (t_var t)) Rd post) as (is' & E2 & F2); [ intros; apply RD; apply in_app_iff; now right | ].
  unfold convert. rewrite E1. cbn [obind]. rewrite E2. cbn [obind].
  replace (existsb _ (combine (pre ++ post) (is ++ is'))) with true; [ reflexivity | ]. symmetry. apply existsb_exists.
  assert (F := Forall2_app F1 F2). clear - F I Ck Nd. induction F as [ | a i l1 l2 Hp HF IH ]; [ destruct I | ]. destruct I as [ -> | I ].
  - exists (te, i). split; [ now left | ]. cbn. rewrite Ck, (Hp Nd). reflexivity.
  - destruct (IH I) as (p & A & B). exists p. split; [ now right | exact B ].
Qed.

(** ** examples and findings *)
Definition vx (l : list R) : var R := mkVar ["x"] [2%nat] (Some l).
Definition vk (l : list R) : var R := mkVar ["k"] [2%nat] (Some l).
Definition v0 (x : R) : var R := mkVar [] [] (Some [x]).
Definition two (s : string) : nat := 2.
Definition rq_all : request := [("x", (0%nat, 2%nat)); ("k", (0%nat, 2%nat))].
Definition rq_part : request := [("x", (1%nat, 1%nat)); ("k", (0%nat, 2%nat))].

(** two points with surface pressures p and q, two levels; the request is the second point *)
Example C103_nonvacuous p q a1 a2 b1 b2 :
  sound two rq_part /\ stored two rq_part (vx [p; q]) [p; q] /\ stored two rq_part (vk [a1; a2]) [a1; a2] /\ stored two rq_part (vk [b1; b2]) [b1; b2] /\
  spread rq_part [vx [p; q]; vk [a1; a2]; vk [b1; b2]] /\
  hybrid1_pressures (vk [a1; a2]) (vk [b1; b2]) (vx [p; q]) rq_part = Ok (Some [a1 + b1 * q; a2 + b2 * q]) /\
  hybrid1_pressures (vk [a1; a2]) (vk [b1; b2]) (vx [p; q]) rq_all = Ok (Some [a1 + b1 * p; a1 + b1 * q; a2 + b2 * p; a2 + b2 * q]) /\
  sigma_pressures (cf_sigma (vk [a1; a2]) (v0 b1) (vx [p; q])) rq_part = Ok (Some [b1 + a1 * (q - b1); b1 + a2 * (q - b1)]).
Proof.
  assert (K : forall d, In d (map fst rq_part) -> In d ["x"; "k"]) by (cbn; auto).
  split; [ | split; [ | split; [ | split; [ | split; [ | split; [ | split ] ] ] ] ] ].
  - unfold sound, rq_part, two, W64. cbn [map fst sizes snd cells]. split; [ repeat constructor; cbn; intuition discriminate | ]. split; [ | cbn; lia ].
    intros d s z [ E | [ E | [] ] ]; injection E as <- <- <-; repeat split; lia.
  - unfold stored, vx. cbn. split; [ repeat constructor; cbn; tauto | ]. repeat split; auto; try (unfold W64; lia); intros d [ <- | [] ]; left; cbn; auto.
  - unfold stored, vk. cbn. split; [ repeat constructor; cbn; tauto | ]. repeat split; auto; try (unfold W64; lia); intros d [ <- | [] ]; left; cbn; auto.
  - unfold stored, vk. cbn. split; [ repeat constructor; cbn; tauto | ]. repeat split; auto; try (unfold W64; lia); intros d [ <- | [] ]; left; cbn; auto.
  - exists ["x"], ["k"]. cbn. split; [ tauto | ]. split; [ tauto | discriminate ].
  - reflexivity.
  - reflexivity.
  - reflexivity.
Qed.
(** Finding: a file with the hybrid coordinate p(n,k,j,i) = a(k)*p0 + b(k)*ps(n,j,i)
    (HybridSigmaPressure2) gets the pressures with surface and reference pressure exchanged: with
    p0 = 1000, ps = 900 and 800 and a level with a = 0, b = 1 (the surface) both points get 1000. *)
Theorem C103_exchanged_refuted :
  let ps := mkRec (vx [900; 800]) (Some [900; 800]) in
  let p0 := mkRec (v0 1000) (Some [1000]) in
  hybrid2_pressures (cf_hybrid2 (vk [0; 1]) (vk [1; 0]) ps p0) rq_all = Ok (Some [0 * 900 + 1 * 1000; 0 * 900 + 1 * 1000; 1 * 900 + 0 * 1000; 1 * 900 + 0 * 1000]) /\
  create_hybrid (vk [0; 1]) (vk [1; 0]) ps p0 rq_all = Ok (Some [0 * 1000 + 1 * 900; 0 * 1000 + 1 * 800; 1 * 1000 + 0 * 900; 1 * 1000 + 0 * 800]) /\
  0 * 900 + 1 * 1000 <> 0 * 1000 + 1 * 900 /\ 1 * 900 + 0 * 1000 <> 1 * 1000 + 0 * 900.
Proof. cbv zeta. split; [ reflexivity | ]. split; [ reflexivity | ]. split; lra. Qed.
(** Finding: an AtmosphereSigma made in the order of its constructor (sigma, ps, ptop) gives the
    pressure with ps and ptop exchanged; only the exchanged call of the CF builder makes it right. *)
Theorem C103_sigma_order_refuted s ps ptop :
  sigma_pressures (mkSigma (v0 s) (v0 ps) (v0 ptop)) [] = Ok (Some [ps + s * (ptop - ps)]) /\
  sigma_pressures (cf_sigma (v0 s) (v0 ptop) (v0 ps)) [] = Ok (Some [ptop + s * (ps - ptop)]).
Proof. split; reflexivity. Qed.
(** Finding: a reference pressure that changes with time is taken from the first record for all
    times. *)
Theorem C103_record_refuted p q a b s :
  let t2 := mkVar ["t"] [2%nat] (Some [s; s]) in
  create_hybrid (v0 a) (v0 b) (mkRec t2 None) (mkRec (mkVar ["t"] [2%nat] (Some [p; q])) (Some [p])) [("t", (1%nat, 1%nat))] = Ok (Some [a * p + b * s]).
Proof. reflexivity. Qed.
(** Finding: if all terms and the output share the fastest dimension, terms that are handed over as one
    value are taken from the first position only: here the second point gets the surface pressure of
    the first. *)
Theorem C103_shared_refuted p q a1 a2 b1 b2 :
  hybrid1_pressures (vx [a1; a2]) (vx [b1; b2]) (vx [p; q]) [("x", (0%nat, 2%nat))] = Ok (Some [a1 + b1 * p; a2 + b2 * p]).
Proof. reflexivity. Qed.
(** Finding: the hybrid height converter does not check its term b, without data it dereferences a null
    pointer; the same for eta of the ocean coordinates. *)
Theorem C103_null_refuted x y z :
  hybrid_height_converter (v0 x) (mkVar [] [] None) (v0 y) [] = UB /\
  ocean_converter ocean_g1 (v0 x) (v0 y) (v0 z) (Some 0) (Some (mkVar [] [] None)) [] = UB /\
  hybrid_height_converter (mkVar [] [] None) (v0 x) (v0 y) [] = Ok None.
Proof. split; [ reflexivity | split; reflexivity ]. Qed.

Print Assumptions C103_sigma.
Print Assumptions C103_hybrid_ap.
Print Assumptions C103_ln.
Print Assumptions C103_hybrid_height.
Print Assumptions C103_ocean.
Print Assumptions C103_height.
Print Assumptions C103_hybrid.
Print Assumptions C103_hybrid_exchanged.
Print Assumptions C103_parts.
Print Assumptions C103_missing.
Print Assumptions C103_exchanged_refuted.
Print Assumptions C103_sigma_order_refuted.
Print Assumptions C103_record_refuted.
Print Assumptions C103_shared_refuted.
Print Assumptions C103_null_refuted.
