(** C77: the metadata of vertical interpolation. *)
From Coq Require Import NArith ZArith Ascii String List Bool Lia Arith.
From Verif Require Import Base StdMap RegridModel TextModel ConvertModel CdmModel CdmProofs CdmProps FilesModel VmetaModel VmetaProofs.
Import ListNotations.
Local Open Scope string_scope.
Local Open Scope list_scope.
Local Open Scope nat_scope.

(** ** statements *)

(** a vertical axis that can be exchanged: the system has x and y axes too, its z axis is explicit and
    has one dimension [d] of length > 1 *)
Definition exchangeable (rc : cdm) (cs : csys) (z : zaxis) (d : string) : Prop :=
  c_z cs = Some z /\ c_x cs = true /\ c_y cs = true /\ z_explicit z = true /\ z_shape z = [d] /\
  exists x, In x (dims rc) /\ d_name x = d /\ (1 < d_len x)%N.

(** the same variable with [d] replaced by [new] in its shape *)
Definition moved (d new : string) (v v' : cvar) : Prop :=
  v_name v' = v_name v /\ v_type v' = v_type v /\ v_counterpart v' = v_counterpart v /\ v_data v' = None /\
  exists a b, v_shape v = a ++ d :: b /\ ~ In d a /\ v_shape v' = a ++ new :: b.
(** the same attributes, except that the word [z] disappears from the text of "coordinates" *)
Definition same_but_coordinates (z : string) (l l' : list cattr) : Prop :=
  (find_attr "coordinates" l = None -> l' = l) /\
  (forall a, find_attr "coordinates" l = Some a ->
     l' = filter (fun x => negb (String.eqb "coordinates" (a_name x))) l ++ [mkAttr "coordinates" DString [] (without_word z (a_text a))]).

(** what becomes of the variables of the reader: those complete in a coordinate system chosen by [P]
    get the axis [new]; the axes of the chosen systems disappear if [gone]; all else stays (without
    the data in memory, which comes from the reader) *)
Definition exchanged (rc c' : cdm) (css : list csys) (P : csys -> zaxis -> string -> Prop) (gone : bool) (new : string) : Prop :=
  forall n w, find_var n (vars rc) = Some w ->
    (gone = true -> (exists cs z d, In cs css /\ P cs z d /\ n = z_name z) -> find_var n (vars c') = None /\ attrs_of c' n = []) /\
    (gone = false \/ (forall cs z d, In cs css -> P cs z d -> n <> z_name z) ->
      (forall cs z d, In cs css -> P cs z d -> c_for cs n = true ->
         exists w', find_var n (vars c') = Some w' /\ moved d new w w' /\ same_but_coordinates (z_name z) (attrs_of rc n) (attrs_of c' n)) /\
      ((forall cs z d, In cs css -> P cs z d -> c_for cs n = false) ->
         find_var n (vars c') = Some (mkVar (v_name w) (v_type w) (v_shape w) (v_counterpart w) None) /\
         attrs_of c' n = attrs_of rc n)).

(** what is assumed of the coordinate systems of the reader: axes are variables of the reader and
    their dimensions exist; no variable is complete in two of the chosen systems; a complete variable
    has the dimension of the axis, and is not itself an axis that disappears *)
Definition fitting (rc : cdm) (css : list csys) (P : csys -> zaxis -> string -> Prop) (gone : bool) : Prop :=
  (forall cs z, In cs css -> c_z cs = Some z -> In (z_name z) (vnames rc) /\ forall d, z_shape z = [d] -> In d (dnames rc)) /\
  (forall n i j cs1 cs2 z1 z2 d1 d2, nth_error css i = Some cs1 -> nth_error css j = Some cs2 ->
     P cs1 z1 d1 -> P cs2 z2 d2 -> c_for cs1 n = true -> c_for cs2 n = true -> i = j) /\
  (forall n cs z d, In n (vnames rc) -> In cs css -> P cs z d -> c_for cs n = true ->
     (exists w, find_var n (vars rc) = Some w /\ In d (v_shape w)) /\
     (gone = true -> forall cs' z' d', In cs' css -> P cs' z' d' -> n <> z_name z')).

(** ** from the loop to the statements *)
Lemma simple_iff : forall rc cs, NoDup (dnames rc) ->
  (simple_z rc cs = true <-> exists z d, exchangeable rc cs z d).
Proof.
  intros rc cs ND. unfold simple_z, exchangeable. split.
  - destruct (c_z cs) as [ z | ]; [ | discriminate ]. intro H.
    apply andb_true_iff in H. destruct H as [H1 H4]. apply andb_true_iff in H1. destruct H1 as [H1 H3].
    apply andb_true_iff in H1. destruct H1 as [H1 H2].
    destruct (z_shape z) as [ | d [ | ] ] eqn:S; try discriminate. destruct (find_dim d (dims rc)) as [ x | ] eqn:F; [ | discriminate ].
    apply (fnd_some d_name) in F. destruct F as [F1 F2]. apply N.ltb_lt in H4. exists z, d.
    split; [ reflexivity | ]. split; [ exact H1 | ]. split; [ exact H2 | ]. split; [ exact H3 | ]. split; [ exact S | ]. now exists x.
  - intros (z & d & -> & -> & -> & -> & -> & x & I & E & L). cbn [andb].
    replace (find_dim d (dims rc)) with (Some x); [ now apply N.ltb_lt | ]. symmetry. rewrite <- E. now apply (fnd_unique d_name).
Qed.

Lemma find_hd : forall A (f : A -> bool) l, find f l = hd_error (filter f l).
Proof. intros A f l. induction l as [ | x l IH ]; cbn; [ reflexivity | ]. now destruct (f x). Qed.
Lemma filter_one : forall A (f : A -> bool) l,
  (forall i j x y, nth_error l i = Some x -> nth_error l j = Some y -> f x = true -> f y = true -> i = j) ->
  List.length (filter f l) <= 1.
Proof.
  intros A f l. induction l as [ | x l IH ]; intro H; cbn; [ lia | ].
  assert (L : List.length (filter f l) <= 1).
  { apply IH. intros i j a b Ha Hb Fa Fb. specialize (H (S i) (S j) a b Ha Hb Fa Fb). lia. }
  destruct (f x) eqn:F; [ | exact L ]. destruct (filter f l) as [ | y r ] eqn:E; [ cbn; lia | ].
  assert (Y : In y (filter f l)) by (rewrite E; now left). apply filter_In in Y. destruct Y as [Y1 Y2].
  apply In_nth_error in Y1. destruct Y1 as [j Y1]. specialize (H 0 (S j) x y eq_refl Y1 F Y2). lia.
Qed.

Lemma find_no_data : forall n l, find_var n (map no_data l) = option_map no_data (find_var n l).
Proof. intros n l. induction l as [ | v l IH ]; cbn; [ reflexivity | ]. now destruct (String.eqb n (v_name v)). Qed.
Lemma names_no_data : forall l, map v_name (map no_data l) = map v_name l.
Proof. intro l. rewrite map_map. reflexivity. Qed.
Lemma consistent_cleared : forall c, consistent c -> consistent (cleared c).
Proof.
  intros c [A B C D E]. constructor; unfold vnames, dnames, attrs_of in *; cbn [cleared vars dims attrs] in *; rewrite ?names_no_data; assumption.
Qed.
Lemma reshaped_moved : forall d new w, In d (v_shape w) -> moved d new w (reshaped d new (no_data w)).
Proof.
  intros d new w I. unfold moved, reshaped. cbn [no_data v_shape]. destruct (replace_first_some d new _ I) as [s R]. rewrite R.
  cbn. repeat split. now apply replace_first_spec.
Qed.
Lemma coords_same : forall z l, same_but_coordinates z l (coords_without z l).
Proof. intros z l. unfold same_but_coordinates, coords_without. split; [ now intros -> | now intros a -> ]. Qed.

(** the loop started with metadata that agrees with the reader on its variables *)
Lemma loop_exchanges : forall rc css c0 new done rm gone skip (P : csys -> zaxis -> string -> Prop),
  consistent rc -> consistent c0 ->
  (forall cs, In cs css -> simple_z c0 cs = simple_z rc cs) ->
  (forall n, In n (vnames rc) -> find_var n (vars c0) = option_map no_data (find_var n (vars rc)) /\ attrs_of c0 n = attrs_of rc n) ->
  (forall cs z d, P cs z d <-> exchangeable rc cs z d /\ skip cs = false) ->
  (rm = true -> gone = true) -> fitting rc css P gone ->
  let pick := fun cs => negb (skip cs) && simple_z c0 cs in
  exists c1, change_all rm skip (names_of rc) new css (c0, done) = Ok (c1, done ++ filter pick css) /\
    consistent c1 /\ dims c1 = dims c0 /\
    (forall cs, In cs css -> (pick cs = true <-> exists z d, P cs z d)) /\
    (forall n, old_axis pick css n = true <-> exists cs z d, In cs css /\ P cs z d /\ n = z_name z) /\
    (gone = rm -> exchanged rc c1 css P gone new) /\
    (rm = false -> exchanged rc c1 css P false new) /\
    (forall n, ~ In n (vnames rc) -> find_var n (vars c1) = find_var n (vars c0) /\ attrs_of c1 n = attrs_of c0 n).
Proof.
  intros rc css c0 new done rm gone skip P CR C0 SZ AG PD RG (FA & FB & FC). cbv zeta.
  set (pick := fun cs => negb (skip cs) && simple_z c0 cs).
  assert (ND := c_dims rc CR).
  assert (PK : forall cs, In cs css -> (pick cs = true <-> exists z d, P cs z d)).
  { intros cs I. unfold pick. rewrite (SZ cs I), andb_true_iff, negb_true_iff, (simple_iff rc cs ND). split.
    - intros (K & z & d & X). exists z, d. apply PD. now split.
    - intros (z & d & X). apply PD in X. destruct X as [X K]. split; [ exact K | now exists z, d ]. }
  assert (PZ : forall cs z d, P cs z d -> c_z cs = Some z /\ z_shape z = [d]).
  { intros cs z d X. apply PD in X. destruct X as [(A & _ & _ & _ & B & _) _]. now split. }
  assert (OA : forall n, old_axis pick css n = true <-> exists cs z d, In cs css /\ P cs z d /\ n = z_name z).
  { intro n. unfold old_axis. rewrite existsb_exists. split.
    - intros (cs & I & E). apply andb_true_iff in E. destruct E as [K E]. apply (PK cs I) in K. destruct K as (z & d & X).
      destruct (PZ _ _ _ X) as [Z _]. rewrite Z in E. apply String.eqb_eq in E. now exists cs, z, d.
    - intros (cs & z & d & I & X & ->). exists cs. split; [ exact I | ]. apply andb_true_iff. split; [ apply (PK cs I); now exists z, d | ].
      destruct (PZ _ _ _ X) as [Z _]. rewrite Z. apply String.eqb_refl. }
  assert (ZDN : forall cs z d, P cs z d -> zdim cs = d /\ zname cs = z_name z).
  { intros cs z d X. destruct (PZ _ _ _ X) as [Z S]. unfold zdim, zname. rewrite Z, S. now split. }
  assert (U : forall n, List.length (filter (fun cs => pick cs && c_for cs n) css) <= 1).
  { intro n. apply filter_one. intros i j a b Ha Hb Fa Fb. apply andb_true_iff in Fa, Fb. destruct Fa as [Ka Fa], Fb as [Kb Fb].
    apply (PK a (nth_error_In _ _ Ha)) in Ka. apply (PK b (nth_error_In _ _ Hb)) in Kb.
    destruct Ka as (za & da & Xa), Kb as (zb & db & Xb). now apply (FB n i j a b za zb da db). }
  destruct (change_all_spec rm skip (names_of rc) new css c0 done pick (c_vars rc CR) C0) as (c1 & E & C1 & D1 & T & W).
  - reflexivity.
  - intros n _. apply U.
  - intros cs n I K In' F. apply (PK cs I) in K. destruct K as (z & d & X). destruct (FC n cs z d In' I X F) as [(w & V & Sh) G].
    destruct (ZDN _ _ _ X) as [-> _]. split.
    + exists (no_data w). split; [ | exact Sh ]. destruct (AG n In') as [-> _]. now rewrite V.
    + intro R. destruct (old_axis pick css n) eqn:O; [ | reflexivity ]. apply OA in O. destruct O as (cs' & z' & d' & I' & X' & ->).
      exfalso. exact (G (RG R) cs' z' d' I' X' eq_refl).
  - exists c1. split; [ exact E | ]. split; [ exact C1 | ]. split; [ exact D1 | ]. split; [ exact PK | ]. split; [ exact OA | ].
    assert (CF : forall n cs, In cs css -> pick cs = true -> c_for cs n = true -> chosen_for pick css n = Some cs).
    { intros n cs I K F. unfold chosen_for. rewrite find_hd.
      assert (X : In cs (filter (fun cs => pick cs && c_for cs n) css)) by (apply filter_In; split; [ exact I | now rewrite K, F ]).
      specialize (U n). destruct (filter (fun cs => pick cs && c_for cs n) css) as [ | x [ | y r ] ]; cbn in U; [ destruct X | | lia ].
      destruct X as [ -> | [] ]. reflexivity. }
    assert (EXC : forall g, g = rm \/ rm = false /\ g = false -> exchanged rc c1 css P g new).
    { intros g G n w V.
      assert (IN : In n (vnames rc)) by (apply has_var_in; unfold has_var; now rewrite V).
      destruct (T n IN) as [Tv Ta]. destruct (AG n IN) as [AV AA]. rewrite V in AV. cbn in AV. rewrite AV, AA in *.
      split.
      - intros -> X. apply OA in X. destruct G as [ <- | [_ G] ]; [ | discriminate ]. rewrite Tv, Ta, X. now split.
      - intro NA. assert (RM : rm && old_axis pick css n = false).
        { destruct NA as [ -> | NA ]; [ destruct G as [ <- | [-> _] ]; reflexivity | ].
          destruct (old_axis pick css n) eqn:O; [ | apply andb_false_r ]. apply OA in O. destruct O as (cs & z & d & I & X & Q).
          now elim (NA cs z d I X). }
        rewrite RM in Tv, Ta. split.
        + intros cs z d I X F. assert (K : pick cs = true) by (apply (PK cs I); now exists z, d).
          rewrite (CF n cs I K F) in Tv, Ta. destruct (ZDN _ _ _ X) as [ZD ZN]. rewrite ZD in Tv. rewrite ZN in Ta.
          destruct (FC n cs z d IN I X F) as [(w' & V' & Sh) _]. rewrite V in V'. injection V' as <-.
          exists (reshaped d new (no_data w)). split; [ exact Tv | ]. split; [ now apply reshaped_moved | ]. rewrite Ta. apply coords_same.
        + intro NF. assert (CN : chosen_for pick css n = None).
          { unfold chosen_for. destruct (find (fun cs => pick cs && c_for cs n) css) as [ cs | ] eqn:Q; [ | reflexivity ].
            apply find_some in Q. destruct Q as [I Q]. apply andb_true_iff in Q. destruct Q as [K F]. apply (PK cs I) in K.
            destruct K as (z & d & X). rewrite (NF cs z d I X) in F. discriminate. }
          rewrite CN in Tv, Ta. split; [ exact Tv | exact Ta ]. }
    split; [ intro; apply EXC; now left | ]. split; [ intro; apply EXC; now right | ].
    intros n NI. destruct (W n NI) as [Wv Wa].
    assert (O : old_axis pick css n = false).
    { destruct (old_axis pick css n) eqn:O; [ | reflexivity ]. apply OA in O. destruct O as (cs & z & d & I & X & ->).
      destruct (PZ _ _ _ X) as [Z _]. now elim NI; apply (FA cs z I Z). }
    rewrite O, andb_false_r in Wv, Wa. now split.
Qed.

(** ** fixed levels *)

(** Interpolation to fixed levels: with the name [v] found for the axis (C44 tells when there is one),
    the result has one more dimension and one more variable [v] holding the levels, with the units and
    direction of the vertical type; every variable complete in a system with an exchangeable vertical
    axis gets [v] in the place of the old dimension; the old vertical axes are gone; all other
    variables, dimensions and attributes stay.  Data slices are interpolated for exactly those
    coordinate systems ([i_changed]). *)
Theorem C77_fixed : forall rc css levels ty me v,
  consistent rc -> fitting rc css (exchangeable rc) true -> unique_dimvar rc (base_name ty) = Ok v ->
  exists i', to_fixed rc css levels (mkVint (cleared rc) ty me []) = Ok i' /\
    i_type i' = ty /\ i_method i' = me /\
    consistent (i_cdm i') /\
    dims (i_cdm i') = dims rc ++ [mkDim v (N.of_nat (List.length levels)) false] /\
    find_var v (vars (i_cdm i')) = Some (mkVar v DDouble [v] "" (Some levels)) /\
    attrs_of (i_cdm i') v = axis_attrs ty /\
    exchanged rc (i_cdm i') css (exchangeable rc) true v /\
    (forall n, ~ In n (vnames rc) -> n <> v -> find_var n (vars (i_cdm i')) = None /\ attrs_of (i_cdm i') n = attrs_of rc n) /\
    (forall cs, In cs (i_changed i') <-> In cs css /\ exists z d, exchangeable rc cs z d).
Proof.
  intros rc css levels ty me v CR FIT UN.
  destruct (C44_new_name rc (base_name ty) v UN) as (NV & ND & NM).
  assert (NG : v <> global_ns) by (destruct NM as [ -> | (k & _ & ->) ]; destruct ty; discriminate).
  unfold to_fixed. cbn [i_type i_cdm i_method i_changed]. rewrite UN. cbn [obind].
  assert (HD : has_dim (cleared rc) v = false) by (apply has_dim_false; exact ND).
  assert (HV : has_var (cleared rc) v = false).
  { apply has_var_false. unfold vnames, cleared. cbn [vars]. now rewrite names_no_data. }
  rewrite HD, HV. cbv zeta.
  set (c1 := mkCdm (vars (cleared rc) ++ [mkVar v DDouble [v] "" (Some levels)])
                   (dims (cleared rc) ++ [mkDim v (N.of_nat (List.length levels)) false]) (attrs (cleared rc))).
  assert (A1 : forall n, attrs_of c1 n = attrs_of rc n) by reflexivity.
  assert (V1 : vnames c1 = vnames rc ++ [v]) by (unfold vnames, c1; cbn [vars cleared]; now rewrite map_app, names_no_data).
  assert (NA : attrs_of rc v = []).
  { unfold attrs_of. destruct (sfind v (attrs rc)) as [ l | ] eqn:E; [ | reflexivity ].
    destruct (c_owner rc CR v) as [ G | G ]; [ apply sfind_In; eauto | congruence | contradiction ]. }
  assert (C1 : consistent c1).
  { destruct (consistent_cleared rc CR) as [Q1 Q2 Q3 Q4 Q5]. constructor.
    - apply (nodup_app v_name); [ exact Q1 | ]. apply has_var_false. exact HV.
    - apply (nodup_app d_name); [ exact Q2 | exact ND ].
    - exact Q3.
    - intros n I. destruct (Q4 n I) as [ G | G ]; [ now left | right ]. rewrite V1. apply in_or_app. left. unfold vnames, cleared in G.
      cbn [vars] in G. now rewrite names_no_data in G.
    - exact Q5. }
  assert (IV : In v (vnames c1)) by (rewrite V1; apply in_or_app; right; now left).
  destruct (add_attrs_spec (axis_attrs ty) c1 v C1 (or_intror IV)) as (c2 & E2 & C2 & VV2 & D2 & A2).
  { rewrite A1, NA. cbn [app]. destruct ty; cbn; repeat constructor; cbn; intuition congruence. }
  rewrite E2.
  destruct (loop_exchanges rc css c2 v [] true true (fun _ => false) (exchangeable rc) CR C2) as
    (c3 & E3 & C3 & D3 & PK & OA & EX & _ & W).
  - intros cs I. destruct FIT as (FA & _). unfold simple_z. destruct (c_z cs) as [ z | ] eqn:Z; [ | reflexivity ]. f_equal.
    destruct (z_shape z) as [ | d [ | ] ] eqn:S; try reflexivity. rewrite D2. unfold c1. cbn [dims cleared].
    unfold find_dim. rewrite (fnd_app d_name). destruct (FA cs z I Z) as [_ FD]. specialize (FD d S).
    apply has_dim_in in FD. unfold has_dim, find_dim in FD. destruct (find (fun x => String.eqb d (d_name x)) (dims rc)); [ reflexivity | discriminate ].
  - intros n I. rewrite VV2, A2, A1. unfold c1. cbn [vars cleared]. unfold find_var. rewrite (fnd_app v_name).
    fold (find_var n (map no_data (vars rc))). rewrite find_no_data. fold (find_var n (vars rc)).
    assert (I' := I). apply has_var_in in I'. unfold has_var in I'. destruct (find_var n (vars rc)) as [ w | ]; [ | discriminate ].
    cbn [option_map]. split; [ reflexivity | ]. destruct (String.eqb_spec n v) as [ -> | ]; [ contradiction | reflexivity ].
  - intros cs z d. tauto.
  - reflexivity.
  - exact FIT.
  - rewrite E3. cbn [obind fst snd app]. eexists. split; [ reflexivity | ]. cbn [i_type i_method i_cdm i_changed].
    split; [ reflexivity | ]. split; [ reflexivity | ]. split; [ exact C3 | ]. split; [ rewrite D3, D2; reflexivity | ].
    assert (F2 : forall n, ~ In n (vnames rc) -> find_var n (vars c2) = if String.eqb n v then Some (mkVar v DDouble [v] "" (Some levels)) else None).
    { intros n I. rewrite VV2. unfold c1. cbn [vars cleared]. unfold find_var. rewrite (fnd_app v_name).
      fold (find_var n (map no_data (vars rc))). rewrite find_no_data. assert (I' := I). apply (fnd_none v_name) in I'. unfold find_var. rewrite I'.
      cbn. now destruct (String.eqb n v). }
    split; [ destruct (W v NV) as [-> _]; rewrite (F2 v NV), String.eqb_refl; reflexivity | ].
    split; [ destruct (W v NV) as [_ ->]; rewrite A2, String.eqb_refl, A1, NA; reflexivity | ].
    split; [ exact (EX eq_refl) | ]. split.
    + intros n I N. destruct (W n I) as [-> ->]. rewrite (F2 n I), A2, A1. apply String.eqb_neq in N. rewrite N. now split.
    + intro cs. rewrite filter_In. split.
      * intros [I K]. split; [ exact I | ]. now apply PK in K.
      * intros [I X]. split; [ exact I | ]. now apply PK.
Qed.

(** ** an existing axis *)
Lemma removed_all : forall l c n, find_var n (vars (fold_left remove_var l c)) = (if existsb (String.eqb n) l then None else find_var n (vars c)) /\
  attrs_of (fold_left remove_var l c) n = (if existsb (String.eqb n) l then [] else attrs_of c n) /\
  dims (fold_left remove_var l c) = dims c.
Proof.
  induction l as [ | m l IH ]; intros c n; cbn [fold_left existsb]; [ repeat split | ].
  destruct (IH (remove_var c m) n) as (A & B & D). rewrite A, B, D, find_var_removed, attrs_of_removed. cbn [dims remove_var].
  destruct (String.eqb n m); cbn [orb]; [ | repeat split ]. destruct (existsb (String.eqb n) l); repeat split.
Qed.
Lemma consistent_removed_all : forall l c, consistent c -> consistent (fold_left remove_var l c).
Proof. induction l as [ | m l IH ]; intros c C; [ exact C | ]. cbn. now apply IH, consistent_removed. Qed.

(** Interpolation to the vertical axis [v] of the file: the variables on another exchangeable axis get
    [v], those axes disappear, nothing is added. *)
Theorem C77_axis : forall rc css ty me v,
  consistent rc -> v <> "" ->
  let other := fun cs z d => exchangeable rc cs z d /\ z_name z <> v in
  fitting rc css other false ->
  exists i', to_axis rc css v (mkVint (cleared rc) ty me []) = Ok i' /\
    i_type i' = ty /\ i_method i' = me /\
    consistent (i_cdm i') /\ dims (i_cdm i') = dims rc /\
    exchanged rc (i_cdm i') css other true v /\
    (forall n, ~ In n (vnames rc) -> find_var n (vars (i_cdm i')) = None /\ attrs_of (i_cdm i') n = attrs_of rc n) /\
    (forall cs, In cs (i_changed i') <-> In cs css /\ exists z d, other cs z d).
Proof.
  intros rc css ty me v CR NE other FIT. unfold to_axis. apply String.eqb_neq in NE. rewrite NE. cbn [i_type i_cdm i_method i_changed].
  destruct (loop_exchanges rc css (cleared rc) v [] false false (zname_is v) other CR (consistent_cleared rc CR)) as
    (c3 & E3 & C3 & D3 & PK & OA & EX & _ & W).
  - reflexivity.
  - intros n I. split; [ apply find_no_data | reflexivity ].
  - intros cs z d. unfold other, zname_is. split.
    + intros [X N]. split; [ exact X | ]. destruct X as (-> & _). now apply String.eqb_neq.
    + intros [X N]. split; [ exact X | ]. destruct X as (Z & _). rewrite Z in N. now apply String.eqb_neq.
  - discriminate.
  - exact FIT.
  - rewrite E3. cbn [obind fst snd app]. set (pick := fun cs => negb (zname_is v cs) && simple_z (cleared rc) cs) in *.
    eexists. split; [ reflexivity | ]. cbn [i_type i_method i_cdm i_changed]. split; [ reflexivity | ]. split; [ reflexivity | ].
    split; [ now apply consistent_removed_all | ]. split; [ destruct (removed_all (z_names (filter pick css)) c3 "") as (_ & _ & ->); exact D3 | ].
    assert (ZS : forall n, existsb (String.eqb n) (z_names (filter pick css)) = true <-> exists cs z d, In cs css /\ other cs z d /\ n = z_name z).
    { intro n. rewrite existsb_exists. unfold z_names. split.
      - intros (x & I & Q). apply String.eqb_eq in Q. subst x. apply in_flat_map in I. destruct I as (cs & I & X).
        apply filter_In in I. destruct I as [I K]. apply (PK cs I) in K. destruct K as (z & d & O). exists cs, z, d.
        destruct O as [O1 O2]. assert (Z : c_z cs = Some z) by apply O1. rewrite Z in X. destruct X as [ <- | [] ]. split; [ exact I | ]. split; [ now split | reflexivity ].
      - intros (cs & z & d & I & O & ->). exists (z_name z). split; [ | apply String.eqb_refl ]. apply in_flat_map. exists cs. split.
        + apply filter_In. split; [ exact I | ]. apply (PK cs I). now exists z, d.
        + destruct O as [O1 _]. assert (Z : c_z cs = Some z) by apply O1. rewrite Z. now left. }
    split; [ | split ].
    + intros n w V. destruct (removed_all (z_names (filter pick css)) c3 n) as (RV & RA & _). rewrite RV, RA. split.
      * intros _ X. apply ZS in X. rewrite X. now split.
      * intros [ X | X ]; [ discriminate | ].
        assert (NZ : existsb (String.eqb n) (z_names (filter pick css)) = false).
        { destruct (existsb (String.eqb n) (z_names (filter pick css))) eqn:Q; [ | reflexivity ]. apply ZS in Q.
          destruct Q as (cs & z & d & I & O & Q). now elim (X cs z d I O). }
        rewrite NZ. destruct (EX eq_refl n w V) as [_ Y]. apply Y. now left.
    + intros n I. destruct (removed_all (z_names (filter pick css)) c3 n) as (RV & RA & _). rewrite RV, RA.
      assert (NZ : existsb (String.eqb n) (z_names (filter pick css)) = false).
      { destruct (existsb (String.eqb n) (z_names (filter pick css))) eqn:Q; [ | reflexivity ]. apply ZS in Q.
        destruct Q as (cs & z & d & I' & O & ->). destruct FIT as (FA & _). destruct O as [O1 _]. assert (Z : c_z cs = Some z) by apply O1.
        now elim I; apply (FA cs z I' Z). }
      rewrite NZ. destruct (W n I) as [-> ->]. split; [ | reflexivity ]. cbn [vars cleared]. rewrite find_no_data.
      apply (fnd_none v_name) in I. unfold find_var. now rewrite I.
    + intro cs. rewrite filter_In. split.
      * intros [I K]. split; [ exact I | ]. now apply PK in K.
      * intros [I X]. split; [ exact I | ]. now apply PK.
Qed.

(** ** a template variable *)

(** Interpolation to the levels of a template variable: the variables on another exchangeable axis get
    the dimension of the template's axis; no variable disappears. *)
Theorem C77_template : forall rc css ty me tv t zt d0,
  consistent rc -> find (fun cs => c_for cs tv) css = Some t -> exchangeable rc t zt d0 -> c_vert t = true ->
  let other := fun cs z d => exchangeable rc cs z d /\ z_id z <> z_id zt in
  fitting rc css other false ->
  exists i', by_template rc css tv (mkVint (cleared rc) ty me []) = Ok i' /\
    i_type i' = ty /\ i_method i' = me /\
    consistent (i_cdm i') /\ dims (i_cdm i') = dims rc /\
    exchanged rc (i_cdm i') css other false d0 /\
    (forall n, ~ In n (vnames rc) -> find_var n (vars (i_cdm i')) = None /\ attrs_of (i_cdm i') n = attrs_of rc n) /\
    (forall cs, In cs (i_changed i') <-> In cs css /\ exists z d, other cs z d).
Proof.
  intros rc css ty me tv t zt d0 CR FT EXT VT other FIT. unfold by_template. rewrite FT. cbn [i_type i_cdm i_method i_changed].
  assert (ST : simple_z (cleared rc) t = true).
  { change (simple_z rc t = true). apply (simple_iff rc t (c_dims rc CR)). now exists zt, d0. }
  rewrite ST, VT. cbn [negb]. destruct EXT as (Z & _ & _ & _ & S & _). rewrite Z, S.
  destruct (loop_exchanges rc css (cleared rc) d0 [] false false (same_z (Some zt)) other CR (consistent_cleared rc CR)) as
    (c3 & E3 & C3 & D3 & PK & OA & _ & EX & W).
  - reflexivity.
  - intros n I. split; [ apply find_no_data | reflexivity ].
  - intros cs z d. unfold other, same_z. split.
    + intros [X N]. split; [ exact X | ]. destruct X as (-> & _). now apply Nat.eqb_neq.
    + intros [X N]. split; [ exact X | ]. destruct X as (Z' & _). rewrite Z' in N. now apply Nat.eqb_neq.
  - discriminate.
  - exact FIT.
  - rewrite E3. cbn [obind fst snd app]. eexists. split; [ reflexivity | ]. cbn [i_type i_method i_cdm i_changed].
    split; [ reflexivity | ]. split; [ reflexivity | ]. split; [ exact C3 | ]. split; [ exact D3 | ]. split; [ exact (EX eq_refl) | ]. split.
    + intros n I. destruct (W n I) as [-> ->]. split; [ | reflexivity ]. cbn [vars cleared]. rewrite find_no_data.
      apply (fnd_none v_name) in I. unfold find_var. now rewrite I.
    + intro cs. rewrite filter_In. split.
      * intros [I K]. split; [ exact I | ]. now apply PK in K.
      * intros [I X]. split; [ exact I | ]. now apply PK.
Qed.

(** ** what is rejected *)

(** The constructor accepts exactly four types and seven methods. *)
Theorem C77_accepted : forall rc t m,
  (In t ["pressure"; "height"; "altitude"; "depth"] /\
   In m ["linear"; "linear_weak_extra"; "linear_no_extra"; "linear_const_extra"; "log"; "loglog"; "nearestneighbor"] /\
   exists i, vertical_interpolator rc t m = Ok i /\ i_cdm i = cleared rc /\ i_changed i = []) \/
  (~ (In t ["pressure"; "height"; "altitude"; "depth"] /\
      In m ["linear"; "linear_weak_extra"; "linear_no_extra"; "linear_const_extra"; "log"; "loglog"; "nearestneighbor"]) /\
   vertical_interpolator rc t m = Throw).
Proof.
  intros rc t m. unfold vertical_interpolator, parse_type, parse_method.
  repeat match goal with |- context[if String.eqb ?y ?x then Some VPressure else _] => is_var y; destruct (String.eqb_spec y x) as [ -> | ]
    | |- context[if String.eqb ?y ?x then Some VHeight else _] => is_var y; destruct (String.eqb_spec y x) as [ -> | ]
    | |- context[if String.eqb ?y ?x then Some VAltitude else _] => is_var y; destruct (String.eqb_spec y x) as [ -> | ]
    | |- context[if String.eqb ?y ?x then Some VDepth else _] => is_var y; destruct (String.eqb_spec y x) as [ -> | ] end.
  all: try (right; split; [ cbn; intuition congruence | reflexivity ]).
  all: repeat match goal with |- context[String.eqb ?y ?x] => is_var y; destruct (String.eqb_spec y x) as [ -> | ] end.
  all: try (right; split; [ cbn; intuition congruence | reflexivity ]).
  all: left; split; [ cbn; tauto | ]; split; [ cbn; tauto | ]; eexists; split; [ reflexivity | split; reflexivity ].
Qed.

(** The empty name is no axis; a template variable needs a coordinate system with an exchangeable
    vertical axis and a vertical transformation. *)
Theorem C77_rejected : forall rc css ty me c done,
  to_axis rc css "" (mkVint c ty me done) = Throw /\
  (forall tv, (forall cs, In cs css -> c_for cs tv = false) -> by_template rc css tv (mkVint c ty me done) = Throw) /\
  (forall tv t, find (fun cs => c_for cs tv) css = Some t -> NoDup (dnames c) ->
     (forall z d, ~ exchangeable c t z d) \/ c_vert t = false ->
     by_template rc css tv (mkVint c ty me done) = Throw).
Proof.
  intros rc css ty me c done. split; [ reflexivity | ]. split.
  - intros tv H. unfold by_template. destruct (find (fun cs => c_for cs tv) css) as [ cs | ] eqn:F; [ | reflexivity ].
    apply find_some in F. destruct F as [I F]. rewrite (H cs I) in F. discriminate.
  - intros tv t F ND H. unfold by_template. rewrite F. cbn [i_cdm]. destruct (simple_z c t) eqn:S; [ | reflexivity ]. cbn [negb].
    destruct H as [ H | -> ]; [ | reflexivity ]. apply (simple_iff c t ND) in S. destruct S as (z & d & X). now elim (H z d).
Qed.

(** The names select the four types of vertical axes; the new axis of fixed levels is described by its type. *)
Theorem C77_description rc m i ty : vertical_interpolator rc ty m = Ok i ->
  In (ty, base_name (i_type i), map (fun a => (a_name a, a_text a)) (axis_attrs (i_type i)))
    [("pressure", "pressure", [("units", "hPa")]);
     ("height", "height", [("units", "m"); ("positive", "up"); ("long_name", "height above ground")]);
     ("altitude", "height_above_msl", [("units", "m"); ("positive", "up"); ("standard_name", "height_above_msl")]);
     ("depth", "depth", [("units", "m"); ("positive", "down")])].
Proof.
  unfold vertical_interpolator, parse_type. destruct (parse_method m) as [ me | ].
  - repeat match goal with |- context[String.eqb ty ?x] => destruct (String.eqb_spec ty x) as [ -> | ] end; intro H; try discriminate; injection H as <-; cbn; tauto.
  - repeat match goal with |- context[String.eqb ty ?x] => destruct (String.eqb_spec ty x) as [ -> | ] end; discriminate.
Qed.

(** Once the new axis is there, a second call finds the same name again and throws. *)
Theorem C77_fixed_once : forall rc css levels ty me c done v,
  unique_dimvar rc (base_name ty) = Ok v -> In v (dnames c) ->
  to_fixed rc css levels (mkVint c ty me done) = Throw.
Proof.
  intros rc css levels ty me c done v U I. unfold to_fixed. cbn [i_type i_cdm]. rewrite U. cbn [obind]. apply has_dim_in in I. now rewrite I.
Qed.

(** ** the words of "coordinates" *)

(** a text as words with something else between them *)
Definition text_of (segs : list (list ascii * list ascii)) (tail : list ascii) : list ascii :=
  flat_map (fun x => fst x ++ snd x) segs ++ tail.
Definition word_c (c : ascii) : Prop :=
  let n := N_of_ascii c in (48 <= n <= 57 \/ 65 <= n <= 90 \/ 97 <= n <= 122 \/ n = 95)%N.
Fixpoint segmented (first : bool) (segs : list (list ascii * list ascii)) : Prop :=
  match segs with
  | [] => True
  | (sep, w) :: segs' => (forall c, In c sep -> ~ word_c c) /\ (first = true \/ sep <> []) /\
                         (forall c, In c w -> word_c c) /\ w <> [] /\ segmented false segs'
  end.
Definition erase (name : list ascii) (x : list ascii * list ascii) : list ascii * list ascii :=
  if list_eq_dec ascii_dec (snd x) name then (fst x, []) else x.

Lemma word_c_iff : forall c, is_word c = true <-> word_c c.
Proof. intro c. unfold is_word, word_c. cbv zeta. rewrite !orb_true_iff, !andb_true_iff, !N.leb_le, N.eqb_eq. tauto. Qed.
Lemma all_word_iff : forall l, all_word l <-> forall c, In c l -> word_c c.
Proof. intro l. unfold all_word. rewrite forallb_forall. split; intros H c I; apply word_c_iff; now apply H. Qed.
Lemma no_word_iff : forall l, no_word l <-> forall c, In c l -> ~ word_c c.
Proof.
  intro l. unfold no_word. split.
  - intros H c I W. apply word_c_iff in W. assert (X : existsb is_word l = true) by (apply existsb_exists; now exists c). congruence.
  - intro H. destruct (existsb is_word l) eqn:E; [ | reflexivity ]. apply existsb_exists in E. destruct E as (c & I & W).
    apply word_c_iff in W. now elim (H c I).
Qed.

(** When the name consists of word characters, exactly the words equal to it disappear from the text;
    what is between the words stays. *)
Theorem C77_words : forall name segs tail,
  name <> [] -> (forall c, In c name -> word_c c) -> segmented true segs -> (forall c, In c tail -> ~ word_c c) ->
  drop_word name None 0 (text_of segs tail) = text_of (map (erase name) segs) tail.
Proof.
  intros name segs tail NE NW SG TL. apply all_word_iff in NW. apply no_word_iff in TL.
  assert (G : forall segs first prev, segmented first segs -> (first = true -> word_opt prev = false) ->
    drop_word name prev 0 (text_of segs tail) = text_of (map (erase name) segs) tail).
  { clear segs SG. induction segs as [ | [sep w] segs IH ]; intros first prev SG PV.
    - unfold text_of. cbn [flat_map map app]. rewrite <- (app_nil_r tail) at 1. rewrite (drop_outside name NW NE tail prev [] TL).
      cbn. apply app_nil_r.
    - destruct SG as (S1 & S2 & S3 & S4 & S5). apply no_word_iff in S1. apply all_word_iff in S3.
      unfold text_of. cbn [flat_map map fst snd]. rewrite <- !app_assoc. rewrite (drop_outside name NW NE sep prev _ S1).
      assert (P2 : word_opt (last_opt prev sep) = false).
      { destruct S2 as [ -> | S2 ]; [ apply last_opt_nonword; [ exact S1 | now apply PV ] | ].
        destruct (exists_last S2) as (l & c & ->). rewrite last_opt_app. cbn. unfold no_word in S1. rewrite existsb_app in S1.
        apply orb_false_iff in S1. destruct S1 as [_ S1]. cbn in S1. now rewrite orb_false_r in S1. }
      fold (text_of segs tail). rewrite (drop_whole name NW NE w (last_opt prev sep) (text_of segs tail) S3 S4 P2).
      + rewrite (IH false (last_opt (last_opt prev sep) w) S5); [ | discriminate ].
        assert (EE : erase name (sep, w) = (sep, if list_eq_dec ascii_dec w name then [] else w))
          by (unfold erase; cbn [fst snd]; now destruct (list_eq_dec ascii_dec w name)).
        rewrite EE. cbn [fst snd]. destruct (list_eq_dec ascii_dec w name); cbn [fst snd]; unfold text_of; cbn [flat_map fst snd app]; rewrite <- ?app_assoc; reflexivity.
      + destruct segs as [ | [sep2 w2] segs2 ].
        * unfold text_of. cbn. destruct tail as [ | c tl ]; [ reflexivity | ]. cbn. unfold no_word in TL. cbn in TL. now apply orb_false_iff in TL.
        * destruct S5 as (Q1 & [ Q2 | Q2 ] & _); [ discriminate | ]. unfold text_of. cbn [flat_map fst].
          destruct sep2 as [ | c sep2 ]; [ congruence | ]. cbn. destruct (is_word c) eqn:X; [ | reflexivity ].
          apply word_c_iff in X. elim (Q1 c); [ now left | exact X ]. }
  apply (G segs true None SG). reflexivity.
Qed.

(** ** findings *)

(** an example: temperature on hybrid levels "k", with a surface field and the coefficient of the
    levels *)
Definition ex_cdm : cdm :=
  mkCdm [mkVar "x" DFloat ["x"] "" None; mkVar "y" DFloat ["y"] "" None; mkVar "k" DFloat ["k"] "" (Some [None; None; None]);
         mkVar "ap" DFloat ["k"] "" None; mkVar "T" DFloat ["x"; "y"; "k"] "" None; mkVar "ps" DFloat ["x"; "y"] "" None]
        [mkDim "x" 4 false; mkDim "y" 5 false; mkDim "k" 3 false]
        (sput "T" [sattr "coordinates" "lon lat k"; sattr "units" "K"] (sput "k" [sattr "units" "1"] [])).
Definition ex_z : zaxis := mkZ 1 "k" ["k"] true.
Definition ex_cs : csys := mkCs true true (Some ex_z) (fun n => String.eqb n "T") true.
Definition ex_cs2 : csys := mkCs true true None (fun n => String.eqb n "ps") false.

(** Finding: interpolateToAxis accepts any name.  Variables then have a dimension that does not exist. *)
Theorem C77_unknown_axis_refuted :
  exists i, to_axis ex_cdm [ex_cs; ex_cs2] "nowhere" (mkVint (cleared ex_cdm) VPressure MLin []) = Ok i /\
    (exists w, find_var "T" (vars (i_cdm i)) = Some w /\ v_shape w = ["x"; "y"; "nowhere"]) /\
    find_dim "nowhere" (dims (i_cdm i)) = None /\ find_var "nowhere" (vars (i_cdm i)) = None.
Proof. eexists. split; [ reflexivity | ]. cbn [i_cdm]. split; [ eexists; split; reflexivity | split; reflexivity ]. Qed.

(** Finding: names may contain characters such as "-" and "."; then parts of the names of other
    coordinates are removed: removing "lev" from "lev.1 lev-b lon" leaves ".1 -b lon". *)
Theorem C77_parts_of_names_refuted : without_word "lev" "lev.1 lev-b lon" = ".1 -b lon".
Proof. reflexivity. Qed.

(** Finding: a name that ends with such a character is not found between blanks: "lev+" stays. *)
Theorem C77_special_name_stays_refuted : without_word "lev+" "lon lev+ lat" = "lon lev+ lat".
Proof. reflexivity. Qed.

(** Finding: other variables on the vertical dimension keep it, but its coordinate variable is gone. *)
Theorem C77_other_users_refuted :
  exists i, to_fixed ex_cdm [ex_cs; ex_cs2] [None; None] (mkVint (cleared ex_cdm) VPressure MLin []) = Ok i /\
    (exists w, find_var "ap" (vars (i_cdm i)) = Some w /\ v_shape w = ["k"]) /\
    find_var "k" (vars (i_cdm i)) = None /\ (exists x, find_dim "k" (dims (i_cdm i)) = Some x /\ d_len x = 3%N).
Proof. eexists. split; [ reflexivity | ]. cbn [i_cdm]. split; [ eexists; split; reflexivity | ]. split; [ reflexivity | eexists; split; reflexivity ]. Qed.

(** ** the hypotheses can be met *)
Lemma ex_consistent : consistent ex_cdm.
Proof.
  constructor.
  - cbn. repeat constructor; cbn; intuition congruence.
  - cbn. repeat constructor; cbn; intuition congruence.
  - repeat constructor.
  - intros n I. cbn in I. right. cbn. intuition (subst; tauto).
  - intro n. unfold attrs_of. cbn. destruct (String.compare n "T"); cbn; try destruct (String.eqb n "k");
      repeat match goal with |- context[String.compare ?a ?b] => destruct (String.compare a b) end;
      repeat match goal with |- context[String.eqb ?a ?b] => destruct (String.eqb a b) end; cbn; repeat constructor; cbn; intuition congruence.
Qed.
Lemma ex_fitting : fitting ex_cdm [ex_cs; ex_cs2] (exchangeable ex_cdm) true.
Proof.
  split; [ | split ].
  - intros cs z [ <- | [ <- | [] ] ] Z; cbn in Z; [ | discriminate ]. injection Z as <-. cbn. split; [ tauto | ]. intros d [= <-]. tauto.
  - intros n i j cs1 cs2 z1 z2 d1 d2 H1 H2 P1 P2 _ _.
    destruct i as [ | [ | i ] ], j as [ | [ | j ] ]; cbn in H1, H2; try reflexivity; try (now destruct i); try (now destruct j).
    + injection H2 as <-. destruct P2 as (X & _). discriminate.
    + injection H1 as <-. destruct P1 as (X & _). discriminate.
  - intros n cs z d I [ <- | [ <- | [] ] ] P F; [ | destruct P as (X & _); discriminate ].
    cbn in F. apply String.eqb_eq in F. subst n. destruct P as (X & _ & _ & _ & S & _). cbn in X. injection X as <-. cbn in S. injection S as <-.
    split; [ eexists; split; [ reflexivity | cbn; tauto ] | ].
    intros _ cs' z' d' [ <- | [ <- | [] ] ] P'; destruct P' as (X & _); cbn in X; [ injection X as <-; cbn; discriminate | discriminate ].
Qed.
Example C77_nonvacuous :
  consistent ex_cdm /\ fitting ex_cdm [ex_cs; ex_cs2] (exchangeable ex_cdm) true /\ exchangeable ex_cdm ex_cs ex_z "k" /\
  unique_dimvar ex_cdm "pressure" = Ok "pressure" /\
  (exists i, to_fixed ex_cdm [ex_cs; ex_cs2] [None; None] (mkVint (cleared ex_cdm) VPressure MLin []) = Ok i /\
     map v_name (vars (i_cdm i)) = ["x"; "y"; "ap"; "T"; "ps"; "pressure"] /\
     (exists w, find_var "T" (vars (i_cdm i)) = Some w /\ v_shape w = ["x"; "y"; "pressure"]) /\
     attrs_of (i_cdm i) "T" = [sattr "units" "K"; sattr "coordinates" "lon lat "]) /\
  (exists i, by_template ex_cdm [ex_cs; ex_cs2] "T" (mkVint (cleared ex_cdm) VPressure MLin []) = Ok i) /\
  by_template ex_cdm [ex_cs; ex_cs2] "ps" (mkVint (cleared ex_cdm) VPressure MLin []) = Throw.
Proof.
  split; [ exact ex_consistent | ]. split; [ exact ex_fitting | ]. split.
  { repeat split. exists (mkDim "k" 3 false). cbn. repeat split; tauto. }
  split; [ reflexivity | ]. split.
  { eexists. split; [ reflexivity | ]. cbn [i_cdm]. split; [ reflexivity | ]. split; [ eexists; split; reflexivity | reflexivity ]. }
  split; [ eexists; reflexivity | reflexivity ].
Qed.
Example C77_words_nonvacuous :
  segmented true [([], list_ascii_of_string "lon"); (list_ascii_of_string "  ", list_ascii_of_string "k")] /\
  without_word "k" "lon  k kk" = "lon   kk".
Proof.
  split; [ | reflexivity ]. cbn. assert (W : forall c, In c (list_ascii_of_string "lonk") -> word_c c).
  { intros c I. apply word_c_iff. cbn in I. destruct I as [ <- | [ <- | [ <- | [ <- | [] ] ] ] ]; reflexivity. }
  split; [ tauto | ]. split; [ tauto | ]. split; [ intros c I; apply W; cbn in *; tauto | ]. split; [ discriminate | ].
  split.
  { intros c I X. apply word_c_iff in X. cbn in I. destruct I as [ <- | [ <- | [] ] ]; discriminate. }
  split; [ right; discriminate | ]. split; [ intros c I; apply W; cbn in *; tauto | ]. split; [ discriminate | exact Coq.Init.Logic.I ].
Qed.
Print Assumptions C77_fixed.
Print Assumptions C77_axis.
Print Assumptions C77_template.
Print Assumptions C77_accepted.
Print Assumptions C77_rejected.
Print Assumptions C77_fixed_once.
Print Assumptions C77_words.
Print Assumptions C77_unknown_axis_refuted.
Print Assumptions C77_parts_of_names_refuted.
Print Assumptions C77_special_name_stays_refuted.
Print Assumptions C77_other_users_refuted.
Print Assumptions C77_description.
