(** C125: the metadata of a file interpolated to the points of a template. *)
From Coq Require Import PeanoNat NArith ZArith QArith Qcanon Ascii String List Bool Lia.
From Verif Require Import Base StdMap RegridModel SliceModel StringModel NmlModel ConvertModel CdmModel CdmProofs CdmProps AxesModel CfcsModel CfcsProps BestModel BestProps ProjModel ProjEarthProps ProjReadProps InterpModel InterpProofs InterpProps InterpCaseProps TctModel.
Import ListNotations.
Local Open Scope string_scope.
Local Open Scope list_scope.
Local Open Scope nat_scope.

(** ** Operations *)
Lemma sem_add_dim c V D A n len : sem c V D A -> D n = None -> exists c', add_dim n len c = Ok c' /\ sem c' V (at_ n (Some (mkDim n len false)) D) A.
Proof.
  intros S E. unfold add_dim. rewrite (sem_hasd _ _ _ _ n S), E. cbn [is_some]. eexists. split; [ reflexivity | ].
  assert (NI : ~ In n (dnames c)). { intro I. apply has_dim_in in I. rewrite (sem_hasd _ _ _ _ n S), E in I. discriminate. }
  constructor.
  - apply consistent_dims; [ apply S | ]. unfold dnames in *.
    apply (nodup_app d_name); [ apply (s_c _ _ _ _ S) | exact NI ].
  - intro m. apply S.
  - intro m. cbn [dims]. unfold at_. rewrite <- (s_d _ _ _ _ S). unfold find_dim. rewrite (fnd_app d_name). cbn [find d_name].
    destruct (String.eqb_spec m n) as [->|N]; [ | destruct (find _ (dims c)); reflexivity ].
    assert (F := s_d _ _ _ _ S n). unfold find_dim in F. rewrite F, E. reflexivity.
  - intro m. apply (s_a _ _ _ _ S).
Qed.
Definition replaced (l : list cattr) (news : list cattr) : list cattr := fold_left (fun x a => without (aname a) x ++ [a]) news l.
Lemma find_replaced b news : forall l, NoDup (map aname news) ->
  find_attr b (replaced l news) = match find_attr b news with Some a => Some a | None => find_attr b l end.
Proof.
  induction news as [ | a news IH ]; intros l N; [ reflexivity | ]. inversion N as [ | ? ? N1 N2 ]. subst. cbn [replaced fold_left]. change (find_attr b (replaced (without (aname a) l ++ [a]) news) = match find_attr b (a :: news) with Some a0 => Some a0 | None => find_attr b l end).
  rewrite IH by exact N2. rewrite find_repl. unfold find_attr at 3. cbn [find]. fold (find_attr b news).
  destruct (String.eqb_spec b (aname a)) as [->|]; [ | reflexivity ].
  destruct (find_attr (aname a) news) as [x|] eqn:F; [ | reflexivity ]. exfalso. apply find_some in F. destruct F as [F E]. apply String.eqb_eq in E. apply N1. rewrite E. now apply in_map.
Qed.
Lemma at_eq {B} n (b : B) f : at_ n b f n = b.
Proof. unfold at_. now rewrite String.eqb_refl. Qed.
Definition axis_list (n long std unit : string) : list cattr := [tatt "axis" n; tatt "long_name" long; tatt "standard_name" std; tatt "units" unit].
Lemma sem_taxis c V D A n t vals d long std unit : sem c V D A -> is_some (V n) = is_some (D n) -> axis_data t vals = Ok d ->
  exists c', taxis n t vals long std unit c = Ok c' /\
    sem c' (at_ n (Some (with_data d (match V n with Some v => with_type t v | None => mkVar n t [n] "" None end))) V)
           (at_ n (Some (mkDim n (N.of_nat (length vals)) (match D n with Some x => d_unlim x | None => false end))) D)
           (at_ n (replaced (A n) (axis_list n long std unit)) A).
Proof.
  intros S VD AD. unfold taxis. rewrite (sem_has _ _ _ _ n S).
  assert (K : exists c1, (if is_some (V n) then do c' <- set_length n (N.of_nat (length vals)) c; edit_var n (with_type t) c'
                          else do c' <- add_dim n (N.of_nat (length vals)) c; add_var (mkVar n t [n] "" None) c') = Ok c1 /\
    sem c1 (at_ n (Some (match V n with Some v => with_type t v | None => mkVar n t [n] "" None end)) V)
           (at_ n (Some (mkDim n (N.of_nat (length vals)) (match D n with Some x => d_unlim x | None => false end))) D) A).
  { destruct (V n) as [v|] eqn:EV; destruct (D n) as [x|] eqn:ED; try discriminate VD; cbn [is_some].
    - destruct (sem_length _ _ _ _ n (N.of_nat (length vals)) x S ED) as (c1 & -> & S1). cbn [obind].
      apply (sem_edit _ _ _ _ n (with_type t) v S1); [ reflexivity | exact EV ].
    - destruct (sem_add_dim _ _ _ _ n (N.of_nat (length vals)) S ED) as (c1 & -> & S1). cbn [obind].
      apply (sem_add _ _ _ _ (mkVar n t [n] "" None) S1). exact EV. }
  destruct K as (c1 & -> & S1). cbn [obind].
  destruct (sem_repl _ _ _ _ n (axis_list n long std unit) S1) as (c2 & E2 & S2). { right. rewrite at_eq. discriminate. }
  unfold axis_list in E2. rewrite E2. cbn [obind]. rewrite AD. cbn [obind].
  destruct (sem_edit _ _ _ _ n (with_data d) _ S2 (fun _ => eq_refl) (at_eq n _ V)) as (c3 & -> & S3).
  exists c3. split; [ reflexivity | ]. apply (sem_ext _ _ _ _ _ _ _ S3); [ | reflexivity | reflexivity ]. intro k. unfold at_. now destruct (String.eqb k n).
Qed.
Lemma sem_points c V D A n unit data ty vals : sem c V D A ->
  stored (match V n with Some v => v_type v | None => DDouble end) data = Ok (ty, vals) ->
  exists c', points n unit data c = Ok c' /\
    sem c' (at_ n (Some (mkVar n ty ["x"; "y"] (match V n with Some v => v_counterpart v | None => "" end) (Some vals))) V) D
           (at_ n (replaced (A n) [tatt "standard_name" n; tatt "long_name" n; tatt "units" unit]) A).
Proof.
  intros S ST. unfold points. rewrite (sem_has _ _ _ _ n S).
  set (v0 := match V n with Some v => v | None => mkVar n DDouble ["x"; "y"] "" None end).
  assert (K : exists c1, (if is_some (V n) then Ok c else add_var (mkVar n DDouble ["x"; "y"] "" None) c) = Ok c1 /\ sem c1 (at_ n (Some v0) V) D A).
  { subst v0. destruct (V n) as [v|] eqn:EV; cbn [is_some].
    - exists c. split; [ reflexivity | ]. apply (sem_ext _ _ _ _ _ _ _ S); auto. intro k. unfold at_. destruct (String.eqb_spec k n) as [->|]; auto.
    - apply (sem_add _ _ _ _ (mkVar n DDouble ["x"; "y"] "" None) S). exact EV. }
  destruct K as (c1 & -> & S1). cbn [obind].
  destruct (sem_repl _ _ _ _ n [tatt "standard_name" n; tatt "long_name" n] S1) as (c2 & -> & S2). { right. rewrite at_eq. discriminate. }
  cbn [obind]. rewrite (s_v _ _ _ _ S2), at_eq. cbn [from_option obind].
  assert (T : v_type v0 = match V n with Some v => v_type v | None => DDouble end) by (subst v0; now destruct (V n)). rewrite T, ST. cbn [obind fst snd].
  destruct (sem_edit _ _ _ _ n (fun v => with_data vals (with_type ty (with_shape (fun _ => ["x"; "y"]) v))) _ S2 (fun _ => eq_refl) (at_eq n _ V)) as (c3 & -> & S3).
  cbn [obind]. destruct (sem_repl _ _ _ _ n [tatt "units" unit] S3) as (c4 & -> & S4). { right. rewrite at_eq. discriminate. }
  exists c4. split; [ reflexivity | ]. apply (sem_ext _ _ _ _ _ _ _ S4); [ | reflexivity | ].
  - intro k. unfold at_. destruct (String.eqb_spec k n) as [->|]; [ | reflexivity ]. f_equal. unfold with_data, with_type, with_shape. cbn [v_name v_type v_shape v_counterpart].
    assert (N0 : v_name v0 = n /\ v_counterpart v0 = match V n with Some v => v_counterpart v | None => "" end).
    { subst v0. destruct (V n) as [v|] eqn:EV; [ | now split ]. split; [ exact (proj2 (sem_var _ _ _ _ _ _ S EV)) | reflexivity ]. }
    destruct N0 as [-> ->]. reflexivity.
  - intro k. unfold at_. rewrite String.eqb_refl. now destruct (String.eqb k n).
Qed.

Ltac lit := repeat match goal with |- context [String.eqb ?a ?b] => let r := eval compute in (String.eqb a b) in match r with true => change (String.eqb a b) with true | false => change (String.eqb a b) with false end end.
(** ** One coordinate system *)
Section Template.
Variable P : Type.
Variable c : cdm.
Variable pv : smap string.
Variable m : mini P.
Variables ox oy : string.
(** the old axes that go: none if they are called x and y already *)
Variable old : list string.
Notation four := ["x"; "y"; "latitude"; "longitude"].
(** the variables that go: the projections if the system has one, the longitude and latitude of the system and the old axes *)
Definition goes (n : string) : Prop :=
  (m_proj m <> None /\ In n (vnames c) /\ get_attr c n "grid_mapping_name" <> None) \/
  (exists la lo, find_axis (m_cs m) Lat = Some la /\ find_axis (m_cs m) Lon = Some lo /\ (n = ax_name la \/ n = ax_name lo)) \/ In n old.
Definition goesb (n : string) : bool := has_projection P m && gm c n || one_of n (lonlat_of P m) || one_of n old.
Lemma goes_spec n : goesb n = true <-> goes n.
Proof.
  unfold goesb, goes, has_projection, gm, lonlat_of. rewrite !orb_true_iff, !andb_true_iff, !one_of_in, get_attrs, <- has_var_in.
  destruct (m_proj m), (find_attr "grid_mapping_name" (attrs_of c n)); cbn [is_some];
    (destruct (find_axis (m_cs m) Lat) as [la|]; [ destruct (find_axis (m_cs m) Lon) as [lo|] | ]); cbn [In];
    (split; [ intros [[H|H]|H] | intros [H|[(a & b & H)|H]] ]); repeat match goal with H : _ /\ _ |- _ => destruct H | H : Some _ = Some _ |- _ => injection H as H; subst end; try discriminate; try congruence; try tauto;
    try (left; repeat split; (discriminate || assumption)); try (right; left; do 2 eexists; repeat split; intuition congruence); try (left; left; repeat split; assumption); intuition congruence.
Qed.
Lemma goes_false n : goesb n = false <-> ~ goes n.
Proof. rewrite <- goes_spec. destruct (goesb n); intuition congruence. Qed.
Definition renamed (d : string) : string := if String.eqb d ox then "x" else if String.eqb d oy then "y" else d.

Record fits : Prop := mkFits {
  f_consistent : consistent c;
  f_pv : ssorted pv /\ forall n, In n (skeys pv) -> In n (vnames c);
  f_on : stands_on P c m ox oy /\ ox <> oy;
  f_clean : forall n, In n (names_of P m (ox, oy)) -> get_attr c n "grid_mapping_name" = None;
  f_case : (ox = "x" /\ oy = "y" /\ old = [] /\ forall n, In n ["x"; "y"] -> In n (vnames c) /\ In n (dnames c) /\ ~ goes n) \/
           (old = [ox; oy] /\ forall n, In n ["x"; "y"] -> ~ In n (vnames c) /\ ~ In n (dnames c) /\ ~ In n old);
  f_used : forall n v d, find_var n (vars c) = Some v -> In d (v_shape v) -> In d old -> In n (skeys pv) \/ goes n;
  f_free : forall n v d, find_var n (vars c) = Some v -> In d (v_shape v) -> d = "longitude" \/ d = "latitude" -> goes n \/ In d old;
  f_points : forall n, n = "longitude" \/ n = "latitude" -> In n (vnames c) -> goes n;
  f_data : forall n, In n ["x"; "y"] -> ~ In n (skeys pv);
  f_global : ~ In global_ns (vnames c) /\ ~ In global_ns (names_of P m (ox, oy)) }.

Lemma renamed_old d e : fits -> In d old -> renamed e <> d.
Proof.
  intros F D E. destruct (f_case F) as [(_ & _ & O & _)|(O & K)]; rewrite O in D; [ destruct D | ].
  destruct (K "x" (or_introl eq_refl)) as (_ & _ & KX). destruct (K "y" (or_intror (or_introl eq_refl))) as (_ & _ & KY). rewrite O in KX, KY. unfold renamed in E.
  destruct (String.eqb_spec e ox) as [->|N1]; [ subst d; contradiction | ]. destruct (String.eqb_spec e oy) as [->|N2]; [ subst d; contradiction | ]. subst e. destruct D as [<-|[<-|[]]]; congruence.
Qed.

Lemma tpass_ok : fits -> exists c1 pv1, tpass P (c, pv) m = Ok (c1, pv1) /\ inv c pv goesb renamed (fun d => one_of d old) c1 pv1.
Proof.
  intro F. destruct (f_pv F) as [O PI]. destruct (f_on F) as [ON XY]. unfold tpass.
  assert (I0 : inv c pv (fun _ => false) (fun d => d) (fun _ => false) c pv).
  { constructor; [ | exact O | reflexivity ]. apply (sem_ext _ _ _ _ _ _ _ (sem_self c (f_consistent F))); auto. intro n. unfold Vof. destruct (find_var n (vars c)) as [v|]; [ | reflexivity ]. cbn [option_map]. destruct (smem n pv); [ | reflexivity ]. destruct v. unfold with_shape. cbn. now rewrite map_id. }
  set (s1 := match m_proj m with Some _ => drops (find_variables c [("grid_mapping_name", fun _ => true)] []) (c, pv) | None => (c, pv) end).
  assert (I1 : inv c pv (fun n => has_projection P m && gm c n) (fun d => d) (fun _ => false) (fst s1) (snd s1)).
  { unfold s1, has_projection. destruct (m_proj m).
    - apply (inv_ext _ _ _ _ _ _ _ _ _ _ (inv_drops _ _ (find_variables c [("grid_mapping_name", fun _ => true)] []) _ _ _ _ _ I0)); auto. intro n. exact (inv_gm _ _ _ _ _ _ _ n I0).
    - exact I0. }
  destruct s1 as [c1 pv1]. cbn [fst snd] in I1.
  rewrite (old_axes_ok P c pv m ox oy _ _ _ _ _ I1 ON).
  2:{ intros n J. unfold gm. assert (Q := f_clean F n J). rewrite get_attrs in Q. rewrite Q. cbn [is_some]. now rewrite !andb_false_r. }
  2:{ reflexivity. } 2:{ reflexivity. }
  cbn [obind].
  assert (Z : exists c2, (if negb (String.eqb ox "x") || negb (String.eqb oy "y") then ofold (fun c0 v => edit_var v (with_shape (fun l => swap oy "y" (swap ox "x" l))) c0) (skeys pv1) c1 else Ok c1) = Ok c2 /\
    inv c pv (fun n => has_projection P m && gm c n) renamed (fun _ => false) c2 pv1).
  { destruct (f_case F) as [(EX & EY & _)|(EO & K)].
    - rewrite EX, EY. cbn [negb orb String.eqb Ascii.eqb Bool.eqb]. exists c1. split; [ reflexivity | ]. apply (inv_ext _ _ _ _ _ _ _ _ _ _ I1); auto. intro d. unfold renamed. rewrite EX, EY.
      destruct (String.eqb_spec d "x"); [ congruence | ]. destruct (String.eqb_spec d "y"); congruence.
    - destruct (K "x" (or_introl eq_refl)) as (_ & _ & KX). rewrite EO in KX. assert (NX : String.eqb ox "x" = false) by (apply String.eqb_neq; intro Q; apply KX; now left). rewrite NX. cbn [negb orb].
      destruct (inv_shape _ _ renamed _ _ _ _ _ I1 PI) as (c2 & E2 & I2). exists c2. split; [ | exact I2 ].
      rewrite <- E2. apply ofold_ext_fun. intros c0 v. unfold edit_var, with_shape, swap. destruct (has_var c0 v); [ | reflexivity ]. f_equal. f_equal. apply map_ext. intro w. destruct (String.eqb v (v_name w)); [ | reflexivity ]. rewrite map_map.
      f_equal. apply map_ext. intro d. unfold renamed. destruct (String.eqb_spec d ox) as [->|]; [ | reflexivity ]. destruct (String.eqb_spec "x" oy) as [Q|]; [ exfalso; apply KX; right; left; congruence | reflexivity ]. }
  destruct Z as (c2 & -> & I2). cbn [obind].
  set (s4 := match find_axis (m_cs m) Lat with Some lat => match find_axis (m_cs m) Lon with Some lon => drops [ax_name lat; ax_name lon] (c2, pv1) | None => (c2, pv1) end | None => (c2, pv1) end).
  assert (I4 : inv c pv (fun n => has_projection P m && gm c n || one_of n (lonlat_of P m)) renamed (fun _ => false) (fst s4) (snd s4)).
  { unfold s4, lonlat_of. destruct (find_axis (m_cs m) Lat) as [la|]; [ destruct (find_axis (m_cs m) Lon) as [lo|] | ].
    - apply (inv_drops _ _ [ax_name la; ax_name lo] _ _ _ _ _ I2).
    - apply (inv_ext _ _ _ _ _ _ _ _ _ _ I2); auto. intro n. cbn [fst]. now rewrite orb_false_r.
    - apply (inv_ext _ _ _ _ _ _ _ _ _ _ I2); auto. intro n. now rewrite orb_false_r. }
  destruct s4 as [c4 pv4]. cbn [fst snd] in I4.
  destruct (f_case F) as [(EX & EY & EO & _)|(EO & K)].
  - rewrite EX, EY, String.eqb_refl. cbn [negb andb]. exists c4, pv4. split; [ reflexivity | ]. apply (inv_ext _ _ _ _ _ _ _ _ _ _ I4); auto; intro n; [ | now rewrite EO ]. unfold goesb. rewrite EO. unfold one_of at 3. cbn [existsb]. now rewrite orb_false_r.
  - destruct (K "x" (or_introl eq_refl)) as (_ & _ & KX). destruct (K "y" (or_intror (or_introl eq_refl))) as (_ & _ & KY). rewrite EO in KX, KY.
    assert (NX : String.eqb "x" ox = false) by (apply String.eqb_neq; intro Q; apply KX; now left). assert (NY : String.eqb "y" oy = false) by (apply String.eqb_neq; intro Q; apply KY; right; now left).
    rewrite NX, NY. cbn [negb andb].
    assert (I5 := inv_drops _ _ [ox; oy] _ _ _ _ _ I4). destruct (drops [ox; oy] (c4, pv4)) as [c5 pv5]. cbn [fst snd] in I5.
    assert (I5' : inv c pv goesb renamed (fun _ => false) c5 pv5) by (apply (inv_ext _ _ _ _ _ _ _ _ _ _ I5); auto; intro n; unfold goesb; now rewrite EO).
    assert (U : forall d, In d [ox; oy] -> forall n v, Vof c pv goesb renamed n = Some v -> ~ In d (v_shape v)).
    { intros d D n v. unfold Vof. destruct (goesb n) eqn:R; [ discriminate | ]. destruct (find_var n (vars c)) as [w|] eqn:W; [ | discriminate ]. cbn [option_map]. intros Q J. injection Q as <-.
      rewrite <- EO in D. destruct (smem n pv) eqn:SM.
      - cbn [with_shape v_shape] in J. apply in_map_iff in J. destruct J as (e & G & _). exact (renamed_old d e F D G).
      - apply goes_false in R. destruct (f_used F n w d W J D) as [Q|Q]; [ | contradiction ]. apply smem_In in Q. congruence. }
    destruct (inv_drop_dim _ _ ox _ _ _ _ _ I5' (U ox (or_introl eq_refl))) as (c6 & -> & I6). cbn [obind].
    destruct (inv_drop_dim _ _ oy _ _ _ _ _ I6 (U oy (or_intror (or_introl eq_refl)))) as (c7 & -> & I7). cbn [obind].
    exists c7, pv5. split; [ reflexivity | ]. apply (inv_ext _ _ _ _ _ _ _ _ _ _ I7); auto. intro d. rewrite EO. unfold one_of. cbn [existsb]. now rewrite orb_false_r.
Qed.

(** values of the template: doubles as they are, other types as double *)
Definition as_double (data : dtype * list value) (vals : list value) : Prop :=
  (fst data = DDouble /\ vals = snd data) \/ (fst data <> DDouble /\ axis_data DDouble (snd data) = Ok vals).
Definition text_of (r : cdm) (n a s : string) : Prop := get_attr r n a = Some (tatt a s).

(** the file moved to the points of the template *)
Record moved (xs ys : list value) (xunit yunit : string) (xtype ytype : dtype) (dx dy la lo : list value) (r : cdm) (pv' : smap string) : Prop := mkMoved {
  (* the variables *)
  v_names : forall n, In n (vnames r) <-> In n four \/ (In n (vnames c) /\ ~ goes n);
  v_moved : forall n v, In n (skeys pv) -> ~ goes n -> find_var n (vars c) = Some v -> find_var n (vars r) = Some (with_shape (map renamed) v);
  v_kept : forall n, ~ In n (skeys pv) -> ~ goes n -> ~ In n four -> find_var n (vars r) = find_var n (vars c);
  v_axes : forall n t d, (n = "x" /\ t = xtype /\ d = dx) \/ (n = "y" /\ t = ytype /\ d = dy) ->
    exists v, find_var n (vars r) = Some v /\ v_type v = t /\ v_data v = Some d /\ v_shape v = match find_var n (vars c) with Some w => v_shape w | None => [n] end;
  v_lat : find_var "latitude" (vars r) = Some (mkVar "latitude" DDouble ["x"; "y"] "" (Some la));
  v_lon : find_var "longitude" (vars r) = Some (mkVar "longitude" DDouble ["x"; "y"] "" (Some lo));
  (* the dimensions *)
  d_x : exists u, find_dim "x" (dims r) = Some (mkDim "x" (N.of_nat (length xs)) u);
  d_y : exists u, find_dim "y" (dims r) = Some (mkDim "y" (N.of_nat (length ys)) u);
  d_gone : forall n, n = "longitude" \/ n = "latitude" \/ In n old -> find_dim n (dims r) = None;
  d_kept : forall n, ~ In n four -> ~ In n old -> find_dim n (dims r) = find_dim n (dims c);
  (* the attributes *)
  a_x : text_of r "x" "axis" "x" /\ text_of r "x" "standard_name" "projection_x_coordinate" /\ text_of r "x" "long_name" "x-coordinate in Cartesian system" /\ text_of r "x" "units" xunit;
  a_y : text_of r "y" "axis" "y" /\ text_of r "y" "standard_name" "projection_y_coordinate" /\ text_of r "y" "long_name" "y-coordinate in Cartesian system" /\ text_of r "y" "units" yunit;
  a_lat : text_of r "latitude" "standard_name" "latitude" /\ text_of r "latitude" "long_name" "latitude" /\ text_of r "latitude" "units" "degree_north";
  a_lon : text_of r "longitude" "standard_name" "longitude" /\ text_of r "longitude" "long_name" "longitude" /\ text_of r "longitude" "units" "degree_east";
  a_moved : forall n, In n (skeys pv) -> ~ goes n -> text_of r n "coordinates" "longitude latitude" /\ get_attr r n "grid_mapping" = None /\
    forall a, a <> "coordinates" -> a <> "grid_mapping" -> get_attr r n a = get_attr c n a;
  a_kept : forall n, n = global_ns \/ (~ In n (skeys pv) /\ ~ goes n /\ ~ In n four) -> forall a, get_attr r n a = get_attr c n a;
  (* the processed variables *)
  p_kept : forall n, (goes n -> sfind n pv' = None) /\ (~ goes n -> sfind n pv' = sfind n pv) }.

Theorem C125_moved proj k xs ys xunit yunit xtype ytype lat lon dx dy la lo : fits -> geographic proj ->
  axis_data xtype xs = Ok dx -> axis_data ytype ys = Ok dy -> as_double lat la -> as_double lon lo ->
  exists r pv', change_template P proj [(k, m)] xs ys xunit yunit xtype ytype lat lon c pv = Ok (r, pv') /\ moved xs ys xunit yunit xtype ytype dx dy la lo r pv'.
Proof.
  intros F (p & EP & IP) EX EY LA LO. destruct (f_pv F) as [O PI].
  unfold change_template, proj_name. rewrite EP. apply one_of_in in IP. rewrite IP. cbn [obind]. lit. cbn [negb ofold snd].
  destruct (tpass_ok F) as (c0 & pv0 & -> & [S0 O0 Q0]). cbn [obind].
  set (V0 := Vof c pv goesb renamed) in *. set (D0 := fun d => if one_of d old then None else find_dim d (dims c)) in *. set (A0 := fun n => if goesb n then [] else attrs_of c n) in *.
  change (sem c0 V0 D0 A0) in S0.
  assert (S1 := sem_remove_attr _ _ _ _ "y" "long_name" (sem_remove_attr _ _ _ _ "x" "long_name" S0)).
  set (A1 := at_ "y" _ _) in S1.
  assert (HV : forall n, has_var c n = is_some (find_var n (vars c))) by reflexivity. assert (HD : forall n, has_dim c n = is_some (find_dim n (dims c))) by reflexivity.
  assert (VD : forall n, In n ["x"; "y"] -> is_some (V0 n) = is_some (D0 n)).
  { intros n I. unfold V0, Vof, D0. destruct (f_case F) as [(_ & _ & E & K)|(E & K)]; destruct (K n I) as (K1 & K2 & K3); rewrite <- has_var_in, HV in K1; rewrite <- has_dim_in, HD in K2.
    - apply goes_false in K3. rewrite K3, E. unfold one_of. cbn [existsb]. rewrite K2. destruct (find_var n (vars c)); [ reflexivity | discriminate ].
    - destruct (find_var n (vars c)); [ exfalso; now apply K1 | ]. destruct (find_dim n (dims c)); [ exfalso; now apply K2 | ]. cbn [option_map]. now destruct (goesb n), (one_of n old). }
  destruct (sem_taxis _ _ _ _ "x" xtype xs dx "x-coordinate in Cartesian system" "projection_x_coordinate" xunit S1 (VD "x" (or_introl eq_refl)) EX) as (c2 & -> & S2). cbn [obind].
  set (V2 := at_ "x" _ V0) in S2. set (D2 := at_ "x" _ D0) in S2. set (A2 := at_ "x" _ A1) in S2.
  assert (VD2 : is_some (V2 "y") = is_some (D2 "y")) by (unfold V2, D2, at_; lit; apply VD; right; now left).
  destruct (sem_taxis _ _ _ _ "y" ytype ys dy "y-coordinate in Cartesian system" "projection_y_coordinate" yunit S2 VD2 EY) as (c3 & -> & S3). cbn [obind].
  set (V3 := at_ "y" _ V2) in S3. set (D3 := at_ "y" _ D2) in S3. set (A3 := at_ "y" _ A2) in S3.
  assert (V0P : forall n, n = "longitude" \/ n = "latitude" -> V0 n = None).
  { intros n I. unfold V0, Vof. destruct (goesb n) eqn:G; [ reflexivity | ]. destruct (find_var n (vars c)) eqn:E; [ | reflexivity ]. exfalso. apply goes_false in G. apply G, (f_points F n I). rewrite <- has_var_in, HV, E. reflexivity. }
  assert (ST : forall data vals, as_double data vals -> stored DDouble data = Ok (DDouble, vals)).
  { intros [t d] vals [[H1 H2]|[H1 H2]]; cbn [fst snd] in *; subst; unfold stored; cbn [fst snd]; [ reflexivity | ]. rewrite H2. destruct t; try reflexivity. congruence. }
  assert (L3 : V3 "latitude" = None) by (unfold V3, V2, at_; lit; apply V0P; auto).
  destruct (sem_points _ _ _ _ "latitude" "degree_north" lat DDouble la S3) as (c4 & -> & S4). { rewrite L3. now apply ST. }
  rewrite L3 in S4. cbn [obind]. set (V4 := at_ "latitude" _ V3) in S4. set (A4 := at_ "latitude" _ A3) in S4.
  assert (L4 : V4 "longitude" = None) by (unfold V4, V3, V2, at_; lit; apply V0P; auto).
  destruct (sem_points _ _ _ _ "longitude" "degree_east" lon DDouble lo S4) as (c5 & -> & S5). { rewrite L4. now apply ST. }
  rewrite L4 in S5. cbn [obind]. set (V5 := at_ "longitude" _ V4) in S5. set (A5 := at_ "longitude" _ A4) in S5.
  set (g := fun l : list cattr => without "grid_mapping" (replaced l [tatt "coordinates" "longitude latitude"])).
  assert (PK : forall n, In n (skeys pv0) <-> In n (skeys pv) /\ goesb n = false).
  { intro n. rewrite !sfind_In. split.
    - intros [x X]. rewrite Q0 in X. destruct (goesb n); [ discriminate | eauto ].
    - intros [[x X] G]. exists x. now rewrite Q0, G. }
  assert (P4 : forall n, In n (skeys pv0) -> String.eqb n "x" = false /\ String.eqb n "y" = false /\ String.eqb n "latitude" = false /\ String.eqb n "longitude" = false /\ String.eqb n global_ns = false /\ V0 n <> None).
  { intros n I. apply PK in I. destruct I as [I G]. rewrite !String.eqb_neq. assert (I' := PI n I).
    repeat split; try (intros ->).
    - now apply (f_data F "x" (or_introl eq_refl)).
    - now apply (f_data F "y" (or_intror (or_introl eq_refl))).
    - apply goes_false in G. apply G, (f_points F); auto.
    - apply goes_false in G. apply G, (f_points F); auto.
    - now apply (proj1 (f_global F)).
    - unfold V0, Vof. rewrite G. rewrite <- has_var_in, HV in I'. destruct (find_var n (vars c)); [ discriminate | discriminate ]. }
  destruct (sem_each g (fun c v => do c' <- repl_attrs v [tatt "coordinates" "longitude latitude"] c; Ok (remove_attr c' v "grid_mapping")) V5 D3 (skeys pv0)) with (c := c5) (A := A5) as (c6 & E6 & S6).
  { intros c1 A n I S. destruct (sem_repl _ _ _ _ n [tatt "coordinates" "longitude latitude"] S) as (c' & -> & S').
    { right. destruct (P4 n I) as (N1 & N2 & N3 & N4 & _ & N). unfold V5, V4, V3, V2, at_. now rewrite N1, N2, N3, N4. }
    cbn [obind]. eexists. split; [ reflexivity | ]. apply (sem_ext _ _ _ _ _ _ _ (sem_remove_attr _ _ _ _ n "grid_mapping" S')); auto. intro j. unfold at_. rewrite String.eqb_refl. now destruct (String.eqb j n). }
  { now apply ssorted_NoDup. } { exact S5. }
  rewrite E6. cbn [obind].
  assert (SH : forall n v d, d = "longitude" \/ d = "latitude" -> V0 n = Some v -> ~ In d (v_shape v)).
  { intros n v d DD. unfold V0, Vof. destruct (goesb n) eqn:R; [ discriminate | ]. destruct (find_var n (vars c)) as [w|] eqn:W; [ | discriminate ]. cbn [option_map]. intros Q J. injection Q as <-. apply goes_false in R.
    destruct (smem n pv) eqn:SM.
    - cbn [with_shape v_shape] in J. apply in_map_iff in J. destruct J as (e & G & J). assert (ED : e = d). { unfold renamed in G. destruct (String.eqb e ox); [ destruct DD; subst; discriminate | ]. destruct (String.eqb e oy); [ destruct DD; subst; discriminate | exact G ]. }
      subst e. destruct (f_free F n w d W J DD) as [Q|Q]; [ contradiction | ]. exact (renamed_old d d F Q G).
    - destruct (f_free F n w d W J DD) as [Q|Q]; [ contradiction | ]. destruct (f_used F n w d W J Q) as [Q2|Q2]; [ | contradiction ]. apply smem_In in Q2. congruence. }
  assert (U : forall d, d = "longitude" \/ d = "latitude" -> forall n v, V5 n = Some v -> ~ In d (v_shape v)).
  { intros d DD n v. unfold V5, V4, V3, V2. unfold at_ at 1. destruct (String.eqb n "longitude"). { intro Q. injection Q as <-. cbn [v_shape]. destruct DD; subst; cbn; intuition discriminate. }
    unfold at_ at 1. destruct (String.eqb n "latitude"). { intro Q. injection Q as <-. cbn [v_shape]. destruct DD; subst; cbn; intuition discriminate. }
    unfold at_ at 1. destruct (String.eqb n "y").
    { intro Q. injection Q as <-. unfold at_. lit. cbn [with_data v_shape]. destruct (V0 "y") as [w|] eqn:W; [ exact (SH _ _ _ DD W) | ]. destruct DD; subst; cbn; intuition discriminate. }
    unfold at_ at 1. destruct (String.eqb n "x").
    { intro Q. injection Q as <-. cbn [with_data v_shape]. destruct (V0 "x") as [w|] eqn:W; [ exact (SH _ _ _ DD W) | ]. destruct DD; subst; cbn; intuition discriminate. }
    apply SH, DD. }
  destruct (sem_drop_dim _ _ _ _ "longitude" S6 (U _ (or_introl eq_refl))) as (c7 & -> & S7). cbn [obind].
  destruct (sem_drop_dim _ _ _ _ "latitude" S7 (U _ (or_intror eq_refl))) as (c8 & -> & S8). cbn [obind].
  exists c8, pv0. split; [ reflexivity | ].
  assert (NF : forall n, ~ In n four -> String.eqb n "x" = false /\ String.eqb n "y" = false /\ String.eqb n "latitude" = false /\ String.eqb n "longitude" = false).
  { intros n N. rewrite !String.eqb_neq. cbn [In] in N. repeat split; intros ->; apply N; auto. }
  assert (V5F : forall n, ~ In n four -> V5 n = V0 n). { intros n N. destruct (NF n N) as (N1 & N2 & N3 & N4). unfold V5, V4, V3, V2, at_. now rewrite N1, N2, N3, N4. }
  assert (P4' : forall n, In n (skeys pv0) -> ~ In n four). { intros n I. destruct (P4 n I) as (N1 & N2 & N3 & N4 & _). rewrite String.eqb_neq in N1, N2, N3, N4. cbn [In]. intuition congruence. }
  assert (A5F : forall n, ~ In n four -> A5 n = A0 n). { intros n N. destruct (NF n N) as (N1 & N2 & N3 & N4). unfold A5, A4, A3, A2, A1, at_. now rewrite N1, N2, N3, N4. }
  assert (OF : forall n, In n four -> one_of n (skeys pv0) = false). { intros n N. destruct (one_of n (skeys pv0)) eqn:Q; [ | reflexivity ]. apply one_of_in, P4' in Q. contradiction. }
  assert (AX : forall n, In n ["x"; "y"] -> option_map v_shape (V0 n) = option_map v_shape (find_var n (vars c))).
  { intros n I. unfold V0, Vof. assert (SM : smem n pv = false). { destruct (smem n pv) eqn:Q; [ | reflexivity ]. apply smem_In in Q. now apply f_data in Q. }
    rewrite SM. destruct (f_case F) as [(_ & _ & E & K)|(E & K)]; destruct (K n I) as (K1 & K2 & K3).
    - apply goes_false in K3. rewrite K3. now destruct (find_var n (vars c)).
    - rewrite <- has_var_in, HV in K1. destruct (find_var n (vars c)); [ exfalso; now apply K1 | ]. now destruct (goesb n). }
  assert (GG : goesb global_ns = false).
  { apply goes_false. destruct (f_global F) as [G1 G2]. intros [(_ & G & _)|[(a & b & H1 & H2 & G)|G]]; [ contradiction | | ].
    - apply G2. right. right. destruct G as [->| ->]; apply in_map; [ exact (find_axis_in _ _ _ H1) | exact (find_axis_in _ _ _ H2) ].
    - apply G2. destruct (f_case F) as [(_ & _ & E & _)|(E & _)]; rewrite E in G; [ destruct G | ]. destruct G as [<-|[<-|[]]]; [ left | right; left ]; reflexivity. }
  assert (N4 : forall l : list cattr, NoDup (map aname l) -> forall b a l0, find_attr b l = Some a -> find_attr b (replaced l0 l) = Some a) by (intros l N b a l0 E; rewrite find_replaced by exact N; now rewrite E).
  constructor.
  - intro n. rewrite (sem_names _ _ _ _ n S8). destruct (in_dec string_dec n four) as [I|I].
    + split; [ tauto | intros _ ]. unfold V5, V4, V3, V2, at_. destruct I as [<-|[<-|[<-|[<-|[]]]]]; lit; discriminate.
    + rewrite (V5F n I), <- goes_false, <- has_var_in, HV. unfold V0, Vof. destruct (goesb n), (find_var n (vars c)); cbn [option_map is_some]; split; intuition congruence.
  - intros n v I G E. apply goes_false in G. assert (J : In n (skeys pv0)) by (apply PK; auto). rewrite (s_v _ _ _ _ S8), (V5F n (P4' n J)). unfold V0, Vof. apply smem_In in I. now rewrite G, E, I.
  - intros n I G N. apply goes_false in G. rewrite (s_v _ _ _ _ S8), (V5F n N). unfold V0, Vof. rewrite G. destruct (smem n pv) eqn:SM; [ apply smem_In in SM; contradiction | ]. now destruct (find_var n (vars c)).
  - intros n t d H. rewrite (s_v _ _ _ _ S8). destruct H as [(-> & -> & ->)|(-> & -> & ->)].
    + assert (K := AX "x" (or_introl eq_refl)). unfold V5, V4, V3, V2, at_. lit. eexists. split; [ reflexivity | ]. cbn [with_data v_type v_data v_shape]. destruct (V0 "x") as [w|], (find_var "x" (vars c)) as [z|]; try discriminate K; cbn [with_type v_type v_shape]; repeat split. cbn [option_map] in K. congruence.
    + assert (K := AX "y" (or_intror (or_introl eq_refl))). unfold V5, V4, V3, V2, at_. lit. eexists. split; [ reflexivity | ]. cbn [with_data v_type v_data v_shape]. destruct (V0 "y") as [w|], (find_var "y" (vars c)) as [z|]; try discriminate K; cbn [with_type v_type v_shape]; repeat split. cbn [option_map] in K. congruence.
  - rewrite (s_v _ _ _ _ S8). unfold V5, V4, at_. lit. reflexivity.
  - rewrite (s_v _ _ _ _ S8). unfold V5, at_. lit. reflexivity.
  - rewrite (s_d _ _ _ _ S8). unfold D3, D2, at_. lit. eexists. reflexivity.
  - rewrite (s_d _ _ _ _ S8). unfold D3, D2, at_. lit. eexists. reflexivity.
  - intros n H. rewrite (s_d _ _ _ _ S8). unfold at_ at 1. destruct (String.eqb_spec n "latitude") as [|N1]; [ reflexivity | ]. unfold at_ at 1. destruct (String.eqb_spec n "longitude") as [|N2]; [ reflexivity | ].
    destruct H as [H|[H|H]]; [ contradiction | contradiction | ]. assert (NXY : ~ In n ["x"; "y"]).
    { intro J. destruct (f_case F) as [(_ & _ & E & _)|(E & K)]; [ rewrite E in H; destruct H | ]. destruct (K n J) as (_ & _ & K3). contradiction. }
    unfold D3, D2, at_. destruct (String.eqb_spec n "y") as [->|]; [ exfalso; apply NXY; right; now left | ]. destruct (String.eqb_spec n "x") as [->|]; [ exfalso; apply NXY; now left | ].
    unfold D0. apply one_of_in in H. now rewrite H.
  - intros n N H. destruct (NF n N) as (N1 & N2 & N3 & N5). rewrite (s_d _ _ _ _ S8). unfold D3, D2, D0, at_. rewrite N1, N2, N3, N5. destruct (one_of n old) eqn:Q; [ apply one_of_in in Q; contradiction | reflexivity ].
  - unfold text_of. rewrite !get_attrs, !(s_a _ _ _ _ S8), (OF "x") by (cbn; auto). unfold A5, A4, A3, A2, at_. lit.
    repeat split; apply N4; try reflexivity; repeat constructor; cbn; intuition discriminate.
  - unfold text_of. rewrite !get_attrs, !(s_a _ _ _ _ S8), (OF "y") by (cbn; auto). unfold A5, A4, A3, at_. lit.
    repeat split; apply N4; try reflexivity; repeat constructor; cbn; intuition discriminate.
  - unfold text_of. rewrite !get_attrs, !(s_a _ _ _ _ S8), (OF "latitude") by (cbn; auto). unfold A5, A4, at_. lit.
    repeat split; apply N4; try reflexivity; repeat constructor; cbn; intuition discriminate.
  - unfold text_of. rewrite !get_attrs, !(s_a _ _ _ _ S8), (OF "longitude") by (cbn; auto). unfold A5, at_. lit.
    repeat split; apply N4; try reflexivity; repeat constructor; cbn; intuition discriminate.
  - intros n I G. apply goes_false in G. assert (J : In n (skeys pv0)) by (apply PK; auto). assert (J' := J). apply one_of_in in J'. unfold text_of.
    assert (EA : attrs_of c8 n = g (attrs_of c n)) by (rewrite (s_a _ _ _ _ S8), J', (A5F n (P4' n J)); unfold A0; now rewrite G).
    assert (N1 : NoDup (map aname [tatt "coordinates" "longitude latitude"])) by (repeat constructor; cbn; intuition).
    rewrite !get_attrs, EA. unfold g. rewrite !find_without, find_replaced by exact N1. lit. repeat split.
    intros a NA NB. rewrite !get_attrs, EA. unfold g. rewrite find_without, find_replaced by exact N1. apply String.eqb_neq in NA, NB. rewrite NB. unfold find_attr at 1. cbn [find tatt aname]. cbn. rewrite ?NA. reflexivity.
  - intros n H a. assert (K : ~ In n four /\ one_of n (skeys pv0) = false /\ goesb n = false).
    { destruct H as [->|(H1 & H2 & H3)].
      - split; [ cbn; intuition discriminate | ]. split; [ | exact GG ]. destruct (one_of global_ns (skeys pv0)) eqn:Q; [ | reflexivity ]. apply one_of_in in Q. destruct (P4 _ Q) as (_ & _ & _ & _ & K & _). rewrite String.eqb_refl in K. discriminate.
      - split; [ exact H3 | ]. split; [ | now apply goes_false ]. destruct (one_of n (skeys pv0)) eqn:Q; [ | reflexivity ]. apply one_of_in, PK in Q. tauto. }
    destruct K as (K1 & K2 & K3). rewrite !get_attrs, (s_a _ _ _ _ S8), K2, (A5F n K1). unfold A0. now rewrite K3.
  - intro n. rewrite Q0. split; intro G; [ apply goes_spec in G | apply goes_false in G ]; now rewrite G.
Qed.
End Template.

(** the text has to ask for longitudes and latitudes *)
Theorem C125_projection P proj systems xs ys xunit yunit xtype ytype lat lon c pv : ~ geographic proj -> change_template P proj systems xs ys xunit yunit xtype ytype lat lon c pv = Throw.
Proof.
  intro N. unfold change_template, proj_name. destruct (key "proj" proj) as [p|] eqn:E; [ | reflexivity ]. cbv zeta. cbn [obind].
  destruct (one_of (st p) ["latlon"; "latlong"; "lonlat"; "longlat"]) eqn:Q; [ exfalso; apply N; exists p; split; [ exact E | now apply one_of_in in Q ] | ].
  destruct (String.eqb_spec (st p) "latlong") as [S|]; [ rewrite S in Q; discriminate Q | reflexivity ].
Qed.

(** ** Concrete files *)
Definition ll := s_ "+proj=latlong +a=6371000 +e=0".
Definition ex_points := (DDouble, [z 60; z 61; z 62; z 63; z 64; z 65]).
Definition moved_to (s : mini (list string)) (c : cdm) (pv : smap string) := change_template _ ll [("s", s)] [z 0; z 1] [z 0; z 1; z 2] "1" "1" DFloat DInt ex_points (DFloat, snd ex_points) c pv.
Definition look (o : outcome (cdm * smap string)) := match o with
  | Ok (r, pv) => Some (map (fun v => (v_name v, v_shape v)) (vars r), map (fun d => (d_name d, d_len d)) (dims r), skeys pv)
  | _ => None end.
Definition lonlat_sys (lon lat : string) : mini (list string) := mkMini (mkCs [mkAxis lat Lat 0; mkAxis lon Lon 0] []) (Some ["latitude_longitude"]) [].
(** a file with the given names of longitude, latitude and their shapes *)
Definition regular (lon lat : string) : cdm := mkCdm
  [fv "temp" [lon; lat; "time"]; fv "time" ["time"]; fv lon [lon]; fv lat [lat]; fv "height" []; fv "proj" []]
  [mkDim "time" 7 true; mkDim lon 4 false; mkDim lat 3 false] [("proj", [txt "grid_mapping_name" "latitude_longitude"]); ("temp", [txt "grid_mapping" "proj"; txt "units" "K"])].
Definition curvilinear (d1 d2 : string) : cdm := mkCdm
  [fv "temp" [d1; d2]; fv "lon" [d1; d2]; fv "lat" [d1; d2]] [mkDim d1 4 false; mkDim d2 3 false] [("temp", [txt "coordinates" "lon lat"])].
Definition projected (x y : string) : cdm := mkCdm
  [fv "temp" [x; y]; fv x [x]; fv y [y]; fv "proj" []] [mkDim x 4 false; mkDim y 3 false] [("proj", [txt "grid_mapping_name" "polar_stereographic"]); ("temp", [txt "grid_mapping" "proj"])].
Definition xy_sys (x y : string) : mini (list string) := mkMini (mkCs [mkAxis x GeoX 0; mkAxis y GeoY 0] []) (Some ["polar_stereographic"]) [].

Example C125_results :
  look (moved_to (lonlat_sys "longitude" "latitude") (regular "longitude" "latitude") [("temp", "s")]) =
    Some ([("temp", ["x"; "y"; "time"]); ("time", ["time"]); ("height", []); ("x", ["x"]); ("y", ["y"]); ("latitude", ["x"; "y"]); ("longitude", ["x"; "y"])], [("time", 7%N); ("x", 2%N); ("y", 3%N)], ["temp"]) /\
  look (moved_to (lonlat_sys "lon" "lat") (curvilinear "i" "j") [("temp", "s")]) =
    Some ([("temp", ["x"; "y"]); ("x", ["x"]); ("y", ["y"]); ("latitude", ["x"; "y"]); ("longitude", ["x"; "y"])], [("x", 2%N); ("y", 3%N)], ["temp"]) /\
  look (moved_to (xy_sys "x" "y") (projected "x" "y") [("temp", "s")]) =
    Some ([("temp", ["x"; "y"]); ("x", ["x"]); ("y", ["y"]); ("latitude", ["x"; "y"]); ("longitude", ["x"; "y"])], [("x", 2%N); ("y", 3%N)], ["temp"]).
Proof. repeat split; vm_compute; reflexivity. Qed.
Lemma found c n v : find_var n (vars c) = Some v -> In v (vars c) /\ n = v_name v.
Proof. intro H. apply find_some in H. destruct H as [H E]. split; [ exact H | now apply String.eqb_eq in E ]. Qed.
(** longitudes and latitudes as axes, and axes called x and y already *)
Example C125_nonvacuous :
  (let c := regular "longitude" "latitude" in fits _ c [("temp", "s")] (lonlat_sys "longitude" "latitude") "longitude" "latitude" ["longitude"; "latitude"] /\
     goes _ c (lonlat_sys "longitude" "latitude") ["longitude"; "latitude"] "proj" /\ ~ goes _ c (lonlat_sys "longitude" "latitude") ["longitude"; "latitude"] "temp") /\
  fits _ (projected "x" "y") [("temp", "s")] (xy_sys "x" "y") "x" "y" [] /\
  fits _ (projected "xc" "yc") [("temp", "s")] (xy_sys "xc" "yc") "xc" "yc" ["xc"; "yc"] /\
  geographic ll /\ ~ geographic (s_ "+proj=stere") /\ axis_data DFloat [z 0; z 1] = Ok [z 0; z 1] /\ axis_data DInt [z 0; z 1; z 2] = Ok [z 0; z 1; z 2] /\
  as_double ex_points (snd ex_points) /\ as_double (DFloat, snd ex_points) (snd ex_points).
Proof.
  assert (CON : forall c, nodup string_dec (vnames c) = vnames c -> nodup string_dec (dnames c) = dnames c -> as_map (attrs c) = attrs c -> (forall n, In n (skeys (attrs c)) -> n = global_ns \/ In n (vnames c)) ->
    (forall n l, In (n, l) (attrs c) -> nodup string_dec (map aname l) = map aname l) -> consistent c).
  { intros c H1 H2 H3 H4 H5. constructor; [ now apply distinct | now apply distinct | now apply as_map_sorted | exact H4 | ]. intro n. unfold attrs_of. destruct (sfind n (attrs c)) as [l|] eqn:E; [ | constructor ]. apply sfind_some_in in E. apply distinct, (H5 _ _ E). }
  assert (PROJ : forall x y, In (x, y) [("x", "y"); ("xc", "yc")] -> fits _ (projected x y) [("temp", "s")] (xy_sys x y) x y (if String.eqb x "x" then [] else [x; y])).
  { intros x y I. assert (K : (x = "x" /\ y = "y") \/ (x = "xc" /\ y = "yc")) by (cbn in I; destruct I as [I|[I|[]]]; injection I as <- <-; auto).
    clear I. constructor.
    - destruct K as [[-> ->]|[-> ->]]; (apply CON; [ reflexivity | reflexivity | reflexivity | intros n I; right; cbn in I |- *; tauto | intros n l I; cbn in I; repeat (destruct I as [I|I]; [ injection I as <- <-; reflexivity | ]); destruct I ]).
    - split; [ apply as_map_sorted; reflexivity | ]. intros n I. cbn in I |- *. tauto.
    - destruct K as [[-> ->]|[-> ->]]; (split; [ | discriminate ]); (eexists; eexists; split; [ reflexivity | split; [ reflexivity | ] ]; right; split; [ reflexivity | split; [ reflexivity | ] ]; intros lon L; discriminate L).
    - destruct K as [[-> ->]|[-> ->]]; intros n I; cbn in I; intuition (subst; reflexivity).
    - destruct K as [[-> ->]|[-> ->]]; [ left | right ].
      + split; [ reflexivity | split; [ reflexivity | split; [ reflexivity | ] ] ]. intros n I. split; [ cbn in I |- *; tauto | split; [ cbn in I |- *; tauto | ] ].
        intros [(_ & _ & G)|[(a & b & G & _)|G]]; [ | discriminate G | destruct G ]. destruct I as [<-|[<-|[]]]; apply G; reflexivity.
      + split; [ reflexivity | ]. intros n I. cbn in I |- *. intuition (subst; discriminate).
    - intros n v d F I D. apply found in F. destruct F as [F ->]. destruct K as [[-> ->]|[-> ->]]; [ destruct D | ]. cbn in F. repeat (destruct F as [<-|F]; [ cbn in I, D |- *; unfold goes; cbn; first [ tauto | exfalso; intuition (subst; discriminate) ] | ]). destruct F.
    - intros n v d F I D. apply found in F. destruct F as [F ->]. destruct K as [[-> ->]|[-> ->]]; cbn in F; (repeat (destruct F as [<-|F]; [ cbn in I; exfalso; intuition (subst; discriminate) | ]); destruct F).
    - intros n D I. destruct K as [[-> ->]|[-> ->]]; cbn in I; exfalso; intuition (subst; discriminate).
    - intros n I J. cbn in I, J. intuition (subst; discriminate).
    - destruct K as [[-> ->]|[-> ->]]; cbn; intuition discriminate. }
  split; [ | split; [ apply (PROJ "x" "y"); now left | split; [ apply (PROJ "xc" "yc"); right; now left | ] ] ].
  - cbv zeta. split; [ constructor | split ].
    + apply CON; [ reflexivity | reflexivity | reflexivity | intros n I; right; cbn in I |- *; tauto | intros n l I; cbn in I; repeat (destruct I as [I|I]; [ injection I as <- <-; reflexivity | ]); destruct I ].
    + split; [ apply as_map_sorted; reflexivity | ]. intros n I. cbn in I |- *. tauto.
    + split; [ | discriminate ]. eexists. eexists. split; [ reflexivity | split; [ reflexivity | ] ]. right. split; [ reflexivity | split; [ reflexivity | ] ]. intros lon _ _. eexists. split; [ reflexivity | discriminate ].
    + intros n I. cbn in I. intuition (subst; reflexivity).
    + right. split; [ reflexivity | ]. intros n I. cbn in I |- *. intuition (subst; discriminate).
    + intros n v d F I D. apply found in F. destruct F as [F ->]. cbn in F. repeat (destruct F as [<-|F]; [ cbn in I, D |- *; unfold goes; cbn; first [ tauto | exfalso; intuition (subst; discriminate) ] | ]). destruct F.
    + intros n v d F I D. right. destruct D as [->| ->]; cbn; auto.
    + intros n D I. right. right. destruct D as [->| ->]; cbn; auto.
    + intros n I J. cbn in I, J. intuition (subst; discriminate).
    + cbn. intuition discriminate.
    + left. split; [ discriminate | ]. split; [ cbn; auto 10 | discriminate ].
    + intros [(_ & _ & H)|[(a & b & H1 & H2 & H)|H]].
      * apply H. reflexivity.
      * vm_compute in H1, H2. injection H1 as <-. injection H2 as <-. destruct H; discriminate.
      * cbn in H. intuition discriminate.
  - split; [ eexists; split; [ vm_compute; reflexivity | vm_compute; auto ] | ]. split; [ intros (p & E & I); vm_compute in E; injection E as <-; vm_compute in I; intuition discriminate | ].
    split; [ vm_compute; reflexivity | split; [ vm_compute; reflexivity | split; [ left; split; reflexivity | right; split; [ discriminate | vm_compute; reflexivity ] ] ] ].
Qed.

(** Finding, for all files: if the file stands on dimensions x and y (its axes are called so, or its longitudes are
    given on them) and there is no variable x, or it is removed as it is the longitude, an exception is thrown *)
Theorem C125_dimension_refuted P c pv (m : mini P) proj k xs ys xunit yunit xtype ytype lat lon : geographic proj -> consistent c ->
  ssorted pv -> (forall n, In n (skeys pv) -> In n (vnames c)) -> stands_on P c m "x" "y" ->
  (forall n, In n (names_of P m ("x", "y")) -> get_attr c n "grid_mapping_name" = None) ->
  In "x" (dnames c) -> ~ In "x" (vnames c) \/ goes P c m [] "x" ->
  change_template P proj [(k, m)] xs ys xunit yunit xtype ytype lat lon c pv = Throw.
Proof.
  intros (p & EP & IP) CO O PI ON CL DX VX. unfold change_template, proj_name. rewrite EP. apply one_of_in in IP. rewrite IP. cbn [obind]. lit. cbn [negb ofold snd].
  assert (T : exists c1 pv1, tpass P (c, pv) m = Ok (c1, pv1) /\ inv c pv (goesb P c m []) (fun d => d) (fun _ => false) c1 pv1).
  { unfold tpass.
    assert (I0 : inv c pv (fun _ => false) (fun d => d) (fun _ => false) c pv).
    { constructor; [ | exact O | reflexivity ]. apply (sem_ext _ _ _ _ _ _ _ (sem_self c CO)); auto. intro n. unfold Vof. destruct (find_var n (vars c)) as [v|]; [ | reflexivity ]. cbn [option_map]. destruct (smem n pv); [ | reflexivity ]. destruct v. unfold with_shape. cbn. now rewrite map_id. }
    set (s1 := match m_proj m with Some _ => drops (find_variables c [("grid_mapping_name", fun _ => true)] []) (c, pv) | None => (c, pv) end).
    assert (I1 : inv c pv (fun n => has_projection P m && gm c n) (fun d => d) (fun _ => false) (fst s1) (snd s1)).
    { unfold s1, has_projection. destruct (m_proj m).
      - apply (inv_ext _ _ _ _ _ _ _ _ _ _ (inv_drops _ _ (find_variables c [("grid_mapping_name", fun _ => true)] []) _ _ _ _ _ I0)); auto. intro n. exact (inv_gm _ _ _ _ _ _ _ n I0).
      - exact I0. }
    destruct s1 as [c1 pv1]. cbn [fst snd] in I1.
    rewrite (old_axes_ok P c pv m "x" "y" _ _ _ _ _ I1 ON); [ | | reflexivity | reflexivity ].
    2:{ intros n J. unfold gm. assert (Q := CL n J). rewrite get_attrs in Q. rewrite Q. cbn [is_some]. now rewrite !andb_false_r. }
    cbn [obind]. lit. cbn [negb orb andb obind].
    set (s4 := match find_axis (m_cs m) Lat with Some lat => match find_axis (m_cs m) Lon with Some lon => drops [ax_name lat; ax_name lon] (c1, pv1) | None => (c1, pv1) end | None => (c1, pv1) end).
    assert (I4 : inv c pv (goesb P c m []) (fun d => d) (fun _ => false) (fst s4) (snd s4)).
    { unfold s4, goesb, lonlat_of. destruct (find_axis (m_cs m) Lat) as [la|]; [ destruct (find_axis (m_cs m) Lon) as [lo|] | ].
      - apply (inv_ext _ _ _ _ _ _ _ _ _ _ (inv_drops _ _ [ax_name la; ax_name lo] _ _ _ _ _ I1)); auto. intro n. cbn [fst]. unfold one_of at 3. cbn [existsb]. now rewrite orb_false_r.
      - apply (inv_ext _ _ _ _ _ _ _ _ _ _ I1); auto. intro n. cbn [fst]. unfold one_of. cbn [existsb]. now rewrite !orb_false_r.
      - apply (inv_ext _ _ _ _ _ _ _ _ _ _ I1); auto. intro n. unfold one_of. cbn [existsb]. now rewrite !orb_false_r. }
    destruct s4 as [c4 pv4]. cbn [fst snd] in I4. exists c4, pv4. split; [ reflexivity | exact I4 ]. }
  destruct T as (c0 & pv0 & -> & [S0 _ _]). cbn [obind].
  assert (S1 := sem_remove_attr _ _ _ _ "y" "long_name" (sem_remove_attr _ _ _ _ "x" "long_name" S0)).
  unfold taxis at 1. rewrite (sem_has _ _ _ _ "x" S1).
  assert (E : Vof c pv (goesb P c m []) (fun d => d) "x" = None).
  { unfold Vof. destruct (goesb P c m [] "x") eqn:G; [ reflexivity | ]. destruct VX as [VX|VX]; [ | apply goes_spec in VX; congruence ]. rewrite <- has_var_in in VX. unfold has_var in VX. destruct (find_var "x" (vars c)); [ exfalso; now apply VX | reflexivity ]. }
  rewrite E. cbn [is_some]. unfold add_dim. rewrite (sem_hasd _ _ _ _ "x" S1). cbv beta. apply has_dim_in in DX. unfold has_dim in DX. rewrite DX. reflexivity.
Qed.
(** Finding: longitudes and latitudes given on dimensions x and y that have no variables of their own (in
    either order), and axes of longitude and latitude that are called x and y: the interpolation fails with an exception *)
Theorem C125_dimensions_refuted : moved_to (lonlat_sys "lon" "lat") (curvilinear "x" "y") [("temp", "s")] = Throw /\
  moved_to (lonlat_sys "lon" "lat") (curvilinear "y" "x") [("temp", "s")] = Throw /\ moved_to (lonlat_sys "x" "y") (regular "x" "y") [("temp", "s")] = Throw.
Proof. repeat split; vm_compute; reflexivity. Qed.
(** Finding: if only one of the old axes is called like the new one, the other one stays in the file, with its dimension, although nothing uses it *)
Theorem C125_axis_stays_refuted : look (moved_to (xy_sys "x" "yc") (projected "x" "yc") [("temp", "s")]) =
  Some ([("temp", ["x"; "y"]); ("x", ["x"]); ("yc", ["yc"]); ("y", ["y"]); ("latitude", ["x"; "y"]); ("longitude", ["x"; "y"])], [("x", 2%N); ("yc", 3%N); ("y", 3%N)], ["temp"]).
Proof. vm_compute. reflexivity. Qed.

Print Assumptions C125_moved.
Print Assumptions C125_projection.
Print Assumptions C125_dimension_refuted.
Print Assumptions C125_dimensions_refuted.
Print Assumptions C125_axis_stays_refuted.
