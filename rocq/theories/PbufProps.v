(** C101: metadata written to an index are read back. *)
From Coq Require Import ZArith NArith Ascii String List Bool Lia.
From Verif Require Import Base StdMap RegridModel StringModel StringProps ConvertModel CdmModel PbufModel PbufProofs.
Import ListNotations.
Local Open Scope string_scope.
Local Open Scope list_scope.

(** names of variables *)
Definition names (m : meta) : list string := map va_name (m_vars m).

(** metadata an index can hold: no two dimensions, variables or attributes of one variable have the same
    name; lengths fit 32 bits; attributes have data, of numbers (at least one) or one text; so have
    variables with data, of the variable's type *)
Record indexable (m : meta) : Prop := {
  ix_dims : NoDup (map d_name (m_dims m));
  ix_len : forall d, In d (m_dims m) -> (d_len d < 2 ^ 32)%N;
  ix_vars : NoDup (names m);
  ix_global : ~ In global_ns (names m);
  ix_atts : forall n, n = global_ns \/ In n (names m) -> NoDup (map at_name (atts_of m n));
  ix_adata : forall n a, n = global_ns \/ In n (names m) -> In a (atts_of m n) -> exists d, at_data a = Some d /\ plain d;
  ix_vdata : forall v d, In v (m_vars m) -> va_data v = Some d -> plain d /\ d_type d = va_type v }.

Lemma written : forall m, indexable m ->
  exists x globals ds vs, write_cdm m = Ok x /\ x_globals x = globals /\ x_dims x = ds /\ x_vars x = vs /\
    omapM (read_attribute (x_table x)) globals = Ok (atts_of m global_ns) /\
    omapM (read_dimension (x_table x)) ds = Ok (m_dims m) /\
    omapM (read_both (x_table x)) vs = Ok (map (fun v => (no_vector v, atts_of m (va_name v))) (m_vars m)).
Proof.
  intros m H. unfold write_cdm.
  assert (FA : forall n, n = global_ns \/ In n (names m) -> Forall fine_attribute (atts_of m n)).
  { intros n K. apply Forall_forall. intros a A. exact (ix_adata m H n a K A). }
  destruct (all_kept _ _ _ _ _ _ _ attribute_kept (slb_new false) _ (FA global_ns (or_introl eq_refl)) (slb_new_inv false))
    as (b1 & gs & W1 & I1 & E1 & R1). rewrite W1. cbn [obind].
  assert (FD : Forall fine_dimension (m_dims m)).
  { apply Forall_forall. intros d D. exact (ix_len m H d D). }
  destruct (all_kept _ _ _ _ _ _ _ dimension_kept b1 _ FD I1) as (b2 & ds & W2 & I2 & E2 & R2). rewrite W2. cbn [obind].
  assert (FV : Forall (fun v => fine_variable v /\ Forall fine_attribute (atts_of m (va_name v))) (m_vars m)).
  { apply Forall_forall. intros v V. split.
    - unfold fine_variable. destruct (va_data v) as [ d | ] eqn:D; [ exact (ix_vdata m H v d V D) | exact I ].
    - apply FA. right. now apply in_map. }
  destruct (all_kept _ _ _ _ _ _ _ (variable_kept m) b2 _ FV I2) as (b3 & vs & W3 & I3 & E3 & R3). rewrite W3. cbn [obind].
  exists (mkMCdm (slb_strings b3) ds vs gs), gs, ds, vs. split; [ reflexivity | ]. cbn [x_globals x_dims x_vars x_table].
  split; [ reflexivity | ]. split; [ reflexivity | ]. split; [ reflexivity | ].
  pose proof (reads_ext _ _ _ _ _ _ _ (ext_trans _ _ _ E2 E3) R1 []) as Q1.
  pose proof (reads_ext _ _ _ _ _ _ _ E3 R2 []) as Q2. pose proof (R3 []) as Q3. cbv beta in Q1, Q2, Q3.
  rewrite app_nil_r in Q1, Q2, Q3. rewrite map_id in Q1, Q2. split; [ exact Q1 | ]. split; [ exact Q2 | exact Q3 ].
Qed.

(** the metadata are read back: the dimensions, the variables (but not that they belong to a vector), the
    global attributes and those of every variable, in their order *)
Theorem C101_round_trip : forall m, indexable m ->
  exists x r, write_cdm m = Ok x /\ read_cdm no_meta x = Ok r /\
    m_dims r = m_dims m /\
    m_vars r = map (fun v => mkVariable (va_name v) (va_type v) (va_shape v) (va_data v) None) (m_vars m) /\
    (forall n, n = global_ns \/ In n (names m) -> atts_of r n = atts_of m n) /\
    (forall n, n <> global_ns -> ~ In n (names m) -> atts_of r n = []).
Proof.
  intros m H. destruct (written m H) as (x & gs & ds & vs & W & EG & ED & EV & RG & RD & RV).
  exists x. unfold read_cdm. rewrite EG, ED, EV.
  rewrite (ofold_read _ _ _ (read_attribute (x_table x)) (add_attribute global_ns) _ _ no_meta RG).
  destruct (add_all_attributes global_ns (atts_of m global_ns) no_meta) as (m1 & R1 & D1 & V1 & A1).
  { now left. }
  { exact (ix_atts m H _ (or_introl eq_refl)). }
  rewrite R1. cbn [obind].
  rewrite (ofold_read _ _ _ (read_dimension (x_table x)) add_dimension _ _ m1 RD).
  rewrite add_all_dimensions by (rewrite D1; exact (ix_dims m H)). cbn [obind].
  set (m2 := mkMeta (m_dims m1 ++ m_dims m) (m_vars m1) (m_atts m1)).
  set (l := map (fun v => (no_vector v, atts_of m (va_name v))) (m_vars m)) in *.
  assert (F1 : map fst l = map no_vector (m_vars m)) by (unfold l; now rewrite map_map).
  assert (F2 : map va_name (map fst l) = names m) by (rewrite F1, map_map; reflexivity).
  assert (A1' : forall n, atts_of m1 n = if String.eqb n global_ns then atts_of m global_ns else []).
  { intros n. rewrite A1. destruct (String.eqb n global_ns); reflexivity. }
  destruct (read_variables (x_table x) vs l m2 RV) as (r & R & D & V & A & B).
  - cbn [m2 m_vars]. rewrite V1. change (m_vars no_meta) with (@nil variable). cbn [app]. rewrite F2. exact (ix_vars m H).
  - intros v K. assert (K' : In (va_name v) (names m)) by (rewrite <- F2; now apply in_map).
    assert (va_name v <> global_ns) as NG by (intros E; rewrite E in K'; exact (ix_global m H K')).
    split; [ exact NG | ]. change (atts_of m2 (va_name v)) with (atts_of m1 (va_name v)). rewrite A1'.
    destruct (String.eqb_spec (va_name v) global_ns); [ congruence | reflexivity ].
  - intros e E. unfold l in E. apply in_map_iff in E. destruct E as (v & <- & K). cbn [snd].
    apply (ix_atts m H). right. now apply in_map.
  - exists r. split; [ exact W | ]. split; [ exact R | ].
    split; [ rewrite D; cbn [m2 m_dims]; now rewrite D1 | ].
    split; [ rewrite V; cbn [m2 m_vars]; rewrite V1, F1; reflexivity | ]. split.
    + intros n [ -> | K ].
      * rewrite B by (rewrite F2; exact (ix_global m H)). change (atts_of m2 global_ns) with (atts_of m1 global_ns).
        rewrite A1'. now rewrite String.eqb_refl.
      * apply in_map_iff in K. destruct K as (v & <- & K).
        apply (A (no_vector v, atts_of m (va_name v))). unfold l. apply in_map_iff. exists v. now split.
    + intros n NG K. rewrite B by (now rewrite F2). change (atts_of m2 n) with (atts_of m1 n). rewrite A1'.
      destruct (String.eqb_spec n global_ns); [ congruence | reflexivity ].
Qed.

(** what is written depends on the metadata as the API shows them *)
Lemma write_all_ext : forall A X (w w' : slb -> A -> outcome (slb * X)) l b,
  (forall b a, In a l -> w b a = w' b a) -> write_all w b l = write_all w' b l.
Proof.
  intros A X w w' l. induction l as [ | a l IH ]; intros b H; cbn [write_all]; [ reflexivity | ].
  rewrite H by now left. destruct (w' b a) as [ [b1 x] | | | ]; [ | reflexivity .. ]. cbn [obind].
  rewrite IH; [ reflexivity | ]. intros b' a' K. apply H. now right.
Qed.
Lemma write_all_map : forall A B X (g : A -> B) (w : slb -> B -> outcome (slb * X)) l b,
  write_all w b (map g l) = write_all (fun b a => w b (g a)) b l.
Proof.
  intros A B X g w l. induction l as [ | a l IH ]; intros b; cbn [write_all map]; [ reflexivity | ].
  destruct (w b (g a)) as [ [b1 x] | | | ]; [ | reflexivity .. ]. cbn [obind]. now rewrite IH.
Qed.

(** an index of what was read from an index is the same index *)
Theorem C101_again : forall m, indexable m ->
  exists x r, write_cdm m = Ok x /\ read_cdm no_meta x = Ok r /\ write_cdm r = Ok x.
Proof.
  intros m H. destruct (C101_round_trip m H) as (x & r & W & R & D & V & A & _). exists x, r.
  split; [ exact W | ]. split; [ exact R | ]. rewrite <- W. unfold write_cdm. rewrite D, V.
  rewrite (A global_ns (or_introl eq_refl)).
  destruct (write_all write_attribute (slb_new false) (atts_of m global_ns)) as [ [b1 g] | | | ]; [ | reflexivity .. ]. cbn [obind].
  destruct (write_all write_dimension b1 (m_dims m)) as [ [b2 ds] | | | ]; [ | reflexivity .. ]. cbn [obind].
  rewrite write_all_map. rewrite (write_all_ext _ _ _ (write_variable m)); [ reflexivity | ].
  intros b v K. unfold write_variable. cbn [va_name va_type va_shape va_data].
  rewrite (A (va_name v)) by (right; now apply in_map). reflexivity.
Qed.

(** a variable of any type (also of several texts or of no type) without data is read as such *)
Theorem C101_no_data : forall n t sh ds,
  NoDup (map d_name ds) -> (forall d, In d ds -> (d_len d < 2 ^ 32)%N) -> n <> global_ns ->
  exists x, write_cdm (mkMeta ds [mkVariable n t sh None None] []) = Ok x /\
            read_cdm no_meta x = Ok (mkMeta ds [mkVariable n t sh None None] []).
Proof.
  intros n t sh ds N L G. set (m := mkMeta ds [mkVariable n t sh None None] []).
  destruct (C101_round_trip m) as (x & r & W & R & D & V & A & B).
  { constructor; try assumption.
    - cbn. constructor; [ intros [] | constructor ].
    - cbn. intros [ E | [] ]. congruence.
    - intros k K. cbn. constructor.
    - intros k a K [].
    - cbn. intros v d [ <- | [] ] E. discriminate. }
  exists x. split; [ exact W | ]. rewrite R. f_equal. destruct r as [rd rv ra]. cbn [m_dims m_vars] in *. subst rd rv.
  unfold m in *. cbn [m_dims m_vars map va_name va_type va_shape va_data] in *. f_equal.
  destruct ra as [ | [k l] ra ]; [ reflexivity | exfalso ].
  (* every entry of the map read has an attribute, but no name has one *)
  assert (E : read_cdm no_meta x = Ok (mkMeta ds [mkVariable n t sh None None] [])).
  { clear R A B. unfold write_cdm in W. unfold m in W. cbn [atts_of m_atts sfind write_all obind m_dims m_vars] in W.
    destruct (write_all write_dimension (slb_new false) ds) as [ [b2 xs] | | | ] eqn:WD; try discriminate. cbn [obind] in W.
    unfold write_variable in W. cbn [va_name va_type va_shape va_data atts_of m_atts sfind write_all obind] in W.
    destruct (slb_add b2 n) as [b3 i] eqn:AN. cbn [write_data obind] in W.
    destruct (add_strings b3 sh) as [b4 is] eqn:AS. cbn [obind] in W. injection W as <-.
    assert (FD : Forall fine_dimension ds) by (apply Forall_forall; exact L).
    destruct (all_kept _ _ _ _ _ _ _ dimension_kept (slb_new false) ds FD (slb_new_inv false)) as (b2' & xs' & W2 & I2 & E2 & R2).
    rewrite WD in W2. injection W2 as <- <-.
    pose proof (add_kept b2 n I2) as KN. rewrite AN in KN. destruct KN as (I3 & E3 & R3).
    pose proof (add_strings_kept sh b3 I3) as KS. rewrite AS in KS. destruct KS as (I4 & E4 & R4 & _).
    unfold read_cdm. cbn [x_table x_globals x_dims x_vars ofold obind].
    pose proof (reads_ext _ _ _ _ _ _ _ (ext_trans _ _ _ E3 E4) R2 []) as Q2. cbv beta in Q2. rewrite app_nil_r, map_id in Q2.
    rewrite (ofold_read _ _ _ (read_dimension (slb_strings b4)) add_dimension _ _ no_meta Q2).
    rewrite add_all_dimensions by exact N. cbn [obind app m_dims no_meta m_vars m_atts].
    unfold read_variable, read_var. cbn [xv_shape xv_name xv_data xv_atts].
    pose proof (R4 []) as Q4. cbv beta in Q4. rewrite app_nil_r in Q4. rewrite Q4. cbn [obind].
    pose proof (reads_ext _ _ _ _ _ _ _ E4 R3 []) as Q3. rewrite app_nil_r in Q3. rewrite Q3. cbn [obind].
    unfold read_data. cbn [x_type]. destruct t; reflexivity. }
  rewrite E in R. discriminate.
Qed.

(** ** a case *)

Definition tmp : variable := mkVariable "tmp" DShort ["x"; "time"] None (Some ("other", 1%nat)).
Definition time_ : variable := mkVariable "time" DInt ["time"] (Some (mkData DInt (Ints [-3600; 0; 3600]%Z))) None.
Definition case : meta :=
  mkMeta [mkDim "time" 3 true; mkDim "x" 2 false] [time_; tmp]
         [("_GLOBAL", [mkAtt "title" (Some (mkData DString (Text "x")))]);
          ("tmp", [mkAtt "units" (Some (mkData DString (Text "K"))); mkAtt "_FillValue" (Some (mkData DShort (Ints [-32767]%Z)))])].

Example C101_nonvacuous : indexable case.
Proof.
  constructor.
  - cbn. repeat (constructor; [ cbn; intuition discriminate | ]). constructor.
  - cbn. intros d [ <- | [ <- | [] ] ]; reflexivity.
  - cbn. repeat (constructor; [ cbn; intuition discriminate | ]). constructor.
  - cbn. intuition discriminate.
  - intros n K. cbn in K. destruct K as [ -> | [ <- | [ <- | [] ] ] ];
      cbn; repeat (constructor; [ cbn; intuition discriminate | ]); constructor.
  - intros n a K A. cbn in K. destruct K as [ -> | [ <- | [ <- | [] ] ] ]; cbn in A.
    + destruct A as [ <- | [] ]. eexists; split; reflexivity.
    + destruct A.
    + destruct A as [ <- | [ <- | [] ] ]; eexists; (split; [ reflexivity | ]); [ reflexivity | ].
      cbn. split; [ discriminate | ]. exists (- 32768)%Z, 32767%Z. split; [ reflexivity | ]. intros z [ <- | [] ]. lia.
  - cbn. intros v d [ <- | [ <- | [] ] ] E; [ | discriminate ]. injection E as <-. split; [ | reflexivity ].
    cbn. split; [ discriminate | ]. exists (- 2147483648)%Z, 2147483647%Z. split; [ reflexivity | ].
    intros z [ <- | [ <- | [ <- | [] ] ] ]; lia.
Qed.

Definition round_trip (m : meta) : outcome meta := do x <- write_cdm m; read_cdm no_meta x.

(** Finding: that a variable is a component of a vector is not kept: no data read by way of an index are
    rotated to another projection. *)
Theorem C101_vector_refuted : exists m r, indexable m /\ round_trip m = Ok r /\ In tmp (m_vars m) /\
  forall v, In v (m_vars r) -> va_vector v = None.
Proof.
  exists case. destruct (C101_round_trip case C101_nonvacuous) as (x & r & W & R & _ & V & _). exists r.
  split; [ exact C101_nonvacuous | ]. split; [ unfold round_trip; rewrite W; exact R | ].
  split; [ right; now left | ]. intros v K. rewrite V in K. apply in_map_iff in K. destruct K as (w & <- & _). reflexivity.
Qed.

Definition with_att (a : attribute) : meta := mkMeta [] [] [("_GLOBAL", [a])].

(** Finding: several texts are read from the start of the table instead of their place in it; where the
    table is too short, past its end. *)
Theorem C101_strings_refuted :
  round_trip (with_att (mkAtt "flags" (Some (mkData DStrings (Texts ["red"; "blue"])))))
    = Ok (with_att (mkAtt "flags" (Some (mkData DStrings (Texts ["flags"; "red"]))))) /\
  round_trip (with_att (mkAtt "flags" (Some (mkData DStrings (Texts ["red"; "red"; "red"]))))) = UB.
Proof. split; vm_compute; reflexivity. Qed.

(** Finding: an attribute of no numbers comes back without data; asking for its type then follows a null
    pointer, and so does writing it again. *)
Theorem C101_empty_refuted : exists r,
  round_trip (with_att (mkAtt "none" (Some (mkData DInt (Ints []))))) = Ok r /\
  r = with_att (mkAtt "none" None) /\ write_cdm r = UB.
Proof. eexists. split; [ vm_compute; reflexivity | ]. split; vm_compute; reflexivity. Qed.

(** Finding: a length of more than 32 bits is cut. *)
Theorem C101_length_refuted :
  round_trip (mkMeta [mkDim "x" 4294967297 false] [] []) = Ok (mkMeta [mkDim "x" 1 false] [] []).
Proof. vm_compute. reflexivity. Qed.

(** Finding: with a variable named _GLOBAL the index of a file with global attributes cannot be read. *)
Theorem C101_global_refuted : forall v, va_name v = global_ns -> va_data v = None ->
  round_trip (mkMeta [] [v] [("_GLOBAL", [mkAtt "title" (Some (mkData DString (Text "x")))])]) = Throw.
Proof.
  intros [n t sh od ve] N D. cbn [va_name va_data] in *. subst n od. unfold round_trip, write_cdm.
  cbn [m_dims m_vars]. change (atts_of (mkMeta [] [mkVariable global_ns t sh None ve] [("_GLOBAL", [mkAtt "title" (Some (mkData DString (Text "x")))])]) global_ns)
    with [mkAtt "title" (Some (mkData DString (Text "x")))].
  set (b1 := mkSlb [("title", 0%nat); ("x", 1%nat)] ["title"; "x"]).
  change (write_all write_attribute (slb_new false) [mkAtt "title" (Some (mkData DString (Text "x")))])
    with (Ok (b1, [mkMAtt 0 (mkMData DString [] [] [] [] [1%nat] [])])).
  cbn [obind write_all]. unfold write_variable. cbn [va_name va_type va_shape va_data].
  set (b2 := mkSlb [("_GLOBAL", 2%nat); ("title", 0%nat); ("x", 1%nat)] ["title"; "x"; "_GLOBAL"]).
  change (slb_add b1 global_ns) with (b2, 2%nat). cbv iota beta.
  change (atts_of (mkMeta [] [mkVariable global_ns t sh None ve] [("_GLOBAL", [mkAtt "title" (Some (mkData DString (Text "x")))])]) global_ns)
    with [mkAtt "title" (Some (mkData DString (Text "x")))].
  change (write_all write_attribute b2 [mkAtt "title" (Some (mkData DString (Text "x")))])
    with (Ok (b2, [mkMAtt 0 (mkMData DString [] [] [] [] [1%nat] [])])).
  cbn [obind write_data].
  assert (I2 : slb_inv b2).
  { intros k i F. unfold b2 in F. cbn in F.
    destruct (String.eqb_spec k "_GLOBAL") as [ -> | _ ]; [ injection F as <-; reflexivity | ].
    destruct (String.eqb_spec k "title") as [ -> | _ ]; [ injection F as <-; reflexivity | ].
    destruct (String.eqb_spec k "x") as [ -> | _ ]; [ injection F as <-; reflexivity | discriminate ]. }
  pose proof (add_strings_kept sh b2 I2) as KS. destruct (add_strings b2 sh) as [b3 is]. destruct KS as (_ & (more & E) & R & _).
  cbn [obind]. unfold read_cdm. cbn [x_table x_globals x_dims x_vars]. rewrite E. cbn [b2 slb_strings app].
  cbn [ofold]. cbn [read_attribute xa_data xa_name read_data x_type x_strings string_at nth_error rd obind].
  change (add_attribute global_ns no_meta (mkAtt "title" (Some (mkData DString (Text "x")))))
    with (Ok (with_att (mkAtt "title" (Some (mkData DString (Text "x")))))). cbn [obind].
  unfold read_variable, read_var. cbn [xv_shape xv_name xv_data xv_atts].
  pose proof (R []) as Q. cbv beta in Q. rewrite app_nil_r, E in Q. cbn [b2 slb_strings app] in Q. rewrite Q. cbn [obind].
  cbn [string_at nth_error rd obind]. unfold read_data. cbn [x_type]. destruct t; reflexivity.
Qed.

Print Assumptions C101_round_trip.
Print Assumptions C101_again.
Print Assumptions C101_no_data.
Print Assumptions C101_nonvacuous.
Print Assumptions C101_vector_refuted.
Print Assumptions C101_strings_refuted.
Print Assumptions C101_empty_refuted.
Print Assumptions C101_length_refuted.
Print Assumptions C101_global_refuted.
