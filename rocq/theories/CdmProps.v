(** C26 editing histories, C27 renaming, C44 generated names, C45 shape comparison, C64 cached
    coordinate systems, C65 queries of the metadata. *)
From Coq Require Import NArith ZArith Ascii String List Bool Lia Permutation.
From Verif Require Import Base StdMap RegridModel StringModel TextModel TextProofs ConvertModel CdmModel CdmProofs.
Import ListNotations.
Local Open Scope string_scope.
Local Open Scope list_scope.

(** * C26 *)

Lemma consistent_empty : consistent empty_cdm.
Proof. constructor; [ constructor | constructor | constructor | intros n [] | intro n; constructor ]. Qed.

Lemma consistent_step : forall s o, consistent (cur s) -> consistent (cur (fst (step s o))).
Proof.
  intros s o C. destruct o as [ v | n | a b | d | n ig | a b ig | n a | n a | n a | ]; cbn [step].
  - destruct (has_var (cur s) (v_name v)) eqn:H; cbn [fst cur]; [ exact C | ]. apply has_var_false in H.
    destruct C as [A B S D E]. constructor; cbn [vars dims attrs]; try assumption.
    + now apply nodup_app.
    + intros m M. destruct (D m M); [ now left | right ]. unfold vnames. cbn [vars]. rewrite map_app. apply in_or_app. now left.
  - now apply consistent_removed.
  - destruct (string_dec a b) as [ -> | N ].
    + rewrite rename_var_fails by now left. now apply consistent_removed.
    + destruct (has_var (cur s) a) eqn:H.
      * destruct (rename_var_ok (cur s) a b C N H) as (c' & E & C' & _). rewrite E. exact C'.
      * rewrite rename_var_fails by now right. now apply consistent_removed.
  - destruct (has_dim (cur s) (d_name d)) eqn:H; cbn [fst cur]; [ exact C | ]. apply has_dim_false in H.
    apply consistent_dims; [ exact C | ]. apply nodup_app; [ apply C | exact H ].
  - assert (X := consistent_remove_dim (cur s) n ig C). destruct (remove_dim (cur s) n ig). exact X.
  - assert (X := consistent_rename_dim (cur s) a b ig C). destruct (rename_dim (cur s) a b ig). exact X.
  - destruct (add_attr (cur s) n a) as [ c' | ] eqn:E; cbn [fst cur]; [ | exact C ]. now apply (consistent_add_attr (cur s) n a).
  - destruct (replace_attr (cur s) n a) as [ c' | ] eqn:E; cbn [fst cur]; [ | exact C ].
    apply replace_attr_some in E. now apply E.
  - now apply consistent_remove_attr.
  - exact C.
Qed.

(** every history *)
Theorem C26_consistent : forall history, consistent (cur (run fresh history)).
Proof.
  assert (G : forall l s, consistent (cur s) -> consistent (cur (run s l))).
  { induction l as [ | o l IH ]; intros s C; [ exact C | ]. cbn [run]. apply IH. now apply consistent_step. }
  intro l. apply G. exact consistent_empty.
Qed.

(** an exception leaves the content unchanged, except when a dimension is renamed to its own name *)
Theorem C26_exception_changes_nothing : forall s o s', step s o = (s', Threw) ->
  (forall a ig, o <> RenDim a a ig) -> cur s' = cur s.
Proof.
  intros s o s' H N. destruct o as [ v | n | a b | d | n ig | a b ig | n a | n a | n a | ]; cbn [step] in H; try discriminate.
  - destruct (has_var (cur s) (v_name v)); [ | discriminate ]. now injection H as <-.
  - destruct (rename_var (cur s) a b). discriminate.
  - destruct (has_dim (cur s) (d_name d)); [ | discriminate ]. now injection H as <-.
  - unfold remove_dim in H. destruct (negb ig && dim_in_use (cur s) n); [ | discriminate ]. now injection H as <-.
  - assert (D : a <> b) by (intros ->; now apply (N b ig)).
    unfold rename_dim in H. destruct (has_dim (cur s) a) eqn:Ha; cbn [negb] in H; [ | discriminate ].
    destruct (has_dim (cur s) b) eqn:Hb.
    + destruct (negb ig && dim_in_use (cur s) b) eqn:U; [ now injection H as <- | ].
      unfold remove_dim in H. rewrite U in H.
      assert (X : has_dim (mkCdm (vars (cur s)) (filter (fun d => negb (String.eqb b (d_name d))) (dims (cur s))) (attrs (cur s))) a = true).
      { unfold has_dim, find_dim. cbn [dims]. rewrite (fnd_filter d_name). destruct (String.eqb_spec a b); [ congruence | exact Ha ]. }
      rewrite X in H. discriminate.
    + rewrite Ha in H. discriminate.
  - destruct (add_attr (cur s) n a); [ discriminate | ]. now injection H as <-.
  - destruct (replace_attr (cur s) n a); [ discriminate | ]. now injection H as <-.
Qed.

(** adding: refused exactly if the name exists, otherwise found by its name, all else as before *)
Theorem C26_add_variable : forall s v,
  (In (v_name v) (vnames (cur s)) -> snd (step s (AddVar v)) = Threw) /\
  (~ In (v_name v) (vnames (cur s)) -> forall c', cur (fst (step s (AddVar v))) = c' ->
     find_var (v_name v) (vars c') = Some v /\ (forall n, n <> v_name v -> find_var n (vars c') = find_var n (vars (cur s))) /\
     dims c' = dims (cur s) /\ attrs c' = attrs (cur s)).
Proof.
  intros s v. cbn [step]. split.
  - intro H. apply has_var_in in H. now rewrite H.
  - intro H. assert (H' := H). apply has_var_false in H'. rewrite H'. cbn [fst cur]. intros c' <-. cbn [vars dims attrs].
    split; [ | split; [ | split; reflexivity ] ].
    + unfold find_var. rewrite (fnd_app v_name). assert (X := proj2 (fnd_none v_name (v_name v) (vars (cur s))) H).
      rewrite X. cbn [find]. now rewrite String.eqb_refl.
    + intros n N. unfold find_var. rewrite (fnd_app v_name). destruct (find _ (vars (cur s))); [ reflexivity | ].
      cbn [find]. destruct (String.eqb_spec n (v_name v)); [ congruence | reflexivity ].
Qed.
(** removing: the variable and its attributes are gone, all else as before *)
Theorem C26_remove_variable : forall s n c', cur (fst (step s (RemVar n))) = c' ->
  (forall m, find_var m (vars c') = if String.eqb m n then None else find_var m (vars (cur s))) /\
  (forall m, attrs_of c' m = if String.eqb m n then [] else attrs_of (cur s) m) /\ dims c' = dims (cur s).
Proof.
  intros s n c' <-. cbn [step fst cur]. split; [ intro; apply find_var_removed | ]. split; [ intro; apply attrs_of_removed | reflexivity ].
Qed.
(** attributes: refused exactly without owner or if the name exists; otherwise last in the list *)
Theorem C26_add_attribute : forall s n a c', cur (fst (step s (AddAttr n a))) = c' ->
  (snd (step s (AddAttr n a)) = Done true <->
     (n = global_ns \/ In n (vnames (cur s))) /\ ~ In (a_name a) (map a_name (attrs_of (cur s) n))) /\
  (snd (step s (AddAttr n a)) = Done true ->
     forall m, attrs_of c' m = if String.eqb m n then attrs_of (cur s) n ++ [a] else attrs_of (cur s) m) /\
  vars c' = vars (cur s) /\ dims c' = dims (cur s).
Proof.
  intros s n a c' <-. cbn [step]. destruct (add_attr (cur s) n a) as [ c1 | ] eqn:E; cbn [fst snd cur].
  - apply add_attr_some in E. destruct E as (O & N & ->). split; [ tauto | ]. split; [ | split; reflexivity ].
    intros _ m. apply attrs_of_put.
  - split; [ | split; [ discriminate | split; reflexivity ] ]. split; [ discriminate | ]. intros [O N].
    rewrite add_attr_ok in E by assumption. discriminate.
Qed.
(** replacing: never two of the name *)
Theorem C26_replace_attribute : forall s n a c', consistent (cur s) -> n = global_ns \/ In n (vnames (cur s)) ->
  cur (fst (step s (RepAttr n a))) = c' ->
  get_attr c' n (a_name a) = Some a /\
  (forall b, b <> a_name a -> get_attr c' n b = get_attr (cur s) n b) /\
  (forall m, m <> n -> attrs_of c' m = attrs_of (cur s) m) /\ vars c' = vars (cur s) /\ dims c' = dims (cur s).
Proof.
  intros s n a c' C O <-. cbn [step]. destruct (replace_attr (cur s) n a) as [ c1 | ] eqn:E.
  2:{ exfalso. unfold replace_attr in E.
      destruct (negb (String.eqb n global_ns) && negb (has_var (cur s) n)) eqn:X; [ | discriminate ].
      apply andb_true_iff in X. destruct X as [X1 X2]. apply negb_true_iff in X1. apply negb_true_iff in X2.
      apply has_var_false in X2. apply String.eqb_neq in X1. tauto. }
  cbn [fst cur]. apply replace_attr_some in E. destruct E as (_ & V & D & CC & A).
  assert (GA : forall c m b, get_attr c m b = find_attr b (attrs_of c m)).
  { intros c m b. unfold get_attr, attrs_of. now destruct (sfind m (attrs c)). }
  split; [ | split; [ | split; [ | split; assumption ] ] ].
  - rewrite GA, A, String.eqb_refl. unfold find_attr. rewrite (fnd_app a_name), (fnd_filter a_name), String.eqb_refl.
    cbn [find]. now rewrite String.eqb_refl.
  - intros b B. rewrite !GA, A, String.eqb_refl. unfold find_attr. rewrite (fnd_app a_name), (fnd_filter a_name).
    destruct (String.eqb_spec b (a_name a)); [ congruence | ]. destruct (find _ (attrs_of (cur s) n)); [ reflexivity | ].
    cbn [find]. destruct (String.eqb_spec b (a_name a)); [ congruence | reflexivity ].
  - intros m M. rewrite A. destruct (String.eqb_spec m n); [ congruence | reflexivity ].
Qed.
Theorem C26_remove_attribute : forall s n a c', cur (fst (step s (RemAttr n a))) = c' ->
  get_attr c' n a = None /\ (forall b, b <> a -> get_attr c' n b = get_attr (cur s) n b) /\
  (forall m, m <> n -> attrs_of c' m = attrs_of (cur s) m).
Proof.
  intros s n a c' <-. cbn [step fst cur].
  assert (GA : forall c m b, get_attr c m b = find_attr b (attrs_of c m)).
  { intros c m b. unfold get_attr, attrs_of. now destruct (sfind m (attrs c)). }
  split; [ | split ].
  - rewrite GA, attrs_of_remove_attr, String.eqb_refl. unfold find_attr. now rewrite (fnd_filter a_name), String.eqb_refl.
  - intros b B. rewrite !GA, attrs_of_remove_attr, String.eqb_refl. unfold find_attr. rewrite (fnd_filter a_name).
    destruct (String.eqb_spec b a); [ congruence | reflexivity ].
  - intros m M. rewrite attrs_of_remove_attr. destruct (String.eqb_spec m n); [ congruence | reflexivity ].
Qed.
(** a dimension in use is only removed on request *)
Theorem C26_remove_dimension : forall s n ig,
  (dim_in_use (cur s) n = true -> ig = false -> snd (step s (RemDim n ig)) = Threw) /\
  (dim_in_use (cur s) n = false \/ ig = true ->
     snd (step s (RemDim n ig)) = Done (has_dim (cur s) n) /\
     forall m, find_dim m (dims (cur (fst (step s (RemDim n ig))))) = if String.eqb m n then None else find_dim m (dims (cur s))).
Proof.
  intros s n ig. cbn [step]. unfold remove_dim. split.
  - intros U ->. now rewrite U.
  - intro H. assert (negb ig && dim_in_use (cur s) n = false) as ->.
    { destruct H as [ -> | -> ]; [ apply andb_false_r | reflexivity ]. }
    cbn [fst snd cur dims]. split; [ reflexivity | ]. intro m. apply (fnd_filter d_name).
Qed.

(** renaming a variable to its own name, or a missing one onto another, removes a variable although
    the result says that nothing was done *)
Theorem C26_rename_removes_refuted : forall s o n, o = n \/ ~ In o (vnames (cur s)) ->
  snd (step s (RenVar o n)) = Done false /\ ~ In n (vnames (cur (fst (step s (RenVar o n))))) /\
  attrs_of (cur (fst (step s (RenVar o n)))) n = [].
Proof.
  intros s o n H. cbn [step]. rewrite rename_var_fails.
  - cbn [fst snd cur]. split; [ reflexivity | ]. split; [ rewrite vnames_removed; tauto | ].
    now rewrite attrs_of_removed, String.eqb_refl.
  - destruct H; [ now left | right; now apply has_var_false ].
Qed.
(** renaming an unused dimension to its own name removes it and throws *)
Theorem C26_rename_dimension_self_refuted : forall s n ig, In n (dnames (cur s)) ->
  dim_in_use (cur s) n = false \/ ig = true ->
  snd (step s (RenDim n n ig)) = Threw /\ ~ In n (dnames (cur (fst (step s (RenDim n n ig))))).
Proof.
  intros s n ig H U. cbn [step]. unfold rename_dim. apply has_dim_in in H. rewrite H. cbn [negb].
  assert (negb ig && dim_in_use (cur s) n = false) as UU.
  { destruct U as [ -> | -> ]; [ apply andb_false_r | reflexivity ]. }
  rewrite UU. unfold remove_dim. rewrite UU.
  assert (X : has_dim (mkCdm (vars (cur s)) (filter (fun d => negb (String.eqb n (d_name d))) (dims (cur s))) (attrs (cur s))) n = false).
  { unfold has_dim, find_dim. cbn [dims]. now rewrite (fnd_filter d_name), String.eqb_refl. }
  rewrite X. cbn [fst snd cur]. split; [ reflexivity | ]. now apply has_dim_false.
Qed.
(** a variable name equal to the name of the global namespace: its removal takes the global
    attributes away *)
Theorem C26_remove_global_refuted : forall s, attrs_of (cur (fst (step s (RemVar global_ns)))) global_ns = [].
Proof. intro s. cbn [step fst cur]. now rewrite attrs_of_removed. Qed.

Definition tvar (n : string) (shape : list string) : cvar := mkVar n DFloat shape "" None.
Definition tattr (n t : string) : cattr := mkAttr n DString [] t.
Definition history0 : list op :=
  [AddDim (mkDim "x" 3 false); AddVar (tvar "t" ["x"]); AddVar (tvar "t" []); AddAttr "t" (tattr "units" "K");
   AddAttr "t" (tattr "units" "C"); AddAttr "q" (tattr "units" "C"); RenVar "t" "u"; RemDim "x" false; RepAttr "u" (tattr "units" "C")].
Example C26_nonvacuous : cur (run fresh history0) =
  mkCdm [tvar "u" ["x"]] [mkDim "x" 3 false] [("u", [tattr "units" "C"])].
Proof. reflexivity. Qed.

(** * C27 *)

(** renaming a variable (an existing variable of the new name is replaced) *)
Theorem C27_rename_variable : forall s o n c' v, consistent (cur s) -> o <> n -> find_var o (vars (cur s)) = Some v ->
  cur (fst (step s (RenVar o n))) = c' ->
  snd (step s (RenVar o n)) = Done true /\
  find_var n (vars c') = Some (mkVar n (v_type v) (v_shape v) (v_counterpart v) (v_data v)) /\
  find_var o (vars c') = None /\
  (forall m, m <> o -> m <> n -> find_var m (vars c') = find_var m (vars (cur s))) /\
  attrs_of c' n = attrs_of (cur s) o /\ attrs_of c' o = [] /\
  (forall m, m <> o -> m <> n -> attrs_of c' m = attrs_of (cur s) m) /\
  dims c' = dims (cur s).
Proof.
  intros s o n c' v C N F <-. cbn [step].
  assert (H : has_var (cur s) o = true) by (unfold has_var; now rewrite F).
  destruct (rename_var_ok (cur s) o n C N H) as (c' & E & C' & V & D & A). rewrite E. cbn [fst snd cur].
  assert (NI : ~ In n (map v_name (filter (fun v => negb (String.eqb n (v_name v))) (vars (cur s))))).
  { rewrite (names_filter v_name). intro I. apply filter_In in I. rewrite String.eqb_refl in I. now destruct I. }
  assert (FV : forall m, find_var m (vars c') = if String.eqb m o then None else if String.eqb m n
      then option_map (renamed n) (find_var o (filter (fun v => negb (String.eqb n (v_name v))) (vars (cur s))))
      else find_var m (filter (fun v => negb (String.eqb n (v_name v))) (vars (cur s)))).
  { intro m. rewrite V. unfold find_var. apply (find_renamed_gen cvar v_name renamed); [ reflexivity | assumption | assumption ]. }
  unfold find_var in FV. rewrite (fnd_filter v_name) in FV.
  split; [ reflexivity | ]. split; [ | split; [ | split; [ | split; [ | split; [ | split ] ] ] ] ].
  - unfold find_var. rewrite FV, String.eqb_refl. destruct (String.eqb_spec n o); [ congruence | ].
    destruct (String.eqb_spec o n); [ congruence | ]. unfold find_var in F. rewrite F. reflexivity.
  - unfold find_var. now rewrite FV, String.eqb_refl.
  - intros m M1 M2. unfold find_var. rewrite FV. destruct (String.eqb_spec m o); [ congruence | ].
    destruct (String.eqb_spec m n); [ congruence | ]. rewrite (fnd_filter v_name).
    destruct (String.eqb_spec m n); [ congruence | reflexivity ].
  - rewrite A, String.eqb_refl. destruct (String.eqb_spec n o); [ congruence | reflexivity ].
  - now rewrite A, String.eqb_refl.
  - intros m M1 M2. rewrite A. destruct (String.eqb_spec m o); [ congruence | ]. destruct (String.eqb_spec m n); [ congruence | reflexivity ].
  - exact D.
Qed.
(** the order of the variables is kept *)
Theorem C27_rename_variable_order : forall s o n, consistent (cur s) -> In o (vnames (cur s)) -> ~ In n (vnames (cur s)) ->
  vnames (cur (fst (step s (RenVar o n)))) = map (fun m => if String.eqb o m then n else m) (vnames (cur s)).
Proof.
  intros s o n C H NI. cbn [step]. assert (N : o <> n) by (intros ->; contradiction). apply has_var_in in H.
  destruct (rename_var_ok (cur s) o n C N H) as (c' & E & C' & V & D & A). rewrite E. cbn [fst cur].
  unfold vnames. rewrite V. rewrite filter_absent by exact NI. rewrite !map_map. apply map_ext. intro v.
  now destruct (String.eqb o (v_name v)).
Qed.
(** back and forth *)
Theorem C27_rename_back : forall s o n c', consistent (cur s) -> In o (vnames (cur s)) -> ~ In n (vnames (cur s)) ->
  ~ In n (skeys (attrs (cur s))) ->
  cur (run s [RenVar o n; RenVar n o]) = c' ->
  vars c' = vars (cur s) /\ dims c' = dims (cur s) /\ forall m, attrs_of c' m = attrs_of (cur s) m.
Proof.
  intros s o n c' C H NI NA <-. cbn [run step]. assert (N : o <> n) by (intros ->; contradiction). apply has_var_in in H.
  destruct (rename_var_ok (cur s) o n C N H) as (c1 & E & C1 & V & D & A). rewrite E. cbn [fst cur].
  rewrite filter_absent in V by exact NI.
  assert (H1 : has_var c1 n = true).
  { apply has_var_in. unfold vnames. rewrite V, map_map. apply in_map_iff. apply has_var_in in H. unfold vnames in H.
    apply in_map_iff in H. destruct H as (v & Hv & I). exists v. split; [ | exact I ]. rewrite Hv, String.eqb_refl. reflexivity. }
  destruct (rename_var_ok c1 n o C1 (not_eq_sym N) H1) as (c2 & E2 & C2 & V2 & D2 & A2). rewrite E2. cbn [fst cur].
  split; [ | split ].
  - rewrite V2. rewrite filter_absent.
    + rewrite V, map_map. rewrite <- (map_id (vars (cur s))) at 2. apply map_ext_in. intros v I.
      destruct (String.eqb_spec o (v_name v)) as [ -> | M ].
      * cbn [renamed v_name]. rewrite String.eqb_refl. now destruct v.
      * destruct (String.eqb_spec n (v_name v)) as [ -> | M2 ]; [ | reflexivity ].
        exfalso. apply NI. now apply in_map.
    + rewrite V, map_map. intro I. apply in_map_iff in I. destruct I as (v & X & I).
      destruct (String.eqb_spec o (v_name v)); cbn [renamed v_name] in X; congruence.
  - now rewrite D2.
  - intro m. rewrite A2, !A. destruct (String.eqb_spec m n) as [ -> | M ].
    + unfold attrs_of. destruct (sfind n (attrs (cur s))) eqn:F; [ | reflexivity ]. exfalso. apply NA. apply sfind_In. eauto.
    + destruct (String.eqb_spec m o) as [ -> | ]; [ | reflexivity ]. destruct (String.eqb_spec n o); [ congruence | ].
      now rewrite String.eqb_refl.
Qed.

(** dimensions *)
Theorem C27_rename_dimension : forall s o n ig c' d, consistent (cur s) -> o <> n -> find_dim o (dims (cur s)) = Some d ->
  ig = true \/ dim_in_use (cur s) n = false -> cur (fst (step s (RenDim o n ig))) = c' ->
  snd (step s (RenDim o n ig)) = Done true /\
  find_dim n (dims c') = Some (mkDim n (d_len d) (d_unlim d)) /\ find_dim o (dims c') = None /\
  (forall m, m <> o -> m <> n -> find_dim m (dims c') = find_dim m (dims (cur s))) /\
  attrs c' = attrs (cur s) /\
  Forall2 (fun v w => v_name w = v_name v /\ v_type w = v_type v /\ v_data w = v_data v /\ v_counterpart w = v_counterpart v /\
                      v_shape w = map (fun x => if String.eqb x o then n else x) (v_shape v)) (vars (cur s)) (vars c').
Proof.
  intros s o n ig c' d C N F U <-. cbn [step].
  assert (H : has_dim (cur s) o = true) by (unfold has_dim; now rewrite F).
  rewrite rename_dim_ok by assumption. cbn [fst snd cur vars dims attrs].
  set (l := filter (fun d => negb (String.eqb n (d_name d))) (dims (cur s))).
  assert (NI : ~ In n (map d_name l)).
  { unfold l. rewrite (names_filter d_name). intro I. apply filter_In in I. rewrite String.eqb_refl in I. now destruct I. }
  assert (FD : forall m, find_dim m (map (fun d => if String.eqb o (d_name d) then drenamed n d else d) l) =
     if String.eqb m o then None else if String.eqb m n then option_map (drenamed n) (find_dim o l) else find_dim m l).
  { intro m. apply (find_renamed_gen cdim d_name drenamed); [ reflexivity | assumption | assumption ]. }
  assert (FL : forall m, find_dim m l = if String.eqb m n then None else find_dim m (dims (cur s))) by (intro; apply (fnd_filter d_name)).
  split; [ reflexivity | ]. split; [ | split; [ | split; [ | split; [ reflexivity | ] ] ] ].
  - rewrite FD, FL, String.eqb_refl. destruct (String.eqb_spec n o); [ congruence | ]. destruct (String.eqb_spec o n); [ congruence | ].
    now rewrite F.
  - now rewrite FD, String.eqb_refl.
  - intros m M1 M2. rewrite FD, (FL m). destruct (String.eqb_spec m o); [ congruence | ]. destruct (String.eqb_spec m n); [ congruence | reflexivity ].
  - induction (vars (cur s)) as [ | v l' IH ]; cbn [map]; constructor; [ | exact IH ]. repeat split; reflexivity.
Qed.
(** the lengths of all variables not using the new name before are kept *)
Theorem C27_rename_dimension_lengths : forall s o n ig c' v, consistent (cur s) -> o <> n -> In o (dnames (cur s)) ->
  ig = true \/ dim_in_use (cur s) n = false -> cur (fst (step s (RenDim o n ig))) = c' ->
  ~ In n (v_shape v) ->
  map (size_of (dim_sizes c')) (map (fun x => if String.eqb x o then n else x) (v_shape v)) =
  map (size_of (dim_sizes (cur s))) (v_shape v).
Proof.
  intros s o n ig c' v C N H U E NI. apply has_dim_in in H. unfold has_dim in H.
  destruct (find_dim o (dims (cur s))) as [ d | ] eqn:F; [ clear H | discriminate ].
  destruct (C27_rename_dimension s o n ig c' d C N F U E) as (_ & F1 & F2 & F3 & _).
  assert (C' : consistent c') by (rewrite <- E; now apply consistent_step).
  rewrite map_map. apply map_ext_in. intros x X. rewrite !size_of_dims by apply C || apply C'.
  destruct (String.eqb_spec x o) as [ -> | M ]; [ now rewrite F1, F | ].
  rewrite F3; [ reflexivity | assumption | ]. intros ->. contradiction.
Qed.

(** references by name are not followed: the other component of a vector keeps the old name *)
Theorem C27_counterpart_refuted :
  let v n p := mkVar n DFloat [] p None in
  let s := run fresh [AddVar (v "u" "v"); AddVar (v "v" "u"); RenVar "u" "wind_x"] in
  vars (cur s) = [v "wind_x" "v"; v "v" "u"] /\ ~ In "u" (vnames (cur s)).
Proof. cbv zeta. split; [ reflexivity | ]. cbn. intros [ E | [ E | [] ] ]; discriminate. Qed.
Example C27_nonvacuous :
  let s := run fresh [AddDim (mkDim "x" 3 false); AddDim (mkDim "y" 2 true); AddVar (tvar "t" ["x"; "y"; "x"]); RenDim "x" "lon" false] in
  dims (cur s) = [mkDim "lon" 3 false; mkDim "y" 2 true] /\ vars (cur s) = [tvar "t" ["lon"; "y"; "lon"]].
Proof. split; reflexivity. Qed.

(** * C64 *)

(** the cached coordinate systems always belong to the present content *)
Theorem C64_cache_current : forall history, forall c, coords (run fresh history) = Some c -> c = cur (run fresh history).
Proof.
  assert (G : forall l s, (forall c, coords s = Some c -> c = cur s) -> forall c, coords (run s l) = Some c -> c = cur (run s l)).
  { induction l as [ | o l IH ]; intros s I; [ exact I | ]. cbn [run]. apply IH. intros c.
    destruct o as [ v | n | a b | d | n ig | a b ig | n a | n a | n a | ]; cbn [step].
    - destruct (has_var (cur s) (v_name v)); discriminate.
    - discriminate.
    - destruct (rename_var (cur s) a b). discriminate.
    - destruct (has_dim (cur s) (d_name d)); discriminate.
    - unfold remove_dim. destruct (negb ig && dim_in_use (cur s) n) eqn:U; cbn [fst coords cur]; [ apply I | ].
      destruct (has_dim (cur s) n) eqn:H; [ discriminate | ]. intro E. rewrite filter_absent by now apply has_dim_false.
      rewrite (I c E). now destruct (cur s).
    - destruct (rename_dim (cur s) a b ig). discriminate.
    - destruct (add_attr (cur s) n a); discriminate.
    - destruct (replace_attr (cur s) n a); discriminate.
    - discriminate.
    - cbn [fst coords cur]. destruct (coords s) eqn:E; [ | congruence ]. intro X. apply I. congruence. }
  intros l. apply G. discriminate.
Qed.
(** so a query after any history is answered from the present content *)
Theorem C64_query : forall history, coords (run fresh (history ++ [QueryCoords])) = Some (cur (run fresh history)).
Proof.
  intro l. assert (R : forall a b s, run s (a ++ b) = run (run s a) b) by (induction a; intros; cbn [app run]; auto).
  rewrite R. cbn [run step fst coords]. assert (X := C64_cache_current l).
  destruct (coords (run fresh l)) as [ c | ]; [ | reflexivity ]. f_equal. now apply X.
Qed.
(** editing through the reference returned by getVariable is not noticed: the cache is stale *)
Definition set_shape_by_ref (s : state) (n : string) (shape : list string) : state :=
  mkState (mkCdm (map (fun v => if String.eqb n (v_name v) then mkVar (v_name v) (v_type v) shape (v_counterpart v) (v_data v) else v)
                      (vars (cur s))) (dims (cur s)) (attrs (cur s))) (coords s).
Theorem C64_reference_refuted :
  let s := set_shape_by_ref (run fresh [AddVar (tvar "t" ["x"]); QueryCoords]) "t" ["y"] in
  coords (fst (step s QueryCoords)) = Some (mkCdm [tvar "t" ["x"]] [] []) /\ cur s = mkCdm [tvar "t" ["y"]] [] [].
Proof. split; reflexivity. Qed.
Example C64_nonvacuous : exists c, coords (run fresh [AddDim (mkDim "x" 1 false); QueryCoords; RemDim "q" false]) = Some c /\ dims c <> [].
Proof. eexists. split; [ reflexivity | discriminate ]. Qed.

(** * C44 *)

Lemma try_numbers_spec : forall todo taken base i,
  match try_numbers taken base i todo with
  | Ok name => taken name = false /\ exists k, (i <= k < i + N.of_nat todo)%N /\ name = (base ++ number k)%string /\
                 forall j, (i <= j < k)%N -> taken (base ++ number j)%string = true
  | Throw => forall j, (i <= j < i + N.of_nat todo)%N -> taken (base ++ number j)%string = true
  | _ => False
  end.
Proof.
  induction todo as [ | todo IH ]; intros taken base i; cbn [try_numbers]; [ intros j J; lia | ].
  destruct (taken (base ++ number i)%string) eqn:T.
  - specialize (IH taken base (i + 1)%N). destruct (try_numbers taken base (i + 1) todo) as [ name | | | ]; try contradiction.
    + destruct IH as (F & k & K & E & B). split; [ exact F | ]. exists k. split; [ lia | ]. split; [ exact E | ].
      intros j J. destruct (N.eq_dec j i) as [ -> | ]; [ exact T | apply B; lia ].
    + intros j J. destruct (N.eq_dec j i) as [ -> | ]; [ exact T | apply IH; lia ].
  - split; [ exact T | ]. exists i. split; [ lia | ]. split; [ reflexivity | ]. intros j J. lia.
Qed.

(** names of dimensions and variables *)
Theorem C44_new_name : forall c base name, unique_dimvar c base = Ok name ->
  ~ In name (vnames c) /\ ~ In name (dnames c) /\
  (name = base \/ exists k, (k < 99)%N /\ name = (base ++ number k)%string).
Proof.
  intros c base name. unfold unique_dimvar.
  assert (T : forall n, (has_var c n || has_dim c n)%bool = false -> ~ In n (vnames c) /\ ~ In n (dnames c)).
  { intros n H. apply orb_false_iff in H. destruct H as [A B]. split; [ now apply has_var_false | now apply has_dim_false ]. }
  destruct ((has_var c base || has_dim c base)%bool) eqn:B.
  - assert (X := try_numbers_spec 99 (fun n => (has_var c n || has_dim c n)%bool) base 0).
    destruct (try_numbers _ base 0 99) as [ n' | | | ]; try discriminate. intro E. injection E as <-.
    destruct X as (F & k & K & E & _). apply T in F. split; [ tauto | ]. split; [ tauto | ]. right. exists k. split; [ lia | exact E ].
  - intro E. injection E as <-. apply T in B. tauto.
Qed.
Theorem C44_free_base : forall c base, ~ In base (vnames c) -> ~ In base (dnames c) -> unique_dimvar c base = Ok base.
Proof.
  intros c base V D. unfold unique_dimvar. apply has_var_false in V. apply has_dim_false in D. now rewrite V, D.
Qed.
(** an exception exactly if the base name and all 99 numbered ones are taken *)
Theorem C44_exhausted : forall c base, unique_dimvar c base = Throw <->
  let taken n := In n (vnames c) \/ In n (dnames c) in
  taken base /\ forall k, (k < 99)%N -> taken (base ++ number k)%string.
Proof.
  intros c base. unfold unique_dimvar. cbv zeta.
  assert (T : forall n, (has_var c n || has_dim c n)%bool = true <-> In n (vnames c) \/ In n (dnames c)).
  { intro n. rewrite orb_true_iff, has_var_in, has_dim_in. reflexivity. }
  destruct ((has_var c base || has_dim c base)%bool) eqn:B.
  - assert (X := try_numbers_spec 99 (fun n => (has_var c n || has_dim c n)%bool) base 0).
    apply T in B. destruct (try_numbers _ base 0 99) as [ n' | | | ]; try contradiction.
    + split; [ discriminate | ]. intros [_ H]. destruct X as (F & k & K & E & _). specialize (H k ltac:(lia)).
      apply T in H. rewrite <- E in H. congruence.
    + split; [ | reflexivity ]. intros _. split; [ exact B | ]. intros k K. apply T. apply X. lia.
  - split; [ discriminate | ]. intros [H _]. apply T in H. congruence.
Qed.

Lemma count_up_spec : forall taken base fuel i name,
  (forall n, count_up taken base name i fuel = Ok n -> taken n = false /\ (n = name \/ exists k, (i < k)%N /\ n = (base ++ number k)%string)) /\
  (count_up taken base name i fuel = Hang -> taken name = true /\ forall k, (i < k <= i + N.of_nat fuel)%N -> taken (base ++ number k)%string = true) /\
  (count_up taken base name i fuel <> Throw /\ count_up taken base name i fuel <> UB).
Proof.
  intros taken base. induction fuel as [ | fuel IH ]; intros i name; cbn [count_up].
  - destruct (taken name) eqn:T; (split; [ | split ]); try (split; discriminate); try discriminate.
    + intros _. split; [ reflexivity | intros k K; lia ].
    + intros n E. injection E as <-. tauto.
  - destruct (taken name) eqn:T.
    + destruct (IH (i + 1)%N (base ++ number (i + 1))%string) as (A & B & C). split; [ | split ].
      * intros n E. destruct (A n E) as [F G]. split; [ exact F | ]. right. destruct G as [ -> | (k & K & ->) ].
        -- exists (i + 1)%N. split; [ lia | reflexivity ].
        -- exists k. split; [ lia | reflexivity ].
      * intro H. destruct (B H) as [F G]. split; [ reflexivity | ]. intros k K.
        destruct (N.eq_dec k (i + 1)) as [ -> | ]; [ exact F | apply G; lia ].
      * exact C.
    + split; [ | split ]; try (split; discriminate); try discriminate. intros n E. injection E as <-. tauto.
Qed.

Lemma count_up_ends : forall (names : list string) taken base, (forall n, taken n = true -> In n names) ->
  exists name, count_up taken base base 0 (length names) = Ok name.
Proof.
  intros names taken base H. destruct (count_up_spec taken base (length names) 0 base) as (A & B & C & D).
  destruct (count_up taken base base 0 (length names)) as [ n | | | ]; [ eauto | congruence | congruence | ].
  exfalso. destruct (B eq_refl) as [F G].
  set (l := base :: map (fun k => base ++ number (N.of_nat k))%string (seq 1 (length names))).
  assert (NoDup l).
  { unfold l. constructor.
    - intro I. apply in_map_iff in I. destruct I as (k & E & _).
      assert (X : number (N.of_nat k) = "").
      { apply (append_inj base). rewrite E. clear. induction base as [ | c b IH ]; [ reflexivity | ]. cbn. now rewrite <- IH. }
      assert (Y := undec_dec (N.of_nat k)). unfold number in X.
      assert (Z : dec (N.of_nat k) = []).
      { rewrite <- (list_ascii_of_string_of_list_ascii (dec (N.of_nat k))). now rewrite X. }
      rewrite Z in Y. discriminate.
    - apply FinFun.Injective_map_NoDup; [ | apply seq_NoDup ]. intros a b E. apply append_inj, number_inj in E. lia. }
  assert (incl l names).
  { intros n I. apply H. destruct I as [ <- | I ]; [ exact F | ]. apply in_map_iff in I. destruct I as (k & <- & K).
    apply in_seq in K. apply G. lia. }
  assert (X := NoDup_incl_length H0 H1). unfold l in X. cbn in X. rewrite map_length, seq_length in X. lia.
Qed.

(** names of variables only, and of dimensions only: the search ends within as many steps as there
    are names *)
Theorem C44_new_variable_name : forall c base, exists name, unique_var (length (vars c)) c base = Ok name /\
  ~ In name (vnames c) /\ (name = base \/ exists k, (0 < k)%N /\ name = (base ++ number k)%string) /\
  (~ In base (vnames c) -> name = base).
Proof.
  intros c base. unfold unique_var.
  destruct (count_up_ends (vnames c) (has_var c) base) as [name E]; [ intros n H; now apply has_var_in | ].
  unfold vnames in E. rewrite map_length in E. exists name. split; [ exact E | ].
  destruct (count_up_spec (has_var c) base (length (vars c)) 0 base) as (A & _). destruct (A name E) as [F G].
  split; [ now apply has_var_false | ]. split; [ exact G | ].
  intro B. apply has_var_false in B. destruct (length (vars c)); cbn [count_up] in E; rewrite B in E; congruence.
Qed.
Theorem C44_new_dimension_name : forall c base, exists name, unique_dim (length (dims c)) c base = Ok name /\
  ~ In name (dnames c) /\ (name = base \/ exists k, (0 < k)%N /\ name = (base ++ number k)%string) /\
  (~ In base (dnames c) -> name = base).
Proof.
  intros c base. unfold unique_dim.
  destruct (count_up_ends (dnames c) (has_dim c) base) as [name E]; [ intros n H; now apply has_dim_in | ].
  unfold dnames in E. rewrite map_length in E. exists name. split; [ exact E | ].
  destruct (count_up_spec (has_dim c) base (length (dims c)) 0 base) as (A & _). destruct (A name E) as [F G].
  split; [ now apply has_dim_false | ]. split; [ exact G | ].
  intro B. apply has_dim_false in B. destruct (length (dims c)); cbn [count_up] in E; rewrite B in E; congruence.
Qed.
Example C44_nonvacuous :
  let c := mkCdm [tvar "lon" []; tvar "lon1" []] [mkDim "lon0" 1 false] [] in
  unique_dimvar c "lon" = Ok "lon2" /\ unique_var 2 c "lon" = Ok "lon2" /\ unique_dim 1 c "lon0" = Ok "lon01".
Proof. repeat split; reflexivity. Qed.

(** * C45 *)

Definition big (l : list N) : list N := filter (fun n => negb (n =? 1)%N) l.

Lemma big_skip : forall size s, big (map size (skip_ones size s)) = big (map size s).
Proof.
  intros size s. induction s as [ | d s IH ]; cbn; [ reflexivity | ]. destruct (N.eqb_spec (size d) 1) as [ E | E ]; cbn.
  - exact IH.
  - destruct (N.eqb_spec (size d) 1); [ congruence | reflexivity ].
Qed.
Lemma skip_head : forall size s d r, skip_ones size s = d :: r -> size d <> 1%N.
Proof.
  intros size s. induction s as [ | x s IH ]; cbn; intros d r E; [ discriminate | ].
  destruct (N.eqb_spec (size x) 1); [ now apply (IH d r) | congruence ].
Qed.

Lemma compare_big : forall size1 size2 s1 s2, compare_shapes size1 size2 s1 s2 = true <-> big (map size1 s1) = big (map size2 s2).
Proof.
  intros size1 size2. induction s1 as [ | d1 s1 IH ]; intros s2; cbn [compare_shapes map].
  - rewrite <- (big_skip size2 s2). destruct (skip_ones size2 s2) as [ | d r ] eqn:E; [ tauto | ].
    split; [ discriminate | ]. cbn. apply skip_head in E. destruct (N.eqb_spec (size2 d) 1); [ congruence | discriminate ].
  - destruct (N.eqb_spec (size1 d1) 1) as [ E1 | E1 ].
    + rewrite IH. unfold big at 3. cbn [filter]. rewrite E1. cbn. reflexivity.
    + rewrite <- (big_skip size2 s2). unfold big at 1. cbn [filter].
      destruct (N.eqb_spec (size1 d1) 1); [ congruence | ]. cbn [negb].
      destruct (skip_ones size2 s2) as [ | d r ] eqn:E; [ split; discriminate | ].
      apply skip_head in E. cbn [map big filter]. destruct (N.eqb_spec (size2 d) 1); [ congruence | ]. cbn [negb].
      destruct (N.eqb_spec (size1 d1) (size2 d)) as [ Q | Q ].
      * rewrite IH. unfold big. rewrite Q. split; [ intros -> ; reflexivity | intro X; now injection X ].
      * split; [ discriminate | ]. intro X. injection X as X. congruence.
Qed.

(** the lengths of a variable's dimensions; unknown dimensions have none *)
Definition lengths (c : cdm) (v : cvar) : list N :=
  map (fun n => match find_dim n (dims c) with Some d => d_len d | None => 0%N end) (v_shape v).

Theorem C45_compare : forall c1 n1 v1 c2 n2 v2, NoDup (dnames c1) -> NoDup (dnames c2) ->
  find_var n1 (vars c1) = Some v1 -> find_var n2 (vars c2) = Some v2 ->
  exists b, same_shape c1 n1 c2 n2 = Ok b /\
    (b = true <-> filter (fun n => negb (n =? 1)%N) (lengths c1 v1) = filter (fun n => negb (n =? 1)%N) (lengths c2 v2)).
Proof.
  intros c1 n1 v1 c2 n2 v2 D1 D2 F1 F2. unfold same_shape. rewrite F1, F2. eexists. split; [ reflexivity | ].
  rewrite compare_big. unfold big, lengths.
  assert (E1 : map (size_of (dim_sizes c1)) (v_shape v1) = map (fun n => match find_dim n (dims c1) with Some d => d_len d | None => 0%N end) (v_shape v1))
    by (apply map_ext; intro; now apply size_of_dims).
  assert (E2 : map (size_of (dim_sizes c2)) (v_shape v2) = map (fun n => match find_dim n (dims c2) with Some d => d_len d | None => 0%N end) (v_shape v2))
    by (apply map_ext; intro; now apply size_of_dims).
  rewrite E1, E2. reflexivity.
Qed.
(** so it is an equivalence *)
Theorem C45_equivalence : forall c1 n1 c2 n2 c3 n3,
  (find_var n1 (vars c1) <> None -> same_shape c1 n1 c1 n1 = Ok true) /\
  same_shape c1 n1 c2 n2 = same_shape c2 n2 c1 n1 /\
  (same_shape c1 n1 c2 n2 = Ok true -> same_shape c2 n2 c3 n3 = Ok true -> same_shape c1 n1 c3 n3 = Ok true).
Proof.
  intros c1 n1 c2 n2 c3 n3. unfold same_shape.
  assert (S : forall a b x y, compare_shapes a b x y = compare_shapes b a y x).
  { intros a b x y. apply eq_true_iff_eq. rewrite !compare_big. split; congruence. }
  split; [ | split ].
  - destruct (find_var n1 (vars c1)); [ | congruence ]. intros _. f_equal. now apply compare_big.
  - destruct (find_var n1 (vars c1)), (find_var n2 (vars c2)); try reflexivity. now rewrite S.
  - destruct (find_var n1 (vars c1)), (find_var n2 (vars c2)), (find_var n3 (vars c3)); try discriminate.
    intros A B. injection A as A. injection B as B. f_equal. rewrite compare_big in *. congruence.
Qed.
(** and equal shapes have equally many elements *)
Theorem C45_elements : forall c1 n1 v1 c2 n2 v2, NoDup (dnames c1) -> NoDup (dnames c2) ->
  find_var n1 (vars c1) = Some v1 -> find_var n2 (vars c2) = Some v2 ->
  same_shape c1 n1 c2 n2 = Ok true -> fold_right N.mul 1%N (lengths c1 v1) = fold_right N.mul 1%N (lengths c2 v2).
Proof.
  intros c1 n1 v1 c2 n2 v2 D1 D2 F1 F2 E. destruct (C45_compare c1 n1 v1 c2 n2 v2 D1 D2 F1 F2) as (b & E' & H).
  rewrite E in E'. injection E' as <-. assert (X := proj1 H eq_refl).
  assert (P : forall l, fold_right N.mul 1%N l = fold_right N.mul 1%N (filter (fun n => negb (n =? 1)%N) l)).
  { induction l as [ | n l IH ]; cbn [fold_right filter]; [ reflexivity | ].
    destruct (N.eqb_spec n 1) as [ -> | ]; cbn [negb fold_right]; rewrite IH; lia. }
  rewrite P, X, <- P. reflexivity.
Qed.
Theorem C45_missing : forall c1 n1 c2 n2, find_var n1 (vars c1) = None \/ find_var n2 (vars c2) = None ->
  same_shape c1 n1 c2 n2 = Throw.
Proof. intros c1 n1 c2 n2 H. unfold same_shape. destruct H as [ -> | -> ]; [ | destruct (find_var n1 (vars c1)) ]; reflexivity. Qed.
Example C45_nonvacuous :
  let c := mkCdm [tvar "a" ["x"; "one"; "y"]; tvar "b" ["one"; "u"; "y"]; tvar "d" ["y"; "x"]]
                 [mkDim "x" 3 false; mkDim "one" 1 false; mkDim "y" 2 false; mkDim "u" 3 true] [] in
  same_shape c "a" c "b" = Ok true /\ same_shape c "a" c "d" = Ok false.
Proof. split; reflexivity. Qed.

(** * C65 *)

(** searching variables: exactly those with all attributes matching and all dimensions, in order *)
Theorem C65_find_variables : forall c wanted wdims n, NoDup (vnames c) ->
  (In n (find_variables c wanted wdims) <->
   exists v, In v (vars c) /\ v_name v = n /\
     (forall a p, In (a, p) wanted -> exists x, get_attr c n a = Some x /\ p (a_text x) = true) /\
     (forall d, In d wdims -> In d (v_shape v))).
Proof.
  intros c wanted wdims n N. unfold find_variables. rewrite in_map_iff. split.
  - intros (v & E & I). apply filter_In in I. destruct I as [I F]. apply andb_true_iff in F. destruct F as [FA FD].
    rewrite forallb_forall in FA, FD. exists v. split; [ exact I | ]. split; [ exact E | ]. split.
    + intros a p W. specialize (FA (a, p) W). cbn [fst snd] in FA. rewrite E in FA.
      destruct (get_attr c n a) as [ x | ]; [ | discriminate ]. eauto.
    + intros d W. specialize (FD d W). unfold check_dim in FD. apply existsb_exists in FD. destruct FD as (y & Y & Q).
      apply String.eqb_eq in Q. now subst.
  - intros (v & I & E & FA & FD). exists v. split; [ exact E | ]. apply filter_In. split; [ exact I | ].
    apply andb_true_iff. split; apply forallb_forall.
    + intros [a p] W. cbn [fst snd]. destruct (FA a p W) as (x & X & P). now rewrite E, X.
    + intros d W. unfold check_dim. apply existsb_exists. exists d. split; [ now apply FD | apply String.eqb_refl ].
Qed.
Theorem C65_find_variables_order : forall c wanted wdims, NoDup (vnames c) ->
  exists keep, find_variables c wanted wdims = filter keep (vnames c).
Proof.
  intros c wanted wdims N.
  exists (fun n => existsb (String.eqb n) (find_variables c wanted wdims)).
  unfold find_variables, vnames in *.
  set (k := fun v => _ && _).
  assert (G : forall l seen, NoDup (map v_name l) -> (forall v, In v l -> existsb (String.eqb (v_name v)) seen = k v) ->
              map v_name (filter k l) = filter (fun n => existsb (String.eqb n) seen) (map v_name l)).
  { induction l as [ | v l IH ]; intros seen ND H; cbn; [ reflexivity | ]. inversion ND; subst.
    rewrite (H v (or_introl eq_refl)). destruct (k v); cbn; [ f_equal | ]; apply IH; auto; intros w W; apply H; now right. }
  apply G; [ exact N | ]. intros v I. destruct (k v) eqn:K.
  - apply existsb_exists. exists (v_name v). split; [ | apply String.eqb_refl ]. apply in_map. apply filter_In. now split.
  - destruct (existsb _ _) eqn:X; [ | reflexivity ]. exfalso. apply existsb_exists in X. destruct X as (n & Hn & Q).
    apply String.eqb_eq in Q. subst n. apply in_map_iff in Hn. destruct Hn as (w & E & W). apply filter_In in W. destruct W as [W KW].
    assert (A := fnd_unique v_name (vars c) v N I). assert (B := fnd_unique v_name (vars c) w N W).
    rewrite E in B. rewrite B in A. congruence.
Qed.

(** the numbers of a variable's packing *)
Theorem C65_defaults : forall c n v, find_var n (vars c) = Some v -> attrs_of c n = [] ->
  get_fill c n = Ok (default_fill (v_type v)) /\ get_scale c n = Ok (Some (z2q 1)) /\ get_offset c n = Ok (Some (z2q 0)) /\
  get_valid_min c n = Ok None /\ get_valid_max c n = Ok None /\ get_units c n = "".
Proof.
  intros c n v F A. unfold attrs_of in A. unfold get_fill, get_scale, get_offset, get_valid_min, get_valid_max, get_units, get_attr.
  rewrite F. destruct (sfind n (attrs c)) as [ l | ]; [ subst l | ]; cbn; repeat split; reflexivity.
Qed.
Theorem C65_fill_value : forall c n v a x rest, find_var n (vars c) = Some v ->
  get_attr c n "_FillValue" = Some a \/ (get_attr c n "_FillValue" = None /\ get_attr c n "missing_value" = Some a) ->
  a_nums a = x :: rest -> get_fill c n = if dtype_eqb (v_type v) (a_type a) then Ok x else Throw.
Proof.
  intros c n v a x rest F H A. unfold get_fill, first_num. rewrite F.
  destruct H as [ -> | [-> ->] ]; rewrite A; reflexivity.
Qed.
Theorem C65_range : forall c n a lo hi rest, get_attr c n "valid_min" = None -> get_attr c n "valid_max" = None ->
  get_attr c n "valid_range" = Some a -> a_nums a = lo :: hi :: rest ->
  get_valid_min c n = Ok lo /\ get_valid_max c n = Ok hi.
Proof.
  intros c n a lo hi rest A B R N. unfold get_valid_min, get_valid_max, first_num. rewrite A, B, R, N. split; reflexivity.
Qed.
Theorem C65_packing : forall c n a x rest, a_nums a = x :: rest ->
  (get_attr c n "scale_factor" = Some a -> get_scale c n = Ok x) /\
  (get_attr c n "add_offset" = Some a -> get_offset c n = Ok x) /\
  (get_attr c n "valid_min" = Some a -> get_valid_min c n = Ok x) /\
  (get_attr c n "valid_max" = Some a -> get_valid_max c n = Ok x).
Proof.
  intros c n a x rest N. unfold get_scale, get_offset, get_valid_min, get_valid_max, first_num.
  repeat split; intros ->; rewrite N; reflexivity.
Qed.
(** an attribute without values is read past its end *)
Theorem C65_empty_attribute_refuted : forall c n a, get_attr c n "scale_factor" = Some a -> a_nums a = [] -> get_scale c n = UB.
Proof. intros c n a H N. unfold get_scale, first_num. rewrite H, N. reflexivity. Qed.
(** the unlimited dimension *)
Theorem C65_unlimited : forall c v, has_unlimited c v = true <->
  exists d, unlimited_dim c = Some d /\ d_unlim d = true /\ In d (dims c) /\ In (d_name d) (v_shape v).
Proof.
  intros c v. unfold has_unlimited. destruct (unlimited_dim c) as [ d | ] eqn:E.
  - assert (E' := E). unfold unlimited_dim in E'. apply find_some in E'. destruct E' as [I U]. rewrite existsb_exists. split.
    + intros (x & X & Q). apply String.eqb_eq in Q. subst x. exists d. tauto.
    + intros (d' & D & _ & _ & S). injection D as <-. exists (d_name d). split; [ exact S | apply String.eqb_refl ].
  - split; [ discriminate | ]. intros (d & D & _). discriminate.
Qed.
(** a second unlimited dimension is not seen *)
Theorem C65_second_unlimited_refuted :
  let c := mkCdm [tvar "t" ["b"]] [mkDim "a" 1 true; mkDim "b" 1 true] [] in has_unlimited c (tvar "t" ["b"]) = false.
Proof. reflexivity. Qed.
Example C65_nonvacuous :
  let c := mkCdm [tvar "t" ["x"]; tvar "u" ["x"; "y"]] [] [("t", [tattr "units" "K"]); ("u", [tattr "units" "K"])] in
  find_variables c [("units", String.eqb "K")] ["y"] = ["u"] /\ find_variables c [("units", String.eqb "K")] [] = ["t"; "u"].
Proof. split; reflexivity. Qed.

Print Assumptions C26_consistent.
Print Assumptions C26_exception_changes_nothing.
Print Assumptions C26_add_variable.
Print Assumptions C26_remove_variable.
Print Assumptions C26_add_attribute.
Print Assumptions C26_replace_attribute.
Print Assumptions C26_remove_attribute.
Print Assumptions C26_remove_dimension.
Print Assumptions C26_rename_removes_refuted.
Print Assumptions C26_rename_dimension_self_refuted.
Print Assumptions C26_remove_global_refuted.
Print Assumptions C27_rename_variable.
Print Assumptions C27_rename_variable_order.
Print Assumptions C27_rename_back.
Print Assumptions C27_rename_dimension.
Print Assumptions C27_rename_dimension_lengths.
Print Assumptions C27_counterpart_refuted.
Print Assumptions C64_cache_current.
Print Assumptions C64_query.
Print Assumptions C64_reference_refuted.
Print Assumptions C44_new_name.
Print Assumptions C44_free_base.
Print Assumptions C44_exhausted.
Print Assumptions C44_new_variable_name.
Print Assumptions C44_new_dimension_name.
Print Assumptions C45_compare.
Print Assumptions C45_equivalence.
Print Assumptions C45_elements.
Print Assumptions C45_missing.
Print Assumptions C65_find_variables.
Print Assumptions C65_find_variables_order.
Print Assumptions C65_defaults.
Print Assumptions C65_fill_value.
Print Assumptions C65_range.
Print Assumptions C65_packing.
Print Assumptions C65_empty_attribute_refuted.
Print Assumptions C65_unlimited.
Print Assumptions C65_second_unlimited_refuted.
