(** Properties of the metadata of interpolated files: C99. *)
From Coq Require Import NArith Ascii String List Bool Lia.
From Verif Require Import Base StdMap RegridModel StringModel NmlModel ConvertModel CdmModel CdmProofs CdmProps AxesModel CfcsModel BestModel ProjModel InterpModel InterpProofs.
Import ListNotations.
Local Open Scope string_scope.
Local Open Scope list_scope.
Local Open Scope nat_scope.

(** ** attributes by name *)
Lemma get_attrs c n a : get_attr c n a = find_attr a (attrs_of c n).
Proof. unfold get_attr, attrs_of. now destruct (sfind n (attrs c)). Qed.
Lemma find_without a b l : find_attr b (without a l) = if String.eqb b a then None else find_attr b l.
Proof. apply (fnd_filter aname). Qed.
Lemma find_last b l a : find_attr b (l ++ [a]) = match find_attr b l with Some x => Some x | None => if String.eqb b (aname a) then Some a else None end.
Proof. unfold find_attr. now rewrite (fnd_app aname). Qed.
Lemma find_repl b l a : find_attr b (without (aname a) l ++ [a]) = if String.eqb b (aname a) then Some a else find_attr b l.
Proof. rewrite find_last, find_without. destruct (String.eqb b (aname a)); [ reflexivity | now destruct (find_attr b l) ]. Qed.

Lemma sem_each (g : list cattr -> list cattr) (h : cdm -> string -> outcome cdm) V D l :
  (forall c A n, In n l -> sem c V D A -> exists c', h c n = Ok c' /\ sem c' V D (at_ n (g (A n)) A)) -> NoDup l ->
  forall c A, sem c V D A -> exists c', ofold h l c = Ok c' /\ sem c' V D (fun n => if one_of n l then g (A n) else A n).
Proof.
  induction l as [ | a l IH ]; intros H N c A S; cbn [ofold]; [ exists c; auto | ]. inversion N as [ | ? ? N1 N2 ]. subst.
  destruct (H c A a (or_introl eq_refl) S) as (c1 & -> & S1). cbn [obind]. destruct (IH (fun c A n I => H c A n (or_intror I)) N2 c1 _ S1) as (c2 & E & S2).
  exists c2. split; [ exact E | ]. apply (sem_ext _ _ _ _ _ _ _ S2); auto. intro n. unfold one_of, at_. cbn [existsb]. fold (one_of n l). destruct (String.eqb_spec n a) as [->|]; [ | reflexivity ].
  cbn [orb]. destruct (one_of a l) eqn:O; [ apply one_of_in in O; contradiction | reflexivity ].
Qed.

(** the Conventions attribute: CF-1.4 is added unless there is a CF version already *)
Definition conventions_of (old : option cattr) (new : cattr) : Prop :=
  match old with
  | None => new = tatt "Conventions" "CF-1.4"
  | Some a => new = a /\ (exists p q, s_ (a_text a) = p ++ s_ "CF-" ++ q) \/
              new = tatt "Conventions" (a_text a ++ " CF-1.4") /\ ~ (exists p q, s_ (a_text a) = p ++ s_ "CF-" ++ q)
  end.
Lemma find_sub_spec m s : forall i, match find_sub m s i with Some _ => exists p q, s = p ++ m ++ q | None => ~ exists p q, s = p ++ m ++ q end.
Proof.
  assert (B : forall m s, begins m s = true <-> exists q, s = m ++ q).
  { induction m0 as [ | a m0 IH ]; intro s0; cbn; [ split; [ intros _; now exists s0 | reflexivity ] | ]. destruct s0 as [ | b s0 ]; [ split; [ discriminate | intros [q Q]; discriminate ] | ].
    rewrite andb_true_iff, IH. split; [ intros [E [q ->]]; apply Ascii.eqb_eq in E; subst; now exists q | intros [q Q]; injection Q as -> ->; split; [ apply Ascii.eqb_refl | now exists q ] ]. }
  induction s as [ | a s IH ]; intro i; cbn [find_sub].
  - destruct (begins m []) eqn:E; [ apply B in E; destruct E as [q E2]; exists [], q; exact E2 | ]. intros (p & q & Q). destruct p; [ | discriminate ]. assert (X : begins m [] = true) by (apply B; now exists q). congruence.
  - destruct (begins m (a :: s)) eqn:E; [ apply B in E; destruct E as [q E]; exists [], q; exact E | ]. assert (I := IH (Datatypes.S i)). destruct (find_sub m s (Datatypes.S i)).
    + destruct I as (p & q & ->). now exists (a :: p), q.
    + intros (p & q & Q). destruct p as [ | b p ]; [ assert (X : begins m (a :: s) = true) by (apply B; now exists q); congruence | ]. injection Q as -> Q. apply I. now exists p, q.
Qed.
Lemma sem_conventions c V D A : sem c V D A -> exists c' a, conventions c = Ok c' /\ sem c' V D (at_ global_ns (without "Conventions" (A global_ns) ++ [a]) A) /\
  aname a = "Conventions" /\ conventions_of (find_attr "Conventions" (A global_ns)) a.
Proof.
  intro S. unfold conventions. rewrite get_attrs, (s_a _ _ _ _ S).
  assert (K : forall a, aname a = "Conventions" -> exists c', from_option (replace_attr c global_ns a) = Ok c' /\ sem c' V D (at_ global_ns (without "Conventions" (A global_ns) ++ [a]) A)).
  { intros a N. destruct (sem_replace_attr c V D A global_ns a S (or_introl eq_refl)) as (c' & -> & S'). exists c'. split; [ reflexivity | ]. now rewrite N in S'. }
  destruct (find_attr "Conventions" (A global_ns)) as [a|] eqn:F.
  - assert (N : aname a = "Conventions") by (unfold find_attr in F; apply find_some in F; destruct F as [_ F]; apply String.eqb_eq in F; congruence).
    assert (X := find_sub_spec (s_ "CF-") (s_ (a_text a)) 0). destruct (find_sub (s_ "CF-") (s_ (a_text a)) 0).
    + destruct (K a N) as (c' & E & S'). exists c', a. cbn [conventions_of]. repeat (split; [ assumption | ]). left. split; [ reflexivity | exact X ].
    + destruct (K (tatt "Conventions" (a_text a ++ " CF-1.4")) eq_refl) as (c' & E & S'). exists c', (tatt "Conventions" (a_text a ++ " CF-1.4")). split; [ exact E | ]. split; [ exact S' | ]. split; [ reflexivity | ]. right. split; [ reflexivity | exact X ].
  - destruct (K (tatt "Conventions" "CF-1.4") eq_refl) as (c' & E & S'). exists c', (tatt "Conventions" "CF-1.4"). split; [ exact E | ]. split; [ exact S' | ]. split; reflexivity.
Qed.

Section Interpolated.
Variable P : Type.
Variable by_proj4 : str -> outcome (kind * list cattr).
Variable to_proj4 : kind -> list cattr -> outcome str.
Variable lonlat : str -> list value -> list value -> outcome (list value * list value).
Variable c : cdm.
Variable pv : smap string.
Variable t : target.
Variable systems : smap (mini P).
(** the systems with the names of their axes; the first one and the others *)
Variable first : mini P * (string * string).
Variable others : list (mini P * (string * string)).
Local Notation X := (fst (snd first)).
Local Notation Y := (snd (snd first)).

Record given (xs ys : list value) : Prop := mkGiven {
  g_consistent : consistent c;
  g_pv : ssorted pv /\ forall n, In n (skeys pv) -> In n (vnames c);
  g_systems : map snd systems = map fst (first :: others);
  g_apart : apart P c pv (first :: others);
  g_dims : In X (dnames c) /\ In Y (dnames c);
  g_global : ~ In global_ns (vnames c) /\ forall p n, In p (first :: others) -> In n (all_names P p) -> n <> global_ns;
  g_axes : ~ In X (skeys pv) /\ ~ In Y (skeys pv);
  g_x : axis_data (t_xtype t) (t_x t) = Ok xs;
  g_y : axis_data (t_ytype t) (t_y t) = Ok ys }.

(** the variables that are removed *)
Definition removed (n : string) : Prop :=
  (exists p, In p (first :: others) /\ m_proj (fst p) <> None) /\ In n (vnames c) /\ get_attr c n "grid_mapping_name" <> None \/
  (exists p lat lon, In p (first :: others) /\ find_axis (m_cs (fst p)) Lat = Some lat /\ find_axis (m_cs (fst p)) Lon = Some lon /\ (n = ax_name lat \/ n = ax_name lon)) \/
  (exists p, In p others /\ (n = fst (snd p) \/ n = snd (snd p))).
(** the dimension used in place of an old one *)
Definition moved (d d' : string) : Prop :=
  (exists p, In p others /\ d = fst (snd p)) /\ d' = X \/
  (exists p, In p others /\ d = snd (snd p)) /\ d' = Y \/
  (forall p, In p others -> d <> fst (snd p) /\ d <> snd (snd p)) /\ d' = d.

Lemma removed_spec n : rem_of P c first others n = true <-> removed n.
Proof.
  unfold rem_of, removed. rewrite !orb_true_iff, andb_true_iff, existsb_exists, !one_of_in, !in_flat_map. unfold gm. rewrite andb_true_iff, has_var_in, get_attrs.
  assert (A : (exists p, In p (first :: others) /\ has_projection P (fst p) = true) <-> exists p, In p (first :: others) /\ m_proj (fst p) <> None).
  { split; intros (p & I & H); exists p; split; auto; unfold has_projection in *; destruct (m_proj (fst p)); congruence. }
  assert (B : is_some (find_attr "grid_mapping_name" (attrs_of c n)) = true <-> find_attr "grid_mapping_name" (attrs_of c n) <> None) by (destruct (find_attr "grid_mapping_name" (attrs_of c n)); cbn; split; congruence).
  assert (C : (exists p, In p (first :: others) /\ In n (lonlat_of P (fst p))) <-> exists p lat lon, In p (first :: others) /\ find_axis (m_cs (fst p)) Lat = Some lat /\ find_axis (m_cs (fst p)) Lon = Some lon /\ (n = ax_name lat \/ n = ax_name lon)).
  { unfold lonlat_of. split.
    - intros (p & I & H). destruct (find_axis (m_cs (fst p)) Lat) as [a|] eqn:E1; [ | destruct H ]. destruct (find_axis (m_cs (fst p)) Lon) as [b|] eqn:E2; [ | destruct H ]. exists p, a, b. destruct H as [H|[H|[]]]; auto.
    - intros (p & a & b & I & E1 & E2 & H). exists p. rewrite E1, E2. split; [ exact I | ]. destruct H as [->| ->]; cbn; auto. }
  assert (D : (exists p, In p others /\ In n (xs_of P p)) <-> exists p, In p others /\ (n = fst (snd p) \/ n = snd (snd p))).
  { split; intros (p & I & H); exists p; (split; [ exact I | ]); unfold xs_of in *; cbn [In] in *; intuition. }
  rewrite A, B, C, D. tauto.
Qed.
Lemma moved_spec d : moved d (ren_of P first others d).
Proof.
  unfold moved, ren_of. destruct (one_of d (map (fun p => fst (snd p)) others)) eqn:A.
  - apply one_of_in, in_map_iff in A. destruct A as (p & E & I). left. split; [ now exists p | reflexivity ].
  - destruct (one_of d (map (fun p => snd (snd p)) others)) eqn:B.
    + apply one_of_in, in_map_iff in B. destruct B as (p & E & I). right. left. split; [ now exists p | reflexivity ].
    + right. right. split; [ | reflexivity ]. intros p I. split; intro Q.
      * assert (K : one_of d (map (fun p => fst (snd p)) others) = true) by (apply one_of_in, in_map_iff; exists p; auto). congruence.
      * assert (K : one_of d (map (fun p => snd (snd p)) others) = true) by (apply one_of_in, in_map_iff; exists p; auto). congruence.
Qed.

(** the state after the loop *)
Local Notation V0 := (Vof c pv (rem_of P c first others) (ren_of P first others)).
Local Notation D0 := (fun n => if gone_of P others n then None else find_dim n (dims c)).
Local Notation A0 := (fun n => if rem_of P c first others n then [] else attrs_of c n).

Lemma ofold_map {A B T} (g : A -> B) (h : T -> B -> outcome T) l : forall s, ofold (fun s a => h s (g a)) l s = ofold h (map g l) s.
Proof. induction l as [ | a l IH ]; intro s; cbn [ofold map]; [ reflexivity | ]. destruct (h s (g a)); cbn [obind]; auto. Qed.

(** an axis *)
Definition axis_of (V : string -> option cvar) (n : string) (ty : dtype) (d : list value) : cvar :=
  with_data d (match V n with Some v => with_type ty v | None => mkVar n ty [n] "" None end).
Definition axis_attrs (l : list cattr) (standard unit : string) : list cattr :=
  without "units" (without "standard_name" (without "long_name" l) ++ [tatt "standard_name" standard]) ++ [tatt "units" unit].

(** from the projection to the lengths of the dimensions *)
Lemma axes_ok {R} xs ys c1 V D A xname yname xunit yunit dx dy (K : list value -> list value -> cdm -> outcome R) : sem c1 V D A -> X <> Y -> X <> global_ns -> Y <> global_ns ->
  axis_data (t_xtype t) (t_x t) = Ok xs -> axis_data (t_ytype t) (t_y t) = Ok ys -> D X = Some dx -> D Y = Some dy ->
  exists c12, sem c12 (at_ Y (Some (axis_of V Y (t_ytype t) ys)) (at_ X (Some (axis_of V X (t_xtype t) xs)) V))
      (at_ Y (Some (mkDim Y (N.of_nat (length (t_y t))) (d_unlim dy))) (at_ X (Some (mkDim X (N.of_nat (length (t_x t))) (d_unlim dx))) D))
      (at_ Y (axis_attrs (A Y) yname yunit) (at_ X (axis_attrs (A X) xname xunit) A)) /\
    (do c3 <- axis_var X (t_xtype t) (remove_attr (remove_attr c1 X "long_name") Y "long_name");
     do c4 <- axis_var Y (t_ytype t) c3;
     do c5 <- repl_attrs X [tatt "standard_name" xname] c4;
     do c6 <- repl_attrs Y [tatt "standard_name" yname] c5;
     do c7 <- repl_attrs X [tatt "units" xunit] c6;
     do c8 <- repl_attrs Y [tatt "units" yunit] c7;
     do xs <- axis_data (t_xtype t) (t_x t);
     do c9 <- edit_var X (with_data xs) c8;
     do ys <- axis_data (t_ytype t) (t_y t);
     do c10 <- edit_var Y (with_data ys) c9;
     do c11 <- set_length X (N.of_nat (length (t_x t))) c10;
     do c12 <- set_length Y (N.of_nat (length (t_y t))) c11; K xs ys c12) = K xs ys c12.
Proof.
  intros S XY XG YG GX GY DX DY. clear pv systems.
  assert (EYX : String.eqb Y X = false) by (apply String.eqb_neq; congruence). assert (EXY : String.eqb X Y = false) by (apply String.eqb_neq; congruence).
  assert (S1 := sem_remove_attr _ _ _ _ X "long_name" S). assert (S2 := sem_remove_attr _ _ _ _ Y "long_name" S1).
  destruct (sem_axis _ _ _ _ X (t_xtype t) S2) as (c3 & -> & S3). cbn [obind]. destruct (sem_axis _ _ _ _ Y (t_ytype t) S3) as (c4 & -> & S4). cbn [obind].
  destruct (sem_repl _ _ _ _ X [tatt "standard_name" xname] S4) as (c5 & -> & S5). { right. unfold at_. rewrite EXY, String.eqb_refl. discriminate. }
  cbn [obind]. destruct (sem_repl _ _ _ _ Y [tatt "standard_name" yname] S5) as (c6 & -> & S6). { right. unfold at_. rewrite String.eqb_refl. discriminate. }
  cbn [obind]. destruct (sem_repl _ _ _ _ X [tatt "units" xunit] S6) as (c7 & -> & S7). { right. unfold at_. rewrite EXY, String.eqb_refl. discriminate. }
  cbn [obind]. destruct (sem_repl _ _ _ _ Y [tatt "units" yunit] S7) as (c8 & -> & S8). { right. unfold at_. rewrite String.eqb_refl. discriminate. }
  cbn [obind]. rewrite GX, GY. cbn [obind].
  destruct (sem_edit _ _ _ _ X (with_data xs) (match V X with Some v => with_type (t_xtype t) v | None => mkVar X (t_xtype t) [X] "" None end) S8 (fun _ => eq_refl)) as (c9 & -> & S9). { unfold at_. now rewrite EXY, String.eqb_refl. }
  cbn [obind].
  destruct (sem_edit _ _ _ _ Y (with_data ys) (match V Y with Some v => with_type (t_ytype t) v | None => mkVar Y (t_ytype t) [Y] "" None end) S9 (fun _ => eq_refl)) as (c10 & -> & S10). { unfold at_. now rewrite EYX, !String.eqb_refl. }
  cbn [obind].
  destruct (sem_length _ _ _ _ X (N.of_nat (length (t_x t))) dx S10 DX) as (c11 & -> & S11). cbn [obind].
  destruct (sem_length _ _ _ _ Y (N.of_nat (length (t_y t))) dy S11) as (c12 & -> & S12). { unfold at_. now rewrite EYX. }
  cbn [obind]. exists c12. split; [ | reflexivity ]. apply (sem_ext _ _ _ _ _ _ _ S12).
  - intro n. unfold at_, axis_of. destruct (String.eqb_spec n Y) as [->|]; [ reflexivity | ]. destruct (String.eqb_spec n X) as [->|]; reflexivity.
  - reflexivity.
  - intro n. unfold at_, axis_attrs. rewrite !EYX, !EXY, !String.eqb_refl. cbn [fold_left aname tatt]. destruct (String.eqb_spec n Y) as [->|]; [ reflexivity | ]. destruct (String.eqb_spec n X) as [->|]; reflexivity.
Qed.

(** an axis of the result: the values and type asked for, and no long_name; it has its own dimension if
    there was no variable of the name or that variable was removed, otherwise the old shape *)
Definition new_axis (r : cdm) (n : string) (ty : dtype) (d : list value) (standard unit : string) : Prop :=
  exists v, find_var n (vars r) = Some v /\ v_type v = ty /\ v_data v = Some d /\
    (removed n \/ ~ In n (vnames c) -> v_shape v = [n] /\ v_counterpart v = "") /\
    (forall w, ~ removed n -> find_var n (vars c) = Some w -> v_shape v = v_shape w /\ v_counterpart v = v_counterpart w) /\
    get_attr r n "standard_name" = Some (tatt "standard_name" standard) /\ get_attr r n "units" = Some (tatt "units" unit) /\ get_attr r n "long_name" = None /\
    forall a, ~ In a ["standard_name"; "units"; "long_name"] -> (removed n -> get_attr r n a = None) /\ (~ removed n -> get_attr r n a = get_attr c n a).
(** a data variable on new dimensions *)
Definition reshaped (v v' : cvar) : Prop :=
  v_name v' = v_name v /\ v_type v' = v_type v /\ v_counterpart v' = v_counterpart v /\ v_data v' = v_data v /\ Forall2 moved (v_shape v) (v_shape v').

(** the changes that do not depend on the kind of projection; [new] are the names of the new variables *)
Record changed (r : cdm) (pv' : smap string) (new : list string) (xs ys : list value) (xname yname xunit yunit : string) : Prop := mkChanged {
  h_consistent : consistent r;
  h_names : forall n, In n (vnames r) <-> n = X \/ n = Y \/ In n new \/ In n (vnames c) /\ ~ removed n;
  h_data : forall n v, find_var n (vars c) = Some v -> ~ removed n -> In n (skeys pv) -> exists v', find_var n (vars r) = Some v' /\ reshaped v v';
  h_rest : forall n v, find_var n (vars c) = Some v -> ~ removed n -> ~ In n (skeys pv) -> n <> X -> n <> Y -> find_var n (vars r) = Some v;
  h_x : new_axis r X (t_xtype t) xs xname xunit;
  h_y : new_axis r Y (t_ytype t) ys yname yunit;
  h_dims : forall n, (n = X -> exists d, find_dim X (dims c) = Some d /\ find_dim X (dims r) = Some (mkDim X (N.of_nat (length (t_x t))) (d_unlim d))) /\
                     (n = Y -> exists d, find_dim Y (dims c) = Some d /\ find_dim Y (dims r) = Some (mkDim Y (N.of_nat (length (t_y t))) (d_unlim d))) /\
                     ((exists p, In p others /\ (n = fst (snd p) \/ n = snd (snd p))) -> find_dim n (dims r) = None) /\
                     (n <> X -> n <> Y -> (forall p, In p others -> n <> fst (snd p) /\ n <> snd (snd p)) -> find_dim n (dims r) = find_dim n (dims c));
  h_pv : forall n, (removed n -> sfind n pv' = None) /\ (~ removed n -> sfind n pv' = sfind n pv);
  h_attrs : forall n, In n (vnames c) -> ~ removed n -> n <> X -> n <> Y -> ~ In n (skeys pv) -> attrs_of r n = attrs_of c n;
  h_data_attrs : forall n a, ~ removed n -> In n (skeys pv) -> a <> "coordinates" -> a <> "grid_mapping" -> get_attr r n a = get_attr c n a;
  h_global : (exists a, get_attr r global_ns "Conventions" = Some a /\ conventions_of (get_attr c global_ns "Conventions") a) /\
             get_attr r global_ns "MAP_PROJ" = None /\
             forall a, a <> "Conventions" -> a <> "MAP_PROJ" -> get_attr r global_ns a = get_attr c global_ns a }.

Lemma find_axis_attrs b l sn un : find_attr b (axis_attrs l sn un) =
  if String.eqb b "units" then Some (tatt "units" un) else if String.eqb b "standard_name" then Some (tatt "standard_name" sn) else if String.eqb b "long_name" then None else find_attr b l.
Proof. unfold axis_attrs. rewrite (find_repl b _ (tatt "units" un)). cbn [aname tatt]. destruct (String.eqb b "units"); [ reflexivity | ]. rewrite (find_repl b _ (tatt "standard_name" sn)). cbn [aname tatt]. destruct (String.eqb b "standard_name"); [ reflexivity | ]. apply find_without. Qed.

Lemma rem_false n : rem_of P c first others n = false <-> ~ removed n.
Proof. rewrite <- removed_spec. destruct (rem_of P c first others n); split; congruence. Qed.

Lemma common r pv' new xs ys xname yname xunit yunit dx dy V D A g conv : given xs ys -> sem r V D A ->
  (forall n, ~ In n new -> V n = at_ Y (Some (axis_of V0 Y (t_ytype t) ys)) (at_ X (Some (axis_of V0 X (t_xtype t) xs)) V0) n) ->
  (forall n, In n new -> V n <> None /\ V0 n = None /\ n <> X /\ n <> Y) ->
  D0 X = Some dx -> D0 Y = Some dy ->
  (forall n, D n = at_ Y (Some (mkDim Y (N.of_nat (length (t_y t))) (d_unlim dy))) (at_ X (Some (mkDim X (N.of_nat (length (t_x t))) (d_unlim dx))) D0) n) ->
  (forall n, sfind n pv' = if rem_of P c first others n then None else sfind n pv) ->
  (forall n, n <> global_ns -> ~ In n new -> A n = if one_of n (skeys pv') then g (A0 n) else at_ Y (axis_attrs (A0 Y) yname yunit) (at_ X (axis_attrs (A0 X) xname xunit) A0) n) ->
  (forall l b, b <> "coordinates" -> b <> "grid_mapping" -> find_attr b (g l) = find_attr b l) ->
  A global_ns = without "MAP_PROJ" (without "Conventions" (attrs_of c global_ns) ++ [conv]) -> aname conv = "Conventions" -> conventions_of (get_attr c global_ns "Conventions") conv ->
  changed r pv' new xs ys xname yname xunit yunit.
Proof.
  intros G S VE VN DX DY DE PE AE GE AG CN CO. cbv beta in DX, DY. assert (GV := proj1 (g_global _ _ G)). assert (XG : X <> global_ns) by (apply (proj2 (g_global _ _ G) first X (or_introl eq_refl)); now left). assert (YG : Y <> global_ns) by (apply (proj2 (g_global _ _ G) first Y (or_introl eq_refl)); right; now left). destruct (g_axes _ _ G) as (XP & YP).
  assert (XY : X <> Y) by apply (p_on _ _ _ _ (g_apart _ _ G) first (or_introl eq_refl)). assert (EXY : String.eqb X Y = false) by now apply String.eqb_neq.
  assert (V0none : forall n, V0 n = None <-> rem_of P c first others n = true \/ ~ In n (vnames c)).
  { intro n. unfold Vof. rewrite <- has_var_in. unfold has_var. destruct (rem_of P c first others n); [ split; auto | ]. destruct (find_var n (vars c)); cbn [option_map is_some].
    - split; [ discriminate | intros [H|H]; [ discriminate | exfalso; now apply H ] ].
    - split; [ intros _; right; discriminate | reflexivity ]. }
  assert (PK : forall n, In n (skeys pv') <-> In n (skeys pv) /\ rem_of P c first others n = false).
  { intro n. rewrite !sfind_In, PE. destruct (rem_of P c first others n); [ split; [ intros [x H]; discriminate | intros [_ H]; discriminate ] | tauto ]. }
  assert (XN : ~ In X new) by (intro I; destruct (VN X I); tauto). assert (YN : ~ In Y new) by (intro I; destruct (VN Y I); tauto).
  assert (vname : forall n v, find_var n (vars c) = Some v -> v_name v = n) by (intros n v F; apply find_some in F; destruct F as [_ F]; now apply String.eqb_eq in F).
  assert (NEWc : forall n, In n new -> In n (vnames c) -> rem_of P c first others n = true).
  { intros n I J. destruct (VN n I) as (_ & Z & _). apply V0none in Z. tauto. }
  assert (AX : forall n ty d sn un, (n = X /\ ty = t_xtype t /\ d = xs /\ sn = xname /\ un = xunit) \/ (n = Y /\ ty = t_ytype t /\ d = ys /\ sn = yname /\ un = yunit) -> new_axis r n ty d sn un).
  { intros n ty d sn un H.
    assert (VV : V n = Some (axis_of V0 n ty d)) by (destruct H as [(-> & -> & -> & _)|(-> & -> & -> & _)]; rewrite VE by assumption; unfold at_; rewrite ?EXY, ?String.eqb_refl; reflexivity).
    assert (NP : ~ In n (skeys pv)) by (destruct H as [(-> & _)|(-> & _)]; assumption).
    assert (AA : forall b, get_attr r n b = find_attr b (axis_attrs (A0 n) sn un)).
    { intro b. rewrite get_attrs, (s_a _ _ _ _ S). destruct (one_of n (skeys pv')) eqn:O; [ apply one_of_in in O; apply PK in O; tauto | ].
      destruct H as [(-> & _ & _ & -> & ->)|(-> & _ & _ & -> & ->)]; rewrite AE by assumption; rewrite O; unfold at_; rewrite ?EXY, ?String.eqb_refl; reflexivity. }
    exists (axis_of V0 n ty d). rewrite (s_v _ _ _ _ S). split; [ exact VV | ].
    assert (SM : smem n pv = false) by (destruct (smem n pv) eqn:Q; [ apply smem_In in Q; contradiction | reflexivity ]).
    split; [ unfold axis_of; now destruct (V0 n) | ]. split; [ unfold axis_of; now destruct (V0 n) | ].
    split; [ intro Q; unfold axis_of; replace (V0 n) with (@None cvar) by (symmetry; apply V0none; destruct Q as [Q|Q]; [ left; now apply removed_spec | now right ]); now split | ].
    split; [ intros w Q F; apply rem_false in Q; unfold axis_of, Vof; rewrite Q, F; cbn [option_map]; rewrite SM; now split | ].
    rewrite !AA, !find_axis_attrs. split; [ reflexivity | ]. split; [ reflexivity | ]. split; [ reflexivity | ]. intros b B. rewrite AA, find_axis_attrs, get_attrs.
    destruct (String.eqb_spec b "units") as [->|_]; [ exfalso; apply B; cbn; auto | ]. destruct (String.eqb_spec b "standard_name") as [->|_]; [ exfalso; apply B; cbn; auto | ]. destruct (String.eqb_spec b "long_name") as [->|_]; [ exfalso; apply B; cbn; auto | ].
    split; intro Q; [ apply removed_spec in Q | apply rem_false in Q ]; now rewrite Q. }
  constructor.
  - apply S.
  - intro n. rewrite (sem_names _ _ _ _ n S). destruct (in_dec string_dec n new) as [I|I].
    + split; [ auto | intros _; apply (VN n I) ].
    + rewrite (VE n I). unfold at_. destruct (String.eqb_spec n Y) as [->|NY]; [ split; [ auto | discriminate ] | ]. destruct (String.eqb_spec n X) as [->|NX]; [ split; [ auto | discriminate ] | ].
      assert (Z : V0 n <> None <-> In n (vnames c) /\ ~ removed n).
      { rewrite V0none, <- rem_false. destruct (in_dec string_dec n (vnames c)); destruct (rem_of P c first others n); intuition congruence. }
      rewrite Z. tauto.
  - intros n v F R I. assert (NX : n <> X) by (intros ->; contradiction). assert (NY : n <> Y) by (intros ->; contradiction). apply rem_false in R.
    assert (NN : ~ In n new). { intro J. assert (K : In n (vnames c)) by (apply has_var_in; unfold has_var; now rewrite F). rewrite (NEWc n J K) in R. discriminate. }
    rewrite (s_v _ _ _ _ S), (VE n NN). unfold at_. apply String.eqb_neq in NX, NY. rewrite NX, NY. unfold Vof. rewrite R, F. cbn [option_map]. apply smem_In in I. rewrite I.
    eexists. split; [ reflexivity | ]. repeat (split; [ reflexivity | ]). cbn [with_shape v_shape]. induction (v_shape v) as [ | d l IH ]; cbn [map]; constructor; [ apply moved_spec | exact IH ].
  - intros n v F R I NX NY. apply rem_false in R.
    assert (NN : ~ In n new). { intro J. assert (K : In n (vnames c)) by (apply has_var_in; unfold has_var; now rewrite F). rewrite (NEWc n J K) in R. discriminate. }
    rewrite (s_v _ _ _ _ S), (VE n NN). unfold at_. apply String.eqb_neq in NX, NY. rewrite NX, NY. unfold Vof. rewrite R, F. cbn [option_map]. destruct (smem n pv) eqn:Q; [ apply smem_In in Q; contradiction | reflexivity ].
  - apply AX. left. auto.
  - apply AX. right. auto.
  - assert (GO : forall n, gone_of P others n = true <-> exists p, In p others /\ (n = fst (snd p) \/ n = snd (snd p))).
    { intro n. unfold gone_of. rewrite one_of_in, in_flat_map. split; intros (p & I & H); exists p; (split; [ exact I | ]); unfold xs_of in *; cbn [In] in *; intuition. }
    intro n. rewrite !(s_d _ _ _ _ S), !DE. unfold at_. rewrite !String.eqb_refl, EXY. split; [ | split; [ | split ] ].
    + intro. exists dx. split; [ | reflexivity ]. destruct (gone_of P others X); [ discriminate | exact DX ].
    + intro. exists dy. split; [ | reflexivity ]. destruct (gone_of P others Y); [ discriminate | exact DY ].
    + intro H. apply GO in H. destruct (String.eqb_spec n Y) as [->|]; [ rewrite H in DY; discriminate | ]. destruct (String.eqb_spec n X) as [->|]; [ rewrite H in DX; discriminate | ]. now rewrite H.
    + intros NX NY H. apply String.eqb_neq in NX, NY. rewrite NX, NY. destruct (gone_of P others n) eqn:Q; [ | reflexivity ]. exfalso. apply GO in Q. destruct Q as (p & I & Q). destruct (H p I). tauto.
  - intro n. rewrite PE. split; intro Q; [ apply removed_spec in Q | apply rem_false in Q ]; now rewrite Q.
  - intros n I R NX NY NP. assert (NG : n <> global_ns) by (intros ->; contradiction). apply rem_false in R. assert (NN : ~ In n new) by (intro J; rewrite (NEWc n J I) in R; discriminate).
    rewrite (s_a _ _ _ _ S), (AE n NG NN). destruct (one_of n (skeys pv')) eqn:O; [ apply one_of_in, PK in O; tauto | ]. unfold at_. apply String.eqb_neq in NX, NY. now rewrite NX, NY, R.
  - intros n a R I NA NB. apply rem_false in R. assert (IC : In n (vnames c)) by now apply (proj2 (g_pv _ _ G)). assert (NG : n <> global_ns) by (intros ->; contradiction). assert (NN : ~ In n new) by (intro J; rewrite (NEWc n J IC) in R; discriminate).
    rewrite !get_attrs, (s_a _ _ _ _ S), (AE n NG NN). assert (O : one_of n (skeys pv') = true) by (apply one_of_in, PK; auto). now rewrite O, R, GE.
  - rewrite !get_attrs, !(s_a _ _ _ _ S), AG. rewrite get_attrs in CO. split; [ | split ].
    + exists conv. split; [ | exact CO ]. rewrite find_without. rewrite <- CN. rewrite find_repl, String.eqb_refl. rewrite CN. reflexivity.
    + now rewrite find_without.
    + intros a N1 N2. rewrite !get_attrs, !(s_a _ _ _ _ S), AG, find_without. apply String.eqb_neq in N2. rewrite N2. rewrite <- CN in N1 |- *. rewrite find_repl. apply String.eqb_neq in N1. now rewrite N1.
Qed.

Lemma at_other {B} n (b : B) f m : String.eqb m n = false -> at_ n b f m = f m.
Proof. unfold at_. now intros ->. Qed.
Lemma at_same {B} n (b : B) f : at_ n b f n = b.
Proof. unfold at_. now rewrite String.eqb_refl. Qed.
Lemma started xs ys : given xs ys -> exists c0 pv0 dx dy, ofold (fun s p => pass P s (snd p)) systems (c, pv, None) = Ok (c0, pv0, Some (X, Y)) /\ sem c0 V0 D0 A0 /\ NoDup (skeys pv0) /\
  (forall n, sfind n pv0 = if rem_of P c first others n then None else sfind n pv) /\ D0 X = Some dx /\ D0 Y = Some dy /\ rem_of P c first others global_ns = false /\
  (forall n, In n (skeys pv0) -> n <> X /\ n <> Y /\ n <> global_ns /\ V0 n <> None).
Proof.
  intro G. destruct (g_pv _ _ G) as [PS PI]. destruct (loop_ok P c pv first others (g_apart _ _ G) PI (g_consistent _ _ G) PS) as (c0 & pv0 & E & [S O Q]).
  exists c0, pv0. assert (Z : forall n, In n (all_names P first) -> gone_of P others n = false).
  { intros n I. unfold gone_of. destruct (one_of n (flat_map (xs_of P) others)) eqn:K; [ | reflexivity ]. exfalso. apply one_of_in, in_flat_map in K. destruct K as (q & J & K). apply in_split in J. destruct J as (l1 & l2 & EO).
    exact (p_apart _ _ _ _ (g_apart _ _ G) [] first l1 q l2 ltac:(now rewrite EO) n I (xs_names P q n K)). }
  assert (RG : rem_of P c first others global_ns = false).
  { destruct (g_global _ _ G) as [GV GN]. destruct (rem_of P c first others global_ns) eqn:R; [ | reflexivity ]. exfalso. apply removed_spec in R. destruct R as [(_ & R & _)|[(p & la & lo & I & E1 & E2 & R)|(p & I & R)]].
    - contradiction.
    - apply (GN p global_ns I); [ | reflexivity ]. right. right. destruct R as [->| ->]; apply in_map; [ exact (find_axis_in _ _ _ E1) | exact (find_axis_in _ _ _ E2) ].
    - apply (GN p global_ns (or_intror I)); [ | reflexivity ]. destruct R as [->| ->]; [ left | right; left ]; reflexivity. }
  destruct (g_dims _ _ G) as [DX DY]. apply has_dim_in in DX, DY. unfold has_dim in DX, DY.
  destruct (find_dim X (dims c)) as [dx|] eqn:EX; [ | discriminate ]. destruct (find_dim Y (dims c)) as [dy|] eqn:EY; [ | discriminate ]. exists dx, dy.
  split; [ now rewrite ofold_map, (g_systems _ _ G) | ]. split; [ exact S | ]. split; [ now apply ssorted_NoDup | ]. split; [ exact Q | ].
  split; [ rewrite Z; [ reflexivity | now left ] | ]. split; [ rewrite Z; [ reflexivity | right; now left ] | ]. split; [ exact RG | ].
  intros n I. apply sfind_In in I. destruct I as [x I]. rewrite Q in I. destruct (rem_of P c first others n) eqn:R; [ discriminate | ]. assert (J : In n (skeys pv)) by (apply sfind_In; eauto).
  destruct (g_axes _ _ G) as [NX NY]. split; [ intros ->; contradiction | ]. split; [ intros ->; contradiction | ]. assert (K := PI n J). split; [ intros ->; now apply (proj1 (g_global _ _ G)) | ].
  unfold Vof. rewrite R. apply has_var_in in K. unfold has_var in K. destruct (find_var n (vars c)); [ discriminate | discriminate ].
Qed.

(** the text asks for longitudes and latitudes *)
Definition geographic (s : str) : Prop := exists p, key "proj" s = Some p /\ In (st p) ["latlon"; "latlong"; "lonlat"; "longlat"].
Definition unit_of (old degrees : string) : string := if String.eqb old "degree" then degrees else old.
Theorem C99_geographic xs ys : given xs ys -> geographic (t_proj t) ->
  exists r pv', change_cdm P by_proj4 to_proj4 lonlat t systems c pv = Ok (r, pv') /\
    changed r pv' [] xs ys "longitude" "latitude" (unit_of (t_xunit t) "degrees_east") (unit_of (t_yunit t) "degrees_north") /\
    forall n, In n (skeys pv) -> ~ removed n -> get_attr r n "coordinates" = None /\ get_attr r n "grid_mapping" = None.
Proof.
  intros G (p & EP & IP). destruct (started xs ys G) as (c0 & pv0 & dx & dy & E & S & ND & PE & DX & DY & RG & PN).
  assert (XY : X <> Y) by apply (p_on _ _ _ _ (g_apart _ _ G) first (or_introl eq_refl)).
  assert (XG : X <> global_ns) by (apply (proj2 (g_global _ _ G) first X (or_introl eq_refl)); now left). assert (YG : Y <> global_ns) by (apply (proj2 (g_global _ _ G) first Y (or_introl eq_refl)); right; now left).
  unfold change_cdm, proj_name. rewrite EP. apply one_of_in in IP. rewrite IP. cbn [obind]. rewrite E. cbn [obind]. change (String.eqb "latlong" "latlong") with true. cbn [obind andb]. cbv zeta.
  fold (unit_of (t_xunit t) "degrees_east"). fold (unit_of (t_yunit t) "degrees_north").
  match goal with |- context [do c3 <- _; do c4 <- _; do c5 <- _; do c6 <- _; do c7 <- _; do c8 <- _; do xs <- _; do c9 <- _; do ys <- _; do c10 <- _; do c11 <- _; do c12 <- _; @?K xs ys c12] =>
    destruct (axes_ok xs ys c0 _ _ _ "longitude" "latitude" (unit_of (t_xunit t) "degrees_east") (unit_of (t_yunit t) "degrees_north") dx dy K S XY XG YG (g_x _ _ G) (g_y _ _ G) DX DY) as (c12 & S12 & E12) end.
  rewrite E12. cbv beta. cbn [obind].
  match type of S12 with sem _ ?V1 ?D1 ?A1 => destruct (sem_each (fun l => without "grid_mapping" (without "coordinates" l)) (fun c v => Ok (remove_attr (remove_attr c v "coordinates") v "grid_mapping")) V1 D1 (skeys pv0)) with (c := c12) (A := A1) as (c14 & E14 & S14) end.
  { intros c1 A n _ S1. eexists. split; [ reflexivity | ]. apply (sem_ext _ _ _ _ _ _ _ (sem_remove_attr _ _ _ _ n "grid_mapping" (sem_remove_attr _ _ _ _ n "coordinates" S1))); auto. intro m. unfold at_. rewrite String.eqb_refl. now destruct (String.eqb m n). }
  { exact ND. } { exact S12. }
  rewrite E14. cbn [obind]. destruct (sem_conventions _ _ _ _ S14) as (c15 & a & E15 & S15 & AN & AC). rewrite E15. cbn [obind].
  assert (SF := sem_remove_attr _ _ _ _ global_ns "MAP_PROJ" S15).
  assert (EXG : String.eqb global_ns X = false) by (apply String.eqb_neq; congruence). assert (EYG : String.eqb global_ns Y = false) by (apply String.eqb_neq; congruence).
  assert (OG : one_of global_ns (skeys pv0) = false) by (destruct (one_of global_ns (skeys pv0)) eqn:Q; [ apply one_of_in, PN in Q; tauto | reflexivity ]).
  assert (GA : at_ Y (axis_attrs (A0 Y) "latitude" (unit_of (t_yunit t) "degrees_north")) (at_ X (axis_attrs (A0 X) "longitude" (unit_of (t_xunit t) "degrees_east")) A0) global_ns = attrs_of c global_ns) by (unfold at_; now rewrite EXG, EYG, RG).
  rewrite OG, GA in AC. rewrite OG, GA in SF.
  eexists. exists pv0. split; [ reflexivity | ]. split.
  - apply (common _ pv0 [] xs ys _ _ _ _ dx dy _ _ _ (fun l => without "grid_mapping" (without "coordinates" l)) a G SF); auto.
    + intros n [].
    + intros n NG _. apply String.eqb_neq in NG. rewrite !(at_other global_ns) by exact NG. destruct (one_of n (skeys pv0)) eqn:O; [ | reflexivity ]. apply one_of_in, PN in O. destruct O as (N1 & N2 & _). unfold at_. apply String.eqb_neq in N1, N2. now rewrite N1, N2.
    + intros l b N1 N2. rewrite !find_without. apply String.eqb_neq in N1, N2. now rewrite N1, N2.
    + now rewrite get_attrs.
  - intros n I R. apply rem_false in R. assert (O : one_of n (skeys pv0) = true). { apply one_of_in, sfind_In. rewrite PE, R. now apply sfind_In. }
    assert (O' := O). apply one_of_in, PN in O'. destruct O' as (_ & _ & NG & _). apply String.eqb_neq in NG. rewrite !get_attrs, !(s_a _ _ _ _ SF). rewrite !(at_other global_ns) by exact NG. rewrite O. now rewrite !find_without.
Qed.

(** a name made from a base: the base itself if it is free, otherwise with a number *)
Definition named_for (base n : string) : Prop := n = base \/ exists k, (0 < k)%N /\ n = (base ++ number k)%string.
Lemma prefix_app a b : String.prefix a (a ++ b) = true.
Proof. induction a as [ | x a IH ]; cbn; [ now destruct b | ]. destruct (ascii_dec x x); [ exact IH | congruence ]. Qed.
Lemma prefix_both a : forall b u v, (a ++ u)%string = (b ++ v)%string -> String.prefix a b = true \/ String.prefix b a = true.
Proof.
  induction a as [ | x a IH ]; intros b u v E; [ left; now destruct b | ]. destruct b as [ | y b ]; [ right; reflexivity | ]. cbn in E. injection E as -> E. cbn. destruct (ascii_dec y y); [ | congruence ]. exact (IH b u v E).
Qed.
Lemma app_empty a : (a ++ "")%string = a.
Proof. induction a as [ | x a IH ]; cbn; congruence. Qed.
Lemma string_app_assoc a b d : ((a ++ b) ++ d)%string = (a ++ b ++ d)%string.
Proof. induction a as [ | x a IH ]; cbn; congruence. Qed.
Lemma named_apart a b n : named_for a n -> named_for b n -> String.prefix a b = true \/ String.prefix b a = true.
Proof.
  intros A B. assert (K : forall base, named_for base n -> exists u, n = (base ++ u)%string) by (intros base [->|(k & _ & ->)]; [ exists ""; now rewrite app_empty | eauto ]).
  destruct (K a A) as [u ->]. destruct (K b B) as [v E]. exact (prefix_both a b u v E).
Qed.
Lemma named_prefix a n : named_for a n -> String.prefix a n = true.
Proof. intros [->|(k & _ & ->)]; [ rewrite <- (app_empty a) at 2; apply prefix_app | apply prefix_app ]. Qed.
Lemma fresh_name c1 V D A base : sem c1 V D A -> exists n, unique_var (length (vars c1)) c1 base = Ok n /\ V n = None /\ named_for base n /\ (V base = None -> n = base).
Proof.
  intro S. destruct (C44_new_variable_name c1 base) as (n & E & N & B & F). exists n. split; [ exact E | ]. rewrite (sem_names _ _ _ _ n S) in N. rewrite (sem_names _ _ _ _ base S) in F.
  split; [ destruct (V n); [ exfalso; apply N; discriminate | reflexivity ] | ]. split; [ exact B | ]. intro H. apply F. intro Q. now apply Q.
Qed.

Definition names_free (p : str) : Prop :=
  String.prefix "projection_" X = false /\ String.prefix "projection_" Y = false /\ String.prefix (t_lon t) global_ns = false /\ String.prefix (t_lat t) global_ns = false /\
  String.prefix (t_lon t) (t_lat t) = false /\ String.prefix (t_lat t) (t_lon t) = false /\ String.prefix (st p) "rotated_latitude_longitude" = false.
Definition lon_attrs := [tatt "units" "degree_east"; tatt "long_name" "longitude"; tatt "standard_name" "longitude"].
Definition lat_attrs := [tatt "units" "degree_north"; tatt "long_name" "latitude"; tatt "standard_name" "latitude"].

Theorem C99_projected xs ys p k ps k' ps' text lo la : given xs ys -> key "proj" (t_proj t) = Some p -> ~ geographic (t_proj t) -> names_free p ->
  by_proj4 (t_proj t) = Ok (k, ps) -> NoDup (map aname ps) -> create ps = Ok (k', ps') -> to_proj4 k' ps' = Ok text -> lonlat text xs ys = Ok (lo, la) ->
  exists r pv' name lon lat, change_cdm P by_proj4 to_proj4 lonlat t systems c pv = Ok (r, pv') /\
    changed r pv' [name; lon; lat] xs ys "projection_x_coordinate" "projection_y_coordinate" (t_xunit t) (t_yunit t) /\
    (named_for ("projection_" ++ st p) name /\ named_for (t_lon t) lon /\ named_for (t_lat t) lat /\ NoDup [name; lon; lat] /\ forall n, In n [name; lon; lat] -> removed n \/ ~ In n (vnames c)) /\
    (~ In ("projection_" ++ st p) (vnames c) -> name = "projection_" ++ st p)%string /\
    (forall base n, base = t_lon t /\ n = lon \/ base = t_lat t /\ n = lat -> ~ In base (vnames c) -> ~ In base [X; Y; name] -> n = base) /\
    (find_var name (vars r) = Some (mkVar name DInt [] "" (Some [])) /\ attrs_of r name = ps) /\
    (find_var lon (vars r) = Some (mkVar lon DDouble [X; Y] "" (Some lo)) /\ attrs_of r lon = lon_attrs) /\
    (find_var lat (vars r) = Some (mkVar lat DDouble [X; Y] "" (Some la)) /\ attrs_of r lat = lat_attrs) /\
    forall n, In n (skeys pv) -> ~ removed n -> get_attr r n "coordinates" = Some (tatt "coordinates" (lon ++ " " ++ lat)) /\ get_attr r n "grid_mapping" = Some (tatt "grid_mapping" name).
Proof.
  intros G EP NG (FX & FY & FGo & FGa & FLo & FLa & FR) BY ND CR TO LL. destruct (started xs ys G) as (c0 & pv0 & dx & dy & E & S & NDP & PE & DX & DY & RG & PN).
  assert (XY : X <> Y) by apply (p_on _ _ _ _ (g_apart _ _ G) first (or_introl eq_refl)).
  assert (XG : X <> global_ns) by (apply (proj2 (g_global _ _ G) first X (or_introl eq_refl)); now left). assert (YG : Y <> global_ns) by (apply (proj2 (g_global _ _ G) first Y (or_introl eq_refl)); right; now left).
  unfold change_cdm, proj_name. rewrite EP. destruct (one_of (st p) ["latlon"; "latlong"; "lonlat"; "longlat"]) eqn:OP.
  { exfalso. apply NG. exists p. split; [ exact EP | ]. now apply one_of_in. }
  cbn [obind]. rewrite E. cbn [obind].
  assert (EL : String.eqb (st p) "latlong" = false). { apply String.eqb_neq. intro Q. rewrite Q in OP. discriminate. }
  rewrite EL. cbv zeta. cbn [obind andb].
  destruct (fresh_name _ _ _ _ ("projection_" ++ st p) S) as (name & -> & VNm & NN & NF). cbn [obind].
  assert (NNP : String.prefix "projection_" name = true) by (destruct NN as [->|(i & _ & ->)]; [ apply prefix_app | rewrite string_app_assoc; apply prefix_app ]).
  assert (NX : name <> X) by (intros ->; congruence). assert (NY : name <> Y) by (intros ->; congruence). assert (NGl : name <> global_ns) by (intros ->; discriminate).
  assert (NR : String.eqb name "projection_rotated_latitude_longitude" = false).
  { apply String.eqb_neq. intro Q. assert (K : exists u, name = ("projection_" ++ st p ++ u)%string) by (destruct NN as [->|(i & _ & ->)]; [ exists ""; now rewrite app_empty | exists (number i); now rewrite string_app_assoc ]).
    destruct K as [u K]. rewrite Q in K. change "projection_rotated_latitude_longitude" with ("projection_" ++ "rotated_latitude_longitude")%string in K. apply append_inj in K. rewrite K, prefix_app in FR. discriminate. }
  rewrite NR.
  destruct (sem_add _ _ _ _ (mkVar name DInt [] "" (Some [])) S VNm) as (c1 & -> & S1). cbn [obind v_name] in *. rewrite BY. cbn [obind snd].
  assert (A0N : A0 name = []) by exact (sem_none _ _ _ _ name S VNm NGl). cbv beta in A0N.
  destruct (sem_put _ _ _ _ name ps S1) as (c1' & -> & S1'). { right. rewrite at_same. discriminate. } { rewrite A0N. exact ND. }
  cbn [obind]. rewrite A0N in S1'. cbn [app] in S1'.
  match goal with |- context [do c3 <- _; do c4 <- _; do c5 <- _; do c6 <- _; do c7 <- _; do c8 <- _; do xs <- _; do c9 <- _; do ys <- _; do c10 <- _; do c11 <- _; do c12 <- _; @?K xs ys c12] =>
    destruct (axes_ok xs ys c1' _ _ _ "projection_x_coordinate" "projection_y_coordinate" (t_xunit t) (t_yunit t) dx dy K S1' XY XG YG (g_x _ _ G) (g_y _ _ G) DX DY) as (c12 & S12 & E12) end.
  rewrite E12. cbv beta. cbn [obind].
  assert (bXN : String.eqb X name = false) by (apply String.eqb_neq; congruence). assert (bYN : String.eqb Y name = false) by (apply String.eqb_neq; congruence).
  assert (bNX : String.eqb name X = false) by now apply String.eqb_neq. assert (bNY : String.eqb name Y = false) by now apply String.eqb_neq.
  rewrite !(at_other name) in S12 by assumption.
  destruct (fresh_name _ _ _ _ (t_lon t) S12) as (lon & -> & VLo & NLo & LoF). cbn [obind]. destruct (fresh_name _ _ _ _ (t_lat t) S12) as (lat & -> & VLa & NLa & LaF). cbn [obind].
  assert (LL' : lon <> lat) by (intros ->; destruct (named_apart _ _ _ NLo NLa); congruence).
  assert (LoG : lon <> global_ns) by (intros ->; apply named_prefix in NLo; congruence). assert (LaG : lat <> global_ns) by (intros ->; apply named_prefix in NLa; congruence).
  assert (NOT : forall n, at_ Y (Some (axis_of (at_ name (Some (mkVar name DInt [] "" (Some []))) V0) Y (t_ytype t) ys)) (at_ X (Some (axis_of (at_ name (Some (mkVar name DInt [] "" (Some []))) V0) X (t_xtype t) xs)) (at_ name (Some (mkVar name DInt [] "" (Some []))) V0)) n = None -> n <> Y /\ n <> X /\ n <> name /\ V0 n = None).
  { intros n H. unfold at_ in H. destruct (String.eqb_spec n Y); [ discriminate | ]. destruct (String.eqb_spec n X); [ discriminate | ]. destruct (String.eqb_spec n name); [ discriminate | auto ]. }
  destruct (NOT lon VLo) as (LoY & LoX & LoN & LoV). destruct (NOT lat VLa) as (LaY & LaX & LaN & LaV).
  unfold coordinates.
  rewrite (s_a _ _ _ _ S12 name), (at_other Y), (at_other X), at_same by assumption. rewrite CR. cbn [obind fst snd]. rewrite TO. cbn [obind]. rewrite LL. cbn [obind fst snd].
  destruct (sem_add _ _ _ _ (mkVar lon DDouble [X; Y] "" (Some lo)) S12 VLo) as (c13 & -> & S13). cbn [obind v_name] in *.
  destruct (sem_add _ _ _ _ (mkVar lat DDouble [X; Y] "" (Some la)) S13) as (c14 & -> & S14). { cbn [v_name]. rewrite at_other; [ exact VLa | apply String.eqb_neq; congruence ]. }
  cbn [obind v_name] in *.
  assert (A0o : A0 lon = []) by exact (sem_none _ _ _ _ lon S LoV LoG). assert (A0a : A0 lat = []) by exact (sem_none _ _ _ _ lat S LaV LaG). cbv beta in A0o, A0a.
  apply String.eqb_neq in LoY, LoX, LoN, LaY, LaX, LaN.
  assert (bol : String.eqb lon lat = false) by now apply String.eqb_neq. assert (blo : String.eqb lat lon = false) by (apply String.eqb_neq; congruence).
  destruct (sem_put _ _ _ _ lon lon_attrs S14) as (c15 & E15 & S15). { right. rewrite at_other, at_same by exact bol. discriminate. }
  { rewrite (at_other Y), (at_other X), (at_other name) by assumption. rewrite A0o. repeat constructor; cbn; intuition discriminate. }
  fold lon_attrs. rewrite E15. cbn [obind]. rewrite (at_other Y), (at_other X), (at_other name), A0o in S15 by assumption. cbn [app] in S15.
  destruct (sem_put _ _ _ _ lat lat_attrs S15) as (c16 & E16 & S16). { right. rewrite at_same. discriminate. }
  { rewrite (at_other lon), (at_other Y), (at_other X), (at_other name) by assumption. rewrite A0a. repeat constructor; cbn; intuition discriminate. }
  fold lat_attrs. rewrite E16. cbn [obind]. rewrite (at_other lon), (at_other Y), (at_other X), (at_other name), A0a in S16 by assumption. cbn [app] in S16.
  set (g := fun l => without "grid_mapping" (without "coordinates" l ++ [tatt "coordinates" (lon ++ " " ++ lat)]) ++ [tatt "grid_mapping" name]).
  assert (PNN : forall n, In n (skeys pv0) -> String.eqb n X = false /\ String.eqb n Y = false /\ String.eqb n global_ns = false /\ String.eqb n name = false /\ String.eqb n lon = false /\ String.eqb n lat = false).
  { intros n I. destruct (PN n I) as (P1 & P2 & P3 & P4). rewrite !String.eqb_neq. repeat (split; [ first [ assumption | intros ->; congruence ] | ]). intros ->; congruence. }
  match type of S16 with sem _ ?V1 ?D1 ?A1 => destruct (sem_each g (fun c v => repl_attrs v [tatt "coordinates" (lon ++ " " ++ lat); tatt "grid_mapping" name] c) V1 D1 (skeys pv0)) with (c := c16) (A := A1) as (c17 & E17 & S17) end.
  { intros d A n I S2. destruct (PN n I) as (_ & _ & _ & P4). destruct (PNN n I) as (Q1 & Q2 & Q3 & Q4 & Q5 & Q6).
    destruct (sem_repl _ _ _ _ n [tatt "coordinates" (lon ++ " " ++ lat); tatt "grid_mapping" name] S2) as (d' & E' & S'). { right. rewrite (at_other lat), (at_other lon), (at_other Y), (at_other X), (at_other name) by assumption. exact P4. }
    exists d'. split; [ exact E' | exact S' ]. }
  { exact NDP. } { exact S16. }
  rewrite E17. cbn [obind]. destruct (sem_conventions _ _ _ _ S17) as (c18 & a & E18 & S18 & AN & AC). rewrite E18. cbn [obind].
  assert (SF := sem_remove_attr _ _ _ _ global_ns "MAP_PROJ" S18).
  assert (OG : one_of global_ns (skeys pv0) = false) by (destruct (one_of global_ns (skeys pv0)) eqn:Q; [ apply one_of_in, PN in Q; tauto | reflexivity ]).
  assert (bG : String.eqb global_ns X = false /\ String.eqb global_ns Y = false /\ String.eqb global_ns name = false /\ String.eqb global_ns lon = false /\ String.eqb global_ns lat = false) by (rewrite !String.eqb_neq; repeat split; congruence).
  destruct bG as (G1 & G2 & G3 & G4 & G5).
  assert (GA : forall u1 u2 u3 u4 u5, at_ lat u1 (at_ lon u2 (at_ Y u3 (at_ X u4 (at_ name u5 A0)))) global_ns = attrs_of c global_ns).
  { intros. rewrite (at_other lat), (at_other lon), (at_other Y), (at_other X), (at_other name) by assumption. now rewrite RG. }
  rewrite OG, GA in AC. rewrite OG, GA in SF.
  assert (NEWP : forall n, n = name \/ n = lon \/ n = lat -> one_of n (skeys pv0) = false).
  { intros n H. destruct (one_of n (skeys pv0)) eqn:Q; [ | reflexivity ]. exfalso. apply one_of_in, PNN in Q. destruct Q as (_ & _ & _ & Q1 & Q2 & Q3). rewrite !String.eqb_neq in Q1, Q2, Q3. intuition congruence. }
  assert (gN : String.eqb name global_ns = false /\ String.eqb lon global_ns = false /\ String.eqb lat global_ns = false) by (rewrite !String.eqb_neq; auto). destruct gN as (g1 & g2 & g3).
  assert (nl : String.eqb name lon = false) by (apply String.eqb_neq; apply String.eqb_neq in LoN; congruence). assert (na : String.eqb name lat = false) by (apply String.eqb_neq; apply String.eqb_neq in LaN; congruence).
  eexists. exists pv0, name, lon, lat. split; [ reflexivity | ]. split; [ | split; [ | split; [ | split; [ | split; [ | split; [ | split ] ] ] ] ] ].
  - apply (common _ pv0 [name; lon; lat] xs ys _ _ _ _ dx dy _ _ _ g a G SF); auto.
    + intros n NI. assert (B : String.eqb n name = false /\ String.eqb n lon = false /\ String.eqb n lat = false) by (rewrite !String.eqb_neq; repeat split; intros ->; apply NI; cbn; auto). destruct B as (B1 & B2 & B3).
      rewrite (at_other lat), (at_other lon) by assumption. destruct (String.eqb_spec n Y) as [->|N1]. { rewrite !at_same. unfold axis_of. now rewrite !(at_other name) by assumption. } apply String.eqb_neq in N1. rewrite !(at_other Y) by exact N1.
      destruct (String.eqb_spec n X) as [->|N2]. { rewrite !at_same. unfold axis_of. now rewrite !(at_other name) by assumption. } apply String.eqb_neq in N2. now rewrite !(at_other X), (at_other name) by assumption.
    + intros n [<-|[<-|[<-|[]]]].
      * rewrite (at_other lat), (at_other lon), (at_other Y), (at_other X), at_same by assumption. repeat split; try assumption. discriminate.
      * rewrite (at_other lat), at_same by assumption. apply String.eqb_neq in LoX, LoY. repeat split; try assumption. discriminate.
      * rewrite at_same. apply String.eqb_neq in LaX, LaY. repeat split; try assumption. discriminate.
    + intros n NGn NI. assert (B : String.eqb n name = false /\ String.eqb n lon = false /\ String.eqb n lat = false) by (rewrite !String.eqb_neq; repeat split; intros ->; apply NI; cbn; auto). destruct B as (B1 & B2 & B3).
      apply String.eqb_neq in NGn. rewrite !(at_other global_ns) by exact NGn. rewrite (at_other lat), (at_other lon) by assumption.
      destruct (one_of n (skeys pv0)) eqn:O. { apply one_of_in, PNN in O. destruct O as (N1 & N2 & _). f_equal. rewrite !at_other by assumption. reflexivity. }
      unfold at_. rewrite B1. now destruct (String.eqb_spec n Y) as [->|]; [ | destruct (String.eqb_spec n X) as [->|] ]; rewrite ?bYN, ?bXN.
    + intros l b N1 N2. unfold g. rewrite (find_repl b _ (tatt "grid_mapping" name)), (find_repl b _ (tatt "coordinates" (lon ++ " " ++ lat))). cbn [aname tatt]. apply String.eqb_neq in N1, N2. now rewrite N1, N2.
    + now rewrite get_attrs.
  - split; [ exact NN | ]. split; [ exact NLo | ]. split; [ exact NLa | ]. split.
    + apply String.eqb_neq in nl, na. repeat constructor; cbn; intuition congruence.
    + assert (VZ : forall n, V0 n = None -> removed n \/ ~ In n (vnames c)).
      { intros n H. unfold Vof in H. destruct (rem_of P c first others n) eqn:R; [ left; now apply removed_spec | right ]. rewrite <- has_var_in. unfold has_var. destruct (find_var n (vars c)); [ discriminate | discriminate ]. }
      intros n [<-|[<-|[<-|[]]]]; apply VZ; assumption.
  - intro H. apply NF. unfold Vof. destruct (rem_of P c first others ("projection_" ++ st p)); [ reflexivity | ]. rewrite <- has_var_in in H. unfold has_var in H. destruct (find_var ("projection_" ++ st p) (vars c)); [ exfalso; now apply H | reflexivity ].
  - assert (VB : forall base, ~ In base (vnames c) -> ~ In base [X; Y; name] -> at_ Y (Some (axis_of (at_ name (Some (mkVar name DInt [] "" (Some []))) V0) Y (t_ytype t) ys)) (at_ X (Some (axis_of (at_ name (Some (mkVar name DInt [] "" (Some []))) V0) X (t_xtype t) xs)) (at_ name (Some (mkVar name DInt [] "" (Some []))) V0)) base = None).
    { intros base H I. assert (B : String.eqb base X = false /\ String.eqb base Y = false /\ String.eqb base name = false) by (rewrite !String.eqb_neq; repeat split; intros ->; apply I; cbn; auto). destruct B as (B1 & B2 & B3).
      rewrite !at_other by assumption. unfold Vof. destruct (rem_of P c first others base); [ reflexivity | ]. rewrite <- has_var_in in H. unfold has_var in H. destruct (find_var base (vars c)); [ exfalso; now apply H | reflexivity ]. }
    intros base n [(-> & ->)|(-> & ->)] H1 H2; [ apply LoF | apply LaF ]; now apply VB.
  - rewrite (s_v _ _ _ _ SF), (s_a _ _ _ _ SF), !(at_other global_ns), (at_other lat), (at_other lon), (at_other Y), (at_other X), at_same by assumption. split; [ reflexivity | ]. rewrite (NEWP name) by auto. now rewrite (at_other lat), (at_other lon), (at_other Y), (at_other X), at_same by assumption.
  - rewrite (s_v _ _ _ _ SF), (s_a _ _ _ _ SF), !(at_other global_ns), (at_other lat), at_same by assumption. split; [ reflexivity | ]. rewrite (NEWP lon) by auto. now rewrite (at_other lat), at_same by assumption.
  - rewrite (s_v _ _ _ _ SF), (s_a _ _ _ _ SF), !(at_other global_ns), at_same by assumption. split; [ reflexivity | ]. rewrite (NEWP lat) by auto. now rewrite at_same.
  - intros n I R. apply rem_false in R. assert (J : In n (skeys pv0)) by (apply sfind_In; rewrite PE, R; now apply sfind_In). destruct (PNN n J) as (Q1 & Q2 & Q3 & Q4 & Q5 & Q6). apply one_of_in in J.
    rewrite !get_attrs, !(s_a _ _ _ _ SF), !(at_other global_ns) by assumption. rewrite J. unfold g. rewrite !(find_repl _ _ (tatt "grid_mapping" name)), !(find_repl _ _ (tatt "coordinates" (lon ++ " " ++ lat))). now split.
Qed.
Lemma classic_removed n : removed n \/ ~ removed n.
Proof. destruct (rem_of P c first others n) eqn:R; [ left; now apply removed_spec | right; now apply rem_false ]. Qed.
(** every dimension of a shape exists *)
Definition shaped (c : cdm) : Prop := forall n v d, find_var n (vars c) = Some v -> In d (v_shape v) -> In d (dnames c).
Theorem C99_shapes r pv' new xs ys xn yn xu yu : given xs ys -> changed r pv' new xs ys xn yn xu yu -> shaped c ->
  (forall n v d, In n new -> find_var n (vars r) = Some v -> In d (v_shape v) -> d = X \/ d = Y) -> shaped r.
Proof.
  intros G H SC NEW n v d F I.
  assert (DI : forall c d, In d (dnames c) <-> find_dim d (dims c) <> None) by (intros c1 d1; rewrite <- has_dim_in; unfold has_dim; destruct (find_dim d1 (dims c1)); cbn; split; congruence).
  assert (LX : In X (dnames r)) by (apply DI; destruct (proj1 (h_dims _ _ _ _ _ _ _ _ _ H X) eq_refl) as (q & _ & ->); discriminate).
  assert (LY : In Y (dnames r)) by (apply DI; destruct (proj1 (proj2 (h_dims _ _ _ _ _ _ _ _ _ H Y)) eq_refl) as (q & _ & ->); discriminate).
  assert (LO : forall e, In e (dnames c) -> (forall p, In p others -> e <> fst (snd p) /\ e <> snd (snd p)) -> In e (dnames r)).
  { intros e Ie Ne. destruct (string_dec e X) as [->|]; [ exact LX | ]. destruct (string_dec e Y) as [->|]; [ exact LY | ]. apply DI. rewrite (proj2 (proj2 (proj2 (h_dims _ _ _ _ _ _ _ _ _ H e)))) by assumption. now apply DI. }
  assert (U : forall w e, find_var n (vars c) = Some w -> ~ removed n -> ~ In n (skeys pv) -> In e (v_shape w) -> In e (dnames r)).
  { intros w e Fw R NP Ie. apply LO; [ exact (SC n w e Fw Ie) | ]. intros p Ip. destruct (in_split _ _ Ip) as (l1 & l2 & EL).
    assert (Q : In e (xs_of P p) -> False).
    { intro Q. destruct (p_used _ _ _ _ (g_apart _ _ G) first p l1 l2) with (n := n) (v := w) (d := e) as [Z|[Z|Z]]; auto. { now rewrite EL. }
      - apply R. right. right. exists p. split; [ exact Ip | ]. unfold xs_of in Z. cbn [In] in Z. intuition.
      - apply R. right. left. unfold lonlat_of in Z. destruct (find_axis (m_cs (fst p)) Lat) as [a|] eqn:E1; [ | destruct Z ]. destruct (find_axis (m_cs (fst p)) Lon) as [b|] eqn:E2; [ | destruct Z ]. exists p, a, b. cbn [In] in Z. split; [ now right | intuition ]. }
    split; intro Q1; apply Q; rewrite Q1; unfold xs_of; cbn; auto. }
  assert (NI : In n (vnames r)) by (apply has_var_in; unfold has_var; now rewrite F). apply (h_names _ _ _ _ _ _ _ _ _ H) in NI.
  assert (AX : forall a ty dd sn un, (a = X \/ a = Y) -> n = a -> new_axis r a ty dd sn un -> In d (dnames r)).
  { intros a ty dd sn un AA -> (w & Fw & _ & _ & SH1 & SH2 & _). assert (w = v) by congruence. subst w. destruct (classic_removed a) as [R|R].
    - destruct SH1 as [SH1 _]; [ now left | ]. rewrite SH1 in I. destruct I as [<-|[]]. destruct AA as [-> | ->]; assumption.
    - destruct (find_var a (vars c)) as [w|] eqn:Fc.
      + destruct (SH2 w R eq_refl) as [SH _]. rewrite SH in I. apply (U w d eq_refl R); [ | exact I ]. destruct AA as [-> | ->]; apply (g_axes _ _ G).
      + destruct SH1 as [SH1 _]. { right. rewrite <- has_var_in. unfold has_var. rewrite Fc. discriminate. } rewrite SH1 in I. destruct I as [<-|[]]. destruct AA as [-> | ->]; assumption. }
  destruct (string_dec n X) as [NX|NX]; [ exact (AX X _ _ _ _ (or_introl eq_refl) NX (h_x _ _ _ _ _ _ _ _ _ H)) | ].
  destruct (string_dec n Y) as [NY|NY]; [ exact (AX Y _ _ _ _ (or_intror eq_refl) NY (h_y _ _ _ _ _ _ _ _ _ H)) | ].
  destruct NI as [E|[E|[E|[E R]]]]; [ contradiction | contradiction | destruct (NEW n v d E F I) as [-> | ->]; assumption | ].
  apply has_var_in in E. unfold has_var in E. destruct (find_var n (vars c)) as [w|] eqn:Fc; [ | discriminate ]. destruct (in_dec string_dec n (skeys pv)) as [IP|IP].
  - destruct (h_data _ _ _ _ _ _ _ _ _ H n w Fc R IP) as (v' & F' & _ & _ & _ & _ & FA). assert (v' = v) by congruence. subst v'. 
    assert (Q : exists e, In e (v_shape w) /\ moved e d). { clear - FA I. induction FA as [ | e d' l l' M FA IH ]; [ destruct I | ]. destruct I as [->|I]; [ exists e; split; [ now left | exact M ] | ]. destruct (IH I) as (e' & I' & M'). exists e'. split; [ now right | exact M' ]. }
    destruct Q as (e & Ie & [(_ & ->)|[(_ & ->)|(NO & ->)]]); [ exact LX | exact LY | ]. apply LO; [ exact (SC n w e Fc Ie) | exact NO ].
  - rewrite (h_rest _ _ _ _ _ _ _ _ _ H n w Fc R IP NX NY) in F. injection F as <-. exact (U w d eq_refl R IP I).
Qed.

End Interpolated.

(** the values of a new axis: those of the target, converted to its type *)
Theorem C99_axis_values ty l xs : axis_data ty l = Ok xs ->
  length xs = length l /\
  forall i v, nth_error l i = Some v -> exists w, nth_error xs i = Some w /\ static_cast ty v = Ok w.
Proof.
  unfold axis_data. revert xs. induction l as [ | v l IH ]; intros xs E; cbn [omapM] in E.
  - injection E as <-. split; [ reflexivity | ]. intros [ | i ] w; discriminate.
  - destruct (static_cast ty v) as [ w | | | ] eqn:S; cbn [obind] in E; try discriminate E.
    destruct (omapM (static_cast ty) l) as [ ws | | | ] eqn:R; cbn [obind] in E; try discriminate E. injection E as <-.
    destruct (IH ws eq_refl) as [L H]. split; [ cbn [length]; now rewrite L | ].
    intros [ | i ] u N; cbn [nth_error] in *; [ injection N as <-; now exists w | now apply H ].
Qed.
(** a file without a system that can be interpolated is refused; otherwise the variables that
    depend on horizontal axes without belonging to a system are left out, and the rest changed as
    described above *)
Theorem C99_systems P by_proj4 to_proj4 lonlat c t with_proj l ms pv bad : best P c with_proj l = Ok (ms, pv, bad) ->
  (ms = [] -> interpolated P by_proj4 to_proj4 lonlat t with_proj l c = Throw) /\
  (ms <> [] -> exists c', interpolated P by_proj4 to_proj4 lonlat t with_proj l c = change_cdm P by_proj4 to_proj4 lonlat t ms c' pv /\
     dims c' = dims c /\
     forall n, (In n bad -> find_var n (vars c') = None) /\
               (~ In n bad -> find_var n (vars c') = find_var n (vars c) /\ attrs_of c' n = attrs_of c n)).
Proof.
  intros B. unfold interpolated. rewrite B. cbn [obind]. split; [ now intros -> | ]. intros N.
  exists (fold_left remove_var bad c). split; [ destruct ms; [ contradiction | reflexivity ] | ].
  clear. revert c. induction bad as [ | b bad IH ]; intros c; cbn [fold_left].
  - split; [ reflexivity | ]. intros n. split; [ intros [] | ]. now split.
  - destruct (IH (remove_var c b)) as [D H]. split; [ rewrite D; reflexivity | ]. intros n. destruct (H n) as [H1 H2]. split.
    + intros I. destruct (in_dec string_dec n bad) as [J|J]; [ auto | ]. destruct I as [<-|I]; [ | contradiction ].
      destruct (H2 J) as [-> _]. rewrite find_var_removed, String.eqb_refl. reflexivity.
    + intros I. assert (J : ~ In n bad) by (intro J; apply I; now right). assert (K : String.eqb n b = false) by (apply String.eqb_neq; intros ->; apply I; now left).
      destruct (H2 J) as [-> ->]. rewrite find_var_removed, attrs_of_removed, K. now split.
Qed.

Print Assumptions C99_geographic.
Print Assumptions C99_projected.
Print Assumptions C99_shapes.
Print Assumptions C99_axis_values.
Print Assumptions C99_systems.
