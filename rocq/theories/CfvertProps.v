(** C91 the types of axes in CF files, C92 vertical transformations of CF files *)
From Coq Require Import NArith Ascii String List Bool Lia.
From Verif Require Import Base StdMap StringModel StringProps SpecModel FilesModel AxesModel ConvertModel TextProps CdmModel CdmProofs NmlModel NmlProofs CfcsModel CfcsProofs.
Import ListNotations.
Local Open Scope string_scope.
Local Open Scope list_scope.
Local Open Scope nat_scope.

Section Types.
Variable c : cdm.
Variable is_time : string -> bool.
Variable convertible : string -> string -> bool.
Variable v : string.
Local Notation type_is t := (axis_type_of c is_time convertible v = Ok t).
Local Notation att := (att c v).

Definition name_table : list (string * axis_type) :=
  [("longitude", Lon); ("latitude", Lat); ("forecast_reference_time", ReferenceTime); ("realization", Realization);
   ("projection_x_coordinate", GeoX); ("grid_longitude", GeoX); ("projection_y_coordinate", GeoY); ("grid_latitude", GeoY);
   ("atmosphere_sigma_coordinate", GeoZ); ("atmosphere_hybrid_sigma_pressure_coordinate", GeoZ); ("atmosphere_hybrid_height_coordinate", GeoZ);
   ("atmosphere_sleve_coordinate", GeoZ); ("ocean_sigma_coordinate", GeoZ); ("ocean_s_coordinate", GeoZ); ("ocean_sigma_z_coordinate", GeoZ);
   ("ocean_double_sigma_coordinate", GeoZ); ("ocean_s_coordinate_g1", GeoZ); ("ocean_s_coordinate_g2", GeoZ)].
Definition degree_table : list (string * axis_type) :=
  [("degrees_east", Lon); ("degrees_e", Lon); ("degreese", Lon); ("degree_east", Lon); ("degree_e", Lon); ("degreee", Lon);
   ("degrees_north", Lat); ("degrees_n", Lat); ("degreesn", Lat); ("degree_north", Lat); ("degree_n", Lat); ("degreen", Lat)].
Definition level_names : list string := ["level"; "layer"; "sigma_level"].

(** the standard name, or the unit, says nothing *)
Definition no_name : Prop := forall s, att "standard_name" = Some s -> exists k, lower s = Ok k /\ ~ In k (map fst name_table).
Definition no_degrees (u : string) : Prop := exists k, lower u = Ok k /\ ~ In k (map fst degree_table).
Definition no_unit : Prop := forall u, att "units" = Some u -> no_degrees u /\ is_time u = false /\ convertible "mbar" u = false /\ forall k, lower u = Ok k -> ~ In k level_names.

Lemma of_name_In k t : In (k, t) name_table -> of_standard_name k = Some t.
Proof. cbn [name_table In]. intro I. repeat (destruct I as [I|I]; [ injection I as <- <-; reflexivity | ]). destruct I. Qed.
Lemma of_name_None k : ~ In k (map fst name_table) -> of_standard_name k = None.
Proof.
  intro N. unfold of_standard_name, one_of. cbn [existsb]. cbn [name_table map fst In] in N.
  repeat match goal with |- context [String.eqb k ?n] => destruct (String.eqb_spec k n) as [E|E]; [ exfalso; apply N; subst k; tauto | clear E ] end. reflexivity.
Qed.
Lemma of_degree_In u k t : In (k, t) degree_table -> of_unit is_time convertible u k = Some t.
Proof. cbn [degree_table In]. intro I. repeat (destruct I as [I|I]; [ injection I as <- <-; reflexivity | ]). destruct I. Qed.
Lemma of_degree_None u k : ~ In k (map fst degree_table) -> of_unit is_time convertible u k =
  if is_time u then Some Time else if convertible "mbar" u then Some Pressure else if one_of k level_names then Some GeoZ else None.
Proof.
  intro N. unfold of_unit. change (one_of k ["level"; "layer"; "sigma_level"]) with (one_of k level_names).
  assert (L : forall l, (forall n, In n l -> In n (map fst degree_table)) -> one_of k l = false).
  { intros l H. destruct (one_of k l) eqn:E; [ | reflexivity ]. apply one_of_In in E. destruct N. auto. }
  rewrite L; [ rewrite L; [ reflexivity | ] | ]; intros n I; cbn [In degree_table map fst] in *; tauto.
Qed.
Lemma no_name_step : no_name -> axis_type_of c is_time convertible v =
  (do t2 <- match att "units" with None => Ok None | Some u => do l <- lower u; Ok (of_unit is_time convertible u l) end;
   match t2 with
   | Some t => Ok t
   | None => match att "positive" with
             | Some p => Ok (of_positive convertible p (att "units"))
             | None => match att "axis" with
                       | None => Ok Undefined
                       | Some a => do l <- lower a; Ok (of_axis convertible l (att "units"))
                       end
             end
   end).
Proof.
  intro H. unfold axis_type_of. destruct (att "standard_name") as [s|] eqn:E; [ | reflexivity ]. destruct (H s E) as (k & L & N). rewrite L. cbn [obind]. now rewrite of_name_None.
Qed.
Lemma no_unit_step : no_name -> no_unit -> axis_type_of c is_time convertible v =
  match att "positive" with
  | Some p => Ok (of_positive convertible p (att "units"))
  | None => match att "axis" with
            | None => Ok Undefined
            | Some a => do l <- lower a; Ok (of_axis convertible l (att "units"))
            end
  end.
Proof.
  intros H U. rewrite no_name_step by exact H. destruct (att "units") as [u|] eqn:E; [ | reflexivity ]. destruct (U u E) as ((k & L & N) & T & M & V). rewrite L. cbn [obind]. rewrite of_degree_None by exact N.
  rewrite T, M. destruct (one_of k level_names) eqn:O; [ | reflexivity ]. apply one_of_In in O. destruct (V k L O).
Qed.

(** a known standard name decides, in upper or lower case *)
Theorem C91_standard_name : forall s k t, att "standard_name" = Some s -> lower s = Ok k -> In (k, t) name_table -> type_is t.
Proof. intros s k t A L I. unfold axis_type_of. rewrite A, L. cbn [obind]. now rewrite (of_name_In _ _ I). Qed.
(** otherwise degrees, a time unit, a unit of pressure or a name of a level *)
Theorem C91_units : forall u k, no_name -> att "units" = Some u -> lower u = Ok k ->
  (forall t, In (k, t) degree_table -> type_is t) /\
  (~ In k (map fst degree_table) ->
     (is_time u = true -> type_is Time) /\ (is_time u = false -> convertible "mbar" u = true -> type_is Pressure) /\
     (is_time u = false -> convertible "mbar" u = false -> In k level_names -> type_is GeoZ)).
Proof.
  intros u k H A L. rewrite no_name_step by exact H. rewrite A, L. cbn [obind]. split.
  - intros t I. now rewrite (of_degree_In u _ _ I).
  - intro N. rewrite of_degree_None by exact N. split; [ | split ].
    + now intros ->.
    + now intros -> ->.
    + intros -> -> I. apply one_of_In in I. now rewrite I.
Qed.
(** otherwise the attribute positive: a vertical axis, of height or depth with a unit of length *)
Theorem C91_positive : forall p, no_name -> no_unit -> att "positive" = Some p ->
  (forall u, att "units" = Some u -> convertible "m" u = true -> (p = "up" -> type_is Height) /\ (p <> "up" -> type_is Depth)) /\
  ((forall u, att "units" = Some u -> convertible "m" u = false) -> type_is GeoZ).
Proof.
  intros p H U A. rewrite no_unit_step by assumption. rewrite A. unfold of_positive. split.
  - intros u E M. rewrite E, M. split; intro Q; [ subst; reflexivity | ]. apply String.eqb_neq in Q. now rewrite Q.
  - intro M. destruct (att "units") as [u|]; [ | reflexivity ]. now rewrite (M u eq_refl).
Qed.
(** otherwise the attribute axis, in upper or lower case *)
Theorem C91_axis : forall s k, no_name -> no_unit -> att "positive" = None -> att "axis" = Some s -> lower s = Ok k ->
  (k = "x" -> type_is GeoX) /\ (k = "y" -> type_is GeoY) /\ (k = "t" -> type_is Time) /\
  (k = "z" -> (forall u, att "units" = Some u -> convertible u "mbar" = true -> type_is Pressure) /\
     (forall u, att "units" = Some u -> convertible u "mbar" = false -> convertible u "m" = true -> type_is Height) /\
     ((forall u, att "units" = Some u -> convertible u "mbar" = false /\ convertible u "m" = false) -> type_is GeoZ)) /\
  (~ In k ["x"; "y"; "z"; "t"] -> type_is Undefined).
Proof.
  intros s k H U Po A L. rewrite no_unit_step by assumption. rewrite Po, A, L. cbn [obind]. unfold of_axis. split; [ | split; [ | split; [ | split ] ] ].
  - now intros ->.
  - now intros ->.
  - now intros ->.
  - intros ->. cbn [String.eqb Ascii.eqb Bool.eqb]. split; [ | split ].
    + intros u E M. now rewrite E, M.
    + intros u E M N. now rewrite E, M, N.
    + intros M. destruct (att "units") as [u|]; [ | reflexivity ]. destruct (M u eq_refl) as [-> ->]. reflexivity.
  - intro N. cbn [In] in N. repeat match goal with |- context [String.eqb k ?n] => destruct (String.eqb_spec k n) as [E|E]; [ exfalso; apply N; subst k; tauto | clear E ] end. reflexivity.
Qed.
Theorem C91_undefined : no_name -> no_unit -> att "positive" = None -> att "axis" = None -> type_is Undefined.
Proof. intros H U A B. rewrite no_unit_step by assumption. now rewrite A, B. Qed.

(** the type is always found if the attributes are ASCII *)
Lemma lower_total s : is_ascii (s_ s) -> exists k, lower s = Ok k.
Proof. intro H. unfold lower. rewrite (lower_ok _ H). cbn. eauto. Qed.
Theorem C91_ascii : (forall n s, In n ["standard_name"; "units"; "axis"] -> att n = Some s -> is_ascii (s_ s)) -> exists t, type_is t.
Proof.
  intro H. unfold axis_type_of. destruct (att "standard_name") as [s|] eqn:A.
  - destruct (lower_total s) as [k L]; [ apply (H "standard_name"); [ now left | exact A ] | ]. rewrite L. cbn [obind]. destruct (of_standard_name k); [ eauto | ].
    destruct (att "units") as [u|] eqn:B.
    + destruct (lower_total u) as [k' L']; [ apply (H "units"); [ right; now left | exact B ] | ]. rewrite L'. cbn [obind]. destruct (of_unit _ _ _ _); [ eauto | ]. destruct (att "positive"); [ eauto | ].
      destruct (att "axis") as [x|] eqn:C; [ | eauto ]. destruct (lower_total x) as [k'' L'']; [ apply (H "axis"); [ right; right; now left | exact C ] | ]. rewrite L''. cbn. eauto.
    + cbn [obind]. destruct (att "positive"); [ eauto | ].
      destruct (att "axis") as [x|] eqn:C; [ | eauto ]. destruct (lower_total x) as [k'' L'']; [ apply (H "axis"); [ right; right; now left | exact C ] | ]. rewrite L''. cbn. eauto.
  - cbn [obind]. destruct (att "units") as [u|] eqn:B.
    + destruct (lower_total u) as [k' L']; [ apply (H "units"); [ right; now left | exact B ] | ]. rewrite L'. cbn [obind]. destruct (of_unit _ _ _ _); [ eauto | ]. destruct (att "positive"); [ eauto | ].
      destruct (att "axis") as [x|] eqn:C; [ | eauto ]. destruct (lower_total x) as [k'' L'']; [ apply (H "axis"); [ right; right; now left | exact C ] | ]. rewrite L''. cbn. eauto.
    + cbn [obind]. destruct (att "positive"); [ eauto | ].
      destruct (att "axis") as [x|] eqn:C; [ | eauto ]. destruct (lower_total x) as [k'' L'']; [ apply (H "axis"); [ right; right; now left | exact C ] | ]. rewrite L''. cbn. eauto.
Qed.
End Types.

Definition txt (n t : string) : cattr := mkAttr n DString [] t.
Definition one (l : list cattr) : cdm := mkCdm [mkVar "z" DFloat ["z"] "" None] [mkDim "z" 3 false] [("z", l)].
Definition ex_time (u : string) : bool := holds "since" u.
Definition ex_conv (a b : string) : bool := String.eqb a b.
Definition ty (l : list cattr) : outcome axis_type := axis_type_of (one l) ex_time ex_conv "z".
(** Finding: positive is compared in lower case only; a height with positive "UP" is taken for a depth *)
Theorem C91_positive_case_refuted : ty [txt "units" "m"; txt "positive" "up"] = Ok Height /\ ty [txt "units" "m"; txt "positive" "UP"] = Ok Depth.
Proof. split; reflexivity. Qed.
(** Finding: a standard name or a unit with a byte above 127, as the degree sign, is undefined behaviour *)
Theorem C91_bytes_refuted : forall a x b, is_ascii a -> (128 <= N_of_ascii x)%N ->
  ty [txt "units" (st (a ++ x :: b))] = UB /\ ty [txt "standard_name" (st (a ++ x :: b)); txt "units" "m"; txt "axis" "Z"] = UB.
Proof.
  intros a x b A X. assert (L : lower (st (a ++ x :: b)) = UB).
  { unfold lower. replace (s_ (st (a ++ x :: b))) with (a ++ x :: b); [ now rewrite C60_non_ascii_refuted | ]. symmetry. apply list_ascii_of_string_of_list_ascii. }
  unfold ty, axis_type_of. split.
  - replace (att (one [txt "units" (st (a ++ x :: b))]) "z" "standard_name") with (@None string) by reflexivity. cbn [obind].
    replace (att (one [txt "units" (st (a ++ x :: b))]) "z" "units") with (Some (st (a ++ x :: b))) by reflexivity. now rewrite L.
  - match goal with |- context [att ?c "z" "standard_name"] => replace (att c "z" "standard_name") with (Some (st (a ++ x :: b))) by reflexivity end. now rewrite L.
Qed.
Example C91_nonvacuous : ty [txt "standard_name" "Grid_Longitude"; txt "units" "degrees"] = Ok GeoX /\ ty [txt "units" "Degrees_East"] = Ok Lon /\
  ty [txt "units" "hours since 2000-01-01"] = Ok Time /\ ty [txt "units" "mbar"; txt "positive" "down"] = Ok Pressure /\ ty [txt "units" "level"] = Ok GeoZ /\
  ty [txt "units" "1"; txt "positive" "down"] = Ok GeoZ /\ ty [txt "units" "m"; txt "axis" "Z"] = Ok Height /\ ty [txt "axis" "Y"] = Ok GeoY /\ ty [txt "units" "K"] = Ok Undefined.
Proof. repeat split. Qed.

(** * C92 *)

(** ** formula terms *)

Definition blanks (s : str) : Prop := Forall (fun x => is_space x = true) s.
Definition word (s : str) : Prop := s <> [] /\ Forall (fun x => is_space x = false /\ x <> ":"%char) s.
(** terms and names with a colon between them, with any blanks, one entry after the other *)
Inductive written : str -> list (str * str) -> Prop :=
| w_nil : forall s, blanks s -> written s []
| w_cons : forall b0 t b1 b2 v s l, blanks b0 -> word t -> blanks b1 -> blanks b2 -> word v ->
    (s = [] \/ exists x s', s = x :: s' /\ is_space x = true) -> written s l ->
    written (b0 ++ t ++ b1 ++ ":"%char :: b2 ++ v ++ s) ((t, v) :: l).

Lemma run_word w rest : Forall (fun x => is_space x = false) w -> (rest = [] \/ exists x s', rest = x :: s' /\ is_space x = true) -> run (w ++ rest) = (w, rest).
Proof.
  intros F R. induction F as [ | x w E F IH ]; cbn [app run].
  - destruct R as [->|(x & s' & -> & E)]; cbn [run]; [ reflexivity | now rewrite E ].
  - now rewrite E, IH.
Qed.
Lemma skip_blanks b rest : blanks b -> skip_space (b ++ rest) = skip_space rest.
Proof. intro F. induction F as [ | x b E F IH ]; [ reflexivity | ]. cbn [app skip_space]. now rewrite E. Qed.
Lemma skip_word v rest : word v -> skip_space (v ++ rest) = v ++ rest.
Proof. intros [N F]. destruct F as [ | x v [E _] F ]; [ congruence | ]. cbn [app skip_space]. now rewrite E. Qed.
Lemma word_nonblank v : word v -> Forall (fun x => is_space x = false) v.
Proof. intros [_ F]. eapply Forall_impl; [ | exact F ]. intros x [E _]. exact E. Qed.
Definition ended (s : str) : Prop := s = [] \/ exists x s', s = x :: s' /\ is_space x = true.
Lemma name_run b v s : blanks b -> word v -> ended s -> nonempty_run (b ++ v ++ s) = Some (v, s).
Proof.
  intros B W E. unfold nonempty_run. rewrite skip_blanks, skip_word by assumption. rewrite run_word; [ | now apply word_nonblank | exact E ]. destruct W as [N _]. destruct v; [ congruence | reflexivity ].
Qed.
Lemma split_none r : forall pre rest, Forall (fun x => x <> ":"%char) r -> split_colon pre r rest = None.
Proof.
  induction r as [ | x r IH ]; intros pre rest F; [ reflexivity | ]. inversion F as [ | ? ? X F' ]; subst. cbn [split_colon]. rewrite IH by exact F'. destruct (Ascii.eqb_spec x ":"); [ contradiction | reflexivity ].
Qed.
Lemma split_some t : forall pre r rest v s, Forall (fun x => x <> ":"%char) t -> pre ++ t <> [] -> Forall (fun x => x <> ":"%char) r -> nonempty_run (r ++ rest) = Some (v, s) ->
  split_colon pre (t ++ ":"%char :: r) rest = Some (pre ++ t, v, s).
Proof.
  induction t as [ | x t IH ]; intros pre r rest v s Ft N Fr R; cbn [app split_colon].
  - rewrite split_none by exact Fr. rewrite app_nil_r in *. cbn [Ascii.eqb Bool.eqb]. destruct pre; [ congruence | ]. now rewrite R.
  - inversion Ft as [ | ? ? X Ft' ]; subst. rewrite (IH (pre ++ [x]) r rest v s); auto; [ now rewrite <- app_assoc | ]. destruct pre; discriminate.
Qed.
Lemma word_plain v : word v -> Forall (fun x => x <> ":"%char) v.
Proof. intros [_ F]. eapply Forall_impl; [ | exact F ]. intros x [_ E]. exact E. Qed.
Lemma match_written t b1 b2 v s : word t -> blanks b1 -> blanks b2 -> word v -> ended s -> (forall x s', skip_space s = x :: s' -> x <> ":"%char) ->
  match_term (t ++ b1 ++ ":"%char :: b2 ++ v ++ s) = Some (t, v, s).
Proof.
  intros Wt B1 B2 Wv E NC. assert (Nt : t <> []) by apply Wt. unfold match_term. destruct b1 as [ | x b1 ].
  - cbn [app]. destruct b2 as [ | y b2 ].
    + cbn [app]. replace (t ++ ":"%char :: v ++ s) with ((t ++ ":"%char :: v) ++ s) by (rewrite <- app_assoc; reflexivity).
      rewrite run_word; [ | | exact E ].
      2:{ apply Forall_app. split; [ now apply word_nonblank | ]. constructor; [ reflexivity | now apply word_nonblank ]. }
      assert (K : split_colon [] (t ++ ":"%char :: v) s = Some (t, v, s)) by (apply (split_some t [] v s v s); [ now apply word_plain | exact Nt | now apply word_plain | apply (name_run [] v s); [ constructor | exact Wv | exact E ] ]).
      destruct (t ++ ":"%char :: v) eqn:Q; [ destruct t; discriminate | ]. rewrite <- Q in K |- *. rewrite Q in K at 1. rewrite <- Q in K. destruct (skip_space s) as [ | z s' ] eqn:Sk; [ exact K | ]. destruct (Ascii.eqb_spec z ":") as [->|_]; [ destruct (NC _ _ eq_refl eq_refl) | exact K ].
    + replace (t ++ ":"%char :: (y :: b2) ++ v ++ s) with ((t ++ [":"%char]) ++ (y :: b2) ++ v ++ s) by (rewrite <- app_assoc; reflexivity).
      rewrite run_word.
      2:{ apply Forall_app. split; [ now apply word_nonblank | ]. constructor; [ reflexivity | constructor ]. }
      2:{ right. exists y, (b2 ++ v ++ s). split; [ reflexivity | ]. now inversion B2. }
      rewrite skip_blanks, skip_word by assumption.
      assert (F0 : Forall (fun x => x <> ":"%char) []) by apply Forall_nil.
      assert (K : split_colon [] (t ++ [":"%char]) ((y :: b2) ++ v ++ s) = Some (t, v, s)) by exact (split_some t [] [] ((y :: b2) ++ v ++ s) v s (word_plain _ Wt) Nt F0 (name_run _ _ _ B2 Wv E)).
      destruct (t ++ [":"%char]) eqn:Q; [ destruct t; discriminate | ]. rewrite <- Q in K |- *. destruct v as [ | z v ]; [ destruct Wv; congruence | ]. cbn [app] in *.
      assert (Z : z <> ":"%char) by (destruct Wv as [_ Wv]; inversion Wv; tauto). destruct (Ascii.eqb_spec z ":"); [ contradiction | exact K ].
  - rewrite run_word; [ | now apply word_nonblank | right; exists x; eexists; split; [ reflexivity | now inversion B1 ] ].
    destruct t as [ | z t ]; [ congruence | ]. rewrite skip_blanks by exact B1. cbn [skip_space is_space]. change (is_space ":"%char) with false. cbv iota. cbn [Ascii.eqb Bool.eqb]. now rewrite name_run.
Qed.
Lemma match_blank x s : is_space x = true -> match_term (x :: s) = None.
Proof. intro E. unfold match_term. cbn [run]. now rewrite E. Qed.
Lemma search_blanks b s : blanks b -> search_term (b ++ s) = search_term s.
Proof. intro F. induction F as [ | x b E F IH ]; [ reflexivity | ]. cbn [app search_term]. now rewrite match_blank. Qed.
Lemma written_skip s l : written s l -> forall x s', skip_space s = x :: s' -> x <> ":"%char.
Proof.
  intros W. destruct W as [s B | b0 t b1 b2 v s l B0 Wt B1 B2 Wv E W]; intros x s' H.
  - replace s with (s ++ []) in H by apply app_nil_r. rewrite skip_blanks in H by exact B. discriminate.
  - rewrite skip_blanks, skip_word in H by assumption. destruct Wt as [N F]. destruct F as [ | y t [_ Y] F ]; [ congruence | ]. injection H as <- _. exact Y.
Qed.
Lemma terms_written s l : written s l -> forall f, length s <= f -> terms_loop f s = Ok (map (fun p => (st (fst p), st (snd p))) l).
Proof.
  intro W. induction W as [s B | b0 t b1 b2 v s l B0 Wt B1 B2 Wv E W IH]; intros f L.
  - assert (N : search_term s = None). { replace s with (s ++ []) by apply app_nil_r. now rewrite search_blanks. }
    destruct f; cbn [terms_loop]; now rewrite N.
  - assert (M : search_term (b0 ++ t ++ b1 ++ ":"%char :: b2 ++ v ++ s) = Some (t, v, s)).
    { rewrite search_blanks by exact B0. assert (K := match_written t b1 b2 v s Wt B1 B2 Wv E (written_skip _ _ W)).
      destruct (t ++ b1 ++ ":"%char :: b2 ++ v ++ s) eqn:Q; [ destruct t; [ destruct Wt; congruence | discriminate ] | ]. cbn [search_term]. now rewrite K. }
    rewrite !app_length in L. cbn [length] in L. rewrite !app_length in L. destruct f as [ | f ]; [ lia | ]. cbn [terms_loop]. rewrite M. rewrite IH by lia. reflexivity.
Qed.

(** terms and names are read as they are written *)
Theorem C92_formula_terms : forall text l, written (s_ text) l -> formula_terms text = Ok (map (fun p => (st (fst p), st (snd p))) l).
Proof. intros text l W. unfold formula_terms. now apply terms_written. Qed.

(** ** the transformation *)

Lemma begins_spec m : forall s, begins m s = true <-> exists r, s = m ++ r.
Proof.
  induction m as [ | a m IH ]; intro s; cbn [begins].
  - split; [ intros _; exists s; reflexivity | reflexivity ].
  - destruct s as [ | b s ]; [ split; [ discriminate | intros [r E]; discriminate ] | ]. rewrite andb_true_iff, IH. split.
    + intros [E [r ->]]. apply Ascii.eqb_eq in E. subst. exists r. reflexivity.
    + intros [r E]. injection E as <- ->. rewrite Ascii.eqb_refl. eauto.
Qed.
Lemma find_sub_spec m s : forall i, (exists j, find_sub m s i = Some j) <-> exists a b, s = a ++ m ++ b.
Proof.
  induction s as [ | x s IH ]; intro i; cbn [find_sub].
  - destruct (begins m []) eqn:B; split.
    + intros _. apply begins_spec in B. destruct B as [r E]. exists [], r. exact E.
    + eauto.
    + intros [j E]. discriminate.
    + intros (a & b & E). destruct a; [ | discriminate ]. assert (begins m [] = true) by (apply begins_spec; exists b; exact E). congruence.
  - destruct (begins m (x :: s)) eqn:B; split.
    + intros _. apply begins_spec in B. destruct B as [r E]. exists [], r. exact E.
    + eauto.
    + intro H. apply IH in H. destruct H as (a & b & ->). exists (x :: a), b. reflexivity.
    + intros (a & b & E). apply IH. destruct a as [ | y a ]; [ assert (begins m (x :: s) = true) by (apply begins_spec; exists b; exact E); congruence | ]. injection E as _ ->. eauto.
Qed.

Section Vert.
Variable c : cdm.
Variable cs : csys.
Variable z : axis.
Hypothesis Z : geo_z cs = Some z.
Hypothesis ZV : has_var c (ax_name z) = true.
Local Notation att := (att c (ax_name z)).

Lemma z_type : In (ax_type z) [GeoZ; Height; Depth; Pressure].
Proof.
  assert (K : forall t a, find_axis cs t = Some a -> ax_type a = t).
  { intros t a. unfold find_axis, find_type. destruct (find _ (cs_main cs)) as [x|] eqn:E; intro H; [ injection H as <-; apply find_some in E | apply find_some in H ]; [ destruct E as [_ E]; apply type_eqb_eq in E; auto | destruct H as [_ H]; apply type_eqb_eq in H; auto ]. }
  unfold geo_z in Z. cbn [find_axis_any] in Z.
  destruct (find_axis cs GeoZ) eqn:E1; [ apply K in E1; injection Z as <-; left; auto | ].
  destruct (find_axis cs Height) eqn:E2; [ apply K in E2; injection Z as <-; right; left; auto | ].
  destruct (find_axis cs Depth) eqn:E3; [ apply K in E3; injection Z as <-; do 2 right; left; auto | ].
  destruct (find_axis cs Pressure) eqn:E4; [ apply K in E4; injection Z as <-; do 3 right; left; auto | discriminate ].
Qed.

(** axes of pressure, depth, height; the latter is an altitude if its name, or its computed standard
    name or else its standard name, says so *)
Definition says_altitude (n : string) : Prop :=
  (exists a b, s_ n = a ++ s_ "altitude" ++ b) \/
  In n ["height_above_msl"; "height_above_mean_sea_level"; "height_above_geopotential_datum"; "height_above_reference_ellipsoid"].
Lemma altitude_name n : is_altitude_name n = true <-> says_altitude n.
Proof.
  unfold is_altitude_name, says_altitude, holds. rewrite orb_true_iff, one_of_In, <- (find_sub_spec (s_ "altitude") (s_ n) 0).
  destruct (find_sub _ _ 0) as [j|]; split; intros [H|H]; auto; try discriminate; [ left; eauto | destruct H; discriminate ].
Qed.
Theorem C92_pressure : ax_type z = Pressure -> vertical c cs = Ok (Some (VPressure (ax_name z)), []).
Proof. intro T. unfold vertical. now rewrite Z, ZV, T. Qed.
Theorem C92_depth : ax_type z = Depth -> vertical c cs = Ok (Some (VDepth (ax_name z)), []).
Proof. intro T. unfold vertical. now rewrite Z, ZV, T. Qed.
Theorem C92_height : ax_type z = Height -> exists b, vertical c cs = Ok (Some (VHeight (ax_name z) b), []) /\
  (b = true <-> says_altitude (ax_name z) \/ (exists s, att "computed_standard_name" = Some s /\ says_altitude s) \/
                (att "computed_standard_name" = None /\ exists s, att "standard_name" = Some s /\ says_altitude s)).
Proof.
  intro T. exists (is_altitude c (ax_name z)). split; [ unfold vertical; now rewrite Z, ZV, T | ].
  unfold is_altitude. rewrite orb_true_iff, altitude_name. destruct (att "computed_standard_name") as [s|].
  - rewrite altitude_name. split; [ intros [H|H]; eauto | intros [H|[(t & E & H)|(D & _)]]; [ auto | injection E as <-; auto | discriminate ] ].
  - destruct (att "standard_name") as [s|].
    + rewrite altitude_name. split; [ intros [H|H]; eauto 6 | intros [H|[(t & E & H)|(_ & t & E & H)]]; [ auto | discriminate | injection E as <-; auto ] ].
    + split; [ intros [H|H]; [ auto | discriminate ] | intros [H|[(t & E & H)|(_ & t & E & H)]]; [ auto | discriminate | discriminate ] ].
Qed.

(** the transformations by standard name, with the terms whose variables must fit the system *)
Inductive kind (f : string -> string) : string -> list string -> vert -> Prop :=
| k_hybrid1 : f "ap" <> "" -> kind f "atmosphere_hybrid_sigma_pressure_coordinate" ["p"; "ps"; "p0"; "ap"] (VHybrid1 (f "ap") (f "b") (f "ps") (f "p0"))
| k_hybrid2 : f "ap" = "" -> kind f "atmosphere_hybrid_sigma_pressure_coordinate" ["p"; "ps"; "p0"; "a"] (VHybrid2 (f "a") (f "b") (f "ps") (f "p0"))
| k_ln : kind f "atmosphere_ln_pressure_coordinate" ["lev"; "p0"] (VLnPressure (f "lev") (f "p0"))
| k_sigma : kind f "atmosphere_sigma_coordinate" ["sigma"; "ptop"; "ps"] (VSigma (f "sigma") (f "ptop") (f "ps"))
| k_ocean1 : kind f "ocean_s_coordinate_g1" ["s"; "C"; "depth"; "depth_c"; "eta"] (VOcean1 (f "s") (f "C") (f "depth") (f "depth_c") (f "eta"))
| k_ocean2 : kind f "ocean_s_coordinate_g2" ["s"; "C"; "depth"; "depth_c"; "eta"] (VOcean2 (f "s") (f "C") (f "depth") (f "depth_c") (f "eta"))
| k_height : kind f "atmosphere_hybrid_height_coordinate" ["a"; "b"; "orog"] (VHybridHeight (f "a") (f "b") (f "orog")).
Definition kinds : list string := ["atmosphere_hybrid_sigma_pressure_coordinate"; "atmosphere_ln_pressure_coordinate"; "atmosphere_sigma_coordinate";
  "ocean_s_coordinate_g1"; "ocean_s_coordinate_g2"; "atmosphere_hybrid_height_coordinate"].

(** the dimensions of a variable with more than one position are axes of the system *)
Definition fits (n : string) : Prop := n = "" \/ exists v, find_var n (vars c) = Some v /\
  forall k d, is_axis c v k -> find_dim k (dims c) = Some d -> d_len d = 1%N \/ exists a, In a (get_axes cs) /\ ax_name a = k.
Lemma for_term_spec n b : for_term c cs n = Ok b -> (b = true <-> fits n).
Proof.
  unfold for_term, fits, isempty. destruct (String.eqb_spec n "") as [->|N].
  - intro H. injection H as <-. split; auto.
  - destruct (find_var n (vars c)) as [v|]; [ | discriminate ]. destruct (var_axes_spec c v) as (ns & E & _ & M). rewrite E. cbn [obind]. intro H. injection H as <-.
    rewrite forallb_forall. split.
    + intro H. right. exists v. split; [ reflexivity | ]. intros k d A D. apply M, H in A. rewrite D in A. apply orb_true_iff in A. destruct A as [A|A]; [ left; now apply N.eqb_eq | right ]. now apply get_axes_names, smem_In.
    + intros [F|(w & F & H)] k A; [ contradiction | ]. injection F as <-. apply M in A. destruct (find_dim k (dims c)) as [d|] eqn:D; [ | reflexivity ].
      apply orb_true_iff. destruct (H k d A D) as [X|X]; [ left; now apply N.eqb_eq | right; apply smem_In; now apply get_axes_names ].
Qed.
Lemma for_terms_spec l : forall b, for_terms c cs l = Ok b -> (b = true <-> forall n, In n l -> fits n).
Proof.
  induction l as [ | n l IH ]; intros b H; cbn [for_terms] in H.
  - injection H as <-. split; [ intros _ n [] | auto ].
  - destruct (for_term c cs n) as [x| | |] eqn:E; try discriminate. cbn [obind] in H. apply for_term_spec in E. destruct x.
    + rewrite (IH b H). split; [ intros K m [<-|I]; [ now apply E | now apply K ] | intros K m I; apply K; now right ].
    + injection H as <-. split; [ discriminate | ]. intro K. apply E. apply K. now left.
Qed.

(** [f] gives the variables of the terms, as far as they exist *)
Definition terms_are (l : list (str * str)) (f : string -> string) : Prop :=
  (forall t v, In (t, v) l -> has_var c (st v) = true -> f (st t) = st v) /\
  (forall n, (forall t v, In (t, v) l -> st t = n -> has_var c (st v) = false) -> f n = "").
Definition entries (l : list (str * str)) := map (fun p => (st (fst p), st (snd p))) l.
Lemma put_last k : forall m n, sfind n (put_terms k m) = match find (fun p => String.eqb n (fst p)) (rev k) with Some p => Some (snd p) | None => sfind n m end.
Proof.
  induction k as [ | p k IH ]; intros m n; [ reflexivity | ]. unfold put_terms. cbn [fold_left]. fold (put_terms k (sput (fst p) (snd p) m)). rewrite IH, sfind_sput. cbn [rev].
  assert (FA : forall A (g : A -> bool) l1 l2, find g (l1 ++ l2) = match find g l1 with Some x => Some x | None => find g l2 end).
  { intros A g l1 l2. induction l1 as [ | y l1 IHl ]; [ reflexivity | ]. cbn [app find]. destruct (g y); auto. }
  rewrite FA. destruct (find _ (rev k)); [ reflexivity | ]. cbn [find]. now destruct (String.eqb n (fst p)).
Qed.
Lemma terms_lookup l f : terms_are l f -> forall n, term (put_terms (known_terms c (entries l)) []) n = f n.
Proof.
  intros [A B] n. unfold term. destruct (sfind n _) as [v|] eqn:E.
  - apply put_terms_find in E. destruct E as [E|E]; [ | discriminate ]. apply filter_In in E. destruct E as [I V]. unfold entries in I. apply in_map_iff in I. destruct I as ([t w] & Q & I). injection Q as <- <-. symmetry. now apply A.
  - symmetry. apply B. intros t v I Q. destruct (has_var c (st v)) eqn:V; [ | reflexivity ]. exfalso. rewrite put_last in E.
    destruct (find _ _) as [p|] eqn:F; [ discriminate | ]. apply (find_none _ _) with (x := (st t, st v)) in F.
    + cbn [fst] in F. rewrite Q, String.eqb_refl in F. discriminate.
    + rewrite <- in_rev. apply filter_In. split; [ | exact V ]. unfold entries. apply in_map_iff. exists (t, v). auto.
Qed.

Lemma formula_step : ax_type z = GeoZ -> vertical c cs =
  (do l <- match att "formula_terms" with None => Ok [] | Some f => formula_terms f end;
   do v <- match att "standard_name" with None => Ok None | Some s => by_formula c cs s (put_terms (known_terms c l) []) end;
   Ok (v, map snd (known_terms c l))).
Proof. intro T. unfold vertical. now rewrite Z, ZV, T. Qed.

(** an axis with one of the standard names gives a transformation with the variables of its terms, if
    these fit the system, otherwise none *)
Lemma by_kind s m f ts vt r : (forall n, term m n = f n) -> kind f s ts vt -> by_formula c cs s m = Ok r ->
  ((forall t, In t ts -> fits (f t)) -> r = Some vt) /\ (~ (forall t, In t ts -> fits (f t)) -> r = None).
Proof.
  intros M K H.
  assert (W : forall l, (do b <- for_terms c cs l; Ok (if b then Some vt else None)) = Ok r -> l = map f ts -> ((forall t, In t ts -> fits (f t)) -> r = Some vt) /\ (~ (forall t, In t ts -> fits (f t)) -> r = None)).
  { intros l E ->. destruct (for_terms c cs (map f ts)) as [b| | |] eqn:F; try discriminate. injection E as <-. apply for_terms_spec in F.
    assert (G : (forall n, In n (map f ts) -> fits n) <-> forall t, In t ts -> fits (f t)).
    { split; [ intros X t I; apply X; now apply in_map | intros X n I; apply in_map_iff in I; destruct I as (t & <- & I); auto ]. }
    rewrite G in F. destruct b; split; intro Y; auto; [ destruct Y; now apply F | destruct F as [_ F]; now apply F in Y ]. }
  destruct K as [N|N| | | | | ]; cbn [by_formula] in H; unfold by_formula in H; cbv zeta in H; rewrite !M in H; unfold isempty in H; cbn [String.eqb Ascii.eqb Bool.eqb] in H;
    try (apply (W _ H); reflexivity).
  - destruct (String.eqb_spec (f "ap") ""); [ contradiction | ]. apply (W _ H). reflexivity.
  - rewrite N in H. cbn [String.eqb] in H. apply (W _ H). reflexivity.
Qed.
Theorem C92_formula : forall text l f s ts vt, ax_type z = GeoZ -> att "formula_terms" = Some text -> written (s_ text) l -> terms_are l f ->
  att "standard_name" = Some s -> kind f s ts vt ->
  exists r deps, vertical c cs = Ok (r, deps) /\ ((forall t, In t ts -> fits (f t)) -> r = Some vt) /\ (~ (forall t, In t ts -> fits (f t)) -> r = None) /\
    forall v, In v deps <-> exists t w, In (t, w) l /\ v = st w /\ has_var c v = true.
Proof.
  intros text l f s ts vt T F W TA S K. destruct (vertical_total c cs) as [[r deps] V]. exists r, deps. split; [ exact V | ]. rewrite formula_step in V by exact T.
  rewrite F, S, (C92_formula_terms _ _ W) in V. cbn [obind] in V. fold (entries l) in V.
  destruct (by_formula c cs s _) as [x| | |] eqn:B; try discriminate. cbn [obind] in V. injection V as <- <-.
  destruct (by_kind s _ f ts vt x (terms_lookup l f TA) K B) as [B1 B2]. split; [ exact B1 | ]. split; [ exact B2 | ].
  intro v. rewrite in_map_iff. split.
  - intros (p & <- & I). apply filter_In in I. destruct I as [I V]. unfold entries in I. apply in_map_iff in I. destruct I as ([t w] & <- & I). exists t, w. auto.
  - intros (t & w & I & -> & V). exists (st t, st w). split; [ reflexivity | ]. apply filter_In. split; [ | exact V ]. unfold entries. apply in_map_iff. exists (t, w). auto.
Qed.
(** any other standard name, or none, gives no transformation *)
Theorem C92_unknown : ax_type z = GeoZ -> (forall s, att "standard_name" = Some s -> ~ In s kinds) -> exists deps, vertical c cs = Ok (None, deps).
Proof.
  intros T N. destruct (vertical_total c cs) as [[r deps] V]. exists deps. rewrite V. f_equal. f_equal. rewrite formula_step in V by exact T.
  destruct (match att "formula_terms" with None => _ | Some f => _ end) as [l| | |]; try discriminate. cbn [obind] in V.
  destruct (att "standard_name") as [s|]; [ | injection V as <- _; reflexivity ]. specialize (N s eq_refl). unfold kinds in N. cbn [In] in N. unfold by_formula in V. cbv zeta in V.
  repeat match type of V with context [String.eqb s ?n] => destruct (String.eqb_spec s n) as [E|E]; [ exfalso; apply N; subst s; tauto | clear E ] end.
  cbn [obind] in V. congruence.
Qed.
End Vert.
(** no vertical axis, or one without variable *)
Theorem C92_none : forall c cs, (forall z, geo_z cs = Some z -> has_var c (ax_name z) = false) -> vertical c cs = Ok (None, []).
Proof. intros c cs H. unfold vertical. destruct (geo_z cs) as [z|]; [ | reflexivity ]. now rewrite (H z eq_refl). Qed.
(** it is what the listed systems have *)
Theorem C92_listed : forall c is_time conv P make l y, list_systems c is_time conv P make = Ok l -> In y l ->
  exists deps, vertical c (y_cs y) = Ok (y_vert y, deps) /\ incl deps (y_deps y).
Proof.
  intros c is_time conv P make l y H I. unfold list_systems in H. destruct (systems c is_time conv) as [m| | |]; try discriminate. cbn [obind] in H. apply omapM_Forall2 in H.
  induction H as [ | p w m l E F IH ]; [ destruct I | ]. destruct I as [->|I]; [ | auto ]. clear IH F. unfold finish in E.
  destruct (flagged c (covered _)) as [a| | |]; try discriminate. destruct (flagged c (covers _)) as [b| | |]; try discriminate. cbn [obind] in E.
  destruct (proj_loop _ _ _ _ _ _ _) as [q| | |]; try discriminate. destruct (vertical c (snd p)) as [v| | |] eqn:V; try discriminate. cbn [obind] in E. injection E as <-. cbn.
  exists (snd v). split; [ rewrite V; now destruct v | ]. intros x J. apply in_or_app; right. apply in_or_app; now left.
Qed.

(** ** findings and a concrete case *)
Definition fv (n : string) (shape : list string) : cvar := mkVar n DFloat shape "" None.
Definition hybrid (sn : string) (bdim : string) : cdm := mkCdm
  [fv "t" ["lev"; "x"]; fv "lev" ["lev"]; fv "a" ["lev"]; fv "bb" [bdim]; fv "ps" ["x"]; fv "p0" []]
  [mkDim "lev" 3 false; mkDim "x" 4 false; mkDim "other" 7 false]
  [("lev", [txt "standard_name" sn; txt "units" "1"; txt "positive" "down"; txt "formula_terms" "a: a b: bb ps:ps p0 : p0"])].
Definition verts (c : cdm) := match list_systems c ex_time ex_conv _ (fun l => Ok (length l)) with Ok l => Some (map (fun y => (y_vert y, y_deps y)) l) | _ => None end.
(** Finding: the term b of hybrid levels may be on a dimension that is not of the system *)
Theorem C92_unchecked_b_refuted : let c := hybrid "atmosphere_hybrid_sigma_pressure_coordinate" "other" in
  (exists l, verts c = Some l /\ In (Some (VHybrid2 "a" "bb" "ps" "p0"), ["a"; "bb"; "ps"; "p0"]) l) /\
  (forall cs, (forall a, In a (get_axes cs) -> ax_name a <> "other") -> ~ fits c cs "bb") /\
  (exists l, list_systems c ex_time ex_conv _ (fun l => Ok (length l)) = Ok l /\
     Forall (fun y => y_vert y <> None -> forall a, In a (get_axes (y_cs y)) -> ax_name a <> "other") l).
Proof.
  cbv zeta. split; [ | split ].
  - eexists. split; [ vm_compute; reflexivity | ]. right. left. reflexivity.
  - intros cs H [F|(v & F & K)]; [ discriminate | ]. assert (V : v = fv "bb" ["other"]) by (vm_compute in F; injection F as <-; reflexivity). subst v.
    assert (A : is_axis (hybrid "atmosphere_hybrid_sigma_pressure_coordinate" "other") (fv "bb" ["other"]) "other").
    { destruct (var_axes_spec (hybrid "atmosphere_hybrid_sigma_pressure_coordinate" "other") (fv "bb" ["other"])) as (ns & E & _ & M). apply M. vm_compute in E. injection E as <-. now left. }
    destruct (K "other" (mkDim "other" 7 false) A eq_refl) as [X|(a & I & N)]; [ discriminate X | exact (H a I N) ].
  - eexists. split; [ vm_compute; reflexivity | ].
    repeat constructor; intros D a I; try (elim D; reflexivity);
      vm_compute in I; repeat (destruct I as [<-|I]; [ discriminate | ]); destruct I.
Qed.
(** Finding: the standard name is compared with its case, although the axis was found without it *)
Theorem C92_case_refuted :
  ty [txt "standard_name" "Atmosphere_Sigma_Coordinate"] = Ok GeoZ /\
  verts (hybrid "Atmosphere_Hybrid_Sigma_Pressure_Coordinate" "lev") = Some [(None, ["a"; "bb"; "ps"; "p0"]); (None, ["a"; "bb"; "ps"; "p0"]); (None, [])].
Proof. split; [ vm_compute; reflexivity | vm_compute; reflexivity ]. Qed.
Example C92_nonvacuous :
  (exists l, written (s_ "a: a b: bb ps:ps p0 : p0") l /\ map (fun p => (st (fst p), st (snd p))) l = [("a", "a"); ("b", "bb"); ("ps", "ps"); ("p0", "p0")]) /\
  verts (hybrid "atmosphere_hybrid_sigma_pressure_coordinate" "lev") = Some [(None, ["a"; "bb"; "ps"; "p0"]); (Some (VHybrid2 "a" "bb" "ps" "p0"), ["a"; "bb"; "ps"; "p0"]); (None, [])] /\
  says_altitude "my_altitude_x" /\ ~ says_altitude "alt".
Proof.
  split; [ | split; [ vm_compute; reflexivity | split ] ].
  - exists [(s_ "a", s_ "a"); (s_ "b", s_ "bb"); (s_ "ps", s_ "ps"); (s_ "p0", s_ "p0")]. split; [ | vm_compute; reflexivity ].
    assert (WD : forall w, match w with [] => false | _ => forallb (fun x => negb (is_space x) && negb (Ascii.eqb x ":")) w end = true -> word w).
    { intros w H. destruct w as [ | x w ]; [ discriminate | ]. split; [ discriminate | ]. apply Forall_forall. intros y I. rewrite forallb_forall in H. specialize (H y I). apply andb_true_iff in H. destruct H as [A B].
      split; [ now apply negb_true_iff in A | intros ->; discriminate B ]. }
    change (s_ "a: a b: bb ps:ps p0 : p0") with ([] ++ s_ "a" ++ [] ++ ":"%char :: s_ " " ++ s_ "a" ++ (s_ " " ++ s_ "b" ++ [] ++ ":"%char :: s_ " " ++ s_ "bb" ++ (s_ " " ++ s_ "ps" ++ [] ++ ":"%char :: [] ++ s_ "ps" ++ (s_ " " ++ s_ "p0" ++ s_ " " ++ ":"%char :: s_ " " ++ s_ "p0" ++ [])))).
    repeat first [ apply w_cons; [ repeat constructor | apply WD; vm_compute; reflexivity | repeat constructor | repeat constructor | apply WD; vm_compute; reflexivity | | ] | apply w_nil; constructor | left; reflexivity | right; do 2 eexists; split; [ reflexivity | vm_compute; reflexivity ] ].
  - left. exists (s_ "my_"), (s_ "_x"). reflexivity.
  - rewrite <- altitude_name. vm_compute. discriminate.
Qed.

Print Assumptions C91_standard_name.
Print Assumptions C91_units.
Print Assumptions C91_positive.
Print Assumptions C91_axis.
Print Assumptions C91_undefined.
Print Assumptions C91_ascii.
Print Assumptions C91_positive_case_refuted.
Print Assumptions C91_bytes_refuted.
Print Assumptions C92_formula_terms.
Print Assumptions C92_pressure.
Print Assumptions C92_depth.
Print Assumptions C92_height.
Print Assumptions C92_formula.
Print Assumptions C92_unknown.
Print Assumptions C92_none.
Print Assumptions C92_listed.
Print Assumptions C92_unchecked_b_refuted.
Print Assumptions C92_case_refuted.
