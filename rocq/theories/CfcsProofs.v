(** Lemmas on the coordinate systems of CF files. *)
From Coq Require Import NArith Ascii String List Bool Lia Sorting.Sorted.
From Verif Require Import Base StdMap StringModel StringProps SpecModel FilesModel AxesModel ConvertModel CdmModel NmlModel NmlProofs CfcsModel.
Import ListNotations.
Local Open Scope string_scope.
Local Open Scope list_scope.
Local Open Scope nat_scope.

(** ** sets *)

Lemma one_of_In s l : one_of s l = true <-> In s l.
Proof.
  unfold one_of. rewrite existsb_exists. split.
  - intros (x & I & E). apply String.eqb_eq in E. now subst.
  - intro I. exists s. split; [ exact I | apply String.eqb_refl ].
Qed.
Lemma smem_In {A} n (m : smap A) : smem n m = true <-> In n (skeys m).
Proof.
  rewrite sfind_In. unfold smem. destruct (sfind n m); split; try discriminate; eauto. intros [v E]; discriminate.
Qed.
Lemma smem_nIn {A} n (m : smap A) : smem n m = false <-> ~ In n (skeys m).
Proof. rewrite <- smem_In. destruct (smem n m); split; congruence. Qed.
Lemma In_sadds l : forall m n, In n (skeys (sadds l m)) <-> In n l \/ In n (skeys m).
Proof.
  unfold sadds. induction l as [ | x l IH ]; intros m n; cbn [fold_left].
  - cbn. tauto.
  - rewrite IH. unfold sadd at 1. rewrite In_sput. cbn [In]. intuition.
Qed.
Lemma sadds_sorted l : forall m, ssorted m -> ssorted (sadds l m).
Proof.
  unfold sadds. induction l as [ | x l IH ]; intros m H; cbn [fold_left]; [ exact H | ]. apply IH. now apply sput_sorted.
Qed.
Lemma nil_sorted {A} : ssorted ([] : smap A).
Proof. constructor. Qed.

(** sorted lists with the same members are equal *)
Lemma sorted_ext : forall l1 l2, StronglySorted slt l1 -> StronglySorted slt l2 -> (forall n, In n l1 <-> In n l2) -> l1 = l2.
Proof.
  induction l1 as [ | a l1 IH ]; intros [ | b l2 ] S1 S2 E.
  - reflexivity.
  - exfalso. apply (proj2 (E b)). now left.
  - exfalso. apply (proj1 (E a)). now left.
  - apply StronglySorted_inv in S1, S2. destruct S1 as [S1 F1], S2 as [S2 F2]. rewrite Forall_forall in F1, F2.
    assert (a = b).
    { destruct (proj1 (E a) (or_introl eq_refl)) as [H|H]; [ congruence | ].
      destruct (proj2 (E b) (or_introl eq_refl)) as [K|K]; [ congruence | ].
      destruct (slt_irrefl a). eapply slt_trans; [ apply F1, K | apply F2, H ]. }
    subst b. f_equal. apply IH; [ assumption .. | ]. intro n. specialize (E n). cbn [In] in E. split; intro I.
    + destruct (proj1 E (or_intror I)) as [<-|J]; [ | exact J ]. destruct (slt_irrefl a). now apply F1.
    + destruct (proj2 E (or_intror I)) as [<-|J]; [ | exact J ]. destruct (slt_irrefl a). now apply F2.
Qed.
Lemma ss_app (l1 l2 : list string) : StronglySorted slt (l1 ++ l2) -> StronglySorted slt l1 /\ StronglySorted slt l2 /\ forall a b, In a l1 -> In b l2 -> slt a b.
Proof.
  induction l1 as [ | x l1 IH ]; cbn [app]; intro H.
  - repeat split; [ constructor | exact H | intros a b [] ].
  - apply StronglySorted_inv in H. destruct H as [H F]. destruct (IH H) as (A & B & C). rewrite Forall_forall in F. repeat split.
    + constructor; [ exact A | ]. apply Forall_forall. intros y I. apply F. apply in_or_app. now left.
    + exact B.
    + intros a b [<-|I] J; [ apply F; apply in_or_app; now right | now apply C ].
Qed.

(** ** the axes of a variable *)

Lemma toks_total s d : exists l, toks s d = Ok l.
Proof. unfold toks. destruct (C18_tokenize_total (s_ s) (s_ d)) as (ts & E & _). rewrite E. cbn. eauto. Qed.

Section Cf.
Variable c : cdm.

(** a name in the attribute "coordinates" of a variable, an axis of a variable *)
Definition is_coord (v n : string) : Prop :=
  exists t l, att c v "coordinates" = Some t /\ toks t " " = Ok l /\ In n l.
Definition is_axis (v : cvar) (n : string) : Prop := In n (v_shape v) \/ is_coord (v_name v) n.
(** the attribute has no line end *)
Definition on_one_line (v : string) : Prop := forall t, att c v "coordinates" = Some t -> one_line t = true.

Lemma var_coords_spec v : exists co, var_coords c v = Ok co /\ ssorted co /\ forall n, In n (skeys co) <-> is_coord (v_name v) n.
Proof.
  unfold var_coords, is_coord. destruct (att c (v_name v) "coordinates") as [t|] eqn:E.
  - destruct (toks_total t " ") as [l K]. rewrite K. cbn [obind]. exists (sadds l []). split; [ reflexivity | ].
    split; [ apply sadds_sorted, nil_sorted | ]. intro n. rewrite In_sadds. cbn [skeys map In]. split.
    + intros [I|[]]. exists t, l. auto.
    + intros (t' & l' & A & B & I). injection A as ->. rewrite K in B. injection B as ->. now left.
  - exists []. split; [ reflexivity | ]. split; [ apply nil_sorted | ]. intro n. split; [ intros [] | ]. intros (t & l & A & _). discriminate.
Qed.
Lemma var_axes_spec v : exists ns, var_axes c v = Ok ns /\ ssorted ns /\ forall n, In n (skeys ns) <-> is_axis v n.
Proof.
  destruct (var_coords_spec v) as (co & E & S & I). unfold var_axes. rewrite E. cbn [obind].
  eexists. split; [ reflexivity | ]. split; [ do 2 apply sadds_sorted; apply nil_sorted | ]. intro n.
  rewrite In_sadds, In_sadds, I. unfold is_axis. cbn [skeys map In]. tauto.
Qed.

(** ** the axes of the file *)

Definition known (n : string) : Prop :=
  has_dim c n = true \/ exists v t, In v (vars c) /\ att c (v_name v) "coordinates" = Some t /\ one_line t = true /\ is_coord (v_name v) n.

Lemma has_dim_In n : has_dim c n = true <-> In n (map d_name (dims c)).
Proof.
  unfold has_dim, find_dim, is_some. rewrite in_map_iff. split.
  - destruct (find _ _) as [d|] eqn:E; [ | discriminate ]. intros _. apply find_some in E. destruct E as [I E]. apply String.eqb_eq in E. eauto.
  - intros (d & <- & I). destruct (find _ _) as [d'|] eqn:E; [ reflexivity | ]. apply (find_none _ _ E) in I. now rewrite String.eqb_refl in I.
Qed.
Lemma find_coord_vars n : In n (find_variables c [("coordinates", one_line)] []) <->
  exists v t, In v (vars c) /\ v_name v = n /\ att c n "coordinates" = Some t /\ one_line t = true.
Proof.
  unfold find_variables. rewrite in_map_iff. unfold att. split.
  - intros (v & <- & I). apply filter_In in I. destruct I as [I H]. cbn [forallb fst snd] in H.
    destruct (get_attr c (v_name v) "coordinates") as [a|]; [ | discriminate ]. exists v, (CdmModel.a_text a).
    rewrite !andb_true_r in H. auto.
  - intros (v & t & I & <- & E & O). exists v. split; [ reflexivity | ]. apply filter_In. split; [ exact I | ].
    cbn [forallb fst snd]. destruct (get_attr c (v_name v) "coordinates") as [a|]; [ | discriminate ]. injection E as ->. now rewrite O.
Qed.
Lemma axis_names_spec : exists ns, axis_names c = Ok ns /\ ssorted ns /\ forall n, In n (skeys ns) <-> known n.
Proof.
  unfold axis_names. set (f := fun (m : sset) (n : string) => _). set (l := find_variables _ _ _).
  assert (H : forall l m, (forall n, In n l -> exists t, att c n "coordinates" = Some t) -> ssorted m ->
    exists ns, ofold f l m = Ok ns /\ ssorted ns /\ forall n, In n (skeys ns) <-> In n (skeys m) \/ exists v, In v l /\ is_coord v n).
  { clear l. induction l as [ | x l IH ]; intros m A S.
    - exists m. split; [ reflexivity | ]. split; [ exact S | ]. intro n. split; [ auto | ]. intros [I|(v & [] & _)]. exact I.
    - cbn [ofold]. destruct (A x (or_introl eq_refl)) as [t E]. destruct (toks_total t " ") as [k K].
      assert (F : f m x = Ok (sadds k m)) by (unfold f; rewrite E, K; reflexivity). rewrite F. cbn [obind].
      destruct (IH (sadds k m)) as (ns & R & S' & M); [ intros n I; apply A; now right | now apply sadds_sorted | ].
      exists ns. split; [ exact R | ]. split; [ exact S' | ]. intro n. rewrite M, In_sadds. split.
      + intros [[I|I]|(v & I & J)]; [ right; exists x; split; [ now left | exists t, k; auto ] | now left | right; exists v; split; [ now right | exact J ] ].
      + intros [I|(v & [<-|I] & J)]; [ tauto | | right; eauto ]. destruct J as (t' & k' & E' & K' & J). rewrite E in E'. injection E' as <-. rewrite K in K'. injection K' as <-. tauto. }
  destruct (H l (sadds (map d_name (dims c)) [])) as (ns & R & S & M).
  - intros n I. apply find_coord_vars in I. destruct I as (v & t & _ & _ & E & _). eauto.
  - apply sadds_sorted, nil_sorted.
  - exists ns. split; [ exact R | ]. split; [ exact S | ]. intro n. rewrite M, In_sadds. unfold known. rewrite has_dim_In. cbn [skeys map In]. split.
    + intros [[I|[]]|(v & I & J)]; [ now left | ]. right. apply find_coord_vars in I. destruct I as (w & t & I & <- & E & O). exists w, t. auto.
    + intros [I|(v & t & I & E & O & J)]; [ tauto | ]. right. exists (v_name v). split; [ | exact J ]. apply find_coord_vars. exists v, t. auto.
Qed.

Variable is_time : string -> bool.
Variable convertible : string -> string -> bool.
Local Notation axis_type_of := (axis_type_of c is_time convertible).
Local Notation axes := (axes c is_time convertible).

(** the axes [ax] are those of the file *)
Definition axes_ok (ax : smap axis) : Prop :=
  ssorted ax /\ forall n a, sfind n ax = Some a <-> known n /\ ax_name a = n /\ a_id a = 0%N /\ axis_type_of n = Ok (ax_type a).

Lemma axes_spec ax : axes = Ok ax -> axes_ok ax.
Proof.
  unfold CfcsModel.axes. destruct axis_names_spec as (ns & E & S & M). rewrite E. cbn [obind]. intro H.
  assert (G : forall l m r, ofold (fun m n => do t <- axis_type_of n; Ok (sput n (mkAxis n t 0) m)) l m = Ok r -> ssorted m ->
    ssorted r /\ (forall n, In n l -> exists t, axis_type_of n = Ok t) /\
    forall n a, sfind n r = Some a <-> (In n l /\ ax_name a = n /\ a_id a = 0%N /\ axis_type_of n = Ok (ax_type a)) \/ (~ In n l /\ sfind n m = Some a)).
  { induction l as [ | x l IH ]; intros m r F Sm.
    - injection F as <-. split; [ exact Sm | ]. split; [ intros n [] | ]. intros n a. cbn [In]. tauto.
    - cbn [ofold] in F. destruct (axis_type_of x) as [t| | |] eqn:T; try discriminate. cbn [obind] in F.
      destruct (IH _ _ F (sput_sorted _ _ _ Sm)) as (Sr & U & V). split; [ exact Sr | ]. split.
      + intros n [<-|I]; [ eauto | now apply U ].
      + intros n a. rewrite V, sfind_sput. cbn [In]. destruct (string_dec n x) as [->|N]; [ destruct (in_dec string_dec x l) as [I|I] | ].
        * split; [ intros [(_ & A)|[A _]]; [ left; tauto | contradiction ] | intros [(_ & A)|[A _]]; [ left; tauto | destruct A; now left ] ].
        * rewrite String.eqb_refl. split.
          -- intros [[A _]|[_ A]]; [ contradiction | ]. injection A as <-. left. cbn. auto.
          -- intros [(_ & A & B & D)|[A _]]; [ | destruct A; now left ]. right. split; [ exact I | ]. rewrite T in D. injection D as ->. destruct a as [a1 a2 a3]; cbn in *. subst. reflexivity.
        * destruct (String.eqb_spec n x) as [K|_]; [ contradiction | ]. intuition congruence. }
  destruct (G _ _ _ H nil_sorted) as (Sr & _ & V). split; [ exact Sr | ]. intros n a. rewrite V, M. cbn [sfind]. intuition discriminate.
Qed.
Lemma axes_throws : (forall n, known n -> exists t, axis_type_of n = Ok t) -> exists ax, axes = Ok ax.
Proof.
  intro H. unfold CfcsModel.axes. destruct axis_names_spec as (ns & E & S & M). rewrite E. cbn [obind].
  assert (G : forall l m, (forall n, In n l -> exists t, axis_type_of n = Ok t) -> exists r, ofold (fun m n => do t <- axis_type_of n; Ok (sput n (mkAxis n t 0) m)) l m = Ok r).
  { induction l as [ | x l IH ]; intros m A; [ exists m; reflexivity | ]. cbn [ofold]. destruct (A x (or_introl eq_refl)) as [t T]. rewrite T. cbn [obind]. apply IH. intros; apply A; now right. }
  apply G. intros n I. apply H. now apply M.
Qed.

(** ** one coordinate system *)

Section Ax.
Variable ax : smap axis.
Hypothesis names : forall n a, sfind n ax = Some a -> ax_name a = n.
Variable co : sset.

Definition axes_at (l : list string) : list axis := flat_map (fun n => match sfind n ax with Some a => [a] | None => [] end) l.
Definition clash (a b : axis) : Prop := ax_name a <> ax_name b /\ ax_type a = ax_type b /\ ax_type a <> Undefined.
Definition main_of l := axes_at (filter (fun n => negb (smem n co)) l).
Definition aux_of l := axes_at (filter (fun n => smem n co) l).
Definition keep (main : list axis) (a : axis) : bool :=
  type_eqb (ax_type a) Undefined || negb (existsb (fun b => type_eqb (ax_type a) (ax_type b) && match String.compare (ax_name b) (ax_name a) with Lt => true | _ => false end) main).

Lemma axes_at_app l1 l2 : axes_at (l1 ++ l2) = axes_at l1 ++ axes_at l2.
Proof. apply flat_map_app. Qed.
Lemma In_axes_at a l : In a (axes_at l) <-> In (ax_name a) l /\ sfind (ax_name a) ax = Some a.
Proof.
  unfold axes_at. rewrite in_flat_map. split.
  - intros (n & I & J). destruct (sfind n ax) as [b|] eqn:E; [ | destruct J ]. destruct J as [<-|[]]. assert (K := names _ _ E). now rewrite K.
  - intros [I E]. exists (ax_name a). split; [ exact I | ]. rewrite E. now left.
Qed.
Lemma In_main a l : In a (main_of l) <-> In (ax_name a) l /\ ~ In (ax_name a) (skeys co) /\ sfind (ax_name a) ax = Some a.
Proof. unfold main_of. rewrite In_axes_at, filter_In, negb_true_iff, smem_nIn. tauto. Qed.
Lemma In_auxs a l : In a (aux_of l) <-> In (ax_name a) l /\ In (ax_name a) (skeys co) /\ sfind (ax_name a) ax = Some a.
Proof. unfold aux_of. rewrite In_axes_at, filter_In, smem_In. tauto. Qed.
Lemma type_eqb_eq a b : type_eqb a b = true <-> a = b.
Proof. unfold type_eqb. destruct (axis_type_eq_dec a b); split; congruence. Qed.
Lemma has_type_In t l : AxesModel.has_type t l = true <-> exists a, In a l /\ ax_type a = t.
Proof.
  unfold AxesModel.has_type, find_type. split.
  - destruct (find _ l) as [a|] eqn:E; [ | discriminate ]. intros _. apply find_some in E. destruct E as [I E]. apply type_eqb_eq in E. eauto.
  - intros (a & I & <-). destruct (find _ l) as [b|] eqn:E; [ reflexivity | ]. apply (find_none _ _ E) in I. assert (K := proj2 (type_eqb_eq (ax_type a) (ax_type a)) eq_refl). congruence.
Qed.
Lemma remove_none n l : ~ In n (map ax_name l) -> remove_axis n l = l.
Proof.
  unfold remove_axis. induction l as [ | a l IH ]; intro H; cbn [filter]; [ reflexivity | ].
  destruct (String.eqb_spec (ax_name a) n) as [E|E]; [ destruct H; now left | ]. cbn [negb]. f_equal. apply IH. intro I. apply H. now right.
Qed.
Lemma keep_mono main a x : ~ slt (ax_name x) (ax_name a) -> keep (main ++ [x]) a = keep main a.
Proof.
  intro H. unfold keep. rewrite existsb_app. cbn [existsb]. unfold slt in H.
  destruct (String.compare (ax_name x) (ax_name a)); try congruence; now rewrite andb_false_r, !orb_false_r.
Qed.
Lemma keep_all main a : (forall b, In b main -> slt (ax_name b) (ax_name a)) ->
  keep main a = negb (negb (type_eqb (ax_type a) Undefined) && AxesModel.has_type (ax_type a) main).
Proof.
  intro H. unfold keep. destruct (type_eqb (ax_type a) Undefined); [ reflexivity | ]. cbn [negb orb andb]. f_equal.
  apply eq_iff_eq_true. rewrite has_type_In, existsb_exists. split.
  - intros (b & I & E). apply andb_true_iff in E. destruct E as [E _]. apply type_eqb_eq in E. exists b. auto.
  - intros (b & I & E). exists b. split; [ exact I | ]. assert (K := H b I). unfold slt in K. rewrite K, andb_true_r. now apply type_eqb_eq.
Qed.

Definition start := mkCs [] [].
Lemma fold_Ok l : forall cs, StronglySorted slt l -> ofold (system_step ax co) l start = Ok cs ->
  cs_main cs = main_of l /\ cs_aux cs = filter (keep (main_of l)) (aux_of l) /\ (forall a b, In a (main_of l) -> In b (main_of l) -> ~ clash a b).
Proof.
  induction l as [ | n l IH ] using rev_ind; intros cs S H.
  - injection H as <-. cbn. repeat split; auto.
  - apply ss_app in S. destruct S as (S & _ & O). rewrite oapp in H. destruct (ofold _ l start) as [cs0| | |] eqn:E; try discriminate. cbn [obind ofold] in H.
    destruct (IH _ S eq_refl) as (M & A & U). clear IH E.
    assert (LT : forall b, In (ax_name b) l -> slt (ax_name b) n) by (intros; apply O; [ assumption | now left ]).
    unfold main_of, aux_of in *. rewrite !filter_app in *. rewrite !axes_at_app. cbn [filter].
    unfold system_step in H. destruct (sfind n ax) as [a|] eqn:F; [ assert (NA := names _ _ F); destruct (smem n co) eqn:C | ]; cbn [negb].
    + (* auxiliary *)
      cbn [obind] in H. injection H as <-.
      replace (axes_at [n]) with [a] by (cbn; now rewrite F). replace (axes_at []) with (@nil axis) by reflexivity. rewrite app_nil_r, filter_app. cbn [filter].
      fold (main_of l) (aux_of l) in *.
      assert (N1 : find (fun b => String.eqb (ax_name b) (ax_name a)) (cs_main cs0) = None).
      { destruct (find _ _) as [b|] eqn:Fi; [ | reflexivity ]. apply find_some in Fi. destruct Fi as [I Q]. apply String.eqb_eq in Q. rewrite M in I.
        apply In_main in I. destruct I as (I & _). rewrite Q, NA in I. destruct (slt_irrefl n). rewrite <- NA at 1. apply LT. rewrite NA. exact I. }
      assert (K : keep (main_of l) a = negb (negb (type_eqb (ax_type a) Undefined) && AxesModel.has_type (ax_type a) (main_of l))).
      { apply keep_all. intros b I. apply In_main in I. rewrite NA. apply LT. tauto. }
      unfold set_aux. rewrite N1, M. rewrite K. destruct (negb _ && _); cbn [negb cs_main cs_aux].
      * split; [ exact M | ]. split; [ now rewrite app_nil_r | exact U ].
      * split; [ reflexivity | ]. split; [ | exact U ]. rewrite A. f_equal. apply remove_none. rewrite in_map_iff. intros (b & Q & I). apply filter_In in I. destruct I as [I _].
        apply In_auxs in I. destruct I as (I & _). rewrite Q, NA in I. destruct (slt_irrefl n). rewrite <- NA at 1. apply LT. rewrite NA. exact I.
    + (* main *)
      cbn [app]. replace (axes_at [n]) with [a] by (cbn; now rewrite F). replace (axes_at []) with (@nil axis) by reflexivity. rewrite app_nil_r.
      fold (main_of l) (aux_of l) in *.
      assert (R : remove_axis (ax_name a) (cs_main cs0) = main_of l).
      { rewrite M. apply remove_none. rewrite in_map_iff. intros (b & Q & I). apply In_main in I. destruct I as (I & _). rewrite Q, NA in I. destruct (slt_irrefl n). rewrite <- NA at 1. apply LT. rewrite NA. exact I. }
      assert (RA : remove_axis (ax_name a) (cs_aux cs0) = cs_aux cs0).
      { rewrite A. apply remove_none. rewrite in_map_iff. intros (b & Q & I). apply filter_In in I. destruct I as [I _]. apply In_auxs in I. destruct I as (I & _). rewrite Q, NA in I. destruct (slt_irrefl n). rewrite <- NA at 1. apply LT. rewrite NA. exact I. }
      unfold set_axis in H. rewrite R, RA in H. destruct (negb (type_eqb (ax_type a) Undefined) && AxesModel.has_type (ax_type a) (main_of l)) eqn:T; cbn [snd fst obind] in H; [ discriminate | ].
      injection H as <-. cbn [cs_main cs_aux]. split; [ reflexivity | ]. split.
      * rewrite A. apply filter_ext_in. intros b I. apply In_auxs in I. destruct I as (I & _). symmetry. apply keep_mono. rewrite NA. intro Q. destruct (slt_irrefl n). eapply slt_trans; [ exact Q | now apply LT ].
      * assert (X : forall b, In b (main_of l) -> ax_type b = ax_type a -> ax_type a = Undefined).
        { intros b I Q. apply andb_false_iff in T. destruct T as [T|T].
          - apply negb_false_iff, type_eqb_eq in T. exact T.
          - assert (Y : AxesModel.has_type (ax_type a) (main_of l) = true) by (apply has_type_In; eauto). congruence. }
        intros x y I J (D1 & D2 & D3). apply in_app_or in I, J. destruct I as [I|[<-|[]]], J as [J|[<-|[]]].
        -- apply (U x y I J). repeat split; assumption.
        -- apply D3. rewrite D2. now apply (X x).
        -- apply D3. apply (X y); congruence.
        -- congruence.
    + cbn [obind] in H. injection H as <-. destruct (smem n co); cbn [negb];
        replace (axes_at [n]) with (@nil axis) by (cbn; now rewrite F); replace (axes_at []) with (@nil axis) by reflexivity; rewrite !app_nil_r; fold (main_of l) (aux_of l); auto.
Qed.
Lemma fold_Throw l : StronglySorted slt l -> (exists cs, ofold (system_step ax co) l start = Ok cs) \/
  (ofold (system_step ax co) l start = Throw /\ exists a b, In a (main_of l) /\ In b (main_of l) /\ clash a b).
Proof.
  induction l as [ | n l IH ] using rev_ind; intros S.
  - left. eexists. reflexivity.
  - assert (S0 := S). apply ss_app in S. destruct S as (S & _ & O). rewrite oapp. unfold main_of. rewrite !filter_app, !axes_at_app.
    destruct (IH S) as [[cs E]|[E (a & b & I & J & C)]].
    + rewrite E. cbn [obind ofold]. unfold system_step. destruct (sfind n ax) as [a|] eqn:F; [ | left; eexists; reflexivity ].
      destruct (smem n co) eqn:C; [ left; eexists; reflexivity | ].
      destruct (snd (set_axis cs a)) eqn:T; [ | left; eexists; reflexivity ]. right. split; [ reflexivity | ].
      destruct (fold_Ok _ _ S E) as (M & A & U). unfold set_axis in T. destruct (negb _ && _) eqn:B in T; [ | discriminate ].
      apply andb_true_iff in B. destruct B as [B1 B2]. apply negb_true_iff in B1. apply has_type_In in B2. destruct B2 as (b & I & Q).
      assert (NA := names _ _ F). unfold remove_axis in I. apply filter_In in I. destruct I as [I N]. apply negb_true_iff, String.eqb_neq in N. rewrite M in I.
      exists a, b. cbn [filter]. rewrite C. cbn [negb]. replace (axes_at [n]) with [a] by (cbn; now rewrite F).
      split; [ apply in_or_app; right; now left | ]. split; [ apply in_or_app; left; exact I | ]. repeat split; [ congruence | congruence | ].
      intro K. rewrite K in B1. discriminate.
    + right. rewrite E. split; [ reflexivity | ]. exists a, b. split; [ apply in_or_app; now left | ]. split; [ apply in_or_app; now left | exact C ].
Qed.
End Ax.

(** ** the coordinate systems of the file *)

Variable ax : smap axis.
Hypothesis AX : axes_ok ax.

Lemma ax_names n a : sfind n ax = Some a -> ax_name a = n.
Proof. intro H. now apply AX in H. Qed.
Lemma ax_known n : smem n ax = true <-> known n /\ exists t, axis_type_of n = Ok t.
Proof.
  unfold smem. destruct (sfind n ax) as [a|] eqn:E; split; try discriminate; auto.
  - intros _. apply AX in E. destruct E as (K & _ & _ & T). eauto.
  - intros (K & t & T). assert (Q : sfind n ax = Some (mkAxis n t 0)) by (apply AX; auto). congruence.
Qed.

(** the axes of a variable: of its dimensions, and of its coordinates *)
Definition main_axis (v : cvar) (a : axis) : Prop := is_axis v (ax_name a) /\ ~ is_coord (v_name v) (ax_name a) /\ sfind (ax_name a) ax = Some a.
Definition aux_axis (v : cvar) (a : axis) : Prop := is_coord (v_name v) (ax_name a) /\ sfind (ax_name a) ax = Some a.
(** a coordinate is left out when an axis of a dimension with a smaller name has its type *)
Definition hidden (v : cvar) (a : axis) : Prop :=
  ax_type a <> Undefined /\ exists b, main_axis v b /\ ax_type b = ax_type a /\ slt (ax_name b) (ax_name a).

Lemma axes_at_sorted l : StronglySorted slt l -> StronglySorted slt (map ax_name (axes_at ax l)).
Proof.
  induction l as [ | n l IH ]; intro S; [ constructor | ]. apply StronglySorted_inv in S. destruct S as [S F].
  unfold axes_at. cbn [flat_map]. fold (axes_at ax l). destruct (sfind n ax) as [a|] eqn:E; [ | now apply IH ].
  cbn [app map]. rewrite (ax_names _ _ E). constructor; [ now apply IH | ]. rewrite Forall_forall in F |- *. intros x I. apply in_map_iff in I. destruct I as (b & <- & I).
  apply (In_axes_at ax ax_names) in I. now apply F.
Qed.
Lemma filter_sorted (f : string -> bool) l : StronglySorted slt l -> StronglySorted slt (filter f l).
Proof.
  induction l as [ | n l IH ]; intro S; [ constructor | ]. apply StronglySorted_inv in S. destruct S as [S F]. cbn [filter].
  destruct (f n); [ | now apply IH ]. constructor; [ now apply IH | ]. rewrite Forall_forall in F |- *. intros x I. apply filter_In in I. apply F. tauto.
Qed.
Lemma filter_sorted_map (f : axis -> bool) l : StronglySorted slt (map ax_name l) -> StronglySorted slt (map ax_name (filter f l)).
Proof.
  induction l as [ | n l IH ]; cbn [map filter]; intro S; [ constructor | ]. apply StronglySorted_inv in S. destruct S as [S F].
  destruct (f n); [ | now apply IH ]. cbn [map]. constructor; [ now apply IH | ]. rewrite Forall_forall in F |- *. intros x I. apply in_map_iff in I. destruct I as (b & <- & I).
  apply filter_In in I. apply F. apply in_map. tauto.
Qed.

Lemma system_of_spec v cs : system_of c ax v = Ok cs ->
  (forall a, In a (cs_main cs) <-> main_axis v a) /\ (forall a, In a (cs_aux cs) <-> aux_axis v a /\ ~ hidden v a) /\
  StronglySorted slt (map ax_name (cs_main cs)) /\ StronglySorted slt (map ax_name (cs_aux cs)) /\
  (forall a b, main_axis v a -> main_axis v b -> ~ clash a b).
Proof.
  unfold system_of. destruct (var_coords_spec v) as (co & E1 & S1 & M1). destruct (var_axes_spec v) as (ns & E2 & S2 & M2). rewrite E1, E2. cbn [obind].
  intro H. destruct (fold_Ok ax ax_names co (skeys ns) cs S2 H) as (A & B & U).
  assert (MM : forall a, In a (main_of ax co (skeys ns)) <-> main_axis v a).
  { intro a. rewrite (In_main ax ax_names), M1, M2. reflexivity. }
  split; [ intro a; rewrite A; apply MM | ]. split; [ | split; [ | split ] ].
  - intro a. rewrite B, filter_In, (In_auxs ax ax_names), M1, M2. unfold aux_axis, hidden. unfold keep.
    assert (K : existsb (fun b => type_eqb (ax_type a) (ax_type b) && match String.compare (ax_name b) (ax_name a) with Lt => true | _ => false end) (main_of ax co (skeys ns)) = true <->
                exists b, main_axis v b /\ ax_type b = ax_type a /\ slt (ax_name b) (ax_name a)).
    { rewrite existsb_exists. split.
      - intros (b & I & Q). apply andb_true_iff in Q. destruct Q as [Q1 Q2]. apply type_eqb_eq in Q1. exists b. split; [ now apply MM | ]. split; [ auto | ].
        unfold slt. destruct (String.compare _ _); congruence.
      - intros (b & I & Q1 & Q2). exists b. split; [ now apply MM | ]. unfold slt in Q2. rewrite Q2, andb_true_r. apply type_eqb_eq. auto. }
    rewrite orb_true_iff, negb_true_iff, type_eqb_eq, <- not_true_iff_false, K. split.
    + intros ((_ & I & F) & D). split; [ auto | ]. intros [N X]. destruct D; contradiction.
    + intros ((I & F) & D). split; [ split; [ now right | auto ] | ]. destruct (axis_type_eq_dec (ax_type a) Undefined); [ now left | right; intro X; apply D; auto ].
  - rewrite A. apply axes_at_sorted, filter_sorted, S2.
  - rewrite B. apply filter_sorted_map, axes_at_sorted, filter_sorted, S2.
  - intros a b I J. apply U; now apply MM.
Qed.
Lemma system_of_total v : (exists cs, system_of c ax v = Ok cs) \/
  (system_of c ax v = Throw /\ exists a b, main_axis v a /\ main_axis v b /\ clash a b).
Proof.
  unfold system_of. destruct (var_coords_spec v) as (co & E1 & S1 & M1). destruct (var_axes_spec v) as (ns & E2 & S2 & M2). rewrite E1, E2. cbn [obind].
  destruct (fold_Throw ax ax_names co (skeys ns) S2) as [H|[H (a & b & I & J & C)]]; [ now left | right ]. split; [ exact H | ].
  exists a, b. apply (In_main ax ax_names) in I, J. rewrite M1, M2 in I, J. split; [ exact I | ]. split; [ exact J | exact C ].
Qed.

(** the variables that get a coordinate system *)
Definition wants (v : cvar) : Prop := smem (v_name v) ax = false /\ exists n, is_axis v n.
Lemma systems_step_spec m v : 
  (wants v -> systems_step c ax m v = (do cs <- system_of c ax v; Ok (if smem (cs_id cs) m then m else sput (cs_id cs) cs m))) /\
  (~ wants v -> systems_step c ax m v = Ok m).
Proof.
  unfold systems_step, wants. destruct (var_axes_spec v) as (ns & E2 & S2 & M2). rewrite E2. cbn [obind].
  destruct (smem (v_name v) ax); [ split; [ intros [D _]; discriminate | reflexivity ] | ].
  destruct ns as [ | p ns ]; split; intro H; try reflexivity.
  - destruct H as [_ [n I]]. apply M2 in I. destruct I.
  - destruct H. split; [ reflexivity | ]. exists (fst p). apply M2. now left.
Qed.

Lemma systems_fold l : forall m, ssorted m -> (forall k cs, sfind k m = Some cs -> k = cs_id cs) ->
  match ofold (systems_step c ax) l m with
  | Ok r => ssorted r /\ (forall v, In v l -> wants v -> exists cs, system_of c ax v = Ok cs) /\
            (forall k cs, sfind k r = Some cs <-> sfind k m = Some cs \/ (sfind k m = None /\ k = cs_id cs /\
               exists l1 v l2, l = l1 ++ v :: l2 /\ wants v /\ system_of c ax v = Ok cs /\
                 forall w cw, In w l1 -> wants w -> system_of c ax w = Ok cw -> cs_id cw <> k))
  | Throw => exists v, In v l /\ wants v /\ system_of c ax v = Throw
  | _ => False
  end.
Proof.
  induction l as [ | v l IH ]; intros m S K; cbn [ofold].
  - split; [ exact S | ]. split; [ intros v [] | ]. intros k cs. split; [ now left | ]. intros [H|(_ & _ & l1 & v & l2 & E & _)]; [ exact H | ]. destruct l1; discriminate.
  - destruct (systems_step_spec m v) as [W NW].
    assert (D : wants v \/ ~ wants v).
    { unfold wants. destruct (var_axes_spec v) as (ns & _ & _ & M2). destruct (smem (v_name v) ax); [ right; intros [D _]; discriminate | ].
      destruct ns as [ | p ns ]; [ right; intros [_ [n I]]; apply M2 in I; destruct I | left; split; [ reflexivity | exists (fst p); apply M2; now left ] ]. }
    destruct D as [D|D].
    + rewrite (W D). destruct (system_of_total v) as [[cs E]|[E _]]; rewrite E; cbn [obind]; [ | exists v; split; [ now left | auto ] ].
      destruct (smem (cs_id cs) m) eqn:Q.
      * specialize (IH m S K). destruct (ofold _ l m) as [r| | |]; try exact IH; [ | destruct IH as (w & I & X); exists w; split; [ now right | exact X ] ].
        destruct IH as (Sr & T & V). split; [ exact Sr | ]. split; [ intros w [<-|I] X; [ eauto | now apply T ] | ].
        intros k cs'. rewrite V. split.
        -- intros [H|(N & -> & l1 & w & l2 & -> & Ww & Ew & Fw)]; [ now left | right ]. split; [ exact N | ]. split; [ reflexivity | ]. exists (v :: l1), w, l2. split; [ reflexivity | ]. split; [ exact Ww | ]. split; [ exact Ew | ].
           intros u cu [<-|I] Wu Eu; [ | now apply (Fw u) ]. rewrite E in Eu. injection Eu as <-. intro X. unfold smem in Q. rewrite X, N in Q. discriminate.
        -- intros [H|(N & -> & l1 & w & l2 & El & Ww & Ew & Fw)]; [ now left | right ]. split; [ exact N | ]. split; [ reflexivity | ]. destruct l1 as [ | x l1 ]; injection El as -> ->.
           ++ rewrite E in Ew. injection Ew as <-. unfold smem in Q. rewrite N in Q. discriminate.
           ++ exists l1, w, l2. split; [ reflexivity | ]. split; [ exact Ww | ]. split; [ exact Ew | ]. intros u cu I. apply Fw. now right.
      * assert (N0 : sfind (cs_id cs) m = None) by (unfold smem in Q; destruct (sfind (cs_id cs) m); [ discriminate | reflexivity ]).
        specialize (IH (sput (cs_id cs) cs m) (sput_sorted _ _ _ S)).
        assert (K' : forall k cs0, sfind k (sput (cs_id cs) cs m) = Some cs0 -> k = cs_id cs0).
        { intros k cs0. rewrite sfind_sput. destruct (String.eqb_spec k (cs_id cs)); [ intro H; injection H as <-; assumption | apply K ]. }
        specialize (IH K'). destruct (ofold _ l _) as [r| | |]; try exact IH; [ | destruct IH as (w & I & X); exists w; split; [ now right | exact X ] ].
        destruct IH as (Sr & T & V). split; [ exact Sr | ]. split; [ intros w [<-|I] X; [ eauto | now apply T ] | ].
        intros k cs'. rewrite V, !sfind_sput. destruct (String.eqb_spec k (cs_id cs)) as [->|Nk]; split.
        -- intros [H|[H _]]; [ | discriminate ]. injection H as <-. right. split; [ exact N0 | ]. split; [ reflexivity | ]. exists [], v, l. split; [ reflexivity | ]. split; [ exact D | ]. split; [ exact E | intros u cu [] ].
        -- intros [H|(N & X & l1 & w & l2 & El & Ww & Ew & Fw)]; [ congruence | left ]. destruct l1 as [ | x l1 ]; injection El as -> ->; [ congruence | ].
           destruct (Fw x cs (or_introl eq_refl) D E). reflexivity.
        -- intros [H|(N & X & l1 & w & l2 & -> & Ww & Ew & Fw)]; [ now left | right ]. split; [ exact N | ]. split; [ exact X | ]. exists (v :: l1), w, l2. split; [ reflexivity | ]. split; [ exact Ww | ]. split; [ exact Ew | ].
           intros u cu [<-|I] Wu Eu; [ rewrite E in Eu; injection Eu as <-; auto | now apply (Fw u) ].
        -- intros [H|(N & X & l1 & w & l2 & El & Ww & Ew & Fw)]; [ now left | right ]. split; [ exact N | ]. split; [ exact X | ]. destruct l1 as [ | x l1 ]; injection El as -> ->; [ congruence | ].
           exists l1, w, l2. split; [ reflexivity | ]. split; [ exact Ww | ]. split; [ exact Ew | ]. intros u cu I. apply Fw. now right.
    + rewrite (NW D). cbn [obind]. specialize (IH m S K). destruct (ofold _ l m) as [r| | |]; try exact IH; [ | destruct IH as (w & I & X); exists w; split; [ now right | exact X ] ].
      destruct IH as (Sr & T & V). split; [ exact Sr | ]. split; [ intros w [<-|I] X; [ contradiction | now apply T ] | ]. intros k cs'. rewrite V. split.
      * intros [H|(N & X & l1 & w & l2 & -> & Ww & Ew & Fw)]; [ now left | right ]. split; [ exact N | ]. split; [ exact X | ]. exists (v :: l1), w, l2. split; [ reflexivity | ]. split; [ exact Ww | ]. split; [ exact Ew | ].
        intros u cu [<-|I] Wu Eu; [ contradiction | now apply (Fw u) ].
      * intros [H|(N & X & l1 & w & l2 & El & Ww & Ew & Fw)]; [ now left | right ]. split; [ exact N | ]. split; [ exact X | ]. destruct l1 as [ | x l1 ]; injection El as -> ->; [ contradiction | ].
        exists l1, w, l2. split; [ reflexivity | ]. split; [ exact Ww | ]. split; [ exact Ew | ]. intros u cu I. apply Fw. now right.
Qed.
End Cf.

(** ** identifiers *)

Lemma get_axes_names cs n : In n (skeys (cs_names cs)) <-> exists a, In a (get_axes cs) /\ ax_name a = n.
Proof.
  unfold cs_names. rewrite In_sadds. cbn [skeys map In]. rewrite in_map_iff. split; [ intros [(a & E & I)|[]]; eauto | intros (a & I & E); left; eauto ].
Qed.
Lemma cs_names_sorted cs : ssorted (cs_names cs).
Proof. apply sadds_sorted, nil_sorted. Qed.
Lemma names_id cs cs' : (forall n, In n (skeys (cs_names cs)) <-> In n (skeys (cs_names cs'))) -> cs_id cs = cs_id cs'.
Proof. intro H. unfold cs_id. now rewrite (sorted_ext _ _ (cs_names_sorted cs) (cs_names_sorted cs') H). Qed.

(** ** formula terms *)

Lemma run_app s : forall a b, run s = (a, b) -> s = a ++ b /\ Forall (fun x => is_space x = false) a.
Proof.
  induction s as [ | x s IH ]; intros a b H; cbn [run] in H.
  - injection H as <- <-. auto.
  - destruct (is_space x) eqn:E.
    + injection H as <- <-. auto.
    + destruct (run s) as [a' b'] eqn:R. injection H as <- <-. destruct (IH _ _ eq_refl) as [-> F]. split; [ reflexivity | constructor; auto ].
Qed.
Lemma skip_space_le s : length (skip_space s) <= length s.
Proof. induction s as [ | x s IH ]; cbn [skip_space length]; [ auto | ]. destruct (is_space x); cbn [length]; lia. Qed.
Lemma nonempty_run_len s v r : nonempty_run s = Some (v, r) -> v <> [] /\ length r < length s.
Proof.
  unfold nonempty_run. destruct (run (skip_space s)) as [a b] eqn:R. assert (L := skip_space_le s). apply run_app in R. destruct R as [R _].
  destruct a as [ | x a ]; [ discriminate | ]. intro H. injection H as <- <-. split; [ discriminate | ]. rewrite R in L. cbn [length app] in L. rewrite app_length in L. lia.
Qed.
Lemma split_colon_len r : forall pre rest t v rest', split_colon pre r rest = Some (t, v, rest') -> t <> [] /\ v <> [] /\ length rest' < length r + length rest.
Proof.
  induction r as [ | x r IH ]; intros pre rest t v rest' H; cbn [split_colon] in H; [ discriminate | ].
  destruct (split_colon (pre ++ [x]) r rest) as [[[t' v'] r']|] eqn:E.
  - injection H as <- <- <-. apply IH in E. cbn [length]. intuition lia.
  - destruct (Ascii.eqb x ":"); [ | discriminate ]. destruct pre as [ | y pre ]; [ discriminate | ].
    destruct (nonempty_run (r ++ rest)) as [[v' r']|] eqn:N; [ | discriminate ]. injection H as <- <- <-. apply nonempty_run_len in N. rewrite app_length in N. cbn [length]. split; [ discriminate | ]. intuition lia.
Qed.
Lemma match_term_len s t v rest : match_term s = Some (t, v, rest) -> t <> [] /\ v <> [] /\ length rest < length s.
Proof.
  unfold match_term. destruct (run s) as [r b] eqn:R. apply run_app in R. destruct R as [-> _]. destruct r as [ | x r ]; [ discriminate | ].
  rewrite app_length. assert (L := skip_space_le b). intro H.
  assert (K : split_colon [] (x :: r) b = Some (t, v, rest) -> t <> [] /\ v <> [] /\ length rest < length (x :: r) + length b) by apply split_colon_len.
  destruct (skip_space b) as [ | y b' ]; [ auto | ]. destruct (Ascii.eqb y ":"); [ | auto ].
  destruct (nonempty_run b') as [[v' r']|] eqn:N; [ | auto ]. injection H as <- <- <-. apply nonempty_run_len in N. cbn [length] in *. split; [ discriminate | ]. intuition lia.
Qed.
Lemma search_term_len s : forall t v rest, search_term s = Some (t, v, rest) -> t <> [] /\ v <> [] /\ length rest < length s.
Proof.
  induction s as [ | x s IH ]; intros t v rest H; cbn [search_term] in H.
  - destruct (match_term []) as [[[t' v'] r']|] eqn:E; [ injection H as <- <- <-; now apply match_term_len | discriminate ].
  - destruct (match_term (x :: s)) as [[[t' v'] r']|] eqn:E; [ injection H as <- <- <-; now apply match_term_len | ]. apply IH in H. cbn [length]. intuition lia.
Qed.
Lemma terms_loop_total f : forall s, length s <= f -> exists l, terms_loop f s = Ok l.
Proof.
  induction f as [ | f IH ]; intros s L; cbn [terms_loop].
  - destruct (search_term s) as [[[t v] r]|] eqn:E; [ apply search_term_len in E; lia | eauto ].
  - destruct (search_term s) as [[[t v] r]|] eqn:E; [ | eauto ]. apply search_term_len in E. destruct (IH r) as [l K]; [ lia | ]. rewrite K. cbn. eauto.
Qed.
Lemma formula_terms_total s : exists l, formula_terms s = Ok l.
Proof. now apply terms_loop_total. Qed.

(** ** the list of systems *)

Lemma omapM_Forall2 {A B} (f : A -> outcome B) l : forall r, omapM f l = Ok r -> Forall2 (fun a b => f a = Ok b) l r.
Proof.
  induction l as [ | a l IH ]; intros r H; cbn [omapM] in H.
  - injection H as <-. constructor.
  - destruct (f a) as [b| | |] eqn:E; try discriminate. cbn [obind] in H. destruct (omapM f l) as [bs| | |] eqn:M; try discriminate. injection H as <-. constructor; auto.
Qed.
Lemma omapM_exists {A B} (f : A -> outcome B) l : (forall a, In a l -> exists b, f a = Ok b) -> exists r, omapM f l = Ok r.
Proof.
  induction l as [ | a l IH ]; intro H; [ exists []; reflexivity | ]. cbn [omapM]. destruct (H a (or_introl eq_refl)) as [b E]. rewrite E. cbn [obind].
  destruct IH as [r R]; [ intros; apply H; now right | ]. rewrite R. cbn. eauto.
Qed.

Lemma flagged_spec c f : exists l, flagged c f = Ok l /\
  forall n, In n l <-> exists v ns, In v (vars c) /\ v_name v = n /\ var_axes c v = Ok ns /\ f ns = true.
Proof.
  unfold flagged. set (g := fun v : cvar => _).
  assert (H : forall l, exists r, omapM g l = Ok r /\ forall n, In n (concat r) <-> exists v ns, In v l /\ v_name v = n /\ var_axes c v = Ok ns /\ f ns = true).
  { induction l as [ | v l (r & R & I) ].
    - exists []. split; [ reflexivity | ]. intro n. split; [ intros [] | intros (v & ns & [] & _) ].
    - destruct (var_axes_spec c v) as (ns & E & _). assert (G : g v = Ok (if f ns then [v_name v] else [])) by (unfold g; now rewrite E).
      cbn [omapM]. rewrite G, R. cbn [obind]. eexists. split; [ reflexivity | ]. intro n. cbn [concat]. rewrite in_app_iff, I. split.
      + intros [J|(w & ns' & J & K)]; [ | exists w, ns'; split; [ now right | exact K ] ]. destruct (f ns) eqn:F; [ | destruct J ]. destruct J as [<-|[]]. exists v, ns. repeat split; auto. now left.
      + intros (w & ns' & [<-|J] & K & E' & F); [ left | right; eauto 6 ]. rewrite E in E'. injection E' as <-. rewrite F. now left. }
  destruct (H (vars c)) as (r & R & I). rewrite R. cbn. eauto.
Qed.
Lemma covered_spec cs ns : covered cs ns = true <-> forall a, In a (get_axes cs) -> In (ax_name a) (skeys ns).
Proof.
  unfold covered. rewrite forallb_forall. split.
  - intros H a I. apply smem_In, H, get_axes_names. eauto.
  - intros H n I. apply get_axes_names in I. destruct I as (a & I & <-). apply smem_In. auto.
Qed.
Lemma covers_spec cs ns : covers cs ns = true <-> forall n, In n (skeys ns) -> exists a, In a (get_axes cs) /\ ax_name a = n.
Proof.
  unfold covers. rewrite forallb_forall. split.
  - intros H n I. apply get_axes_names, smem_In. auto.
  - intros H n I. apply smem_In, get_axes_names. auto.
Qed.

Lemma for_term_total c cs t : (t = "" \/ has_var c t = true) -> exists b, for_term c cs t = Ok b.
Proof.
  intro H. unfold for_term, isempty. destruct (String.eqb_spec t "") as [E|E]; [ eauto | ]. destruct H as [H|H]; [ contradiction | ].
  unfold has_var in H. destruct (find_var t (vars c)) as [v|]; [ | discriminate ]. destruct (var_axes_spec c v) as (ns & -> & _). cbn. eauto.
Qed.
Lemma for_terms_total c cs l : (forall t, In t l -> t = "" \/ has_var c t = true) -> exists b, for_terms c cs l = Ok b.
Proof.
  induction l as [ | t l IH ]; intro H; cbn [for_terms]; [ eauto | ]. destruct (for_term_total c cs t (H t (or_introl eq_refl))) as [b E]. rewrite E. cbn [obind].
  destruct b; [ | eauto ]. apply IH. intros; apply H; now right.
Qed.
Definition put_terms (l : list (string * string)) (m : smap string) : smap string := fold_left (fun m p => sput (fst p) (snd p) m) l m.
Lemma put_terms_find l : forall m k v, sfind k (put_terms l m) = Some v -> In (k, v) l \/ sfind k m = Some v.
Proof.
  unfold put_terms. induction l as [ | p l IH ]; intros m k v H; cbn [fold_left] in H; [ now right | ]. apply IH in H. destruct H as [H|H]; [ left; now right | ].
  rewrite sfind_sput in H. destruct (String.eqb_spec k (fst p)) as [->|N]; [ | now right ]. injection H as <-. left. left. now destruct p.
Qed.
Lemma vertical_total c cs : exists r, vertical c cs = Ok r.
Proof.
  unfold vertical. destruct (geo_z cs) as [z|]; [ | eauto ]. destruct (has_var c (ax_name z)); [ | eauto ]. 
  assert (D : exists r, (do l <- match att c (ax_name z) "formula_terms" with None => Ok [] | Some f => formula_terms f end;
            let k := known_terms c l in
            do v <- match att c (ax_name z) "standard_name" with
                    | None => Ok None
                    | Some s => by_formula c cs s (fold_left (fun m p => sput (fst p) (snd p) m) k [])
                    end;
            Ok (v, map snd k)) = Ok r).
  { assert (F : exists l, match att c (ax_name z) "formula_terms" with None => Ok [] | Some f => formula_terms f end = Ok l) by (destruct (att _ _ _); [ apply formula_terms_total | eauto ]).
    destruct F as [l F]. rewrite F. cbn [obind]. set (k := known_terms c l). cbv zeta. destruct (att c (ax_name z) "standard_name") as [s|]; [ | cbn; eauto ].
    fold (put_terms k []). set (m := put_terms k []).
    assert (T : forall t, term m t = "" \/ has_var c (term m t) = true).
    { intro t. unfold term. destruct (sfind t m) as [v|] eqn:E; [ right | now left ]. apply put_terms_find in E. destruct E as [E|E]; [ | discriminate ]. apply filter_In in E. apply E. }
    assert (W : forall l (v : vert), (forall t, In t l -> exists n, t = term m n) -> exists r, (do b <- for_terms c cs l; Ok (if b then Some v else None)) = Ok r).
    { intros l0 v H. destruct (for_terms_total c cs l0) as [b E]; [ intros t I; destruct (H t I) as [n ->]; apply T | ]. rewrite E. cbn. eauto. }
    assert (B : exists r, by_formula c cs s m = Ok r).
    { unfold by_formula. cbv zeta. repeat match goal with |- context [if ?b then _ else _] => destruct b end; eauto;
        apply W; intros t I; cbn [In] in I; repeat (destruct I as [<-|I]; [ eauto | ]); destruct I. }
    destruct B as [v B]. rewrite B. cbn. eauto. }
  destruct (ax_type z); eauto.
Qed.
Lemma proj_loop_total c P (mp : list cattr -> outcome P) cs a b l : (forall l, exists p, mp l = Ok p) -> exists r, proj_loop c P mp cs a b l = Ok r.
Proof.
  intro H. induction l as [ | v l IH ]; cbn [proj_loop]; [ eauto | ]. destruct (_ && _); [ | exact IH ]. destruct (att c (v_name v) "grid_mapping") as [g|].
  - destruct (has_var c g); [ | exact IH ]. destruct (H (attrs_of c g)) as [p ->]. cbn. eauto.
  - destruct (_ && _); [ | exact IH ]. destruct (H [mkAttr "grid_mapping_name" DString [] "latitude_longitude"]) as [p ->]. cbn. eauto.
Qed.
