(** C90 the coordinate systems of CF files *)
From Coq Require Import NArith Ascii String List Bool Lia Sorting.Sorted.
From Verif Require Import Base StdMap StringModel StringProps SpecModel FilesModel AxesModel ConvertModel CdmModel CdmProofs NmlModel NmlProofs CfcsModel CfcsProofs.
Import ListNotations.
Local Open Scope string_scope.
Local Open Scope list_scope.
Local Open Scope nat_scope.

Section Cf.
Variable c : cdm.
Variable is_time : string -> bool.
Variable convertible : string -> string -> bool.
Variable P : Type.
Variable make_proj : list cattr -> outcome P.
Local Notation axis_type_of := (axis_type_of c is_time convertible).
Local Notation axes := (axes c is_time convertible).
Local Notation listed := (list_systems c is_time convertible P make_proj).
Local Notation known := (known c).
Local Notation is_axis := (is_axis c).
Local Notation is_coord := (is_coord c).

(** a dimension or coordinate of a variable, as an axis of type [t] *)
Definition dim_axis (v : cvar) (n : string) (t : axis_type) : Prop := is_axis v n /\ ~ is_coord (v_name v) n /\ known n /\ axis_type_of n = Ok t.
Definition coord_axis (v : cvar) (n : string) (t : axis_type) : Prop := is_coord (v_name v) n /\ known n /\ axis_type_of n = Ok t.
(** two dimensions of one type *)
Definition ambiguous (v : cvar) : Prop :=
  exists n1 n2 t, n1 <> n2 /\ t <> Undefined /\ dim_axis v n1 t /\ dim_axis v n2 t.
(** a data variable: not an axis, with at least one axis *)
Definition data_var (v : cvar) : Prop := In v (vars c) /\ ~ known (v_name v) /\ exists n, is_axis v n.
Definition typed : Prop := forall n, known n -> exists t, axis_type_of n = Ok t.

Lemma typed_axes : typed -> exists ax, axes = Ok ax /\ axes_ok c is_time convertible ax.
Proof. intro T. destruct (axes_throws c is_time convertible T) as [ax E]. exists ax. split; [ exact E | ]. now apply axes_spec. Qed.
Lemma axes_typed ax : axes = Ok ax -> typed.
Proof.
  unfold CfcsModel.axes. destruct (axis_names_spec c) as (ns & E & S & M). rewrite E. cbn [obind]. intros H n K. apply M in K. clear M.
  revert H. generalize ([] : smap axis). induction (skeys ns) as [ | x l IH ]; intros m H; [ destruct K | ].
  cbn [ofold] in H. destruct (axis_type_of x) as [t| | |] eqn:T; try discriminate. destruct K as [<-|K]; [ eauto | ]. apply (IH K _ H).
Qed.
Lemma main_dim ax v a : axes_ok c is_time convertible ax -> main_axis c ax v a <-> dim_axis v (ax_name a) (ax_type a) /\ a_id a = 0%N.
Proof. intros [_ A]. unfold main_axis, dim_axis. rewrite A. tauto. Qed.
Lemma aux_coord ax v a : axes_ok c is_time convertible ax -> aux_axis c ax v a <-> coord_axis v (ax_name a) (ax_type a) /\ a_id a = 0%N.
Proof. intros [_ A]. unfold aux_axis, coord_axis. rewrite A. tauto. Qed.
Lemma wants_data ax v : axes = Ok ax -> In v (vars c) -> wants c ax v <-> data_var v.
Proof.
  intros E I. unfold wants, data_var. assert (K := ax_known c is_time convertible ax (axes_spec _ _ _ _ E) (v_name v)).
  destruct (smem (v_name v) ax); split.
  - intros [D _]. discriminate.
  - intros (_ & N & _). destruct N. now apply K.
  - intros [_ X]. split; [ exact I | ]. split; [ | exact X ]. intro Y. destruct K as [_ K]. discriminate K. split; [ exact Y | ]. now apply (axes_typed _ E).
  - intros (_ & _ & X). auto.
Qed.
Lemma clash_ambiguous ax v a b : axes_ok c is_time convertible ax -> main_axis c ax v a -> main_axis c ax v b -> clash a b -> ambiguous v.
Proof.
  intros A I J (N & T & U). apply (main_dim ax) in I; [ | exact A ]. apply (main_dim ax) in J; [ | exact A ]. exists (ax_name a), (ax_name b), (ax_type a). destruct I as [I _], J as [J _]. rewrite T at 3. auto.
Qed.
Lemma ambiguous_clash ax v : axes_ok c is_time convertible ax -> ambiguous v -> exists a b, main_axis c ax v a /\ main_axis c ax v b /\ clash a b.
Proof.
  intros A (n1 & n2 & t & N & U & D1 & D2). exists (mkAxis n1 t 0), (mkAxis n2 t 0).
  split; [ apply (main_dim ax); auto | ]. split; [ apply (main_dim ax); auto | ]. repeat split; auto.
Qed.

(** the entries of the list *)
Lemma listed_inv l : listed = Ok l -> exists ax m, axes = Ok ax /\ ofold (systems_step c ax) (vars c) [] = Ok m /\
  Forall2 (fun p y => finish c P make_proj (snd p) = Ok y) m l.
Proof.
  unfold list_systems, systems. destruct axes as [ax| | |] eqn:E; try discriminate. cbn [obind].
  destruct (ofold (systems_step c ax) (vars c) []) as [m| | |] eqn:S; try discriminate. cbn [obind]. intro H. exists ax, m. split; [ reflexivity | ]. split; [ exact S | ]. now apply omapM_Forall2.
Qed.
Lemma finish_inv cs y : finish c P make_proj cs = Ok y -> y_cs y = cs /\ flagged c (covered cs) = Ok (y_complete y) /\ flagged c (covers cs) = Ok (y_for y) /\
  y_simple y = simple c cs /\ exists p v, proj_loop c P make_proj cs (y_complete y) (y_for y) (vars c) = Ok p /\ vertical c cs = Ok v /\
  y_proj y = fst p /\ y_vert y = fst v /\ y_deps y = snd p ++ snd v ++ bounds c cs.
Proof.
  unfold finish. intro H. destruct (flagged c (covered cs)) as [a| | |]; try discriminate. destruct (flagged c (covers cs)) as [b| | |]; try discriminate. cbn [obind] in H.
  destruct (proj_loop _ _ _ _ _ _ _) as [p| | |] eqn:E; try discriminate. destruct (vertical c cs) as [v| | |]; try discriminate. cbn [obind] in H. injection H as <-. cbn.
  repeat split; auto. exists p, v. auto.
Qed.
Lemma listed_all l : listed = Ok l -> exists ax m, axes = Ok ax /\ axes_ok c is_time convertible ax /\ ofold (systems_step c ax) (vars c) [] = Ok m /\
  map snd m = map y_cs l /\ ssorted m /\ (forall v, In v (vars c) -> wants c ax v -> exists cs, system_of c ax v = Ok cs) /\
  (forall k cs, sfind k m = Some cs <-> (k = cs_id cs /\
               exists l1 v l2, vars c = l1 ++ v :: l2 /\ wants c ax v /\ system_of c ax v = Ok cs /\
                 forall w cw, In w l1 -> wants c ax w -> system_of c ax w = Ok cw -> cs_id cw <> k)).
Proof.
  intro H. destruct (listed_inv _ H) as (ax & m & E & S & F). exists ax, m. assert (A := axes_spec _ _ _ _ E). split; [ exact E | ]. split; [ exact A | ]. split; [ exact S | ].
  assert (G := systems_fold c is_time convertible ax A (vars c) [] nil_sorted). rewrite S in G. destruct G as (Sm & T & V); [ discriminate | ].
  split; [ | split; [ exact Sm | ]; split; [ exact T | ] ].
  - clear -F. induction F as [ | p y m l E F IH ]; [ reflexivity | ]. cbn [map]. rewrite IH. f_equal. symmetry. now apply finish_inv in E.
  - intros k cs. rewrite V. cbn [sfind]. split; [ intros [D|(_ & D)]; [ discriminate | exact D ] | intro D; right; auto ].
Qed.
Lemma in_values {A} (m : smap A) x : ssorted m -> In x (map snd m) <-> exists k, sfind k m = Some x.
Proof.
  intro S. apply ssorted_NoDup in S. induction m as [ | [k v] m IH ]; cbn [map In sfind].
  - split; [ intros [] | intros [k D]; discriminate ].
  - cbn [skeys map fst] in S. apply NoDup_cons_iff in S. destruct S as [N S]. rewrite (IH S). cbn [snd]. split.
    + intros [<-|[k' E]]; [ exists k; now rewrite String.eqb_refl | ]. exists k'. destruct (String.eqb_spec k' k) as [Q|D]; [ subst; destruct N; apply sfind_In; eauto | exact E ].
    + intros [k' E]. destruct (String.eqb_spec k' k) as [Q|D]; [ left; congruence | right; eauto ].
Qed.

(** the axes of a file are its dimensions and the names in the attributes "coordinates" *)
Theorem C90_axes : forall ax, axes = Ok ax -> forall n,
  (forall a, sfind n ax = Some a -> ax_name a = n /\ axis_type_of n = Ok (ax_type a)) /\ (smem n ax = true <-> known n).
Proof.
  intros ax E n. assert (A := axes_spec _ _ _ _ E). split.
  - intros a F. apply A in F. tauto.
  - rewrite (ax_known c is_time convertible ax A). split; [ tauto | ]. intro K. split; [ exact K | ]. now apply (axes_typed _ E).
Qed.

(** every listed system is that of a data variable: the dimensions are axes, the coordinates auxiliary
    axes, but for coordinates with the type of a dimension that is before them in the alphabet; it is
    the first variable with the same names of axes *)
Theorem C90_from_variable : forall l y, listed = Ok l -> In y l -> exists l1 v l2, vars c = l1 ++ v :: l2 /\ data_var v /\ ~ ambiguous v /\
  (forall a, In a (cs_main (y_cs y)) <-> dim_axis v (ax_name a) (ax_type a) /\ a_id a = 0%N) /\
  (forall a, In a (cs_aux (y_cs y)) <-> coord_axis v (ax_name a) (ax_type a) /\ a_id a = 0%N /\
     ~ (ax_type a <> Undefined /\ exists n, dim_axis v n (ax_type a) /\ slt n (ax_name a))) /\
  StronglySorted slt (map ax_name (cs_main (y_cs y))) /\ StronglySorted slt (map ax_name (cs_aux (y_cs y))).
Proof.
  intros l y H I. destruct (listed_all _ H) as (ax & m & E & A & S & M & Sm & T & V).
  assert (J : In (y_cs y) (map snd m)) by (rewrite M; now apply in_map). apply (in_values m _ Sm) in J. destruct J as [k J]. apply V in J.
  destruct J as (-> & l1 & v & l2 & L & W & K & F). exists l1, v, l2. split; [ exact L | ].
  assert (Iv : In v (vars c)) by (rewrite L; apply in_or_app; right; now left).
  split; [ now apply (wants_data ax v E Iv) | ]. destruct (system_of_spec c is_time convertible ax A v _ K) as (S1 & S2 & S3 & S4 & S5).
  split; [ | split; [ | split; [ | auto ] ] ].
  - intro B. apply (ambiguous_clash ax v A) in B. destruct B as (a & b & B1 & B2 & B3). now apply (S5 a b).
  - intro a. rewrite S1. now apply main_dim.
  - intro a. rewrite S2, (aux_coord ax v a A). unfold hidden. split.
    + intros ((D & D0) & N). split; [ exact D | ]. split; [ exact D0 | ]. intros (U & n & Q & O). apply N. split; [ exact U | ]. exists (mkAxis n (ax_type a) 0). split; [ apply (main_dim ax); auto | auto ].
    + intros (D & D0 & N). split; [ auto | ]. intros (U & b & Q & T' & O). apply N. split; [ exact U | ]. exists (ax_name b). apply (main_dim ax) in Q; [ | exact A ]. rewrite <- T'. tauto.
Qed.

(** listing throws when some data variable has two dimensions of one type, and otherwise only when the
    projection cannot be made *)
Theorem C90_throws : typed -> (exists v, data_var v /\ ambiguous v) -> listed = Throw.
Proof.
  intros T (v & D & B). destruct (typed_axes T) as (ax & E & A). unfold list_systems, systems. rewrite E. cbn [obind].
  assert (G := systems_fold c is_time convertible ax A (vars c) [] nil_sorted). destruct (ofold (systems_step c ax) (vars c) []) as [m| | |]; [ | reflexivity | | ]; try (destruct G; discriminate).
  exfalso. destruct G as (_ & G & _); [ discriminate | ]. destruct D as (I & D). destruct (G v I) as [cs K]; [ apply (wants_data ax v E I); split; auto | ].
  apply (ambiguous_clash ax v A) in B. destruct B as (a & b & B1 & B2 & B3). apply (system_of_spec c is_time convertible ax A) in K. destruct K as (_ & _ & _ & _ & K). now apply (K a b).
Qed.
Theorem C90_succeeds : typed -> (forall v, data_var v -> ~ ambiguous v) -> (forall l, exists p, make_proj l = Ok p) -> exists l, listed = Ok l.
Proof.
  intros T N MP. destruct (typed_axes T) as (ax & E & A). unfold list_systems, systems. rewrite E. cbn [obind].
  assert (G := systems_fold c is_time convertible ax A (vars c) [] nil_sorted). destruct (ofold (systems_step c ax) (vars c) []) as [m| | |]; try (destruct G; discriminate).
  - cbn [obind]. apply omapM_exists. intros p _. unfold finish.
    destruct (flagged_spec c (covered (snd p))) as (a & -> & _). destruct (flagged_spec c (covers (snd p))) as (b & -> & _). cbn [obind].
    destruct (proj_loop_total c P make_proj (snd p) a b (vars c) MP) as [q ->]. destruct (vertical_total c (snd p)) as [v ->]. cbn. eauto.
  - destruct G as (v & I & W & K); [ discriminate | ]. exfalso. destruct (system_of_total c is_time convertible ax A v) as [[cs Q]|[_ (a & b & B1 & B2 & B3)]]; [ congruence | ].
    apply (N v); [ now apply (wants_data ax v E I) | ]. exact (clash_ambiguous ax v a b A B1 B2 B3).
Qed.

(** isComplete and isCSFor compare the names of the axes *)
Theorem C90_flags : forall l y v, NoDup (vnames c) -> listed = Ok l -> In y l -> In v (vars c) ->
  (In (v_name v) (y_complete y) <-> forall a, In a (get_axes (y_cs y)) -> is_axis v (ax_name a)) /\
  (In (v_name v) (y_for y) <-> forall n, is_axis v n -> exists a, In a (get_axes (y_cs y)) /\ ax_name a = n).
Proof.
  intros l y v ND H I J. destruct (listed_inv _ H) as (ax & m & _ & _ & F).
  assert (X : exists cs, finish c P make_proj cs = Ok y). { clear -F I. induction F as [ | p z m l E F IH ]; [ destruct I | ]. destruct I as [<-|I]; eauto. }
  destruct X as [cs X]. apply finish_inv in X. destruct X as (<- & F1 & F2 & _).
  assert (U : forall w, In w (vars c) -> v_name w = v_name v -> w = v).
  { intros w Iw Ew. unfold vnames in ND. clear -ND J Iw Ew. induction (vars c) as [ | x r IH ]; [ destruct J | ]. cbn [map] in ND. apply NoDup_cons_iff in ND. destruct ND as [N ND].
    destruct J as [->|J], Iw as [->|Iw]; auto; [ destruct N; rewrite <- Ew; now apply in_map | destruct N; rewrite Ew; now apply in_map ]. }
  destruct (var_axes_spec c v) as (ns & E & _ & M).
  destruct (flagged_spec c (covered (y_cs y))) as (a & A1 & A2). destruct (flagged_spec c (covers (y_cs y))) as (b & B1 & B2).
  rewrite A1 in F1. injection F1 as <-. rewrite B1 in F2. injection F2 as <-. rewrite A2, B2. split; split.
  - intros (w & ns' & Iw & Ew & Nw & Cw) q Q. apply U in Ew; [ | exact Iw ]. subst w. rewrite E in Nw. injection Nw as <-. apply M. now apply (proj1 (covered_spec _ _) Cw).
  - intro Q. exists v, ns. split; [ exact J | ]. split; [ reflexivity | ]. split; [ exact E | ]. apply covered_spec. intros q K. apply M. auto.
  - intros (w & ns' & Iw & Ew & Nw & Cw) q Q. apply U in Ew; [ | exact Iw ]. subst w. rewrite E in Nw. injection Nw as <-. apply M in Q. now apply (proj1 (covers_spec _ _) Cw).
  - intro Q. exists v, ns. split; [ exact J | ]. split; [ reflexivity | ]. split; [ exact E | ]. apply covers_spec. intros q K. apply M in K. auto.
Qed.

(** names of axes are not empty and have no comma *)
Definition plain_names : Prop := forall n, known n -> n <> "" /\ ~ In ","%char (s_ n).
Lemma s_inj a b : s_ a = s_ b -> a = b.
Proof. intro H. unfold s_ in H. rewrite <- (string_of_list_ascii_of_string a), <- (string_of_list_ascii_of_string b). now rewrite H. Qed.
Lemma st_inj a b : st a = st b -> a = b.
Proof. intro H. unfold st in H. rewrite <- (list_ascii_of_string_of_list_ascii a), <- (list_ascii_of_string_of_list_ascii b). now rewrite H. Qed.
Lemma app_inj p a b : (p ++ a)%string = (p ++ b)%string -> a = b.
Proof. induction p as [ | x p IH ]; cbn; [ auto | ]. intro H. injection H as H. auto. Qed.
Lemma id_names cs cs' : (forall n, In n (skeys (cs_names cs)) -> ~ In ","%char (s_ n)) -> (forall n, In n (skeys (cs_names cs')) -> ~ In ","%char (s_ n)) ->
  skeys (cs_names cs) <> [] -> skeys (cs_names cs') <> [] -> cs_id cs = cs_id cs' -> skeys (cs_names cs) = skeys (cs_names cs').
Proof.
  intros H H' E E' I. unfold cs_id in I. apply app_inj, st_inj in I.
  assert (K : forall l, l <> [] -> (forall n, In n l -> ~ In ","%char (s_ n)) -> split_any (join (map s_ l) (s_ ",")) (s_ ",") = Ok (map s_ l)).
  { intros l N F. apply (C18_split_join ","%char). { destruct l; [ congruence | discriminate ]. } apply Forall_forall. intros x J. apply in_map_iff in J. destruct J as (n & <- & J). auto. }
  assert (K1 := K _ E H). assert (K2 := K _ E' H'). rewrite I, K2 in K1. injection K1 as K1.
  clear -K1. revert K1. generalize (skeys (cs_names cs)) (skeys (cs_names cs')). induction l as [ | a l IH ]; intros [ | b l' ] H; cbn [map] in H; try discriminate; [ reflexivity | ].
  injection H as H1 H2. apply s_inj in H1. subst. f_equal. auto.
Qed.

(** the axes of a variable are all known, and no two have one type *)
Definition tidy (v : cvar) : Prop := (forall n, is_axis v n -> known n) /\
  forall n1 n2 t, is_axis v n1 -> is_axis v n2 -> axis_type_of n1 = Ok t -> axis_type_of n2 = Ok t -> t <> Undefined -> n1 = n2.

Lemma own_names ax v cs : axes_ok c is_time convertible ax -> typed -> system_of c ax v = Ok cs -> tidy v -> forall n, In n (skeys (cs_names cs)) <-> is_axis v n.
Proof.
  intros A T S [K U] n. destruct (system_of_spec c is_time convertible ax A v cs S) as (S1 & S2 & _). rewrite get_axes_names. split.
  - intros (a & I & <-). apply in_app_or in I. destruct I as [I|I]; [ apply S1 in I; apply I | apply S2 in I; destruct I as [[I _] _]; now right ].
  - intro X. destruct (T n (K n X)) as [t Q]. exists (mkAxis n t 0). split; [ | reflexivity ]. apply in_or_app.
    assert (D : is_coord (v_name v) n \/ ~ is_coord (v_name v) n).
    { destruct (var_coords_spec c v) as (co & _ & _ & M). rewrite <- M. destruct (in_dec string_dec n (skeys co)); auto. }
    destruct D as [D|D].
    + right. apply S2. split; [ apply (aux_coord ax); [ exact A | ]; repeat split; auto | ]. intros (Nu & b & Mb & Tb & L). apply (main_dim ax) in Mb; [ | exact A ].
      cbn [AxesModel.a_type AxesModel.a_name] in *. destruct Mb as [(M1 & M2 & M3 & M4) _]. destruct (slt_irrefl n). rewrite (U (ax_name b) n t) in L; auto. now rewrite <- Tb.
    + left. apply S1. apply (main_dim ax); [ exact A | ]. repeat split; auto.
Qed.
Lemma tidy_clear v : tidy v -> ~ ambiguous v.
Proof. intros [_ U] (n1 & n2 & t & N & Nu & (A1 & _ & _ & A2) & (B1 & _ & _ & B2)). apply N. eapply U; eauto. Qed.

(** a data variable with known axes of different types has a system with exactly its axes, and that is
    what findCompleteCoordinateSystemFor finds; there is no other *)
Theorem C90_own : forall l v, NoDup (vnames c) -> plain_names -> listed = Ok l -> data_var v -> tidy v ->
  exists y, find_complete l (v_name v) = Some y /\ (forall n, (exists a, In a (get_axes (y_cs y)) /\ ax_name a = n) <-> is_axis v n) /\
    In (v_name v) (y_complete y) /\ In (v_name v) (y_for y) /\
    exists l1 l2, l = l1 ++ y :: l2 /\ forall z, In z (l1 ++ l2) -> ~ (In (v_name v) (y_complete z) /\ In (v_name v) (y_for z)).
Proof.
  intros l v ND PN H D Ti. destruct (listed_all _ H) as (ax & m & E & A & S & M & Sm & T & V). assert (Ty := axes_typed _ E).
  assert (Iv : In v (vars c)) by apply D. assert (W : wants c ax v) by now apply (wants_data ax v E Iv).
  destruct (T v Iv W) as [cs0 K0]. assert (O0 := own_names ax v cs0 A Ty K0 Ti).
  (* the first variable with the same identifier *)
  assert (X : exists cs, sfind (cs_id cs0) m = Some cs).
  { assert (Y : forall r, incl r (vars c) -> (exists w cw, In w r /\ wants c ax w /\ system_of c ax w = Ok cw /\ cs_id cw = cs_id cs0) ->
      exists l1 w l2 cw, r = l1 ++ w :: l2 /\ wants c ax w /\ system_of c ax w = Ok cw /\ cs_id cw = cs_id cs0 /\ forall u cu, In u l1 -> wants c ax u -> system_of c ax u = Ok cu -> cs_id cu <> cs_id cs0).
    { induction r as [ | u r IH ]; intros Inc (w & cw & I & Ww & Kw & Iw); [ destruct I | ].
      assert (Z : (exists cu, wants c ax u /\ system_of c ax u = Ok cu /\ cs_id cu = cs_id cs0) \/ (forall cu, wants c ax u -> system_of c ax u = Ok cu -> cs_id cu <> cs_id cs0)).
      { destruct (system_of_total c is_time convertible ax A u) as [[cu Q]|[Q _]]; [ | right; intros cu _ Q'; congruence ].
        assert (Wd : wants c ax u \/ ~ wants c ax u).
        { unfold wants. destruct (smem (v_name u) ax); [ right; intros [B _]; discriminate | ]. destruct (var_axes_spec c u) as (ns & _ & _ & Mu).
          destruct ns as [ | q ns ]; [ right; intros [_ [n J]]; apply Mu in J; destruct J | left; split; [ reflexivity | exists (fst q); apply Mu; now left ] ]. }
        destruct Wd as [Wd|Wd]; [ | right; intros; contradiction ].
        destruct (string_dec (cs_id cu) (cs_id cs0)); [ left; eauto | right; intros cu' _ Q'; congruence ]. }
      destruct Z as [(cu & Z1 & Z2 & Z3)|Z].
      - exists [], u, r, cu. repeat split; auto; try apply Z1; intros ? ? [].
      - destruct I as [->|I]; [ destruct (Z cw Ww Kw Iw) | ]. destruct IH as (l1 & w' & l2 & cw' & -> & R1 & R2 & R3 & R4); [ intros q J; apply Inc; now right | eauto 8 | ].
        exists (u :: l1), w', l2, cw'. split; [ reflexivity | ]. split; [ exact R1 | ]. split; [ exact R2 | ]. split; [ exact R3 | ]. intros q cq [<-|J]; [ apply Z | now apply R4 ]. }
    destruct (Y (vars c) (incl_refl _)) as (l1 & w & l2 & cw & L & R1 & R2 & R3 & R4); [ exists v, cs0; auto | ].
    exists cw. apply V. split; [ now symmetry | ]. exists l1, w, l2. auto. }
  destruct X as [cs X]. assert (X' := X). apply V in X'. destruct X' as (IdE & l1' & w & l2' & L' & Ww & Kw & _).
  assert (Iw : In w (vars c)) by (rewrite L'; apply in_or_app; right; now left).
  assert (Kn : forall v cs, system_of c ax v = Ok cs -> forall n, In n (skeys (cs_names cs)) -> known n).
  { intros v1 cs1 K1 n J. destruct (system_of_spec c is_time convertible ax A v1 cs1 K1) as (S1 & S2 & _). apply get_axes_names in J. destruct J as (a & J & <-). apply in_app_or in J.
    destruct J as [J|J]; [ apply S1, (main_dim ax) in J; [ | exact A ]; apply J | apply S2 in J; destruct J as [J _]; apply (aux_coord ax) in J; [ | exact A ]; apply J ]. }
  assert (Ne0 : skeys (cs_names cs0) <> []). { destruct D as (_ & _ & n & J). apply O0 in J. intro Z. rewrite Z in J. destruct J. }
  assert (Ne : skeys (cs_names cs) <> []).
  { intro Z. unfold cs_id in IdE. rewrite Z in IdE. apply app_inj, st_inj in IdE. cbn [map join] in IdE. destruct (skeys (cs_names cs0)) as [ | n1 r ] eqn:Q; [ contradiction | ].
    destruct r as [ | n2 r ]; cbn [map] in IdE.
    - cbn in IdE. destruct (PN n1) as [N1 _]; [ apply (Kn _ _ K0); rewrite Q; now left | ]. destruct n1; [ congruence | discriminate ].
    - rewrite StringProofs.join_cons in IdE. destruct (s_ n1); discriminate. }
  assert (NM : skeys (cs_names cs0) = skeys (cs_names cs)).
  { apply id_names; auto; intros n J; apply PN; [ now apply (Kn _ _ K0) | now apply (Kn _ _ Kw) ]. }
  assert (O : forall n, (exists a, In a (get_axes cs) /\ ax_name a = n) <-> is_axis v n). { intro n. rewrite <- get_axes_names, <- NM. apply O0. }
  (* its place *)
  destruct (listed_inv _ H) as (ax' & m' & E' & S' & F). rewrite E in E'. injection E' as <-. rewrite S in S'. injection S' as <-.
  assert (Sp : exists m1 m2, m = m1 ++ (cs_id cs0, cs) :: m2).
  { apply in_split. clear -X. induction m as [ | [k x] m IH ]; [ discriminate | ]. cbn [sfind] in X. destruct (String.eqb_spec (cs_id cs0) k) as [->|N]; [ left; congruence | right; auto ]. }
  destruct Sp as (m1 & m2 & Sp). rewrite Sp in F. apply Forall2_app_inv_l in F. destruct F as (l1 & r & F1 & F2 & ->). inversion F2 as [ | ? y ? l2 Fy F3 ]; subst r. clear F2. subst.
  cbn [snd] in Fy. assert (Yc : y_cs y = cs) by now apply finish_inv in Fy.
  assert (Iy : In y (l1 ++ y :: l2)) by (apply in_or_app; right; now left).
  assert (Fl := C90_flags _ y v ND H Iy Iv). rewrite Yc in Fl. destruct Fl as [Fl1 Fl2].
  assert (C1 : In (v_name v) (y_complete y)) by (apply Fl1; intros a J; apply O; eauto).
  assert (C2 : In (v_name v) (y_for y)) by (apply Fl2; intros n J; now apply O).
  assert (No : forall z, In z (l1 ++ l2) -> ~ (In (v_name v) (y_complete z) /\ In (v_name v) (y_for z))).
  { intros z Iz [Z1 Z2].
    assert (Iz' : In z (l1 ++ y :: l2)) by (apply in_app_or in Iz; apply in_or_app; destruct Iz; [ now left | right; now right ]).
    destruct (C90_flags _ z v ND H Iz' Iv) as [G1 G2]. assert (Z1' := proj1 G1 Z1). assert (Z2' := proj1 G2 Z2). clear G1 G2 Z1 Z2. rename Z1' into Z1, Z2' into Z2.
    assert (Pz : exists q, In q (m1 ++ m2) /\ finish c P make_proj (snd q) = Ok z).
    { assert (G : forall (mm : smap csys) ll, Forall2 (fun p y => finish c P make_proj (snd p) = Ok y) mm ll -> In z ll -> exists q, In q mm /\ finish c P make_proj (snd q) = Ok z).
      { intros mm ll FF. induction FF as [ | p0 y0 mm ll G0 FF IH ]; intro J; [ destruct J | ]. destruct J as [<-|J]; [ exists p0; split; [ now left | exact G0 ] | destruct (IH J) as (q & Q1 & Q2); exists q; split; [ now right | exact Q2 ] ]. }
      apply in_app_or in Iz. destruct Iz as [Iz|Iz]; [ destruct (G _ _ F1 Iz) as (q & Q1 & Q2) | destruct (G _ _ F3 Iz) as (q & Q1 & Q2) ]; exists q; split; auto; apply in_or_app; auto. }
    destruct Pz as (q & Iq & Fq). apply finish_inv in Fq. destruct Fq as [Fq _].
    assert (Kq : fst q = cs_id (snd q)).
    { assert (sfind (fst q) (m1 ++ (cs_id cs0, cs) :: m2) = Some (snd q)) as Y.
      { assert (Iq' : In q (m1 ++ (cs_id cs0, cs) :: m2)) by (apply in_app_or in Iq; apply in_or_app; destruct Iq; [ now left | right; now right ]).
        apply ssorted_NoDup in Sm. clear -Sm Iq'. revert Sm Iq'. generalize (m1 ++ (cs_id cs0, cs) :: m2). induction l as [ | [k x] l IH ]; intros Sm I; [ destruct I | ].
        cbn [skeys map fst] in Sm. apply NoDup_cons_iff in Sm. destruct Sm as [N Sm]. cbn [sfind]. destruct I as [<-|I]; cbn [fst snd]; [ now rewrite String.eqb_refl | ].
        destruct (String.eqb_spec (fst q) k) as [<-|D]; [ | auto ]. destruct N. apply in_map. exact I. }
      apply V in Y. apply Y. }
    assert (Id : cs_id (snd q) = cs_id cs0).
    { rewrite IdE. apply names_id. intro n. rewrite !get_axes_names, O. rewrite <- Fq. split; [ intros (a & J & <-); now apply Z1 | apply Z2 ]. }
    apply ssorted_NoDup in Sm. unfold skeys in Sm. rewrite map_app in Sm. cbn [map fst] in Sm. apply NoDup_remove_2 in Sm. apply Sm. rewrite <- Id, <- Kq, <- map_app. now apply in_map. }
  exists y. split; [ | split; [ intro n; rewrite Yc; apply O | ] ].
  - unfold find_complete. clear -No C1 C2. induction l1 as [ | z l1 IH ]; cbn [app find].
    + apply one_of_In in C1, C2. now rewrite C1, C2.
    + destruct (_ && _) eqn:B; [ | apply IH; intros u J; apply No; now right ]. exfalso. apply andb_true_iff in B. rewrite !one_of_In in B. apply (No z); [ now left | exact B ].
  - split; [ exact C1 | ]. split; [ exact C2 | ]. exists l1, l2. split; [ reflexivity | exact No ].
Qed.

Lemma listed_finish l y : listed = Ok l -> In y l -> finish c P make_proj (y_cs y) = Ok y.
Proof.
  intros H I. destruct (listed_inv _ H) as (ax & m & _ & _ & F). clear H. induction F as [ | p z m l E F IH ]; [ destruct I | ]. destruct I as [<-|I]; [ | auto ].
  assert (K := finish_inv _ _ E). destruct K as [K _]. now rewrite K.
Qed.

(** the systems are in the order of their identifiers, no two have the same names of axes *)
Theorem C90_order : forall l, listed = Ok l -> StronglySorted slt (map (fun y => cs_id (y_cs y)) l) /\
  forall l1 y l2 z l3, l = l1 ++ y :: l2 ++ z :: l3 ->
    ~ (forall n, (exists a, In a (get_axes (y_cs y)) /\ ax_name a = n) <-> exists a, In a (get_axes (y_cs z)) /\ ax_name a = n).
Proof.
  intros l H. destruct (listed_all _ H) as (ax & m & E & A & S & M & Sm & T & V).
  assert (K : map (fun y => cs_id (y_cs y)) l = skeys m).
  { rewrite <- map_map, <- M, map_map. unfold skeys. apply map_ext_in. intros p I.
    assert (X : sfind (fst p) m = Some (snd p)).
    { apply ssorted_NoDup in Sm. clear -Sm I. induction m as [ | [k x] m IH ]; [ destruct I | ]. cbn [skeys map fst] in Sm. apply NoDup_cons_iff in Sm. destruct Sm as [N Sm]. cbn [sfind].
      destruct I as [<-|I]; cbn [fst snd]; [ now rewrite String.eqb_refl | ]. destruct (String.eqb_spec (fst p) k) as [<-|D]; [ | auto ]. destruct N. apply in_map. exact I. }
    apply V in X. symmetry. apply X. }
  rewrite K. split; [ exact Sm | ]. intros l1 y l2 z l3 -> Q.
  assert (Id : cs_id (y_cs y) = cs_id (y_cs z)) by (apply names_id; intro n; rewrite !get_axes_names; apply Q).
  apply ssorted_NoDup in Sm. rewrite <- K, !map_app in Sm. cbn [map] in Sm. rewrite map_app in Sm. cbn [map] in Sm. apply NoDup_remove_2 in Sm. apply Sm. rewrite Id.
  apply in_or_app; right. apply in_or_app; right. now left.
Qed.

(** isSimpleSpatialGridded: the horizontal axes are dimensions, their variables, where there are any, have one dimension *)
Definition simple_dim (a : axis) : Prop :=
  has_dim c (ax_name a) = true /\ forall v, find_var (ax_name a) (vars c) = Some v -> length (v_shape v) = 1.
Lemma simple_axis_spec o : simple_axis c o = true <-> exists a, o = Some a /\ simple_dim a.
Proof.
  unfold simple_axis, simple_dim, explicit, axis_shape. destruct o as [a|]; [ | split; [ discriminate | intros (a & E & _); discriminate ] ].
  rewrite andb_true_iff, PeanoNat.Nat.eqb_eq. destruct (find_var (ax_name a) (vars c)) as [v|] eqn:F; split.
  - intros [D L]. exists a. split; [ reflexivity | ]. split; [ exact D | ]. intros w E. rewrite F in E. injection E as <-. exact L.
  - intros (b & E & D & L). injection E as <-. auto.
  - intros [D L]. exists a. split; [ reflexivity | ]. split; [ exact D | ]. intros w E. rewrite F in E. discriminate.
  - intros (b & E & D & L). injection E as <-. auto.
Qed.
Theorem C90_simple : forall l y, listed = Ok l -> In y l ->
  (y_simple y = true <-> exists a b, geo_x (y_cs y) = Some a /\ geo_y (y_cs y) = Some b /\ simple_dim a /\ simple_dim b).
Proof.
  intros l y H I. assert (F := listed_finish l y H I). apply finish_inv in F. destruct F as (_ & _ & _ & -> & _). unfold simple. rewrite andb_true_iff, !simple_axis_spec.
  split; [ intros [(a & A1 & A2) (b & B1 & B2)]; exists a, b; auto | intros (a & b & A1 & B1 & A2 & B2); split; [ exists a | exists b ]; split; assumption ].
Qed.

(** the projection is that of the first variable with this system that names a variable as its
    grid_mapping, or has none and longitude and latitude as dimensions *)
Definition mapped (y : sys P) (v : cvar) (g : string) : Prop :=
  In (v_name v) (y_complete y) /\ In (v_name v) (y_for y) /\ att c (v_name v) "grid_mapping" = Some g /\ has_var c g = true.
Definition lonlat (y : sys P) (v : cvar) : Prop :=
  In (v_name v) (y_complete y) /\ In (v_name v) (y_for y) /\ att c (v_name v) "grid_mapping" = None /\ y_simple y = true /\
  exists a b a' b', geo_x (y_cs y) = Some a /\ find_axis (y_cs y) Lon = Some a' /\ ax_name a = ax_name a' /\ geo_y (y_cs y) = Some b /\ find_axis (y_cs y) Lat = Some b' /\ ax_name b = ax_name b'.
Definition gives (y : sys P) (v : cvar) : Prop := (exists g, mapped y v g) \/ lonlat y v.

Lemma lonlat_axes_spec cs : lonlat_axes cs = true <-> exists a b a' b', geo_x cs = Some a /\ find_axis cs Lon = Some a' /\ ax_name a = ax_name a' /\ geo_y cs = Some b /\ find_axis cs Lat = Some b' /\ ax_name b = ax_name b'.
Proof.
  unfold lonlat_axes. destruct (geo_x cs) as [a|], (find_axis cs Lon) as [a'|], (geo_y cs) as [b|], (find_axis cs Lat) as [b'|];
    try (split; [ discriminate | intros (? & ? & ? & ? & ? & ? & ? & ? & ? & ?); discriminate ]).
  rewrite andb_true_iff, !String.eqb_eq. split; [ intros [E1 E2]; exists a, b, a', b'; repeat split; auto | ].
  intros (a1 & b1 & a1' & b1' & A1 & A2 & A3 & B1 & B2 & B3). split; congruence.
Qed.
Lemma proj_loop_spec y l : forall p, y_simple y = simple c (y_cs y) -> proj_loop c P make_proj (y_cs y) (y_complete y) (y_for y) l = Ok p ->
  (p = (None, []) /\ forall v, In v l -> ~ gives y v) \/
  (exists l1 v l2 q, l = l1 ++ v :: l2 /\ (forall w, In w l1 -> ~ gives y w) /\
     ((exists g, mapped y v g /\ make_proj (attrs_of c g) = Ok q /\ p = (Some q, [g])) \/
      (lonlat y v /\ make_proj [mkAttr "grid_mapping_name" DString [] "latitude_longitude"] = Ok q /\ p = (Some q, [])))).
Proof.
  intros p Si. induction l as [ | v l IH ]; cbn [proj_loop]; intro H.
  - left. injection H as <-. split; [ reflexivity | intros v [] ].
  - assert (Skip : ~ gives y v -> proj_loop c P make_proj (y_cs y) (y_complete y) (y_for y) l = Ok p ->
      (p = (None, []) /\ forall w, In w (v :: l) -> ~ gives y w) \/
      (exists l1 u l2 q, v :: l = l1 ++ u :: l2 /\ (forall w, In w l1 -> ~ gives y w) /\
       ((exists g, mapped y u g /\ make_proj (attrs_of c g) = Ok q /\ p = (Some q, [g])) \/
        (lonlat y u /\ make_proj [mkAttr "grid_mapping_name" DString [] "latitude_longitude"] = Ok q /\ p = (Some q, []))))).
    { intros N K. destruct (IH K) as [[E F]|(l1 & u & l2 & q & -> & F & R)].
      - left. split; [ exact E | ]. intros w [<-|J]; auto.
      - right. exists (v :: l1), u, l2, q. split; [ reflexivity | ]. split; [ | exact R ]. intros w [<-|J]; auto. }
    destruct (one_of (v_name v) (y_for y) && one_of (v_name v) (y_complete y)) eqn:B.
    + apply andb_true_iff in B. rewrite !one_of_In in B. destruct B as [B1 B2]. destruct (att c (v_name v) "grid_mapping") as [g|] eqn:G.
      * destruct (has_var c g) eqn:Hg.
        -- destruct (make_proj (attrs_of c g)) as [q| | |] eqn:Q; try discriminate. injection H as <-. right. exists [], v, l, q. split; [ reflexivity | ]. split; [ intros w [] | ]. left. exists g. unfold mapped. auto 6.
        -- apply Skip; [ | exact H ]. intros [(g' & _ & _ & G' & Hg')|(_ & _ & G' & _)]; congruence.
      * destruct (simple c (y_cs y) && lonlat_axes (y_cs y)) eqn:L.
        -- apply andb_true_iff in L. destruct L as [L1 L2]. apply lonlat_axes_spec in L2. destruct (make_proj [_]) as [q| | |] eqn:Q; try discriminate. injection H as <-. right. exists [], v, l, q. split; [ reflexivity | ]. split; [ intros w [] | ].
           right. unfold lonlat. rewrite Si. auto 7.
        -- apply Skip; [ | exact H ]. intros [(g' & _ & _ & G' & Hg')|(_ & _ & _ & Y & Z)]; [ congruence | ]. rewrite Si in Y. apply lonlat_axes_spec in Z. rewrite Y, Z in L. discriminate.
    + apply Skip; [ | exact H ]. intro X. assert (Y : In (v_name v) (y_complete y) /\ In (v_name v) (y_for y)) by (destruct X as [(g & A1 & A2 & _)|(A1 & A2 & _)]; auto).
      rewrite <- !one_of_In in Y. destruct Y as [Y1 Y2]. rewrite Y1, Y2 in B. discriminate.
Qed.
Theorem C90_projection : forall l y, listed = Ok l -> In y l ->
  (y_proj y = None /\ forall v, In v (vars c) -> ~ gives y v) \/
  (exists l1 v l2 p, vars c = l1 ++ v :: l2 /\ y_proj y = Some p /\ (forall w, In w l1 -> ~ gives y w) /\
     ((exists g, mapped y v g /\ make_proj (attrs_of c g) = Ok p /\ In g (y_deps y)) \/
      (lonlat y v /\ make_proj [mkAttr "grid_mapping_name" DString [] "latitude_longitude"] = Ok p))).
Proof.
  intros l y H I. assert (F := listed_finish l y H I). apply finish_inv in F. destruct F as (_ & _ & _ & Si & p & v & Q & _ & -> & _ & D).
  destruct (proj_loop_spec y (vars c) p Si Q) as [[-> N]|(l1 & w & l2 & q & L & N & [(g & M & K & ->)|(M & K & ->)])]; [ left; auto | right | right ].
  - exists l1, w, l2, q. split; [ exact L | ]. split; [ reflexivity | ]. split; [ exact N | ]. left. exists g. split; [ exact M | ]. split; [ exact K | ]. rewrite D. now left.
  - exists l1, w, l2, q. auto 6.
Qed.

(** the variables with the bounds of the axes belong to the system *)
Theorem C90_bounds : forall l y a b, listed = Ok l -> In y l -> In a (get_axes (y_cs y)) -> has_var c (ax_name a) = true ->
  att c (ax_name a) "bounds" = Some b -> has_var c b = true -> In b (y_deps y).
Proof.
  intros l y a b H I A V B W. assert (F := listed_finish l y H I). apply finish_inv in F. destruct F as (_ & _ & _ & Si & p & v & Q & _ & _ & _ & D).
  rewrite D. apply in_or_app; right. apply in_or_app; right. unfold bounds. apply in_flat_map. exists a. split; [ exact A | ]. rewrite V, B, W. now left.
Qed.
(** every dependency exists *)
Theorem C90_dependencies_exist : forall l y n, listed = Ok l -> In y l -> In n (y_deps y) -> has_var c n = true.
Proof.
  intros l y n H I J. assert (F := listed_finish l y H I). apply finish_inv in F. destruct F as (_ & _ & _ & Si & p & v & Q & Ve & _ & _ & D). rewrite D in J.
  apply in_app_or in J. destruct J as [J|J]; [ | apply in_app_or in J; destruct J as [J|J] ].
  - destruct (proj_loop_spec y (vars c) p Si Q) as [[-> N]|(l1 & w & l2 & q & L & N & [(g & M & K & ->)|(M & K & ->)])]; cbn [snd] in J; try (destruct J; fail).
    destruct J as [<-|[]]. apply M.
  - unfold vertical in Ve. destruct (geo_z (y_cs y)) as [z|]; [ | injection Ve as <-; destruct J ]. destruct (has_var c (ax_name z)); [ | injection Ve as <-; destruct J ].
    assert (G : forall o, (do l <- match att c (ax_name z) "formula_terms" with None => Ok [] | Some f => formula_terms f end;
            let k := known_terms c l in
            do v <- match att c (ax_name z) "standard_name" with
                    | None => Ok None
                    | Some s => by_formula c (y_cs y) s (fold_left (fun m p => sput (fst p) (snd p) m) k [])
                    end;
            Ok (v, map snd k)) = Ok o -> In n (snd o) -> has_var c n = true).
    { intros o E K. destruct (match att c (ax_name z) "formula_terms" with None => _ | Some f => _ end) as [tl| | |]; try discriminate. cbn [obind] in E. cbv zeta in E.
      destruct (match att c (ax_name z) "standard_name" with None => _ | Some f => _ end) as [x| | |]; try discriminate. injection E as <-. cbn [snd] in K. apply in_map_iff in K. destruct K as (q & <- & K). apply filter_In in K. apply K. }
    destruct (ax_type z); try (injection Ve as <-; destruct J; fail); now apply (G v).
  - unfold bounds in J. apply in_flat_map in J. destruct J as (a & _ & J). destruct (has_var c (ax_name a)); [ | destruct J ]. destruct (att c (ax_name a) "bounds") as [b|]; [ | destruct J ].
    destruct (has_var c b) eqn:E; [ | destruct J ]. destruct J as [<-|[]]. exact E.
Qed.
End Cf.

(** ** findings and a concrete case *)

(** units: hours are times, m and km lengths *)
Definition ex_time (u : string) : bool := holds "since" u.
Definition ex_conv (a b : string) : bool := String.eqb a b.
Definition ex_proj (l : list cattr) : outcome (list string) := Ok (map CdmModel.a_text l).
Definition txt (n t : string) : cattr := mkAttr n DString [] t.
Definition fv (n : string) (shape : list string) : cvar := mkVar n DFloat shape "" None.
Definition names_of (o : outcome (list (sys (list string)))) : option (list (list string * list string)) :=
  match o with Ok l => Some (map (fun y => (map ax_name (cs_main (y_cs y)), map ax_name (cs_aux (y_cs y)))) l) | _ => None end.
Definition show (c : cdm) := names_of (list_systems c ex_time ex_conv _ ex_proj).
Definition owner (c : cdm) (n : string) : option (option (list string)) :=
  match list_systems c ex_time ex_conv _ ex_proj with
  | Ok l => Some (option_map (fun y => map ax_name (get_axes (y_cs y))) (find_complete l n))
  | _ => None
  end.

(** Finding: one variable with two dimensions of one type makes the listing of the whole file throw *)
Definition two_times : cdm := mkCdm [fv "t" ["time"; "x"]; fv "acc" ["interval"; "time"]; fv "time" ["time"]; fv "interval" ["interval"]]
  [mkDim "time" 2 false; mkDim "interval" 3 false; mkDim "x" 4 false]
  [("interval", [txt "units" "hours since 2000-01-01"]); ("time", [txt "units" "hours since 2000-01-01"])].
Theorem C90_two_times_refuted : list_systems two_times ex_time ex_conv _ ex_proj = Throw /\
  data_var two_times (fv "t" ["time"; "x"]) /\ ~ ambiguous two_times ex_time ex_conv (fv "t" ["time"; "x"]).
Proof.
  split; [ vm_compute; reflexivity | ]. split.
  - split; [ now left | ]. split; [ | exists "time"; left; now left ].
    intros [H|(v & t & [<-|[<-|[<-|[<-|[]]]]] & E & _)]; vm_compute in *; discriminate.
  - intros (n1 & n2 & t & N & U & (A1 & _ & _ & A2) & (B1 & _ & _ & B2)).
    assert (X : forall n, is_axis two_times (fv "t" ["time"; "x"]) n -> n = "time" \/ n = "x").
    { intros n [[<-|[<-|[]]]|(t' & l & E & _)]; auto; vm_compute in E; discriminate. }
    destruct (X _ A1) as [->| ->], (X _ B1) as [->| ->]; vm_compute in A2, B2; congruence.
Qed.

(** Finding: a coordinate with the type of a dimension is left out of the system or not depending on
    the alphabet; when it is left out, no system is the one of the variable *)
Definition more_time (name : string) : cdm := mkCdm [fv "t" ["time"; "x"]; fv "time" ["time"]; fv name ["time"]]
  [mkDim "time" 2 false; mkDim "x" 4 false]
  [("t", [txt "coordinates" name]); ("time", [txt "units" "hours since 2000-01-01"]); (name, [txt "units" "hours since 2000-01-01"])].
Theorem C90_alphabet_refuted :
  show (more_time "analysis") = Some [(["time"; "x"], ["analysis"])] /\ owner (more_time "analysis") "t" = Some (Some ["time"; "x"; "analysis"]) /\
  show (more_time "valid") = Some [(["time"; "x"], [])] /\ owner (more_time "valid") "t" = Some None.
Proof. vm_compute. auto. Qed.

(** Finding: names in an attribute with a line end are no axes *)
Definition line_end (sep : string) : cdm := mkCdm [fv "t" ["x"]; fv "lon" ["x"]; fv "lat" ["x"]] [mkDim "x" 4 false]
  [("t", [txt "coordinates" ("lon lat" ++ sep)%string])].
Theorem C90_line_end_refuted : 
  owner (line_end "") "t" = Some (Some ["x"; "lat"; "lon"]) /\
  owner (line_end (String "010" EmptyString)) "t" = Some None /\
  owner (line_end (String "010" EmptyString)) "lon" = Some (Some ["x"]).
Proof. vm_compute. auto. Qed.

(** Finding: variables with the same names of axes share the system of the first, also where a
    dimension of the one is a coordinate of the other *)
Definition shared (swap : bool) : cdm := let l := [fv "u" ["x"; "y"]; fv "v" ["x"]] in mkCdm (if swap then rev l else l) [mkDim "x" 4 false; mkDim "y" 3 false]
  [("v", [txt "coordinates" "y"])].
Theorem C90_shared_refuted : show (shared false) = Some [(["x"; "y"], [])] /\ show (shared true) = Some [(["x"], ["y"])].
Proof. vm_compute. auto. Qed.

(** Finding: a comma in a name *)
Theorem C90_comma_refuted : exists c, consistent c /\ show c = Some [(["a,b"], [])] /\ owner c "v" = Some None.
Proof.
  exists (mkCdm [fv "u" ["a,b"]; fv "v" ["a"; "b"]] [mkDim "a" 4 false; mkDim "b" 3 false; mkDim "a,b" 2 false] []).
  split; [ | vm_compute; auto ]. constructor.
  - vm_compute. repeat constructor; cbn; intuition discriminate.
  - vm_compute. repeat constructor; cbn; intuition discriminate.
  - constructor.
  - intros n [].
  - intro n. cbn. constructor.
Qed.

(** a name in "coordinates" without variable is an axis as well *)
Example C90_virtual : show (mkCdm [fv "t" ["x"]] [mkDim "x" 4 false] [("t", [txt "coordinates" "nowhere"])]) = Some [(["x"], ["nowhere"])].
Proof. reflexivity. Qed.

Definition ex_file : cdm := mkCdm
  [fv "temp" ["time"; "y"; "x"]; fv "wind" ["time"; "y"; "x"]; fv "mask" ["y"; "x"]; fv "lat" ["y"; "x"]; fv "lon" ["y"; "x"]; fv "proj" [];
   fv "time" ["time"]; fv "time_bnds" ["time"; "nb"]; fv "x" ["x"]; fv "y" ["y"]]
  [mkDim "time" 2 true; mkDim "y" 3 false; mkDim "x" 4 false; mkDim "nb" 2 false]
  [("lat", [txt "units" "degrees_north"]); ("lon", [txt "units" "degrees_east"]); ("mask", [txt "coordinates" "lon lat"]);
   ("proj", [txt "grid_mapping_name" "polar_stereographic"]); 
   ("temp", [txt "coordinates" "lon lat"; txt "grid_mapping" "proj"]); 
   ("time", [txt "units" "hours since 2000-01-01"; txt "bounds" "time_bnds"]); ("wind", [txt "coordinates" "lat lon"]);
   ("x", [txt "standard_name" "projection_x_coordinate"]); ("y", [txt "standard_name" "projection_y_coordinate"])].
Definition summary (o : outcome (list (sys (list string)))) :=
  match o with Ok l => Some (map (fun y => (map ax_name (get_axes (y_cs y)), y_for y, y_complete y, y_simple y, y_proj y, y_deps y)) l) | _ => None end.
Example C90_nonvacuous : data_var ex_file (fv "temp" ["time"; "y"; "x"]) /\ tidy ex_file ex_time ex_conv (fv "temp" ["time"; "y"; "x"]) /\
  summary (list_systems ex_file ex_time ex_conv _ ex_proj) = Some
    [(["time"; "x"; "y"; "lat"; "lon"], ["temp"; "wind"; "mask"; "lat"; "lon"; "proj"; "time"; "x"; "y"], ["temp"; "wind"], true, Some ["polar_stereographic"], ["proj"; "time_bnds"]);
     (["x"; "y"; "lat"; "lon"], ["mask"; "lat"; "lon"; "proj"; "x"; "y"], ["temp"; "wind"; "mask"], true, None, []);
     (["nb"; "time"], ["proj"; "time"; "time_bnds"], ["time_bnds"], false, None, ["time_bnds"])] /\
  owner ex_file "temp" = Some (Some ["time"; "x"; "y"; "lat"; "lon"]).
Proof.
  assert (X : forall n, is_axis ex_file (fv "temp" ["time"; "y"; "x"]) n -> In n ["time"; "y"; "x"; "lon"; "lat"]).
  { intros n [I|(t & l & E & T & I)]; [ cbn in *; tauto | ]. vm_compute in E. injection E as <-. vm_compute in T. injection T as <-. cbn in *. tauto. }
  split; [ | split; [ split | ] ].
  - split; [ now left | ]. split; [ | exists "time"; left; now left ]. intros [H|(v & t & I & E & _ & t' & l' & E' & T & J)]; [ vm_compute in H; discriminate | ].
    rewrite E in E'. injection E' as <-. cbn in I. repeat (destruct I as [<-|I]; [ vm_compute in E; try discriminate E; injection E as <-; vm_compute in T; injection T as <-; cbn in J; intuition discriminate | ]). destruct I.
  - intros n I. apply X in I. cbn in I. destruct I as [<-|[<-|[<-|I]]]; [ left; reflexivity .. | ]. right. exists (fv "temp" ["time"; "y"; "x"]), "lon lat".
    split; [ now left | ]. split; [ reflexivity | ]. split; [ reflexivity | ]. exists "lon lat", ["lon"; "lat"]. split; [ reflexivity | ]. split; [ reflexivity | ]. cbn. tauto.
  - intros n1 n2 t I J. apply X in I, J. cbn in I, J. 
    destruct I as [<-|[<-|[<-|[<-|[<-|[]]]]]], J as [<-|[<-|[<-|[<-|[<-|[]]]]]]; intros T1 T2 U; try reflexivity; vm_compute in T1, T2; congruence.
  - vm_compute. auto.
Qed.

Print Assumptions C90_axes.
Print Assumptions C90_from_variable.
Print Assumptions C90_throws.
Print Assumptions C90_succeeds.
Print Assumptions C90_flags.
Print Assumptions C90_own.
Print Assumptions C90_order.
Print Assumptions C90_simple.
Print Assumptions C90_projection.
Print Assumptions C90_bounds.
Print Assumptions C90_dependencies_exist.
Print Assumptions C90_two_times_refuted.
Print Assumptions C90_alphabet_refuted.
Print Assumptions C90_line_end_refuted.
Print Assumptions C90_shared_refuted.
Print Assumptions C90_comma_refuted.
