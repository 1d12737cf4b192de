(** C94: the coordinate systems for horizontal interpolation. *)
From Coq Require Import PeanoNat NArith Ascii String List Bool Lia Sorted.
From Verif Require Import Base StdMap StringModel AxesModel AxesProofs AxesProps ConvertModel CdmModel CdmProofs NmlModel CfcsModel CfcsProofs CfcsProps BestModel.
Import ListNotations.
Local Open Scope string_scope.
Local Open Scope list_scope.
Local Open Scope nat_scope.

Section Best.
Variable P : Type.
Variable c : cdm.
Variable with_proj : bool.
Variable l : list (sys P).
Local Notation hid y := (horizontal_id (y_cs y)).

(** with a projection the grid must be simple and have one, otherwise longitude and latitude must be known *)
Definition wanted (y : sys P) : Prop :=
  if with_proj then y_simple y = true /\ exists p, y_proj y = Some p
  else (exists a, In a (get_axes (y_cs y)) /\ ax_type a = Lat) /\ exists a, In a (get_axes (y_cs y)) /\ ax_type a = Lon.
(** the last of the wanted systems with the horizontal axes [id] *)
Definition last_with (id : string) (y : sys P) : Prop :=
  exists l1 l2, l = l1 ++ y :: l2 /\ wanted y /\ hid y = id /\ forall z, In z l2 -> wanted z -> hid z <> id.

Lemma usable_spec y : usable P with_proj y = true <-> wanted y.
Proof.
  unfold usable, wanted. destruct with_proj.
  - rewrite andb_true_iff. destruct (y_proj y) as [p|]; split; intros [A B]; split; eauto; [ discriminate | destruct B; discriminate ].
  - rewrite andb_true_iff, !C46_has_type. reflexivity.
Qed.
Lemma by_id_gen k : forall m id, sfind id (fold_left (fun m y => if usable P with_proj y then sput (hid y) y m else m) k m) =
  match find (fun y => usable P with_proj y && String.eqb (hid y) id) (rev k) with Some y => Some y | None => sfind id m end.
Proof.
  induction k as [ | y k IH ]; intros m id; [ reflexivity | ]. cbn [fold_left rev]. rewrite IH.
  assert (FA : forall A (g : A -> bool) l1 l2, find g (l1 ++ l2) = match find g l1 with Some x => Some x | None => find g l2 end).
  { intros A g l1 l2. induction l1 as [ | x l1 IHl ]; [ reflexivity | ]. cbn [app find]. destruct (g x); auto. }
  rewrite FA. destruct (find _ (rev k)); [ reflexivity | ]. cbn [find]. destruct (usable P with_proj y); [ | reflexivity ]. rewrite sfind_sput, (String.eqb_sym id). cbn [andb]. now destruct (String.eqb (hid y) id).
Qed.
Lemma by_id_find id y : sfind id (by_id P with_proj l) = Some y <-> last_with id y.
Proof.
  unfold by_id. rewrite by_id_gen. cbn [sfind]. split.
  - destruct (find _ (rev l)) as [z|] eqn:F; [ | discriminate ]. intro E. injection E as ->. 
    assert (G : forall k, find (fun y => usable P with_proj y && String.eqb (hid y) id) k = Some y -> exists k1 k2, k = k1 ++ y :: k2 /\ wanted y /\ hid y = id /\ forall z, In z k1 -> wanted z -> hid z <> id).
    { induction k as [ | x k IH ]; [ discriminate | ]. cbn [find]. destruct (usable P with_proj x && String.eqb (hid x) id) eqn:B.
      - intro E. injection E as ->. apply andb_true_iff in B. destruct B as [B1 B2]. apply String.eqb_eq in B2. apply usable_spec in B1. exists [], k. split; [ reflexivity | ]. split; [ exact B1 | ]. split; [ exact B2 | intros z [] ].
      - intro E. destruct (IH E) as (k1 & k2 & -> & A1 & A2 & A3). exists (x :: k1), k2. split; [ reflexivity | ]. split; [ exact A1 | ]. split; [ exact A2 | ]. intros z [<-|I]; [ | auto ].
        intros W H. apply usable_spec in W. rewrite W, H, String.eqb_refl in B. discriminate. }
    destruct (G _ F) as (k1 & k2 & E & A1 & A2 & A3). exists (rev k2), (rev k1). split; [ | split; [ exact A1 | split; [ exact A2 | ] ] ].
    + rewrite <- (rev_involutive l), E, rev_app_distr. cbn [rev]. rewrite <- app_assoc. reflexivity.
    + intros z I. apply A3. now apply in_rev.
  - intros (l1 & l2 & -> & W & H & N). rewrite rev_app_distr. cbn [rev]. rewrite <- app_assoc. 
    assert (G : forall k r, (forall z, In z k -> wanted z -> hid z <> id) -> find (fun y => usable P with_proj y && String.eqb (hid y) id) (k ++ y :: r) = Some y).
    { induction k as [ | x k IH ]; intros r K; cbn [app find].
      - apply usable_spec in W. now rewrite W, H, String.eqb_refl.
      - destruct (usable P with_proj x && String.eqb (hid x) id) eqn:B; [ | apply IH; intros z I; apply K; now right ]. exfalso. apply andb_true_iff in B. destruct B as [B1 B2]. apply usable_spec in B1. apply String.eqb_eq in B2. exact (K x (or_introl eq_refl) B1 B2). }
    cbn [app]. rewrite G; [ reflexivity | ]. intros z I. apply N. now apply in_rev.
Qed.
Lemma by_id_sorted : ssorted (by_id P with_proj l).
Proof.
  unfold by_id. assert (G : forall k m, ssorted m -> ssorted (fold_left (fun m y => if usable P with_proj y then sput (hid y) y m else m) k m)).
  { induction k as [ | y k IH ]; intros m S; [ exact S | ]. cbn [fold_left]. apply IH. destruct (usable P with_proj y); [ now apply sput_sorted | exact S ]. }
  apply G, nil_sorted.
Qed.
Lemma wanted_last y : In y l -> wanted y -> exists z, last_with (hid y) z.
Proof.
  intros I W. destruct (sfind (hid y) (by_id P with_proj l)) as [z|] eqn:F; [ exists z; now apply by_id_find | ]. exfalso. unfold by_id in F. rewrite by_id_gen in F.
  destruct (find _ (rev l)) as [z|] eqn:G; [ discriminate | ]. apply (find_none _ _) with (x := y) in G; [ | now apply in_rev in I ]. apply usable_spec in W. now rewrite W, String.eqb_refl in G.
Qed.
Lemma smem_by_id id : smem id (by_id P with_proj l) = true <-> exists y, In y l /\ wanted y /\ hid y = id.
Proof.
  rewrite smem_In, sfind_In. split.
  - intros [y H]. apply by_id_find in H. destruct H as (l1 & l2 & -> & W & H & _). exists y. split; [ apply in_or_app; right; now left | auto ].
  - intros (y & I & W & <-). destruct (wanted_last y I W) as [z Z]. exists z. now apply by_id_find.
Qed.

(** ** the variables *)
Definition assigned (n id : string) : Prop :=
  In n (vnames c) /\ (exists y, find_complete l n = Some y /\ hid y = id) /\ exists z, In z l /\ wanted z /\ hid z = id.
Lemma variables_spec n id : sfind n (variables P c with_proj l) = Some id <-> assigned n id.
Proof.
  unfold variables, assigned, vnames.
  assert (G : forall k m, sfind n (fold_left (fun m v => match find_complete l (v_name v) with
       | Some y => if smem (hid y) (by_id P with_proj l) then sput (v_name v) (hid y) m else m | None => m end) k m) = Some id <->
     (In n (map v_name k) /\ (exists y, find_complete l n = Some y /\ hid y = id) /\ exists z, In z l /\ wanted z /\ hid z = id) \/
     (~ (In n (map v_name k) /\ exists y, find_complete l n = Some y /\ exists z, In z l /\ wanted z /\ hid z = hid y) /\ sfind n m = Some id)).
  { induction k as [ | v k IH ]; intro m; cbn [fold_left map].
    - split; [ intro H; right; split; [ intros [[] _] | exact H ] | intros [[[] _]|[_ H]]; exact H ].
    - rewrite IH. clear IH. cbn [In].
      destruct (string_dec (v_name v) n) as [E|E].
      + rewrite E. destruct (find_complete l n) as [y|] eqn:FC.
        * destruct (smem (hid y) (by_id P with_proj l)) eqn:M.
          -- apply smem_by_id in M. destruct M as (z & Iz & Wz & Hz). rewrite sfind_sput, String.eqb_refl. split.
             ++ intros [(A & B & C)|[A B]]; [ left; auto | ]. injection B as <-. left. split; [ now left | ]. split; [ eauto | ]. exists z. auto.
             ++ intros [(A & (y' & B1 & B2) & C)|[A _]]; [ | exfalso; apply A; split; [ now left | exists y; split; [ reflexivity | exists z; auto ] ] ]. injection B1 as <-.
                destruct (in_dec string_dec n (map v_name k)) as [D|D]; [ left; split; [ exact D | split; [ eauto | exact C ] ] | right; split; [ intros [X _]; contradiction | now rewrite B2 ] ].
          -- assert (NW : ~ exists z, In z l /\ wanted z /\ hid z = hid y) by (rewrite <- smem_by_id; congruence). split.
             ++ intros [(A & B & C)|[A B]]; [ left; auto | right; split; [ | exact B ] ]. intros [_ (y' & B1 & C)]. injection B1 as <-. contradiction.
             ++ intros [(A & (y' & B1 & B2) & C)|[A B]]; [ exfalso; injection B1 as <-; rewrite B2 in NW; contradiction | right; split; [ | exact B ] ]. intros [_ (y' & B1 & C)]. injection B1 as <-. contradiction.
        * split; [ intros [(A & (y' & B & _) & _)|[A B]]; [ discriminate | right; split; [ intros [_ (y' & B1 & _)]; discriminate | exact B ] ] | intros [(A & (y' & B & _) & _)|[A B]]; [ discriminate | right; split; [ intros [_ (y' & B1 & _)]; discriminate | exact B ] ] ].
      + assert (S : forall x, sfind n (sput (v_name v) x m) = sfind n m) by (intro x; rewrite sfind_sput; destruct (String.eqb_spec n (v_name v)); [ congruence | reflexivity ]).
        assert (S' : sfind n (match find_complete l (v_name v) with Some y => if smem (hid y) (by_id P with_proj l) then sput (v_name v) (hid y) m else m | None => m end) = sfind n m).
        { destruct (find_complete l (v_name v)) as [y|]; [ | reflexivity ]. destruct (smem _ _); [ apply S | reflexivity ]. }
        rewrite S'. tauto. }
  rewrite G. cbn [sfind]. split; [ intros [H|[_ H]]; [ exact H | discriminate ] | auto ].
Qed.

(** ** well-formed systems *)
Record sound (y : sys P) : Prop := mkSound {
  s_simple : y_simple y = true -> geo_x (y_cs y) <> None /\ geo_y (y_cs y) <> None;
  s_names : NoDup (map ax_name (get_axes (y_cs y)));
  s_vars : forall a, In a (get_axes (y_cs y)) -> ax_type a <> Undefined -> In (ax_name a) (vnames c) }.
Hypothesis SO : forall y, In y l -> sound y.

Lemma find_axis_In cs t a : find_axis cs t = Some a -> In a (get_axes cs) /\ ax_type a = t.
Proof. intro H. assert (X := C46_find_main_first cs t). rewrite H in X. unfold get_axes. destruct X as [E [I|[I _]]]; (split; [ apply in_or_app; auto | exact E ]). Qed.
Lemma find_axis_has cs t : has_axis_type cs t = match find_axis cs t with Some _ => true | None => false end.
Proof. unfold has_axis_type, find_axis, has_type. destruct (find_type t (cs_main cs)); [ reflexivity | ]. now destruct (find_type t (cs_aux cs)). Qed.
Lemma geo_x_cases cs a : geo_x cs = Some a -> In a (get_axes cs) /\ ((ax_type a = GeoX /\ find_axis cs GeoX = Some a) \/ (ax_type a = Lon /\ find_axis cs GeoX = None /\ find_axis cs Lon = Some a)).
Proof.
  unfold geo_x. cbn [find_axis_any]. destruct (find_axis cs GeoX) as [x|] eqn:E.
  - intro H. injection H as ->. destruct (find_axis_In _ _ _ E). auto.
  - destruct (find_axis cs Lon) as [x|] eqn:F; [ | discriminate ]. intro H. injection H as ->. destruct (find_axis_In _ _ _ F). auto.
Qed.
Lemma geo_y_cases cs a : geo_y cs = Some a -> In a (get_axes cs) /\ ((ax_type a = GeoY /\ find_axis cs GeoY = Some a) \/ (ax_type a = Lat /\ find_axis cs GeoY = None /\ find_axis cs Lat = Some a)).
Proof.
  unfold geo_y. cbn [find_axis_any]. destruct (find_axis cs GeoY) as [x|] eqn:E.
  - intro H. injection H as ->. destruct (find_axis_In _ _ _ E). auto.
  - destruct (find_axis cs Lat) as [x|] eqn:F; [ | discriminate ]. intro H. injection H as ->. destruct (find_axis_In _ _ _ F). auto.
Qed.
Lemma wanted_axes y : In y l -> wanted y -> exists a b, geo_x (y_cs y) = Some a /\ geo_y (y_cs y) = Some b.
Proof.
  intros I W. unfold wanted in W. destruct with_proj.
  - destruct W as [W _]. apply (s_simple y (SO y I)) in W. destruct W as [A B]. destruct (geo_x (y_cs y)) as [a|]; [ | congruence ]. destruct (geo_y (y_cs y)) as [b|]; [ | congruence ]. eauto.
  - destruct W as [A B]. apply C46_has_type in A, B. rewrite find_axis_has in A, B. unfold geo_x, geo_y. cbn [find_axis_any].
    destruct (find_axis (y_cs y) Lat) as [la|]; [ | discriminate ]. destruct (find_axis (y_cs y) Lon) as [lo|]; [ | discriminate ].
    destruct (find_axis (y_cs y) GeoX), (find_axis (y_cs y) GeoY); eauto.
Qed.
Lemma last_In id y : last_with id y -> In y l /\ wanted y /\ hid y = id.
Proof. intros (l1 & l2 & -> & W & H & _). split; [ apply in_or_app; right; now left | auto ]. Qed.

(** *** incompatible variables *)
Definition geo_dim (y : sys P) (d : string) : Prop :=
  exists a w, (geo_x (y_cs y) = Some a \/ geo_y (y_cs y) = Some a) /\ In w (vars c) /\ v_name w = ax_name a /\ In d (v_shape w).
Definition misfit (n : string) : Prop := exists v, In v (vars c) /\ v_name v = n /\ (forall id, ~ assigned n id) /\
  exists id y d, last_with id y /\ (forall a, In a (get_axes (y_cs y)) -> ax_name a <> n) /\ In d (v_shape v) /\ geo_dim y d.
Hypothesis ND : NoDup (vnames c).

Lemma shape_at_ok y a : In y l -> In a (get_axes (y_cs y)) -> ax_type a <> Undefined -> exists w, In w (vars c) /\ v_name w = ax_name a /\ shape_at c (Some a) = Ok (v_shape w).
Proof.
  intros I A T. assert (V := s_vars y (SO y I) a A T). unfold vnames in V. apply in_map_iff in V. destruct V as (w & E & J). exists w. split; [ exact J | ]. split; [ exact E | ].
  unfold shape_at. rewrite <- E. unfold find_var. now rewrite (fnd_unique v_name (vars c) w ND J).
Qed.
Lemma geo_x_typed cs a : geo_x cs = Some a -> In a (get_axes cs) /\ ax_type a <> Undefined.
Proof. intro H. apply geo_x_cases in H. destruct H as [I [[T _]|[T _]]]; (split; [ exact I | rewrite T; discriminate ]). Qed.
Lemma geo_y_typed cs a : geo_y cs = Some a -> In a (get_axes cs) /\ ax_type a <> Undefined.
Proof. intro H. apply geo_y_cases in H. destruct H as [I [[T _]|[T _]]]; (split; [ exact I | rewrite T; discriminate ]). Qed.
Lemma spoilt_spec y : In y l -> wanted y -> exists bad, spoilt P c with_proj l y = Ok bad /\
  forall n, In n bad <-> exists v, In v (vars c) /\ v_name v = n /\ (forall id, ~ assigned n id) /\ (forall a, In a (get_axes (y_cs y)) -> ax_name a <> n) /\ exists d, In d (v_shape v) /\ geo_dim y d.
Proof.
  intros I W. destruct (wanted_axes y I W) as (a & b & GX & GY). destruct (geo_x_typed _ _ GX) as [A1 A2]. destruct (geo_y_typed _ _ GY) as [B1 B2].
  destruct (shape_at_ok y a I A1 A2) as (wa & WA1 & WA2 & WA3). destruct (shape_at_ok y b I B1 B2) as (wb & WB1 & WB2 & WB3).
  unfold spoilt. rewrite GX, GY, WA3, WB3. cbn [obind]. eexists. split; [ reflexivity | ].
  assert (GD : forall d, In d (v_shape wa ++ v_shape wb) <-> geo_dim y d).
  { intro d. rewrite in_app_iff. split.
    - intros [D|D]; [ exists a, wa | exists b, wb ]; auto.
    - intros (e & w & [E|E] & I1 & I2 & I3); rewrite ?GX, ?GY in E; injection E as <-.
      + left. assert (w = wa); [ | congruence ]. assert (F1 := fnd_unique v_name (vars c) w ND I1). assert (F2 := fnd_unique v_name (vars c) wa ND WA1). rewrite I2 in F1. rewrite WA2 in F2. congruence.
      + right. assert (w = wb); [ | congruence ]. assert (F1 := fnd_unique v_name (vars c) w ND I1). assert (F2 := fnd_unique v_name (vars c) wb ND WB1). rewrite I2 in F1. rewrite WB2 in F2. congruence. }
  intro n. rewrite in_map_iff. split.
  - intros (v & <- & J). apply filter_In in J. destruct J as [J B]. apply andb_true_iff in B. destruct B as [B B3]. apply andb_true_iff in B. destruct B as [B4 B5]. apply negb_true_iff in B4, B5. exists v. split; [ exact J | ]. split; [ reflexivity | ]. split; [ | split ].
    + intros id H. apply variables_spec in H. apply smem_nIn in B5. apply B5. apply sfind_In. eauto.
    + intros e E N. assert (one_of (v_name v) (map ax_name (get_axes (y_cs y))) = true); [ | congruence ]. apply one_of_In. rewrite <- N. now apply in_map.
    + apply existsb_exists in B3. destruct B3 as (d & D1 & D2). exists d. split; [ exact D1 | ]. apply GD. now apply one_of_In.
  - intros (v & J & E & NA & NX & d & D1 & D2). exists v. split; [ exact E | ]. apply filter_In. split; [ exact J | ]. rewrite E. apply andb_true_iff. split; [ apply andb_true_iff; split | ].
    + apply negb_true_iff. destruct (one_of _ _) eqn:O; [ | reflexivity ]. apply one_of_In in O. apply in_map_iff in O. destruct O as (e & O1 & O2). exfalso. exact (NX e O2 O1).
    + apply negb_true_iff. apply smem_nIn. rewrite sfind_In. intros [id H]. apply variables_spec in H. exact (NA id H).
    + apply existsb_exists. exists d. split; [ exact D1 | ]. apply one_of_In. now apply GD.
Qed.
Lemma pair_find {A} k v (m : smap A) : ssorted m -> (In (k, v) m <-> sfind k m = Some v).
Proof.
  intro S. apply ssorted_NoDup in S. unfold skeys in S. induction m as [ | [k' v'] m IH ]; [ split; [ intros [] | discriminate ] | ]. cbn [map fst] in S. apply NoDup_cons_iff in S. destruct S as [S1 S2]. cbn [sfind In fst].
  destruct (String.eqb_spec k k') as [E|E].
  - subst k'. split; [ intros [H|H]; [ now injection H as -> | exfalso; apply S1; apply in_map_iff; exists (k, v); auto ] | intro H; injection H as ->; now left ].
  - rewrite <- (IH S2). split; [ intros [H|H]; [ congruence | exact H ] | auto ].
Qed.
Lemma incompatible_spec : exists bad, incompatible P c with_proj l = Ok bad /\ forall n, In n bad <-> misfit n.
Proof.
  unfold incompatible.
  assert (K : forall p, In p (by_id P with_proj l) -> last_with (fst p) (snd p)) by (intros [id y] I; apply (pair_find id y _ by_id_sorted) in I; now apply by_id_find).
  destruct (omapM_exists (fun p => spoilt P c with_proj l (snd p)) (by_id P with_proj l)) as [r R].
  { intros p I. destruct (last_In _ _ (K p I)) as (A & B & _). destruct (spoilt_spec (snd p) A B) as (bad & E & _). eauto. }
  rewrite R. cbn [omap obind]. exists (concat r). split; [ reflexivity | ]. intro n. apply omapM_Forall2 in R. rewrite in_concat. split.
  - intros (bad & J & N). assert (Q : exists p, In p (by_id P with_proj l) /\ spoilt P c with_proj l (snd p) = Ok bad).
    { clear K N. induction R as [ | p b m r E R IH ]; [ destruct J | ]. destruct J as [<-|J]; [ exists p; split; [ now left | exact E ] | ]. destruct (IH J) as (q & Q1 & Q2). exists q. split; [ now right | exact Q2 ]. }
    destruct Q as (p & Q1 & Q2). assert (L := K p Q1). destruct (last_In _ _ L) as (A & B & _). destruct (spoilt_spec (snd p) A B) as (bad' & E & S). rewrite Q2 in E. injection E as <-. apply S in N.
    destruct N as (v & N1 & N2 & N3 & N4 & d & N5 & N6). exists v. split; [ exact N1 | ]. split; [ exact N2 | ]. split; [ exact N3 | ]. exists (fst p), (snd p), d. auto.
  - intros (v & N1 & N2 & N3 & id & y & d & L & N4 & N5 & N6). assert (I : In (id, y) (by_id P with_proj l)) by (apply (pair_find id y _ by_id_sorted); now apply by_id_find).
    destruct (last_In _ _ L) as (A & B & _). destruct (spoilt_spec y A B) as (bad & E & S).
    assert (Q : In bad r).
    { clear K N4 N5 N6 L. induction R as [ | p b m r E' R IH ]; [ destruct I | ]. destruct I as [->|I]; [ cbn [snd] in E'; left; congruence | right; now apply IH ]. }
    exists bad. split; [ exact Q | ]. apply S. exists v. split; [ exact N1 | ]. split; [ exact N2 | ]. split; [ exact N3 | ]. split; [ exact N4 | ]. eauto.
Qed.

(** *** the minimal systems *)
Lemma add_one y main a : sound y -> incl main (get_axes (y_cs y)) -> In a (get_axes (y_cs y)) -> (forall b, In b main -> ax_type b = ax_type a -> b = a) ->
  exists main', add_axis (Ok (mkCs main [])) (Some a) = Ok (mkCs main' []) /\ incl main' (get_axes (y_cs y)) /\ forall b, In b main' <-> b = a \/ In b main.
Proof.
  intros S M A T. assert (U : forall b, In b main -> ax_name b = ax_name a -> b = a).
  { intros b I N. apply M in I. assert (ND' := s_names y S). clear - ND' I A N. induction (get_axes (y_cs y)) as [ | e k IH ]; [ destruct I | ]. cbn [map] in ND'. apply NoDup_cons_iff in ND'. destruct ND' as [D1 D2].
    destruct I as [->|I], A as [->|A]; auto.
    - exfalso. apply D1. rewrite N. now apply in_map.
    - exfalso. apply D1. rewrite <- N. now apply in_map. }
  unfold add_axis. cbn [obind]. unfold set_axis. cbn [cs_main cs_aux]. 
  assert (H : negb (type_eqb (ax_type a) Undefined) && has_type (ax_type a) (remove_axis (ax_name a) main) = false).
  { apply andb_false_iff. right. apply not_true_iff_false. intro H. apply has_type_spec in H. destruct H as (b & I & E). apply in_remove in I. destruct I as [I N]. apply N. now rewrite (T b I E). }
  rewrite H. cbn [fst snd remove_axis filter]. eexists. split; [ reflexivity | ].
  assert (Q : forall b, In b (remove_axis (ax_name a) main ++ [a]) <-> b = a \/ In b main).
  { intro b. rewrite in_app_iff, in_remove. cbn [In]. split; [ intros [[I _]|[<-|[]]]; auto | ]. intros [->|I]; [ auto | ]. destruct (string_dec (ax_name b) (ax_name a)) as [E|E]; [ right; left; symmetry; now apply U | left; auto ]. }
  split; [ | exact Q ]. intros b I. apply Q in I. destruct I as [->|I]; [ exact A | now apply M ].
Qed.
Lemma find_type_unique t k a : In a k -> ax_type a = t -> (forall b, In b k -> ax_type b = t -> b = a) -> find_type t k = Some a.
Proof.
  intros I T U. destruct (find_type t k) as [b|] eqn:F; [ apply find_type_some in F; destruct F as [F1 F2]; f_equal; now apply U | ]. exfalso. now apply (proj1 (find_type_none t k) F a I).
Qed.
Definition minimal_of (y : sys P) (m : mini P) : Prop :=
  (forall a, In a (get_axes (m_cs m)) <-> geo_x (y_cs y) = Some a \/ geo_y (y_cs y) = Some a \/ find_axis (y_cs y) Lon = Some a \/ find_axis (y_cs y) Lat = Some a) /\
  geo_x (m_cs m) = geo_x (y_cs y) /\ geo_y (m_cs m) = geo_y (y_cs y) /\ find_axis (m_cs m) Lon = find_axis (y_cs y) Lon /\ find_axis (m_cs m) Lat = find_axis (y_cs y) Lat /\
  m_proj m = y_proj y /\ forall n, In n (m_for m) <-> assigned n (hid y).
Lemma variables_sorted : ssorted (variables P c with_proj l).
Proof.
  unfold variables. assert (G : forall k m, ssorted m -> ssorted (fold_left (fun m v => match find_complete l (v_name v) with
       | Some y => if smem (hid y) (by_id P with_proj l) then sput (v_name v) (hid y) m else m | None => m end) k m)).
  { induction k as [ | v k IH ]; intros m S; [ exact S | ]. cbn [fold_left]. apply IH. destruct (find_complete l (v_name v)) as [y|]; [ | exact S ]. destruct (smem _ _); [ now apply sput_sorted | exact S ]. }
  apply G, nil_sorted.
Qed.
Lemma minimal_spec y : In y l -> wanted y -> exists m, minimal P c with_proj l y = Ok m /\ minimal_of y m.
Proof.
  intros I W. assert (S := SO y I). destruct (wanted_axes y I W) as (x & ye & GX & GY). destruct (geo_x_cases _ _ GX) as [IX CX]. destruct (geo_y_cases _ _ GY) as [IY CY].
  unfold minimal. rewrite GX, GY. rewrite !find_axis_has.
  destruct (add_one y [] x S) as (m1 & E1 & M1 & Q1); [ intros z [] | exact IX | intros b [] | ]. rewrite E1.
  destruct (add_one y m1 ye S M1 IY) as (m2 & E2 & M2 & Q2).
  { intros b J T. apply Q1 in J. destruct J as [->|[]]. exfalso. destruct CX as [[CX _]|[CX _]], CY as [[CY _]|[CY _]]; congruence. }
  rewrite E2.
  assert (T3 : exists m3, (match find_axis (y_cs y) Lon with Some _ => true | None => false end = false \/ True) /\
     (if match find_axis (y_cs y) Lon with Some _ => true | None => false end then add_axis (Ok (mkCs m2 [])) (find_axis (y_cs y) Lon) else Ok (mkCs m2 [])) = Ok (mkCs m3 []) /\
     incl m3 (get_axes (y_cs y)) /\ forall b, In b m3 <-> find_axis (y_cs y) Lon = Some b \/ In b m2).
  { destruct (find_axis (y_cs y) Lon) as [lo|] eqn:FL.
    - destruct (find_axis_In _ _ _ FL) as [IL TL]. destruct (add_one y m2 lo S M2 IL) as (m3 & E3 & M3 & Q3).
      { intros b J T. apply Q2 in J. rewrite TL in T. destruct J as [->|J]; [ exfalso; destruct CY as [[CY _]|[CY _]]; congruence | ]. apply Q1 in J. destruct J as [->|[]]. destruct CX as [[CX _]|(_ & _ & CX)]; [ congruence | congruence ]. }
      exists m3. split; [ auto | ]. split; [ exact E3 | ]. split; [ exact M3 | ]. intro b. rewrite Q3. split; [ intros [->|J]; auto | intros [J|J]; [ left; congruence | auto ] ].
    - exists m2. split; [ auto | ]. split; [ reflexivity | ]. split; [ exact M2 | ]. intro b. split; [ auto | intros [J|J]; [ discriminate | exact J ] ]. }
  destruct T3 as (m3 & _ & E3 & M3 & Q3). rewrite E3.
  assert (T4 : exists m4, (if match find_axis (y_cs y) Lat with Some _ => true | None => false end then add_axis (Ok (mkCs m3 [])) (find_axis (y_cs y) Lat) else Ok (mkCs m3 [])) = Ok (mkCs m4 []) /\
     forall b, In b m4 <-> find_axis (y_cs y) Lat = Some b \/ In b m3).
  { destruct (find_axis (y_cs y) Lat) as [la|] eqn:FL.
    - destruct (find_axis_In _ _ _ FL) as [IL TL]. destruct (add_one y m3 la S M3 IL) as (m4 & E4 & _ & Q4).
      { intros b J T. apply Q3 in J. rewrite TL in T. destruct J as [J|J]; [ apply find_axis_In in J; destruct J as [_ J]; congruence | ]. apply Q2 in J.
        destruct J as [->|J]; [ destruct CY as [[CY _]|(_ & _ & CY)]; congruence | ]. apply Q1 in J. destruct J as [->|[]]. destruct CX as [[CX _]|[CX _]]; congruence. }
      exists m4. split; [ exact E4 | ]. intro b. rewrite Q4. split; [ intros [->|J]; auto | intros [J|J]; [ left; congruence | auto ] ].
    - exists m3. split; [ reflexivity | ]. intro b. split; [ auto | intros [J|J]; [ discriminate | exact J ] ]. }
  destruct T4 as (m4 & E4 & Q4). rewrite E4. cbn [obind]. eexists. split; [ reflexivity | ].
  assert (Q : forall a, In a m4 <-> a = x \/ a = ye \/ find_axis (y_cs y) Lon = Some a \/ find_axis (y_cs y) Lat = Some a).
  { intro a. rewrite Q4, Q3, Q2, Q1. cbn [In]. tauto. }
  assert (FM : forall t, find_axis (mkCs m4 []) t = find_type t m4) by (intro t; unfold find_axis; cbn [cs_main cs_aux]; now destruct (find_type t m4)).
  assert (LO : find_type Lon m4 = find_axis (y_cs y) Lon).
  { destruct (find_axis (y_cs y) Lon) as [lo|] eqn:FL.
    - destruct (find_axis_In _ _ _ FL) as [IL TL]. apply find_type_unique; [ apply Q; auto | exact TL | ]. intros b J T. apply Q in J. destruct J as [->|[->|[J|J]]].
      + destruct CX as [[CX _]|(_ & _ & CX)]; congruence.
      + destruct CY as [[CY _]|[CY _]]; congruence.
      + congruence.
      + apply find_axis_In in J. destruct J; congruence.
    - apply find_type_none. intros b J T. apply Q in J. destruct J as [->|[->|[J|J]]].
      + destruct CX as [[CX _]|(_ & _ & CX)]; congruence.
      + destruct CY as [[CY _]|[CY _]]; congruence.
      + congruence.
      + apply find_axis_In in J. destruct J; congruence. }
  assert (LA : find_type Lat m4 = find_axis (y_cs y) Lat).
  { destruct (find_axis (y_cs y) Lat) as [la|] eqn:FL.
    - destruct (find_axis_In _ _ _ FL) as [IL TL]. apply find_type_unique; [ apply Q; auto | exact TL | ]. intros b J T. apply Q in J. destruct J as [->|[->|[J|J]]].
      + destruct CX as [[CX _]|[CX _]]; congruence.
      + destruct CY as [[CY _]|(_ & _ & CY)]; congruence.
      + apply find_axis_In in J. destruct J; congruence.
      + congruence.
    - apply find_type_none. intros b J T. apply Q in J. destruct J as [->|[->|[J|J]]].
      + destruct CX as [[CX _]|[CX _]]; congruence.
      + destruct CY as [[CY _]|(_ & _ & CY)]; congruence.
      + apply find_axis_In in J. destruct J; congruence.
      + congruence. }
  assert (XX : geo_x (mkCs m4 []) = Some x).
  { unfold geo_x. cbn [find_axis_any]. rewrite !FM, LO. destruct CX as [[CX FX]|(CX & NX & FX)].
    - rewrite (find_type_unique GeoX m4 x); [ reflexivity | apply Q; auto | exact CX | ]. intros b J T. apply Q in J. destruct J as [->|[->|[J|J]]]; [ reflexivity | destruct CY as [[CY _]|[CY _]]; congruence | apply find_axis_In in J; destruct J; congruence | apply find_axis_In in J; destruct J; congruence ].
    - assert (N : find_type GeoX m4 = None); [ | now rewrite N, FX ]. apply find_type_none. intros b J T. apply Q in J. destruct J as [->|[->|[J|J]]]; [ congruence | destruct CY as [[CY _]|[CY _]]; congruence | apply find_axis_In in J; destruct J; congruence | apply find_axis_In in J; destruct J; congruence ]. }
  assert (YY : geo_y (mkCs m4 []) = Some ye).
  { unfold geo_y. cbn [find_axis_any]. rewrite !FM, LA. destruct CY as [[CY FY]|(CY & NY & FY)].
    - rewrite (find_type_unique GeoY m4 ye); [ reflexivity | apply Q; auto | exact CY | ]. intros b J T. apply Q in J. destruct J as [->|[->|[J|J]]]; [ destruct CX as [[CX _]|[CX _]]; congruence | reflexivity | apply find_axis_In in J; destruct J; congruence | apply find_axis_In in J; destruct J; congruence ].
    - assert (N : find_type GeoY m4 = None); [ | now rewrite N, FY ]. apply find_type_none. intros b J T. apply Q in J. destruct J as [->|[->|[J|J]]]; [ destruct CX as [[CX _]|[CX _]]; congruence | congruence | apply find_axis_In in J; destruct J; congruence | apply find_axis_In in J; destruct J; congruence ]. }
  assert (HI : horizontal_id (mkCs m4 []) = hid y) by (unfold horizontal_id; now rewrite XX, YY, GX, GY).
  unfold minimal_of. cbn [m_cs m_proj m_for]. split; [ | split; [ congruence | split; [ congruence | split; [ now rewrite FM | split; [ now rewrite FM | split; [ reflexivity | ] ] ] ] ] ].
  - intro a. unfold get_axes at 1. cbn [cs_main cs_aux]. rewrite app_nil_r, Q, GX, GY. split; [ intros [->|[->|J]]; auto | intros [J|[J|J]]; [ left; congruence | right; left; congruence | auto ] ].
  - intro n. rewrite <- variables_spec, HI. unfold skeys. rewrite in_map_iff. split.
    + intros ([k v] & <- & J). apply filter_In in J. destruct J as [J B]. cbn [fst snd] in *. apply String.eqb_eq in B. subst v. now apply (pair_find k (hid y) _ variables_sorted).
    + intro F. exists (n, hid y). split; [ reflexivity | ]. apply filter_In. split; [ now apply (pair_find n (hid y) _ variables_sorted) | ]. cbn [snd]. apply String.eqb_refl.
Qed.

(** ** the property *)
Theorem C94_found : exists ms vs bad, best P c with_proj l = Ok (ms, vs, bad) /\
  (StronglySorted slt (skeys ms) /\ forall id, In id (skeys ms) <-> exists y, In y l /\ wanted y /\ hid y = id) /\
  (forall id m, sfind id ms = Some m -> exists y, last_with id y /\ minimal_of y m) /\
  (forall n id, sfind n vs = Some id <-> assigned n id) /\
  (forall n, In n bad <-> misfit n).
Proof.
  unfold best. destruct (by_id P with_proj l) as [ | p0 k0 ] eqn:B.
  - assert (N : forall id, ~ exists y, In y l /\ wanted y /\ hid y = id) by (intros id H; apply smem_by_id in H; rewrite B in H; discriminate).
    exists [], [], []. split; [ reflexivity | ]. split; [ split; [ constructor | intro id; split; [ intros [] | intro H; exfalso; exact (N id H) ] ] | ]. split; [ discriminate | ]. split.
    + intros n id. split; [ discriminate | intros (_ & _ & H); exfalso; exact (N id H) ].
    + intro n. split; [ intros [] | ]. intros (v & _ & _ & _ & id & y & d & L & _). exfalso. apply (N id). exists y. now apply last_In.
  - rewrite <- B. clear B. destruct incompatible_spec as (bad & EB & SB). rewrite EB. cbn [obind].
    assert (K : forall p, In p (by_id P with_proj l) -> last_with (fst p) (snd p)) by (intros [id y] I; apply (pair_find id y _ by_id_sorted) in I; now apply by_id_find).
    destruct (omapM_exists (fun p => do m <- minimal P c with_proj l (snd p); Ok (fst p, m)) (by_id P with_proj l)) as [ms M].
    { intros p I. destruct (last_In _ _ (K p I)) as (A & W & _). destruct (minimal_spec (snd p) A W) as (m & E & _). rewrite E. cbn [obind]. eauto. }
    rewrite M. cbn [obind]. apply omapM_Forall2 in M. exists ms, (variables P c with_proj l), bad. split; [ reflexivity | ].
    assert (KE : skeys ms = skeys (by_id P with_proj l)).
    { clear K. induction M as [ | p q m r E M IH ]; [ reflexivity | ]. destruct (minimal P c with_proj l (snd p)) as [w| | |]; try discriminate. cbn [obind] in E. injection E as <-. cbn [skeys map fst]. f_equal. exact IH. }
    split; [ split | split; [ | split ] ].
    + rewrite KE. exact by_id_sorted.
    + intro id. rewrite KE, <- smem_In. apply smem_by_id.
    + intros id m F. assert (I : In (id, m) ms). { clear - F. induction ms as [ | [k v] ms IH ]; [ discriminate | ]. cbn [sfind] in F. destruct (String.eqb_spec id k) as [->|_]; [ injection F as ->; now left | right; now apply IH ]. }
      assert (Q : exists y, In (id, y) (by_id P with_proj l) /\ minimal P c with_proj l y = Ok m).
      { clear K KE F. induction M as [ | p q b r E M IH ]; [ destruct I | ]. destruct I as [->|I].
        - destruct (minimal P c with_proj l (snd p)) as [w| | |] eqn:MM; try discriminate. cbn [obind] in E. injection E as <- <-. exists (snd p). split; [ left; now destruct p | exact MM ].
        - destruct (IH I) as (y & Y1 & Y2). exists y. split; [ now right | exact Y2 ]. }
      destruct Q as (y & Y1 & Y2). exists y. assert (L := K _ Y1). cbn [fst snd] in L. split; [ exact L | ]. destruct (last_In _ _ L) as (A & W & _). destruct (minimal_spec y A W) as (m' & E & Z). rewrite Y2 in E. injection E as <-. exact Z.
    + intros n id. apply variables_spec.
    + exact SB.
Qed.
End Best.

(** the systems listed for a CF file are well-formed *)
Theorem C94_listed : forall c is_time conv P make l y, consistent c ->
  list_systems c is_time conv P make = Ok l -> In y l ->
  (forall a, In a (get_axes (y_cs y)) -> ax_name a <> global_ns) -> sound P c y.
Proof.
  intros c is_time conv P make l y CO H I AG. destruct (C90_from_variable c is_time conv P make l y H I) as (l1 & v & l2 & E & DV & NA & M & A & SM & SA).
  constructor.
  - intro S. apply (C90_simple c is_time conv P make l y H I) in S. destruct S as (a & b & -> & -> & _). split; discriminate.
  - unfold get_axes. rewrite map_app. apply nodup_app_iff.
    assert (ND : forall k, StronglySorted slt k -> NoDup k).
    { intros k K. induction K as [ | x k K IH F ]; constructor; [ | exact IH ]. intro J. rewrite Forall_forall in F. exact (slt_irrefl x (F x J)). }
    split; [ apply ND, SM | ]. split; [ apply ND, SA | ]. intros n J K. apply in_map_iff in J. destruct J as (a & <- & J). apply in_map_iff in K. destruct K as (b & E' & K).
    apply M in J. destruct J as [(_ & J & _) _]. apply A in K. destruct K as [(K & _) _]. rewrite E' in K. contradiction.
  - intros a J T. assert (TY : axis_type_of c is_time conv (ax_name a) = Ok (ax_type a)).
    { unfold get_axes in J. apply in_app_or in J. destruct J as [J|J]; [ apply M in J; destruct J as [(_ & _ & _ & J) _]; exact J | apply A in J; destruct J as [(_ & _ & J) _]; exact J ]. }
    destruct (in_dec string_dec (ax_name a) (vnames c)) as [V|V]; [ exact V | ]. exfalso. apply T.
    assert (NA' : forall k, att c (ax_name a) k = None).
    { intro k. unfold att, get_attr. assert (Z : sfind (ax_name a) (attrs c) = None).
      { destruct (sfind (ax_name a) (attrs c)) as [x|] eqn:F; [ | reflexivity ]. exfalso. assert (K : In (ax_name a) (skeys (attrs c))) by (apply sfind_In; eauto). apply (c_owner c CO) in K. destruct K as [K|K]; [ exact (AG a J K) | contradiction ]. }
      now rewrite Z. }
    unfold axis_type_of in TY. rewrite !NA' in TY. cbn [obind] in TY. congruence.
Qed.
Theorem C94_cf : forall c is_time conv P make l with_proj, consistent c -> list_systems c is_time conv P make = Ok l ->
  (forall y a, In y l -> In a (get_axes (y_cs y)) -> ax_name a <> global_ns) -> exists ms vs bad, best P c with_proj l = Ok (ms, vs, bad).
Proof.
  intros c is_time conv P make l with_proj CO H AG. destruct (C94_found P c with_proj l) as (ms & vs & bad & E & _).
  - intros y I. eapply C94_listed; eauto.
  - apply (c_vars c CO).
  - eauto.
Qed.

(** ** findings and a concrete case *)
Definition bfile (wind mask : list cattr) (more : list cvar) : cdm := mkCdm
  ([fv "temp" ["time"; "y"; "x"]; fv "wind" ["time"; "y"; "x"]; fv "mask" ["y"; "x"]; fv "lat" ["y"; "x"]; fv "lon" ["y"; "x"]; fv "proj" []; fv "proj2" []; fv "time" ["time"]; fv "x" ["x"]; fv "y" ["y"]] ++ more)
  [mkDim "time" 0 true; mkDim "x" 4 false; mkDim "y" 3 false]
  [("lat", [txt "units" "degrees_north"]); ("lon", [txt "units" "degrees_east"]); ("mask", mask);
   ("proj", [txt "grid_mapping_name" "polar_stereographic"]); ("proj2", [txt "grid_mapping_name" "mercator"]);
   ("temp", [txt "coordinates" "lon lat"; txt "grid_mapping" "proj"]); ("time", [txt "units" "hours since 2000-01-01"]); ("wind", wind);
   ("x", [txt "standard_name" "projection_x_coordinate"]); ("y", [txt "standard_name" "projection_y_coordinate"])].
Definition on_grid (p : string) := [txt "coordinates" "lat lon"; txt "grid_mapping" p].
Definition tell (with_proj : bool) (c : cdm) :=
  match list_systems c ex_time ex_conv _ ex_proj with
  | Ok l => match best _ c with_proj l with Ok (ms, vs, bad) => Some (map (fun p => (fst p, map ax_name (get_axes (m_cs (snd p))), m_proj (snd p), m_for (snd p))) ms, vs, bad) | _ => None end
  | _ => None
  end.
(** Finding: of the systems with the same horizontal axes the last one counts; when one variable does not
    name its longitudes and latitudes these become incompatible variables *)
Theorem C94_coordinates_refuted :
  tell true (bfile (on_grid "proj") (on_grid "proj") []) =
    Some ([("x,y", ["x"; "y"; "lon"; "lat"], Some ["polar_stereographic"], ["mask"; "temp"; "wind"])], [("mask", "x,y"); ("temp", "x,y"); ("wind", "x,y")], []) /\
  tell true (bfile [txt "grid_mapping" "proj"] (on_grid "proj") []) =
    Some ([("x,y", ["x"; "y"], Some ["polar_stereographic"], ["mask"; "temp"; "wind"])], [("mask", "x,y"); ("temp", "x,y"); ("wind", "x,y")], ["lat"; "lon"]).
Proof. split; [ vm_compute; reflexivity | vm_compute; reflexivity ]. Qed.
(** Finding: variables with another grid mapping on the same axes get the projection of the last system *)
Theorem C94_projection_refuted :
  tell true (bfile (on_grid "proj") (on_grid "proj2") []) =
    Some ([("x,y", ["x"; "y"; "lon"; "lat"], Some ["mercator"], ["mask"; "temp"; "wind"])], [("mask", "x,y"); ("temp", "x,y"); ("wind", "x,y")], []).
Proof. vm_compute. reflexivity. Qed.
(** Finding: when some variable has the horizontal axes only and does not name its longitudes and latitudes,
    these are taken for data of the system they belong to *)
Theorem C94_axes_refuted :
  tell true (bfile (on_grid "proj") [] []) = Some ([("x,y", ["x"; "y"; "lon"; "lat"], Some ["polar_stereographic"], ["lat"; "lon"; "mask"; "temp"; "wind"])],
    [("lat", "x,y"); ("lon", "x,y"); ("mask", "x,y"); ("temp", "x,y"); ("wind", "x,y")], []).
Proof. vm_compute. reflexivity. Qed.
Example C94_nonvacuous :
  tell false (bfile (on_grid "proj") (on_grid "proj") [fv "row" ["y"]]) =
    Some ([("x,y", ["x"; "y"; "lon"; "lat"], Some ["polar_stereographic"], ["mask"; "temp"; "wind"])], [("mask", "x,y"); ("temp", "x,y"); ("wind", "x,y")], ["row"]) /\
  tell true (bfile [] [] [fv "row" ["y"]]) = Some ([("x,y", ["x"; "y"; "lon"; "lat"], Some ["polar_stereographic"], ["lat"; "lon"; "mask"; "temp"; "wind"])], [("lat", "x,y"); ("lon", "x,y"); ("mask", "x,y"); ("temp", "x,y"); ("wind", "x,y")], ["row"]) /\
  tell true (mkCdm [fv "a" ["x"]] [mkDim "x" 2 false] []) = Some ([], [], []).
Proof. split; [ vm_compute; reflexivity | split; [ vm_compute; reflexivity | vm_compute; reflexivity ] ]. Qed.

Print Assumptions C94_found.
Print Assumptions C94_listed.
Print Assumptions C94_cf.
Print Assumptions C94_coordinates_refuted.
Print Assumptions C94_projection_refuted.
Print Assumptions C94_axes_refuted.
