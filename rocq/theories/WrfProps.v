(** C110: coordinate systems of files of the WRF model. *)
From Coq Require Import PeanoNat ZArith QArith Qcanon Ascii String List Bool Lia.
From Verif Require Import Base WrfModel.
Import ListNotations.
Local Open Scope string_scope.
Local Open Scope list_scope.
Local Open Scope nat_scope.

(** ** Numbers *)
Lemma qn_add a b : qn (a + b) = (qn a + qn b)%Qc.
Proof.
  unfold qn. apply Qc_is_canon. cbn [this Q2Qc Qcplus]. rewrite !Qred_correct.
  unfold Qeq, Qplus. cbn. lia.
Qed.
Lemma qn_opp a : qn (- a) = (- qn a)%Qc.
Proof.
  unfold qn. apply Qc_is_canon. cbn [this Q2Qc Qcopp]. rewrite !Qred_correct.
  unfold Qeq, Qopp. cbn. lia.
Qed.
Lemma qn_sub a b : qn (a - b) = (qn a - qn b)%Qc.
Proof. unfold Z.sub. rewrite qn_add, qn_opp. reflexivity. Qed.
Lemma qn_mul a b : qn (a * b) = (qn a * qn b)%Qc.
Proof.
  unfold qn. apply Qc_is_canon. cbn [this Q2Qc Qcmult]. rewrite !Qred_correct.
  unfold Qeq, Qmult. cbn. lia.
Qed.
Lemma qn_one : qn 1 = 1%Qc. Proof. apply Qc_is_canon. reflexivity. Qed.
Lemma qn_two : qn 2 = (1 + 1)%Qc. Proof. apply Qc_is_canon. reflexivity. Qed.
Lemma qn_two_neq : qn 2 <> 0%Qc.
Proof. intro H. apply (f_equal this) in H. discriminate H. Qed.

(** evenly spaced values around a centre: twice the i-th value is twice the centre and (2i + 1 - n)
    steps *)
Definition centred (vals : list Qc) (n : nat) (center step : Qc) : Prop :=
  length vals = n /\
  forall i v, nth_error vals i = Some v ->
    (qn 2 * v = qn 2 * center + qn (2 * Z.of_nat i + 1 - Z.of_nat n) * step)%Qc.

Lemma axis_values_centred c s n : centred (axis_values c s n) n c s.
Proof.
  unfold centred, axis_values. cbv zeta. rewrite map_length, seq_length. split; [reflexivity|].
  intros i v H. rewrite nth_error_map in H.
  destruct (nth_error (seq 0 n) i) as [k|] eqn:E; [|discriminate H]. cbn in H. injection H as <-.
  assert (L : i < n) by (rewrite <- (seq_length n 0); apply nth_error_Some; congruence).
  assert (k = i).
  { apply nth_error_nth with (d := 0) in E. rewrite seq_nth in E by assumption. cbn in E. congruence. }
  subst k.
  replace (2 * Z.of_nat i + 1 - Z.of_nat n)%Z with (2 * Z.of_nat i - (Z.of_nat n - 1))%Z by lia.
  rewrite (qn_sub (2 * Z.of_nat i)), qn_mul. field. exact qn_two_neq.
Qed.

(** neighbours are one step apart, and first and last value lie the same way from the centre *)
Theorem C110_even : forall vals n c s,
  centred vals n c s ->
  (forall i a b, nth_error vals i = Some a -> nth_error vals (S i) = Some b -> (b - a = s)%Qc) /\
  (forall i a b, nth_error vals i = Some a -> nth_error vals (n - 1 - i) = Some b -> (a + b = qn 2 * c)%Qc).
Proof.
  intros vals n c s [L H].
  assert (C : forall x y, (qn 2 * x = qn 2 * y)%Qc -> x = y).
  { intros x y E. assert (F : (x = qn 2 * x / qn 2)%Qc) by (field; exact qn_two_neq).
    rewrite F, E. field. exact qn_two_neq. }
  split; intros i a b A B.
  - apply C. pose proof (H _ _ A) as HA. pose proof (H _ _ B) as HB.
    replace (qn 2 * (b - a))%Qc with (qn 2 * b - qn 2 * a)%Qc by ring. rewrite HA, HB.
    replace (2 * Z.of_nat (S i) + 1 - Z.of_nat n)%Z with (2 * Z.of_nat i + 1 - Z.of_nat n + 2)%Z by lia.
    rewrite (qn_add _ 2). rewrite qn_two. ring.
  - apply C. pose proof (H _ _ A) as HA. pose proof (H _ _ B) as HB.
    replace (qn 2 * (a + b))%Qc with (qn 2 * a + qn 2 * b)%Qc by ring. rewrite HA, HB.
    assert (i < n) by (rewrite <- L; apply nth_error_Some; congruence).
    replace (2 * Z.of_nat (n - 1 - i) + 1 - Z.of_nat n)%Z with (- (2 * Z.of_nat i + 1 - Z.of_nat n))%Z by lia.
    rewrite qn_opp, qn_two. ring.
Qed.

(** a staggered axis, which has one value more, lies half a step before and after the values of the
    axis without staggering *)
Theorem C110_staggered : forall m t n c s i a,
  centred m n c s -> centred t (S n) c s -> nth_error m i = Some a ->
  nth_error t i = Some (a - s / qn 2)%Qc /\ nth_error t (S i) = Some (a + s / qn 2)%Qc.
Proof.
  intros m t n c s i a [LM M] [LT T] A.
  assert (I : i < n) by (rewrite <- LM; apply nth_error_Some; congruence).
  assert (C : forall x y, (qn 2 * x = qn 2 * y)%Qc -> x = y).
  { intros x y E. assert (F : (x = qn 2 * x / qn 2)%Qc) by (field; exact qn_two_neq).
    rewrite F, E. field. exact qn_two_neq. }
  pose proof (M _ _ A) as MA.
  destruct (nth_error t i) as [u|] eqn:U; [|apply nth_error_None in U; lia].
  destruct (nth_error t (S i)) as [w|] eqn:W; [|apply nth_error_None in W; lia].
  pose proof (T _ _ U) as TU. pose proof (T _ _ W) as TW.
  assert (E1 : (qn 2 * (a - s / qn 2) = qn 2 * a - s)%Qc) by (field; exact qn_two_neq).
  assert (E2 : (qn 2 * (a + s / qn 2) = qn 2 * a + s)%Qc) by (field; exact qn_two_neq).
  split; f_equal; apply C.
  - rewrite E1, MA, TU.
    replace (2 * Z.of_nat i + 1 - Z.of_nat (S n))%Z with (2 * Z.of_nat i + 1 - Z.of_nat n - 1)%Z by lia.
    rewrite (qn_sub _ 1), qn_one. ring.
  - rewrite E2, MA, TW.
    replace (2 * Z.of_nat (S i) + 1 - Z.of_nat (S n))%Z with (2 * Z.of_nat i + 1 - Z.of_nat n + 1)%Z by lia.
    rewrite (qn_add _ 1), qn_one. ring.
Qed.

(** ** What is added to the metadata *)
Lemma has_var_in c v : has_var c v = true <-> In v (map wv_name (w_vars c)).
Proof.
  unfold has_var. rewrite existsb_exists, in_map_iff. split; intros (x & A & B).
  - exists x. apply String.eqb_eq in B. auto.
  - exists x. split; auto. apply String.eqb_eq. auto.
Qed.

(** only variables that were not there are added, for a dimension or the reference time *)
Definition new_var (c : wcdm) (v : wvar) : Prop :=
  wv_shape v = [wv_name v] /\ has_dim c (wv_name v) = true
  \/ wv_shape v = [] /\ wv_name v = "forecast_reference_time".
Definition extended (c c' : wcdm) : Prop :=
  w_dims c' = w_dims c /\ w_atts c' = w_atts c /\
  exists added, w_vars c' = w_vars c ++ added /\ NoDup (map wv_name added)
    /\ forall v, In v added -> has_var c (wv_name v) = false /\ new_var c v.

Lemma extended_refl c : extended c c.
Proof. repeat split. exists []. rewrite app_nil_r. repeat split; [constructor|contradiction..]. Qed.

Lemma new_var_dims c c' v : w_dims c' = w_dims c -> new_var c' v -> new_var c v.
Proof. intros D [[A B]|B]; [left|right; exact B]. split; [exact A|].
  unfold has_dim, dim_len in *. rewrite D in B. exact B. Qed.

Lemma extended_trans a b c : extended a b -> extended b c -> extended a c.
Proof.
  intros (D1 & A1 & l1 & V1 & N1 & P1) (D2 & A2 & l2 & V2 & N2 & P2).
  split; [congruence|]. split; [congruence|]. exists (l1 ++ l2).
  rewrite V2, V1, <- app_assoc. split; [reflexivity|].
  assert (OUT : forall v, In v l2 -> has_var a (wv_name v) = false /\ ~ In (wv_name v) (map wv_name l1)).
  { intros v I. destruct (P2 v I) as [Q _].
    assert (NI : ~ In (wv_name v) (map wv_name (w_vars b)))
      by (intro X; apply (proj2 (has_var_in b _)) in X; congruence).
    rewrite V1, map_app in NI. split.
    - destruct (has_var a (wv_name v)) eqn:E; [|reflexivity]. apply (proj1 (has_var_in a _)) in E.
      exfalso. apply NI, in_or_app. auto.
    - intro X. apply NI, in_or_app. auto. }
  split.
  - rewrite map_app. clear -N1 N2 OUT. induction l1 as [|x l1 IH]; [exact N2|]. cbn in *.
    inversion N1; subst. constructor.
    + intro X. apply in_app_or in X. destruct X as [X|X]; [contradiction|].
      apply in_map_iff in X. destruct X as (v & E & I). apply (OUT v I). rewrite E. auto.
    + apply IH; auto. intros v I. destruct (OUT v I). split; auto.
  - intros v I. apply in_app_or in I. destruct I as [I|I]; [apply P1, I|].
    destruct (OUT v I). split; [assumption|]. apply (new_var_dims a b); [assumption|]. apply P2, I.
Qed.

Lemma extended_add c v : has_var c (wv_name v) = false -> new_var c v -> extended c (add_var c v).
Proof.
  intros H N. split; [reflexivity|]. split; [reflexivity|]. exists [v]. split; [reflexivity|].
  split; [constructor; [intros []|constructor]|]. intros x [<-|[]]. auto.
Qed.

Lemma has_dim_some c d n : dim_len c d = Some n -> has_dim c d = true.
Proof. unfold has_dim. intros ->. reflexivity. Qed.

Lemma horizontal_ext degm ll x a s1 s2 d c c' :
  horizontal degm ll x a s1 s2 d c = Ok c' -> extended c c'.
Proof.
  unfold horizontal. destruct (dim_len c d) as [n|] eqn:D; [|intro H; injection H as <-; apply extended_refl].
  destruct (has_var c d) eqn:V; [intro H; injection H as <-; apply extended_refl|].
  destruct (need_num c a); cbn; intro H; try discriminate. injection H as <-.
  apply extended_add; [exact V|]. left. split; [reflexivity|]. exact (has_dim_some _ _ _ D).
Qed.

Lemma levels_ext d c : extended c (levels d c).
Proof.
  unfold levels. destruct (dim_len c d) as [n|] eqn:D; [|apply extended_refl].
  destruct (has_var c d) eqn:V; [apply extended_refl|]. apply extended_add; [exact V|].
  left. split; [reflexivity|]. exact (has_dim_some _ _ _ D).
Qed.

Lemma obind_ok {A B} (o : outcome A) (f : A -> outcome B) b :
  obind o f = Ok b -> exists a, o = Ok a /\ f a = Ok b.
Proof. destruct o; cbn; intro H; try discriminate. eauto. Qed.

Lemma times_ext c c' : times c = Ok c' -> extended c c' /\ has_var c' "Time" = true.
Proof.
  unfold times. intro H. apply obind_ok in H. destruct H as (c1 & E & H).
  destruct (has_var c1 "Time") eqn:T; [|discriminate H]. injection H as <-. split; [|exact T].
  destruct (dim_len c "Time") as [n|] eqn:D; [|injection E as <-; apply extended_refl].
  destruct (has_var c "Time") eqn:V; [injection E as <-; apply extended_refl|].
  apply obind_ok in E. destruct E as (v & TV & E).
  unfold time_var in TV. apply obind_ok in TV. destruct TV as (s & _ & TV).
  apply obind_ok in TV. destruct TV as (u & _ & TV). cbv zeta in TV. injection TV as <-.
  match type of E with add_reftime (add_var c ?x) = _ => apply extended_trans with (b := add_var c x) end.
  - apply extended_add; [exact V|]. left. split; [reflexivity|]. exact (has_dim_some _ _ _ D).
  - unfold add_reftime in E. destruct (has_var _ "forecast_reference_time") eqn:R.
    + injection E as <-. apply extended_refl.
    + apply obind_ok in E. destruct E as (s' & _ & E). apply obind_ok in E. destruct E as (u' & _ & E).
      injection E as <-. apply extended_add; [exact R|]. right. auto.
Qed.

Lemma virtual_ext c d c' : virtual c d = Ok c' -> extended c c'.
Proof.
  unfold virtual. destruct (type_of d); try (intro H; injection H as <-; apply extended_refl).
  destruct (has_var c d) eqn:V; [intro H; injection H as <-; apply extended_refl|].
  destruct (dim_len c d) as [n|] eqn:D; [|discriminate]. intro H. injection H as <-.
  apply extended_add; [exact V|]. left. split; [reflexivity|]. exact (has_dim_some _ _ _ D).
Qed.

Lemma virtuals_ext : forall ds c c', ofold virtual ds c = Ok c' -> extended c c'.
Proof.
  induction ds as [|d ds IH]; intros c c' H; cbn [ofold] in H.
  - injection H as <-. apply extended_refl.
  - apply obind_ok in H. destruct H as (c1 & A & B). eapply extended_trans; [eapply virtual_ext|]; eauto.
Qed.

Lemma sys_ext : forall vs c l c' l', ofold sys_step vs (c, l) = Ok (c', l') -> extended c c'.
Proof.
  induction vs as [|v vs IH]; intros c l c' l' H; cbn [ofold] in H.
  - injection H as <- <-. apply extended_refl.
  - apply obind_ok in H. destruct H as ([c1 l1] & A & B). eapply extended_trans; [|eapply IH; eauto].
    unfold sys_step in A. destruct (gridded _); [|injection A as <- <-; apply extended_refl].
    destruct (existsb _ l); [injection A as <- <-; apply extended_refl|].
    apply obind_ok in A. destruct A as (ax & _ & A). apply obind_ok in A. destruct A as (c2 & V & A).
    injection A as <- <-. eapply virtuals_ext; eauto.
Qed.

Section Systems.
Variable kfun : option Qc -> option Qc.
Variable degm : Qc.
Variable center : list word -> option Qc -> option Qc -> outcome (Qc * Qc).
Local Notation list_systems' := (list_systems kfun degm center).

(** the run of the builder, step by step *)
Lemma list_systems_run c r :
  list_systems' c = Ok (Some r) ->
  is_wrf c = true /\
  exists mp words ll x y c1 c2 c3 c4 c7 c8 l,
    need_num c "MAP_PROJ" = Ok mp /\ projection kfun c mp = Some (words, ll) /\
    center words (num_att c "CEN_LON") (num_att c "CEN_LAT") = Ok (x, y) /\
    horizontal degm ll x "DX" "grid_longitude" "projection_x_axis" "west_east" c = Ok c1 /\
    horizontal degm ll x "DX" "grid_longitude" "projection_x_axis" "west_east_stag" c1 = Ok c2 /\
    horizontal degm ll y "DY" "grid_latitude" "projection_y_axis" "south_north" c2 = Ok c3 /\
    horizontal degm ll y "DY" "grid_latitude" "projection_y_axis" "south_north_stag" c3 = Ok c4 /\
    times (levels "bottom_top_stag" (levels "bottom_top" c4)) = Ok c7 /\
    ofold sys_step (w_vars c7) (c7, []) = Ok (c8, l) /\ r = WRes words c8 l.
Proof.
  unfold list_systems. destruct (is_wrf c) eqn:W; [|discriminate]. cbn [negb]. intro H.
  split; [reflexivity|]. apply obind_ok in H. destruct H as (mp & M & H).
  destruct (projection kfun c mp) as [[words ll]|] eqn:P; [|discriminate H].
  apply obind_ok in H. destruct H as ([x y] & C & H).
  apply obind_ok in H. destruct H as (c1 & H1 & H). apply obind_ok in H. destruct H as (c2 & H2 & H).
  apply obind_ok in H. destruct H as (c3 & H3 & H). apply obind_ok in H. destruct H as (c4 & H4 & H).
  cbv zeta in H. apply obind_ok in H. destruct H as (c7 & H7 & H).
  apply obind_ok in H. destruct H as ([c8 l] & H8 & H). injection H as <-.
  exists mp, words, ll, x, y, c1, c2, c3, c4, c7, c8, l. auto 12.
Qed.

(** dimensions, attributes and the variables of the file stay as they are; the new ones are made for
    dimensions without a variable and for the reference time, and no name is there twice *)
Theorem C110_kept : forall c r,
  list_systems' c = Ok (Some r) -> extended c (wr_cdm r).
Proof.
  intros c r H. apply list_systems_run in H.
  destruct H as (_ & mp & words & ll & x & y & c1 & c2 & c3 & c4 & c7 & c8 & l & _ & _ & _ & H1 & H2 & H3 & H4 & H7 & H8 & ->).
  cbn [wr_cdm].
  eapply extended_trans; [eapply horizontal_ext, H1|]. eapply extended_trans; [eapply horizontal_ext, H2|].
  eapply extended_trans; [eapply horizontal_ext, H3|]. eapply extended_trans; [eapply horizontal_ext, H4|].
  eapply extended_trans; [apply (levels_ext "bottom_top")|]. eapply extended_trans; [apply (levels_ext "bottom_top_stag")|].
  eapply extended_trans; [apply times_ext, H7|]. eapply sys_ext, H8.
Qed.

Lemma extended_var c c' v : extended c c' -> In v (w_vars c) -> In v (w_vars c').
Proof. intros (_ & _ & l & E & _) I. rewrite E. apply in_or_app. auto. Qed.

Lemma extended_has c c' v : extended c c' -> has_var c v = true -> has_var c' v = true.
Proof.
  intros (_ & _ & l & E & _) I. apply (proj1 (has_var_in _ _)) in I. apply (proj2 (has_var_in _ _)).
  rewrite E, map_app. apply in_or_app. auto.
Qed.

Lemma extended_dim c c' d : extended c c' -> dim_len c' d = dim_len c d.
Proof. intros (E & _). unfold dim_len. rewrite E. reflexivity. Qed.

Lemma extended_att c c' a : extended c c' -> get_att c' a = get_att c a.
Proof. intros (_ & E & _). unfold get_att. rewrite E. reflexivity. Qed.

(** what a horizontal axis is made of *)
Definition axis_made (c : wcdm) (r : wresult) (d attname std u : string) (f : Qc -> Qc) (x : Qc) : Prop :=
  forall n, dim_len c d = Some n -> has_var c d = false ->
  exists m vals, get_att c attname = Some (Num m) /\
    In (WVar d [d] (Some u) (Some std) (Some vals)) (w_vars (wr_cdm r)) /\ centred vals n x (f m).

Lemma horizontal_made ll x a s1 s2 d c c' n :
  horizontal degm ll x a s1 s2 d c = Ok c' -> dim_len c d = Some n -> has_var c d = false ->
  exists m, get_att c a = Some (Num m) /\
    In (WVar d [d] (Some (if ll then "degree" else "m")) (Some (if ll then s1 else s2))
          (Some (axis_values x (if ll then (m * degm)%Qc else m) n))) (w_vars c').
Proof.
  unfold horizontal. intros H D V. rewrite D, V in H. unfold need_num in H.
  destruct (get_att c a) as [[m|]|]; cbn in H; try discriminate H. injection H as <-.
  exists m. split; [reflexivity|]. cbn. apply in_or_app. cbn. auto.
Qed.

(** another axis does not get this name *)
Lemma horizontal_other ll x a s1 s2 d e c c' :
  horizontal degm ll x a s1 s2 e c = Ok c' -> e <> d -> has_var c' d = has_var c d.
Proof.
  unfold horizontal. intros H N. destruct (dim_len c e); [|injection H as <-; reflexivity].
  destruct (has_var c e); [injection H as <-; reflexivity|].
  destruct (need_num c a); cbn in H; try discriminate H. injection H as <-.
  unfold has_var, add_var. cbn [w_vars]. rewrite existsb_app. cbn [existsb wv_name].
  rewrite (proj2 (String.eqb_neq e d) N). rewrite !orb_false_r. reflexivity.
Qed.

(** the axes: DX and DY are the steps, in metres or in degrees, and the centre of the grid is in the
    middle of every axis, staggered or not *)
Theorem C110_axes : forall c r,
  list_systems' c = Ok (Some r) ->
  exists ll x y,
    (exists words, center words (num_att c "CEN_LON") (num_att c "CEN_LAT") = Ok (x, y) /\ words = wr_proj r) /\
    (ll = true <-> get_att c "MAP_PROJ" = Some (Num (qn 6))) /\
    let u := if ll then "degree" else "m" in
    let f := fun m : Qc => if ll then (m * degm)%Qc else m in
    axis_made c r "west_east" "DX" (if ll then "grid_longitude" else "projection_x_axis") u f x /\
    axis_made c r "west_east_stag" "DX" (if ll then "grid_longitude" else "projection_x_axis") u f x /\
    axis_made c r "south_north" "DY" (if ll then "grid_latitude" else "projection_y_axis") u f y /\
    axis_made c r "south_north_stag" "DY" (if ll then "grid_latitude" else "projection_y_axis") u f y.
Proof.
  intros c r H. apply list_systems_run in H.
  destruct H as (_ & mp & words & ll & x & y & c1 & c2 & c3 & c4 & c7 & c8 & l & M & P & C & H1 & H2 & H3 & H4 & H7 & H8 & ->).
  exists ll, x, y. split; [eauto|]. split.
  { unfold need_num in M. destruct (get_att c "MAP_PROJ") as [[q|]|]; try discriminate M. injection M as ->.
    unfold projection in P. cbv zeta in P.
    destruct (Qc_eq_dec mp (qn 1)) as [->|N1]; [injection P as <- <-; split; intro X; [discriminate X|]|].
    { discriminate X. }
    destruct (Qc_eq_dec mp (qn 2)) as [->|N2]; [injection P as <- <-; split; intro X; [discriminate X|]|].
    { discriminate X. }
    destruct (Qc_eq_dec mp (qn 3)) as [->|N3]; [injection P as <- <-; split; intro X; [discriminate X|]|].
    { discriminate X. }
    destruct (Qc_eq_dec mp (qn 6)) as [->|N6]; [injection P as <- <-; split; auto|discriminate P]. }
  pose proof (horizontal_ext _ _ _ _ _ _ _ _ _ H1) as E1. pose proof (horizontal_ext _ _ _ _ _ _ _ _ _ H2) as E2.
  pose proof (horizontal_ext _ _ _ _ _ _ _ _ _ H3) as E3. pose proof (horizontal_ext _ _ _ _ _ _ _ _ _ H4) as E4.
  assert (E8 : extended c4 c8).
  { eapply extended_trans; [apply (levels_ext "bottom_top")|]. eapply extended_trans; [apply (levels_ext "bottom_top_stag")|].
    eapply extended_trans; [apply times_ext, H7|]. eapply sys_ext, H8. }
  cbv zeta. cbn [wr_cdm]. unfold axis_made. cbn [wr_cdm].
  split; [|split; [|split]]; intros n D V.
  - destruct (horizontal_made _ _ _ _ _ _ _ _ _ H1 D V) as (m & A & I). eexists m, _.
    split; [exact A|]. split; [|apply axis_values_centred].
    eapply extended_var, I. eauto using extended_trans.
  - assert (D' : dim_len c1 "west_east_stag" = Some n) by (rewrite (extended_dim c c1) by assumption; exact D).
    assert (V' : has_var c1 "west_east_stag" = false)
      by (rewrite (horizontal_other _ _ _ _ _ "west_east_stag" _ _ _ H1) by discriminate; exact V).
    destruct (horizontal_made _ _ _ _ _ _ _ _ _ H2 D' V') as (m & A & I). eexists m, _.
    split; [rewrite (extended_att c c1) in A by assumption; exact A|]. split; [|apply axis_values_centred].
    eapply extended_var, I. eauto using extended_trans.
  - assert (E12 : extended c c2) by eauto using extended_trans.
    assert (D' : dim_len c2 "south_north" = Some n) by (rewrite (extended_dim c c2) by assumption; exact D).
    assert (V' : has_var c2 "south_north" = false).
    { rewrite (horizontal_other _ _ _ _ _ "south_north" _ _ _ H2) by discriminate.
      rewrite (horizontal_other _ _ _ _ _ "south_north" _ _ _ H1) by discriminate. exact V. }
    destruct (horizontal_made _ _ _ _ _ _ _ _ _ H3 D' V') as (m & A & I). eexists m, _.
    split; [rewrite (extended_att c c2) in A by assumption; exact A|]. split; [|apply axis_values_centred].
    eapply extended_var, I. eauto using extended_trans.
  - assert (E13 : extended c c3) by eauto using extended_trans.
    assert (D' : dim_len c3 "south_north_stag" = Some n) by (rewrite (extended_dim c c3) by assumption; exact D).
    assert (V' : has_var c3 "south_north_stag" = false).
    { rewrite (horizontal_other _ _ _ _ _ "south_north_stag" _ _ _ H3) by discriminate.
      rewrite (horizontal_other _ _ _ _ _ "south_north_stag" _ _ _ H2) by discriminate.
      rewrite (horizontal_other _ _ _ _ _ "south_north_stag" _ _ _ H1) by discriminate. exact V. }
    destruct (horizontal_made _ _ _ _ _ _ _ _ _ H4 D' V') as (m & A & I). eexists m, _.
    split; [rewrite (extended_att c c3) in A by assumption; exact A|]. split; [|apply axis_values_centred].
    eapply extended_var, I. eauto using extended_trans.
Qed.

(** *** The systems *)
Lemma shape_eqb_eq a b : shape_eqb a b = true <-> a = b.
Proof. unfold shape_eqb. destruct (list_eq_dec string_dec a b); split; congruence. Qed.

Lemma mem_in d l : mem d l = true <-> In d l.
Proof.
  unfold mem. rewrite existsb_exists. split.
  - intros (x & I & E). apply String.eqb_eq in E. subst. exact I.
  - intro I. exists d. split; [exact I|apply String.eqb_refl].
Qed.

(** the axes of a system are those of the dimensions, in their order *)
Definition one_of_a_kind (shape : list string) : Prop :=
  NoDup shape /\ forall d e, In d shape -> In e shape -> type_of d = type_of e -> type_of d <> Other -> d = e.

Lemma wtype_eqb_eq a b : wtype_eqb a b = true <-> a = b.
Proof. destruct a, b; cbn; split; congruence. Qed.

Lemma set_axis_spec : forall shape axes axes',
  ofold set_axis shape axes = Ok axes' ->
  NoDup (map fst axes ++ shape) ->
  axes' = axes ++ map (fun d => (d, type_of d)) shape.
Proof.
  induction shape as [|d shape IH]; intros axes axes' H N; cbn [ofold] in H.
  - injection H as <-. rewrite app_nil_r. reflexivity.
  - apply obind_ok in H. destruct H as (a1 & A & H). unfold set_axis in A. cbv zeta in A.
    destruct (_ && _); [discriminate A|]. injection A as <-.
    assert (F : filter (fun a => negb (String.eqb (fst a) d)) axes = axes).
    { assert (ND : ~ In d (map fst axes)).
      { intro X. apply NoDup_remove_2 in N. apply N, in_or_app. auto. }
      clear -ND. induction axes as [|[x t] axes IH]; [reflexivity|]. cbn in *.
      destruct (String.eqb_spec x d); [exfalso; auto|]. cbn. f_equal. auto. }
    rewrite F in H. apply IH in H.
    + rewrite H, <- app_assoc. reflexivity.
    + rewrite map_app. cbn. rewrite <- app_assoc. exact N.
Qed.

(** the state after some variables: [l] are the systems of [vs] *)
Definition sys_inv (vs : list wvar) (l : list wsys) : Prop :=
  NoDup (map ws_shape l) /\
  (forall s, In s l -> ofold set_axis (ws_shape s) [] = Ok (ws_axes s)
     /\ gridded (ws_shape s) = true
     /\ ws_deps s = (if mem "Time" (ws_shape s) then ["Times"] else [])
     /\ ws_vars s = map wv_name (filter (fun v => shape_eqb (wv_shape v) (ws_shape s)) vs)
     /\ ws_vars s <> []) /\
  (forall v, In v vs -> gridded (wv_shape v) = true -> In (wv_shape v) (map ws_shape l)).

Lemma sys_step_inv vs c l v c' l' :
  sys_inv vs l -> sys_step (c, l) v = Ok (c', l') -> sys_inv (vs ++ [v]) l'.
Proof.
  intros (ND & S & C) H. unfold sys_step in H.
  assert (FA : forall s, filter (fun v => shape_eqb (wv_shape v) s) (vs ++ [v])
     = filter (fun v => shape_eqb (wv_shape v) s) vs ++ (if shape_eqb (wv_shape v) s then [v] else [])).
  { intro s. rewrite filter_app. cbn. destruct (shape_eqb _ _); reflexivity. }
  destruct (gridded (wv_shape v)) eqn:G.
  - destruct (existsb (fun s => shape_eqb (ws_shape s) (wv_shape v)) l) eqn:E.
    + injection H as <- <-.
      assert (MS : map ws_shape (map (join_sys v) l) = map ws_shape l).
      { rewrite map_map. apply map_ext. intro s. unfold join_sys. destruct (shape_eqb _ _); reflexivity. }
      split; [rewrite MS; exact ND|]. split.
      * intros s I. apply in_map_iff in I. destruct I as (s0 & <- & I). destruct (S s0 I) as (A & B & D & W & Z).
        unfold join_sys. destruct (shape_eqb (ws_shape s0) (wv_shape v)) eqn:Q; cbn [ws_shape ws_axes ws_deps ws_vars].
        -- repeat (split; [assumption|]). rewrite FA, W. apply (proj1 (shape_eqb_eq _ _)) in Q. rewrite <- Q.
           rewrite (proj2 (shape_eqb_eq (ws_shape s0) (ws_shape s0)) eq_refl), map_app.
           split; [reflexivity|]. intro X. apply app_eq_nil in X. destruct X as [_ X]. discriminate X.
        -- repeat (split; [assumption|]). rewrite FA.
           assert (Q' : shape_eqb (wv_shape v) (ws_shape s0) = false).
           { destruct (shape_eqb (wv_shape v) (ws_shape s0)) eqn:Q'; [|reflexivity].
             apply (proj1 (shape_eqb_eq _ _)) in Q'. rewrite <- Q' in Q.
             rewrite (proj2 (shape_eqb_eq _ _) eq_refl) in Q. discriminate Q. }
           rewrite Q', app_nil_r. auto.
      * intros w I GW. rewrite MS. apply in_app_or in I. destruct I as [I|[<-|[]]]; [auto|].
        apply existsb_exists in E. destruct E as (s & I & Q). apply (proj1 (shape_eqb_eq _ _)) in Q.
        rewrite <- Q. apply in_map, I.
    + apply obind_ok in H. destruct H as (ax & A & H). apply obind_ok in H. destruct H as (c2 & _ & H).
      injection H as <- <-.
      assert (NI : ~ In (wv_shape v) (map ws_shape l)).
      { intro X. apply in_map_iff in X. destruct X as (s & Q & I).
        assert (X : existsb (fun s => shape_eqb (ws_shape s) (wv_shape v)) l = true).
        { apply existsb_exists. exists s. split; [exact I|]. apply (proj2 (shape_eqb_eq _ _)), Q. }
        congruence. }
      unfold sys_inv. rewrite map_app. cbn [map ws_shape]. split.
      { clear -ND NI. induction (map ws_shape l) as [|x k IH]; cbn.
        - constructor; [intros []|constructor].
        - inversion ND; subst. constructor.
          + intro X. apply in_app_or in X. destruct X as [X|[X|[]]]; [auto|]. apply NI. left. congruence.
          + apply IH; auto. intro X. apply NI. right. exact X. }
      split.
      * intros s I. apply in_app_or in I. destruct I as [I|[<-|[]]].
        -- destruct (S s I) as (A' & B & D & W & Z). repeat (split; [assumption|]). rewrite FA.
           assert (Q' : shape_eqb (wv_shape v) (ws_shape s) = false).
           { destruct (shape_eqb (wv_shape v) (ws_shape s)) eqn:Q'; [|reflexivity].
             apply (proj1 (shape_eqb_eq _ _)) in Q'. exfalso. apply NI. rewrite Q'. apply in_map, I. }
           rewrite Q', app_nil_r. auto.
        -- cbn [ws_shape ws_axes ws_deps ws_vars]. repeat (split; [assumption || reflexivity|]).
           rewrite FA, (proj2 (shape_eqb_eq (wv_shape v) (wv_shape v)) eq_refl), map_app.
           assert (NO : filter (fun w => shape_eqb (wv_shape w) (wv_shape v)) vs = []).
           { assert (AL : forall w, In w vs -> shape_eqb (wv_shape w) (wv_shape v) = false).
             { intros w I. destruct (shape_eqb (wv_shape w) (wv_shape v)) eqn:Q; [|reflexivity].
               apply (proj1 (shape_eqb_eq _ _)) in Q. exfalso. apply NI. rewrite <- Q. apply C; [exact I|].
               rewrite Q. exact G. }
             clear -AL. induction vs as [|w vs IH]; [reflexivity|]. cbn. rewrite AL by (cbn; auto).
             apply IH. intros x I. apply AL. cbn. auto. }
           rewrite NO. cbn. split; [reflexivity|discriminate].
      * intros w I GW. apply in_or_app. apply in_app_or in I. destruct I as [I|[<-|[]]]; [left; auto|right; cbn; auto].
  - injection H as <- <-. split; [exact ND|]. split.
    + intros s I. destruct (S s I) as (A & B & D & W & Z). repeat (split; [assumption|]). rewrite FA.
      destruct (shape_eqb (wv_shape v) (ws_shape s)) eqn:Q; [|rewrite app_nil_r; auto].
      apply (proj1 (shape_eqb_eq _ _)) in Q. rewrite <- Q in B. congruence.
    + intros w I GW. apply in_app_or in I. destruct I as [I|[<-|[]]]; [auto|congruence].
Qed.

Lemma sys_fold_inv : forall vs c l c' l' done,
  sys_inv done l -> ofold sys_step vs (c, l) = Ok (c', l') -> sys_inv (done ++ vs) l'.
Proof.
  induction vs as [|v vs IH]; intros c l c' l' done I H; cbn [ofold] in H.
  - injection H as <- <-. rewrite app_nil_r. exact I.
  - apply obind_ok in H. destruct H as ([c1 l1] & A & H).
    replace (done ++ v :: vs) with ((done ++ [v]) ++ vs) by (rewrite <- app_assoc; reflexivity).
    eapply IH; [eapply sys_step_inv; eauto|exact H].
Qed.

Lemma gridded_new c v : new_var c v -> gridded (wv_shape v) = false.
Proof.
  intros [[E _]|[E _]]; rewrite E; [|reflexivity]. unfold gridded, mem. cbn [existsb]. rewrite !orb_false_r.
  destruct (String.eqb_spec "west_east" (wv_name v)) as [Q|_]; [rewrite <- Q; reflexivity|].
  destruct (String.eqb_spec "west_east_stag" (wv_name v)) as [Q|_]; [rewrite <- Q; reflexivity|]. reflexivity.
Qed.

Lemma filter_new c s : forall added, (forall v, In v added -> new_var c v) -> gridded s = true ->
  filter (fun v => shape_eqb (wv_shape v) s) added = [].
Proof.
  induction added as [|v added IH]; intros N G; [reflexivity|]. cbn.
  destruct (shape_eqb (wv_shape v) s) eqn:Q.
  - apply (proj1 (shape_eqb_eq _ _)) in Q. pose proof (gridded_new c v (N v (or_introl eq_refl))) as X.
    rewrite Q in X. congruence.
  - apply IH; auto. intros w I. apply N. cbn. auto.
Qed.

(** every variable with a west-east and a south-north dimension has one system, that of its list of
    dimensions, with one axis for each of them; the other variables have none *)
Theorem C110_systems : forall c r,
  list_systems' c = Ok (Some r) ->
  NoDup (map ws_shape (wr_systems r)) /\
  (forall v, In v (w_vars c) -> gridded (wv_shape v) = true ->
     exists s, In s (wr_systems r) /\ ws_shape s = wv_shape v /\ In (wv_name v) (ws_vars s)) /\
  (forall s, In s (wr_systems r) ->
     gridded (ws_shape s) = true
     /\ ws_vars s = map wv_name (filter (fun v => shape_eqb (wv_shape v) (ws_shape s)) (w_vars c))
     /\ (NoDup (ws_shape s) -> ws_axes s = map (fun d => (d, type_of d)) (ws_shape s))
     /\ (In "Times" (ws_deps s) <-> In "Time" (ws_shape s))).
Proof.
  intros c r H. apply list_systems_run in H.
  destruct H as (_ & mp & words & ll & x & y & c1 & c2 & c3 & c4 & c7 & c8 & l & _ & _ & _ & H1 & H2 & H3 & H4 & H7 & H8 & ->).
  cbn [wr_systems].
  assert (E7 : extended c c7).
  { eapply extended_trans; [eapply horizontal_ext, H1|]. eapply extended_trans; [eapply horizontal_ext, H2|].
    eapply extended_trans; [eapply horizontal_ext, H3|]. eapply extended_trans; [eapply horizontal_ext, H4|].
    eapply extended_trans; [apply (levels_ext "bottom_top")|]. eapply extended_trans; [apply (levels_ext "bottom_top_stag")|].
    apply times_ext, H7. }
  assert (I0 : sys_inv [] []) by (split; [constructor|split; intros ? []]).
  pose proof (sys_fold_inv _ _ _ _ _ _ I0 H8) as (ND & S & C). cbn [app] in S, C.
  destruct E7 as (_ & _ & added & V7 & _ & NV).
  assert (VS : forall s, In s l -> ws_vars s = map wv_name (filter (fun v => shape_eqb (wv_shape v) (ws_shape s)) (w_vars c))).
  { intros s I. destruct (S s I) as (_ & B & _ & W & _). rewrite W, V7, filter_app, map_app.
    rewrite (filter_new c (ws_shape s) added); [rewrite app_nil_r; reflexivity| |exact B].
    intros v Iv. apply NV, Iv. }
  split; [exact ND|]. split.
  - intros v I G. assert (I7 : In v (w_vars c7)) by (rewrite V7; apply in_or_app; auto).
    pose proof (C v I7 G) as X. apply in_map_iff in X. destruct X as (s & Q & Is). exists s.
    split; [exact Is|]. split; [exact Q|]. rewrite (VS s Is). apply in_map, filter_In. split; [exact I|].
    apply (proj2 (shape_eqb_eq _ _)). auto.
  - intros s I. destruct (S s I) as (A & B & D & W & _). split; [exact B|]. split; [exact (VS s I)|]. split.
    + intro N. rewrite (set_axis_spec _ _ _ A); [reflexivity|exact N].
    + rewrite D. destruct (mem "Time" (ws_shape s)) eqn:M.
      * apply (proj1 (mem_in _ _)) in M. cbn. tauto.
      * split; [intros []|]. intro X. apply (proj2 (mem_in _ _)) in X. congruence.
Qed.

(** *** Building the systems again *)
Definition complete (c : wcdm) (vs : list wvar) : Prop :=
  forall v d, In v vs -> gridded (wv_shape v) = true -> In d (wv_shape v) -> type_of d = Other ->
  has_var c d = true.

Lemma virtual_has c d c' : virtual c d = Ok c' -> type_of d = Other -> has_var c' d = true.
Proof.
  unfold virtual. intros H T. rewrite T in H. destruct (has_var c d) eqn:V; [injection H as <-; exact V|].
  destruct (dim_len c d); [|discriminate H]. injection H as <-. apply (proj2 (has_var_in _ _)).
  unfold add_var. cbn [w_vars]. rewrite map_app. apply in_or_app. cbn. auto.
Qed.

Lemma virtuals_has : forall ds c c' d, ofold virtual ds c = Ok c' -> In d ds -> type_of d = Other ->
  has_var c' d = true.
Proof.
  induction ds as [|e ds IH]; intros c c' d H I T; [destruct I|]. cbn [ofold] in H.
  apply obind_ok in H. destruct H as (c1 & A & B). destruct I as [->|I].
  - eapply extended_has; [eapply virtuals_ext, B|]. eapply virtual_has; eauto.
  - eapply IH; eauto.
Qed.

Lemma virtuals_none : forall ds c, (forall d, In d ds -> type_of d = Other -> has_var c d = true) ->
  ofold virtual ds c = Ok c.
Proof.
  induction ds as [|d ds IH]; intros c H; [reflexivity|]. cbn [ofold].
  assert (V : virtual c d = Ok c).
  { unfold virtual. destruct (type_of d) eqn:T; try reflexivity. rewrite H by (cbn; auto). reflexivity. }
  rewrite V. cbn. apply IH. intros e I T. apply H; cbn; auto.
Qed.

Lemma sys_fold_complete : forall vs c l c' l' done,
  sys_inv done l -> complete c done ->
  ofold sys_step vs (c, l) = Ok (c', l') -> complete c' (done ++ vs).
Proof.
  induction vs as [|v vs IH]; intros c l c' l' done I K H; cbn [ofold] in H.
  - injection H as <- <-. rewrite app_nil_r. exact K.
  - apply obind_ok in H. destruct H as ([c1 l1] & A & H).
    replace (done ++ v :: vs) with ((done ++ [v]) ++ vs) by (rewrite <- app_assoc; reflexivity).
    eapply IH; [eapply sys_step_inv; eauto| |exact H].
    intros w d Iw G Id T. apply in_app_or in Iw. unfold sys_step in A.
    destruct (gridded (wv_shape v)) eqn:Gv.
    + destruct (existsb (fun s => shape_eqb (ws_shape s) (wv_shape v)) l) eqn:E.
      * injection A as <- <-. destruct Iw as [Iw|[<-|[]]]; [eapply K; eauto|].
        apply existsb_exists in E. destruct E as (s & Is & Q). apply (proj1 (shape_eqb_eq _ _)) in Q.
        destruct I as (_ & S & _). destruct (S s Is) as (_ & _ & _ & W & NE).
        destruct (filter (fun v => shape_eqb (wv_shape v) (ws_shape s)) done) as [|u k] eqn:F;
          [rewrite W in NE; cbn in NE; congruence|].
        assert (Iu : In u (filter (fun v => shape_eqb (wv_shape v) (ws_shape s)) done)) by (rewrite F; cbn; auto).
        apply filter_In in Iu. destruct Iu as [Iu Qu]. apply (proj1 (shape_eqb_eq _ _)) in Qu.
        assert (SE : wv_shape u = wv_shape v) by congruence.
        apply (K u d); [exact Iu|rewrite SE; exact Gv|rewrite SE; exact Id|exact T].
      * apply obind_ok in A. destruct A as (ax & _ & A). apply obind_ok in A. destruct A as (c2 & V & A).
        injection A as <- <-. destruct Iw as [Iw|[<-|[]]].
        -- eapply extended_has; [eapply virtuals_ext, V|]. eapply K; eauto.
        -- eapply virtuals_has; eauto.
    + injection A as <- <-. destruct Iw as [Iw|[<-|[]]]; [eapply K; eauto|congruence].
Qed.

Lemma sys_fold_again : forall vs c l c' l' c0,
  ofold sys_step vs (c, l) = Ok (c', l') -> complete c0 vs ->
  ofold sys_step vs (c0, l) = Ok (c0, l').
Proof.
  induction vs as [|v vs IH]; intros c l c' l' c0 H K; cbn [ofold] in H |- *.
  - injection H as <- <-. reflexivity.
  - apply obind_ok in H. destruct H as ([c1 l1] & A & H).
    assert (A' : sys_step (c0, l) v = Ok (c0, l1)).
    { unfold sys_step in A |- *. destruct (gridded (wv_shape v)) eqn:G; [|injection A as <- <-; reflexivity].
      destruct (existsb _ l); [injection A as <- <-; reflexivity|].
      apply obind_ok in A. destruct A as (ax & AX & A). apply obind_ok in A. destruct A as (c2 & _ & A).
      injection A as <- <-. rewrite AX. cbn.
      rewrite virtuals_none; [reflexivity|]. intros d I T. apply (K v d); cbn; auto. }
    rewrite A'. cbn. eapply IH; [exact H|]. intros w d I. apply (K w d). cbn. auto.
Qed.

Lemma sys_fold_skip : forall vs c l, (forall v, In v vs -> gridded (wv_shape v) = false) ->
  ofold sys_step vs (c, l) = Ok (c, l).
Proof.
  induction vs as [|v vs IH]; intros c l H; [reflexivity|]. cbn [ofold]. unfold sys_step at 1.
  rewrite H by (cbn; auto). cbn. apply IH. intros w I. apply H. cbn. auto.
Qed.

Lemma ofold_app {A S} (f : S -> A -> outcome S) : forall l1 l2 s,
  ofold f (l1 ++ l2) s = obind (ofold f l1 s) (ofold f l2).
Proof.
  induction l1 as [|a l1 IH]; intros l2 s; [reflexivity|]. cbn [app ofold].
  destruct (f s a); cbn; auto.
Qed.

(** building the systems a second time finds the same systems and changes nothing *)
Theorem C110_again : forall c r,
  list_systems' c = Ok (Some r) -> list_systems' (wr_cdm r) = Ok (Some r).
Proof.
  intros c r H. pose proof (C110_kept c r H) as EX. apply list_systems_run in H.
  destruct H as (W & mp & words & ll & x & y & c1 & c2 & c3 & c4 & c7 & c8 & l & M & P & C & H1 & H2 & H3 & H4 & H7 & H8 & ->).
  cbn [wr_cdm] in *.
  pose proof (horizontal_ext _ _ _ _ _ _ _ _ _ H1) as E1. pose proof (horizontal_ext _ _ _ _ _ _ _ _ _ H2) as E2.
  pose proof (horizontal_ext _ _ _ _ _ _ _ _ _ H3) as E3. pose proof (horizontal_ext _ _ _ _ _ _ _ _ _ H4) as E4.
  pose proof (levels_ext "bottom_top" c4) as E5.
  pose proof (levels_ext "bottom_top_stag" (levels "bottom_top" c4)) as E6.
  destruct (times_ext _ _ H7) as [E7 T7]. pose proof (sys_ext _ _ _ _ _ H8) as E8.
  assert (NA : forall a, get_att c8 a = get_att c a) by (intro a; apply extended_att, EX).
  assert (NN : forall a, num_att c8 a = num_att c a) by (intro a; unfold num_att; rewrite NA; reflexivity).
  unfold list_systems.
  assert (W8 : is_wrf c8 = true).
  { unfold is_wrf, has_dim in W |- *. rewrite (extended_dim _ _ _ EX), NA. exact W. }
  rewrite W8. cbn [negb].
  assert (M8 : need_num c8 "MAP_PROJ" = Ok mp) by (unfold need_num in M |- *; rewrite NA; exact M).
  rewrite M8. cbn [obind].
  assert (P8 : projection kfun c8 mp = Some (words, ll)).
  { rewrite <- P. unfold projection. rewrite !NN. reflexivity. }
  rewrite P8, !NN, C. cbn [obind].
  assert (HH : forall z a s1 s2 d, (dim_len c d = None \/ has_var c8 d = true) ->
             horizontal degm ll z a s1 s2 d c8 = Ok c8).
  { intros z a s1 s2 d D. unfold horizontal. rewrite (extended_dim _ _ _ EX).
    destruct D as [-> | ->]; [reflexivity|]. destruct (dim_len c d); reflexivity. }
  assert (HM : forall z a s1 s2 d ca cb, horizontal degm ll z a s1 s2 d ca = Ok cb -> extended c ca ->
             extended cb c8 -> dim_len c d = None \/ has_var c8 d = true).
  { intros z a s1 s2 d ca cb Hd Ea Eb. unfold horizontal in Hd. rewrite (extended_dim _ _ _ Ea) in Hd.
    destruct (dim_len c d) as [n|]; [right|left; reflexivity].
    apply (extended_has cb); [exact Eb|].
    destruct (has_var ca d) eqn:V; [injection Hd as <-; exact V|].
    destruct (need_num ca a); cbn in Hd; try discriminate Hd. injection Hd as <-.
    apply (proj2 (has_var_in _ _)). unfold add_var. cbn [w_vars]. rewrite map_app. apply in_or_app. cbn. auto. }
  assert (E48 : extended c4 c8) by eauto using extended_trans.
  assert (X1 : dim_len c "west_east" = None \/ has_var c8 "west_east" = true)
    by (apply (HM _ _ _ _ _ _ _ H1); eauto using extended_trans, extended_refl).
  assert (X2 : dim_len c "west_east_stag" = None \/ has_var c8 "west_east_stag" = true)
    by (apply (HM _ _ _ _ _ _ _ H2); eauto using extended_trans).
  assert (X3 : dim_len c "south_north" = None \/ has_var c8 "south_north" = true)
    by (apply (HM _ _ _ _ _ _ _ H3); eauto using extended_trans).
  assert (X4 : dim_len c "south_north_stag" = None \/ has_var c8 "south_north_stag" = true)
    by (apply (HM _ _ _ _ _ _ _ H4); eauto using extended_trans).
  rewrite (HH x _ _ _ _ X1). cbn [obind]. rewrite (HH x _ _ _ _ X2). cbn [obind].
  rewrite (HH y _ _ _ _ X3). cbn [obind]. rewrite (HH y _ _ _ _ X4). cbn [obind]. cbv zeta.
  assert (LL : forall d ca, extended c ca -> extended (levels d ca) c8 -> levels d c8 = c8).
  { intros d ca Ea Eb. unfold levels at 1. rewrite (extended_dim _ _ _ EX).
    destruct (dim_len c d) as [n|] eqn:D; [|reflexivity].
    assert (V : has_var c8 d = true).
    { apply (extended_has (levels d ca)); [exact Eb|]. unfold levels. rewrite (extended_dim _ _ _ Ea), D.
      destruct (has_var ca d) eqn:V; [exact V|].
      apply (proj2 (has_var_in _ _)). unfold add_var. cbn [w_vars]. rewrite map_app. apply in_or_app. cbn. auto. }
    rewrite V. reflexivity. }
  assert (EC4 : extended c c4) by eauto using extended_trans.
  rewrite (LL "bottom_top" c4) by eauto using extended_trans.
  rewrite (LL "bottom_top_stag" (levels "bottom_top" c4)) by eauto using extended_trans.
  assert (T8 : has_var c8 "Time" = true) by exact (extended_has c7 c8 _ E8 T7).
  assert (TT : times c8 = Ok c8).
  { unfold times. rewrite T8. destruct (dim_len c8 "Time"); cbn; rewrite T8; reflexivity. }
  rewrite TT. cbn [obind].
  assert (I0 : sys_inv [] []) by (split; [constructor|split; intros ? []]).
  assert (K0 : complete c7 []) by (intros v d []).
  pose proof (sys_fold_complete _ _ _ _ _ _ I0 K0 H8) as K. cbn [app] in K.
  destruct E8 as (_ & _ & added & V8 & _ & NV). rewrite V8, ofold_app.
  rewrite (sys_fold_again _ _ _ _ _ _ H8 K). cbn [obind].
  rewrite sys_fold_skip; [reflexivity|]. intros v I. apply (gridded_new c7). apply NV, I.
Qed.

(** the types of the axes, and which variables get a system *)
Theorem C110_kinds : forall d,
  (type_of d = GeoX <-> In d ["west_east"; "west_east_stag"]) /\
  (type_of d = GeoY <-> In d ["south_north"; "south_north_stag"]) /\
  (type_of d = GeoZ <-> In d ["bottom_top"; "bottom_top_stag"]) /\
  (type_of d = TimeT <-> d = "Time").
Proof.
  intro d. unfold type_of.
  repeat match goal with |- context [String.eqb d ?k] => destruct (String.eqb_spec d k); [subst; cbn; repeat split; intros; intuition (try discriminate)|] end.
  cbn. repeat split; intros; intuition (try discriminate); congruence.
Qed.

Theorem C110_gridded : forall shape,
  gridded shape = true <-> (exists d, In d shape /\ type_of d = GeoX) /\ (exists d, In d shape /\ type_of d = GeoY).
Proof.
  intro shape. unfold gridded. rewrite andb_true_iff, !orb_true_iff, !mem_in. split.
  - intros [A B]. split; [destruct A as [A|A]|destruct B as [B|B]]; (eexists; split; [eassumption|reflexivity]).
  - intros [(d & I & T) (e & J & U)]. apply (proj1 (proj1 (C110_kinds d))) in T.
    apply (proj1 (proj1 (proj2 (C110_kinds e)))) in U. cbn in T, U. split.
    + destruct T as [<-|[<-|[]]]; auto.
    + destruct U as [<-|[<-|[]]]; auto.
Qed.

(** a system can be made exactly if the dimensions are of different types, or of no type *)
Theorem C110_one_axis : forall shape, NoDup shape ->
  ((exists axes, ofold set_axis shape [] = Ok axes) <-> one_of_a_kind shape).
Proof.
  assert (G : forall shape axes, NoDup (map fst axes ++ shape) -> (forall a, In a axes -> snd a = type_of (fst a)) ->
    ((exists r, ofold set_axis shape axes = Ok r) <->
     (forall d e, In d (map fst axes ++ shape) -> In e shape -> type_of d = type_of e -> type_of d <> Other -> d = e))).
  { induction shape as [|x shape IH]; intros axes N T.
    - split; [intros _ d e _ []|]. intros _. eexists. reflexivity.
    - assert (F : filter (fun a => negb (String.eqb (fst a) x)) axes = axes).
      { assert (ND : ~ In x (map fst axes)).
        { intro X. apply NoDup_remove_2 in N. apply N, in_or_app. auto. }
        clear -ND. induction axes as [|[y t] axes IH]; [reflexivity|]. cbn in *.
        destruct (String.eqb_spec y x); [exfalso; auto|]. cbn. f_equal. auto. }
      assert (NX : ~ In x (map fst axes)) by (intro X; apply NoDup_remove_2 in N; apply N, in_or_app; auto).
      cbn [ofold]. unfold set_axis at 1. cbv zeta. rewrite F.
      assert (EX : existsb (fun a => wtype_eqb (snd a) (type_of x)) axes = true <->
                   exists d, In d (map fst axes) /\ type_of d = type_of x).
      { rewrite existsb_exists. split.
        - intros (a & I & E). apply (proj1 (wtype_eqb_eq _ _)) in E. exists (fst a). split; [apply in_map, I|].
          rewrite <- (T a I). exact E.
        - intros (d & I & E). apply in_map_iff in I. destruct I as (a & <- & I). exists a. split; [exact I|].
          apply (proj2 (wtype_eqb_eq _ _)). rewrite (T a I). exact E. }
      destruct (negb (wtype_eqb (type_of x) Other) && existsb (fun a => wtype_eqb (snd a) (type_of x)) axes) eqn:B.
      + apply andb_true_iff in B. destruct B as [B1 B2]. apply (proj1 EX) in B2. destruct B2 as (d & I & E).
        split; [intros (r & X); discriminate X|]. intro C. exfalso. apply NX.
        rewrite <- (C d x); [exact I|apply in_or_app; auto|cbn; auto|exact E|].
        intro O. rewrite E in O. rewrite O in B1. discriminate B1.
      + cbn [obind]. rewrite IH.
        * rewrite map_app, <- app_assoc. cbn [map fst app]. split.
          -- intros C d e I [<-|J] E O.
             ++ apply in_app_or in I. destruct I as [I|[<-|I]]; [|reflexivity|].
                ** exfalso. assert (W : existsb (fun a => wtype_eqb (snd a) (type_of x)) axes = true)
                     by (apply (proj2 EX); eauto).
                   rewrite W, andb_true_r in B. apply negb_false_iff in B. apply (proj1 (wtype_eqb_eq _ _)) in B.
                   congruence.
                ** symmetry. apply C; [apply in_or_app; right; cbn; auto|exact I|congruence|congruence].
             ++ apply C; assumption.
          -- intros C d e I J E O. apply C; [exact I|cbn; auto|exact E|exact O].
        * rewrite map_app, <- app_assoc. exact N.
        * intros a I. apply in_app_or in I. destruct I as [I|[<-|[]]]; [auto|reflexivity]. }
  intros shape N. rewrite (G shape [] N) by (intros a []). cbn [map app].
  unfold one_of_a_kind. split; [intro H; split; [exact N|]; auto|intros [_ H]; auto].
Qed.

Lemma virtuals_complete d : type_of d <> Other -> type_of d <> TimeT ->
  In d ["west_east"; "west_east_stag"; "south_north"; "south_north_stag"; "bottom_top"; "bottom_top_stag"].
Proof.
  intros A B. pose proof (C110_kinds d) as (X & Y & Z & W). cbn in *.
  destruct (type_of d); [destruct (proj1 X eq_refl)|destruct (proj1 Y eq_refl)|destruct (proj1 Z eq_refl)|congruence|congruence];
    tauto.
Qed.

(** afterwards every dimension of a gridded variable has a variable *)
Theorem C110_all_axes : forall c r v d,
  list_systems' c = Ok (Some r) -> In v (w_vars c) -> gridded (wv_shape v) = true ->
  In d (wv_shape v) -> has_dim c d = true -> has_var (wr_cdm r) d = true.
Proof.
  intros c r v d H Iv G Id HD. apply list_systems_run in H.
  destruct H as (_ & mp & words & ll & x & y & c1 & c2 & c3 & c4 & c7 & c8 & l & _ & _ & _ & H1 & H2 & H3 & H4 & H7 & H8 & ->).
  cbn [wr_cdm].
  pose proof (horizontal_ext _ _ _ _ _ _ _ _ _ H1) as E1. pose proof (horizontal_ext _ _ _ _ _ _ _ _ _ H2) as E2.
  pose proof (horizontal_ext _ _ _ _ _ _ _ _ _ H3) as E3. pose proof (horizontal_ext _ _ _ _ _ _ _ _ _ H4) as E4.
  pose proof (levels_ext "bottom_top" c4) as E5.
  pose proof (levels_ext "bottom_top_stag" (levels "bottom_top" c4)) as E6.
  destruct (times_ext _ _ H7) as [E7 T7]. pose proof (sys_ext _ _ _ _ _ H8) as E8.
  assert (EC4 : extended c c4) by eauto using extended_trans.
  assert (E48 : extended c4 c8) by eauto using extended_trans.
  unfold has_dim in HD. destruct (dim_len c d) as [n|] eqn:D; [|discriminate HD].
  assert (ADD : forall k w, wv_name w = d -> has_var (add_var k w) d = true).
  { intros k w W. apply (proj2 (has_var_in _ _)). unfold add_var. cbn [w_vars]. rewrite map_app.
    apply in_or_app. cbn. auto. }
  assert (HM : forall z a s1 s2 ca cb, horizontal degm ll z a s1 s2 d ca = Ok cb -> extended c ca ->
             extended cb c8 -> has_var c8 d = true).
  { intros z a s1 s2 ca cb Hd Ea Eb. unfold horizontal in Hd. rewrite (extended_dim _ _ _ Ea), D in Hd.
    apply (extended_has cb); [exact Eb|].
    destruct (has_var ca d) eqn:V; [injection Hd as <-; exact V|].
    destruct (need_num ca a); cbn in Hd; try discriminate Hd. injection Hd as <-. apply ADD. reflexivity. }
  assert (LM : forall ca, extended c ca -> extended (levels d ca) c8 -> has_var c8 d = true).
  { intros ca Ea Eb. apply (extended_has (levels d ca)); [exact Eb|]. unfold levels.
    rewrite (extended_dim _ _ _ Ea), D. destruct (has_var ca d) eqn:V; [exact V|]. apply ADD. reflexivity. }
  destruct (wtype_eqb (type_of d) Other) eqn:O.
  - apply (proj1 (wtype_eqb_eq _ _)) in O.
    assert (I0 : sys_inv [] []) by (split; [constructor|split; intros ? []]).
    assert (K0 : complete c7 []) by (intros w e []).
    pose proof (sys_fold_complete _ _ _ _ _ _ I0 K0 H8) as K. cbn [app] in K.
    apply (K v d); try assumption. eapply extended_var; [|exact Iv]. eauto using extended_trans.
  - destruct (wtype_eqb (type_of d) TimeT) eqn:TT.
    + apply (proj1 (wtype_eqb_eq _ _)) in TT. apply (proj1 (proj2 (proj2 (proj2 (C110_kinds d))))) in TT.
      subst d. exact (extended_has c7 c8 _ E8 T7).
    + assert (Q := virtuals_complete d).
      destruct Q as [Q|[Q|[Q|[Q|[Q|[Q|[]]]]]]]; try (intro X; rewrite X in *; discriminate); subst d.
      * apply (HM _ _ _ _ _ _ H1); eauto using extended_trans, extended_refl.
      * apply (HM _ _ _ _ _ _ H2); eauto using extended_trans.
      * apply (HM _ _ _ _ _ _ H3); eauto using extended_trans.
      * apply (HM _ _ _ _ _ _ H4); eauto using extended_trans.
      * apply (LM c4); eauto using extended_trans.
      * apply (LM (levels "bottom_top" c4)); eauto using extended_trans.
Qed.

(** *** The projection *)
Theorem C110_projection : forall c mp words ll,
  projection kfun c mp = Some (words, ll) ->
  In (Number "R" (Some (qn 6370000))) words /\
  (mp = qn 1 -> In (Name "proj" "lcc") words /\ In (Number "lon_0" (num_att c "STAND_LON")) words
     /\ In (Number "lat_0" (num_att c "MOAD_CEN_LAT")) words
     /\ In (Number "lat_1" (num_att c "TRUELAT1")) words /\ In (Number "lat_2" (num_att c "TRUELAT2")) words) /\
  (mp = qn 2 -> In (Name "proj" "stere") words /\ In (Number "k" (kfun (num_att c "TRUELAT1"))) words
     /\ (forall q, num_att c "STAND_LON" = Some q -> In (Number "lon_0" (Some q)) words)
     /\ (forall q, num_att c "CEN_LAT" = Some q -> In (Number "lat_0" (Some q)) words)) /\
  (mp = qn 3 -> In (Name "proj" "merc") words /\ In (Number "lon_0" (num_att c "STAND_LON")) words
     /\ In (Number "lat_0" (num_att c "MOAD_CEN_LAT")) words) /\
  (mp = qn 6 -> In (Name "proj" "ob_tran") words /\ In (Name "o_proj" "longlat") words
     /\ (forall q, num_att c "STAND_LON" = Some q -> In (Number "lon_0" (Some (- q)%Qc)) words)
     /\ (forall q, num_att c "POLE_LON" = Some q -> In (Number "o_lon_p" (Some (qn 180 - q)%Qc)) words)
     /\ In (Number "o_lat_p" (num_att c "POLE_LAT")) words) /\
  (mp = qn 1 \/ mp = qn 2 \/ mp = qn 3 \/ mp = qn 6) /\ (ll = true <-> mp = qn 6).
Proof.
  intros c mp words ll P. unfold projection in P. cbv zeta in P.
  assert (D12 : qn 1 <> qn 2) by (intro X; apply (f_equal this) in X; discriminate X).
  assert (D13 : qn 1 <> qn 3) by (intro X; apply (f_equal this) in X; discriminate X).
  assert (D16 : qn 1 <> qn 6) by (intro X; apply (f_equal this) in X; discriminate X).
  assert (D23 : qn 2 <> qn 3) by (intro X; apply (f_equal this) in X; discriminate X).
  assert (D26 : qn 2 <> qn 6) by (intro X; apply (f_equal this) in X; discriminate X).
  assert (D36 : qn 3 <> qn 6) by (intro X; apply (f_equal this) in X; discriminate X).
  destruct (Qc_eq_dec mp (qn 1)) as [->|N1]; [|destruct (Qc_eq_dec mp (qn 2)) as [->|N2];
    [|destruct (Qc_eq_dec mp (qn 3)) as [->|N3]; [|destruct (Qc_eq_dec mp (qn 6)) as [->|N6]; [|discriminate P]]]];
    injection P as <- <-; cbn [app In];
    (split; [tauto|]);
    repeat match goal with
    | |- (?a = ?a -> _) /\ _ => split; [intros _|]
    | |- (qn _ = qn _ -> _) /\ _ => split; [intro; congruence|]
    end;
    try (split; [tauto | split; congruence]).
  - repeat split; cbn; auto 12.
  - repeat split; cbn; auto 12; intros q ->; auto 12.
  - repeat split; cbn; auto 12.
  - repeat split; cbn; auto 12; intros q ->; cbn; auto 12.
Qed.

(** a file of another kind, or with another projection, gets no system and stays as it is *)
Theorem C110_others : forall c,
  (has_dim c "south_north" = false -> list_systems' c = Ok None) /\
  (get_att c "MAP_PROJ" = None -> list_systems' c = Ok None) /\
  (forall mp, get_att c "MAP_PROJ" = Some (Num mp) -> ~ In mp [qn 1; qn 2; qn 3; qn 6] ->
     list_systems' c = Ok None).
Proof.
  intro c. unfold list_systems, is_wrf. split; [intros ->; reflexivity|]. split.
  { intros ->. rewrite andb_false_r. reflexivity. }
  intros mp A N. rewrite A. destruct (has_dim c "south_north"); [|reflexivity]. cbn [andb negb].
  unfold need_num. rewrite A. cbn [obind]. unfold projection. cbv zeta. cbn in N.
  destruct (Qc_eq_dec mp (qn 1)); [exfalso; apply N; auto|].
  destruct (Qc_eq_dec mp (qn 2)); [exfalso; apply N; auto|].
  destruct (Qc_eq_dec mp (qn 3)); [exfalso; apply N; auto|].
  destruct (Qc_eq_dec mp (qn 6)); [exfalso; apply N; auto|]. reflexivity.
Qed.

(** *** Times *)
Lemma levels_other e d c : e <> d -> has_var (levels e c) d = has_var c d.
Proof.
  intro N. unfold levels. destruct (dim_len c e); [|reflexivity]. destruct (has_var c e); [reflexivity|].
  unfold has_var, add_var. cbn [w_vars]. rewrite existsb_app. cbn [existsb wv_name].
  rewrite (proj2 (String.eqb_neq e d) N). rewrite !orb_false_r. reflexivity.
Qed.

(** Finding: the times are counted from START_DATE in steps of TIME_STEP_MN minutes, and in steps of
    three hours if that attribute is missing, which no WRF file has; what the variable Times holds is
    never read *)
Theorem C110_times_refuted : forall c r n,
  list_systems' c = Ok (Some r) ->
  dim_len c "Time" = Some n -> has_var c "Time" = false -> get_att c "TIME_STEP_MN" = None ->
  exists u, In (WVar "Time" ["Time"] (Some u) None
                  (Some (map (fun i => (qn 3 * qn (Z.of_nat i))%Qc) (seq 0 n)))) (w_vars (wr_cdm r)).
Proof.
  intros c r n H D V A. apply list_systems_run in H.
  destruct H as (_ & mp & words & ll & x & y & c1 & c2 & c3 & c4 & c7 & c8 & l & _ & _ & _ & H1 & H2 & H3 & H4 & H7 & H8 & ->).
  cbn [wr_cdm].
  set (c6 := levels "bottom_top_stag" (levels "bottom_top" c4)) in *.
  assert (E6 : extended c c6).
  { eapply extended_trans; [eapply horizontal_ext, H1|]. eapply extended_trans; [eapply horizontal_ext, H2|].
    eapply extended_trans; [eapply horizontal_ext, H3|]. eapply extended_trans; [eapply horizontal_ext, H4|].
    eapply extended_trans; [apply (levels_ext "bottom_top")|]. apply (levels_ext "bottom_top_stag"). }
  assert (V6 : has_var c6 "Time" = false).
  { unfold c6. rewrite !levels_other by discriminate.
    rewrite (horizontal_other _ _ _ _ _ "Time" _ _ _ H4) by discriminate.
    rewrite (horizontal_other _ _ _ _ _ "Time" _ _ _ H3) by discriminate.
    rewrite (horizontal_other _ _ _ _ _ "Time" _ _ _ H2) by discriminate.
    rewrite (horizontal_other _ _ _ _ _ "Time" _ _ _ H1) by discriminate. exact V. }
  unfold times in H7. rewrite (extended_dim _ _ _ E6), D, V6 in H7.
  apply obind_ok in H7. destruct H7 as (cx & T & H7).
  apply obind_ok in T. destruct T as (v & TV & T).
  destruct (has_var cx "Time"); [|discriminate H7]. injection H7 as <-.
  unfold time_var in TV. apply obind_ok in TV. destruct TV as (s & _ & TV).
  apply obind_ok in TV. destruct TV as (u & _ & TV). unfold num_att in TV.
  rewrite (extended_att _ _ _ E6), A in TV. cbv zeta in TV. injection TV as <-.
  exists u. eapply extended_var; [eapply sys_ext, H8|].
  assert (EX : extended (add_var c6 (WVar "Time" ["Time"] (Some u) None
      (Some (map (fun i => (qn 180 / qn 60 * qn (Z.of_nat i))%Qc) (seq 0 n))))) cx).
  { unfold add_reftime in T. destruct (has_var _ "forecast_reference_time") eqn:R.
    - injection T as <-. apply extended_refl.
    - apply obind_ok in T. destruct T as (s' & _ & T). apply obind_ok in T. destruct T as (u' & _ & T).
      injection T as <-. apply extended_add; [exact R|]. right. auto. }
  eapply extended_var; [exact EX|]. unfold add_var. cbn [w_vars]. apply in_or_app. right. left.
  assert (Q3 : (qn 180 / qn 60 = qn 3)%Qc) by (apply Qc_is_canon; reflexivity).
  rewrite Q3. reflexivity.
Qed.

(** the values and the units of the times, and those of the reference time *)
Theorem C110_times : forall c r n,
  list_systems' c = Ok (Some r) -> dim_len c "Time" = Some n -> has_var c "Time" = false ->
  (exists s u vals, get_att c "START_DATE" = Some (Txt s) /\ date_units s = Ok u /\
     In (WVar "Time" ["Time"] (Some u) None (Some vals)) (w_vars (wr_cdm r)) /\ length vals = n /\
     forall i v, nth_error vals i = Some v ->
       (qn 60 * v = qn (Z.of_nat i) * match num_att c "TIME_STEP_MN" with Some q => q | None => qn 180 end)%Qc) /\
  (has_var c "forecast_reference_time" = false ->
     exists s u, get_att c "SIMULATION_START_DATE" = Some (Txt s) /\ date_units s = Ok u /\
       In (WVar "forecast_reference_time" [] (Some u) (Some "forecast_reference_time") (Some [qn 0]))
          (w_vars (wr_cdm r))).
Proof.
  intros c r n H D V. apply list_systems_run in H.
  destruct H as (_ & mp & words & ll & x & y & c1 & c2 & c3 & c4 & c7 & c8 & l & _ & _ & _ & H1 & H2 & H3 & H4 & H7 & H8 & ->).
  cbn [wr_cdm].
  set (c6 := levels "bottom_top_stag" (levels "bottom_top" c4)) in *.
  assert (E6 : extended c c6).
  { eapply extended_trans; [eapply horizontal_ext, H1|]. eapply extended_trans; [eapply horizontal_ext, H2|].
    eapply extended_trans; [eapply horizontal_ext, H3|]. eapply extended_trans; [eapply horizontal_ext, H4|].
    eapply extended_trans; [apply (levels_ext "bottom_top")|]. apply (levels_ext "bottom_top_stag"). }
  assert (V6 : has_var c6 "Time" = false).
  { unfold c6. rewrite !levels_other by discriminate.
    rewrite (horizontal_other _ _ _ _ _ "Time" _ _ _ H4) by discriminate.
    rewrite (horizontal_other _ _ _ _ _ "Time" _ _ _ H3) by discriminate.
    rewrite (horizontal_other _ _ _ _ _ "Time" _ _ _ H2) by discriminate.
    rewrite (horizontal_other _ _ _ _ _ "Time" _ _ _ H1) by discriminate. exact V. }
  assert (R6 : has_var c6 "forecast_reference_time" = has_var c "forecast_reference_time").
  { unfold c6. rewrite !levels_other by discriminate.
    rewrite (horizontal_other _ _ _ _ _ "forecast_reference_time" _ _ _ H4) by discriminate.
    rewrite (horizontal_other _ _ _ _ _ "forecast_reference_time" _ _ _ H3) by discriminate.
    rewrite (horizontal_other _ _ _ _ _ "forecast_reference_time" _ _ _ H2) by discriminate.
    apply (horizontal_other _ _ _ _ _ "forecast_reference_time" _ _ _ H1). discriminate. }
  unfold times in H7. rewrite (extended_dim _ _ _ E6), D, V6 in H7.
  apply obind_ok in H7. destruct H7 as (cx & T & H7).
  apply obind_ok in T. destruct T as (v & TV & T).
  destruct (has_var cx "Time"); [|discriminate H7]. injection H7 as <-.
  unfold time_var in TV. apply obind_ok in TV. destruct TV as (s & S & TV).
  apply obind_ok in TV. destruct TV as (u & U & TV). cbv zeta in TV.
  assert (TX : forall a z, need_txt c6 a = Ok z -> get_att c a = Some (Txt z)).
  { intros a z X. unfold need_txt in X. rewrite (extended_att _ _ _ E6) in X.
    destruct (get_att c a) as [[q|t]|]; [discriminate X| |discriminate X]. injection X as ->. reflexivity. }
  assert (MN : num_att c6 "TIME_STEP_MN" = num_att c "TIME_STEP_MN")
    by (unfold num_att; rewrite (extended_att _ _ _ E6); reflexivity).
  rewrite MN in TV. set (mn := match num_att c "TIME_STEP_MN" with Some q => q | None => qn 180 end) in *.
  injection TV as TV. subst v.
  pose proof (sys_ext _ _ _ _ _ H8) as E8.
  split.
  - exists s, u, (map (fun i => (mn / qn 60 * qn (Z.of_nat i))%Qc) (seq 0 n)).
    split; [apply TX, S|]. split; [exact U|]. split; [|split].
    + eapply extended_var; [exact E8|].
      match type of T with add_reftime ?k = _ => assert (EX : extended k cx) end.
      { unfold add_reftime in T. destruct (has_var _ "forecast_reference_time") eqn:R.
        - injection T as <-. apply extended_refl.
        - apply obind_ok in T. destruct T as (s' & _ & T). apply obind_ok in T. destruct T as (u' & _ & T).
          injection T as <-. apply extended_add; [exact R|]. right. auto. }
      eapply extended_var; [exact EX|]. unfold add_var. cbn [w_vars]. apply in_or_app. right. left. reflexivity.
    + rewrite map_length, seq_length. reflexivity.
    + intros i v I. rewrite nth_error_map in I.
      destruct (nth_error (seq 0 n) i) as [k|] eqn:E; [|discriminate I]. cbn in I. injection I as <-.
      assert (L : i < n) by (rewrite <- (seq_length n 0); apply nth_error_Some; congruence).
      apply nth_error_nth with (d := 0) in E. rewrite seq_nth in E by assumption. cbn in E. subst k.
      field. intro X. discriminate X.
  - intro R. unfold add_reftime in T.
    assert (RR : forall w, wv_name w = "Time" ->
               has_var (add_var c6 w) "forecast_reference_time" = false).
    { intros w N. unfold has_var, add_var in *. cbn [w_vars]. rewrite existsb_app. cbn [existsb].
      rewrite R6, N. rewrite R. reflexivity. }
    rewrite RR in T by reflexivity.
    apply obind_ok in T. destruct T as (s' & S' & T). apply obind_ok in T. destruct T as (u' & U' & T).
    injection T as T. exists s', u'. split; [apply TX, S'|]. split; [exact U'|].
    eapply extended_var; [exact E8|]. rewrite <- T. unfold add_var. cbn [w_vars]. apply in_or_app. right. left. reflexivity.
Qed.

(** the vertical axes count the levels from nought *)
Theorem C110_levels : forall c r d n,
  list_systems' c = Ok (Some r) -> d = "bottom_top" \/ d = "bottom_top_stag" ->
  dim_len c d = Some n -> has_var c d = false ->
  exists vals, In (WVar d [d] (Some "1") None (Some vals)) (w_vars (wr_cdm r)) /\ length vals = n /\
    forall i v, nth_error vals i = Some v -> v = qn (Z.of_nat i).
Proof.
  intros c r d n H Dd D V. apply list_systems_run in H.
  destruct H as (_ & mp & words & ll & x & y & c1 & c2 & c3 & c4 & c7 & c8 & l & _ & _ & _ & H1 & H2 & H3 & H4 & H7 & H8 & ->).
  cbn [wr_cdm]. exists (counting n).
  assert (CN : length (counting n) = n /\ forall i v, nth_error (counting n) i = Some v -> v = qn (Z.of_nat i)).
  { unfold counting. rewrite map_length, seq_length. split; [reflexivity|]. intros i v I.
    rewrite nth_error_map in I. destruct (nth_error (seq 0 n) i) as [k|] eqn:E; [|discriminate I].
    cbn in I. injection I as <-.
    assert (L : i < n) by (rewrite <- (seq_length n 0); apply nth_error_Some; congruence).
    apply nth_error_nth with (d := 0) in E. rewrite seq_nth in E by assumption. cbn in E. subst k. reflexivity. }
  split; [|exact CN].
  assert (E4 : extended c c4).
  { eapply extended_trans; [eapply horizontal_ext, H1|]. eapply extended_trans; [eapply horizontal_ext, H2|].
    eapply extended_trans; [eapply horizontal_ext, H3|]. eapply horizontal_ext, H4. }
  assert (V4 : has_var c4 d = false).
  { rewrite (horizontal_other _ _ _ _ _ d _ _ _ H4) by (destruct Dd; subst; discriminate).
    rewrite (horizontal_other _ _ _ _ _ d _ _ _ H3) by (destruct Dd; subst; discriminate).
    rewrite (horizontal_other _ _ _ _ _ d _ _ _ H2) by (destruct Dd; subst; discriminate).
    rewrite (horizontal_other _ _ _ _ _ d _ _ _ H1) by (destruct Dd; subst; discriminate). exact V. }
  assert (D4 : dim_len c4 d = Some n) by (rewrite (extended_dim _ _ _ E4); exact D).
  assert (MK : forall k, dim_len k d = Some n -> has_var k d = false ->
             In (WVar d [d] (Some "1") None (Some (counting n))) (w_vars (levels d k))).
  { intros k Dk Vk. unfold levels. rewrite Dk, Vk. unfold add_var. cbn [w_vars]. apply in_or_app. right. left. reflexivity. }
  eapply extended_var; [eapply sys_ext, H8|]. eapply extended_var; [apply times_ext, H7|].
  destruct Dd as [Q|Q]; rewrite <- Q in *.
  - eapply extended_var; [apply levels_ext|]. apply MK; assumption.
  - apply MK.
    + rewrite (extended_dim _ _ _ (levels_ext _ _)). exact D4.
    + rewrite levels_other by (rewrite Q; discriminate). exact V4.
Qed.

Lemma virtuals_other d : forall ds c c', ofold virtual ds c = Ok c' -> dim_len c d = None ->
  has_var c' d = has_var c d.
Proof.
  induction ds as [|e ds IH]; intros c c' H D; cbn [ofold] in H; [injection H as <-; reflexivity|].
  apply obind_ok in H. destruct H as (c1 & A & B).
  rewrite (IH _ _ B) by (rewrite (extended_dim _ _ _ (virtual_ext _ _ _ A)); exact D).
  unfold virtual in A. destruct (type_of e); try (injection A as <-; reflexivity).
  destruct (has_var c e); [injection A as <-; reflexivity|].
  destruct (dim_len c e) eqn:De; [|discriminate A]. injection A as <-.
  unfold has_var, add_var. cbn [w_vars]. rewrite existsb_app. cbn [existsb wv_name].
  destruct (String.eqb_spec e d); [congruence|]. rewrite !orb_false_r. reflexivity.
Qed.

Lemma sys_other d : forall vs c l c' l', ofold sys_step vs (c, l) = Ok (c', l') -> dim_len c d = None ->
  has_var c' d = has_var c d.
Proof.
  induction vs as [|v vs IH]; intros c l c' l' H D; cbn [ofold] in H; [injection H as <- <-; reflexivity|].
  apply obind_ok in H. destruct H as ([c1 l1] & A & B).
  assert (X : extended c c1 /\ has_var c1 d = has_var c d).
  { unfold sys_step in A. destruct (gridded _); [|injection A as <- <-; auto using extended_refl].
    destruct (existsb _ l); [injection A as <- <-; auto using extended_refl|].
    apply obind_ok in A. destruct A as (ax & _ & A). apply obind_ok in A. destruct A as (c2 & V & A).
    injection A as <- <-. split; [eapply virtuals_ext; eauto|eapply virtuals_other; eauto]. }
  destruct X as [X Y]. rewrite (IH _ _ _ _ B) by (rewrite (extended_dim _ _ _ X); exact D). exact Y.
Qed.

(** Finding: a file with a variable Time gets no reference time *)
Theorem C110_reftime_refuted : forall c r,
  list_systems' c = Ok (Some r) -> has_var c "Time" = true ->
  has_dim c "forecast_reference_time" = false ->
  has_var (wr_cdm r) "forecast_reference_time" = has_var c "forecast_reference_time".
Proof.
  intros c r H V F. apply list_systems_run in H.
  destruct H as (_ & mp & words & ll & x & y & c1 & c2 & c3 & c4 & c7 & c8 & l & _ & _ & _ & H1 & H2 & H3 & H4 & H7 & H8 & ->).
  cbn [wr_cdm].
  set (c6 := levels "bottom_top_stag" (levels "bottom_top" c4)) in *.
  assert (E6 : extended c c6).
  { eapply extended_trans; [eapply horizontal_ext, H1|]. eapply extended_trans; [eapply horizontal_ext, H2|].
    eapply extended_trans; [eapply horizontal_ext, H3|]. eapply extended_trans; [eapply horizontal_ext, H4|].
    eapply extended_trans; [apply (levels_ext "bottom_top")|]. apply (levels_ext "bottom_top_stag"). }
  assert (R6 : has_var c6 "forecast_reference_time" = has_var c "forecast_reference_time").
  { unfold c6. rewrite !levels_other by discriminate.
    rewrite (horizontal_other _ _ _ _ _ "forecast_reference_time" _ _ _ H4) by discriminate.
    rewrite (horizontal_other _ _ _ _ _ "forecast_reference_time" _ _ _ H3) by discriminate.
    rewrite (horizontal_other _ _ _ _ _ "forecast_reference_time" _ _ _ H2) by discriminate.
    apply (horizontal_other _ _ _ _ _ "forecast_reference_time" _ _ _ H1). discriminate. }
  assert (DN : dim_len c7 "forecast_reference_time" = None).
  { rewrite (extended_dim _ _ _ (proj1 (times_ext _ _ H7))), (extended_dim _ _ _ E6).
    unfold has_dim in F. destruct (dim_len c "forecast_reference_time"); [discriminate F|reflexivity]. }
  rewrite (sys_other _ _ _ _ _ _ H8 DN), <- R6.
  assert (V6 : has_var c6 "Time" = true) by exact (extended_has c c6 _ E6 V).
  unfold times in H7. rewrite V6 in H7. destruct (dim_len c6 "Time"); cbn in H7; rewrite V6 in H7;
    injection H7 as <-; reflexivity.
Qed.

(** Finding: a file without the dimension and the variable Time makes the listing fail *)
Theorem C110_no_time_refuted : forall c,
  dim_len c "Time" = None -> has_var c "Time" = false -> forall r, list_systems' c <> Ok (Some r).
Proof.
  intros c D V r H. pose proof (C110_kept c r H) as EX. apply list_systems_run in H.
  destruct H as (_ & mp & words & ll & x & y & c1 & c2 & c3 & c4 & c7 & c8 & l & _ & _ & _ & H1 & H2 & H3 & H4 & H7 & H8 & ->).
  unfold times in H7.
  assert (E6 : extended c (levels "bottom_top_stag" (levels "bottom_top" c4))).
  { eapply extended_trans; [eapply horizontal_ext, H1|]. eapply extended_trans; [eapply horizontal_ext, H2|].
    eapply extended_trans; [eapply horizontal_ext, H3|]. eapply extended_trans; [eapply horizontal_ext, H4|].
    eapply extended_trans; [apply (levels_ext "bottom_top")|]. apply (levels_ext "bottom_top_stag"). }
  rewrite (extended_dim _ _ _ E6), D in H7. cbn in H7.
  rewrite !levels_other in H7 by discriminate.
  rewrite (horizontal_other _ _ _ _ _ "Time" _ _ _ H4) in H7 by discriminate.
  rewrite (horizontal_other _ _ _ _ _ "Time" _ _ _ H3) in H7 by discriminate.
  rewrite (horizontal_other _ _ _ _ _ "Time" _ _ _ H2) in H7 by discriminate.
  rewrite (horizontal_other _ _ _ _ _ "Time" _ _ _ H1) in H7 by discriminate.
  rewrite V in H7. discriminate H7.
Qed.

End Systems.

(** the units of a time: the text before and after the underscore *)
Theorem C110_units : forall a b,
  (forall x y, a <> (x ++ "_" ++ y)%string) -> (forall x y, b <> (x ++ "_" ++ y)%string) ->
  date_units (a ++ "_" ++ b) = Ok ("hours since " ++ a ++ " " ++ b ++ " +0000")%string /\ date_units a = Throw.
Proof.
  assert (U : forall s, (forall x y, s <> (x ++ "_" ++ y)%string) ->
     until s = (s, None) /\ forall t, until (s ++ "_" ++ t) = (s, Some t)).
  { induction s as [|h s IH]; intro N; [split; reflexivity|]. cbn [until append].
    destruct (Ascii.eqb_spec h "_") as [->|Q]; [exfalso; apply (N "" s); reflexivity|].
    destruct IH as [A B]; [intros x y E; apply (N (String h x) y); rewrite E; reflexivity|].
    rewrite A. split; [reflexivity|]. intro t. specialize (B t). cbn [append] in B. rewrite B. reflexivity. }
  intros a b A B. destruct (U a A) as [A1 A2]. destruct (U b B) as [B1 _].
  unfold date_units. rewrite A1, (A2 b), B1. split; reflexivity.
Qed.

(** Finding: one variable with a staggered and a plain vertical dimension makes the listing of all
    systems fail *)
Theorem C110_two_axes_refuted : forall c l v,
  wv_shape v = ["bottom_top"; "bottom_top_stag"; "south_north"; "west_east"] ->
  existsb (fun s => shape_eqb (ws_shape s) (wv_shape v)) l = false ->
  sys_step (c, l) v = Throw.
Proof. intros c l v S N. unfold sys_step. rewrite N, S. reflexivity. Qed.

(** U and V, and UAH and VAH, are made vectors if both are there and neither is one already; other
    vectors are kept *)
Theorem C110_vectors : forall has vs,
  let is_vec l v := exists q, In q l /\ (fst q = v \/ snd q = v) in
  (forall p, In p vs -> In p (vectors has vs)) /\
  (forall p, In p (vectors has vs) -> In p vs \/
     (p = ("U", "V") \/ p = ("UAH", "VAH")) /\ has (fst p) = true /\ has (snd p) = true
     /\ ~ is_vec vs (fst p) /\ ~ is_vec vs (snd p)) /\
  (forall p, p = ("U", "V") \/ p = ("UAH", "VAH") -> has (fst p) = true -> has (snd p) = true ->
     ~ is_vec vs (fst p) -> ~ is_vec vs (snd p) -> In p (vectors has vs)).
Proof.
  intros has vs is_vec.
  assert (EV : forall l v, existsb (fun q => String.eqb (fst q) v || String.eqb (snd q) v) l = true <-> is_vec l v).
  { intros l v. unfold is_vec. rewrite existsb_exists. split; intros (q & I & E); exists q; (split; [exact I|]).
    - apply orb_true_iff in E. destruct E as [E|E]; apply String.eqb_eq in E; auto.
    - apply orb_true_iff. destruct E as [E|E]; [left|right]; apply String.eqb_eq; exact E. }
  assert (ST : forall l p, (forall q, In q l -> In q (vector_step has l p)) /\
    (forall q, In q (vector_step has l p) -> In q l \/
       q = p /\ has (fst p) = true /\ has (snd p) = true /\ ~ is_vec l (fst p) /\ ~ is_vec l (snd p)) /\
    (has (fst p) = true -> has (snd p) = true -> ~ is_vec l (fst p) -> ~ is_vec l (snd p) ->
       In p (vector_step has l p))).
  { intros l p. unfold vector_step. cbv zeta.
    pose proof (EV l (fst p)) as E1. pose proof (EV l (snd p)) as E2.
    destruct (existsb (fun q => String.eqb (fst q) (fst p) || String.eqb (snd q) (fst p)) l);
    destruct (existsb (fun q => String.eqb (fst q) (snd p) || String.eqb (snd q) (snd p)) l);
    destruct (has (fst p)); destruct (has (snd p)); cbn [andb negb].
    all: try (split; [auto|split; [auto|]]; intros; exfalso;
              first [discriminate | apply H1; apply E1; reflexivity | apply H2; apply E2; reflexivity]).
    split; [intros; apply in_or_app; auto|]. split.
    - intros q I. apply in_app_or in I. destruct I as [I|[<-|[]]]; [auto|]. right.
      repeat (split; [reflexivity|]). split; intro X; [apply E1 in X|apply E2 in X]; discriminate X.
    - intros. apply in_or_app. cbn. auto. }
  unfold vectors. cbn [fold_left].
  set (v1 := vector_step has vs ("U", "V")).
  destruct (ST vs ("U", "V")) as (A1 & B1 & C1). destruct (ST v1 ("UAH", "VAH")) as (A2 & B2 & C2). fold v1 in A1, B1, C1.
  assert (U : forall v, v = "UAH" \/ v = "VAH" -> is_vec v1 v -> is_vec vs v).
  { intros v Hv (q & I & E). destruct (B1 q I) as [I'|[-> _]]; [exists q; auto|]. exfalso. cbn in E.
    destruct Hv as [-> | ->]; destruct E as [E|E]; discriminate E. }
  assert (U' : forall v, is_vec vs v -> is_vec v1 v).
  { intros v (q & I & E). exists q. auto. }
  split; [auto|]. split.
  - intros p I. destruct (B2 p I) as [I1|(-> & X1 & X2 & X3 & X4)].
    + destruct (B1 p I1) as [I0|(-> & X)]; [auto|]. right. split; [auto|]. exact X.
    + right. split; [auto|]. split; [exact X1|]. split; [exact X2|]. split; intro X; [apply X3|apply X4]; apply U', X.
  - intros p [-> | ->] H1 H2 N1 N2.
    + apply A2, C1; assumption.
    + apply C2; try assumption; intro X; [apply N1|apply N2]; apply U; auto.
Qed.

(** a small file of the model *)
Definition ex_atts : list (string * att) :=
  [("MAP_PROJ", Num (qn 1)); ("TRUELAT1", Num (qn 60)); ("TRUELAT2", Num (qn 60));
   ("CEN_LAT", Num (qn 60)); ("CEN_LON", Num (qn 10)); ("STAND_LON", Num (qn 10));
   ("MOAD_CEN_LAT", Num (qn 60)); ("DX", Num (qn 1000)); ("DY", Num (qn 1000));
   ("START_DATE", Txt "2020-01-02_03:00:00"); ("SIMULATION_START_DATE", Txt "2020-01-02_00:00:00")].
Definition ex_cdm : wcdm :=
  WCdm [("Time", 2); ("west_east", 3); ("west_east_stag", 4); ("south_north", 2); ("bottom_top", 2); ("soil", 2)]
    [WVar "T" ["Time"; "bottom_top"; "south_north"; "west_east"] None None None;
     WVar "U" ["Time"; "bottom_top"; "south_north"; "west_east_stag"] None None None;
     WVar "Q" ["Time"; "bottom_top"; "south_north"; "west_east"] None None None;
     WVar "SMOIS" ["Time"; "soil"; "south_north"; "west_east"] None None None;
     WVar "ZNU" ["Time"; "bottom_top"] None None None] ex_atts.

Example C110_nonvacuous : exists r,
  list_systems (fun q => q) (qn 1) (fun _ _ _ => Ok (qn 0, qn 0)) ex_cdm = Ok (Some r) /\
  map wv_name (w_vars (wr_cdm r))
  = ["T"; "U"; "Q"; "SMOIS"; "ZNU"; "west_east"; "west_east_stag"; "south_north"; "bottom_top"; "Time";
     "forecast_reference_time"; "soil"] /\
  map ws_vars (wr_systems r) = [["T"; "Q"]; ["U"]; ["SMOIS"]] /\
  map (fun v => option_map (map this) (wv_data v)) (firstn 3 (skipn 5 (w_vars (wr_cdm r))))
  = [Some [(-1000)#1; 0#1; 1000#1]; Some [(-1500)#1; (-500)#1; 500#1; 1500#1]; Some [(-500)#1; 500#1]]%Q /\
  map wv_units (firstn 2 (skipn 9 (w_vars (wr_cdm r))))
  = [Some "hours since 2020-01-02 03:00:00 +0000"; Some "hours since 2020-01-02 00:00:00 +0000"] /\
  gridded ["Time"; "bottom_top"; "south_north"; "west_east"] = true.
Proof. eexists. split; [vm_compute; reflexivity|]. repeat split; vm_compute; reflexivity. Qed.

Print Assumptions C110_even.
Print Assumptions C110_staggered.
Print Assumptions C110_kept.
Print Assumptions C110_axes.
Print Assumptions C110_systems.
Print Assumptions C110_again.
Print Assumptions C110_projection.
Print Assumptions C110_others.
Print Assumptions C110_times_refuted.
Print Assumptions C110_times.
Print Assumptions C110_kinds.
Print Assumptions C110_gridded.
Print Assumptions C110_one_axis.
Print Assumptions C110_all_axes.
Print Assumptions C110_levels.
Print Assumptions C110_reftime_refuted.
Print Assumptions C110_units.
Print Assumptions C110_no_time_refuted.
Print Assumptions C110_two_axes_refuted.
Print Assumptions C110_vectors.
Print Assumptions C110_nonvacuous.
