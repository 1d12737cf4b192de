(** C40 grid definitions as map keys. *)
From Coq Require Import NArith ZArith QArith Qround Qabs String List Bool Lia Lqa.
From Verif Require Import Base StdMap Rounding SearchModel SearchProofs KeysModel KeysProofs.
Import ListNotations.
Local Open Scope Q_scope.

(** what a std::map demands of its comparison *)
Definition irreflexive {A} (S : A -> Prop) (lt : A -> A -> bool) : Prop := forall a, S a -> lt a a = false.
Definition asymmetric {A} (S : A -> Prop) (lt : A -> A -> bool) : Prop :=
  forall a b, S a -> S b -> lt a b = true -> lt b a = false.
Definition transitive_on {A} (S : A -> Prop) (lt : A -> A -> bool) : Prop :=
  forall a b c, S a -> S b -> S c -> lt a b = true -> lt b c = true -> lt a c = true.
Definition incomparable {A} (lt : A -> A -> bool) (a b : A) : Prop := lt a b = false /\ lt b a = false.
Definition incomparability_transitive {A} (S : A -> Prop) (lt : A -> A -> bool) : Prop :=
  forall a b c, S a -> S b -> S c -> incomparable lt a b -> incomparable lt b c -> incomparable lt a c.

(** equal but for the start position *)
Definition same_shape (a b : grid) : Prop :=
  g_proj a = g_proj b /\ g_xSize a = g_xSize b /\ g_ySize a = g_ySize b /\
  g_xIncr a == g_xIncr b /\ g_yIncr a == g_yIncr b.

(** equal, or further apart than the tolerance *)
Definition apart (tol u v : Q) : Prop := u == v \/ tol < Qabs (u - v).

(** a set of grids whose start positions are equal or clearly different: all of them compared by
    longitude and latitude, or all of them compared by x and y *)
Definition clear_lonlat (S : grid -> Prop) : Prop :=
  (forall a, S a -> 0 < g_res a) /\
  forall a b, S a -> S b -> same_shape a b ->
    apart (g_res a) (g_lonStart a) (g_lonStart b) /\ apart (g_res b) (g_lonStart a) (g_lonStart b) /\
    apart (g_res a) (g_latStart a) (g_latStart b) /\ apart (g_res b) (g_latStart a) (g_latStart b).
Definition clear_xy (S : grid -> Prop) : Prop :=
  (forall a, S a -> g_res a <= 0) /\
  forall a b, S a -> S b -> same_shape a b ->
    let tol := (1#20) * (Qabs (g_xIncr a) + Qabs (g_yIncr a)) / 2 in
    apart tol (g_xStart a) (g_xStart b) /\ apart tol (g_yStart a) (g_yStart b).

Definition k_shape : grid -> grid -> bool -> bool := fun a b r =>
  if str_lt (g_proj a) (g_proj b) then true
  else if str_lt (g_proj b) (g_proj a) then false
  else if (g_xSize a <? g_xSize b)%N then true
  else if (g_xSize b <? g_xSize a)%N then false
  else if (g_ySize a <? g_ySize b)%N then true
  else if (g_ySize b <? g_ySize a)%N then false
  else if qltb (g_xIncr a) (g_xIncr b) then true
  else if qltb (g_xIncr b) (g_xIncr a) then false
  else if qltb (g_yIncr a) (g_yIncr b) then true
  else if qltb (g_yIncr b) (g_yIncr a) then false
  else r.

Definition key_lt (u v : grid -> Q) : grid -> grid -> bool :=
  lex (fun a b => str_lt (g_proj a) (g_proj b))
  (lex (fun a b => (g_xSize a <? g_xSize b)%N)
  (lex (fun a b => (g_ySize a <? g_ySize b)%N)
  (lex (fun a b => qltb (g_xIncr a) (g_xIncr b))
  (lex (fun a b => qltb (g_yIncr a) (g_yIncr b))
  (lex (fun a b => qltb (u a) (u b)) (fun a b => qltb (v a) (v b))))))).

Lemma key_swo : forall u v, swo (key_lt u v).
Proof.
  intros. unfold key_lt.
  apply swo_lex; [ apply (swo_s g_proj) | ]. apply swo_lex; [ apply (swo_n g_xSize) | ].
  apply swo_lex; [ apply (swo_n g_ySize) | ]. apply swo_lex; [ apply (swo_q g_xIncr) | ].
  apply swo_lex; [ apply (swo_q g_yIncr) | ]. apply swo_lex; [ apply (swo_q u) | apply (swo_q v) ].
Qed.

Lemma shape_cases : forall a b r1 r2, (same_shape a b -> r1 = r2) -> k_shape a b r1 = k_shape a b r2.
Proof.
  intros a b r1 r2 H. unfold k_shape.
  destruct (str_lt (g_proj a) (g_proj b)) eqn:E1; [ reflexivity | ].
  destruct (str_lt (g_proj b) (g_proj a)) eqn:E2; [ reflexivity | ].
  destruct (N.ltb_spec (g_xSize a) (g_xSize b)); [ reflexivity | ].
  destruct (N.ltb_spec (g_xSize b) (g_xSize a)); [ reflexivity | ].
  destruct (N.ltb_spec (g_ySize a) (g_ySize b)); [ reflexivity | ].
  destruct (N.ltb_spec (g_ySize b) (g_ySize a)); [ reflexivity | ].
  destruct (qltb (g_xIncr a) (g_xIncr b)) eqn:E3; [ reflexivity | ].
  destruct (qltb (g_xIncr b) (g_xIncr a)) eqn:E4; [ reflexivity | ].
  destruct (qltb (g_yIncr a) (g_yIncr b)) eqn:E5; [ reflexivity | ].
  destruct (qltb (g_yIncr b) (g_yIncr a)) eqn:E6; [ reflexivity | ].
  apply H. apply qltb_false in E3, E4, E5, E6. unfold str_lt in E1, E2.
  repeat split; try lia; try lra.
  rewrite String.compare_antisym in E2. destruct (String.compare (g_proj a) (g_proj b)) eqn:C; try discriminate.
  now apply compare_eq.
Qed.

Lemma grid_lt_shape : forall a b, grid_lt a b = k_shape a b
  (if qltb 0 (g_res a) then
    let res := qmax (g_res a) (g_res b) in
    if qltb (g_lonStart a + res) (g_lonStart b) then true
    else if qltb (g_lonStart b + res) (g_lonStart a) then false
    else if qltb (g_latStart a + res) (g_latStart b) then true
    else if qltb (g_latStart b + res) (g_latStart a) then false else false
  else
    let delta := (1#20) * (qabs (g_xIncr a) + qabs (g_xIncr b) + qabs (g_yIncr a) + qabs (g_yIncr b)) / 4 in
    if qltb (g_xStart a + delta) (g_xStart b) then true
    else if qltb (g_xStart b + delta) (g_xStart a) then false
    else if qltb (g_yStart a + delta) (g_yStart b) then true
    else if qltb (g_yStart b + delta) (g_yStart a) then false else false).
Proof. reflexivity. Qed.

Lemma key_lt_shape : forall u v a b, key_lt u v a b = k_shape a b
  (if qltb (u a) (u b) then true else if qltb (u b) (u a) then false else qltb (v a) (v b)).
Proof. reflexivity. Qed.

Lemma tol_step : forall tol u v, 0 <= tol -> apart tol u v -> qltb (u + tol) v = qltb u v.
Proof.
  intros tol u v T A. apply eq_iff_eq_true. rewrite !qltb_spec. destruct A as [ A | A ].
  - split; intro; lra.
  - destruct (Qlt_le_dec u v) as [ L | L ].
    + rewrite Qabs_neg in A by lra. split; intro; lra.
    + split; intro; lra.
Qed.

Lemma apart_sym : forall tol u v, apart tol u v -> apart tol v u.
Proof. intros tol u v [ A | A ]; [ left; lra | right ]. rewrite Qabs_Qminus. exact A. Qed.
Lemma apart_comp : forall t t' u v, t == t' -> apart t u v -> apart t' u v.
Proof. intros t t' u v E [ A | A ]; [ now left | right; lra ]. Qed.

Lemma tol_lex : forall tol u v x y, 0 <= tol -> apart tol u v -> apart tol x y ->
  (if qltb (u + tol) v then true else if qltb (v + tol) u then false
   else if qltb (x + tol) y then true else if qltb (y + tol) x then false else false) =
  (if qltb u v then true else if qltb v u then false else qltb x y).
Proof.
  intros tol u v x y T A B. rewrite !tol_step by (auto using apart_sym).
  destruct (qltb u v); [ reflexivity | ]. destruct (qltb v u); [ reflexivity | ].
  destruct (qltb x y); [ reflexivity | ]. destruct (qltb y x); reflexivity.
Qed.

Lemma lonlat_key : forall S a b, clear_lonlat S -> S a -> S b ->
  grid_lt a b = key_lt g_lonStart g_latStart a b.
Proof.
  intros S a b [ P C ] Sa Sb. rewrite grid_lt_shape, key_lt_shape. apply shape_cases. intro H.
  rewrite (proj2 (qltb_spec 0 (g_res a)) (P a Sa)). cbn zeta.
  destruct (C a b Sa Sb H) as (A1 & A2 & A3 & A4).
  unfold qmax. destruct (qltb (g_res a) (g_res b)).
  - apply tol_lex; auto. apply Qlt_le_weak. now apply P.
  - apply tol_lex; auto. apply Qlt_le_weak. now apply P.
Qed.

Lemma xy_key : forall S a b, clear_xy S -> S a -> S b ->
  grid_lt a b = key_lt g_xStart g_yStart a b.
Proof.
  intros S a b [ P C ] Sa Sb. rewrite grid_lt_shape, key_lt_shape. apply shape_cases. intro H.
  rewrite (proj2 (qltb_false 0 (g_res a)) (P a Sa)). cbn zeta.
  specialize (C a b Sa Sb H). cbn zeta in C. destruct C as [ A1 A2 ].
  destruct H as (_ & _ & _ & E1 & E2).
  set (d := (1#20) * _ / 4).
  assert (E : (1 # 20) * (Qabs (g_xIncr a) + Qabs (g_yIncr a)) / 2 == d).
  { unfold d. rewrite !qabs_spec, <- E1, <- E2. field. }
  apply tol_lex.
  - rewrite <- E. assert (X := Qabs_nonneg (g_xIncr a)). assert (Y := Qabs_nonneg (g_yIncr a)).
    unfold Qdiv. change (/ 2) with (1#2). lra.
  - exact (apart_comp _ _ _ _ E A1).
  - exact (apart_comp _ _ _ _ E A2).
Qed.

Lemma swo_props : forall (S : grid -> Prop) (lt k : grid -> grid -> bool), swo k ->
  (forall a b, S a -> S b -> lt a b = k a b) ->
  irreflexive S lt /\ asymmetric S lt /\ transitive_on S lt /\ incomparability_transitive S lt.
Proof.
  intros S lt k [ A N ] E.
  assert (I : forall a, k a a = false).
  { intro a. destruct (k a a) eqn:X; [ | reflexivity ]. rewrite <- X. now rewrite (A a a X) in X. }
  repeat split.
  - intros a Sa. rewrite E by assumption. apply I.
  - intros a b Sa Sb. rewrite !E by assumption. apply A.
  - intros a b c Sa Sb Sc. rewrite !E by assumption. intros H1 H2.
    destruct (k a c) eqn:X; [ reflexivity | ]. exfalso.
    assert (Y := N a c b X (A _ _ H2)). congruence.
  - destruct H2 as [ X1 X2 ], H3 as [ X3 X4 ]. rewrite E in * by assumption. now apply (N a b c).
  - destruct H2 as [ X1 X2 ], H3 as [ X3 X4 ]. rewrite E in * by assumption. now apply (N c b a).
Qed.

(** among grids compared by longitude and latitude, with starts equal or further apart than either
    resolution, the comparison is a strict weak order *)
Theorem C40_order_lonlat : forall S, clear_lonlat S ->
  irreflexive S grid_lt /\ asymmetric S grid_lt /\ transitive_on S grid_lt /\ incomparability_transitive S grid_lt.
Proof.
  intros S C. apply (swo_props S grid_lt (key_lt g_lonStart g_latStart)); [ apply key_swo | ].
  intros a b Sa Sb. now apply (lonlat_key S).
Qed.

(** the same for grids without a resolution, which are compared by their x and y starts *)
Theorem C40_order_xy : forall S, clear_xy S ->
  irreflexive S grid_lt /\ asymmetric S grid_lt /\ transitive_on S grid_lt /\ incomparability_transitive S grid_lt.
Proof.
  intros S C. apply (swo_props S grid_lt (key_lt g_xStart g_yStart)); [ apply key_swo | ].
  intros a b Sa Sb. now apply (xy_key S).
Qed.

(** there, two grids share a map entry exactly when they agree in shape and start *)
Theorem C40_equivalence_lonlat : forall S a b, clear_lonlat S -> S a -> S b ->
  (incomparable grid_lt a b <->
   same_shape a b /\ g_lonStart a == g_lonStart b /\ g_latStart a == g_latStart b).
Proof.
  intros S a b C Sa Sb. unfold incomparable. rewrite !(lonlat_key S) by assumption. rewrite !key_lt_shape.
  split.
  - intros [ H1 H2 ].
    assert (SS : same_shape a b).
    { clear - H1 H2. unfold k_shape in *.
      destruct (str_lt (g_proj a) (g_proj b)) eqn:E1; [ discriminate | ].
      destruct (str_lt (g_proj b) (g_proj a)) eqn:E2; [ discriminate | ].
      destruct (N.ltb_spec (g_xSize a) (g_xSize b)); [ discriminate | ].
      destruct (N.ltb_spec (g_xSize b) (g_xSize a)); [ discriminate | ].
      destruct (N.ltb_spec (g_ySize a) (g_ySize b)); [ discriminate | ].
      destruct (N.ltb_spec (g_ySize b) (g_ySize a)); [ discriminate | ].
      destruct (qltb (g_xIncr a) (g_xIncr b)) eqn:E3; [ discriminate | ].
      destruct (qltb (g_xIncr b) (g_xIncr a)) eqn:E4; [ discriminate | ].
      destruct (qltb (g_yIncr a) (g_yIncr b)) eqn:E5; [ discriminate | ].
      destruct (qltb (g_yIncr b) (g_yIncr a)) eqn:E6; [ discriminate | ].
      apply qltb_false in E3, E4, E5, E6. unfold str_lt in E1, E2. repeat split; try lia; try lra.
      rewrite String.compare_antisym in E2. destruct (String.compare (g_proj a) (g_proj b)) eqn:X; try discriminate.
      now apply compare_eq. }
    split; [ exact SS | ].
    assert (R : forall x y r, same_shape x y -> k_shape x y r = r).
    { clear. intros x y r (E1 & E2 & E3 & E4 & E5). unfold k_shape, str_lt. rewrite E1, E2, E3.
      rewrite (proj2 (compare_eq _ _) eq_refl), !N.ltb_irrefl.
      rewrite !(proj2 (qltb_false _ _)) by lra. reflexivity. }
    rewrite R in H1 by assumption.
    rewrite R in H2 by (destruct SS as (E1 & E2 & E3 & E4 & E5); repeat split; auto; symmetry; assumption).
    destruct (qltb (g_lonStart a) (g_lonStart b)) eqn:L1; [ discriminate | ].
    destruct (qltb (g_lonStart b) (g_lonStart a)) eqn:L2; [ discriminate | ].
    apply qltb_false in L1, L2, H1, H2. lra.
  - intros ((E1 & E2 & E3 & E4 & E5) & L1 & L2). unfold k_shape, str_lt. rewrite E1, E2, E3.
    rewrite (proj2 (compare_eq _ _) eq_refl), !N.ltb_irrefl.
    rewrite !(proj2 (qltb_false _ _)) by lra. now split.
Qed.

(** no grid is less than itself, and grids of different shape are ordered by their shape alone *)
Theorem C40_irreflexive : forall a, grid_lt a a = false.
Proof.
  intro a. rewrite grid_lt_shape.
  assert (K : forall r, k_shape a a r = r).
  { intro r. unfold k_shape, str_lt. rewrite (proj2 (compare_eq _ _) eq_refl), !N.ltb_irrefl.
    rewrite !(proj2 (qltb_false _ _)) by lra. reflexivity. }
  rewrite K. destruct (qltb 0 (g_res a)) eqn:R; cbn zeta.
  - apply qltb_spec in R. unfold qmax. rewrite (proj2 (qltb_false (g_res a) (g_res a))) by lra.
    rewrite !(proj2 (qltb_false _ _)) by lra. reflexivity.
  - set (d := (1#20) * _ / 4). assert (D : 0 <= d).
    { unfold d. rewrite !qabs_spec. assert (X := Qabs_nonneg (g_xIncr a)). assert (Y := Qabs_nonneg (g_yIncr a)).
      unfold Qdiv. change (/ 4) with (1#4). lra. }
    rewrite !(proj2 (qltb_false _ _)) by lra. reflexivity.
Qed.

Theorem C40_shape_decides : forall a b, ~ same_shape a b -> grid_lt a b = negb (grid_lt b a).
Proof.
  intros a b H. rewrite !grid_lt_shape.
  match goal with |- k_shape a b ?r1 = negb (k_shape b a ?r2) => generalize r1 as x, r2 as y end. intros x y.
  unfold k_shape.
  destruct (str_lt (g_proj a) (g_proj b)) eqn:E1.
  { rewrite (proj1 (swo_s g_proj) a b E1). reflexivity. }
  destruct (str_lt (g_proj b) (g_proj a)) eqn:E2; [ reflexivity | ].
  destruct (N.ltb_spec (g_xSize a) (g_xSize b)); destruct (N.ltb_spec (g_xSize b) (g_xSize a)); try reflexivity; try lia.
  destruct (N.ltb_spec (g_ySize a) (g_ySize b)); destruct (N.ltb_spec (g_ySize b) (g_ySize a)); try reflexivity; try lia.
  destruct (qltb (g_xIncr a) (g_xIncr b)) eqn:E3.
  { rewrite (proj1 (swo_q g_xIncr) a b E3). reflexivity. }
  destruct (qltb (g_xIncr b) (g_xIncr a)) eqn:E4; [ reflexivity | ].
  destruct (qltb (g_yIncr a) (g_yIncr b)) eqn:E5.
  { rewrite (proj1 (swo_q g_yIncr) a b E5). reflexivity. }
  destruct (qltb (g_yIncr b) (g_yIncr a)) eqn:E6; [ reflexivity | ].
  exfalso. apply H. apply qltb_false in E3, E4, E5, E6. unfold str_lt in E1, E2. repeat split; try lia; try lra.
  rewrite String.compare_antisym in E2. destruct (String.compare (g_proj a) (g_proj b)) eqn:X; try discriminate.
  now apply compare_eq.
Qed.

(** a grid with and one without a resolution can each be less than the other *)
Theorem C40_asymmetric_refuted : exists a b, grid_lt a b = true /\ grid_lt b a = true.
Proof.
  exists (mkGrid "p" 10 10 1 1 5 0 0 0 (1#10)), (mkGrid "p" 10 10 1 1 0 0 5 0 (-1)). split; reflexivity.
Qed.

(** a cycle: each of three grids is less than the next *)
Theorem C40_transitive_refuted : exists a b c,
  (g_res a < 0 /\ g_res b < 0 /\ g_res c < 0) /\
  grid_lt a b = true /\ grid_lt b c = true /\ grid_lt c a = true.
Proof.
  exists (mkGrid "p" 10 10 1 1 (8#100) 0 0 0 (-1)), (mkGrid "p" 10 10 1 1 (4#100) 1 0 0 (-1)),
         (mkGrid "p" 10 10 1 1 0 2 0 0 (-1)).
  repeat split; reflexivity.
Qed.

(** two grids equivalent to a third need not be equivalent *)
Theorem C40_incomparability_refuted : exists a b c,
  incomparable grid_lt a b /\ incomparable grid_lt b c /\ ~ incomparable grid_lt a c.
Proof.
  exists (mkGrid "p" 10 10 1 1 0 0 0 0 (-1)), (mkGrid "p" 10 10 1 1 (4#100) 0 0 0 (-1)),
         (mkGrid "p" 10 10 1 1 (8#100) 0 0 0 (-1)).
  repeat split; try reflexivity. intros [ H _ ]. discriminate H.
Qed.

(** ** comparableTo *)

Theorem C40_comparable_reflexive : forall a delta, 0 <= delta -> comparableTo a a delta = true.
Proof.
  intros a delta D. unfold comparableTo. rewrite !N.eqb_refl.
  assert (R : forall x, deltaCompare x x delta = true).
  { intro x. unfold deltaCompare. destruct (Qeq_bool x 0) eqn:E; apply Qle_bool_iff; rewrite qabs_spec.
    - apply Qeq_bool_iff in E. rewrite E. exact D.
    - apply Qeq_bool_neq in E. assert (X : 1 - x / x == 0) by (field; exact E). rewrite X. exact D. }
  now rewrite !R.
Qed.

(** with tolerance 0 it is equality of the sizes, increments and starts *)
Theorem C40_comparable_exact : forall a b,
  comparableTo a b 0 = true <->
  g_xSize a = g_xSize b /\ g_ySize a = g_ySize b /\ g_xIncr a == g_xIncr b /\ g_yIncr a == g_yIncr b /\
  g_xStart a == g_xStart b /\ g_yStart a == g_yStart b.
Proof.
  intros a b.
  assert (R : forall x y, deltaCompare x y 0 = true <-> x == y).
  { intros x y. unfold deltaCompare. destruct (Qeq_bool x 0) eqn:E; rewrite Qle_bool_iff, qabs_spec.
    - apply Qeq_bool_iff in E. split.
      + intro H. assert (N := Qabs_nonneg y). rewrite E. destruct (Qlt_le_dec y 0) as [ L | L ].
        * rewrite Qabs_neg in H by lra. lra.
        * rewrite Qabs_pos in H by lra. lra.
      + intro H. assert (Y : y == 0) by lra. rewrite Y. apply Qle_refl.
    - apply Qeq_bool_neq in E. split.
      + intro H. assert (Z0 : 1 - y / x == 0).
        { destruct (Qlt_le_dec (1 - y / x) 0) as [ L | L ].
          - rewrite Qabs_neg in H by lra. lra.
          - rewrite Qabs_pos in H by lra. lra. }
        assert (F : x - y == (1 - y / x) * x) by (field; exact E). rewrite Z0 in F. lra.
      + intro H. assert (Z0 : 1 - y / x == 0) by (rewrite <- H; field; exact E). rewrite Z0. apply Qle_refl. }
  unfold comparableTo.
  destruct (N.eqb_spec (g_xSize a) (g_xSize b)); cbn [negb]; [ | split; [ discriminate | tauto ] ].
  destruct (N.eqb_spec (g_ySize a) (g_ySize b)); cbn [negb]; [ | split; [ discriminate | tauto ] ].
  rewrite <- !R.
  destruct (deltaCompare (g_xIncr a) (g_xIncr b) 0); cbn [negb]; [ | split; [ discriminate | intros (_ & _ & X & _); discriminate X ] ].
  destruct (deltaCompare (g_yIncr a) (g_yIncr b) 0); cbn [negb]; [ | split; [ discriminate | intros (_ & _ & _ & X & _); discriminate X ] ].
  destruct (deltaCompare (g_xStart a) (g_xStart b) 0); cbn [negb]; [ | split; [ discriminate | intros (_ & _ & _ & _ & X & _); discriminate X ] ].
  destruct (deltaCompare (g_yStart a) (g_yStart b) 0); cbn [negb]; [ tauto | split; [ discriminate | intros (_ & _ & _ & _ & _ & X); discriminate X ] ].
Qed.

(** it is not symmetric: the tolerance is relative to the first grid *)
Theorem C40_comparable_symmetric_refuted : exists a b delta, 0 < delta /\
  comparableTo a b delta = true /\ comparableTo b a delta = false.
Proof.
  exists (mkGrid "p" 10 10 (11#10) 1 0 0 0 0 (-1)), (mkGrid "p" 10 10 1 1 0 0 0 0 (-1)), (95#1000).
  repeat split; reflexivity.
Qed.

(** the constructor folds the start longitude into [0, 360) unless it is below -360 *)
Theorem C40_lon_start : forall p nx ny dx dy x y lon lat res, -360 <= lon ->
  let l := g_lonStart (make_grid p nx ny dx dy x y lon lat res) in
  0 <= l /\ l < 360 /\ exists k : Z, lon == l + 360 * inject_Z k.
Proof.
  intros p nx ny dx dy x y lon lat res H. cbn [make_grid g_lonStart]. unfold fmod. cbn zeta.
  assert (D : 0 <= (lon + 360) / 360) by (apply Qle_shift_div_l; [ reflexivity | lra ]).
  rewrite (proj2 (Qle_bool_iff _ _) D).
  destruct (Qfloor_bounds ((lon + 360) / 360)) as [ B1 B2 ].
  set (k := Qfloor ((lon + 360) / 360)) in *.
  assert (E : lon + 360 == 360 * ((lon + 360) / 360)) by (field; discriminate).
  set (q := (lon + 360) / 360) in *. split; [ lra | ]. split; [ lra | ].
  exists (k - 1)%Z. unfold Z.sub. rewrite inject_Z_plus. change (inject_Z (-(1))) with (-1). lra.
Qed.

Theorem C40_lon_start_below_refuted : exists lon, lon < -360 /\
  g_lonStart (make_grid "p" 1 1 1 1 0 0 lon 0 1) < 0.
Proof. exists (-370). split; reflexivity. Qed.

(** three grids on the same shape, two of them with equal starts *)
Example C40_nonvacuous :
  let a := mkGrid "p" 10 10 1 1 0 0 10 60 (1#10) in
  let b := mkGrid "p" 10 10 1 1 0 0 12 60 (1#5) in
  let c := mkGrid "p" 10 10 1 1 7 7 10 60 (1#10) in
  clear_lonlat (fun g => g = a \/ g = b \/ g = c) /\
  grid_lt a b = true /\ grid_lt b a = false /\ grid_lt a c = false /\ grid_lt c a = false.
Proof.
  cbn zeta. split; [ split | repeat split; reflexivity ].
  - intros g [ -> | [ -> | -> ] ]; reflexivity.
  - intros g h [ -> | [ -> | -> ] ] [ -> | [ -> | -> ] ] _; cbn [g_res g_lonStart g_latStart]; unfold apart;
      repeat split; solve [ left; reflexivity | right; reflexivity ].
Qed.

Print Assumptions C40_order_lonlat.
Print Assumptions C40_order_xy.
Print Assumptions C40_equivalence_lonlat.
Print Assumptions C40_irreflexive.
Print Assumptions C40_shape_decides.
Print Assumptions C40_asymmetric_refuted.
Print Assumptions C40_transitive_refuted.
Print Assumptions C40_incomparability_refuted.
Print Assumptions C40_comparable_reflexive.
Print Assumptions C40_comparable_exact.
Print Assumptions C40_comparable_symmetric_refuted.
Print Assumptions C40_lon_start.
Print Assumptions C40_lon_start_below_refuted.
