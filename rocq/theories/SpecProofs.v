(** Lemmas for SpecModel *)
From Coq Require Import NArith ZArith QArith Qround Qabs Ascii String List Bool Lia Lqa.
From Coq Require Import ZifyBool ZifyNat ZifyN.
From Verif Require Import Base Rounding SearchModel SearchProofs StringModel StringProofs StringProps TextModel ConvertModel SpecModel.
Import ListNotations.

Lemma Qceiling_bounds q : (inject_Z (Qceiling q) - 1 < q /\ q <= inject_Z (Qceiling q))%Q.
Proof.
  unfold Qceiling. destruct (Qfloor_bounds (- q)) as [ A B ]. rewrite inject_Z_opp. lra.
Qed.

Lemma trunc_pos : forall q, (0 <= q)%Q -> truncate q = Qfloor q.
Proof. intros q H. unfold truncate. now rewrite (proj2 (Qle_bool_iff _ _) H). Qed.
Lemma trunc_neg : forall q, (q < 0)%Q -> truncate q = Qceiling q.
Proof. intros q H. unfold truncate. rewrite (proj2 (qleb_false 0 q)) by exact H. reflexivity. Qed.

Lemma quot_mul : forall t d, ~ (d == 0)%Q -> (t == t / d * d)%Q.
Proof. intros. field. assumption. Qed.

(** the quotient fits into an int *)
Definition fits (t delta : Q) : Prop := (- inject_Z (2 ^ 31) < t / delta /\ t / delta < inject_Z (2 ^ 31))%Q.

Lemma on_grid_ok : forall t d, ~ (d == 0)%Q -> fits t d -> on_grid t d = Ok (inject_Z (truncate (t / d)) * d)%Q.
Proof.
  intros t d D [ F1 F2 ]. unfold on_grid.
  destruct (Qeq_bool d 0) eqn:E; [ apply Qeq_bool_iff in E; contradiction | ].
  assert (B : (- 2 ^ 31 <= truncate (t / d) < 2 ^ 31)%Z).
  { destruct (Qlt_le_dec (t / d) 0) as [ L | L ].
    - rewrite trunc_neg by exact L. destruct (Qceiling_bounds (t / d)) as [ A B ]. split.
      + apply Z.lt_succ_r. rewrite Zlt_Qlt. unfold Z.succ. rewrite inject_Z_plus, inject_Z_opp in *.
        change (inject_Z 1) with 1%Q. lra.
      + rewrite Zlt_Qlt. apply Qlt_le_trans with (1 : Q); [ | discriminate ]. lra.
    - rewrite trunc_pos by exact L. destruct (Qfloor_bounds (t / d)) as [ A B ]. split.
      + apply Z.le_trans with 0%Z; [ lia | ]. apply Z.lt_succ_r. rewrite Zlt_Qlt. unfold Z.succ.
        rewrite inject_Z_plus. change (inject_Z 1) with 1%Q. change (inject_Z 0) with 0%Q. lra.
      + rewrite Zlt_Qlt. lra. }
  destruct (Z.leb_spec (- 2 ^ 31) (truncate (t / d))); [ | lia ].
  destruct (Z.ltb_spec (truncate (t / d)) (2 ^ 31)); [ | lia ]. reflexivity.
Qed.

Lemma mul_lt : forall a b d, (0 < d)%Q -> (a < b)%Q -> (a * d < b * d)%Q.
Proof. intros. apply Qmult_lt_compat_r; assumption. Qed.
Lemma mul_le : forall a b d, (0 < d)%Q -> (a <= b)%Q -> (a * d <= b * d)%Q.
Proof. intros. apply Qmult_le_compat_r; [ assumption | lra ]. Qed.

(** positive step, time not before 0: the largest multiple not above *)
Lemma on_grid_pos : forall t d, (0 < d)%Q -> (0 <= t)%Q -> fits t d ->
  exists z : Z, on_grid t d = Ok (inject_Z z * d)%Q /\ (inject_Z z * d <= t)%Q /\ (t < inject_Z z * d + d)%Q.
Proof.
  intros t d D T F. exists (truncate (t / d)). rewrite on_grid_ok by (auto; lra).
  assert (Q0 : (0 <= t / d)%Q) by (apply Qle_shift_div_l; [ exact D | lra ]).
  rewrite trunc_pos by exact Q0. destruct (Qfloor_bounds (t / d)) as [ A B ].
  split; [ reflexivity | ]. assert (E := quot_mul t d). specialize (E ltac:(lra)).
  apply (mul_le _ _ d D) in A. apply (mul_lt _ _ d D) in B. split; lra.
Qed.

(** before 0: the smallest multiple not below *)
Lemma on_grid_neg : forall t d, (0 < d)%Q -> (t < 0)%Q -> fits t d ->
  exists z : Z, on_grid t d = Ok (inject_Z z * d)%Q /\ (t <= inject_Z z * d)%Q /\ (inject_Z z * d < t + d)%Q.
Proof.
  intros t d D T F. exists (truncate (t / d)). rewrite on_grid_ok by (auto; lra).
  assert (Q0 : (t / d < 0)%Q) by (apply Qlt_shift_div_r; [ exact D | lra ]).
  rewrite trunc_neg by exact Q0. destruct (Qceiling_bounds (t / d)) as [ A B ].
  split; [ reflexivity | ]. assert (E := quot_mul t d). specialize (E ltac:(lra)).
  apply (mul_lt _ _ d D) in A. apply (mul_le _ _ d D) in B. split; lra.
Qed.

Lemma x_match_none : forall s, ~ In "x"%char s -> x_match s = None.
Proof.
  intros s H. unfold x_match. rewrite find_from_none; [ reflexivity | ].
  apply Forall_forall. intros c I. apply Ascii.eqb_neq. intros <-. contradiction.
Qed.

Lemma str_eqb_neq : forall a b, a <> b -> str_eqb a b = false.
Proof. intros a b H. unfold str_eqb. destruct (list_eq_dec ascii_dec a b); [ contradiction | reflexivity ]. Qed.
