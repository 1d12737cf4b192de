(** Rounding functions of the C library over exact rationals, and integer conversions.
    Floating-point numbers are modelled as rationals ([Q]); NaN is [None] in [option Q]. *)
From Coq Require Import ZArith NArith QArith Qround Qabs Lia Lqa List Bool.
From Coq Require Import ZifyBool ZifyNat ZifyN.
Local Open Scope Z_scope.

(** lround: nearest integer, halves away from zero (C library) *)
Definition lround (q : Q) : Z :=
  if Qle_bool 0 q then Qfloor (q + (1#2)) else - Qfloor (- q + (1#2)).

(** conversion long -> int (two's complement, as every supported compiler does) *)
Definition to_int32 (z : Z) : Z := (z + 2 ^ 31) mod 2 ^ 32 - 2 ^ 31.

(** conversion int -> size_t *)
Definition to_size (z : Z) : N := Z.to_N (z mod 2 ^ 64).

Lemma to_int32_small z : - 2 ^ 31 <= z < 2 ^ 31 -> to_int32 z = z.
Proof. intro H. unfold to_int32. rewrite Z.mod_small by lia. lia. Qed.

Lemma to_size_small z : 0 <= z < 2 ^ 64 -> to_size z = Z.to_N z.
Proof. intro H. unfold to_size. rewrite Z.mod_small by lia. reflexivity. Qed.

Lemma to_size_neg z : - 2 ^ 64 <= z < 0 -> to_size z = Z.to_N (2 ^ 64 + z).
Proof.
  intro H. unfold to_size. f_equal.
  replace z with ((2 ^ 64 + z) + (-1) * 2 ^ 64) at 1 by lia.
  rewrite Z.mod_add by lia. apply Z.mod_small. lia.
Qed.

Lemma Qfloor_bounds q : (inject_Z (Qfloor q) <= q /\ q < inject_Z (Qfloor q) + 1)%Q.
Proof.
  split; [apply Qfloor_le|]. pose proof (Qlt_floor q) as H.
  rewrite inject_Z_plus in H. exact H.
Qed.

Lemma Qfloor_unique q z : (inject_Z z <= q)%Q -> (q < inject_Z z + 1)%Q -> Qfloor q = z.
Proof.
  intros H1 H2. pose proof (Qfloor_bounds q) as [H3 H4].
  assert (inject_Z (Qfloor q) < inject_Z (z + 1))%Q as H5 by (rewrite inject_Z_plus; change (inject_Z 1) with 1%Q; lra).
  assert (inject_Z z < inject_Z (Qfloor q + 1))%Q as H6 by (rewrite inject_Z_plus; change (inject_Z 1) with 1%Q; lra).
  rewrite <- Zlt_Qlt in H5, H6. lia.
Qed.

(** the rounded number is within one half *)
Lemma lround_half q : (Qabs (q - inject_Z (lround q)) <= 1#2)%Q.
Proof.
  unfold lround. destruct (Qle_bool 0 q) eqn:E.
  - pose proof (Qfloor_bounds (q + (1#2))) as [H1 H2]. apply Qabs_Qle_condition. split; lra.
  - pose proof (Qfloor_bounds (- q + (1#2))) as [H1 H2]. apply Qabs_Qle_condition.
    rewrite inject_Z_opp. split; lra.
Qed.

(** hence no integer is closer *)
Lemma lround_nearest q k : (Qabs (q - inject_Z (lround q)) <= Qabs (q - inject_Z k))%Q.
Proof.
  pose proof (lround_half q) as H.
  destruct (Z.eq_dec k (lround q)) as [->|NE]; [apply Qle_refl|].
  eapply Qle_trans; [exact H|].
  apply Qabs_Qle_condition in H as [H1 H2].
  destruct (Z.lt_ge_cases k (lround q)) as [C|C].
  - assert (inject_Z (k + 1) <= inject_Z (lround q))%Q as C2 by (rewrite <- Zle_Qle; lia).
    rewrite inject_Z_plus in C2. change (inject_Z 1) with 1%Q in C2.
    eapply Qle_trans; [|apply Qle_Qabs]. lra.
  - assert (inject_Z (lround q + 1) <= inject_Z k)%Q as C2 by (rewrite <- Zle_Qle; lia).
    rewrite inject_Z_plus in C2. change (inject_Z 1) with 1%Q in C2.
    rewrite Qabs_Qminus. eapply Qle_trans; [|apply Qle_Qabs]. lra.
Qed.

(** halves go away from zero *)
Lemma lround_half_up z : 0 <= z -> lround (inject_Z z + (1#2)) = z + 1.
Proof.
  intro H. unfold lround.
  assert (0 <= inject_Z z)%Q as HZ by (change 0%Q with (inject_Z 0); rewrite <- Zle_Qle; lia).
  replace (Qle_bool 0 _) with true by (symmetry; apply Qle_bool_iff; lra).
  apply Qfloor_unique; rewrite inject_Z_plus; change (inject_Z 1) with 1%Q; lra.
Qed.

Lemma lround_int z : lround (inject_Z z) = z.
Proof.
  unfold lround. destruct (Qle_bool 0 _) eqn:E.
  - apply Qfloor_unique; lra.
  - rewrite (Qfloor_unique _ (- z)); [lia| |]; rewrite inject_Z_opp; lra.
Qed.

Lemma Qfloor_add_Z q z : Qfloor (q - inject_Z z) = Qfloor q - z.
Proof.
  pose proof (Qfloor_bounds q) as [H1 H2].
  apply Qfloor_unique; unfold Zminus; rewrite inject_Z_plus, inject_Z_opp; lra.
Qed.

Lemma lround_comp q1 q2 : (q1 == q2)%Q -> lround q1 = lround q2.
Proof.
  intro H. unfold lround.
  assert (Qle_bool 0 q1 = Qle_bool 0 q2) as ->.
  { apply eq_true_iff_eq. rewrite !Qle_bool_iff, H. reflexivity. }
  destruct (Qle_bool 0 q2); [|f_equal]; apply Qfloor_comp; rewrite H; reflexivity.
Qed.
