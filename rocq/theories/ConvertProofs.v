(** Lemmas about the conversions. *)
From Coq Require Import NArith ZArith QArith Qround Qabs Qcanon Lqa Ascii String List Bool Lia.
From Coq Require Import ZifyBool ZifyNat ZifyN.
From Verif Require Import Base Rounding SearchModel SearchProofs RegridModel StringModel StringProofs ConvertModel.
Import ListNotations.
Local Open Scope Z_scope.

Lemma z2q_val : forall z, (this (z2q z) == inject_Z z)%Q.
Proof. intro z. unfold z2q. cbn [this Q2Qc]. apply Qred_correct. Qed.

Lemma z2q_inj : forall a b, z2q a = z2q b -> a = b.
Proof.
  intros a b E. assert (H : (inject_Z a == inject_Z b)%Q) by (rewrite <- !z2q_val, E; reflexivity).
  unfold Qeq, inject_Z in H. cbn [Qnum Qden] in H. lia.
Qed.

Lemma lround_z2q : forall z, lround (z2q z) = z.
Proof. intro z. rewrite <- (lround_int z) at 2. apply lround_comp, z2q_val. Qed.

Lemma floor_z2q : forall z, Qfloor (z2q z) = z.
Proof. intro z. rewrite <- (Qfloor_Z z) at 2. apply Qfloor_comp, z2q_val. Qed.

Lemma ceiling_z2q : forall z, Qceiling (z2q z) = z.
Proof. intro z. rewrite <- (Qceiling_Z z) at 2. apply Qceiling_comp, z2q_val. Qed.

Lemma truncate_z2q : forall z, truncate (z2q z) = z.
Proof. intro z. unfold truncate. rewrite floor_z2q, ceiling_z2q. now destruct (Qle_bool 0 (z2q z)). Qed.

Lemma wrap_id : forall lo hi z, lo <= z <= hi -> wrap lo hi z = z.
Proof. intros lo hi z H. unfold wrap. rewrite Z.mod_small by lia. lia. Qed.

Lemma wrap_range : forall lo hi z, lo <= hi -> lo <= wrap lo hi z <= hi.
Proof. intros lo hi z H. unfold wrap. assert (B := Z.mod_pos_bound (z - lo) (hi - lo + 1)). lia. Qed.

Lemma wrap_congr : forall lo hi z, lo <= hi -> exists k, wrap lo hi z = z + k * (hi - lo + 1).
Proof.
  intros lo hi z H. unfold wrap. assert (D := Z.div_mod (z - lo) (hi - lo + 1) ltac:(lia)).
  exists (- ((z - lo) / (hi - lo + 1))). lia.
Qed.

Lemma wrap_shift : forall lo hi z k, lo <= hi -> wrap lo hi (z + k * (hi - lo + 1)) = wrap lo hi z.
Proof.
  intros lo hi z k H. unfold wrap. replace (z + k * (hi - lo + 1) - lo) with ((z - lo) + k * (hi - lo + 1)) by lia.
  now rewrite Z.mod_add by lia.
Qed.

(** the types of at most 32 bits *)
Definition small (t : dtype) : Prop := In t [DChar; DShort; DInt; DUChar; DUShort; DUInt].
Definition wide (t : dtype) : Prop := In t [DInt64; DUInt64].

Lemma small_range : forall t, small t -> exists lo hi, int_range t = Some (lo, hi) /\ lo <= hi /\
  - 2 ^ 31 <= lo /\ hi < 2 ^ 32 /\ (exists c, 2 ^ 32 = c * (hi - lo + 1)).
Proof.
  intros t S. unfold small in S. cbn in S.
  decompose [or] S; subst; try contradiction; do 2 eexists; (split; [ reflexivity | ]); (split; [ lia | ]);
    (split; [ lia | ]); (split; [ lia | ]).
  - exists (2 ^ 24). reflexivity.
  - exists (2 ^ 16). reflexivity.
  - exists 1. reflexivity.
  - exists (2 ^ 24). reflexivity.
  - exists (2 ^ 16). reflexivity.
  - exists 1. reflexivity.
Qed.

Lemma round_int_ok : forall q : Qc, - 2 ^ 63 <= lround q < 2 ^ 63 ->
  round_int q = Ok (wrap (- 2 ^ 31) (2 ^ 31 - 1) (lround q)).
Proof.
  intros q H. unfold round_int. destruct (Z.leb_spec (- 2 ^ 63) (lround q)); [ | lia ].
  destruct (Z.ltb_spec (lround q) (2 ^ 63)); [ reflexivity | lia ].
Qed.

Lemma cast_small : forall t lo hi (q : Qc), small t -> int_range t = Some (lo, hi) -> - 2 ^ 63 <= lround q < 2 ^ 63 ->
  data_cast DDouble t (Some q) = Ok (Some (z2q (wrap lo hi (lround q)))).
Proof.
  intros t lo hi q S R B. destruct (small_range t S) as (lo' & hi' & R' & L & _ & _ & c & C).
  rewrite R in R'. injection R' as <- <-. unfold data_cast. cbn [int_range]. rewrite R.
  rewrite round_int_ok by assumption. cbn [obind]. do 3 f_equal.
  destruct (wrap_congr (- 2 ^ 31) (2 ^ 31 - 1) (lround q) ltac:(lia)) as [k K]. rewrite K.
  replace (k * (2 ^ 31 - 1 - - 2 ^ 31 + 1)) with (k * c * (hi - lo + 1)) by (rewrite <- Z.mul_assoc, <- C; lia).
  now apply wrap_shift.
Qed.

Lemma cast_any : forall t lo hi (q : Qc), int_range t = Some (lo, hi) -> lo <= lround q <= hi ->
  - 2 ^ 31 <= lround q < 2 ^ 31 -> data_cast DDouble t (Some q) = Ok (Some (z2q (lround q))).
Proof.
  intros t lo hi q R I B. unfold data_cast. cbn [int_range]. rewrite R, round_int_ok by lia. cbn [obind].
  rewrite (wrap_id (- 2 ^ 31)) by lia. now rewrite wrap_id.
Qed.

(** nearest integer, halves away from zero *)
Definition nearest_away (q : Q) (z : Z) : Prop :=
  (Qabs (q - inject_Z z) < 1#2)%Q \/ ((Qabs (q - inject_Z z) == 1#2)%Q /\ (Qabs q < Qabs (inject_Z z))%Q).

Lemma lround_away : forall q, nearest_away q (lround q).
Proof.
  intro q. unfold nearest_away, lround. destruct (Qle_bool 0 q) eqn:E.
  - apply Qle_bool_iff in E. assert (B1 := Qfloor_le (q + (1#2))). assert (B2 := Qlt_floor (q + (1#2))).
    rewrite inject_Z_plus in B2. change (inject_Z 1) with 1%Q in B2.
    set (z := Qfloor (q + (1#2))) in *. set (r := inject_Z z) in *.
    destruct (Qlt_le_dec (Qabs (q - r)) (1#2)) as [ L | L ]; [ now left | right ].
    assert ((q - r == - (1#2))%Q).
    { revert L. apply Qabs_case; intros; lra. }
    split.
    + rewrite H. reflexivity.
    + rewrite !Qabs_pos by lra. lra.
  - assert (q < 0)%Q as N.
    { apply Qnot_le_lt. intro C. apply Qle_bool_iff in C. congruence. }
    assert (B1 := Qfloor_le (- q + (1#2))). assert (B2 := Qlt_floor (- q + (1#2))).
    rewrite inject_Z_plus in B2. change (inject_Z 1) with 1%Q in B2.
    rewrite inject_Z_opp. set (z := Qfloor (- q + (1#2))) in *. set (r := inject_Z z) in *.
    destruct (Qlt_le_dec (Qabs (q - - r)) (1#2)) as [ L | L ]; [ now left | right ].
    assert ((q - - r == (1#2))%Q).
    { revert L. apply Qabs_case; intros; lra. }
    split.
    + rewrite H. reflexivity.
    + rewrite Qabs_neg by lra. rewrite (Qabs_neg (- r)) by lra. lra.
Qed.

Lemma nearest_away_unique : forall q a b, nearest_away q a -> nearest_away q b -> a = b.
Proof.
  intros q a b A B.
  assert (H : forall x y, nearest_away q x -> nearest_away q y -> ~ x < y).
  { clear. intros x y A B L.
    assert (D : (inject_Z x + 1 <= inject_Z y)%Q).
    { change 1%Q with (inject_Z 1). rewrite <- inject_Z_plus, <- Zle_Qle. lia. }
    unfold nearest_away in A, B.
    assert (A1 : (q - inject_Z x <= 1#2)%Q).
    { destruct A as [ A | [A _] ]; assert (Q := Qle_Qabs (q - inject_Z x)); lra. }
    assert (B1 : (- (q - inject_Z y) <= 1#2)%Q).
    { assert (Q := Qle_Qabs (- (q - inject_Z y))). rewrite Qabs_opp in Q. destruct B as [ B | [B _] ]; lra. }
    destruct A as [ A | [A A2] ].
    { assert (Q := Qle_Qabs (q - inject_Z x)). lra. }
    destruct B as [ B | [B B2] ].
    { assert (Q := Qle_Qabs (- (q - inject_Z y))). rewrite Qabs_opp in Q. lra. }
    assert (EX : (inject_Z x == q - (1#2))%Q) by lra. assert (EY : (inject_Z y == q + (1#2))%Q) by lra.
    assert (F : (- (1#4) < q < 1#4)%Q).
    { rewrite EX in A2. rewrite EY in B2. clear - A2 B2.
      revert A2 B2. apply (Qabs_case q); intros P; apply (Qabs_case (q - (1#2))); intros P1;
        apply (Qabs_case (q + (1#2))); intros P2; lra. }
    assert (X1 : (inject_Z (-1) < inject_Z x)%Q) by (change (inject_Z (-1)) with (-1)%Q; lra).
    assert (X2 : (inject_Z x < inject_Z 0)%Q) by (change (inject_Z 0) with 0%Q; lra).
    rewrite <- Zlt_Qlt in X1, X2. lia. }
  destruct (Z.lt_trichotomy a b) as [ L | [ L | L ] ]; [ exfalso | assumption | exfalso ].
  - now apply (H a b).
  - now apply (H b a).
Qed.

Lemma veqb_eq : forall a b, veqb a b = true <-> exists x, a = Some x /\ b = Some x.
Proof.
  intros [a|] [b|]; cbn; split; intro H; try discriminate; try (destruct H as (x & A & B); discriminate).
  - apply Qc_eq_bool_correct in H. subst. eauto.
  - destruct H as (x & A & B). injection A as ->. injection B as ->.
    destruct (Qc_eq_bool x x) eqn:E; [ reflexivity | ]. unfold Qc_eq_bool in E.
    destruct (Qc_eq_dec x x); [ discriminate | congruence ].
Qed.

Lemma Qc_eq_bool_false : forall a b, Qc_eq_bool a b = false <-> a <> b.
Proof.
  intros a b. unfold Qc_eq_bool. destruct (Qc_eq_dec a b); split; congruence.
Qed.
Lemma Qc_eq_bool_refl : forall a, Qc_eq_bool a a = true.
Proof. intro a. unfold Qc_eq_bool. destruct (Qc_eq_dec a a); congruence. Qed.

(** values of a type *)
Definition has_type (t : dtype) (v : value) : Prop :=
  match int_range t with
  | Some (lo, hi) => exists z, v = Some (z2q z) /\ lo <= z <= hi
  | None => True
  end.

Lemma static_cast_id : forall t v, has_type t v -> static_cast t v = Ok v.
Proof.
  intros t v H. unfold has_type in H. unfold static_cast. destruct (int_range t) as [[lo hi]|]; [ | reflexivity ].
  destruct H as (z & -> & B). rewrite truncate_z2q.
  destruct (Z.leb_spec lo z); [ | lia ]. destruct (Z.leb_spec z hi); [ reflexivity | lia ].
Qed.

Lemma omapM_pointwise : forall A B (f : A -> outcome B) (g : A -> B) l,
  (forall a, In a l -> f a = Ok (g a)) -> omapM f l = Ok (map g l).
Proof.
  intros A B f g. induction l as [ | a l IH ]; intro H; [ reflexivity | ]. cbn [omapM map].
  rewrite (H a) by now left. cbn [obind]. rewrite IH; [ reflexivity | ]. intros; apply H; now right.
Qed.
