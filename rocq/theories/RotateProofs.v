(** Facts about [RotateModel]. *)
From Coq Require Import Reals List ZArith Lia Lra.
From Coq Require Import ZifyBool ZifyNat.
From Verif Require Import Base FillModel FillProofs RotateModel.
Import ListNotations.
Local Open Scope R_scope.

(** ** atan2 *)
Lemma sqrt_scale : forall x y, x <> 0 -> sqrt (1 + (y / x)²) = sqrt (x * x + y * y) / Rabs x.
Proof.
  intros x y H. assert (P : 0 < Rabs x) by (now apply Rabs_pos_lt).
  assert (S : 0 < x * x) by nra.
  replace (1 + (y / x)²) with ((x * x + y * y) / (x * x)) by (unfold Rsqr; field; exact H).
  rewrite sqrt_div by nra. f_equal. rewrite <- (sqrt_Rsqr_abs x). reflexivity.
Qed.

Lemma atan2_polar : forall y x, x <> 0 \/ y <> 0 ->
  cos (atan2 y x) = x / sqrt (x * x + y * y) /\ sin (atan2 y x) = y / sqrt (x * x + y * y).
Proof.
  intros y x H. unfold atan2.
  assert (N : 0 < x * x + y * y) by (destruct H; nra).
  assert (S := sqrt_lt_R0 _ N). set (r := sqrt (x * x + y * y)) in *.
  destruct (Rlt_dec 0 x) as [ X | X ].
  - rewrite cos_atan, sin_atan, sqrt_scale by lra. fold r. rewrite Rabs_right by lra. split; field; lra.
  - destruct (Rlt_dec x 0) as [ X' | X' ].
    + assert (C : cos (atan (y / x)) = - x / r).
      { rewrite cos_atan, sqrt_scale by lra. fold r. rewrite Rabs_left by lra. field. lra. }
      assert (D : sin (atan (y / x)) = - y / r).
      { rewrite sin_atan, sqrt_scale by lra. fold r. rewrite Rabs_left by lra. field. lra. }
      destruct (Rle_dec 0 y).
      * rewrite neg_cos, neg_sin, C, D. split; field; lra.
      * replace (atan (y / x) - PI) with (- (PI - atan (y / x))) by ring.
        rewrite cos_neg, sin_neg, Rtrigo_facts.cos_pi_minus, Rtrigo_facts.sin_pi_minus, C, D. split; field; lra.
    + assert (x = 0) by lra. subst x. unfold r.
      replace (0 * 0 + y * y) with (y²) by (unfold Rsqr; ring). rewrite sqrt_Rsqr_abs.
      destruct (Rlt_dec 0 y).
      * rewrite cos_PI2, sin_PI2, Rabs_right by lra. split; field; lra.
      * destruct (Rlt_dec y 0).
        -- rewrite cos_neg, sin_neg, cos_PI2, sin_PI2, Rabs_left by lra. split; field; lra.
        -- lra.
Qed.

Lemma atan2_range : forall y x, - PI < atan2 y x <= PI.
Proof.
  intros y x. assert (P := PI_RGT_0). unfold atan2.
  assert (B := atan_bound (y / x)).
  destruct (Rlt_dec 0 x); [ lra | ]. destruct (Rlt_dec x 0) as [ X | X ].
  - destruct (Rle_dec 0 y) as [ Y | Y ].
    + assert (atan (y / x) <= 0).
      { rewrite <- atan_0. destruct (Req_dec y 0) as [ -> | N ].
        - right. f_equal. field. lra.
        - left. apply atan_increasing. replace (y / x) with (- (y * / (- x))) by (field; lra).
          assert (0 < / (- x)) by (apply Rinv_0_lt_compat; lra). nra. }
      lra.
    + assert (0 < atan (y / x)).
      { rewrite <- atan_0. apply atan_increasing. replace (y / x) with ((- y) * / (- x)) by (field; lra).
        assert (0 < / (- x)) by (apply Rinv_0_lt_compat; lra). nra. }
      lra.
  - destruct (Rlt_dec 0 y); [ lra | ]. destruct (Rlt_dec y 0); lra.
Qed.

(** two angles of a half-open turn with equal sine and cosine are equal *)
Lemma angle_unique : forall a b, - PI < a <= PI -> - PI < b <= PI -> cos a = cos b -> sin a = sin b -> a = b.
Proof.
  intros a b Ha Hb C S. assert (P := PI_RGT_0).
  assert (D : cos (a - b) = 1).
  { rewrite cos_minus, C, S. assert (Q := sin2_cos2 b). unfold Rsqr in Q. lra. }
  assert (G : forall z, 0 <= z < 2 * PI -> cos z = 1 -> z = 0).
  { intros z Hz E. destruct (Req_dec z 0) as [ | N ]; [ assumption | exfalso ].
    assert (H2 : sin (z / 2) = 0).
    { assert (Q := cos_2a_sin (z / 2)). replace (2 * (z / 2)) with z in Q by field. rewrite E in Q. nra. }
    assert (0 < sin (z / 2)) by (apply sin_gt_0; lra). lra. }
  destruct (Rle_dec b a) as [ L | L ].
  - assert (a - b = 0) by (apply G; [ lra | exact D ]). lra.
  - assert (b - a = 0).
    { apply G; [ lra | ]. replace (b - a) with (- (a - b)) by ring. rewrite cos_neg. exact D. }
    lra.
Qed.

Lemma atan2_angle : forall k t, 0 < k -> - PI < t <= PI -> atan2 (k * sin t) (k * cos t) = t.
Proof.
  intros k t Hk Ht.
  assert (Q := sin2_cos2 t). unfold Rsqr in Q.
  assert (N : k * cos t <> 0 \/ k * sin t <> 0).
  { destruct (Req_dec (cos t) 0) as [ E | E ]; [ right | left; nra ].
    intro Z. assert (sin t = 0) by nra. rewrite E, H in Q. lra. }
  destruct (atan2_polar (k * sin t) (k * cos t) N) as (C & S).
  assert (R : sqrt (k * cos t * (k * cos t) + k * sin t * (k * sin t)) = k).
  { replace (k * cos t * (k * cos t) + k * sin t * (k * sin t)) with (k * k * (sin t * sin t + cos t * cos t)) by ring.
    rewrite Q, Rmult_1_r. apply sqrt_square. lra. }
  rewrite R in C, S. apply angle_unique; [ apply atan2_range | exact Ht | | ].
  - rewrite C. field. lra.
  - rewrite S. field. lra.
Qed.

(** an angle up to whole turns *)
Lemma atan2_turn : forall k t u, 0 < k -> - PI < t <= PI -> cos u = cos t -> sin u = sin t ->
  atan2 (k * sin u) (k * cos u) = t.
Proof. intros k t u Hk Ht C S. rewrite C, S. now apply atan2_angle. Qed.

(** ** the loops *)
Definition rotated (m : matrix) (lo hi : nat) (u v u' v' : list R) : Prop :=
  length u' = length u /\ length v' = length v /\
  forall p, ((lo <= p < hi)%nat -> forall c s r a b, nth_error m (p mod length m)%nat = Some (c, s, r) ->
     nth_error u p = Some a -> nth_error v p = Some b ->
     nth_error u' p = Some (a * c - b * s) /\ nth_error v' p = Some (a * s + b * c)) /\
  (~ (lo <= p < hi)%nat -> nth_error u' p = nth_error u p /\ nth_error v' p = nth_error v p).

Lemma rotated_refl m lo u v : rotated m lo lo u v u v.
Proof. split; [ reflexivity | ]. split; [ reflexivity | ]. intro p. split; [ lia | auto ]. Qed.

Lemma rotated_trans m lo mid hi u v u1 v1 u2 v2 : (lo <= mid <= hi)%nat ->
  rotated m lo mid u v u1 v1 -> rotated m mid hi u1 v1 u2 v2 -> rotated m lo hi u v u2 v2.
Proof.
  intros H (L1 & M1 & A) (L2 & M2 & B). split; [ congruence | ]. split; [ congruence | ].
  intro p. destruct (A p) as (A1 & A2). destruct (B p) as (B1 & B2). split.
  - intros Hp c s r a b Em Eu Ev. destruct (Nat.lt_ge_cases p mid) as [ C | C ].
    + destruct (B2 ltac:(lia)) as (-> & ->). apply (A1 ltac:(lia) c s r a b Em Eu Ev).
    + destruct (A2 ltac:(lia)) as (E1 & E2). apply (B1 ltac:(lia) c s r a b Em); congruence.
  - intro Hp. destruct (A2 ltac:(lia)) as (E1 & E2). destruct (B2 ltac:(lia)) as (E3 & E4). split; congruence.
Qed.

Lemma values_step_ok m z u v i : (i < length m)%nat -> (z * length m + i < length u)%nat -> length v = length u ->
  exists u' v', values_step m z (u, v) i = Ok (u', v') /\ rotated m (z * length m + i) (z * length m + i + 1) u v u' v'.
Proof.
  intros Hi Hu Hv. unfold values_step. set (p := (z * length m + i)%nat) in *.
  assert (Hp : (p mod length m = i)%nat).
  { unfold p. rewrite Nat.add_comm, Nat.mod_add by lia. now apply Nat.mod_small. }
  destruct (nth_error m i) as [ [ [ c s ] r ] | ] eqn:Em; [ | apply nth_error_None in Em; lia ].
  destruct (nth_error u p) as [ a | ] eqn:Eu; [ | apply nth_error_None in Eu; lia ].
  destruct (nth_error v p) as [ b | ] eqn:Ev; [ | apply nth_error_None in Ev; lia ].
  cbn [rd obind]. unfold wr.
  destruct (Nat.ltb_spec p (length u)); [ | lia ]. destruct (Nat.ltb_spec p (length v)); [ | lia ]. cbn [obind].
  eexists _, _. split; [ reflexivity | ]. split; [ apply length_upd | ]. split; [ apply length_upd | ].
  intro q. split.
  - intros Hq c' s' r' a' b' Em' Eu' Ev'. assert (q = p) by lia. subst q.
    rewrite Hp, Em in Em'. injection Em' as <- <- <-. rewrite Eu in Eu'. injection Eu' as <-. rewrite Ev in Ev'. injection Ev' as <-.
    split; apply nth_error_upd_same; lia.
  - intro Hq. split; apply nth_error_upd_other; lia.
Qed.

Lemma layer_ok m z n : forall k u v, (k + n <= length m)%nat -> (z * length m + k + n <= length u)%nat -> length v = length u ->
  exists u' v', ofold (values_step m z) (seq k n) (u, v) = Ok (u', v') /\
    rotated m (z * length m + k) (z * length m + k + n) u v u' v'.
Proof.
  induction n as [ | n IH ]; intros k u v H1 H2 H3.
  - cbn. eexists _, _. split; [ reflexivity | ]. rewrite Nat.add_0_r. apply rotated_refl.
  - cbn [seq ofold]. destruct (values_step_ok m z u v k) as (u1 & v1 & E & R1); [ lia | lia | assumption | ].
    rewrite E. cbn [obind]. destruct R1 as (L1 & M1 & R1).
    destruct (IH (S k) u1 v1) as (u2 & v2 & E2 & R2); [ lia | lia | lia | ].
    rewrite E2. eexists _, _. split; [ reflexivity | ].
    apply (rotated_trans m _ (z * length m + k + 1) _ u v u1 v1); [ lia | split; auto | ].
    replace (z * length m + k + 1)%nat with (z * length m + S k)%nat by lia.
    replace (z * length m + k + S n)%nat with (z * length m + S k + n)%nat by lia. exact R2.
Qed.

Lemma values_ok m n : forall z u v, ((z + n) * length m <= length u)%nat -> length v = length u ->
  exists u' v', ofold (fun st z => ofold (values_step m z) (seq 0 (length m)) st) (seq z n) (u, v) = Ok (u', v') /\
    rotated m (z * length m) ((z + n) * length m) u v u' v'.
Proof.
  induction n as [ | n IH ]; intros z u v H1 H2.
  - cbn. eexists _, _. split; [ reflexivity | ]. rewrite Nat.add_0_r. apply rotated_refl.
  - cbn [seq ofold]. destruct (layer_ok m z (length m) 0 u v) as (u1 & v1 & E & R1); [ lia | nia | assumption | ].
    rewrite E. cbn [obind]. assert (R1' := R1). destruct R1' as (L1 & M1 & _).
    destruct (IH (S z) u1 v1) as (u2 & v2 & E2 & R2); [ nia | lia | ].
    rewrite E2. eexists _, _. split; [ reflexivity | ].
    apply (rotated_trans m _ (S z * length m) _ u v u1 v1); [ nia | | ].
    + replace (z * length m)%nat with (z * length m + 0)%nat by lia.
      replace (S z * length m)%nat with (z * length m + 0 + length m)%nat by nia. exact R1.
    + replace ((z + S n) * length m)%nat with ((S z + n) * length m)%nat by nia. exact R2.
Qed.

Definition turned (m : matrix) (lo hi : nat) (u u' : list R) : Prop :=
  length u' = length u /\
  forall p, ((lo <= p < hi)%nat -> forall c s r a, nth_error m (p mod length m)%nat = Some (c, s, r) ->
     nth_error u p = Some a -> nth_error u' p = Some (new_direction r a)) /\
  (~ (lo <= p < hi)%nat -> nth_error u' p = nth_error u p).
Lemma turned_trans m lo mid hi u u1 u2 : (lo <= mid <= hi)%nat ->
  turned m lo mid u u1 -> turned m mid hi u1 u2 -> turned m lo hi u u2.
Proof.
  intros H (L1 & A) (L2 & B). split; [ congruence | ].
  intro p. destruct (A p) as (A1 & A2). destruct (B p) as (B1 & B2). split.
  - intros Hp c s r a Em Eu. destruct (Nat.lt_ge_cases p mid) as [ C | C ].
    + rewrite (B2 ltac:(lia)). apply (A1 ltac:(lia) c s r a Em Eu).
    + assert (E1 := A2 ltac:(lia)). apply (B1 ltac:(lia) c s r a Em). congruence.
  - intro Hp. rewrite B2 by lia. apply A2. lia.
Qed.
Lemma dlayer_ok m z n : forall k u, (k + n <= length m)%nat -> (z * length m + k + n <= length u)%nat ->
  exists u', ofold (direction_step m z) (seq k n) u = Ok u' /\ turned m (z * length m + k) (z * length m + k + n) u u'.
Proof.
  induction n as [ | n IH ]; intros k u H1 H2.
  - cbn. eexists. split; [ reflexivity | ]. split; [ reflexivity | ]. intro p. split; [ lia | reflexivity ].
  - cbn [seq ofold]. set (p := (z * length m + k)%nat).
    assert (Hp : (p mod length m = k)%nat).
    { unfold p. rewrite Nat.add_comm, Nat.mod_add by lia. apply Nat.mod_small. lia. }
    assert (X : exists u1, direction_step m z u k = Ok u1 /\ turned m p (p + 1) u u1).
    { unfold direction_step. fold p.
      destruct (nth_error m k) as [ [ [ c s ] r ] | ] eqn:Em; [ | apply nth_error_None in Em; lia ].
      destruct (nth_error u p) as [ a | ] eqn:Eu; [ | apply nth_error_None in Eu; lia ].
      cbn [rd obind]. unfold wr. destruct (Nat.ltb_spec p (length u)); [ | lia ].
      eexists. split; [ reflexivity | ]. split; [ apply length_upd | ]. intro q. split.
      - intros Hq c' s' r' a' Em' Eu'. assert (q = p) by lia. subst q.
        rewrite Hp, Em in Em'. injection Em' as <- <- <-. rewrite Eu in Eu'. injection Eu' as <-.
        apply nth_error_upd_same. lia.
      - intro Hq. apply nth_error_upd_other. lia. }
    destruct X as (u1 & E & R1). rewrite E. cbn [obind]. assert (L1 := proj1 R1).
    destruct (IH (S k) u1) as (u2 & E2 & R2); [ lia | lia | ].
    rewrite E2. eexists. split; [ reflexivity | ].
    apply (turned_trans m _ (p + 1) _ u u1); [ unfold p; lia | exact R1 | ].
    unfold p. replace (z * length m + k + 1)%nat with (z * length m + S k)%nat by lia.
    replace (z * length m + k + S n)%nat with (z * length m + S k + n)%nat by lia. exact R2.
Qed.
Lemma directions_ok m n : forall z u, ((z + n) * length m <= length u)%nat ->
  exists u', ofold (fun st z => ofold (direction_step m z) (seq 0 (length m)) st) (seq z n) u = Ok u' /\
    turned m (z * length m) ((z + n) * length m) u u'.
Proof.
  induction n as [ | n IH ]; intros z u H1.
  - cbn. eexists. split; [ reflexivity | ]. split; [ reflexivity | ]. intro p. split; [ nia | reflexivity ].
  - cbn [seq ofold]. destruct (dlayer_ok m z (length m) 0 u) as (u1 & E & R1); [ lia | nia | ].
    rewrite E. cbn [obind]. assert (L1 := proj1 R1).
    destruct (IH (S z) u1) as (u2 & E2 & R2); [ nia | ].
    rewrite E2. eexists. split; [ reflexivity | ].
    apply (turned_trans m _ (S z * length m) _ u u1); [ nia | | ].
    + replace (z * length m)%nat with (z * length m + 0)%nat by lia.
      replace (S z * length m)%nat with (z * length m + 0 + length m)%nat by nia. exact R1.
    + replace ((z + S n) * length m)%nat with ((S z + n) * length m)%nat by nia. exact R2.
Qed.
