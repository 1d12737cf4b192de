(** Lemmas about GgridModel: the loops over whole turns, and keys. *)
From Coq Require Import ZArith NArith String List Bool QArith Qcanon Qround Lia Lqa.
From Verif Require Import Base GribModel GwrModel GgridModel.
Import ListNotations.
Local Open Scope string_scope.
Local Open Scope list_scope.
Local Open Scope nat_scope.

Ltac toq := unfold Qcle, Qclt, Qcminus, zq, inject_Z in *; cbn [this Qcopp Qcplus Qcmult Q2Qc] in *; rewrite ?Qred_correct in *.
Ltac qlra := toq; lra.

Lemma qltb_spec a b : qltb a b = true <-> (a < b)%Qc.
Proof.
  unfold qltb. destruct (Qclt_le_dec a b) as [H|H]; split; try easy.
  intros K. exfalso. exact (Qclt_not_le _ _ K H).
Qed.
Lemma qltb_false a b : qltb a b = false <-> (b <= a)%Qc.
Proof.
  unfold qltb. destruct (Qclt_le_dec a b) as [H|H]; split; try easy.
  intros K. exfalso. exact (Qclt_not_le _ _ H K).
Qed.
Lemma qabs_pos x : (0 <= x)%Qc -> qabs x = x.
Proof. unfold qabs. destruct (Qclt_le_dec x 0) as [H|H]; [|reflexivity]. intros K. exfalso. exact (Qclt_not_le _ _ H K). Qed.
Lemma qabs_neg x : (x < 0)%Qc -> qabs x = (- x)%Qc.
Proof. unfold qabs. destruct (Qclt_le_dec x 0) as [H|H]; [reflexivity|]. intros K. exfalso. exact (Qclt_not_le _ _ K H). Qed.

Lemma zq_add a b : zq (a + b) = (zq a + zq b)%Qc.
Proof. apply Qc_is_canon. unfold zq. cbn [this Qcplus Q2Qc]. rewrite !Qred_correct, inject_Z_plus. reflexivity. Qed.
Lemma zq_opp a : zq (- a) = (- zq a)%Qc.
Proof. apply Qc_is_canon. unfold zq. cbn [this Qcopp Q2Qc]. rewrite !Qred_correct, inject_Z_opp. reflexivity. Qed.
Lemma zq_sub a b : zq (a - b) = (zq a - zq b)%Qc.
Proof. unfold Z.sub. rewrite zq_add, zq_opp. reflexivity. Qed.
Lemma zq_mul a b : zq (a * b) = (zq a * zq b)%Qc.
Proof. apply Qc_is_canon. unfold zq. cbn [this Qcmult Q2Qc]. rewrite !Qred_correct, inject_Z_mult. reflexivity. Qed.
Lemma zq_0 : zq 0 = 0%Qc. Proof. apply Qc_is_canon. reflexivity. Qed.
Lemma zq_1 : zq 1 = 1%Qc. Proof. apply Qc_is_canon. reflexivity. Qed.
Lemma zq_le a b : (a <= b)%Z <-> (zq a <= zq b)%Qc.
Proof. unfold Qcle, zq. cbn [this Q2Qc]. rewrite !Qred_correct. rewrite <- Zle_Qle. reflexivity. Qed.
Lemma zq_lt a b : (a < b)%Z <-> (zq a < zq b)%Qc.
Proof. unfold Qclt, zq. cbn [this Q2Qc]. rewrite !Qred_correct. rewrite <- Zlt_Qlt. reflexivity. Qed.
Lemma zq_inj a b : zq a = zq b -> a = b.
Proof. intros H. apply Z.le_antisymm; apply zq_le; rewrite H; apply Qcle_refl. Qed.

Lemma rounds_enough step d : (0 < step)%Qc -> (d <= step * zq (Z.of_nat (rounds step d)))%Qc.
Proof.
  intros Hs. unfold rounds.
  assert (E : d = (step * (d / step))%Qc).
  { field. intros C. rewrite C in Hs. exact (Qclt_not_le _ _ Hs (Qcle_refl 0)). }
  rewrite E at 1. rewrite (Qcmult_comm step (d / step)), (Qcmult_comm step (zq _)).
  apply Qcmult_le_compat_r; [|apply Qclt_le_weak; exact Hs].
  set (x := (d / step)%Qc). unfold Qcle, zq. cbn [this Q2Qc]. rewrite Qred_correct.
  eapply Qle_trans; [apply Qle_ceiling|]. rewrite <- Zle_Qle. lia.
Qed.

Lemma up_from_spec n step lo x : (0 < step)%Qc -> (lo - step * zq (Z.of_nat n) <= x)%Qc ->
  exists m, up_from n step lo x = (x + step * zq m)%Qc /\ (0 <= m)%Z /\
    (lo <= up_from n step lo x)%Qc /\ (up_from n step lo x < lo + step \/ m = 0%Z)%Qc.
Proof.
  intros Hs. revert x. induction n as [|n IH]; intros x H; cbn [up_from].
  - exists 0%Z. split; [rewrite zq_0; ring|]. split; [lia|]. split; [|now right].
    change (Z.of_nat 0) with 0%Z in H. rewrite zq_0 in H.
    replace (lo - step * 0)%Qc with lo in H by ring. exact H.
  - destruct (qltb x lo) eqn:E.
    + apply qltb_spec in E. destruct (IH (x + step)%Qc) as (m & E1 & Hm & Hl & Hu).
      { rewrite Nat2Z.inj_succ in H. unfold Z.succ in H. rewrite zq_add, zq_1 in H.
        replace (step * (zq (Z.of_nat n) + 1))%Qc with (step * zq (Z.of_nat n) + step)%Qc in H by ring.
        revert H. generalize (step * zq (Z.of_nat n))%Qc. intros q H. qlra. }
      exists (m + 1)%Z. split; [rewrite E1, zq_add, zq_1; ring|]. split; [lia|]. split; [exact Hl|].
      left. destruct Hu as [Hu|Hu]; [exact Hu|]. rewrite E1, Hu, zq_0.
      replace (x + step + step * 0)%Qc with (x + step)%Qc by ring. revert E. clear. intros E. qlra.
    + apply qltb_false in E. exists 0%Z. split; [rewrite zq_0; ring|]. split; [lia|]. split; [exact E | now right].
Qed.
Lemma down_from_spec n step hi x : (0 < step)%Qc -> (x <= hi + step * zq (Z.of_nat n))%Qc ->
  exists m, down_from n step hi x = (x - step * zq m)%Qc /\ (0 <= m)%Z /\
    (down_from n step hi x <= hi)%Qc /\ (hi - step < down_from n step hi x \/ m = 0%Z)%Qc.
Proof.
  intros Hs. revert x. induction n as [|n IH]; intros x H; cbn [down_from].
  - exists 0%Z. split; [rewrite zq_0; ring|]. split; [lia|]. split; [|now right].
    change (Z.of_nat 0) with 0%Z in H. rewrite zq_0 in H.
    replace (hi + step * 0)%Qc with hi in H by ring. exact H.
  - destruct (qltb hi x) eqn:E.
    + apply qltb_spec in E. destruct (IH (x - step)%Qc) as (m & E1 & Hm & Hl & Hu).
      { rewrite Nat2Z.inj_succ in H. unfold Z.succ in H. rewrite zq_add, zq_1 in H.
        replace (step * (zq (Z.of_nat n) + 1))%Qc with (step * zq (Z.of_nat n) + step)%Qc in H by ring.
        revert H. generalize (step * zq (Z.of_nat n))%Qc. intros q H. qlra. }
      exists (m + 1)%Z. split; [rewrite E1, zq_add, zq_1; ring|]. split; [lia|]. split; [exact Hl|].
      left. destruct Hu as [Hu|Hu]; [exact Hu|]. rewrite E1, Hu, zq_0.
      replace (x - step - step * 0)%Qc with (x - step)%Qc by ring. revert E. clear. intros E. qlra.
    + apply qltb_false in E. exists 0%Z. split; [rewrite zq_0; ring|]. split; [lia|]. split; [exact E | now right].
Qed.

Lemma up_to_spec step lo x : (0 < step)%Qc -> exists m, up_to step lo x = (x + step * zq m)%Qc /\ (0 <= m)%Z /\
  (lo <= up_to step lo x)%Qc /\ (up_to step lo x < lo + step \/ m = 0%Z)%Qc.
Proof.
  intros Hs. apply up_from_spec; [exact Hs|]. pose proof (rounds_enough step (lo - x)%Qc Hs) as H.
  revert H. generalize (step * zq (Z.of_nat (rounds step (lo - x))))%Qc. intros q H. qlra.
Qed.
Lemma down_to_spec step hi x : (0 < step)%Qc -> exists m, down_to step hi x = (x - step * zq m)%Qc /\ (0 <= m)%Z /\
  (down_to step hi x <= hi)%Qc /\ (hi - step < down_to step hi x \/ m = 0%Z)%Qc.
Proof.
  intros Hs. apply down_from_spec; [exact Hs|]. pose proof (rounds_enough step (x - hi)%Qc Hs) as H.
  revert H. generalize (step * zq (Z.of_nat (rounds step (x - hi))))%Qc. intros q H. qlra.
Qed.
Lemma turn_pos : (0 < zq 360)%Qc. Proof. reflexivity. Qed.

Lemma raise_spec x : exists m, raise_lon x = (x + zq 360 * zq m)%Qc /\ (0 <= raise_lon x)%Qc.
Proof. destruct (up_to_spec (zq 360) 0 x turn_pos) as (m & E & _ & L & _). exists m. now split. Qed.
Lemma clamp_spec x : exists m, clamp_lon x = (x + zq 360 * zq m)%Qc /\ (0 <= clamp_lon x <= zq 360)%Qc.
Proof.
  unfold clamp_lon. destruct (up_to_spec (zq 360) 0 x turn_pos) as (m & E & _ & L & _).
  destruct (down_to_spec (zq 360) (zq 360) (up_to (zq 360) 0 x) turn_pos) as (k & E' & _ & L' & U').
  exists (m - k)%Z. split; [rewrite E', E, zq_sub; ring|]. split; [|exact L'].
  destruct U' as [U'|U'].
  { replace (zq 360 - zq 360)%Qc with 0%Qc in U' by ring. apply Qclt_le_weak. exact U'. }
  rewrite E', U', zq_0. replace (up_to (zq 360) 0 x - zq 360 * 0)%Qc with (up_to (zq 360) 0 x) by ring. exact L.
Qed.
Lemma norm_spec x : exists m, norm180 x = (x + zq 360 * zq m)%Qc /\ (zq (-180) <= norm180 x <= zq 180)%Qc.
Proof.
  unfold norm180. destruct (up_to_spec (zq 360) (zq (-180)) x turn_pos) as (m & E & _ & L & _).
  destruct (down_to_spec (zq 360) (zq 180) (up_to (zq 360) (zq (-180)) x) turn_pos) as (k & E' & _ & L' & U').
  exists (m - k)%Z. split; [rewrite E', E, zq_sub; ring|]. split; [|exact L'].
  destruct U' as [U'|U'].
  { rewrite <- zq_sub in U'. change (180 - 360)%Z with (-180)%Z in U'. apply Qclt_le_weak. exact U'. }
  rewrite E', U', zq_0.
  replace (up_to (zq 360) (zq (-180)) x - zq 360 * 0)%Qc with (up_to (zq 360) (zq (-180)) x) by ring. exact L.
Qed.
Lemma lon_in_spec e2 x : exists m, lon_in e2 x = (x + zq 360 * zq m)%Qc.
Proof.
  unfold lon_in. destruct e2.
  - destruct (clamp_spec x) as (m & E & _). now exists m.
  - destruct (raise_spec x) as (m & E & _). now exists m.
Qed.

Lemma points_length n x0 dx : length (points n x0 dx) = Z.to_nat n.
Proof. unfold points. now rewrite map_length, seq_length. Qed.
Lemma points_nth n x0 dx i : i < Z.to_nat n -> nth i (points n x0 dx) 0%Qc = (x0 + zq (Z.of_nat i) * dx)%Qc.
Proof.
  intros H. unfold points.
  apply nth_error_nth. rewrite nth_error_map.
  rewrite (nth_error_nth' (seq 0 (Z.to_nat n)) 0) by (rewrite seq_length; exact H).
  rewrite seq_nth by exact H. reflexivity.
Qed.

(** an integer number of turns, at least one, spread over less than 360000 steps *)
Lemma spread k n : k <> 0%Z -> (0 < n < 360000)%Z ->
  (thousandth < qabs (zq 360 * zq k / zq n))%Qc.
Proof.
  intros Hk Hn. set (t := (zq 360 * zq k / zq n)%Qc).
  assert (Hn0 : zq n <> 0%Qc). { intros C. rewrite <- zq_0 in C. apply zq_inj in C. lia. }
  assert (E : (t * zq n = zq (360 * k))%Qc). { unfold t. rewrite zq_mul. field. exact Hn0. }
  assert (T : (thousandth * zq n < zq 360)%Qc).
  { apply Qclt_le_trans with (thousandth * zq 360000)%Qc.
    - rewrite (Qcmult_comm thousandth (zq n)), (Qcmult_comm thousandth (zq 360000)). apply Qcmult_lt_compat_r; [reflexivity|]. apply (proj1 (zq_lt n 360000)). lia.
    - vm_compute. discriminate. }
  assert (Np : (0 <= zq n)%Qc) by (rewrite <- zq_0; apply (proj1 (zq_le 0 n)); lia).
  destruct (Qclt_le_dec thousandth (qabs t)) as [H|H]; [exact H|]. exfalso.
  assert (A : (t <= thousandth)%Qc /\ (- thousandth <= t)%Qc).
  { destruct (Qclt_le_dec t 0) as [C|C].
    - rewrite (qabs_neg _ C) in H. split; [unfold thousandth in *; qlra | unfold thousandth in *; qlra].
    - rewrite (qabs_pos _ C) in H. split; [exact H | unfold thousandth in *; qlra]. }
  destruct A as [A B]. apply (fun H => Qcmult_le_compat_r _ _ _ H Np) in A. apply (fun H => Qcmult_le_compat_r _ _ _ H Np) in B.
  rewrite E in A, B.
  assert (K : (360 <= 360 * k \/ 360 * k <= - 360)%Z) by lia.
  destruct K as [K|K]; apply zq_le in K.
  - apply (Qclt_not_le _ _ T). exact (Qcle_trans _ _ _ K A).
  - change (zq (-360)) with (zq (Z.opp 360)) in K. rewrite zq_opp in K. replace (- thousandth * zq n)%Qc with (- (thousandth * zq n))%Qc in B by ring.
    revert T B K. generalize (thousandth * zq n)%Qc (zq (360 * k)) (zq 360). intros a b c T B K. qlra.
Qed.
