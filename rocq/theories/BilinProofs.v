From Coq Require Import ZArith NArith QArith Qcanon Qround Qabs Lqa List Bool Lia.
From Coq Require Import ZifyBool ZifyNat.
From Verif Require Import Base IndexSpec SliceProofs ExtractProofs Rounding RegridModel SearchModel SearchProofs BilinModel.
Import ListNotations.
Local Open Scope Z_scope.

(** ** Specification: weights of the cells of one axis *)

(** Linear interpolation weights between the cells around [x]; the nearest cell in the half-cell
    borders; nothing outside. *)
Definition weights (n : Z) (x : Q) : list (Z * Qc) :=
  let f := Qfloor x in
  if (0 <=? f) && (f + 1 <? n)
  then [(f, 1 - Q2Qc (x - inject_Z f))%Qc; (f + 1, Q2Qc (x - inject_Z f))]
  else let r := lround x in if (0 <=? r) && (r <? n) then [(r, 1%Qc)] else [].

Definition wsum (l : list (Qc * value)) : value :=
  fold_right (fun wv acc => vadd (vmul (fst wv) (snd wv)) acc) (Some 0%Qc) l.

Definition bil_point (nx ny : Z) (x y : Q) (c : Z -> Z -> value) : value :=
  match weights nx x, weights ny y with
  | [], _ => None
  | _, [] => None
  | wx, wy => wsum (map (fun jb => (snd jb, wsum (map (fun ia => (snd ia, c (fst ia) (fst jb))) wx))) wy)
  end.

Definition fits_int (x : Q) : Prop :=
  - 2 ^ 31 <= Qfloor x < 2 ^ 31 /\ - 2 ^ 31 <= lround x < 2 ^ 31.

(** the case in which the row test admits one row too many *)
Definition corner (nx ny : Z) (x y : Q) : Prop :=
  ~ (0 <= Qfloor x /\ Qfloor x + 1 < nx) /\ 0 <= lround x < nx /\ lround y = ny.

Definition at3 (data : list value) (nx ny : nat) (i j : Z) (z : nat) : value :=
  nth (Z.to_nat i + nx * (Z.to_nat j + ny * z)) data None.

(** ** Small lemmas *)

Lemma vadd_0_r v : vadd v (Some 0%Qc) = v.
Proof. destruct v; cbn; auto. f_equal. ring. Qed.
Lemma vmul_1_l v : vmul 1 v = v.
Proof. destruct v; cbn; auto. f_equal. ring. Qed.

Lemma floor_int_ok x : - 2 ^ 31 <= Qfloor x < 2 ^ 31 -> floor_int x = Ok (Qfloor x).
Proof. intro H. unfold floor_int. destruct (_ && _) eqn:E; auto. lia. Qed.

Lemma cell_at_ok data nx ny nz i j z p :
  length data = (nx * (ny * nz))%nat -> 0 <= i < Z.of_nat nx -> 0 <= j < Z.of_nat ny -> (z < nz)%nat ->
  p = (Z.of_nat z * Z.of_nat ny + j) * Z.of_nat nx + i ->
  cell_at data p = Ok (at3 data nx ny i j z).
Proof.
  intros LD HI HJ HZ ->. unfold cell_at.
  destruct (Z.ltb_spec ((Z.of_nat z * Z.of_nat ny + j) * Z.of_nat nx + i) 0) as [C|C]; [nia|].
  replace (Z.to_nat _) with (Z.to_nat i + nx * (Z.to_nat j + ny * z))%nat by nia.
  unfold at3. rewrite (nth_error_nth' data None); [reflexivity|].
  rewrite LD. assert (Z.to_nat i < nx)%nat by lia. assert (Z.to_nat j + ny * z < ny * nz)%nat by nia. nia.
Qed.

Lemma lround_bounds x : Qfloor x <= lround x <= Qfloor x + 1.
Proof.
  pose proof (lround_half x) as H. apply Qabs_Qle_condition in H as [H1 H2].
  pose proof (Qfloor_bounds x) as [H3 H4].
  assert (inject_Z (Qfloor x) < inject_Z (lround x + 1))%Q as A1
    by (rewrite inject_Z_plus; change (inject_Z 1) with 1%Q; lra).
  assert (inject_Z (lround x) < inject_Z (Qfloor x + 2))%Q as A2
    by (rewrite inject_Z_plus; change (inject_Z 2) with 2%Q; lra).
  rewrite <- Zlt_Qlt in A1, A2. lia.
Qed.

(** ** Bilinear *)

Lemma bilinear_spec data nx ny nz x y :
  length data = (nx * (ny * nz))%nat -> fits_int x -> fits_int y ->
  ~ corner (Z.of_nat nx) (Z.of_nat ny) x y ->
  bilinear data x y (Z.of_nat nx) (Z.of_nat ny) nz
  = Ok (map (fun z => bil_point (Z.of_nat nx) (Z.of_nat ny) x y (fun i j => at3 data nx ny i j z)) (seq 0 nz)).
Proof.
  intros LD [FX RX] [FY RY] NC. unfold bilinear. rewrite !floor_int_ok by assumption. cbn [obind].
  rewrite !to_int32_small by assumption.
  pose proof (lround_bounds x) as BX. pose proof (lround_bounds y) as BY.
  unfold bil_point, weights.
  destruct ((0 <=? Qfloor x) && (Qfloor x + 1 <? Z.of_nat nx)) eqn:EX.
  - apply andb_true_iff in EX as [X1 X2]. apply Z.leb_le in X1. apply Z.ltb_lt in X2.
    destruct ((0 <=? Qfloor y) && (Qfloor y + 1 <? Z.of_nat ny)) eqn:EY.
    + apply andb_true_iff in EY as [Y1 Y2]. apply Z.leb_le in Y1. apply Z.ltb_lt in Y2.
      apply omapM_ok. intros z I. apply in_seq in I. unfold level, array_pos.
      rewrite (cell_at_ok data nx ny nz (Qfloor x) (Qfloor y) z) by (auto; try lia; nia). cbn [obind].
      rewrite (cell_at_ok data nx ny nz (Qfloor x + 1) (Qfloor y) z) by (auto; try lia; nia). cbn [obind].
      rewrite (cell_at_ok data nx ny nz (Qfloor x) (Qfloor y + 1) z) by (auto; try lia; nia). cbn [obind].
      rewrite (cell_at_ok data nx ny nz (Qfloor x + 1) (Qfloor y + 1) z) by (auto; try lia; nia). cbn [obind].
      cbn [map wsum fold_right fst snd]. rewrite !vadd_0_r. reflexivity.
    + destruct ((0 <=? lround y) && (lround y <? Z.of_nat ny)) eqn:ER.
      * apply andb_true_iff in ER as [R1 R2]. apply Z.leb_le in R1. apply Z.ltb_lt in R2.
        apply omapM_ok. intros z I. apply in_seq in I. unfold level, array_pos.
        rewrite (cell_at_ok data nx ny nz (Qfloor x) (lround y) z) by (auto; try lia; nia). cbn [obind].
        rewrite (cell_at_ok data nx ny nz (Qfloor x + 1) (lround y) z) by (auto; try lia; nia). cbn [obind].
        cbn [map wsum fold_right fst snd]. rewrite !vadd_0_r, vmul_1_l. reflexivity.
      * unfold undefined_levels. f_equal. rewrite <- (map_id (repeat _ _)) at 1.
        apply nth_error_ext. intro i. rewrite map_id, nth_error_map, nth_error_seq, nth_error_repeat.
        destruct (Nat.ltb i nz); reflexivity.
  - destruct ((0 <=? lround x) && (lround x <? Z.of_nat nx)) eqn:ERX.
    + apply andb_true_iff in ERX as [X1 X2]. apply Z.leb_le in X1. apply Z.ltb_lt in X2.
      destruct ((0 <=? Qfloor y) && (Qfloor y + 1 <? Z.of_nat ny)) eqn:EY.
      * apply andb_true_iff in EY as [Y1 Y2]. apply Z.leb_le in Y1. apply Z.ltb_lt in Y2.
        apply omapM_ok. intros z I. apply in_seq in I. unfold level, array_pos.
        rewrite (cell_at_ok data nx ny nz (lround x) (Qfloor y) z) by (auto; try lia; nia). cbn [obind].
        rewrite (cell_at_ok data nx ny nz (lround x) (Qfloor y + 1) z) by (auto; try lia; nia). cbn [obind].
        cbn [map wsum fold_right fst snd]. rewrite !vadd_0_r, !vmul_1_l. reflexivity.
      * assert (lround y <> Z.of_nat ny) as NE.
        { intro E. apply NC. split; [|split; auto]. intros [C1 C2]. lia. }
        replace ((0 <=? lround y) && (lround y <=? Z.of_nat ny))
           with ((0 <=? lround y) && (lround y <? Z.of_nat ny)) by lia.
        destruct ((0 <=? lround y) && (lround y <? Z.of_nat ny)) eqn:ER.
        -- apply andb_true_iff in ER as [R1 R2]. apply Z.leb_le in R1. apply Z.ltb_lt in R2.
           apply omapM_ok. intros z I. apply in_seq in I. unfold level, array_pos.
           rewrite (cell_at_ok data nx ny nz (lround x) (lround y) z) by (auto; try lia; nia).
           cbn [map wsum fold_right fst snd]. rewrite !vadd_0_r, !vmul_1_l. reflexivity.
        -- unfold undefined_levels. f_equal.
           apply nth_error_ext. intro i. rewrite nth_error_map, nth_error_seq, nth_error_repeat.
           destruct (Nat.ltb i nz); reflexivity.
    + unfold undefined_levels. f_equal.
      apply nth_error_ext. intro i. rewrite nth_error_map, nth_error_seq, nth_error_repeat.
      destruct (Nat.ltb i nz); reflexivity.
Qed.

Lemma omapM_ub {A B} (f : A -> outcome B) (g : A -> B) l1 a l2 :
  (forall b, In b l1 -> f b = Ok (g b)) -> f a = UB -> omapM f (l1 ++ a :: l2) = UB.
Proof.
  induction l1 as [|b l1 IH]; intros H1 H2; cbn.
  - rewrite H2. reflexivity.
  - rewrite H1 by (left; auto). cbn. rewrite IH; auto. intros; apply H1; right; auto.
Qed.

(** in the corner case the last level is read outside the field *)
Lemma bilinear_corner data nx ny nz x y :
  length data = (nx * (ny * nz))%nat -> fits_int x -> fits_int y -> (0 < nz)%nat -> (0 < ny)%nat ->
  corner (Z.of_nat nx) (Z.of_nat ny) x y ->
  bilinear data x y (Z.of_nat nx) (Z.of_nat ny) nz = UB.
Proof.
  intros LD [FX RX] [FY RY] HZ HY (C1 & C2 & C3). unfold bilinear. rewrite !floor_int_ok by assumption. cbn [obind].
  rewrite !to_int32_small by assumption.
  pose proof (lround_bounds x) as BX. pose proof (lround_bounds y) as BY.
  replace ((0 <=? Qfloor x) && (Qfloor x + 1 <? Z.of_nat nx)) with false by lia.
  replace ((0 <=? lround x) && (lround x <? Z.of_nat nx)) with true by lia.
  replace ((0 <=? Qfloor y) && (Qfloor y + 1 <? Z.of_nat ny)) with false by lia.
  replace ((0 <=? lround y) && (lround y <=? Z.of_nat ny)) with true by lia.
  replace nz with ((nz - 1) + 1)%nat by lia. rewrite seq_app. cbn [seq Nat.add].
  apply omapM_ub with (g := fun z => at3 data nx ny (lround x) 0 (S z)).
  - intros z I. apply in_seq in I. unfold level, array_pos.
    apply (cell_at_ok data nx ny nz); auto; lia.
  - unfold cell_at, level, array_pos. rewrite C3.
    destruct (Z.ltb_spec ((0 * Z.of_nat ny + Z.of_nat ny) * Z.of_nat nx + lround x +
                          Z.of_nat (nz - 1) * (Z.of_nat ny * Z.of_nat nx)) 0) as [C|C]; auto.
    assert (nth_error data (Z.to_nat ((0 * Z.of_nat ny + Z.of_nat ny) * Z.of_nat nx + lround x +
                          Z.of_nat (nz - 1) * (Z.of_nat ny * Z.of_nat nx))) = None) as ->; [|reflexivity].
    apply nth_error_None. rewrite LD.
    assert (Z.of_nat nz = Z.of_nat (nz - 1) + 1) as EN by lia.
    apply Nat2Z.inj_le. rewrite Z2Nat.id by lia. rewrite !Nat2Z.inj_mul, EN. nia.
Qed.

(** ** Consequences for one level *)

Lemma qc_unfold (q : Q) : (this (Q2Qc q) == q)%Q.
Proof. apply Qred_correct. Qed.

Lemma weights_range n x i w : In (i, w) (weights n x) -> 0 <= i < n.
Proof.
  unfold weights. destruct ((0 <=? Qfloor x) && (Qfloor x + 1 <? n)) eqn:E.
  - intros [H|[H|[]]]; injection H as <- <-; lia.
  - destruct ((0 <=? lround x) && (lround x <? n)) eqn:E2; [|intros []].
    intros [H|[]]. injection H as <- <-. lia.
Qed.

Lemma weights_near n x i w : In (i, w) (weights n x) -> (Qabs (x - inject_Z i) <= 1)%Q.
Proof.
  pose proof (Qfloor_bounds x) as [F1 F2].
  unfold weights. destruct ((0 <=? Qfloor x) && (Qfloor x + 1 <? n)) eqn:E.
  - intros [H|[H|[]]]; injection H as <- <-; apply Qabs_Qle_condition.
    + split; lra.
    + rewrite inject_Z_plus. change (inject_Z 1) with 1%Q. split; lra.
  - destruct ((0 <=? lround x) && (lround x <? n)) eqn:E2; [|intros []].
    intros [H|[]]. injection H as <- <-. eapply Qle_trans; [apply lround_half|]. lra.
Qed.

(** weights are not negative and sum to one *)
Definition convex (ws : list Qc) : Prop :=
  (forall w, In w ws -> 0 <= w)%Qc /\ fold_right Qcplus 0%Qc ws = 1%Qc.

Lemma frac_range x : (0 <= Q2Qc (x - inject_Z (Qfloor x)) /\ 0 <= 1 - Q2Qc (x - inject_Z (Qfloor x)))%Qc.
Proof.
  pose proof (Qfloor_bounds x) as [F1 F2].
  assert (0 <= Q2Qc (x - inject_Z (Qfloor x)))%Qc as A.
  { unfold Qcle. rewrite !qc_unfold. lra. }
  split; auto. unfold Qcle, Qcminus, Qcplus, Qcopp. rewrite !qc_unfold. lra.
Qed.

Lemma weights_convex n x : weights n x <> [] -> convex (map snd (weights n x)).
Proof.
  pose proof (frac_range x) as [A B].
  unfold weights. destruct ((0 <=? Qfloor x) && (Qfloor x + 1 <? n)) eqn:E.
  - intros _. split.
    + intros w [<-|[<-|[]]]; auto.
    + cbn [map snd fold_right]. ring.
  - destruct ((0 <=? lround x) && (lround x <? n)) eqn:E2; [|congruence].
    intros _. split.
    + intros w [<-|[]]. discriminate.
    + cbn [map snd fold_right]. ring.
Qed.

Lemma wsum_between lo hi (l : list (Qc * value)) :
  (forall w v, In (w, v) l -> (0 <= w)%Qc /\ exists c, v = Some c /\ (lo <= c <= hi)%Qc) ->
  exists r, wsum l = Some r /\
    (fold_right Qcplus 0 (map fst l) * lo <= r <= fold_right Qcplus 0 (map fst l) * hi)%Qc.
Proof.
  induction l as [|[w v] l IH]; intro H.
  - exists 0%Qc. split; [reflexivity|]. cbn [map fold_right]. rewrite !Qcmult_0_l. split; apply Qcle_refl.
  - destruct IH as (r & E & B1 & B2); [intros; apply H; right; auto|].
    destruct (H w v) as (P & c & -> & L1 & L2); [left; auto|].
    unfold wsum in E |- *. cbn [fold_right fst snd vmul map]. rewrite E. cbn [vadd].
    exists (w * c + r)%Qc. split; auto.
    assert (w * lo <= w * c)%Qc as M1 by (rewrite !(Qcmult_comm w); apply Qcmult_le_compat_r; auto).
    assert (w * c <= w * hi)%Qc as M2 by (rewrite !(Qcmult_comm w); apply Qcmult_le_compat_r; auto).
    rewrite !Qcmult_plus_distr_l. split; apply Qcplus_le_compat; auto.
Qed.

Lemma wsum_convex lo hi (ws : list (Z * Qc)) (f : Z -> value) :
  convex (map snd ws) ->
  (forall i w, In (i, w) ws -> exists c, f i = Some c /\ (lo <= c <= hi)%Qc) ->
  exists r, wsum (map (fun ia => (snd ia, f (fst ia))) ws) = Some r /\ (lo <= r <= hi)%Qc.
Proof.
  intros [P S] H.
  destruct (wsum_between lo hi (map (fun ia => (snd ia, f (fst ia))) ws)) as (r & E & B).
  - intros w v I. apply in_map_iff in I as ((i & w') & E & I). cbn [fst snd] in E. injection E as -> <-.
    split; [apply P, in_map_iff; exists (i, w); auto|]. eauto.
  - rewrite map_map in B. cbn [fst] in B. change (map (fun x : Z * Qc => snd x) ws) with (map snd ws) in B. rewrite S, !Qcmult_1_l in B. eauto.
Qed.

Lemma bil_between nx ny x y c lo hi :
  weights nx x <> [] -> weights ny y <> [] ->
  (forall i j a b, In (i, a) (weights nx x) -> In (j, b) (weights ny y) ->
     exists v, c i j = Some v /\ (lo <= v <= hi)%Qc) ->
  exists r, bil_point nx ny x y c = Some r /\ (lo <= r <= hi)%Qc.
Proof.
  intros NX NY H. unfold bil_point.
  assert (forall T (a b : list (Z * Qc)) (u v : T), a <> [] -> b <> [] ->
     match a, b with [], _ => u | _, [] => u | _, _ => v end = v) as M.
  { intros T [|p a] [|q b] u v A B; congruence. }
  destruct (weights nx x) as [|p wx] eqn:EX; [congruence|].
  destruct (weights ny y) as [|q wy] eqn:EY; [congruence|].
  apply (wsum_convex lo hi (q :: wy) (fun j => wsum (map (fun ia => (snd ia, c (fst ia) j)) (p :: wx)))).
  - rewrite <- EY. apply weights_convex. congruence.
  - intros j b IJ. apply (wsum_convex lo hi (p :: wx) (fun i => c i j)).
    + rewrite <- EX. apply weights_convex. congruence.
    + intros i a II. apply (H i j a b); auto.
Qed.

(** which positions are inside *)
Lemma weights_nonempty n x : weights n x <> [] <-> 0 <= lround x < n.
Proof.
  pose proof (lround_bounds x) as B. unfold weights.
  destruct ((0 <=? Qfloor x) && (Qfloor x + 1 <? n)) eqn:E.
  - split; [lia|congruence].
  - destruct ((0 <=? lround x) && (lround x <? n)) eqn:E2; split; try congruence; try lia.
Qed.

Lemma lround_range x n : 0 <= lround x < n <-> (- (1#2) < x)%Q /\ (x < inject_Z n - (1#2))%Q /\ 0 < n.
Proof.
  unfold lround. destruct (Qle_bool 0 x) eqn:E.
  - apply Qle_bool_iff in E. pose proof (Qfloor_bounds (x + (1#2))) as [H1 H2].
    split.
    + intros [A B]. assert (inject_Z (Qfloor (x + (1#2)) + 1) <= inject_Z n)%Q as C by (rewrite <- Zle_Qle; lia).
      rewrite inject_Z_plus in C. change (inject_Z 1) with 1%Q in C. split; [lra|]. split; [lra|lia].
    + intros (A & B & C).
      assert (inject_Z 0 < inject_Z (Qfloor (x + (1#2)) + 1))%Q as D1
        by (rewrite inject_Z_plus; change (inject_Z 1) with 1%Q; change (inject_Z 0) with 0%Q; lra).
      assert (inject_Z (Qfloor (x + (1#2))) < inject_Z n)%Q as D2 by lra.
      rewrite <- Zlt_Qlt in D1, D2. lia.
  - apply qleb_false in E. pose proof (Qfloor_bounds (- x + (1#2))) as [H1 H2].
    split.
    + intros [A B]. assert (inject_Z (Qfloor (- x + (1#2))) <= inject_Z 0)%Q as C by (rewrite <- Zle_Qle; lia).
      change (inject_Z 0) with 0%Q in C.
      assert (0 < n) by lia. split; [lra|]. split; auto.
      assert (inject_Z 1 <= inject_Z n)%Q as D by (rewrite <- Zle_Qle; lia).
      change (inject_Z 1) with 1%Q in D. lra.
    + intros (A & B & C).
      assert (inject_Z 0 < inject_Z (Qfloor (- x + (1#2)) + 1))%Q as D1
        by (rewrite inject_Z_plus; change (inject_Z 1) with 1%Q; change (inject_Z 0) with 0%Q; lra).
      assert (inject_Z (Qfloor (- x + (1#2))) < inject_Z 1)%Q as D2 by (change (inject_Z 1) with 1%Q; lra).
      rewrite <- Zlt_Qlt in D1, D2. lia.
Qed.

(** first moment of the weights: linear functions of the position are reproduced *)
Lemma weights_moment n x a b :
  (0 <= x)%Q -> (x <= inject_Z (n - 1))%Q ->
  weights n x <> [] /\
  wsum (map (fun ia => (snd ia, Some (a + b * qz (fst ia))%Qc)) (weights n x)) = Some (a + b * Q2Qc x)%Qc.
Proof.
  intros H1 H2. pose proof (Qfloor_bounds x) as [F1 F2].
  assert (inject_Z (-1) < inject_Z (Qfloor x))%Q as G1 by (change (inject_Z (-1)) with (-1)%Q; lra).
  assert (inject_Z (Qfloor x) <= inject_Z (n - 1))%Q as G2 by lra.
  rewrite <- Zlt_Qlt in G1. rewrite <- Zle_Qle in G2.
  unfold weights. destruct ((0 <=? Qfloor x) && (Qfloor x + 1 <? n)) eqn:E.
  - split; [congruence|]. cbn [map fst snd wsum fold_right vmul vadd]. f_equal.
    assert (qz (Qfloor x + 1) = qz (Qfloor x) + 1)%Qc as ->.
    { apply Qc_is_canon. unfold qz, Qcplus. rewrite !qc_unfold. rewrite inject_Z_plus. reflexivity. }
    assert (Q2Qc x = Q2Qc (x - inject_Z (Qfloor x)) + qz (Qfloor x))%Qc as ->.
    { apply Qc_is_canon. unfold qz, Qcplus. rewrite !qc_unfold. lra. }
    ring.
  - assert (Qfloor x = n - 1) as EF by lia. rewrite EF in *.
    assert (x == inject_Z (n - 1))%Q as EX by lra.
    rewrite (lround_comp _ _ EX), lround_int.
    replace ((0 <=? n - 1) && (n - 1 <? n)) with true by lia.
    split; [congruence|]. cbn [map fst snd wsum fold_right vmul vadd]. f_equal.
    assert (qz (n - 1) = Q2Qc x) as ->.
    { apply Qc_is_canon. unfold qz. rewrite !qc_unfold. symmetry. exact EX. }
    ring.
Qed.

Lemma wsum_ext {T} (f g : T -> Qc * value) l : (forall t, In t l -> f t = g t) -> wsum (map f l) = wsum (map g l).
Proof. intro H. f_equal. apply map_ext_in. auto. Qed.

Lemma bil_point_ext nx ny x y c c' :
  (forall i j, 0 <= i < nx -> 0 <= j < ny -> c i j = c' i j) ->
  bil_point nx ny x y c = bil_point nx ny x y c'.
Proof.
  intro H. unfold bil_point. destruct (weights nx x) as [|p wx] eqn:EX; auto.
  destruct (weights ny y) as [|q wy] eqn:EY; auto. rewrite <- EX, <- EY.
  apply wsum_ext. intros [j b] IJ. cbn [fst snd]. f_equal. apply wsum_ext. intros [i a] II. cbn [fst snd].
  f_equal. apply H; eapply weights_range; eassumption.
Qed.

Lemma bil_affine nx ny x y a b d :
  (0 <= x)%Q -> (x <= inject_Z (nx - 1))%Q -> (0 <= y)%Q -> (y <= inject_Z (ny - 1))%Q ->
  bil_point nx ny x y (fun i j => Some (a + b * qz i + d * qz j)%Qc)
  = Some (a + b * Q2Qc x + d * Q2Qc y)%Qc.
Proof.
  intros X1 X2 Y1 Y2. unfold bil_point.
  destruct (weights_moment nx x a b X1 X2) as [NX _].
  destruct (weights_moment ny y (a + b * Q2Qc x) d Y1 Y2) as [NY MY].
  destruct (weights nx x) as [|p wx] eqn:EX; [congruence|].
  destruct (weights ny y) as [|q wy] eqn:EY; [congruence|]. rewrite <- EX, <- EY in *.
  rewrite <- MY. apply wsum_ext. intros [j e] _. cbn [fst snd]. f_equal.
  destruct (weights_moment nx x (a + d * qz j) b X1 X2) as [_ MX].
  transitivity (Some (a + d * qz j + b * Q2Qc x)%Qc).
  - rewrite <- MX. apply wsum_ext. intros [i u] _. cbn [fst snd]. do 2 f_equal. ring.
  - f_equal. ring.
Qed.

(** at a grid point: the cell value, as soon as the neighbours are defined *)
Lemma bil_grid_point nx ny i j c v :
  0 <= i < nx -> 0 <= j < ny -> c i j = Some v ->
  (forall i' j', i <= i' <= i + 1 -> j <= j' <= j + 1 -> i' < nx -> j' < ny -> c i' j' <> None) ->
  bil_point nx ny (inject_Z i) (inject_Z j) c = Some v.
Proof.
  intros HI HJ E D.
  assert (forall n k, 0 <= k < n -> weights n (inject_Z k) =
     if k + 1 <? n then [(k, 1%Qc); (k + 1, 0%Qc)] else [(k, 1%Qc)]) as W.
  { intros n k H. unfold weights. rewrite Qfloor_Z, lround_int.
    assert (Q2Qc (inject_Z k - inject_Z k) = 0%Qc) as ->.
    { apply Qc_is_canon. rewrite !qc_unfold. lra. }
    replace ((0 <=? k) && (k <? n)) with true by lia.
    replace (0 <=? k) with true by lia. cbn [andb].
    replace (1 - 0)%Qc with 1%Qc by ring. reflexivity. }
  unfold bil_point. rewrite !W by assumption.
  assert (forall i' j', i <= i' <= i + 1 -> j <= j' <= j + 1 -> i' < nx -> j' < ny -> exists w, c i' j' = Some w) as D2.
  { intros i' j' A1 A2 A3 A4. specialize (D i' j' A1 A2 A3 A4). destruct (c i' j'); [eauto|congruence]. }
  destruct (Z.ltb_spec (i + 1) nx) as [LX|LX], (Z.ltb_spec (j + 1) ny) as [LY|LY]; cbn [map fst snd wsum fold_right].
  - destruct (D2 (i + 1) j) as [w1 ->]; try lia. destruct (D2 i (j + 1)) as [w2 ->]; try lia.
    destruct (D2 (i + 1) (j + 1)) as [w3 ->]; try lia. rewrite E. cbn. f_equal. ring.
  - destruct (D2 (i + 1) j) as [w1 ->]; try lia. rewrite E. cbn. f_equal. ring.
  - destruct (D2 i (j + 1)) as [w2 ->]; try lia. rewrite E. cbn. f_equal. ring.
  - rewrite E. cbn. f_equal. ring.
Qed.

(** ** Bicubic *)

(** cubic convolution kernel (a = -1/2) *)
Definition kernel (d : Q) : Q :=
  let a := Qabs d in
  if Qle_bool a 1 then (3#2) * a * a * a - (5#2) * a * a + 1
  else if Qle_bool a 2 then - (1#2) * a * a * a + (5#2) * a * a - 4 * a + 2
  else 0.

Definition cubic_weights (x : Q) : list (Z * Qc) :=
  map (fun k => (Qfloor x + k, Q2Qc (kernel (x - inject_Z (Qfloor x + k))))) [-1; 0; 1; 2].

Definition cub_inside (n : Z) (x : Q) : bool := (1 <=? Qfloor x) && (Qfloor x + 2 <? n).

Definition cub_point (nx ny : Z) (x y : Q) (c : Z -> Z -> value) : value :=
  if cub_inside nx x && cub_inside ny y
  then wsum (map (fun jb => (snd jb, wsum (map (fun ia => (snd ia, c (fst ia) (fst jb))) (cubic_weights x))))
                 (cubic_weights y))
  else None.

Lemma qc_add (a b : Qc) : (this (a + b)%Qc == this a + this b)%Q.
Proof. apply qc_unfold. Qed.
Lemma qc_mul (a b : Qc) : (this (a * b)%Qc == this a * this b)%Q.
Proof. apply qc_unfold. Qed.
Lemma qc_opp (a : Qc) : (this (- a)%Qc == - this a)%Q.
Proof. apply qc_unfold. Qed.
Lemma qc_sub (a b : Qc) : (this (a - b)%Qc == this a - this b)%Q.
Proof. unfold Qcminus. rewrite qc_add, qc_opp. reflexivity. Qed.

Ltac qc_norm := repeat first [rewrite qc_add | rewrite qc_mul | rewrite qc_sub | rewrite qc_opp | rewrite qc_unfold].
Ltac qc_eq := apply Qc_is_canon; unfold qz; qc_norm.

Lemma list4 {A} (a b c d a' b' c' d' : A) : a = a' -> b = b' -> c = c' -> d = d' -> [a; b; c; d] = [a'; b'; c'; d'].
Proof. congruence. Qed.

Lemma list4_inv {A} (a b c d a' b' c' d' : A) :
  [a; b; c; d] = [a'; b'; c'; d'] -> a = a' /\ b = b' /\ c = c' /\ d = d'.
Proof. intro H. injection H. auto. Qed.

Lemma conv_weights_poly f :
  conv_weights f =
  let h := Q2Qc (1#2) in
  [h * (- f + (1+1) * f * f - f * f * f); h * ((1+1) - (1+1+1+1+1) * f * f + (1+1+1) * f * f * f);
   h * (f + (1+1+1+1) * f * f - (1+1+1) * f * f * f); h * (- f * f + f * f * f)]%Qc.
Proof.
  unfold conv_weights. cbv zeta. cbn [seq map nth M4 sum_q fold_left].
  apply list4; qc_eq; cbv [inject_Z]; ring.
Qed.

Lemma kernel_near d : (- 1 <= d)%Q -> (d <= 1)%Q ->
  (kernel d == (3#2) * Qabs d * Qabs d * Qabs d - (5#2) * d * d + 1)%Q.
Proof.
  intros H1 H2. unfold kernel.
  assert (Qabs d <= 1)%Q as A by (apply Qabs_Qle_condition; auto).
  apply Qle_bool_iff in A. rewrite A.
  assert (Qabs d * Qabs d == d * d)%Q as E.
  { destruct (Qlt_le_dec d 0) as [L|L]; [rewrite Qabs_neg by lra|rewrite Qabs_pos by lra]; ring. }
  setoid_replace ((5#2) * Qabs d * Qabs d)%Q with ((5#2) * (Qabs d * Qabs d))%Q by ring. rewrite E. ring.
Qed.

Lemma kernel_far d : (1 <= d)%Q -> (d <= 2)%Q ->
  (kernel d == - (1#2) * d * d * d + (5#2) * d * d - 4 * d + 2)%Q.
Proof.
  intros H1 H2. unfold kernel. assert (Qabs d == d)%Q as A by (apply Qabs_pos; lra).
  destruct (Qle_bool (Qabs d) 1) eqn:E.
  - apply Qle_bool_iff in E. assert (d == 1)%Q as D by lra. rewrite A, D. reflexivity.
  - assert (Qle_bool (Qabs d) 2 = true) as -> by (apply Qle_bool_iff; lra). rewrite A. ring.
Qed.

Lemma kernel_sym d : (kernel (- d) == kernel d)%Q.
Proof.
  unfold kernel.
  assert (Qle_bool (Qabs (- d)) 1 = Qle_bool (Qabs d) 1) as ->
    by (apply eq_true_iff_eq; rewrite !Qle_bool_iff, Qabs_opp; reflexivity).
  assert (Qle_bool (Qabs (- d)) 2 = Qle_bool (Qabs d) 2) as ->
    by (apply eq_true_iff_eq; rewrite !Qle_bool_iff, Qabs_opp; reflexivity).
  destruct (Qle_bool (Qabs d) 1), (Qle_bool (Qabs d) 2); rewrite ?Qabs_opp; reflexivity.
Qed.

Lemma kernel_comp a b : (a == b)%Q -> (kernel a == kernel b)%Q.
Proof.
  intro E. unfold kernel.
  assert (Qle_bool (Qabs a) 1 = Qle_bool (Qabs b) 1) as ->
    by (apply eq_true_iff_eq; rewrite !Qle_bool_iff, E; reflexivity).
  assert (Qle_bool (Qabs a) 2 = Qle_bool (Qabs b) 2) as ->
    by (apply eq_true_iff_eq; rewrite !Qle_bool_iff, E; reflexivity).
  destruct (Qle_bool (Qabs b) 1), (Qle_bool (Qabs b) 2); rewrite ?E; reflexivity.
Qed.

Lemma conv_weights_kernel x :
  conv_weights (Q2Qc (x - inject_Z (Qfloor x))) = map snd (cubic_weights x).
Proof.
  pose proof (Qfloor_bounds x) as [F1 F2].
  set (f := (x - inject_Z (Qfloor x))%Q) in *.
  assert (0 <= f < 1)%Q as [G1 G2] by (unfold f; lra).
  rewrite conv_weights_poly. unfold cubic_weights. cbv zeta. rewrite map_map. cbn [map snd].
  assert (forall k, Q2Qc (kernel (x - inject_Z (Qfloor x + k))) = Q2Qc (kernel (f - inject_Z k))) as E.
  { intro k. apply Qc_is_canon. rewrite !qc_unfold. apply kernel_comp. unfold f. rewrite inject_Z_plus. lra. }
  rewrite !E. apply list4; qc_eq.
  - change (inject_Z (-1)) with (-1)%Q. rewrite kernel_far by lra. ring.
  - change (inject_Z 0) with 0%Q. rewrite kernel_near by lra.
    rewrite Qabs_pos by lra. ring.
  - change (inject_Z 1) with 1%Q. rewrite kernel_near by lra.
    rewrite Qabs_neg by lra. ring.
  - change (inject_Z 2) with 2%Q. rewrite <- kernel_sym. rewrite kernel_far by lra. ring.
Qed.

Lemma vadd_assoc a b c : vadd a (vadd b c) = vadd (vadd a b) c.
Proof. destruct a, b, c; cbn; auto. f_equal. ring. Qed.
Lemma vadd_0_l v : vadd (Some 0%Qc) v = v.
Proof. destruct v; cbn; auto. f_equal. ring. Qed.

Lemma sum_v_wsum w0 w1 w2 w3 a b c d :
  sum_v [vmul w0 a; vmul w1 b; vmul w2 c; vmul w3 d] = wsum [(w0, a); (w1, b); (w2, c); (w3, d)].
Proof.
  unfold sum_v, wsum. cbn [fold_left fold_right fst snd]. rewrite vadd_0_l, vadd_0_r, !vadd_assoc. reflexivity.
Qed.

Lemma bicubic_spec data nx ny nz x y :
  length data = (nx * (ny * nz))%nat -> fits_int x -> fits_int y ->
  bicubic data x y (Z.of_nat nx) (Z.of_nat ny) nz
  = Ok (map (fun z => cub_point (Z.of_nat nx) (Z.of_nat ny) x y (fun i j => at3 data nx ny i j z)) (seq 0 nz)).
Proof.
  intros LD [FX RX] [FY RY]. unfold bicubic. rewrite !floor_int_ok by assumption. cbn [obind].
  unfold cub_point. fold (cub_inside (Z.of_nat nx) x). fold (cub_inside (Z.of_nat ny) y).
  destruct (cub_inside (Z.of_nat nx) x && cub_inside (Z.of_nat ny) y) eqn:E.
  - unfold cub_inside in E.
    assert (1 <= Qfloor x /\ Qfloor x + 2 < Z.of_nat nx /\ 1 <= Qfloor y /\ Qfloor y + 2 < Z.of_nat ny)
      as (X1 & X2 & Y1 & Y2) by lia.
    apply omapM_ok. intros z I. apply in_seq in I.
    rewrite omapM_ok with (g := fun i => map (fun j =>
      at3 data nx ny (Qfloor x + Z.of_nat i - 1) (Qfloor y + Z.of_nat j - 1) z) (seq 0 4)).
    2:{ intros i Ii. apply in_seq in Ii. apply omapM_ok. intros j Ij. apply in_seq in Ij.
        apply (cell_at_ok data nx ny nz); auto; try lia. }
    cbn [obind]. rewrite !conv_weights_kernel. f_equal.
    unfold cubic_weights. rewrite !map_map. cbn [seq map nth snd fst].
    rewrite !sum_v_wsum.
    replace (Qfloor x + Z.of_nat 0 - 1) with (Qfloor x + -1) by lia.
    replace (Qfloor x + Z.of_nat 1 - 1) with (Qfloor x + 0) by lia.
    replace (Qfloor x + Z.of_nat 2 - 1) with (Qfloor x + 1) by lia.
    replace (Qfloor x + Z.of_nat 3 - 1) with (Qfloor x + 2) by lia.
    replace (Qfloor y + Z.of_nat 0 - 1) with (Qfloor y + -1) by lia.
    replace (Qfloor y + Z.of_nat 1 - 1) with (Qfloor y + 0) by lia.
    replace (Qfloor y + Z.of_nat 2 - 1) with (Qfloor y + 1) by lia.
    replace (Qfloor y + Z.of_nat 3 - 1) with (Qfloor y + 2) by lia.
    reflexivity.
  - unfold undefined_levels. f_equal.
    apply nth_error_ext. intro i. rewrite nth_error_map, nth_error_seq, nth_error_repeat.
    destruct (Nat.ltb i nz); reflexivity.
Qed.

(** quadratic functions are reproduced *)
Lemma cubic_moment x a b d :
  wsum (map (fun ia => (snd ia, Some (a + b * qz (fst ia) + d * qz (fst ia) * qz (fst ia))%Qc)) (cubic_weights x))
  = Some (a + b * Q2Qc x + d * Q2Qc x * Q2Qc x)%Qc.
Proof.
  pose proof (conv_weights_kernel x) as K. rewrite conv_weights_poly in K. unfold cubic_weights in *.
  cbv zeta in K. rewrite map_map in K. cbn [map snd] in K. apply list4_inv in K as (K1 & K2 & K3 & K4).
  rewrite map_map. cbn [map fst snd wsum fold_right vmul vadd]. rewrite <- K1, <- K2, <- K3, <- K4.
  f_equal. qc_eq. rewrite !inject_Z_plus. set (n := inject_Z (Qfloor x)). clearbody n.
  change (inject_Z (-1)) with (-1)%Q. change (inject_Z 0) with 0%Q. change (inject_Z 1) with 1%Q.
  change (inject_Z 2) with 2%Q. ring.
Qed.

Lemma cub_quadratic nx ny x y (p : nat -> nat -> Qc) :
  cub_inside nx x = true -> cub_inside ny y = true ->
  let poly (u v : Qc) := (p 0%nat 0%nat + p 1%nat 0%nat * u + p 2%nat 0%nat * u * u
     + (p 0%nat 1%nat + p 1%nat 1%nat * u + p 2%nat 1%nat * u * u) * v
     + (p 0%nat 2%nat + p 1%nat 2%nat * u + p 2%nat 2%nat * u * u) * v * v)%Qc in
  cub_point nx ny x y (fun i j => Some (poly (qz i) (qz j))) = Some (poly (Q2Qc x) (Q2Qc y)).
Proof.
  intros HX HY. cbv zeta. unfold cub_point. rewrite HX, HY. cbn [andb].
  rewrite <- cubic_moment. apply wsum_ext. intros [j b] _. cbn [fst snd]. f_equal.
  transitivity (Some ((p 0%nat 0%nat + p 0%nat 1%nat * qz j + p 0%nat 2%nat * qz j * qz j)
      + (p 1%nat 0%nat + p 1%nat 1%nat * qz j + p 1%nat 2%nat * qz j * qz j) * Q2Qc x
      + (p 2%nat 0%nat + p 2%nat 1%nat * qz j + p 2%nat 2%nat * qz j * qz j) * Q2Qc x * Q2Qc x)%Qc).
  - rewrite <- cubic_moment. apply wsum_ext. intros [i a] _. cbn [fst snd]. do 2 f_equal. ring.
  - f_equal. ring.
Qed.

Lemma pair_eq {A B} (a a' : A) (b b' : B) : a = a' -> b = b' -> (a, b) = (a', b').
Proof. congruence. Qed.

Lemma cubic_weights_int i : cubic_weights (inject_Z i) = [(i - 1, 0%Qc); (i, 1%Qc); (i + 1, 0%Qc); (i + 2, 0%Qc)].
Proof.
  pose proof (conv_weights_kernel (inject_Z i)) as K. rewrite conv_weights_poly in K. unfold cubic_weights in *.
  rewrite Qfloor_Z in *. cbv zeta in K. rewrite map_map in K. cbn [map snd] in *. apply list4_inv in K as (K1 & K2 & K3 & K4).
  rewrite <- K1, <- K2, <- K3, <- K4.
  assert (Q2Qc (inject_Z i - inject_Z i) = 0)%Qc as -> by (qc_eq; lra).
  apply list4; apply pair_eq; [lia| |lia| |lia| |lia|]; qc_eq; ring.
Qed.

Lemma wsum_one w0 w1 w2 w3 v : v <> None ->
  w0 <> None -> w2 <> None -> w3 <> None ->
  wsum [(0%Qc, w0); (w1, v); (0%Qc, w2); (0%Qc, w3)] = vmul w1 v.
Proof.
  destruct v, w0, w2, w3; try congruence. intros _ _ _ _. cbn. f_equal. ring.
Qed.

Lemma cub_grid_point nx ny i j c :
  1 <= i -> i + 2 < nx -> 1 <= j -> j + 2 < ny ->
  (forall i' j', i - 1 <= i' <= i + 2 -> j - 1 <= j' <= j + 2 -> c i' j' <> None) ->
  cub_point nx ny (inject_Z i) (inject_Z j) c = c i j.
Proof.
  intros I1 I2 J1 J2 D. unfold cub_point, cub_inside. rewrite !Qfloor_Z.
  replace ((1 <=? i) && (i + 2 <? nx) && ((1 <=? j) && (j + 2 <? ny))) with true by lia.
  rewrite !cubic_weights_int. cbn [map fst snd].
  assert (forall j', j - 1 <= j' <= j + 2 ->
    wsum [(0%Qc, c (i - 1) j'); (1%Qc, c i j'); (0%Qc, c (i + 1) j'); (0%Qc, c (i + 2) j')] = c i j') as ROW.
  { intros j' H. rewrite wsum_one by (apply D; lia). apply vmul_1_l. }
  rewrite !ROW by lia. rewrite wsum_one by (apply D; lia). apply vmul_1_l.
Qed.

Lemma cub_point_ext nx ny x y c c' :
  (forall i j, 0 <= i < nx -> 0 <= j < ny -> c i j = c' i j) ->
  cub_point nx ny x y c = cub_point nx ny x y c'.
Proof.
  intro H. unfold cub_point. destruct (cub_inside nx x && cub_inside ny y) eqn:E; auto.
  unfold cub_inside in E.
  apply wsum_ext. intros [j b] IJ. cbn [fst snd]. f_equal. apply wsum_ext. intros [i a] II. cbn [fst snd].
  f_equal. unfold cubic_weights in *. apply in_map_iff in IJ as (k & E1 & K1). apply in_map_iff in II as (l & E2 & K2).
  injection E1 as <- <-. injection E2 as <- <-. cbn in K1, K2. apply H; lia.
Qed.

(** ** Reduced domain *)

(** how the reduced axis [m, m+n') of an axis of length n has to lie around [x] *)
Definition wide (n m n' : Z) (x : Q) : Prop :=
  0 <= m /\ m + n' <= n /\ (m = 0 \/ m + 2 <= Qfloor x) /\ (m + n' = n \/ Qceiling x + 2 <= m + n' - 1).

Lemma floor_le_ceil x : Qfloor x <= Qceiling x.
Proof.
  pose proof (Qfloor_le x). pose proof (Qle_ceiling x).
  assert (inject_Z (Qfloor x) <= inject_Z (Qceiling x))%Q as H1 by lra. rewrite <- Zle_Qle in H1. exact H1.
Qed.

Lemma lround_le_ceil x : lround x <= Qceiling x.
Proof.
  pose proof (lround_bounds x) as [B1 B2].
  destruct (Z.eq_dec (Qceiling x) (Qfloor x)) as [E|E].
  - pose proof (Qfloor_le x) as F. pose proof (Qle_ceiling x) as C. rewrite E in C.
    assert (x == inject_Z (Qfloor x))%Q as EX by lra. rewrite (lround_comp _ _ EX), lround_int. lia.
  - pose proof (floor_le_ceil x). lia.
Qed.

Lemma lround_shift x m : 0 <= m -> m = 0 \/ m <= Qfloor x -> lround (x - inject_Z m) = lround x - m.
Proof.
  intros P [->|H].
  - assert (x - inject_Z 0 == x)%Q as E by (change (inject_Z 0) with 0%Q; lra). rewrite (lround_comp _ _ E). lia.
  - pose proof (Qfloor_le x) as F. rewrite Zle_Qle in H, P. change (inject_Z 0) with 0%Q in P.
    unfold lround.
    assert (Qle_bool 0 (x - inject_Z m) = true) as -> by (apply Qle_bool_iff; lra).
    assert (Qle_bool 0 x = true) as -> by (apply Qle_bool_iff; lra).
    rewrite <- Qfloor_add_Z. apply Qfloor_comp. lra.
Qed.

Lemma weights_shift n m n' x : wide n m n' x -> 0 < n' ->
  weights n' (x - inject_Z m) = map (fun iw => (fst iw - m, snd iw)) (weights n x).
Proof.
  intros (P & L & HM & HN) PN. unfold weights. rewrite Qfloor_add_Z, lround_shift by (auto; lia).
  pose proof (floor_le_ceil x) as B1. pose proof (lround_le_ceil x) as B2. pose proof (lround_bounds x) as B3.
  assert ((0 <=? Qfloor x - m) && (Qfloor x - m + 1 <? n') = (0 <=? Qfloor x) && (Qfloor x + 1 <? n)) as ->.
  { destruct HM as [->|HM], HN as [HN|HN]; lia. }
  assert ((0 <=? lround x - m) && (lround x - m <? n') = (0 <=? lround x) && (lround x <? n)) as ->.
  { destruct HM as [->|HM], HN as [HN|HN]; lia. }
  assert (Q2Qc (x - inject_Z m - inject_Z (Qfloor x - m)) = Q2Qc (x - inject_Z (Qfloor x))) as ->.
  { apply Qc_is_canon. rewrite !qc_unfold. unfold Zminus. rewrite inject_Z_plus, inject_Z_opp. lra. }
  destruct ((0 <=? Qfloor x) && (Qfloor x + 1 <? n)); cbn [map fst snd].
  - replace (Qfloor x - m + 1) with (Qfloor x + 1 - m) by lia. reflexivity.
  - destruct ((0 <=? lround x) && (lround x <? n)); reflexivity.
Qed.

Lemma bil_shift nx ny mx my nx' ny' x y c :
  wide nx mx nx' x -> wide ny my ny' y -> 0 < nx' -> 0 < ny' ->
  bil_point nx' ny' (x - inject_Z mx) (y - inject_Z my) (fun i j => c (i + mx) (j + my)) = bil_point nx ny x y c.
Proof.
  intros HX HY PX PY. unfold bil_point.
  rewrite (weights_shift nx), (weights_shift ny) by assumption.
  destruct (weights nx x) as [|p wx]; auto. destruct (weights ny y) as [|q wy]; auto.
  set (W := p :: wx). set (V := q :: wy).
  change (map _ (p :: wx)) with (map (fun iw : Z * Qc => (fst iw - mx, snd iw)) W).
  change (map _ (q :: wy)) with (map (fun iw : Z * Qc => (fst iw - my, snd iw)) V).
  assert (forall T (a b : list (Z * Qc)) (u v : T), a <> [] -> b <> [] ->
     match a, b with [], _ => u | _, [] => u | _, _ => v end = v) as M.
  { intros T [|r a] [|s b] u v A B; congruence. }
  cbn [map W V]. rewrite !map_map. fold V W.
  apply (f_equal wsum). change (map ?f V) with (map f V).
  transitivity (map (fun jb : Z * Qc => (snd jb,
     wsum (map (fun ia => (snd ia, c (fst ia - mx + mx) (fst jb - my + my))) W))) V).
  - unfold V. cbn [map]. apply (f_equal2 (@cons _)).
    + f_equal.
    + apply map_ext. intros [j b]. unfold W. cbn [map fst snd]. rewrite ?map_map. reflexivity.
  - transitivity (map (fun jb : Z * Qc => (snd jb, wsum (map (fun ia => (snd ia, c (fst ia) (fst jb))) W))) V);
      [|reflexivity].
    apply map_ext. intros [j b]. cbn [fst snd]. do 2 f_equal. apply map_ext. intros [i a]. cbn [fst snd].
    f_equal. f_equal; lia.
Qed.

Lemma cubic_weights_shift x m :
  cubic_weights (x - inject_Z m) = map (fun iw => (fst iw - m, snd iw)) (cubic_weights x).
Proof.
  unfold cubic_weights. rewrite Qfloor_add_Z, map_map. apply map_ext. intro k. cbn [fst snd].
  apply pair_eq; [lia|]. apply Qc_is_canon. rewrite !qc_unfold. apply kernel_comp.
  unfold Zminus. rewrite !inject_Z_plus, inject_Z_opp. lra.
Qed.

Lemma cub_shift nx ny mx my nx' ny' x y c :
  wide nx mx nx' x -> wide ny my ny' y -> 0 < nx' -> 0 < ny' ->
  cub_point nx' ny' (x - inject_Z mx) (y - inject_Z my) (fun i j => c (i + mx) (j + my)) = cub_point nx ny x y c.
Proof.
  intros HX HY PX PY. unfold cub_point.
  assert (forall n m n' x, wide n m n' x -> 0 < n' -> cub_inside n' (x - inject_Z m) = cub_inside n x) as CI.
  { intros n m n' u (A1 & A2 & A3 & A4) P. unfold cub_inside. rewrite Qfloor_add_Z.
    pose proof (floor_le_ceil u). destruct A3 as [->|A3], A4 as [A4|A4]; lia. }
  rewrite (CI nx), (CI ny) by assumption.
  destruct (cub_inside nx x && cub_inside ny y); auto.
  rewrite !cubic_weights_shift, map_map. apply wsum_ext. intros [j b] _. cbn [fst snd]. f_equal.
  rewrite map_map. apply wsum_ext. intros [i a] _. cbn [fst snd]. f_equal. f_equal; lia.
Qed.

(** the least and the greatest position *)
Lemma min_max_values_spec l : l <> [] -> exists mi ma, min_max_values l = Ok (mi, ma) /\
  forall e, In e l -> (mi <= e <= ma)%Q.
Proof.
  intro NE. destruct l as [|a l]; [congruence|].
  destruct (min_max_spec qltb qltb_strict_weak a l) as (mi & ma & [L1 L2] & [G1 G2]).
  unfold min_max_values. destruct (min_max_element qltb (a :: l)) as [i j]. cbn [fst snd] in *.
  rewrite L1, G1. cbn [rd obind]. exists mi, ma. split; auto.
  intros e I. apply L2 in I as H1. apply G2 in I as H2. apply qltb_false in H1, H2. auto.
Qed.

Lemma Qceiling_mono a b : (a <= b)%Q -> Qceiling a <= Qceiling b.
Proof. apply Qceiling_resp_le. Qed.

Lemma clamp_range n mi ma x : 0 < n -> (mi <= x <= ma)%Q ->
  let m := clamp_ex 0 mi (- EXTEND) (n - 1) in
  let k := clamp_ex 0 ma EXTEND (n - 1) in
  1 <= k - m -> wide n m (k - m + 1) x.
Proof.
  intros P [H1 H2]. cbv zeta. unfold clamp_ex, EXTEND, clamp_z, wide. change (0 <? - (2)) with false. change (0 <? 2) with true.
  cbv iota. pose proof (Qfloor_resp_le _ _ H1) as F. pose proof (Qceiling_resp_le _ _ H2) as C.
  pose proof (floor_le_ceil x).
  set (a := Qfloor mi) in *. set (b := Qceiling ma) in *. clearbody a b.
  destruct (Z.ltb_spec (a + - (2)) 0), (Z.ltb_spec (a + - (2)) (n - 1)),
           (Z.ltb_spec (b + 2) 0), (Z.ltb_spec (b + 2) (n - 1)); lia.
Qed.

(** the constructed interpolator *)
Lemma create_reduced_spec pts nx ny : pts <> [] -> 0 < nx -> 0 < ny ->
  exists g, create_reduced pts nx ny = Ok g /\
    0 <= ci_x0 g /\ 0 <= ci_y0 g /\ 0 < ci_inX g /\ 0 < ci_inY g /\
    ci_x0 g + ci_inX g <= nx /\ ci_y0 g + ci_inY g <= ny /\
    (g = mkCached pts 0 0 nx ny \/
     ci_pts g = map (fun p => (fst p - inject_Z (ci_x0 g), snd p - inject_Z (ci_y0 g))%Q) pts) /\
    (forall p, In p pts -> wide nx (ci_x0 g) (ci_inX g) (fst p) /\ wide ny (ci_y0 g) (ci_inY g) (snd p)).
Proof.
  intros NE PX PY. unfold create_reduced.
  destruct (min_max_values_spec (map fst pts)) as (mx & Mx & -> & BX); [destruct pts; [congruence|discriminate]|].
  destruct (min_max_values_spec (map snd pts)) as (my & My & -> & BY); [destruct pts; [congruence|discriminate]|].
  cbn [obind fst snd].
  set (x0 := clamp_ex 0 mx (- EXTEND) (nx - 1)). set (y0 := clamp_ex 0 my (- EXTEND) (ny - 1)).
  set (x1 := clamp_ex 0 Mx EXTEND (nx - 1)). set (y1 := clamp_ex 0 My EXTEND (ny - 1)).
  destruct ((x1 - x0 <? 1) || (y1 - y0 <? 1)) eqn:E.
  - exists (mkCached pts 0 0 nx ny). split; auto. cbn [ci_x0 ci_y0 ci_inX ci_inY].
    repeat (split; [lia|]). split; [left; auto|]. intros p I. unfold wide. lia.
  - assert (1 <= x1 - x0 /\ 1 <= y1 - y0) as [HX HY] by lia.
    exists (mkCached (map (fun p => (fst p - inject_Z x0, snd p - inject_Z y0)%Q) pts) x0 y0 (x1 - x0 + 1) (y1 - y0 + 1)).
    split; auto. cbn [ci_x0 ci_y0 ci_inX ci_inY ci_pts].
    assert (forall p, In p pts -> wide nx x0 (x1 - x0 + 1) (fst p) /\ wide ny y0 (y1 - y0 + 1) (snd p)) as W.
    { intros p I. split; apply clamp_range; auto; [apply BX, in_map|apply BY, in_map]; auto. }
    destruct pts as [|p0 pts]; [congruence|].
    destruct (W p0 (or_introl eq_refl)) as [(A1 & A2 & _) (B1 & B2 & _)].
    repeat (split; [lia|]). split; [right; auto|]. exact W.
Qed.

Lemma box_at3 data field nx ny nz x0 y0 nx' ny' :
  length data = cells [nx; ny; nz] -> is_box data [nx; ny; nz] [x0; y0; 0%nat] [nx'; ny'; nz] field ->
  (x0 + nx' <= nx)%nat -> (y0 + ny' <= ny)%nat ->
  forall i j z, 0 <= i < Z.of_nat nx' -> 0 <= j < Z.of_nat ny' -> (z < nz)%nat ->
  at3 field nx' ny' i j z = at3 data nx ny (i + Z.of_nat x0) (j + Z.of_nat y0) z.
Proof.
  intros LD [LF B] LX LY i j z HI HJ HZ.
  specialize (B [Z.to_nat i; Z.to_nat j; z]). cbn [lin shift] in B.
  rewrite !Nat.mul_0_r, !Nat.add_0_r in B.
  assert (inside [nx'; ny'; nz] [Z.to_nat i; Z.to_nat j; z]) as IN by (repeat constructor; lia).
  specialize (B IN). unfold at3.
  replace (Z.to_nat (i + Z.of_nat x0)) with (x0 + Z.to_nat i)%nat by lia.
  replace (Z.to_nat (j + Z.of_nat y0)) with (y0 + Z.to_nat j)%nat by lia.
  cbn [Nat.add] in B.
  assert (forall (l : list value) k, nth k l None = match nth_error l k with Some v => v | None => None end) as N.
  { induction l as [|v l IH]; destruct k; cbn; auto. }
  rewrite !N, B. reflexivity.
Qed.

(** ** Interpolating a grid *)

(** [P] is the value of one output cell computed from the cells of one level *)
Definition computes (func : point_fun) (P : Z -> Z -> Q -> Q -> (Z -> Z -> value) -> value)
           (good : Z -> Z -> Q -> Q -> Prop) : Prop :=
  (forall data nx ny nz x y, length data = (nx * (ny * nz))%nat -> fits_int x -> fits_int y ->
     good (Z.of_nat nx) (Z.of_nat ny) x y ->
     func data x y (Z.of_nat nx) (Z.of_nat ny) nz
     = Ok (map (fun z => P (Z.of_nat nx) (Z.of_nat ny) x y (fun i j => at3 data nx ny i j z)) (seq 0 nz))) /\
  (forall nx ny mx my nx' ny' x y c, wide nx mx nx' x -> wide ny my ny' y -> 0 < nx' -> 0 < ny' ->
     P nx' ny' (x - inject_Z mx)%Q (y - inject_Z my)%Q (fun i j => c (i + mx) (j + my)) = P nx ny x y c) /\
  (forall nx ny x y c c', (forall i j, 0 <= i < nx -> 0 <= j < ny -> c i j = c' i j) ->
     P nx ny x y c = P nx ny x y c') /\
  (forall nx ny mx my nx' ny' x y, wide nx mx nx' x -> wide ny my ny' y -> 0 < nx' -> 0 < ny' ->
     good nx ny x y -> good nx' ny' (x - inject_Z mx)%Q (y - inject_Z my)%Q).

Lemma fits_shift n m n' x : wide n m n' x -> fits_int x -> n < 2 ^ 31 -> fits_int (x - inject_Z m).
Proof.
  intros (A1 & A2 & A3 & A4) [F R] B. unfold fits_int. rewrite Qfloor_add_Z, lround_shift by (auto; lia).
  pose proof (lround_bounds x). destruct A3 as [->|A3]; lia.
Qed.

Lemma nth_map_seq {A} (f : nat -> A) n z d : (z < n)%nat -> nth z (map f (seq 0 n)) d = f z.
Proof.
  intro H. rewrite (nth_indep _ d (f 0%nat)) by (rewrite map_length, seq_length; lia).
  rewrite map_nth, seq_nth by lia. reflexivity.
Qed.

Lemma cached_spec func P good : computes func P good ->
  forall nx ny nz pts data field g, pts <> [] -> (0 < nx)%nat -> (0 < ny)%nat ->
  Z.of_nat nx < 2 ^ 31 -> Z.of_nat ny < 2 ^ 31 ->
  length data = cells [nx; ny; nz] ->
  (forall p, In p pts -> fits_int (fst p) /\ fits_int (snd p) /\ good (Z.of_nat nx) (Z.of_nat ny) (fst p) (snd p)) ->
  create_reduced pts (Z.of_nat nx) (Z.of_nat ny) = Ok g ->
  is_box data [nx; ny; nz] [Z.to_nat (ci_x0 g); Z.to_nat (ci_y0 g); 0%nat]
         [Z.to_nat (ci_inX g); Z.to_nat (ci_inY g); nz] field ->
  cached_interpolate func g field =
  Ok (concat (map (fun z => map (fun p => P (Z.of_nat nx) (Z.of_nat ny) (fst p) (snd p)
                                            (fun i j => at3 data nx ny i j z)) pts) (seq 0 nz))).
Proof.
  intros (C1 & C2 & C3 & C4) nx ny nz pts data field g NE PX PY BX BY LD H EG BOX.
  destruct (create_reduced_spec pts (Z.of_nat nx) (Z.of_nat ny) NE) as (g' & EG' & G1 & G2 & G3 & G4 & G5 & G6 & GP & W); try lia.
  rewrite EG in EG'. injection EG' as <-.
  set (x0 := ci_x0 g) in *. set (y0 := ci_y0 g) in *. set (n := ci_inX g) in *. set (m := ci_inY g) in *.
  unfold cached_interpolate. fold n m.
  destruct (Z.eqb_spec (n * m) 0) as [E0|_]; [nia|].
  assert (length field = (Z.to_nat n * (Z.to_nat m * nz))%nat) as LF.
  { destruct BOX as [L _]. cbn [cells] in L. lia. }
  assert (Z.to_nat (Z.of_nat (length field) / (n * m)) = nz) as ->.
  { rewrite LF. replace (Z.of_nat _) with (Z.of_nat nz * (n * m)) by lia. rewrite Z.div_mul by nia. lia. }
  assert (forall p, In p pts -> func field (fst p - inject_Z x0)%Q (snd p - inject_Z y0)%Q n m nz =
     Ok (map (fun z => P (Z.of_nat nx) (Z.of_nat ny) (fst p) (snd p) (fun i j => at3 data nx ny i j z)) (seq 0 nz))) as PT.
  { intros p I. destruct (W p I) as [WX WY]. destruct (H p I) as (F1 & F2 & GD).
    replace n with (Z.of_nat (Z.to_nat n)) by lia. replace m with (Z.of_nat (Z.to_nat m)) by lia.
    rewrite C1; auto.
    - f_equal. apply map_ext_in. intros z IZ. apply in_seq in IZ. rewrite !Z2Nat.id by lia.
      rewrite <- (C2 (Z.of_nat nx) (Z.of_nat ny) x0 y0 n m) by (auto; lia).
      apply C3. intros i j HI HJ.
      rewrite (box_at3 data field nx ny nz (Z.to_nat x0) (Z.to_nat y0)) by (auto; lia).
      rewrite !Z2Nat.id by lia. reflexivity.
    - apply (fits_shift (Z.of_nat nx) x0 n); auto.
    - apply (fits_shift (Z.of_nat ny) y0 m); auto.
    - rewrite !Z2Nat.id by lia. apply (C4 (Z.of_nat nx) (Z.of_nat ny)); auto. }
  assert (omapM (fun p => func field (fst p) (snd p) n m nz) (ci_pts g) =
    Ok (map (fun p => map (fun z => P (Z.of_nat nx) (Z.of_nat ny) (fst p) (snd p) (fun i j => at3 data nx ny i j z))
                          (seq 0 nz)) pts)) as ->.
  { destruct GP as [->|GP].
    - cbn [ci_pts]. apply omapM_ok. intros p I. cbn in x0, y0, n, m. specialize (PT p I).
      destruct (H p I) as (F1 & F2 & GD). unfold n, m. rewrite C1; auto.
      + f_equal. apply map_ext_in. intros z IZ. apply in_seq in IZ. apply C3. intros i j HI HJ.
        rewrite (box_at3 data field nx ny nz 0 0 nx ny); auto.
        * f_equal; lia.
        * unfold n, m in BOX. rewrite !Nat2Z.id in BOX. exact BOX.
        * lia.
      + rewrite LF. unfold n, m. rewrite !Nat2Z.id. reflexivity.
    - rewrite GP. clear GP W H EG. induction pts as [|p pts IH]; [congruence|].
      cbn [map omapM fst snd]. rewrite PT by (left; auto). cbn [obind].
      destruct pts as [|p' pts]; [reflexivity|]. rewrite IH; [reflexivity|congruence|].
      intros q I. apply PT. right. exact I. }
  cbn [obind]. do 2 f_equal. apply map_ext_in. intros z IZ. apply in_seq in IZ.
  rewrite map_map. apply map_ext. intro p.
  apply (nth_map_seq (fun z => P (Z.of_nat nx) (Z.of_nat ny) (fst p) (snd p) (fun i j => at3 data nx ny i j z))). lia.
Qed.

Lemma bilinear_computes : computes bilinear bil_point (fun nx ny x y => ~ corner nx ny x y).
Proof.
  split; [|split; [|split]].
  - intros. apply bilinear_spec; auto.
  - intros. apply bil_shift; auto.
  - intros. apply bil_point_ext; auto.
  - intros nx ny mx my nx' ny' x y (A1 & A2 & A3 & A4) (B1 & B2 & B3 & B4) PX PY NC (C1 & C2 & C3).
    apply NC. unfold corner in *. rewrite Qfloor_add_Z in C1. rewrite lround_shift in C2, C3 by (auto; lia).
    pose proof (lround_bounds x) as LX. pose proof (lround_bounds y) as LY.
    pose proof (lround_le_ceil x). pose proof (lround_le_ceil y). pose proof (floor_le_ceil x).
    destruct A3 as [->|A3], A4 as [A4|A4], B3 as [->|B3], B4 as [B4|B4]; lia.
Qed.

Lemma bicubic_computes : computes bicubic cub_point (fun _ _ _ _ => True).
Proof.
  split; [|split; [|split]]; auto.
  - intros. apply bicubic_spec; auto.
  - intros. apply cub_shift; auto.
  - intros. apply cub_point_ext; auto.
Qed.
