(** C33: overlay of fields.  C34: border smoothing. *)
From Coq Require Import String List Arith ZArith Bool Reals Lra Lia.
From Coq Require Import ZifyBool ZifyNat.
From Verif Require Import Base IndexSpec BlendModel.
Import ListNotations.
Local Open Scope nat_scope.

(** ** C33 *)
Section Overlay.
  Context {A : Type} (isnan : A -> bool) (eqb : A -> A -> bool).
  Local Notation defined fill v := (isnan v = false /\ eqb v fill = false).
  Local Notation missing fill v := (isnan v = true \/ eqb v fill = true).

  Lemma overlay_slices_nth fillT fillB : forall base top, length base <= length top ->
    exists r, overlay_slices isnan eqb fillT fillB top base = Ok r /\ length r = length base /\
      forall i t b, nth_error top i = Some t -> nth_error base i = Some b -> nth_error r i = Some (overlay_cell isnan eqb fillT fillB t b).
  Proof.
    induction base as [ | b base IH ]; intros [ | t top ] L; cbn in L; try lia.
    - exists []. cbn. repeat split. intros [ | ] ? ? ? ?; discriminate.
    - exists []. cbn. repeat split. intros [ | ] ? ? ? ?; discriminate.
    - destruct (IH top ltac:(lia)) as (r & E & Lr & N). cbn. rewrite E. cbn. exists (overlay_cell isnan eqb fillT fillB t b :: r).
      split; [ reflexivity | ]. split; [ cbn; lia | ]. intros [ | i ] t' b' Ht Hb; cbn in *; [ congruence | auto ].
  Qed.

  (** each cell shows the top value if it is defined, else the base value; missing in both is missing.
      The second hypothesis leaves out top values that equal the fill value of the base. *)
  Theorem C33_overlay fillT fillB top base : length base <= length top ->
    (forall t, In t top -> missing fillT t \/ defined fillB t) ->
    exists r, overlay_slices isnan eqb fillT fillB top base = Ok r /\ length r = length base /\
      forall i t b, nth_error top i = Some t -> nth_error base i = Some b ->
        (defined fillT t -> nth_error r i = Some t) /\
        (missing fillT t -> defined fillB b -> nth_error r i = Some b) /\
        (missing fillT t -> missing fillB b -> nth_error r i = Some fillT).
  Proof.
    intros L H. destruct (overlay_slices_nth fillT fillB base top L) as (r & E & Lr & N). exists r. split; [ exact E | ]. split; [ exact Lr | ].
    intros i t b Ht Hb. rewrite (N i t b Ht Hb). assert (Ct := H t (nth_error_In _ _ Ht)). unfold overlay_cell. split; [ | split ].
    - intros (H1 & H2). destruct Ct as [ [ C | C ] | (C1 & C2) ]; [ congruence | congruence | ]. rewrite H1, H2. cbn. now rewrite C1, C2.
    - intros Hm (B1 & B2). assert (M : isnan t || eqb t fillT = true) by (destruct Hm as [ -> | -> ]; [ reflexivity | apply orb_true_r ]).
      rewrite M. cbn. now rewrite B1, B2.
    - intros Hm Hb'. assert (M : isnan t || eqb t fillT = true) by (destruct Hm as [ -> | -> ]; [ reflexivity | apply orb_true_r ]).
      rewrite M. cbn. assert (M' : isnan b || eqb b fillB = true) by (destruct Hb' as [ -> | -> ]; [ reflexivity | apply orb_true_r ]). now rewrite M'.
  Qed.
  (** a top value that equals the fill value of the base is shown as missing *)
  Theorem C33_fill_of_base fillT fillB top base r i t b : overlay_slices isnan eqb fillT fillB top base = Ok r -> length base <= length top ->
    nth_error top i = Some t -> nth_error base i = Some b -> defined fillT t -> eqb t fillB = true -> nth_error r i = Some fillT.
  Proof.
    intros E L Ht Hb (H1 & H2) H3. destruct (overlay_slices_nth fillT fillB base top L) as (r' & E' & _ & N).
    rewrite E in E'. injection E' as <-. rewrite (N i t b Ht Hb). unfold overlay_cell. rewrite H1, H2. cbn. now rewrite H3, orb_true_r.
  Qed.
  (** a top slice that is smaller than the base slice is read past its end *)
  Theorem C33_short_top fillT fillB : forall base top, length top < length base -> overlay_slices isnan eqb fillT fillB top base = UB.
  Proof.
    induction base as [ | b base IH ]; intros [ | t top ] L; cbn in L; try lia; [ reflexivity | ]. cbn. rewrite IH by lia. reflexivity.
  Qed.
  (** with scaled values (nan is the only missing value) *)
  Theorem C33_scaled : forall base top, length base <= length top ->
    exists r, overlay_scaled isnan top base = Ok r /\ length r = length base /\
      forall i t b, nth_error top i = Some t -> nth_error base i = Some b -> nth_error r i = Some (if isnan t then b else t).
  Proof.
    induction base as [ | b base IH ]; intros [ | t top ] L; cbn in L; try lia.
    - exists []. cbn. repeat split. intros [ | ] ? ? ? ?; discriminate.
    - exists []. cbn. repeat split. intros [ | ] ? ? ? ?; discriminate.
    - destruct (IH top ltac:(lia)) as (r & E & Lr & N). cbn. rewrite E. cbn. eexists. split; [ reflexivity | ]. split; [ cbn; lia | ].
      intros [ | i ] t' b' Ht Hb; cbn in *; [ | auto ]. injection Ht as ->. injection Hb as ->. now destruct (isnan t').
  Qed.
End Overlay.

(** the finding: top 7 is defined (fill value -1), the base has fill value 7 *)
Theorem C33_fill_of_base_refuted : exists (fillT fillB : Z) top base r,
  overlay_slices (fun _ => false) Z.eqb fillT fillB top base = Ok r /\ nth_error top 0 = Some 7%Z /\ fillT <> 7%Z /\ nth_error r 0 = Some fillT.
Proof. exists (-1)%Z, 7%Z, [7%Z], [3%Z]. eexists. split; [ reflexivity | ]. split; [ reflexivity | ]. split; [ discriminate | reflexivity ]. Qed.

Example C33_nonvacuous :
  (forall t, In t [5; -1; -1]%Z -> (false = true \/ Z.eqb t (-1) = true) \/ (false = false /\ Z.eqb t 9 = false)) /\
  overlay_slices (fun _ => false) Z.eqb (-1)%Z 9%Z [5; -1; -1]%Z [1; 2; 9]%Z = Ok [5; 2; -1]%Z.
Proof. split; [ cbn; intuition (subst; auto) | reflexivity ]. Qed.

(** ** C34 *)
(** how far the position is inside the transition zone: 0 at its inner end, measured from the inner
    end of the left (lower) or right (upper) zone *)
Definition depth (size tw b x : Z) : Z := if (x <? b + tw)%Z then (b + tw - x)%Z else Z.max 0 (x - (size - b - tw)).
Definition on_border (size b x : Z) : Prop := (x < b \/ size - b <= x)%Z.
Definition weight (sx sy tw b x y : Z) : R := Rmin 1 (dist (depth sx tw b x) (depth sy tw b y) / IZR tw).

Lemma u64_small z : (0 <= z < 2 ^ 64)%Z -> u64 z = z.
Proof. apply Z.mod_small. Qed.
Lemma u64_neg z : (- 2 ^ 64 <= z < 0)%Z -> u64 z = (z + 2 ^ 64)%Z.
Proof. intro H. unfold u64. symmetry. apply Z.mod_unique with (-1)%Z; lia. Qed.

Lemma dist_0_r a : (0 <= a)%Z -> dist a 0 = IZR a.
Proof. intro H. unfold dist. rewrite Rmult_0_l, Rplus_0_r. apply sqrt_square. now apply IZR_le. Qed.
Lemma dist_0_l a : (0 <= a)%Z -> dist 0 a = IZR a.
Proof. intro H. unfold dist. rewrite Rmult_0_l, Rplus_0_l. apply sqrt_square. now apply IZR_le. Qed.
Lemma dist_nonneg a b : (0 <= dist a b)%R.
Proof. apply sqrt_pos. Qed.

Lemma clamp_min (a tw : R) : (0 <= a)%R -> (0 < tw)%R -> (if Rlt_dec 1 (a / tw) then 1 else if Rlt_dec (a / tw) 0 then 0 else a / tw)%R = Rmin 1 (a / tw).
Proof.
  intros Ha Ht. assert (0 <= a / tw)%R by (apply Rmult_le_pos; [ exact Ha | left; now apply Rinv_0_lt_compat ]).
  unfold Rmin. destruct (Rlt_dec 1 (a / tw)), (Rle_dec 1 (a / tw)), (Rlt_dec (a / tw) 0); lra.
Qed.

Section Smooth.
  Variables sx sy tw b x y : Z.
  Hypothesis Htw : (0 < tw)%Z.
  Hypothesis Hb : (0 <= b)%Z.
  Hypothesis Hbt : (b + tw < 2 ^ 64)%Z.
  Hypothesis Hx : (0 <= x < sx)%Z.
  Hypothesis Hy : (0 <= y < sy)%Z.
  Hypothesis Hsx : (sx < 2 ^ 64)%Z.
  Hypothesis Hsy : (sy < 2 ^ 64)%Z.

  (** the limits of one axis, with and without the wrap of size_t *)
  Lemma axis size z : (0 <= z < size)%Z -> (size < 2 ^ 64)%Z ->
    (on_border size b z <-> ((z <? b) || (z >=? u64 (size - b)))%Z = true) /\
    (~ on_border size b z -> u64 (b + tw) = (b + tw)%Z /\
       ((z < b + tw)%Z \/ (b + tw <= z /\ u64 (u64 (size - b) - tw) = size - b - tw)%Z)).
  Proof.
    intros Hz Hs. unfold on_border. destruct (Z.lt_ge_cases size b) as [ L | L ].
    - split; [ | intro Q; exfalso; lia ]. split; [ intros _; lia | lia ].
    - rewrite (u64_small (size - b)) by lia. split; [ lia | ]. intro Q. split; [ apply u64_small; lia | ].
      destruct (Z.lt_ge_cases z (b + tw)) as [ | G ]; [ now left | right ]. split; [ exact G | ]. apply u64_small. lia.
  Qed.

  Lemma depth_nonneg size z : (0 <= depth size tw b z)%Z.
  Proof. unfold depth. destruct (Z.ltb_spec z (b + tw)); lia. Qed.

  Theorem C34_weight (inner outer : R) :
    (on_border sx b x \/ on_border sy b y -> smooth sx sy tw b x y inner outer = outer) /\
    (~ on_border sx b x -> ~ on_border sy b y ->
       smooth sx sy tw b x y inner outer = (inner + weight sx sy tw b x y * (outer - inner))%R).
  Proof.
    assert (P : (0 < IZR tw)%R) by now apply IZR_lt.
    destruct (axis sx x Hx Hsx) as (Bx & Lx). destruct (axis sy y Hy Hsy) as (By & Ly).
    unfold smooth, alpha.
    assert (Z0 : ((sx =? 0) || (sy =? 0))%Z = false) by lia. rewrite Z0.
    assert (Bd : forall P Q : bool, (P || Q)%bool = true -> forall R S : bool, ((P || Q) || R || S)%bool = true) by (intros [ ] [ ] H [ ] [ ]; auto).
    split.
    - intro B.
      assert (T : ((x <? b) || (x >=? u64 (sx - b)) || (y <? b) || (y >=? u64 (sy - b)))%Z = true).
      { destruct B as [ B | B ]; [ apply Bx in B | apply By in B ]; destruct (x <? b)%Z, (x >=? u64 (sx - b))%Z, (y <? b)%Z, (y >=? u64 (sy - b))%Z; cbn in *; congruence. }
      rewrite T. reflexivity.
    - intros Nx Ny.
      assert (T : ((x <? b) || (x >=? u64 (sx - b)) || (y <? b) || (y >=? u64 (sy - b)))%Z = false).
      { destruct ((x <? b) || (x >=? u64 (sx - b)))%Z eqn:E1; [ exfalso; apply Nx; now apply Bx | ].
        destruct ((y <? b) || (y >=? u64 (sy - b)))%Z eqn:E2; [ exfalso; apply Ny; now apply By | ].
        destruct (x <? b)%Z, (x >=? u64 (sx - b))%Z, (y <? b)%Z, (y >=? u64 (sy - b))%Z; cbn in *; congruence. }
      rewrite T. specialize (Lx Nx). specialize (Ly Ny). destruct Lx as (U & Lx). destruct Ly as (_ & Ly). rewrite U.
      assert (Fin : forall (a : R), a = dist (depth sx tw b x) (depth sy tw b y) ->
        (inner + (if Rlt_dec 1 (a / IZR tw) then 1 else if Rlt_dec (a / IZR tw) 0 then 0 else a / IZR tw) * (outer - inner))%R =
        (inner + weight sx sy tw b x y * (outer - inner))%R).
      { intros a ->. rewrite clamp_min by (auto using dist_nonneg). reflexivity. }
      assert (Rx : u64 (u64 (sx - b) - tw) = (sx - b - tw)%Z \/ (x < b + tw)%Z) by lia.
      set (X2 := u64 (u64 (sx - b) - tw)) in *. set (Y2 := u64 (u64 (sy - b) - tw)) in *.
      unfold on_border in Nx, Ny.
      destruct ((x >=? b + tw) && (x <? X2) && (y >=? b + tw) && (y <? Y2))%Z eqn:In.
      + (* inner *)
        assert (depth sx tw b x = 0 /\ depth sy tw b y = 0)%Z as (D1 & D2) by (unfold depth; destruct (Z.ltb_spec x (b + tw)), (Z.ltb_spec y (b + tw)); lia).
        rewrite Rmult_0_l. unfold weight. rewrite D1, D2, dist_0_r by lia. unfold Rdiv. rewrite Rmult_0_l.
        rewrite Rmin_right by lra. lra.
      + cbv zeta. apply Fin. unfold depth.
        destruct (Z.ltb_spec x (b + tw)) as [ X | X ].
        * rewrite (u64_small (b + tw - x)) by lia. destruct (Z.ltb_spec y (b + tw)) as [ Y | Y ].
          { now rewrite u64_small by lia. }
          { destruct Ly as [ Ly | (_ & Ly) ]; [ lia | ]. destruct (Z.geb_spec y Y2) as [ Y' | Y' ].
            - rewrite Ly. rewrite u64_small by lia. f_equal. lia.
            - replace (Z.max 0 (y - (sy - b - tw)))%Z with 0%Z by lia. now rewrite dist_0_r by lia. }
        * destruct Lx as [ Lx | (_ & Lx) ]; [ lia | ]. destruct (Z.geb_spec x X2) as [ X' | X' ].
          { rewrite Lx. rewrite (u64_small (x - _)) by lia. replace (Z.max 0 (x - (sx - b - tw)))%Z with (x - (sx - b - tw))%Z by lia.
            destruct (Z.ltb_spec y (b + tw)) as [ Y | Y ].
            - now rewrite u64_small by lia.
            - destruct Ly as [ Ly | (_ & Ly) ]; [ lia | ]. destruct (Z.geb_spec y Y2) as [ Y' | Y' ].
              + rewrite Ly. rewrite u64_small by lia. f_equal. lia.
              + replace (Z.max 0 (y - (sy - b - tw)))%Z with 0%Z by lia. now rewrite dist_0_r by lia. }
          { replace (Z.max 0 (x - (sx - b - tw)))%Z with 0%Z by lia. destruct (Z.ltb_spec y (b + tw)) as [ Y | Y ].
            - rewrite u64_small by lia. now rewrite dist_0_l by lia.
            - destruct Ly as [ Ly | (_ & Ly) ]; [ lia | ]. destruct (Z.geb_spec y Y2) as [ Y' | Y' ].
              + rewrite Ly. rewrite u64_small by lia. replace (Z.max 0 (y - (sy - b - tw)))%Z with (y - (sy - b - tw))%Z by lia. now rewrite dist_0_l by lia.
              + exfalso. lia. }
  Qed.

  Lemma weight_range : (0 <= weight sx sy tw b x y <= 1)%R.
  Proof.
    unfold weight. split; [ | apply Rmin_l ]. apply Rmin_glb; [ lra | ]. apply Rmult_le_pos; [ apply dist_nonneg | ]. left. apply Rinv_0_lt_compat. now apply IZR_lt.
  Qed.
  (** inside the transition zones the value is the inner one; everywhere it is between both *)
  Theorem C34_inner (inner outer : R) : (b + tw <= x < sx - b - tw)%Z -> (b + tw <= y < sy - b - tw)%Z ->
    smooth sx sy tw b x y inner outer = inner.
  Proof.
    intros Ix Iy. rewrite (proj2 (C34_weight inner outer)) by (unfold on_border; lia). unfold weight.
    assert (depth sx tw b x = 0 /\ depth sy tw b y = 0)%Z as (-> & ->) by (unfold depth; destruct (Z.ltb_spec x (b + tw)), (Z.ltb_spec y (b + tw)); lia).
    rewrite dist_0_r by lia. unfold Rdiv. rewrite Rmult_0_l, Rmin_right by lra. lra.
  Qed.
  Theorem C34_between (inner outer : R) : (Rmin inner outer <= smooth sx sy tw b x y inner outer <= Rmax inner outer)%R.
  Proof.
    destruct (C34_weight inner outer) as (H1 & H2).
    assert (Dec : forall size z, on_border size b z \/ ~ on_border size b z) by (intros; unfold on_border; lia).
    destruct (Dec sx x) as [ B | B ]; [ rewrite H1 by auto; split; [ apply Rmin_r | apply Rmax_r ] | ].
    destruct (Dec sy y) as [ B' | B' ]; [ rewrite H1 by auto; split; [ apply Rmin_r | apply Rmax_r ] | ].
    rewrite H2 by auto. destruct weight_range as (W1 & W2). set (w := weight sx sy tw b x y) in *.
    unfold Rmin, Rmax. destruct (Rle_dec inner outer) as [ L | L ]; split; nra.
  Qed.
End Smooth.

(** outside of the corners the weight is linear in the distance; the zones differ: tw/tw .. 1/tw from the
    left, 0 .. (tw-1)/tw to the right *)
Theorem C34_left sx sy tw b x y inner outer : (0 < tw)%Z -> (0 <= b)%Z -> (b + tw < 2 ^ 64)%Z -> (sx < 2 ^ 64)%Z -> (sy < 2 ^ 64)%Z ->
  (b <= x < b + tw)%Z -> (x < sx - b)%Z -> (b + tw <= y < sy - b - tw)%Z ->
  smooth sx sy tw b x y inner outer = (inner + IZR (b + tw - x) / IZR tw * (outer - inner))%R.
Proof.
  intros Ht Hb Hbt Hsx Hsy Hx Hx2 Hy. rewrite (proj2 (C34_weight sx sy tw b x y Ht Hb Hbt ltac:(lia) ltac:(lia) Hsx Hsy inner outer)) by (unfold on_border; lia).
  unfold weight. assert (depth sx tw b x = b + tw - x /\ depth sy tw b y = 0)%Z as (-> & ->) by (unfold depth; destruct (Z.ltb_spec x (b + tw)), (Z.ltb_spec y (b + tw)); lia).
  rewrite dist_0_r by lia. assert (P : (0 < IZR tw)%R) by now apply IZR_lt. rewrite Rmin_right; [ reflexivity | ].
  assert (IZR (b + tw - x) <= IZR tw)%R by (apply IZR_le; lia).
  apply Rmult_le_reg_r with (IZR tw); [ exact P | ]. unfold Rdiv. rewrite Rmult_assoc, Rinv_l by lra. lra.
Qed.
Theorem C34_right sx sy tw b x y inner outer : (0 < tw)%Z -> (0 <= b)%Z -> (b + tw < 2 ^ 64)%Z -> (sx < 2 ^ 64)%Z -> (sy < 2 ^ 64)%Z ->
  (sx - b - tw <= x < sx - b)%Z -> (b + tw <= x)%Z -> (b + tw <= y < sy - b - tw)%Z ->
  smooth sx sy tw b x y inner outer = (inner + IZR (x - (sx - b - tw)) / IZR tw * (outer - inner))%R.
Proof.
  intros Ht Hb Hbt Hsx Hsy Hx Hx2 Hy. rewrite (proj2 (C34_weight sx sy tw b x y Ht Hb Hbt ltac:(lia) ltac:(lia) Hsx Hsy inner outer)) by (unfold on_border; lia).
  unfold weight. assert (depth sx tw b x = x - (sx - b - tw) /\ depth sy tw b y = 0)%Z as (-> & ->) by (unfold depth; destruct (Z.ltb_spec x (b + tw)), (Z.ltb_spec y (b + tw)); lia).
  rewrite dist_0_r by lia. assert (P : (0 < IZR tw)%R) by now apply IZR_lt. rewrite Rmin_right; [ reflexivity | ].
  assert (IZR (x - (sx - b - tw)) <= IZR tw)%R by (apply IZR_le; lia).
  apply Rmult_le_reg_r with (IZR tw); [ exact P | ]. unfold Rdiv. rewrite Rmult_assoc, Rinv_l by lra. lra.
Qed.
(** finding: mirrored positions get different values *)
Theorem C34_symmetry_refuted : exists sx sy tw b x y, (0 < tw)%Z /\ (b <= x)%Z /\
  smooth sx sy tw b x y 0 1 <> smooth sx sy tw b (sx - 1 - x) y 0 1.
Proof.
  exists 20%Z, 20%Z, 2%Z, 1%Z, 1%Z, 10%Z. split; [ lia | ]. split; [ lia | ].
  rewrite C34_left by lia. rewrite C34_right by lia. cbn. lra.
Qed.
(** finding: in the corner the weight is larger than at the same distance from the nearest edge *)
Theorem C34_corner_refuted : exists sx sy tw b x y y', (0 < tw)%Z /\ (x <= y < sx - 1 - x /\ x <= y' /\ y < sy - 1 - y /\ y' < sy - 1 - y')%Z /\
  smooth sx sy tw b x y 0 1 <> smooth sx sy tw b x y' 0 1.
Proof.
  exists 20%Z, 20%Z, 2%Z, 0%Z, 1%Z, 1%Z, 5%Z. split; [ lia | ]. split; [ lia | ].
  rewrite (C34_left 20 20 2 0 1 5) by lia.
  rewrite (proj2 (C34_weight 20 20 2 0 1 1 ltac:(lia) ltac:(lia) ltac:(lia) ltac:(lia) ltac:(lia) ltac:(lia) ltac:(lia) 0 1)) by (unfold on_border; lia).
  unfold weight. cbn [depth Z.ltb Z.add Z.compare Pos.compare Pos.compare_cont Z.sub Z.opp Z.pos_sub Pos.pred_double].
  replace (depth 20 2 0 1) with 1%Z by reflexivity. unfold dist. rewrite !Rmult_1_l. replace (IZR (0 + 2 - 1)) with 1%R by reflexivity.
  assert (S : (1 < sqrt (1 + 1))%R). { rewrite <- sqrt_1 at 1. apply sqrt_lt_1; lra. }
  unfold Rmin. destruct (Rle_dec 1 (sqrt (1 + 1) / 2)); lra.
Qed.
(** finding: negative parameters pass the check (they are converted to unsigned first); with a transition
    width of -5 every cell is the outer one *)
Theorem C34_negative_refuted : exists t b, (t < 0)%Z /\ exists tw bw, factory t b = Ok (tw, bw) /\
  forall x y, (0 <= x < 100)%Z -> (0 <= y < 100)%Z -> forall vi vo, smooth 100 100 tw bw x y vi vo = vo.
Proof.
  exists (-5)%Z, 2%Z. split; [ lia | ]. do 2 eexists. split; [ reflexivity | ]. change (u64 (-5)) with (2 ^ 64 - 5)%Z. change (u64 2) with 2%Z.
  intros x y Hx Hy vi vo.
  destruct (C34_weight 100 100 (2 ^ 64 - 5) 2 x y ltac:(lia) ltac:(lia) ltac:(lia) ltac:(lia) ltac:(lia) ltac:(lia) ltac:(lia) vi vo) as (H1 & H2).
  assert (Dec : forall size z, on_border size 2 z \/ ~ on_border size 2 z) by (intros; unfold on_border; lia).
  destruct (Dec 100%Z x) as [ B | B ]; [ apply H1; auto | ]. destruct (Dec 100%Z y) as [ B' | B' ]; [ apply H1; auto | ].
  rewrite H2 by auto. unfold weight. assert (forall z, (0 <= z < 100)%Z -> depth 100 (2 ^ 64 - 5) 2 z = 2 ^ 64 - 3 - z)%Z as D by (intros z Hz; unfold depth; destruct (Z.ltb_spec z (2 + (2 ^ 64 - 5))); lia).
  rewrite !D by auto. unfold dist. rewrite Rmin_left; [ lra | ].
  assert (Big : forall z, (0 <= z < 100)%Z -> (IZR (2 ^ 64 - 103) <= IZR (2 ^ 64 - 3 - z))%R) by (intros; apply IZR_le; lia).
  assert (Bx := Big x Hx). assert (By := Big y Hy).
  assert (P : (IZR (2 ^ 64 - 5) = IZR (2 ^ 64 - 103) + 98)%R) by (rewrite <- plus_IZR; f_equal; lia).
  assert (M : (1000 <= IZR (2 ^ 64 - 103))%R) by (apply IZR_le; lia). set (m := IZR (2 ^ 64 - 103)) in *.
  rewrite P. apply Rmult_le_reg_r with (m + 98)%R; [ lra | ]. unfold Rdiv. rewrite Rmult_assoc, Rinv_l, Rmult_1_r, Rmult_1_l by lra.
  rewrite <- (sqrt_square (m + 98)) by lra. apply sqrt_le_1_alt. nra.
Qed.

(** ** the slice *)
Lemma incr_spec dims : forall cur, inside dims cur ->
  match incr dims cur with
  | Some cur' => inside dims cur' /\ lin dims cur' = lin dims cur + 1
  | None => lin dims cur + 1 = cells dims
  end.
Proof.
  induction dims as [ | d dims IH ]; intros cur H; inversion H as [ | ? c ? cs Hc Hcs ]; subst; [ reflexivity | ].
  cbn [incr]. destruct (Nat.leb_spec d (c + 1)) as [ L | L ].
  - specialize (IH cs Hcs). destruct (incr dims cs) as [ cs' | ]; cbn [option_map].
    + destruct IH as (I & E). split; [ constructor; [ lia | exact I ] | ]. cbn. rewrite E. nia.
    + cbn [lin cells]. assert (d = c + 1) by lia. subst d. nia.
  - split; [ constructor; [ lia | exact Hcs ] | ]. cbn. lia.
Qed.

Lemma merge_loop_spec uo sm dims ix iy inner : length inner = cells dims -> ix < length dims -> iy < length dims ->
  forall m cur outer fuel, inside dims cur -> lin dims cur + m = cells dims -> m < fuel -> length outer = cells dims ->
  exists r, merge_loop fuel uo sm dims ix iy inner cur outer = Ok r /\ length r = cells dims /\
    forall k vi vo, nth_error inner k = Some vi -> nth_error outer k = Some vo ->
      nth_error r k = Some (if k <? lin dims cur then vo else merge_cell uo sm (nth ix (unlin dims k) 0) (nth iy (unlin dims k) 0) vi vo).
Proof.
  intros Li Hix Hiy. induction m as [ | m IH ]; intros cur outer fuel Hc Hm Hf Lo.
  { assert (lin dims cur < cells dims) by now apply lin_lt. lia. }
  destruct fuel as [ | fuel ]; [ lia | ]. cbn [merge_loop]. assert (Lc : lin dims cur < cells dims) by lia.
  destruct (nth_error inner (lin dims cur)) as [ vi | ] eqn:Ei; [ | apply nth_error_None in Ei; lia ]. cbn [rd obind].
  destruct (nth_error outer (lin dims cur)) as [ vo | ] eqn:Eo; [ | apply nth_error_None in Eo; lia ]. cbn [rd obind].
  assert (Lcur : length cur = length dims) by (unfold inside in Hc; apply Forall2_length in Hc; now symmetry).
  rewrite (nth_error_nth' cur 0 (n := ix)) by lia. cbn [rd obind]. rewrite (nth_error_nth' cur 0 (n := iy)) by lia. cbn [rd obind].
  set (new := merge_cell uo sm (nth ix cur 0) (nth iy cur 0) vi vo).
  assert (Nk : forall k vi' vo', nth_error inner k = Some vi' -> nth_error outer k = Some vo' -> k = lin dims cur ->
    new = merge_cell uo sm (nth ix (unlin dims k) 0) (nth iy (unlin dims k) 0) vi' vo').
  { intros k vi' vo' E1 E2 ->. rewrite Ei in E1. rewrite Eo in E2. injection E1 as <-. injection E2 as <-. now rewrite unlin_lin by exact Hc. }
  assert (S := incr_spec dims cur Hc). destruct (incr dims cur) as [ cur' | ].
  - destruct S as (I' & E'). destruct (IH cur' (upd outer (lin dims cur) new) fuel) as (r & Er & Lr & Vr); [ exact I' | lia | lia | now rewrite length_upd | ].
    exists r. split; [ exact Er | ]. split; [ exact Lr | ]. intros k vi' vo' E1 E2.
    destruct (Nat.eq_dec k (lin dims cur)) as [ -> | N ].
    + rewrite (Vr _ vi' new) by (auto; apply nth_error_upd_same; lia). rewrite E'.
      destruct (Nat.ltb_spec (lin dims cur) (lin dims cur + 1)); [ | lia ]. destruct (Nat.ltb_spec (lin dims cur) (lin dims cur)); [ lia | ]. f_equal. now apply Nk.
    + rewrite (Vr k vi' vo') by (auto; rewrite nth_error_upd_other by auto; exact E2). rewrite E'.
      destruct (Nat.ltb_spec k (lin dims cur + 1)), (Nat.ltb_spec k (lin dims cur)); auto; lia.
  - exists (upd outer (lin dims cur) new). split; [ reflexivity | ]. split; [ now rewrite length_upd | ]. intros k vi' vo' E1 E2.
    destruct (Nat.eq_dec k (lin dims cur)) as [ -> | N ].
    + rewrite nth_error_upd_same by lia. destruct (Nat.ltb_spec (lin dims cur) (lin dims cur)); [ lia | ]. f_equal. now apply Nk.
    + rewrite nth_error_upd_other by auto. assert (k < length outer) by (apply nth_error_Some; rewrite E2; discriminate).
      destruct (Nat.ltb_spec k (lin dims cur)); [ exact E2 | lia ].
Qed.

(** every cell of the slice is the merged value of the two fields at its position *)
Theorem C34_slice uo tw b dims jx jy sx sy inner outer : (forall d, In d dims -> d > 0) -> dims <> [] ->
  nth_error dims jx = Some sx -> nth_error dims jy = Some sy -> length inner = cells dims -> length outer = cells dims ->
  exists r, merge_slice uo tw b dims (Some jx) (Some jy) inner outer = Ok r /\ length r = cells dims /\
    forall p vi vo, inside dims p -> nth_error inner (lin dims p) = Some vi -> nth_error outer (lin dims p) = Some vo ->
      nth_error r (lin dims p) = Some
        match vi, vo with
        | None, _ => if uo then vo else None
        | Some i, None => Some i
        | Some i, Some o => Some (smooth (Z.of_nat sx) (Z.of_nat sy) tw b (Z.of_nat (nth jx p 0)) (Z.of_nat (nth jy p 0)) i o)
        end.
Proof.
  intros Hd Hn Ex Ey Li Lo. unfold merge_slice. destruct dims as [ | d ds ] eqn:Ed; [ congruence | ]. rewrite <- Ed in *. clear Hn.
  cbn [rd obind]. rewrite Ex, Ey. cbn [rd obind]. destruct (Nat.eqb_spec d 0) as [ Z | _ ].
  { exfalso. assert (d > 0) by (apply Hd; rewrite Ed; now left). lia. }
  assert (I0 : inside dims (map (fun _ => 0) dims)).
  { clear - Hd. induction dims as [ | x l IH ]; cbn; constructor; [ assert (x > 0) by (apply Hd; now left); lia | apply IH; intros; apply Hd; now right ]. }
  assert (L0 : lin dims (map (fun _ => 0) dims) = 0).
  { clear. induction dims as [ | x l IH ]; cbn; [ reflexivity | ]. rewrite IH. lia. }
  destruct (merge_loop_spec uo (fun x y vi vo => smooth (Z.of_nat sx) (Z.of_nat sy) tw b (Z.of_nat x) (Z.of_nat y) vi vo) dims jx jy inner Li
    ltac:(apply nth_error_Some; rewrite Ex; discriminate) ltac:(apply nth_error_Some; rewrite Ey; discriminate) (cells dims) (map (fun _ => 0) dims) outer (S (cells dims)) I0 ltac:(lia) ltac:(lia) Lo) as (r & Er & Lr & Vr).
  exists r. split; [ exact Er | ]. split; [ exact Lr | ]. intros p vi vo Ip E1 E2. rewrite (Vr _ vi vo E1 E2), L0.
  destruct (Nat.ltb_spec (lin dims p) 0); [ lia | ]. rewrite unlin_lin by exact Ip. unfold merge_cell. destruct vi, vo, uo; reflexivity.
Qed.
(** finding: a variable with dimensions but without x or y reads dimSizes[-1] *)
Theorem C34_no_horizontal_refuted : exists dims inner outer, dims <> [] /\ (forall d, In d dims -> d > 0) /\ length inner = cells dims /\ length outer = cells dims /\
  forall uo tw b, merge_slice uo tw b dims None None inner outer = UB.
Proof.
  exists [2], [Some 1%R; None], [Some 2%R; Some 3%R]. split; [ discriminate | ]. split; [ cbn; intuition lia | ]. repeat split.
Qed.

(** finding: only the first dimension is checked to be not empty *)
Theorem C34_empty_refuted : forall uo tw b, merge_slice uo tw b [2; 0] (Some 0) (Some 1) [] [] = UB.
Proof. reflexivity. Qed.
(** a scalar is the inner value *)
Theorem C34_scalar uo tw b ix iy inner outer : merge_slice uo tw b [] ix iy inner outer = Ok inner.
Proof. reflexivity. Qed.
(** the creation accepts every width except 0 (modulo the conversion) *)
Theorem C34_factory t b : (factory t b = Throw <-> (t mod 2 ^ 64 = 0)%Z) /\ ((0 < t < 2 ^ 64)%Z -> (0 <= b < 2 ^ 64)%Z -> factory t b = Ok (t, b)).
Proof.
  unfold factory, u64. split.
  - destruct (Z.eqb_spec (t mod 2 ^ 64) 0); split; congruence.
  - intros Ht Hb. rewrite !Z.mod_small by lia. destruct (Z.eqb_spec t 0); [ lia | reflexivity ].
Qed.

Example C34_nonvacuous :
  (0 < 2 /\ 0 <= 1 /\ 1 + 2 < 2 ^ 64)%Z /\ smooth 20 20 2 1 2 10 10 20 = 15%R /\ smooth 20 20 2 1 0 10 10 20 = 20%R /\ smooth 20 20 2 1 5 10 10 20 = 10%R /\
  smooth 2 2 5 3 1 1 10 20 = 20%R.
Proof.
  split; [ lia | ]. split; [ rewrite C34_left by lia; cbn; lra | ]. split.
  - apply (proj1 (C34_weight 20 20 2 1 0 10 ltac:(lia) ltac:(lia) ltac:(lia) ltac:(lia) ltac:(lia) ltac:(lia) ltac:(lia) 10 20)). left. unfold on_border. lia.
  - split; [ apply C34_inner; lia | ].
    apply (proj1 (C34_weight 2 2 5 3 1 1 ltac:(lia) ltac:(lia) ltac:(lia) ltac:(lia) ltac:(lia) ltac:(lia) ltac:(lia) 10 20)). left. unfold on_border. lia.
Qed.

Print Assumptions C33_overlay.
Print Assumptions C33_fill_of_base.
Print Assumptions C33_short_top.
Print Assumptions C33_scaled.
Print Assumptions C33_fill_of_base_refuted.
Print Assumptions C34_weight.
Print Assumptions C34_inner.
Print Assumptions C34_between.
Print Assumptions C34_left.
Print Assumptions C34_right.
Print Assumptions C34_symmetry_refuted.
Print Assumptions C34_corner_refuted.
Print Assumptions C34_negative_refuted.
Print Assumptions C34_slice.
Print Assumptions C34_no_horizontal_refuted.
Print Assumptions C34_empty_refuted.
Print Assumptions C34_scalar.
Print Assumptions C34_factory.
