(** C43: the pruned search finds the closest cell. *)
From Coq Require Import Reals List ZArith Bool Lia Lra Arith Permutation Sorted.
From Verif Require Import Base CloseModel.
Import ListNotations.
Local Open Scope R_scope.

Lemma rltb_spec a b : rltb a b = true <-> a < b.
Proof. unfold rltb. destruct (Rlt_dec a b); split; auto; try discriminate; intro; contradiction. Qed.
Lemma rltb_false a b : rltb a b = false <-> b <= a.
Proof. unfold rltb. destruct (Rlt_dec a b); split; auto; try discriminate; intro; lra. Qed.

(** ** the specification *)

(** great-circle angle of two positions in degrees *)
Definition angle (lat0 lon0 lat1 lon1 : R) : R :=
  acos (sin (rad lat0) * sin (rad lat1) + cos (rad lat0) * cos (rad lat1) * cos (rad (lon1 - lon0))).

(** cell (ix, iy) of the grid has the position (lon, lat) *)
Definition at_cell (lons lats : list fl) (nx ny ix iy : nat) (lon lat : R) : Prop :=
  (ix < nx)%nat /\ (iy < ny)%nat /\
  nth_error lons (ix + iy * nx) = Some (Some lon) /\ nth_error lats (ix + iy * nx) = Some (Some lat).

Definition lat_ok (lat : R) : Prop := -90 <= lat <= 90.

Definition by_lat (a b : cell) : Prop := c_lat a <= c_lat b.

(** ** geometry *)
Lemma rad_range lat : lat_ok lat -> - (PI / 2) <= rad lat <= PI / 2.
Proof. unfold lat_ok, rad. intros H. assert (P := PI_RGT_0). split; nra. Qed.

Lemma cos_dist_bounds a b d : - (PI / 2) <= a <= PI / 2 -> - (PI / 2) <= b <= PI / 2 ->
  cos a * cos b * cos d + sin a * sin b <= cos (a - b) /\
  -1 <= cos a * cos b * cos d + sin a * sin b <= 1.
Proof.
  intros A B. assert (CA : 0 <= cos a) by (apply cos_ge_0; lra). assert (CB : 0 <= cos b) by (apply cos_ge_0; lra).
  assert (D := COS_bound d). assert (P : 0 <= cos a * cos b) by (apply Rmult_le_pos; auto).
  rewrite cos_minus. assert (C1 := COS_bound (a - b)). rewrite cos_minus in C1.
  assert (C2 := COS_bound (a + b)). rewrite cos_plus in C2.
  assert (cos a * cos b * cos d <= cos a * cos b) by nra.
  assert (- (cos a * cos b) <= cos a * cos b * cos d) by nra.
  repeat split; lra.
Qed.

Lemma cos_lt_of_acos x m : -1 <= m <= 1 -> acos m < x -> x <= PI -> cos x < m.
Proof.
  intros M L U. rewrite <- (cos_acos m M). assert (B := acos_bound m). apply cos_decreasing_1; lra.
Qed.

Lemma acos_anti x y : -1 <= x <= 1 -> -1 <= y <= 1 -> x <= y -> acos y <= acos x.
Proof.
  intros X Y L. destruct (Rle_dec (acos y) (acos x)) as [?|N]; auto. exfalso.
  assert (B1 := acos_bound x). assert (B2 := acos_bound y).
  assert (cos (acos y) < cos (acos x)) as C by (apply cos_decreasing_1; lra).
  rewrite !cos_acos in C by auto. lra.
Qed.

Lemma acos_lt_iff x r : -1 <= x <= 1 -> 0 <= r <= PI -> (cos r < x <-> acos x < r).
Proof.
  intros X R. assert (B := acos_bound x). split; intro H.
  - destruct (Rlt_dec (acos x) r) as [?|N]; auto. exfalso.
    assert (r = acos x \/ r < acos x) as [E|L] by lra.
    + rewrite E, cos_acos in H by auto. lra.
    + assert (cos (acos x) < cos r) by (apply cos_decreasing_1; lra). rewrite cos_acos in * by auto. lra.
  - rewrite <- (cos_acos x X). apply cos_decreasing_1; lra.
Qed.

(** ** the scan *)
Section Scan.
  Context (plat plon : R).
  Definition cd (c : cell) : R := cos (c_lat c) * cos plat * cos (c_lon c - plon) + sin (c_lat c) * sin plat.
  Definition dlat (c : cell) : R := Rabs (c_lat c - plat).

  Lemma scan_spec (Hp : - (PI / 2) <= plat <= PI / 2) : forall l mc xy,
    (forall c, In c l -> - (PI / 2) <= c_lat c <= PI / 2) ->
    StronglySorted (fun a b => dlat a <= dlat b) l -> -1 <= mc <= 1 ->
    exists mc' xy', scan plat plon l (mc, acos mc, xy) = (mc', acos mc', xy') /\ mc <= mc' <= 1 /\
      (forall c, In c l -> cd c <= mc') /\
      ((mc' = mc /\ xy' = xy) \/ (mc < mc' /\ exists c, In c l /\ mc' = cd c /\ xy' = (c_x c, c_y c))).
  Proof.
    induction l as [|c l IH]; intros mc xy HL S M.
    - exists mc, xy. repeat split; try lra; auto. intros c [].
    - cbn [scan]. inversion S as [|? ? S1 S2]; subst. destruct (rltb (acos mc) (Rabs (c_lat c - plat))) eqn:E.
      + apply rltb_spec in E. exists mc, xy. repeat split; try lra; auto.
        intros c' Hc'. assert (dlat c <= dlat c') as D.
        { destruct Hc' as [<-|Hc']; [lra|]. rewrite Forall_forall in S2. auto. }
        assert (HC := HL c' Hc'). assert (B := cos_dist_bounds (c_lat c') plat (c_lon c' - plon) HC Hp).
        assert (cos (c_lat c' - plat) = cos (dlat c')) as EC.
        { unfold dlat, Rabs. destruct (Rcase_abs (c_lat c' - plat)); [rewrite cos_neg|]; reflexivity. }
        assert (cos (dlat c') < mc).
        { apply cos_lt_of_acos; auto; [unfold dlat in *; lra|]. unfold dlat. apply Rabs_le. lra. }
        unfold cd. lra.
      + unfold visit. fold (cd c). destruct (rltb mc (cd c)) eqn:V.
        * apply rltb_spec in V. assert (B := cos_dist_bounds (c_lat c) plat (c_lon c - plon) (HL c (or_introl eq_refl)) Hp).
          fold (cd c) in B. destruct (IH (cd c) (c_x c, c_y c)) as (mc' & xy' & -> & Lm & A & W).
          { intros; apply HL; right; auto. } { exact S1. } { lra. }
          exists mc', xy'. repeat split; try lra.
          { intros c' [<-|Hc']; [lra|auto]. }
          right. split; [lra|]. destruct W as [(-> & ->)|(_ & c' & Hc' & ? & ?)]; [exists c|exists c']; cbn; auto.
        * apply rltb_false in V. destruct (IH mc xy) as (mc' & xy' & -> & Lm & A & W).
          { intros; apply HL; right; auto. } { exact S1. } { lra. }
          exists mc', xy'. repeat split; try lra.
          { intros c' [<-|Hc']; [lra|auto]. }
          destruct W as [?|(? & c' & ? & ? & ?)]; [left; auto|right; split; [auto|exists c'; cbn; auto]].
  Qed.

  Lemma split_spec : forall l, StronglySorted by_lat l -> forall a b, split_at_lat l plat = (a, b) ->
    l = a ++ b /\ (forall c, In c a -> c_lat c < plat) /\ (forall c, In c b -> plat <= c_lat c) /\
    StronglySorted by_lat a /\ StronglySorted by_lat b.
  Proof.
    induction l as [|c l IH]; intros S a b H; cbn in H.
    - injection H as <- <-. split; [reflexivity|]. split; [intros c []|]. split; [intros c []|]. split; constructor.
    - inversion S as [|? ? S1 S2]; subst. destruct (rltb (c_lat c) plat) eqn:E.
      + apply rltb_spec in E. destruct (split_at_lat l plat) as (a', b') eqn:Q. injection H as <- <-.
        destruct (IH S1 a' b' eq_refl) as (-> & A & B & SA & SB).
        split; [reflexivity|]. split; [intros c' [<-|Hc']; auto|]. split; [exact B|]. split; [|exact SB].
        constructor; auto. apply Forall_app in S2. apply S2.
      + apply rltb_false in E. injection H as <- <-.
        split; [reflexivity|]. split; [intros c' []|]. split; [|split; [constructor|exact S]].
        intros c' [<-|Hc']; auto. rewrite Forall_forall in S2. specialize (S2 c' Hc'). unfold by_lat in S2. lra.
  Qed.

  Lemma ss_weaken (P : cell -> Prop) (R1 R2 : cell -> cell -> Prop) : (forall a b, P a -> P b -> R1 a b -> R2 a b) ->
    forall l, (forall c, In c l -> P c) -> StronglySorted R1 l -> StronglySorted R2 l.
  Proof.
    intros HR. induction l as [|c l IH]; intros HP S; [constructor|]. inversion S as [|? ? S1 S2]; subst. constructor.
    - apply IH; auto. intros; apply HP; right; auto.
    - rewrite Forall_forall in *. intros x Hx. apply HR; auto; apply HP; cbn; auto.
  Qed.

  Lemma ss_rev (R1 : cell -> cell -> Prop) : forall l, StronglySorted R1 l -> StronglySorted (fun a b => R1 b a) (rev l).
  Proof.
    induction 1 as [|c l S IH F]; [constructor|]. cbn [rev].
    assert (forall m, StronglySorted (fun a b => R1 b a) m -> (forall x, In x m -> R1 c x) ->
              StronglySorted (fun a b => R1 b a) (m ++ [c])) as G.
    { induction m as [|x m IHm]; intros SM HM; cbn; [repeat constructor|]. inversion SM; subst. constructor.
      - apply IHm; auto. intros; apply HM; right; auto.
      - apply Forall_app. split; auto. constructor; [apply HM; left; auto|constructor]. }
    apply G; auto. intros x Hx. apply in_rev in Hx. rewrite Forall_forall in F. auto.
  Qed.

  Lemma search_spec (Hp : - (PI / 2) <= plat <= PI / 2) sorted r a b :
    (forall c, In c sorted -> - (PI / 2) <= c_lat c <= PI / 2) -> StronglySorted by_lat sorted -> 0 <= r <= PI ->
    split_at_lat sorted plat = (a, b) ->
    exists mc md xy, scan plat plon (rev a) (scan plat plon b (cos r, acos (cos r), ((-1)%Z, (-1)%Z))) = (mc, md, xy) /\
      (forall c, In c sorted -> cd c <= mc) /\
      ((mc = cos r /\ xy = ((-1)%Z, (-1)%Z)) \/ (cos r < mc /\ exists c, In c sorted /\ mc = cd c /\ xy = (c_x c, c_y c))).
  Proof.
    intros HL S R H. destruct (split_spec _ S _ _ H) as (-> & A & B & SA & SB).
    assert (M := COS_bound r).
    destruct (scan_spec Hp b (cos r) ((-1)%Z, (-1)%Z)) as (m1 & xy1 & -> & L1 & U1 & W1).
    { intros c Hc. apply HL, in_or_app; auto. }
    { apply (ss_weaken (fun c => plat <= c_lat c) by_lat); auto. intros x y Hx Hy L. unfold by_lat, dlat in *.
      rewrite !Rabs_pos_eq by lra. lra. }
    { lra. }
    destruct (scan_spec Hp (rev a) m1 xy1) as (m2 & xy2 & -> & L2 & U2 & W2).
    { intros c Hc. apply HL, in_or_app; left. apply in_rev. exact Hc. }
    { apply (ss_weaken (fun c => c_lat c < plat) (fun x y => by_lat y x)).
      - intros x y Hx Hy L. unfold by_lat, dlat in *. rewrite !Rabs_left1 by lra. lra.
      - intros c Hc. apply A, in_rev, Hc.
      - apply ss_rev, SA. }
    { lra. }
    exists m2, (acos m2), xy2. split; [reflexivity|]. split.
    - intros c Hc. apply in_app_or in Hc. destruct Hc as [Hc|Hc]; [apply U2; apply in_rev in Hc; exact Hc|].
      specialize (U1 c Hc). lra.
    - destruct W2 as [(-> & ->)|(G & c & Hc & E & ->)].
      + destruct W1 as [?|(G & c & Hc & E & ->)]; auto. right. split; auto. exists c. repeat split; auto. apply in_or_app; auto.
      + right. split; [destruct W1 as [(? & _)|(? & _)]; lra|]. exists c. repeat split; auto.
        apply in_or_app; left. apply in_rev. exact Hc.
  Qed.
End Scan.

(** the cells of a grid *)
Lemma cells_spec lons lats nx ny c : In c (cells lons lats nx ny) <->
  exists ix iy lon lat, at_cell lons lats nx ny ix iy lon lat /\
    c = {| c_lat := rad lat; c_lon := rad lon; c_x := Z.of_nat ix; c_y := Z.of_nat iy |}.
Proof.
  unfold cells. rewrite in_flat_map. split.
  - intros (ix & Hx & H). apply in_flat_map in H. destruct H as (iy & Hy & H). apply in_seq in Hx, Hy.
    destruct (nth_error lons (ix + iy * nx)) as [[lon|]|] eqn:E1; try destruct H.
    destruct (nth_error lats (ix + iy * nx)) as [[lat|]|] eqn:E2; try destruct H; [|contradiction].
    exists ix, iy, lon, lat. split; auto. repeat split; auto; lia.
  - intros (ix & iy & lon & lat & (Hx & Hy & E1 & E2) & ->). exists ix. split; [apply in_seq; lia|].
    apply in_flat_map. exists iy. split; [apply in_seq; lia|]. rewrite E1, E2. left. reflexivity.
Qed.

Lemma cd_angle lat0 lon0 lat1 lon1 : lat_ok lat0 -> lat_ok lat1 ->
  let c := cos (rad lat1) * cos (rad lat0) * cos (rad lon1 - rad lon0) + sin (rad lat1) * sin (rad lat0) in
  -1 <= c <= 1 /\ angle lat0 lon0 lat1 lon1 = acos c.
Proof.
  intros H0 H1 c. split; [apply cos_dist_bounds; apply rad_range; auto|]. unfold angle, c. f_equal.
  assert (rad (lon1 - lon0) = rad lon1 - rad lon0) as -> by (unfold rad; field). ring.
Qed.

(** ** C43 *)

(** The indices returned for a point are those of a cell of minimal great-circle angle, smaller than the
    search radius; -1 exactly if no cell is nearer than the radius.  For every arrangement of the cells that
    std::sort may produce. *)
Theorem C43_closest : forall lons lats nx ny sorted r lon lat,
  Permutation sorted (cells lons lats nx ny) -> StronglySorted by_lat sorted ->
  0 <= r <= PI -> lat_ok lat ->
  (forall ix iy lo la, at_cell lons lats nx ny ix iy lo la -> lat_ok la) ->
  let res := closest sorted (Some r) (Some lon) (Some lat) in
  (res = ((-1)%Z, (-1)%Z) /\ forall ix iy lo la, at_cell lons lats nx ny ix iy lo la -> r <= angle lat lon la lo) \/
  (exists ix iy lo la, at_cell lons lats nx ny ix iy lo la /\ res = (Z.of_nat ix, Z.of_nat iy) /\
     angle lat lon la lo < r /\
     forall ix' iy' lo' la', at_cell lons lats nx ny ix' iy' lo' la' -> angle lat lon la lo <= angle lat lon la' lo').
Proof.
  intros lons lats nx ny sorted r lon lat P S R L HL res.
  assert (forall c, In c sorted <-> exists ix iy lo la, at_cell lons lats nx ny ix iy lo la /\
    c = {| c_lat := rad la; c_lon := rad lo; c_x := Z.of_nat ix; c_y := Z.of_nat iy |}) as IC.
  { intro c. rewrite <- cells_spec. split; intro; [eapply Permutation_in; eauto|eapply Permutation_in; [apply Permutation_sym|]; eauto]. }
  unfold res, closest. destruct (split_at_lat sorted (rad lat)) as (a, b) eqn:Q.
  destruct (search_spec (rad lat) (rad lon) (rad_range _ L) sorted r a b) as (mc & md & xy & -> & U & W); auto.
  { intros c Hc. apply IC in Hc. destruct Hc as (ix & iy & lo & la & A & ->). apply rad_range, (HL _ _ _ _ A). }
  assert (forall ix iy lo la, at_cell lons lats nx ny ix iy lo la ->
     exists k, -1 <= k <= 1 /\ angle lat lon la lo = acos k /\ k <= mc /\
       k = cd (rad lat) (rad lon) {| c_lat := rad la; c_lon := rad lo; c_x := Z.of_nat ix; c_y := Z.of_nat iy |}) as AN.
  { intros ix iy lo la A. destruct (cd_angle lat lon la lo L (HL _ _ _ _ A)) as (B1 & B2).
    eexists. split; [exact B1|]. split; [exact B2|]. split; [|reflexivity]. apply (U {| c_lat := rad la; c_lon := rad lo; c_x := Z.of_nat ix; c_y := Z.of_nat iy |}).
    apply IC. eauto 8. }
  destruct W as [(-> & ->)|(G & c & Hc & E & ->)].
  - left. split; auto. intros ix iy lo la A. destruct (AN _ _ _ _ A) as (k & K1 & -> & K2 & _).
    destruct (Rle_dec r (acos k)) as [?|N]; auto. exfalso.
    assert (cos r < k) by (apply acos_lt_iff; auto; lra). lra.
  - right. apply IC in Hc. destruct Hc as (ix & iy & lo & la & A & ->). exists ix, iy, lo, la.
    split; auto. split; [reflexivity|]. destruct (AN _ _ _ _ A) as (k & K1 & -> & _ & EK). rewrite <- EK in E. subst mc.
    split; [apply acos_lt_iff; auto|]. intros ix' iy' lo' la' A'. destruct (AN _ _ _ _ A') as (k' & K1' & -> & K2' & _).
    apply acos_anti; auto.
Qed.

(** a point or radius that is not a number gives no cell *)
Theorem C43_nan : forall sorted r lon lat, r = None \/ lon = None \/ lat = None ->
  closest sorted r lon lat = ((-1)%Z, (-1)%Z).
Proof. intros sorted [r|] [lon|] [lat|] [H|[H|H]]; try discriminate; reflexivity. Qed.

(** *** the search radius *)
Definition valid (lons lats : list fl) (p : nat) (lon lat : R) : Prop :=
  nth_error lons p = Some (Some lon) /\ nth_error lats p = Some (Some lat).

Lemma best_other_spec lons lats p lon lat : length lats = length lons -> lat_ok lat ->
  (forall q lo la, valid lons lats q lo la -> lat_ok la) ->
  let m := best_other lons lats p lon lat in
  (m = -2 /\ forall q lo la, valid lons lats q lo la -> q = p) \/
  (-1 <= m <= 1 /\ (exists q lo la, q <> p /\ valid lons lats q lo la /\ acos m = angle lat lon la lo) /\
   forall q lo la, q <> p -> valid lons lats q lo la -> acos m <= angle lat lon la lo).
Proof.
  intros LL L HL. unfold best_other.
  assert (forall k m, (k <= length lons)%nat -> m = -2 ->
    let m' := fold_left (fun m p0 => if Nat.eqb p0 p then m else
      match nth_error lons p0, nth_error lats p0 with
      | Some (Some lon1), Some (Some lat1) =>
          let c := cos_dist (rad lat) (rad lon) (rad lat1) (rad lon1) in if rltb m c then c else m
      | _, _ => m end) (seq 0 k) m in
    (m' = -2 /\ forall q lo la, (q < k)%nat -> valid lons lats q lo la -> q = p) \/
    (-1 <= m' <= 1 /\ (exists q lo la, q <> p /\ valid lons lats q lo la /\ acos m' = angle lat lon la lo) /\
     forall q lo la, (q < k)%nat -> q <> p -> valid lons lats q lo la -> acos m' <= angle lat lon la lo)) as G.
  { induction k as [|k IH]; intros m K ->.
    - left. split; auto. intros q lo la H. lia.
    - specialize (IH (-2) ltac:(lia) eq_refl). cbn zeta in IH |- *. rewrite seq_S, fold_left_app. cbn [fold_left plus].
      set (m' := fold_left _ (seq 0 k) (-2)) in *.
      destruct (Nat.eqb_spec k p) as [->|N].
      { destruct IH as [(-> & I)|(B & X & I)].
        - left. split; auto. intros q lo la Hq V. destruct (Nat.eq_dec q p); auto. apply (I q lo la); auto; lia.
        - right. split; auto. split; auto. intros q lo la Hq Nq V. apply (I q lo la); auto; lia. }
      assert (forall (inv : forall lo la, ~ valid lons lats k lo la),
        (m' = -2 /\ forall q lo la, (q < S k)%nat -> valid lons lats q lo la -> q = p) \/
        (-1 <= m' <= 1 /\ (exists q lo la, q <> p /\ valid lons lats q lo la /\ acos m' = angle lat lon la lo) /\
         forall q lo la, (q < S k)%nat -> q <> p -> valid lons lats q lo la -> acos m' <= angle lat lon la lo)) as SK.
      { intros inv. destruct IH as [(E & I)|(B & X & I)]; [left|right].
        - split; auto. intros q lo la Hq V. destruct (Nat.eq_dec q k) as [->|]; [destruct (inv _ _ V)|]. apply (I q lo la); auto; lia.
        - split; auto. split; auto. intros q lo la Hq Nq V. destruct (Nat.eq_dec q k) as [->|]; [destruct (inv _ _ V)|]. apply (I q lo la); auto; lia. }
      destruct (nth_error lons k) as [[lo1|]|] eqn:E1; [|apply SK; intros ? ? (V & _); congruence..].
      destruct (nth_error lats k) as [[la1|]|] eqn:E2; [|apply SK; intros ? ? (_ & V); congruence..].
      assert (V1 : valid lons lats k lo1 la1) by (split; auto).
      destruct (cd_angle lat lon la1 lo1 L (HL _ _ _ V1)) as (B1 & B2).
      assert (cos_dist (rad lat) (rad lon) (rad la1) (rad lo1) = cos (rad la1) * cos (rad lat) * cos (rad lo1 - rad lon) + sin (rad la1) * sin (rad lat)) as EC.
      { unfold cos_dist. replace (rad lon - rad lo1) with (- (rad lo1 - rad lon)) by ring. rewrite cos_neg. ring. }
      rewrite <- EC in B1, B2. set (c := cos_dist (rad lat) (rad lon) (rad la1) (rad lo1)) in *. cbn zeta.
      right. destruct (rltb m' c) eqn:C.
      + apply rltb_spec in C. split; auto. split; [exists k, lo1, la1; auto|].
        intros q lo la Hq Nq V. destruct (Nat.eq_dec q k) as [->|].
        { destruct V as (V & V'). rewrite E1 in V. rewrite E2 in V'. injection V as <-. injection V' as <-. lra. }
        destruct IH as [(_ & I)|(B & X & I)]; [exfalso; apply Nq; apply (I q lo la); auto; lia|].
        eapply Rle_trans; [|apply (I q lo la); auto; lia]. apply acos_anti; lra.
      + apply rltb_false in C. destruct IH as [(E & _)|(B & X & I)]; [lra|]. split; auto. split; auto.
        intros q lo la Hq Nq V. destruct (Nat.eq_dec q k) as [->|]; [|apply (I q lo la); auto; lia].
        destruct V as (V & V'). rewrite E1 in V. rewrite E2 in V'. injection V as <-. injection V' as <-.
        rewrite B2. apply acos_anti; lra. }
  cbn zeta. destruct (G (length lons) (-2) (le_n _) eq_refl) as [(E & I)|(B & X & I)]; [left|right].
  - split; auto. intros q lo la V. apply (I q lo la); auto. apply nth_error_Some. destruct V. congruence.
  - split; auto. split; auto. intros q lo la Nq V. apply (I q lo la); auto. apply nth_error_Some. destruct V. congruence.
Qed.

Lemma fold_min : forall r s, let m := fold_left (fun a b => if rltb b a then b else a) r s in
  In m (s :: r) /\ forall x, In x (s :: r) -> m <= x.
Proof.
  induction r as [|y r IH]; intros s; cbn [fold_left].
  - split; [left; auto|]. intros x [<-|[]]; lra.
  - cbn zeta. destruct (IH (if rltb y s then y else s)) as (A & B). cbn zeta in A, B.
    destruct (rltb y s) eqn:E; [apply rltb_spec in E|apply rltb_false in E].
    + split; [right; exact A|]. intros x [<-|[<-|Hx]]; [specialize (B y (or_introl eq_refl)); lra|apply B; left; auto|apply B; right; auto].
    + split; [destruct A as [A|A]; [left; auto|right; right; auto]|].
      intros x [<-|[<-|Hx]]; [apply B; left; auto|specialize (B s (or_introl eq_refl)); lra|apply B; right; auto].
Qed.

Definition sampled (lons lats : list fl) (p : nat) (lon lat : R) : Prop :=
  In p (sample_positions (length lons)) /\ valid lons lats p lon lat.

Lemma samples_spec lons lats m : In m (samples lons lats) <->
  exists p lon lat, sampled lons lats p lon lat /\ m = best_other lons lats p lon lat.
Proof.
  unfold samples. rewrite in_flat_map. split.
  - intros (p & Hp & H). destruct (nth_error lons p) as [[lon|]|] eqn:E1; try destruct H.
    destruct (nth_error lats p) as [[lat|]|] eqn:E2; try destruct H as [H|[]]; try contradiction.
    exists p, lon, lat. split; auto. split; auto. split; auto.
  - intros (p & lon & lat & (Hp & E1 & E2) & ->). exists p. split; auto. rewrite E1, E2. left. reflexivity.
Qed.

(** [near lons lats p lon lat d]: d is the angle from cell p to the nearest other valid cell *)
Definition nearest_other (lons lats : list fl) (p : nat) (lon lat d : R) : Prop :=
  (exists q lo la, q <> p /\ valid lons lats q lo la /\ d = angle lat lon la lo) /\
  forall q lo la, q <> p -> valid lons lats q lo la -> d <= angle lat lon la lo.

Lemma c_acos_in m : -1 <= m <= 1 -> c_acos m = Some (acos m).
Proof.
  intro H. unfold c_acos. destruct (rltb m (-1)) eqn:E; [apply rltb_spec in E; lra|].
  destruct (rltb 1 m) eqn:E2; [apply rltb_spec in E2; lra|reflexivity].
Qed.

(** With two valid cells and at least one sampled, the radius is 1.414 times the largest angle from a
    sampled cell to its nearest other cell, at most PI. *)
Theorem C43_radius : forall lons lats, length lats = length lons ->
  (forall q lo la, valid lons lats q lo la -> lat_ok la) ->
  (exists p q lo la lo' la', p <> q /\ valid lons lats p lo la /\ valid lons lats q lo' la') ->
  (exists p lo la, sampled lons lats p lo la) ->
  exists d p lo la, grid_distance lons lats = Ok (Some (Rmin (1.414 * d) PI)) /\
    sampled lons lats p lo la /\ nearest_other lons lats p lo la d /\
    forall p' lo' la' d', sampled lons lats p' lo' la' -> nearest_other lons lats p' lo' la' d' -> d' <= d.
Proof.
  intros lons lats LL HL (p1 & p2 & lo1 & la1 & lo2 & la2 & N12 & V1 & V2) (ps & los & las & Ss).
  assert (forall p lo la, sampled lons lats p lo la ->
     -1 <= best_other lons lats p lo la <= 1 /\ nearest_other lons lats p lo la (acos (best_other lons lats p lo la))) as BO.
  { intros p lo la (_ & V). destruct (best_other_spec lons lats p lo la LL (HL _ _ _ V) HL) as [(_ & I)|(B & X & I)].
    - exfalso. apply N12. rewrite (I _ _ _ V1), (I _ _ _ V2). reflexivity.
    - split; auto. split; auto. }
  unfold grid_distance. destruct (samples lons lats) as [|s r] eqn:ES.
  { exfalso. assert (In (best_other lons lats ps los las) []) as []. rewrite <- ES. apply samples_spec. eauto 6. }
  destruct (fold_min r s) as (M1 & M2). cbn zeta in M1, M2. set (m := fold_left _ r s) in *.
  rewrite <- ES in M1. apply samples_spec in M1. destruct M1 as (p & lo & la & Sp & Em).
  destruct (BO _ _ _ Sp) as (Bm & Nm). rewrite <- Em in Bm, Nm. rewrite (c_acos_in m Bm).
  exists (acos m), p, lo, la. split.
  { f_equal. f_equal. unfold Rmin. destruct (rltb PI (acos m * 1.414)) eqn:E.
    - apply rltb_spec in E. destruct (Rle_dec (1.414 * acos m) PI); [lra|reflexivity].
    - apply rltb_false in E. destruct (Rle_dec (1.414 * acos m) PI); [ring|lra]. }
  split; auto. split; auto. intros p' lo' la' d' Sp' (X & I).
  destruct (BO _ _ _ Sp') as (B' & (X' & I')). destruct X as (q & lq & aq & Nq & Vq & ->).
  destruct X' as (q' & lq' & aq' & Nq' & Vq' & E').
  eapply Rle_trans; [apply (I q' lq' aq' Nq' Vq')|]. rewrite <- E'. apply acos_anti; auto.
  apply M2. rewrite <- ES. apply samples_spec. eauto 6.
Qed.

(** up to 1000 cells every cell is a sample *)
Theorem C43_samples : forall n, (n <= 1000)%nat -> sample_positions n = seq 0 n.
Proof.
  intros n H. unfold sample_positions. destruct (Nat.ltb_spec 1000 n); [lia|].
  rewrite (map_ext _ (fun k => k)) by (intro; lia). apply map_id.
Qed.
(** beyond, 53 positions inside the grid are taken *)
Theorem C43_samples_large : forall n, (1000 < n)%nat ->
  length (sample_positions n) = 53%nat /\ NoDup (sample_positions n) /\ forall p, In p (sample_positions n) -> (p < n)%nat.
Proof.
  intros n H. unfold sample_positions. destruct (Nat.ltb_spec 1000 n); [|lia].
  assert (0 < n / 53)%nat as P. { apply Nat.div_str_pos. lia. }
  split; [rewrite map_length, seq_length; reflexivity|]. split.
  - apply FinFun.Injective_map_NoDup; [|apply seq_NoDup]. intros a b E. nia.
  - intros p Hp. apply in_map_iff in Hp. destruct Hp as (k & <- & Hk). apply in_seq in Hk.
    assert (n / 53 * 53 <= n)%nat. { rewrite Nat.mul_comm. apply Nat.mul_div_le. lia. }
    assert (k * (n / 53) <= 52 * (n / 53))%nat by (apply Nat.mul_le_mono_r; lia). lia.
Qed.

(** FINDING: with a single valid cell the radius is not a number and no point is ever assigned to it. *)
Theorem C43_single_cell : forall lons lats sorted p lon lat pts, length lats = length lons ->
  sampled lons lats p lon lat -> lat_ok lat ->
  (forall q lo la, valid lons lats q lo la -> q = p) ->
  translate_points sorted lons lats pts = Ok (map (fun _ => ((-1)%Z, (-1)%Z)) pts).
Proof.
  intros lons lats sorted p lon lat pts LL S L U. unfold translate_points, grid_distance.
  assert (forall q lo la, valid lons lats q lo la -> lat_ok la) as HL.
  { intros q lo la V. assert (E := U q lo la V). subst q. destruct V as (_ & V). destruct S as (_ & _ & V'). rewrite V in V'. injection V' as <-. exact L. }
  assert (forall m, In m (samples lons lats) -> m = -2) as A2.
  { intros m Hm. apply samples_spec in Hm. destruct Hm as (q & lo & la & (_ & V) & ->).
    destruct (best_other_spec lons lats q lo la LL (HL _ _ _ V) HL) as [(E & _)|(_ & (q' & lo' & la' & N & V' & _) & _)]; auto.
    exfalso. apply N. rewrite (U _ _ _ V), (U _ _ _ V'). reflexivity. }
  destruct (samples lons lats) as [|s r] eqn:ES.
  { exfalso. assert (In (best_other lons lats p lon lat) []) as []. rewrite <- ES. apply samples_spec. eauto 6. }
  destruct (fold_min r s) as (M1 & _). cbn zeta in M1. rewrite (A2 _ M1). unfold c_acos.
  destruct (rltb (-2) (-1)) eqn:E; [|apply rltb_false in E; lra]. cbn [obind]. f_equal.
Qed.

(** FINDING: if no sampled cell has a position, the minimum of no samples is read. *)
Theorem C43_nothing_sampled : forall lons lats sorted pts, (forall p lo la, ~ sampled lons lats p lo la) ->
  translate_points sorted lons lats pts = UB.
Proof.
  intros lons lats sorted pts N. unfold translate_points, grid_distance. destruct (samples lons lats) as [|s r] eqn:ES; auto.
  exfalso. assert (In s (samples lons lats)) as H by (rewrite ES; left; auto). apply samples_spec in H.
  destruct H as (p & lo & la & H & _). exact (N _ _ _ H).
Qed.

(** a concrete case: two cells on the equator at 0 and 90 degrees; the point at 10 degrees belongs to the first *)
Definition ex_lons : list fl := [Some 0; Some 90].
Definition ex_lats : list fl := [Some 0; Some 0].
Example C43_nonvacuous : closest (cells ex_lons ex_lats 2 1) (Some (PI / 2)) (Some 10) (Some 0) = (0%Z, 0%Z).
Proof.
  assert (PP := PI_RGT_0).
  assert (forall lo, angle 0 10 0 lo = acos (cos (rad (lo - 10)))) as AN.
  { intro lo. unfold angle. f_equal. replace (rad 0) with 0 by (unfold rad; field). rewrite sin_0, cos_0. ring. }
  assert (forall ix iy lo la, at_cell ex_lons ex_lats 2 1 ix iy lo la -> la = 0 /\ ((ix = 0%nat /\ iy = 0%nat /\ lo = 0) \/ (ix = 1%nat /\ iy = 0%nat /\ lo = 90))) as AC.
  { intros ix iy lo la (Hx & Hy & E1 & E2). assert (iy = 0%nat) as -> by lia.
    destruct ix as [|[|ix]]; [| |lia]; cbn in E1, E2; injection E1 as <-; injection E2 as <-; split; auto. }
  assert (angle 0 10 0 0 = PI / 18) as A0.
  { rewrite AN. replace (rad (0 - 10)) with (- (PI / 18)) by (unfold rad; field). rewrite cos_neg. apply acos_cos. lra. }
  assert (angle 0 10 0 90 = 8 * PI / 18) as A1.
  { rewrite AN. replace (rad (90 - 10)) with (8 * PI / 18) by (unfold rad; field). apply acos_cos. lra. }
  destruct (C43_closest ex_lons ex_lats 2 1 (cells ex_lons ex_lats 2 1) (PI / 2) 10 0) as [(_ & H)|(ix & iy & lo & la & A & -> & _ & H)].
  - apply Permutation_refl.
  - change (StronglySorted by_lat [{| c_lat := rad 0; c_lon := rad 0; c_x := 0; c_y := 0 |}; {| c_lat := rad 0; c_lon := rad 90; c_x := 1; c_y := 0 |}]).
    apply SSorted_cons; [apply SSorted_cons; constructor|]. apply Forall_cons; [apply Rle_refl|constructor].
  - lra.
  - unfold lat_ok. lra.
  - intros ix iy lo la A. destruct (AC _ _ _ _ A) as (-> & _). unfold lat_ok. lra.
  - exfalso. specialize (H 0%nat 0%nat 0 0 ltac:(repeat split; auto)). lra.
  - specialize (H 0%nat 0%nat 0 0 ltac:(repeat split; auto)).
    destruct (AC _ _ _ _ A) as (-> & [(-> & -> & ->)|(-> & -> & ->)]); [reflexivity|]. exfalso. lra.
Qed.
Print Assumptions C43_closest.
Print Assumptions C43_nan.
Print Assumptions C43_radius.
Print Assumptions C43_samples.
Print Assumptions C43_samples_large.
Print Assumptions C43_single_cell.
Print Assumptions C43_nothing_sampled.
