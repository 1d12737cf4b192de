(** C41 vertical coordinate transformations and humidities, C66 hypsometric altitude. *)
From Coq Require Import Reals List ZArith Lia Lra.
From Coq Require Import ZifyBool ZifyNat.
From Verif Require Import Base FillModel FillProofs PhysModel.
Import ListNotations.
Local Open Scope R_scope.

Lemma map_map_id : forall (f g : R -> R) l, (forall x, In x l -> g (f x) = x) -> map g (map f l) = l.
Proof.
  intros f g l H. rewrite map_map. induction l as [ | x l IH ]; [ reflexivity | ].
  cbn. f_equal; [ apply H; now left | apply IH; intros; apply H; now right ].
Qed.

Lemma BF_pos : 0 < BAROMETRIC_FACTOR.
Proof. unfold BAROMETRIC_FACTOR, GAS_CONSTANT, GRAVITY, MOLAR_MASS. apply Rdiv_lt_0_compat; lra. Qed.

(** ** C41 sigma *)
Theorem C41_sigma_inverse : forall ptop ps l, ps <> ptop ->
  pressure_sigma ptop ps (sigma_pressure ptop ps l) = l /\ sigma_pressure ptop ps (pressure_sigma ptop ps l) = l.
Proof.
  intros ptop ps l H. unfold pressure_sigma, sigma_pressure.
  split; apply map_map_id; intros; field; lra.
Qed.
(** sigma 0 is the top, sigma 1 the surface, and in between between them *)
Theorem C41_sigma_ends : forall ptop ps,
  sigma_pressure ptop ps [0; 1] = [ptop; ps] /\
  forall s, 0 <= s <= 1 -> ptop <= ps -> exists p, sigma_pressure ptop ps [s] = [p] /\ ptop <= p <= ps.
Proof.
  intros. unfold sigma_pressure. cbn [map]. split; [ f_equal; [ ring | f_equal; ring ] | ].
  intros s Hs H. eexists. split; [ reflexivity | nra ].
Qed.

(** ** C41 log-pressure: the level is recovered as -log(p/p0) *)
Theorem C41_ln_pressure : forall p0 l, 0 < p0 ->
  map (fun p => - ln (p / p0)) (ln_pressure p0 l) = l /\ (forall p, In p (ln_pressure p0 l) -> 0 < p).
Proof.
  intros p0 l H. unfold ln_pressure. split.
  - apply map_map_id. intros x _. replace (p0 * exp (- x) / p0) with (exp (- x)) by (field; lra). rewrite ln_exp. ring.
  - intros p Hp. apply in_map_iff in Hp. destruct Hp as (x & <- & _). apply Rmult_lt_0_compat; [ exact H | apply exp_pos ].
Qed.

(** ** C41 hybrid levels: the a and the ap form agree for ap = a*p0; pure pressure and pure sigma levels *)
Theorem C41_hybrid_forms : forall p0 ps a b, hybrid_sigma p0 ps a b = hybrid_sigma_ap ps (map (fun v => v * p0) a) b.
Proof.
  intros p0 ps a. unfold hybrid_sigma, hybrid_sigma_ap, map2.
  induction a as [ | x a IH ]; intros [ | y b ]; cbn; try reflexivity. f_equal. exact (IH b).
Qed.
Theorem C41_hybrid_ends : forall p0 ps a s,
  hybrid_sigma p0 ps [a] [0] = [a * p0] /\ hybrid_sigma p0 ps [0] [s] = sigma_pressure 0 ps [s] /\
  hybrid_height ps [a] [0] = [a] /\ hybrid_height ps [0] [1] = [ps].
Proof.
  intros. unfold hybrid_sigma, sigma_pressure, hybrid_height, map2. cbn. repeat split; f_equal; ring.
Qed.
(** one value per level pair *)
Theorem C41_sizes : forall p0 ps h hc zeta a b, length a = length b ->
  length (hybrid_sigma p0 ps a b) = length a /\ length (hybrid_sigma_ap ps a b) = length a /\
  length (hybrid_height h a b) = length a /\ length (ocean_g1 h hc zeta a b) = length a /\
  length (ocean_g2 h hc zeta a b) = length a.
Proof.
  intros p0 ps h hc zeta a b L.
  assert (G : forall f, length (map2 f a b) = length a) by (intro f; unfold map2; rewrite map_length, combine_length; lia).
  repeat split; apply G.
Qed.

(** ** C41 barometric *)
Theorem C41_barometric_inverse : forall Pb Tb l, 0 < Pb -> Tb <> 0 ->
  barometric_height Pb (barometric_pressure Pb l Tb) Tb = l /\
  (Forall (fun p => 0 < p) l -> barometric_pressure Pb (barometric_height Pb l Tb) Tb = l).
Proof.
  intros Pb Tb l HP HT. assert (BF := BF_pos). unfold barometric_height, barometric_pressure. split.
  - apply map_map_id. intros x _.
    replace (Pb * exp (- (1) / (BAROMETRIC_FACTOR * Tb) * x) / Pb) with (exp (- (1) / (BAROMETRIC_FACTOR * Tb) * x)) by (field; lra).
    rewrite ln_exp. field. split; lra.
  - intro F. rewrite Forall_forall in F. apply map_map_id. intros x Hx. specialize (F x Hx).
    replace (- (1) / (BAROMETRIC_FACTOR * Tb) * (- BAROMETRIC_FACTOR * Tb * ln (x / Pb))) with (ln (x / Pb)) by (field; split; lra).
    rewrite exp_ln by (apply Rdiv_lt_0_compat; lra). field. lra.
Qed.
Theorem C41_standard_inverse : forall l,
  standard_altitude (standard_pressure l) = l /\
  (Forall (fun p => 0 < p) l -> standard_pressure (standard_altitude l) = l).
Proof. intro l. apply C41_barometric_inverse; lra. Qed.
(** height 0 is the reference pressure, and pressure falls with height *)
Theorem C41_barometric_monotone : forall Pb Tb h k, 0 < Pb -> 0 < Tb -> h < k ->
  barometric_pressure Pb [0] Tb = [Pb] /\
  exists p q, barometric_pressure Pb [h; k] Tb = [p; q] /\ 0 < q < p.
Proof.
  intros Pb Tb h k HP HT H. assert (BF := BF_pos). unfold barometric_pressure. cbn. split.
  - f_equal. rewrite Rmult_0_r, exp_0. ring.
  - eexists _, _. split; [ reflexivity | ]. split; [ apply Rmult_lt_0_compat; [ exact HP | apply exp_pos ] | ].
    apply Rmult_lt_compat_l; [ exact HP | ]. apply exp_increasing.
    assert (P : 0 < / (BAROMETRIC_FACTOR * Tb)) by (apply Rinv_0_lt_compat; nra). unfold Rdiv. nra.
Qed.

(** ** C41 layer thickness: zero for equal pressures, additive, positive upwards, and the difference of
    the heights of the two pressures *)
Theorem C41_thickness : forall p q r Pb T, 0 < p -> 0 < q -> 0 < r -> 0 < Pb ->
  layer_thickness p p T = 0 /\
  layer_thickness p r T = layer_thickness p q T + layer_thickness q r T /\
  (q < p -> 0 < T -> 0 < layer_thickness p q T) /\
  exists hp hq, barometric_height Pb [p; q] T = [hp; hq] /\ layer_thickness p q T = hq - hp.
Proof.
  intros p q r Pb T Hp Hq Hr HP. assert (BF := BF_pos).
  assert (L : forall a b, 0 < a -> 0 < b -> ln (a / b) = ln a - ln b).
  { intros a b Ha Hb. unfold Rdiv. rewrite ln_mult by (auto; now apply Rinv_0_lt_compat). rewrite ln_Rinv by exact Hb. ring. }
  unfold layer_thickness, barometric_height. cbn [map]. rewrite !L by assumption. repeat split.
  - ring.
  - ring.
  - intros H HT. assert (ln q < ln p) by (apply ln_increasing; assumption).
    apply Rmult_lt_0_compat; [ apply Rmult_lt_0_compat; lra | exact BF ].
  - eexists _, _. split; [ reflexivity | ring ].
Qed.

(** ** C41 vertical wind *)
Lemma map3_inv : forall (f g : R -> R -> R -> R) a p t, length a = length p -> length a = length t ->
  (forall x y z, In y p -> In z t -> g (f x y z) y z = x) -> map3 g (map3 f a p t) p t = a.
Proof.
  intros f g a. induction a as [ | x a IH ]; intros [ | y p ] [ | z t ] L1 L2 H; try discriminate; [ reflexivity | ].
  unfold map3 in *. cbn. f_equal; [ apply H; now left | apply IH; auto; intros; apply H; now right ].
Qed.
Theorem C41_omega_inverse : forall a p t, length a = length p -> length a = length t ->
  Forall (fun v => v <> 0) p -> Forall (fun v => v <> 0) t ->
  w_to_omega (omega_to_w a p t) p t = a /\ omega_to_w (w_to_omega a p t) p t = a.
Proof.
  intros a p t L1 L2 Fp Ft. rewrite Forall_forall in Fp, Ft. assert (BF := BF_pos).
  unfold w_to_omega, omega_to_w.
  split; apply map3_inv; auto; intros x y z Hy Hz; specialize (Fp y Hy); specialize (Ft z Hz); field; lra.
Qed.
(** upward motion is falling pressure *)
Theorem C41_omega_sign : forall w p t, 0 < p -> 0 < t -> exists o, w_to_omega [w] [p] [t] = [o] /\
  (0 < w -> o < 0) /\ (w < 0 -> 0 < o) /\ (w = 0 -> o = 0).
Proof.
  intros w p t Hp Ht. assert (BF := BF_pos). unfold w_to_omega, map3. cbn. eexists. split; [ reflexivity | ].
  assert (D : 0 < BAROMETRIC_FACTOR * t) by nra.
  replace (w * p / (- BAROMETRIC_FACTOR * t)) with (- (w * p / (BAROMETRIC_FACTOR * t))) by (field; lra).
  assert (I : 0 < / (BAROMETRIC_FACTOR * t)) by (apply Rinv_0_lt_compat; lra).
  repeat split; intro H; unfold Rdiv.
  - assert (0 < w * p) by nra. nra.
  - assert (w * p < 0) by nra. nra.
  - rewrite H. ring.
Qed.

(** ** C41 humidity *)
Lemma es_pos : forall t, 0 < humidity_es t.
Proof. intro. unfold humidity_es. apply Rmult_lt_0_compat; [ lra | apply exp_pos ]. Qed.

Theorem C41_relative_range : forall sh t p, 0 <= specific_to_relative sh t p <= 100.
Proof.
  intros. unfold specific_to_relative. cbv zeta. destruct (Rlt_dec _ 0); [ lra | ]. destruct (Rlt_dec 100 _); lra.
Qed.
Theorem C41_specific_nonnegative : forall rh t p, 0 <= relative_to_specific rh t p.
Proof. intros. unfold relative_to_specific. cbv zeta. destruct (Rlt_dec _ 0); lra. Qed.

Theorem C41_humidity_inverse : forall rh t p, 0 <= rh <= 100 -> 0 < p ->
  specific_to_relative (relative_to_specific rh t p) t p = rh.
Proof.
  intros rh t p H Hp. assert (E := es_pos t). unfold specific_to_relative, relative_to_specific, MOL_WEIGHT_RATIO. cbv zeta.
  set (es := humidity_es t) in *.
  assert (S : 0 <= rh * 0.01 * es * 0.622 / p).
  { unfold Rdiv. apply Rmult_le_pos; [ | left; now apply Rinv_0_lt_compat ]. apply Rmult_le_pos; [ | lra ]. apply Rmult_le_pos; lra. }
  destruct (Rlt_dec (rh * 0.01 * es * 0.622 / p) 0); [ lra | ].
  assert (Q : 100 * (rh * 0.01 * es * 0.622 / p) * p / (es * 0.622) = rh) by (replace 0.01 with (/ 100) by lra; field; lra).
  rewrite Q. destruct (Rlt_dec rh 0); [ lra | ]. destruct (Rlt_dec 100 rh); [ lra | reflexivity ].
Qed.
(** and back, up to saturation *)
Theorem C41_humidity_inverse_back : forall sh t p, 0 < p -> 0 <= sh -> 100 * sh * p <= 100 * (humidity_es t * 0.622) ->
  relative_to_specific (specific_to_relative sh t p) t p = sh.
Proof.
  intros sh t p Hp Hs H. assert (E := es_pos t). unfold specific_to_relative, relative_to_specific, MOL_WEIGHT_RATIO. cbv zeta.
  set (es := humidity_es t) in *. assert (D : 0 < es * 0.622) by lra.
  assert (A : 0 <= 100 * sh * p / (es * 0.622)).
  { unfold Rdiv. apply Rmult_le_pos; [ | left; now apply Rinv_0_lt_compat ]. apply Rmult_le_pos; lra. }
  assert (B : 100 * sh * p / (es * 0.622) <= 100).
  { apply (Rmult_le_reg_r (es * 0.622)); [ exact D | ].
    replace (100 * sh * p / (es * 0.622) * (es * 0.622)) with (100 * sh * p) by (field; lra). lra. }
  destruct (Rlt_dec (100 * sh * p / (es * 0.622)) 0); [ lra | ].
  destruct (Rlt_dec 100 (100 * sh * p / (es * 0.622))); [ lra | ].
  assert (Q : 100 * sh * p / (es * 0.622) * 0.01 * es * 0.622 / p = sh) by (replace 0.01 with (/ 100) by lra; field; lra).
  rewrite Q. destruct (Rlt_dec sh 0); [ lra | reflexivity ].
Qed.

(** ** C41 dew point: never above 100, always positive, 100 exactly if the dew point is at least the
    temperature, growing with the dew point *)
Lemma magnus_mono : forall x y, - 243.04 < x -> x < y -> 17.625 * x / (243.04 + x) < 17.625 * y / (243.04 + y).
Proof.
  intros x y Hx H.
  replace (17.625 * x / (243.04 + x)) with (17.625 - 17.625 * 243.04 * / (243.04 + x)) by (field; lra).
  replace (17.625 * y / (243.04 + y)) with (17.625 - 17.625 * 243.04 * / (243.04 + y)) by (field; lra).
  assert (I : / (243.04 + y) < / (243.04 + x)) by (apply Rinv_lt_contravar; nra). lra.
Qed.
Theorem C41_dewpoint : forall dew t, 0 < dewpoint_to_relative dew t <= 100 /\
  (30.11 < dew -> 30.11 < t -> (dewpoint_to_relative dew t = 100 <-> t <= dew)).
Proof.
  intros dew t. unfold dewpoint_to_relative, T0. cbv zeta.
  set (x := dew - 273.15). set (y := t - 273.15).
  set (e := 17.625 * x / (243.04 + x) - 17.625 * y / (243.04 + y)).
  assert (P := exp_pos e). split.
  - destruct (Rlt_dec 100 (100 * exp e)); lra.
  - intros Hx Hy. assert (X : - 243.04 < x) by (unfold x; lra). assert (Y : - 243.04 < y) by (unfold y; lra).
    destruct (Rtotal_order dew t) as [ L | [ L | L ] ].
    + assert (M := magnus_mono x y X ltac:(unfold x, y; lra)).
      assert (Q : exp e < 1) by (rewrite <- exp_0; apply exp_increasing; unfold e; lra).
      destruct (Rlt_dec 100 (100 * exp e)); split; intro; lra.
    + assert (E : e = 0) by (unfold e; replace x with y by (unfold x, y; lra); ring).
      rewrite E, exp_0. destruct (Rlt_dec 100 (100 * 1)); split; intro; lra.
    + assert (M := magnus_mono y x Y ltac:(unfold x, y; lra)).
      assert (Q : 1 < exp e) by (rewrite <- exp_0; apply exp_increasing; unfold e; lra).
      destruct (Rlt_dec 100 (100 * exp e)); split; intro; lra.
Qed.
Theorem C41_dewpoint_monotone : forall d1 d2 t, 30.11 < d1 -> d1 <= d2 ->
  dewpoint_to_relative d1 t <= dewpoint_to_relative d2 t.
Proof.
  intros d1 d2 t H1 H. unfold dewpoint_to_relative, T0. cbv zeta.
  set (y := 17.625 * (t - 273.15) / (243.04 + (t - 273.15))).
  assert (E : exp (17.625 * (d1 - 273.15) / (243.04 + (d1 - 273.15)) - y) <= exp (17.625 * (d2 - 273.15) / (243.04 + (d2 - 273.15)) - y)).
  { destruct H as [ H | -> ]; [ | lra ]. left. apply exp_increasing.
    assert (M := magnus_mono (d1 - 273.15) (d2 - 273.15) ltac:(lra) ltac:(lra)). lra. }
  destruct (Rlt_dec 100 _); destruct (Rlt_dec 100 _); lra.
Qed.

(** virtual temperature: dry air keeps its temperature, moist air is warmer *)
Theorem C41_virtual_temperature : forall q T, virtual_temperature 0 T = T /\
  (0 < q -> 0 < T -> T < virtual_temperature q T).
Proof.
  intros. unfold virtual_temperature, Z_MOL_WEIGHT_RATIO. split; [ ring | ]. intros. assert (0 < q * T) by nra. lra.
Qed.
(** Z_MOL_WEIGHT_RATIO is 1/MOL_WEIGHT_RATIO - 1 up to its last digit *)
Theorem C41_constants : Rabs (Z_MOL_WEIGHT_RATIO - (1 / MOL_WEIGHT_RATIO - 1)) < 1 / 10 ^ 19 /\
  29.27 < BAROMETRIC_FACTOR < 29.28.
Proof.
  split.
  - unfold Z_MOL_WEIGHT_RATIO, MOL_WEIGHT_RATIO. apply Rabs_def1; lra.
  - unfold BAROMETRIC_FACTOR, GAS_CONSTANT, GRAVITY, MOLAR_MASS. split; lra.
Qed.

(** ** C41 ocean coordinates: the surface level is the sea surface, the bottom level the bottom; the two
    generic forms agree for a vanishing critical depth; increasing stretching gives increasing depth *)
Theorem C41_ocean_ends : forall h hc zeta, 0 < h -> 0 <= hc ->
  ocean_g1 h hc zeta [0; -1] [0; -1] = [zeta; - h] /\ ocean_g2 h hc zeta [0; -1] [0; -1] = [zeta; - h].
Proof.
  intros h hc zeta Hh Hc. unfold ocean_g1, ocean_g2, map2. cbn.
  split; f_equal; try (f_equal; field; lra); field; lra.
Qed.
Theorem C41_ocean_agree : forall h zeta s c, 0 < h -> length s = length c ->
  ocean_g1 h 0 zeta s c = ocean_g2 h 0 zeta s c.
Proof.
  intros h zeta s c Hh L. unfold ocean_g1, ocean_g2, map2. apply map_ext. intros [ x y ]. cbn. field. lra.
Qed.
Theorem C41_ocean_monotone : forall h hc zeta s1 c1 s2 c2, 0 < hc <= h -> 0 < zeta + h -> s1 < s2 -> c1 <= c2 ->
  (exists z1 z2, ocean_g1 h hc zeta [s1; s2] [c1; c2] = [z1; z2] /\ z1 < z2) /\
  (exists z1 z2, ocean_g2 h hc zeta [s1; s2] [c1; c2] = [z1; z2] /\ z1 < z2).
Proof.
  intros h hc zeta s1 c1 s2 c2 Hh Hz Hs Hc. unfold ocean_g1, ocean_g2, map2. cbn [map combine fst snd]. split.
  - eexists _, _. split; [ reflexivity | ]. cbv zeta.
    set (S1 := hc * s1 + (h - hc) * c1). set (S2 := hc * s2 + (h - hc) * c2).
    assert (L : S1 < S2).
    { unfold S1, S2. assert (hc * s1 < hc * s2) by (apply Rmult_lt_compat_l; lra).
      assert ((h - hc) * c1 <= (h - hc) * c2) by (apply Rmult_le_compat_l; lra). lra. }
    assert (G : 0 < (zeta + h) * / h) by (apply Rmult_lt_0_compat; [ lra | apply Rinv_0_lt_compat; lra ]).
    replace (S1 + zeta * (1 + S1 * (1 / h))) with (zeta + S1 * ((zeta + h) * / h)) by (field; lra).
    replace (S2 + zeta * (1 + S2 * (1 / h))) with (zeta + S2 * ((zeta + h) * / h)) by (field; lra). nra.
  - eexists _, _. split; [ reflexivity | ]. cbv zeta.
    assert (L : hc * s1 + h * c1 < hc * s2 + h * c2).
    { assert (hc * s1 < hc * s2) by (apply Rmult_lt_compat_l; lra).
      assert (h * c1 <= h * c2) by (apply Rmult_le_compat_l; lra). lra. }
    assert (G : 0 < 1 / (h + hc)) by (apply Rdiv_lt_0_compat; lra).
    assert (L2 : 1 / (h + hc) * (hc * s1 + h * c1) < 1 / (h + hc) * (hc * s2 + h * c2)) by (apply Rmult_lt_compat_l; assumption).
    assert ((zeta + h) * (1 / (h + hc) * (hc * s1 + h * c1)) < (zeta + h) * (1 / (h + hc) * (hc * s2 + h * c2))) by (apply Rmult_lt_compat_l; assumption).
    lra.
Qed.

Example C41_nonvacuous :
  sigma_pressure 10 1010 [0.5] = [510] /\ standard_pressure [0] = [1013.25] /\
  dewpoint_to_relative 280 280 = 100 /\ specific_to_relative (relative_to_specific 42 280 1000) 280 1000 = 42 /\
  layer_thickness 1000 1000 280 = 0.
Proof.
  repeat apply conj.
  - unfold sigma_pressure. cbn. f_equal. lra.
  - apply (C41_barometric_monotone 1013.25 288.15 0 1); lra.
  - apply C41_dewpoint; lra.
  - apply C41_humidity_inverse; lra.
  - apply (C41_thickness 1000 1000 1000 1000 280); lra.
Qed.

(** ** C66 *)

(** the altitudes of levels listed from the surface upwards *)
Fixpoint alts (a plow : R) (ps ts : list R) : list R :=
  match ps, ts with
  | p :: ps', t :: ts' => (a + layer_thickness plow p t) :: alts (a + layer_thickness plow p t) p ps' ts'
  | _, _ => []
  end.
Lemma alts_length : forall ps ts a plow, length ps = length ts -> length (alts a plow ps ts) = length ps.
Proof. induction ps as [ | p ps IH ]; intros [ | t ts ] a plow L; try discriminate; [ reflexivity | ]. cbn. now rewrite IH by (cbn in L; lia). Qed.

Lemma levels_spec : forall pl zn pressure temps ps ts i a plow out,
  (z_step pl = 1 \/ z_step pl = -1)%Z -> (0 <= zn)%Z -> length ps = length ts -> length out = Z.to_nat zn ->
  (forall j, (j < length ps)%nat ->
     getz pressure (p_in0 pl + (i + Z.of_nat j) * z_step pl) = Ok (nth j ps 0) /\
     getz temps (in0 pl + (i + Z.of_nat j) * z_step pl) = Ok (nth j ts 0)) ->
  exists st, levels pl zn pressure temps (length ps) i (a, plow, out) = Ok st /\
    length (snd st) = length out /\
    forall o, (o < length out)%nat ->
      (forall j, (j < length ps)%nat -> (out0 pl + (i + Z.of_nat j) * z_step pl)%Z = Z.of_nat o ->
         nth_error (snd st) o = Some (nth j (alts a plow ps ts) 0)) /\
      ((forall j, (j < length ps)%nat -> (out0 pl + (i + Z.of_nat j) * z_step pl)%Z <> Z.of_nat o) ->
         nth_error (snd st) o = nth_error out o).
Proof.
  intros pl zn pressure temps ps. induction ps as [ | p ps IH ]; intros ts i a plow out ST Hz L LO G.
  - cbn. exists (a, plow, out). split; [ reflexivity | ]. split; [ reflexivity | ]. intros o Ho. split; [ intros j Hj; lia | reflexivity ].
  - destruct ts as [ | t ts ]; [ discriminate | ]. cbn [length levels].
    assert (G0 := G 0%nat ltac:(cbn; lia)). cbn [nth] in G0. change (Z.of_nat 0) with 0%Z in G0. rewrite Z.add_0_r in G0.
    unfold level_step. rewrite (proj1 G0), (proj2 G0). cbn [obind].
    set (a' := a + layer_thickness plow p t). set (o0 := (out0 pl + i * z_step pl)%Z).
    assert (X : exists out', (if andb (0 <=? o0)%Z (o0 <? zn)%Z then setz out o0 a' else Ok out) = Ok out' /\
              length out' = length out /\
              forall o, (o < length out)%nat ->
                (o0 = Z.of_nat o -> nth_error out' o = Some a') /\ (o0 <> Z.of_nat o -> nth_error out' o = nth_error out o)).
    { destruct (andb (0 <=? o0)%Z (o0 <? zn)%Z) eqn:B.
      - rewrite setz_ok by lia. eexists. split; [ reflexivity | ]. split; [ apply length_upd | ].
        intros o Ho. split; intro E.
        + replace (Z.to_nat o0) with o by lia. now rewrite nth_error_upd_same by lia.
        + apply nth_error_upd_other. lia.
      - eexists. split; [ reflexivity | ]. split; [ reflexivity | ]. intros o Ho. split; [ lia | reflexivity ]. }
    destruct X as (out' & -> & L' & W). cbn [obind].
    destruct (IH ts (i + 1)%Z a' p out') as (st & -> & LS & SP); auto.
    { cbn in L. lia. }
    { intros j Hj. specialize (G (S j) ltac:(cbn; lia)). cbn [nth] in G.
      replace (i + Z.of_nat (S j))%Z with (i + 1 + Z.of_nat j)%Z in G by lia. exact G. }
    exists st. split; [ reflexivity | ]. split; [ lia | ]. intros o Ho.
    destruct (SP o ltac:(lia)) as (S1 & S2). destruct (W o Ho) as (W1 & W2). split.
    + intros j Hj E. destruct j as [ | j ].
      * cbn [nth alts]. fold a'. change (Z.of_nat 0) with 0%Z in E. rewrite Z.add_0_r in E. fold o0 in E. rewrite S2.
        -- exact (W1 E).
        -- intros j' Hj'. unfold o0 in E. nia.
      * cbn [nth alts]. fold a'. apply S1; [ lia | ]. rewrite <- E. f_equal. lia.
    + intros N. rewrite S2.
      * apply W2. intro E. apply (N 0%nat ltac:(lia)). rewrite <- E. unfold o0. f_equal. lia.
      * intros j Hj E. apply (N (S j) ltac:(lia)). rewrite <- E. f_equal. lia.
Qed.

Lemma getz_nth : forall (l : list R) (i : Z) k, i = Z.of_nat k -> (k < length l)%nat -> getz l i = Ok (nth k l 0).
Proof.
  intros l i k -> H. destruct (getz_ok l (Z.of_nat k)) as (a & -> & E); [ lia | ].
  rewrite Nat2Z.id in E. now rewrite (nth_error_nth _ _ 0 E).
Qed.

(** the altitudes of all levels of a column in the order of the file *)
Definition whole_column (sgp sap : R) (pressure temp : list R) (high_first : bool) : list R :=
  if high_first then alts (sgp / GRAVITY) sap pressure temp
  else rev (alts (sgp / GRAVITY) sap (rev pressure) (rev temp)).

Lemma alts_firstn : forall k ps ts a plow, alts a plow (firstn k ps) (firstn k ts) = firstn k (alts a plow ps ts).
Proof.
  induction k as [ | k IH ]; intros [ | p ps ] [ | t ts ] a plow; try reflexivity. cbn. now rewrite IH.
Qed.
Lemma nth_firstn : forall k (l : list R) j, (j < k)%nat -> nth j (firstn k l) 0 = nth j l 0.
Proof.
  induction k as [ | k IH ]; intros [ | x l ] [ | j ] H; try lia; try reflexivity. cbn. apply IH. lia.
Qed.
Lemma list_eq_nth : forall (l m : list R), length l = length m ->
  (forall i, (i < length l)%nat -> nth_error l i = Some (nth i m 0)) -> l = m.
Proof.
  induction l as [ | x l IH ]; intros [ | y m ] L H; try discriminate; [ reflexivity | ].
  f_equal.
  - specialize (H 0%nat ltac:(cbn; lia)). cbn in H. congruence.
  - apply IH; [ cbn in L; lia | ]. intros i Hi. apply (H (S i)). cbn. lia.
Qed.
Lemma nth_skipn : forall k (l : list R) j, nth j (skipn k l) 0 = nth (k + j) l 0.
Proof. induction k as [ | k IH ]; intros [ | x l ] j; try reflexivity; [ now destruct j | ]. cbn. apply IH. Qed.
Lemma last_nth_error : forall (l : list R) d q, nth_error l (length l - 1) = Some q -> last l d = q.
Proof.
  induction l as [ | x l IH ]; intros d q E; [ discriminate | ].
  destruct l as [ | y l ]; [ cbn in E |- *; congruence | ].
  change (last (x :: y :: l) d) with (last (y :: l) d). apply IH. rewrite <- E. cbn. now rewrite Nat.sub_0_r.
Qed.

(** a request for some levels gives these levels of the altitudes of the whole column, whichever way
    the levels are sorted, and reads and writes only inside the arrays *)
Theorem C66_part_of_column : forall sgp sap pressure temp zs zn p q,
  nth_error pressure 0 = Some p -> nth_error pressure (length pressure - 1) = Some q ->
  length temp = length pressure -> (zs + zn <= length pressure)%nat ->
  (q < p -> column_altitude sgp sap pressure temp zs zn =
     Ok (firstn zn (skipn zs (whole_column sgp sap pressure temp true)))) /\
  (p <= q -> column_altitude sgp sap pressure temp zs zn =
     Ok (firstn zn (skipn zs (whole_column sgp sap pressure temp false)))).
Proof.
  intros sgp sap pressure temp zs zn p q Ep Eq LT Hz. unfold column_altitude, whole_column.
  destruct pressure as [ | p' pr ]; [ discriminate | ]. cbn in Ep. injection Ep as ->.
  rewrite (last_nth_error _ p q Eq). set (P := p :: pr) in *. set (n := length P) in *.
  set (a := sgp / GRAVITY). split; intro H.
  - destruct (Rlt_dec q p); [ | contradiction ]. cbn [make_plan z_step p_in0 in0 out0 z_begin z_size].
    set (k := (zs + zn)%nat). replace (Z.to_nat (Z.of_nat zs + Z.of_nat zn)) with k by lia.
    change (Z.to_nat 0) with 0%nat. cbn [skipn].
    set (pl := {| z_step := 1 |}).
    assert (LP : length (firstn k P) = k) by (rewrite firstn_length; lia).
    assert (LF : length (firstn k temp) = k) by (rewrite firstn_length; lia).
    destruct (levels_spec pl (Z.of_nat zn) P (firstn k temp) (firstn k P) (firstn k temp) 0%Z a sap (repeat 0 zn))
      as (st & E & LS & S).
    { now left. } { lia. } { lia. } { rewrite repeat_length. lia. }
    { intros j Hj. rewrite LP in Hj. cbn [pl p_in0 in0 z_step]. split.
      - rewrite nth_firstn by exact Hj. apply getz_nth; lia.
      - apply getz_nth; lia. }
    rewrite LP in E. rewrite E. cbn [obind]. f_equal. rewrite repeat_length in *.
    assert (LA : length (alts a sap P temp) = n) by (now rewrite alts_length).
    apply list_eq_nth; [ rewrite LS, firstn_length, skipn_length; lia | ].
    intros o Ho. rewrite LS in Ho. destruct (S o Ho) as (S1 & _).
    rewrite (S1 (zs + o)%nat) by (cbn [pl out0 z_step]; lia).
    rewrite alts_firstn, nth_firstn by lia. rewrite nth_firstn by lia. now rewrite nth_skipn.
  - destruct (Rlt_dec q p); [ lra | ]. cbn [make_plan z_step p_in0 in0 out0 z_begin z_size].
    fold n. set (k := (n - zs)%nat). replace (Z.to_nat (Z.of_nat n - Z.of_nat zs)) with k by lia.
    rewrite Nat2Z.id. set (pl := {| z_step := -1 |}).
    set (PR := rev P) in *. set (TR := rev temp) in *.
    assert (LPR : length PR = n) by apply rev_length. assert (LTR : length TR = n) by (unfold TR; rewrite rev_length; lia).
    assert (LP : length (firstn k PR) = k) by (rewrite firstn_length; lia).
    assert (LF : length (firstn k TR) = k) by (rewrite firstn_length; lia).
    destruct (levels_spec pl (Z.of_nat zn) P (firstn k (skipn zs temp)) (firstn k PR) (firstn k TR) 0%Z a sap (repeat 0 zn))
      as (st & E & LS & S).
    { now right. } { lia. } { lia. } { rewrite repeat_length. lia. }
    { intros j Hj. rewrite LP in Hj. cbn [pl p_in0 in0 z_step]. rewrite !nth_firstn by exact Hj. split.
      - unfold PR. rewrite rev_nth by (fold n; lia). apply getz_nth; fold n; lia.
      - unfold TR. rewrite rev_nth by lia. rewrite (getz_nth _ _ (k - 1 - j)).
        + rewrite nth_firstn by lia. rewrite nth_skipn. do 2 f_equal. lia.
        + lia.
        + rewrite firstn_length, skipn_length. lia. }
    rewrite LP in E. rewrite E. cbn [obind]. f_equal. rewrite repeat_length in *.
    assert (LA : length (alts a sap PR TR) = n) by (rewrite alts_length; lia).
    apply list_eq_nth; [ rewrite LS, firstn_length, skipn_length, rev_length; lia | ].
    intros o Ho. rewrite LS in Ho. destruct (S o Ho) as (S1 & _).
    rewrite (S1 (k - 1 - o)%nat) by (cbn [pl out0 z_step]; lia).
    rewrite alts_firstn, nth_firstn by lia. rewrite nth_firstn by lia. rewrite nth_skipn.
    rewrite rev_nth by lia. do 2 f_equal. lia.
Qed.

(** altitudes rise from level to level if pressure falls and the temperature is positive *)
Theorem C66_rising : forall ps ts a plow, length ps = length ts -> Forall (fun t => 0 < t) ts -> Forall (fun p => 0 < p) ps ->
  (forall i u v, nth_error (plow :: ps) i = Some u -> nth_error (plow :: ps) (S i) = Some v -> v < u) ->
  forall i u v, nth_error (a :: alts a plow ps ts) i = Some u -> nth_error (a :: alts a plow ps ts) (S i) = Some v -> u < v.
Proof.
  induction ps as [ | p ps IH ]; intros [ | t ts ] a plow L FT FP M i u v Eu Ev; try discriminate; [ now destruct i | ].
  inversion FT as [ | ? ? Ht FT' ]. inversion FP as [ | ? ? Hp FP' ]. subst.
  assert (Hlow := M 0%nat plow p eq_refl eq_refl).
  cbn [alts] in Eu, Ev. set (a' := a + layer_thickness plow p t) in *.
  destruct i as [ | i ].
  - cbn in Eu, Ev. injection Eu as <-. injection Ev as <-.
    assert (T := proj1 (proj2 (proj2 (C41_thickness plow p p p t ltac:(lra) Hp Hp Hp))) Hlow Ht). unfold a'. lra.
  - cbn [nth_error] in Eu, Ev. apply (IH ts a' p ltac:(cbn in L; lia) FT' FP'
      (fun i u v A B => M (S i) u v A B) i u v); assumption.
Qed.

(** a column of constant temperature: the barometric height formula, added to the height of the ground *)
Theorem C66_isothermal : forall T ps a plow, 0 < plow -> Forall (fun p => 0 < p) ps ->
  alts a plow ps (repeat T (length ps)) = map (fun h => a + h) (barometric_height plow ps T).
Proof.
  intros T ps. induction ps as [ | p ps IH ]; intros a plow Hl F; [ reflexivity | ].
  inversion F as [ | ? ? Hp F' ]. subst. cbn [length repeat alts]. rewrite IH by assumption.
  unfold barometric_height. cbn [map]. f_equal.
  - f_equal. destruct (C41_thickness plow p p plow T Hl Hp Hp Hl) as (_ & _ & _ & hp & hq & E & ->).
    unfold barometric_height in E. cbn [map] in E. injection E as <- <-.
    unfold Rdiv. rewrite Rinv_r by lra. rewrite ln_1. ring.
  - rewrite !map_map. apply map_ext_in. intros x Hx.
    rewrite Forall_forall in F'. specialize (F' x Hx).
    destruct (C41_thickness plow p x plow T Hl Hp F' Hl) as (_ & A & _).
    unfold layer_thickness in *. 
    replace (- BAROMETRIC_FACTOR * T * ln (x / p)) with (ln (p / x) * T * BAROMETRIC_FACTOR).
    + replace (- BAROMETRIC_FACTOR * T * ln (x / plow)) with (ln (plow / x) * T * BAROMETRIC_FACTOR); [ lra | ].
      replace (x / plow) with (/ (plow / x)) by (field; lra). rewrite ln_Rinv by (apply Rdiv_lt_0_compat; lra). ring.
    + replace (x / p) with (/ (p / x)) by (field; lra). rewrite ln_Rinv by (apply Rdiv_lt_0_compat; lra). ring.
Qed.

Example C66_nonvacuous : forall sgp,
  column_altitude sgp 1000 [900; 800; 700] [280; 270; 260] 1 1 =
  Ok [sgp / GRAVITY + layer_thickness 1000 900 280 + layer_thickness 900 800 270] /\
  column_altitude sgp 1000 [700; 800; 900] [260; 270; 280] 1 1 =
  Ok [sgp / GRAVITY + layer_thickness 1000 900 280 + layer_thickness 900 800 270].
Proof.
  intro sgp. split.
  - rewrite (proj1 (C66_part_of_column sgp 1000 [900; 800; 700] [280; 270; 260] 1 1 900 700 eq_refl eq_refl eq_refl ltac:(cbn; lia))) by lra.
    reflexivity.
  - rewrite (proj2 (C66_part_of_column sgp 1000 [700; 800; 900] [260; 270; 280] 1 1 700 900 eq_refl eq_refl eq_refl ltac:(cbn; lia))) by lra.
    reflexivity.
Qed.

Print Assumptions C41_sigma_inverse.
Print Assumptions C41_sigma_ends.
Print Assumptions C41_ln_pressure.
Print Assumptions C41_hybrid_forms.
Print Assumptions C41_hybrid_ends.
Print Assumptions C41_sizes.
Print Assumptions C41_barometric_inverse.
Print Assumptions C41_standard_inverse.
Print Assumptions C41_barometric_monotone.
Print Assumptions C41_thickness.
Print Assumptions C41_omega_inverse.
Print Assumptions C41_omega_sign.
Print Assumptions C41_relative_range.
Print Assumptions C41_specific_nonnegative.
Print Assumptions C41_humidity_inverse.
Print Assumptions C41_humidity_inverse_back.
Print Assumptions C41_dewpoint.
Print Assumptions C41_dewpoint_monotone.
Print Assumptions C41_virtual_temperature.
Print Assumptions C41_constants.
Print Assumptions C41_ocean_ends.
Print Assumptions C41_ocean_agree.
Print Assumptions C41_ocean_monotone.
Print Assumptions C66_part_of_column.
Print Assumptions C66_rising.
Print Assumptions C66_isothermal.
