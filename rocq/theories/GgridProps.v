(** C106: the grid found in a written GRIB message is the grid of the variable *)
From Coq Require Import ZArith NArith String List Bool QArith Qcanon Qround Lia Lqa.
From Verif Require Import Base GribModel GwrModel GgridModel GgridProofs.
Import ListNotations.
Local Open Scope string_scope.
Local Open Scope list_scope.
Local Open Scope nat_scope.

(** values with the same distance [d] *)
Definition spaced (l : list Qc) (d : Qc) : Prop :=
  2 <= length l /\
  forall i, i < length l -> nth i l 0%Qc = (nth 0 l 0 + zq (Z.of_nat i) * d)%Qc.
(** the axis read is the one written, moved by whole turns *)
Definition same_axis (turns : Z) (l read : list Qc) : Prop :=
  length read = length l /\
  forall i, i < length l -> nth i read 0%Qc = (nth i l 0 + zq 360 * zq turns)%Qc.
(** the longitudes and latitudes of the grid of edition 1 (the axes) and 2 (the coordinates) *)
Definition lonlat_axes (e2 : bool) (g : geo) (xs ys : list Qc) : Prop :=
  if e2 then exists ll, g_ll g = Some ll /\ l_lon ll = xs /\ l_lat ll = ys
  else g_x g = Some xs /\ g_y g = Some ys.
(** the message before: the keys that are not written, but read *)
Definition template (h : handle) : Prop :=
  exists given v a, h "ijDirectionIncrementGiven" = Some (KL given) /\ (given <> 0)%Z /\
    h "jPointsAreConsecutive" = Some (KL v) /\ h "alternativeRowScanning" = Some (KL a).

Ltac keys := cbv [get_long get_double get_string canon existsb orb hset String.eqb Ascii.eqb Bool.eqb].

Lemma spaced_step l d : spaced l d -> step l = d.
Proof.
  intros [H2 H]. unfold step. rewrite (H 1) by lia. change (Z.of_nat 1) with 1%Z. rewrite zq_1. ring.
Qed.
Lemma spaced_final l d : spaced l d -> final l = (nth 0 l 0 + zq (Z.of_nat (length l) - 1) * d)%Qc.
Proof.
  intros [H2 H]. unfold final. rewrite (H (length l - 1)) by lia. rewrite Nat2Z.inj_sub by lia. reflexivity.
Qed.
Lemma spaced_small xs ys dx dy : spaced xs dx -> spaced ys dy -> small xs ys = false.
Proof.
  intros [Hx _] [Hy _]. unfold small. apply orb_false_iff. split; apply Nat.ltb_ge; lia.
Qed.

Definition after_lonlat (e2 : bool) (grid : string) (xs ys : list Qc) (pole : handle -> handle) (h : handle) : handle :=
  hset (hset (hset (hset (hset (hset (pole
    (hset (hset (hset (hset (hset h "typeOfGrid" (KS grid)) "Ni" (KL (Z.of_nat (length xs))))
                "Nj" (KL (Z.of_nat (length ys))))
          "iDirectionIncrementInDegrees" (KD (qabs (step xs))))
       "jDirectionIncrementInDegrees" (KD (qabs (step ys)))))
    "latitudeOfFirstGridPointInDegrees" (KD (nth 0 ys 0%Qc)))
    "longitudeOfFirstGridPointInDegrees" (KD (lon_in e2 (nth 0 xs 0%Qc))))
    "latitudeOfLastGridPointInDegrees" (KD (final ys)))
    "longitudeOfLastGridPointInDegrees" (KD (lon_in e2 (final xs))))
    "jScansPositively" (KL (if qltb (step ys) 0 then 0 else 1)%Z))
    "iScansNegatively" (KL (if qltb (step xs) 0 then 1 else 0)%Z).

Lemma lonlat_keys_run e2 grid xs ys (pole : act unit) p s :
  (grid = "regular_ll" \/ grid = "rotated_ll") ->
  (forall s, pole s = (mkW (p (w_h s)) (w_out s), inl tt)) ->
  lonlat_keys e2 grid xs ys pole s = (mkW (after_lonlat e2 grid xs ys p (w_h s)) (w_out s), inl tt).
Proof.
  intros Hg Hp. unfold lonlat_keys. destruct Hg as [-> | ->]; destruct e2;
    unfold bnd, scans, bnd, setg, setk; rewrite Hp; reflexivity.
Qed.

Lemma earth_after e2 show figure grid xs ys p h : (forall h, earth e2 show figure (p h) = earth e2 show figure h) ->
  earth e2 show figure (after_lonlat e2 grid xs ys p h) = earth e2 show figure h.
Proof.
  intros Hp. unfold after_lonlat.
  assert (E : forall h k v, In k ["typeOfGrid"; "Ni"; "Nj"; "iDirectionIncrementInDegrees"; "jDirectionIncrementInDegrees";
      "latitudeOfFirstGridPointInDegrees"; "longitudeOfFirstGridPointInDegrees"; "latitudeOfLastGridPointInDegrees";
      "longitudeOfLastGridPointInDegrees"; "jScansPositively"; "iScansNegatively"] ->
      earth e2 show figure (hset h k v) = earth e2 show figure h).
  { intros h' k v Hk. cbn [In] in Hk. unfold earth, oblate.
    repeat (destruct Hk as [<-|Hk]; [keys; reflexivity|]). destruct Hk. }
  rewrite !E by (cbn [In]; tauto). rewrite Hp. rewrite !E by (cbn [In]; tauto). reflexivity.
Qed.

(** the increment of a longitude axis that the reader finds *)
Lemma lon_step xs dx e2 : spaced xs dx -> (Z.of_nat (length xs) <= 360000)%Z ->
  let x0 := lon_in e2 (nth 0 xs 0%Qc) in
  let x1 := lon_in e2 (final xs) in
  let q := ((x1 - x0) / zq (Z.of_nat (length xs) - 1))%Qc in
  let i := signed (qltb dx 0) (qabs dx) in
  (if qltb thousandth (qabs (i - q)) then i else q) = dx.
Proof.
  intros Hs Hl x0 x1 q i.
  assert (Ei : i = dx).
  { unfold i, signed. destruct (qltb dx 0) eqn:E.
    - apply qltb_spec in E. rewrite (qabs_neg _ E). ring.
    - apply qltb_false in E. apply qabs_pos. exact E. }
  assert (Hn0 : zq (Z.of_nat (length xs) - 1) <> 0%Qc).
  { destruct Hs as [Hs _]. intros C. rewrite <- zq_0 in C. apply zq_inj in C. lia. }
  destruct (lon_in_spec e2 (nth 0 xs 0%Qc)) as (m & Em). destruct (lon_in_spec e2 (final xs)) as (k & Ek).
  assert (Eq : (i - q = - (zq 360 * zq (k - m) / zq (Z.of_nat (length xs) - 1)))%Qc).
  { unfold q, x0, x1. rewrite Ei, Em, Ek, (spaced_final _ _ Hs), (zq_sub k m). field. exact Hn0. }
  destruct (Z.eq_dec (k - m) 0) as [Z|Z].
  - assert (E : q = dx).
    { rewrite Z, zq_0 in Eq. replace q with (i - (i - q))%Qc by ring. rewrite Eq, Ei. field. exact Hn0. }
    rewrite Ei, E. destruct (qltb thousandth _); reflexivity.
  - assert (H : qltb thousandth (qabs (i - q)) = true).
    { apply qltb_spec. rewrite Eq.
      replace (- (zq 360 * zq (k - m) / zq (Z.of_nat (length xs) - 1)))%Qc
        with (zq 360 * zq (m - k) / zq (Z.of_nat (length xs) - 1))%Qc.
      - apply spread; [lia|]. destruct Hs. lia.
      - rewrite (zq_sub k m), (zq_sub m k). field. exact Hn0. }
    rewrite H. exact Ei.
Qed.
Lemma lat_step ys dy : spaced ys dy ->
  let q := ((final ys - nth 0 ys 0) / zq (Z.of_nat (length ys) - 1))%Qc in
  let i := signed (qltb dy 0) (qabs dy) in
  (if qltb thousandth (qabs (i - q)) then i else q) = dy.
Proof.
  intros Hs q i.
  assert (Ei : i = dy).
  { unfold i, signed. destruct (qltb dy 0) eqn:E.
    - apply qltb_spec in E. rewrite (qabs_neg _ E). ring.
    - apply qltb_false in E. apply qabs_pos. exact E. }
  assert (Eq : q = dy).
  { unfold q. rewrite (spaced_final _ _ Hs). field. destruct Hs as [Hs _]. intros C. rewrite <- zq_0 in C. apply zq_inj in C. lia. }
  rewrite Ei, Eq. destruct (qltb thousandth _); reflexivity.
Qed.

Lemma axis_points l d m : spaced l d -> same_axis m l (points (Z.of_nat (length l)) (nth 0 l 0 + zq 360 * zq m)%Qc d).
Proof.
  intros [H2 H]. split; [rewrite points_length; apply Nat2Z.id|].
  intros i Hi. rewrite points_nth by (rewrite Nat2Z.id; exact Hi). rewrite (H i Hi). ring.
Qed.

(** what the reader finds in the keys of regular and rotated grids *)
Lemma read_keys e2 grid xs ys p h given v a :
  (forall h k, In k ["typeOfGrid"; "Ni"; "Nj"; "iDirectionIncrementInDegrees"; "jDirectionIncrementInDegrees";
      "ijDirectionIncrementGiven"; "jPointsAreConsecutive"; "alternativeRowScanning"] -> p h k = h k) ->
  h "ijDirectionIncrementGiven" = Some (KL given) ->
  h "jPointsAreConsecutive" = Some (KL v) -> h "alternativeRowScanning" = Some (KL a) ->
  let h' := after_lonlat e2 grid xs ys p h in
  get_string h' "typeOfGrid" = Some grid /\
  get_long h' "Ni" = Some (Z.of_nat (length xs)) /\ get_long h' "Nj" = Some (Z.of_nat (length ys)) /\
  get_double h' "longitudeOfFirstGridPointInDegrees" = Some (lon_in e2 (nth 0 xs 0%Qc)) /\
  get_double h' "latitudeOfFirstGridPointInDegrees" = Some (nth 0 ys 0%Qc) /\
  get_double h' "longitudeOfLastGridPointInDegrees" = Some (lon_in e2 (final xs)) /\
  get_double h' "latitudeOfLastGridPointInDegrees" = Some (final ys) /\
  get_long h' "ijDirectionIncrementGiven" = Some given /\
  get_double h' "iDirectionIncrementInDegrees" = Some (qabs (step xs)) /\
  get_double h' "jDirectionIncrementInDegrees" = Some (qabs (step ys)) /\
  orientation h' = Some (qltb (step xs) 0, negb (qltb (step ys) 0), negb (v =? 0)%Z, negb (a =? 0)%Z).
Proof.
  intros Hp Kg Kv Ka h'. unfold h', after_lonlat, orientation. keys.
  rewrite !Hp by (cbn [In]; tauto). rewrite Kg, Kv, Ka. keys. cbn [obnd].
  repeat split. destruct (qltb (step xs) 0), (qltb (step ys) 0); reflexivity.
Qed.

Theorem C106_regular e2 lat_of_scale show show6 figure project g ps xs ys dx dy s e :
  g_proj g = Some ("latitude_longitude", ps) ->
  lonlat_axes e2 g xs ys -> spaced xs dx -> spaced ys dy -> (Z.of_nat (length xs) <= 360000)%Z ->
  template (w_h s) -> earth e2 show figure (w_h s) = Some e ->
  exists s' d turns,
    set_projection e2 lat_of_scale g s = (s', inl tt) /\ w_out s' = w_out s /\
    read_grid e2 show show6 figure project (w_h s') = Some d /\
    d_proj d = ("+proj=longlat " ++ e ++ " +no_defs")%string /\ d_degree d = true /\
    same_axis turns xs (x_axis d) /\ (zq (-180) <= nth 0 (x_axis d) 0 <= zq 180)%Qc /\
    same_axis 0 ys (y_axis d) /\ d_right d = qltb dx 0 /\ d_bottom d = negb (qltb dy 0).
Proof.
  intros Hp Ha Hx Hy Hl (given & v & a & Kg & Hg & Kv & Ka) He.
  pose proof (spaced_step _ _ Hx) as Ex. pose proof (spaced_step _ _ Hy) as Ey.
  assert (W : set_projection e2 lat_of_scale g s
              = (mkW (after_lonlat e2 "regular_ll" xs ys (fun h : handle => h) (w_h s)) (w_out s), inl tt)).
  { unfold set_projection. rewrite Hp. cbn [String.eqb Ascii.eqb Bool.eqb orb]. unfold regular.
    assert (R : (if e2 then match g_ll g with Some ll => ret (l_lon ll, l_lat ll) | None => fail Cdm end
                 else bnd (axis (g_x g)) (fun xs => bnd (axis (g_y g)) (fun ys => ret (xs, ys)))) s
                = (s, inl (xs, ys))).
    { destruct e2; cbn [lonlat_axes] in Ha.
      - destruct Ha as (ll & -> & <- & <-). reflexivity.
      - destruct Ha as [-> ->]. reflexivity. }
    unfold bnd at 1. rewrite R. rewrite (spaced_small _ _ _ _ Hx Hy).
    apply lonlat_keys_run; [now left|]. intros [h o]. reflexivity. }
  destruct (lon_in_spec e2 (nth 0 xs 0%Qc)) as (m & Em).
  destruct (norm_spec (lon_in e2 (nth 0 xs 0%Qc))) as (k & Ek & Hk).
  set (h' := after_lonlat e2 "regular_ll" xs ys (fun h : handle => h) (w_h s)) in *.
  assert (He' : earth e2 show figure h' = Some e) by (unfold h'; rewrite earth_after; [exact He | reflexivity]).
  set (d := mkG ("+proj=longlat " ++ e ++ " +no_defs") true (Z.of_nat (length xs)) (Z.of_nat (length ys)) dx dy
                (lon_in e2 (nth 0 xs 0%Qc)) (nth 0 ys 0%Qc) (qltb dx 0) (negb (qltb dy 0)) (negb (v =? 0)%Z) (negb (a =? 0)%Z)).
  exists (mkW h' (w_out s)), d, (m + k)%Z.
  assert (X : x_axis d = points (Z.of_nat (length xs)) (nth 0 xs 0 + zq 360 * zq (m + k))%Qc dx).
  { unfold x_axis, d. cbn [d_nx d_degree d_x0 d_dx]. rewrite Ek, Em, zq_add.
    replace (nth 0 xs 0 + zq 360 * zq m + zq 360 * zq k)%Qc with (nth 0 xs 0 + zq 360 * (zq m + zq k))%Qc by ring.
    reflexivity. }
  split; [exact W|]. split; [reflexivity|]. split.
  { destruct (read_keys e2 "regular_ll" xs ys (fun h : handle => h) (w_h s) given v a) as
      (T & T1 & T2 & T3 & T4 & T5 & T6 & T7 & T8 & T9 & T10); [reflexivity | exact Kg | exact Kv | exact Ka |].
    fold h' in T, T1, T2, T3, T4, T5, T6, T7, T8, T9, T10. rewrite Ex in T8, T10. rewrite Ey in T9, T10.
    clearbody h'. cbn [w_h].
    unfold read_grid. rewrite T. cbn [obnd String.eqb Ascii.eqb Bool.eqb]. unfold read_regular.
    rewrite T1, T2, T3, T4, T10, T7, T5, T6. cbn [obnd]. rewrite (proj2 (Z.eqb_neq _ _) Hg), T8, T9, He'. cbn [obnd].
    rewrite negb_involutive.
    rewrite (lon_step xs dx e2 Hx Hl), (lat_step ys dy Hy). reflexivity. }
  split; [reflexivity|]. split; [reflexivity|].
  split; [rewrite X; apply axis_points; exact Hx|].
  split. { rewrite X, points_nth by (destruct Hx; lia). change (Z.of_nat 0) with 0%Z. rewrite zq_0.
           replace (nth 0 xs 0 + zq 360 * zq (m + k) + 0 * dx)%Qc with (norm180 (lon_in e2 (nth 0 xs 0%Qc))).
           - exact Hk.
           - rewrite Ek, Em, zq_add. ring. }
  split; [|now split].
  assert (Y : y_axis d = points (Z.of_nat (length ys)) (nth 0 ys 0 + zq 360 * zq 0)%Qc dy).
  { unfold y_axis, d. cbn [d_ny d_y0 d_dy]. rewrite zq_0.
    replace (nth 0 ys 0 + zq 360 * 0)%Qc with (nth 0 ys 0%Qc) by ring. reflexivity. }
  rewrite Y. apply axis_points. exact Hy.
Qed.

Lemma trunc_zq z : trunc (zq z) = z.
Proof.
  unfold trunc, zq. cbn [this Q2Qc].
  assert (E : Qred (inject_Z z) = inject_Z z).
  { unfold inject_Z. apply (proj1 (Qred_identity2 (z # 1))) || idtac. apply Qred_identity. cbn. now rewrite Z.gcd_1_r. }
  rewrite E. cbn [inject_Z Qnum Qden]. apply Z.quot_1_r.
Qed.
Lemma to_long_zq z : (- 2 ^ 63 <= z < 2 ^ 63)%Z -> to_long (zq z) = inl z.
Proof.
  intros H. unfold to_long. rewrite trunc_zq.
  rewrite (proj2 (Z.leb_le _ _)) by apply H. rewrite (proj2 (Z.ltb_lt _ _)) by apply H. reflexivity.
Qed.
Lemma lon_in_bounds e2 z : (Z.abs z < 2 ^ 62)%Z -> exists m, lon_in e2 (zq z) = zq (z + 360 * m) /\ (- 2 ^ 63 <= z + 360 * m < 2 ^ 63)%Z.
Proof.
  intros Hz. unfold lon_in. destruct e2.
  - destruct (clamp_spec (zq z)) as (m & E & L & U). exists m. rewrite zq_add, zq_mul. split; [exact E|].
    rewrite E, <- zq_mul, <- zq_add in L, U. rewrite <- zq_0 in L. apply (proj2 (zq_le 0 _)) in L. apply (proj2 (zq_le _ _)) in U. lia.
  - unfold raise_lon. destruct (up_to_spec (zq 360) 0 (zq z) turn_pos) as (m & E & M & L & U). exists m.
    rewrite zq_add, zq_mul. split; [exact E|].
    rewrite E, <- zq_mul, <- zq_add in L, U. rewrite <- zq_0 in L. apply (proj2 (zq_le 0 _)) in L.
    destruct U as [U|U]; [|lia]. replace (0 + zq 360)%Qc with (zq 360) in U by ring. apply (proj2 (zq_lt _ _)) in U. lia.
Qed.
Lemma south_lat z : (-90 <= z <= 90)%Z -> up_to (zq 180) (zq (-90)) (- zq z)%Qc = zq (- z).
Proof.
  intros Hz. destruct (up_to_spec (zq 180) (zq (-90)) (- zq z)%Qc) as (m & E & M & L & U); [reflexivity|].
  rewrite <- zq_opp, <- zq_mul, <- zq_add in E. rewrite <- zq_opp in *. rewrite E in *.
  assert (m = 0)%Z as ->; [|f_equal; lia].
  destruct U as [U|U]; [|exact U]. rewrite <- zq_add in U. apply (proj2 (zq_lt _ _)) in U. lia.
Qed.

Theorem C106_rotated e2 lat_of_scale show show6 figure project g ps xs ys dx dy s e plon plat l1 l2 :
  g_proj g = Some ("rotated_latitude_longitude", ps) ->
  attr ps "grid_north_pole_longitude" = Some (zq plon :: l1) -> (Z.abs plon < 2 ^ 61)%Z ->
  attr ps "grid_north_pole_latitude" = Some (zq plat :: l2) -> (-90 <= plat <= 90)%Z ->
  g_x g = Some xs -> g_y g = Some ys -> spaced xs dx -> spaced ys dy ->
  template (w_h s) -> earth e2 show figure (w_h s) = Some e ->
  exists s' d turns turns',
    set_projection e2 lat_of_scale g s = (s', inl tt) /\ w_out s' = w_out s /\
    read_grid e2 show show6 figure project (w_h s') = Some d /\
    (-180 <= plon - 180 + 360 * turns' <= 180)%Z /\
    d_proj d = ("+proj=ob_tran +o_proj=longlat +lon_0=" ++ show6 (zq (plon - 180 + 360 * turns'))
                ++ " +o_lat_p=" ++ show6 (zq plat) ++ " " ++ e ++ " +no_defs")%string /\ d_degree d = true /\
    same_axis turns xs (x_axis d) /\ (zq (-180) <= nth 0 (x_axis d) 0 <= zq 180)%Qc /\
    same_axis 0 ys (y_axis d) /\ d_right d = qltb dx 0 /\ d_bottom d = negb (qltb dy 0).
Proof.
  intros Hp A1 B1 A2 B2 Gx Gy Hx Hy (given & v & a & Kg & Hg & Kv & Ka) He.
  pose proof (spaced_step _ _ Hx) as Ex. pose proof (spaced_step _ _ Hy) as Ey.
  destruct (lon_in_bounds e2 (plon - 180)) as (mp & Emp & Bmp); [lia|].
  set (p := fun h : handle => hset (hset h "latitudeOfSouthernPoleInDegrees" (KL (- plat)))
                                   "longitudeOfSouthernPoleInDegrees" (KL (plon - 180 + 360 * mp))).
  assert (W : set_projection e2 lat_of_scale g s
              = (mkW (after_lonlat e2 "rotated_ll" xs ys p (w_h s)) (w_out s), inl tt)).
  { unfold set_projection. rewrite Hp. cbn [String.eqb Ascii.eqb Bool.eqb orb]. unfold rotated.
    rewrite Gx, Gy. cbn [axis]. unfold bnd at 1. unfold ret at 1. unfold bnd at 1. unfold ret at 1.
    rewrite (spaced_small _ _ _ _ Hx Hy), A1, A2. cbn [first]. unfold bnd at 1. unfold ret at 1.
    unfold bnd at 1. unfold ret at 1.
    rewrite (south_lat plat B2), <- zq_sub, Emp. rewrite !to_long_zq by lia.
    cbn [lift]. unfold bnd at 1. unfold ret at 1. unfold bnd at 1. unfold ret at 1.
    apply lonlat_keys_run; [now right|]. intros [h o]. reflexivity. }
  destruct (lon_in_spec e2 (nth 0 xs 0%Qc)) as (m & Em).
  destruct (norm_spec (lon_in e2 (nth 0 xs 0%Qc))) as (k & Ek & Hk).
  destruct (norm_spec (zq (plon - 180 + 360 * mp))) as (q & Eq & Hq).
  rewrite <- zq_mul, <- zq_add in Eq.
  set (h' := after_lonlat e2 "rotated_ll" xs ys p (w_h s)) in *.
  assert (He' : earth e2 show figure h' = Some e).
  { unfold h'. rewrite earth_after; [exact He|]. intros h. unfold p, earth, oblate. keys. reflexivity. }
  set (d := mkG ("+proj=ob_tran +o_proj=longlat +lon_0=" ++ show6 (zq (plon - 180 + 360 * (mp + q)))
                ++ " +o_lat_p=" ++ show6 (zq plat) ++ " " ++ e ++ " +no_defs") true (Z.of_nat (length xs)) (Z.of_nat (length ys)) dx dy
                (lon_in e2 (nth 0 xs 0%Qc)) (nth 0 ys 0%Qc) (qltb dx 0) (negb (qltb dy 0)) (negb (v =? 0)%Z) (negb (a =? 0)%Z)).
  exists (mkW h' (w_out s)), d, (m + k)%Z, (mp + q)%Z.
  assert (X : x_axis d = points (Z.of_nat (length xs)) (nth 0 xs 0 + zq 360 * zq (m + k))%Qc dx).
  { unfold x_axis, d. cbn [d_nx d_degree d_x0 d_dx]. rewrite Ek, Em, zq_add.
    replace (nth 0 xs 0 + zq 360 * zq m + zq 360 * zq k)%Qc with (nth 0 xs 0 + zq 360 * (zq m + zq k))%Qc by ring.
    reflexivity. }
  split; [exact W|]. split; [reflexivity|]. split.
  { destruct (read_keys e2 "rotated_ll" xs ys p (w_h s) given v a) as
      (T & T1 & T2 & T3 & T4 & T5 & T6 & T7 & T8 & T9 & T10); [ | exact Kg | exact Kv | exact Ka |].
    { intros h k0 Hk0. cbn [In] in Hk0. unfold p. repeat (destruct Hk0 as [<-|Hk0]; [reflexivity|]). destruct Hk0. }
    assert (T11 : get_double h' "longitudeOfSouthernPoleInDegrees" = Some (zq (plon - 180 + 360 * mp))) by reflexivity.
    assert (T12 : get_double h' "latitudeOfSouthernPoleInDegrees" = Some (zq (- plat))) by reflexivity.
    fold h' in T, T1, T2, T3, T4, T5, T6, T7, T8, T9, T10. rewrite Ex in T8, T10. rewrite Ey in T9, T10.
    clearbody h'. cbn [w_h].
    unfold read_grid. rewrite T. cbn [obnd String.eqb Ascii.eqb Bool.eqb orb]. unfold read_rotated.
    rewrite T1, T2, T3, T4, T10, T7, T11, T12. cbn [obnd]. rewrite (proj2 (Z.eqb_neq _ _) Hg), T8, T9, He'. cbn [obnd].
    rewrite negb_involutive.
    assert (S1 : forall z, signed (qltb z 0) (qabs z) = z).
    { intros z. unfold signed. destruct (qltb z 0) eqn:E.
      - apply qltb_spec in E. rewrite (qabs_neg _ E). ring.
      - apply qltb_false in E. apply qabs_pos. exact E. }
    rewrite !S1, Eq. rewrite <- zq_opp, Z.opp_involutive.
    replace (plon - 180 + 360 * mp + 360 * q)%Z with (plon - 180 + 360 * (mp + q))%Z by lia. reflexivity. }
  split. { rewrite Eq in Hq. destruct Hq as [L U]. apply (proj2 (zq_le _ _)) in L. apply (proj2 (zq_le _ _)) in U. lia. }
  split; [reflexivity|]. split; [reflexivity|].
  split; [rewrite X; apply axis_points; exact Hx|].
  split. { rewrite X, points_nth by (destruct Hx; lia). change (Z.of_nat 0) with 0%Z. rewrite zq_0.
           replace (nth 0 xs 0 + zq 360 * zq (m + k) + 0 * dx)%Qc with (norm180 (lon_in e2 (nth 0 xs 0%Qc))).
           - exact Hk.
           - rewrite Ek, Em, zq_add. ring. }
  split; [|now split].
  assert (Y : y_axis d = points (Z.of_nat (length ys)) (nth 0 ys 0 + zq 360 * zq 0)%Qc dy).
  { unfold y_axis, d. cbn [d_ny d_y0 d_dy]. rewrite zq_0.
    replace (nth 0 ys 0 + zq 360 * 0)%Qc with (nth 0 ys 0%Qc) by ring. reflexivity. }
  rewrite Y. apply axis_points. exact Hy.
Qed.

(** the PROJ.4 texts *)
Definition lcc_text (show6 : Qc -> string) (lat1 lon0 lat2 : Qc) (e : string) : string :=
  ("+proj=lcc +lat_0=" ++ show6 lat1 ++ " +lon_0=" ++ show6 lon0 ++ " +lat_1=" ++ show6 lat1
   ++ "  +lat_2=" ++ show6 lat2 ++ " " ++ e ++ " +no_defs")%string.
Definition stere_text (show6 : Qc -> string) (lat0 lon0 ts : Qc) (e : string) : string :=
  ("+proj=stere +lat_0=" ++ show6 lat0 ++ " +lon_0=" ++ show6 lon0 ++ " +lat_ts=" ++ show6 ts
   ++ " " ++ e ++ " +no_defs")%string.
(** the projection gives the first point of the grid for its longitude and latitude *)
Definition projects (project : string -> Qc -> Qc -> option (Qc * Qc)) (text : string) (lon lat : Qc)
    (xs ys : list Qc) : Prop :=
  forall turns, project text (lon + zq 360 * zq turns)%Qc lat = Some (nth 0 xs 0%Qc, nth 0 ys 0%Qc).
(** the longitude [l] in [-180, 180] *)
Definition within_turn (x y : Qc) : Prop :=
  (zq (-180) <= y <= zq 180)%Qc /\ exists m, y = (x + zq 360 * zq m)%Qc.

Lemma same_points l d : spaced l d -> same_axis 0 l (points (Z.of_nat (length l)) (nth 0 l 0%Qc) d).
Proof.
  intros H. pose proof (axis_points l d 0 H) as A. rewrite zq_0 in A.
  replace (nth 0 l 0 + zq 360 * 0)%Qc with (nth 0 l 0%Qc) in A by ring. exact A.
Qed.
Lemma turned (e2 : bool) x : exists m, (if e2 then clamp_lon x else x) = (x + zq 360 * zq m)%Qc.
Proof.
  destruct e2.
  - destruct (clamp_spec x) as (m & E & _). now exists m.
  - exists 0%Z. rewrite zq_0. ring.
Qed.
Lemma normed e2 x : within_turn x (norm180 (if e2 : bool then clamp_lon x else x)).
Proof.
  destruct (turned e2 x) as (m & Em). destruct (norm_spec (if e2 then clamp_lon x else x)) as (k & Ek & B).
  split; [exact B|]. exists (m + k)%Z. rewrite Ek, Em, zq_add. ring.
Qed.

Lemma run_bnd {A B} (m : act A) (f : A -> act B) s s' a : m s = (s', inl a) -> bnd m f s = f a s'.
Proof. intros E. unfold bnd. now rewrite E. Qed.

Theorem C106_lambert e2 lat_of_scale show show6 figure project g ps xs ys dx dy s e lat1 rest cm l1 ll lon lon' lat lat' v a :
  g_proj g = Some ("lambert_conformal_conic", ps) ->
  attr ps "standard_parallel" = Some (lat1 :: rest) ->
  attr ps "longitude_of_central_meridian" = Some (cm :: l1) ->
  g_x g = Some xs -> g_y g = Some ys -> spaced xs dx -> spaced ys dy -> (0 < dx)%Qc -> (0 < dy)%Qc ->
  g_ll g = Some ll -> l_lon ll = lon :: lon' -> l_lat ll = lat :: lat' ->
  w_h s "jPointsAreConsecutive" = Some (KL v) -> w_h s "alternativeRowScanning" = Some (KL a) ->
  earth e2 show figure (w_h s) = Some e ->
  (forall lon0, within_turn cm lon0 ->
     projects project (lcc_text show6 lat1 lon0 (hd lat1 rest) e) lon lat xs ys) ->
  exists s' d lon0,
    set_projection e2 lat_of_scale g s = (s', inl tt) /\ w_out s' = w_out s /\
    read_grid e2 show show6 figure project (w_h s') = Some d /\
    within_turn cm lon0 /\ d_proj d = lcc_text show6 lat1 lon0 (hd lat1 rest) e /\ d_degree d = false /\
    same_axis 0 xs (x_axis d) /\ same_axis 0 ys (y_axis d) /\ d_right d = false /\ d_bottom d = true.
Proof.
  intros Hp A1 A2 Gx Gy Hx Hy Px Py Gl El Elat Kv Ka He Hproj.
  pose proof (spaced_step _ _ Hx) as Ex. pose proof (spaced_step _ _ Hy) as Ey.
  assert (Nx : qltb dx 0 = false) by (apply qltb_false, Qclt_le_weak, Px).
  assert (Ny : qltb dy 0 = false) by (apply qltb_false, Qclt_le_weak, Py).
  set (q := if e2 then clamp_lon cm else cm).
  pose proof (normed e2 cm) as HN. fold q in HN.
  destruct (turned e2 lon) as (m & Em). set (x := if e2 then clamp_lon lon else lon) in *.
  set (h' := hset (hset (hset (hset (hset (hset (hset (hset (hset (hset (hset (hset (w_h s)
     "typeOfGrid" (KS "lambert")) "Ni" (KL (Z.of_nat (length xs)))) "Nj" (KL (Z.of_nat (length ys))))
     "DxInMetres" (KD (qabs (step xs)))) "DyInMetres" (KD (qabs (step ys)))) "Latin1InDegrees" (KD lat1))
     "Latin2InDegrees" (KD (hd lat1 rest))) "LoVInDegrees" (KD q)) "latitudeOfFirstGridPointInDegrees" (KD lat))
     "longitudeOfFirstGridPointInDegrees" (KD x)) "jScansPositively" (KL 1)) "iScansNegatively" (KL 0)).
  assert (W : set_projection e2 lat_of_scale g s = (mkW h' (w_out s), inl tt)).
  { unfold set_projection. rewrite Hp. cbn [String.eqb Ascii.eqb Bool.eqb orb]. unfold lambert.
    rewrite A1, A2, Gx, Gy, Gl, El, Elat. unfold axis.
    erewrite run_bnd by reflexivity. erewrite run_bnd by reflexivity. erewrite run_bnd by reflexivity.
    rewrite (spaced_small _ _ _ _ Hx Hy). unfold scans, h'. rewrite Ex, Ey, Nx, Ny.
    unfold q, x. destruct rest; reflexivity. }
  assert (He' : earth e2 show figure h' = Some e).
  { rewrite <- He. unfold earth, oblate, h'. keys. reflexivity. }
  exists (mkW h' (w_out s)),
    (mkG (lcc_text show6 lat1 (norm180 q) (hd lat1 rest) e) false (Z.of_nat (length xs)) (Z.of_nat (length ys)) dx dy
         (nth 0 xs 0%Qc) (nth 0 ys 0%Qc) false true (negb (v =? 0)%Z) (negb (a =? 0)%Z)), (norm180 q).
  split; [exact W|]. split; [reflexivity|]. split.
  { cbn [w_h]. assert (T : get_string h' "typeOfGrid" = Some "lambert") by reflexivity.
    unfold read_grid. rewrite T. cbn [obnd String.eqb Ascii.eqb Bool.eqb orb]. unfold read_lambert.
    assert (M : metric h' = Some (Z.of_nat (length xs), Z.of_nat (length ys), dx, dy, x, lat)).
    { rewrite <- (qabs_pos dx) by (apply Qclt_le_weak, Px). rewrite <- (qabs_pos dy) by (apply Qclt_le_weak, Py).
      rewrite <- Ex, <- Ey. reflexivity. }
    rewrite M, He'. cbn [obnd].
    assert (O : orientation h' = Some (false, true, negb (v =? 0)%Z, negb (a =? 0)%Z)).
    { unfold orientation, h'. keys. rewrite Kv, Ka. reflexivity. }
    assert (G : get_double h' "LoVInDegrees" = Some q /\ get_double h' "Latin1InDegrees" = Some lat1 /\
                get_double h' "Latin2InDegrees" = Some (hd lat1 rest)) by (repeat split).
    destruct G as (-> & -> & ->). cbn [obnd]. fold (lcc_text show6 lat1 (norm180 q) (hd lat1 rest) e).
    unfold projected. rewrite Em. rewrite (Hproj _ HN m). cbn [obnd]. rewrite O. reflexivity. }
  split; [exact HN|]. split; [reflexivity|]. split; [reflexivity|].
  split; [apply same_points; exact Hx|]. split; [apply same_points; exact Hy|]. now split.
Qed.

(** The projection of stereographic grids: orientation and true latitude *)
Inductive stere_params (e2 : bool) (lat_of_scale : Qc -> Qc) :
    string -> list (string * list Qc) -> Qc -> Qc -> Prop :=
| SP_polar ps o l : e2 = false -> attr ps "straight_vertical_longitude_from_pole" = Some (o :: l) ->
    stere_params e2 lat_of_scale "polar_stereographic" ps o (zq 60)
| SP_tangent ps o l lat l' : attr ps "longitude_of_projection_origin" = Some (o :: l) ->
    attr ps "latitude_of_projection_origin" = Some (lat :: l') -> (zq 90 <= lat)%Qc ->
    attr ps "scale_factor_at_projection_origin" = None ->
    stere_params e2 lat_of_scale "stereographic" ps o (if e2 then zq 90 else zq 60)
| SP_scale ps o l lat l' sc l'' : attr ps "longitude_of_projection_origin" = Some (o :: l) ->
    attr ps "latitude_of_projection_origin" = Some (lat :: l') -> (zq 90 <= lat)%Qc ->
    attr ps "scale_factor_at_projection_origin" = Some (sc :: l'') ->
    (e2 = false -> lat_of_scale sc = zq 60) ->
    stere_params e2 lat_of_scale "stereographic" ps o (lat_of_scale sc).

Theorem C106_stereographic e2 lat_of_scale show show6 figure project g name ps xs ys nx ny dx dy s e o ts ll
    lon lon' lat lat' i j v a :
  g_proj g = Some (name, ps) -> stere_params e2 lat_of_scale name ps o ts ->
  g_x g = Some xs -> g_y g = Some ys -> spaced xs dx -> spaced ys dy ->
  (e2 = false -> dx = zq nx /\ dy = zq ny /\ (- 2 ^ 63 <= nx < 2 ^ 63)%Z /\ (- 2 ^ 63 <= ny < 2 ^ 63)%Z) ->
  g_ll g = Some ll -> l_lon ll = lon :: lon' -> l_lat ll = lat :: lat' ->
  (e2 = false -> l_rawlon ll = l_lon ll /\ l_rawlat ll = l_lat ll) ->
  w_h s "iScansNegatively" = Some (KL i) -> w_h s "jScansPositively" = Some (KL j) ->
  w_h s "jPointsAreConsecutive" = Some (KL v) -> w_h s "alternativeRowScanning" = Some (KL a) ->
  w_h s (if e2 then "projectionCentreFlag" else "projectionCenterFlag") = Some (KL 0) ->
  earth e2 show figure (w_h s) = Some e ->
  (forall lon0, within_turn o lon0 -> projects project (stere_text show6 (zq 90) lon0 ts e) lon lat xs ys) ->
  exists s' d lon0,
    set_projection e2 lat_of_scale g s = (s', inl tt) /\ w_out s' = w_out s /\
    read_grid e2 show show6 figure project (w_h s') = Some d /\
    within_turn o lon0 /\ d_proj d = stere_text show6 (zq 90) lon0 ts e /\ d_degree d = false /\
    same_axis 0 xs (x_axis d) /\ same_axis 0 ys (y_axis d).
Proof.
  intros Hp SP Gx Gy Hx Hy Hm Gl El Elat Raw Ki Kj Kv Ka Kc He Hproj.
  pose proof (spaced_step _ _ Hx) as Ex. pose proof (spaced_step _ _ Hy) as Ey.
  set (q := if e2 then clamp_lon o else o).
  pose proof (normed e2 o) as HN. fold q in HN.
  destruct (turned e2 lon) as (m & Em). set (x := if e2 then clamp_lon lon else lon) in *.
  set (h0 := hset (hset (hset (hset (hset (hset (hset (hset (w_h s)
     "typeOfGrid" (KS "polar_stereographic")) "Ni" (KL (Z.of_nat (length xs)))) "Nj" (KL (Z.of_nat (length ys))))
     "DxInMetres" (if e2 then KD dx else KL nx)) "DyInMetres" (if e2 then KD dy else KL ny))
     "latitudeOfFirstGridPointInDegrees" (KD lat))
     "longitudeOfFirstGridPointInDegrees" (KD x)) "orientationOfTheGridInDegrees" (KD q)).
  set (h' := if e2 then hset h0 "latitudeWhereDxAndDyAreSpecifiedInDegrees" (KD ts) else h0).
  assert (Hts : e2 = false -> ts = zq 60).
  { intros F. inversion SP; subst; try reflexivity. auto. }
  assert (W : set_projection e2 lat_of_scale g s = (mkW h' (w_out s), inl tt)).
  { unfold set_projection. rewrite Hp.
    assert (N : String.eqb name "stereographic" || String.eqb name "polar_stereographic" = true)
      by (inversion SP; reflexivity).
    rewrite N. unfold stereographic.
    match goal with |- bnd ?m _ s = _ => assert (P : m s = (s, inl (ts, o))) end.
    { inversion SP; subst.
      - cbn [String.eqb Ascii.eqb Bool.eqb]. unfold attr_or. rewrite H0. reflexivity.
      - replace (String.eqb "stereographic" (if e2 then "polar_stereograhpic" else "polar_stereographic")) with false by (destruct e2; reflexivity).
        rewrite H0. unfold attr_or. rewrite H, H2. unfold bnd, first, ret.
        assert (Q : qltb (qabs lat0) (Q2Qc (899995 # 10000)) = false).
        { apply qltb_false. rewrite qabs_pos.
          - apply Qcle_trans with (zq 90); [vm_compute; discriminate | exact H1].
          - apply Qcle_trans with (zq 90); [vm_compute; discriminate | exact H1]. }
        rewrite Q. reflexivity.
      - replace (String.eqb "stereographic" (if e2 then "polar_stereograhpic" else "polar_stereographic")) with false by (destruct e2; reflexivity).
        rewrite H0. unfold attr_or. rewrite H, H2. unfold bnd, first, ret.
        assert (Q : qltb (qabs lat0) (Q2Qc (899995 # 10000)) = false).
        { apply qltb_false. rewrite qabs_pos.
          - apply Qcle_trans with (zq 90); [vm_compute; discriminate | exact H1].
          - apply Qcle_trans with (zq 90); [vm_compute; discriminate | exact H1]. }
        rewrite Q. reflexivity. }
    rewrite (run_bnd _ _ _ _ _ P). cbv zeta beta iota. fold q.
    rewrite Gx, Gy, Gl. unfold axis.
    erewrite run_bnd by reflexivity. erewrite run_bnd by reflexivity. erewrite run_bnd by reflexivity.
    rewrite (spaced_small _ _ _ _ Hx Hy), Ex, Ey.
    erewrite run_bnd by reflexivity. erewrite run_bnd by reflexivity.
    destruct e2.
    - rewrite El, Elat. reflexivity.
    - destruct (Hm eq_refl) as (-> & -> & Bx & By). destruct (Raw eq_refl) as [-> ->].
      rewrite !to_long_zq by assumption. rewrite El, Elat. rewrite (Hts eq_refl). reflexivity. }
  assert (He' : earth e2 show figure h' = Some e).
  { rewrite <- He. unfold earth, oblate, h', h0. destruct e2; keys; reflexivity. }
  exists (mkW h' (w_out s)),
    (mkG (stere_text show6 (zq 90) (norm180 q) ts e) false (Z.of_nat (length xs)) (Z.of_nat (length ys)) dx dy
         (nth 0 xs 0%Qc) (nth 0 ys 0%Qc) (negb (i =? 0)%Z) (negb (j =? 0)%Z) (negb (v =? 0)%Z) (negb (a =? 0)%Z)), (norm180 q).
  split; [exact W|]. split; [reflexivity|]. split.
  { cbn [w_h].
    assert (T : get_string h' "typeOfGrid" = Some "polar_stereographic") by (unfold h'; destruct e2; reflexivity).
    unfold read_grid. rewrite T. cbn [obnd String.eqb Ascii.eqb Bool.eqb orb]. unfold read_stereographic.
    assert (M : metric h' = Some (Z.of_nat (length xs), Z.of_nat (length ys), dx, dy, x, lat)).
    { unfold h', h0. destruct e2; [reflexivity|]. destruct (Hm eq_refl) as (-> & -> & _). reflexivity. }
    assert (O : orientation h' = Some (negb (i =? 0)%Z, negb (j =? 0)%Z, negb (v =? 0)%Z, negb (a =? 0)%Z)).
    { unfold orientation, h', h0. destruct e2; keys; rewrite Ki, Kj, Kv, Ka; reflexivity. }
    assert (G : get_double h' "orientationOfTheGridInDegrees" = Some q) by (unfold h'; destruct e2; reflexivity).
    assert (G1 : (if e2 then get_double h' "latitudeWhereDxAndDyAreSpecifiedInDegrees" else Some (zq 60)) = Some ts).
    { unfold h'. destruct e2; [reflexivity|]. now rewrite Hts. }
    assert (G2 : get_long h' (if e2 then "projectionCentreFlag" else "projectionCenterFlag") = Some 0%Z).
    { unfold h', h0. destruct e2; keys; rewrite Kc; reflexivity. }
    rewrite M, G, G1, G2, He'. cbn [obnd Z.eqb].
    fold (stere_text show6 (zq 90) (norm180 q) ts e).
    unfold projected. rewrite Em. rewrite (Hproj _ HN m). cbn [obnd]. rewrite O. reflexivity. }
  split; [exact HN|]. split; [reflexivity|]. split; [reflexivity|].
  split; [apply same_points; exact Hx|]. apply same_points; exact Hy.
Qed.

(** ** What always holds *)

Definition silent {A} (m : act A) : Prop := forall s, w_out (fst (m s)) = w_out s.
Lemma silent_ret {A} (x : A) : silent (ret x). Proof. intros s. reflexivity. Qed.
Lemma silent_fail {A} e : silent (@fail A e). Proof. intros s. reflexivity. Qed.
Lemma silent_set k v : silent (setg k v). Proof. intros s. reflexivity. Qed.
Lemma silent_lift {A} (r : A + exc) : silent (lift r). Proof. destruct r; intros s; reflexivity. Qed.
Lemma silent_first l : silent (first l). Proof. destruct l; intros s; reflexivity. Qed.
Lemma silent_axis l : silent (axis l). Proof. destruct l; intros s; reflexivity. Qed.
Lemma silent_bnd {A B} (m : act A) (f : A -> act B) : silent m -> (forall x, silent (f x)) -> silent (bnd m f).
Proof.
  intros Hm Hf s. unfold bnd. pose proof (Hm s) as E. destruct (m s) as [s' [x|e]]; cbn [fst] in *; [|exact E].
  rewrite Hf. exact E.
Qed.
Ltac sil := repeat match goal with
  | |- silent (bnd _ _) => apply silent_bnd; [|intros ?]
  | |- silent (ret _) => apply silent_ret
  | |- silent (fail _) => apply silent_fail
  | |- silent (setg _ _) => apply silent_set
  | |- silent (lift _) => apply silent_lift
  | |- silent (first _) => apply silent_first
  | |- silent (axis _) => apply silent_axis
  | |- silent (match ?x with _ => _ end) => destruct x
  end.

(** no message is written while the grid is described *)
Theorem C106_silent e2 lat_of_scale g s : w_out (fst (set_projection e2 lat_of_scale g s)) = w_out s.
Proof.
  apply (fun H : silent (set_projection e2 lat_of_scale g) => H s).
  unfold set_projection, stereographic, regular, rotated, lambert, lonlat_keys, scans, attr_or. cbv zeta. sil.
Qed.

(** grids without one of the five projections are refused *)
Theorem C106_unsupported e2 lat_of_scale g s :
  (forall name ps, g_proj g = Some (name, ps) ->
     ~ In name ["stereographic"; "polar_stereographic"; "latitude_longitude"; "rotated_latitude_longitude";
                "lambert_conformal_conic"]) ->
  set_projection e2 lat_of_scale g s = (s, inr Cdm).
Proof.
  intros H. unfold set_projection. destruct (g_proj g) as [[name ps]|]; [|reflexivity].
  specialize (H name ps eq_refl). cbn [In] in H.
  repeat match goal with |- context [String.eqb name ?t] =>
    destruct (String.eqb_spec name t); [subst; tauto|] end. reflexivity.
Qed.
(** axes with less than two values are refused *)
Theorem C106_single e2 lat_of_scale g s :
  (exists xs, g_x g = Some xs /\ length xs < 2 \/ g_y g = Some xs /\ length xs < 2) ->
  (forall ll, g_ll g = Some ll -> Some (l_lon ll) = g_x g /\ Some (l_lat ll) = g_y g) ->
  forall s', set_projection e2 lat_of_scale g s <> (s', inl tt).
Proof.
  intros H L s' C.
  assert (Sm : forall xs ys, g_x g = Some xs -> g_y g = Some ys -> small xs ys = true).
  { intros xs ys Ex Ey. unfold small. destruct H as (l & [[E Hl]|[E Hl]]).
    - rewrite Ex in E. injection E as <-. apply orb_true_iff. left. apply Nat.ltb_lt. exact Hl.
    - rewrite Ey in E. injection E as <-. apply orb_true_iff. right. apply Nat.ltb_lt. exact Hl. }
  assert (F : forall (m : act unit) s, (exists s', m s = (s', inl tt)) ->
     (forall s s', m s <> (s', inl tt)) -> False).
  { intros m s0 (s1 & E) N. exact (N _ _ E). }
  assert (B : forall A (m : act A) (f : A -> act unit), (forall x s s', f x s <> (s', inl tt)) -> forall s s', bnd m f s <> (s', inl tt)).
  { intros A m f Hf s0 s1. unfold bnd. destruct (m s0) as [s2 [x|e]]; [apply Hf | discriminate]. }
  assert (Fl : forall e s s', @fail unit e s <> (s', inl tt)) by (intros; discriminate).
  assert (AX : forall (f : list Qc -> list Qc -> act unit),
    (forall xs ys, g_x g = Some xs -> g_y g = Some ys -> forall s s', f xs ys s <> (s', inl tt)) ->
    forall s s', bnd (axis (g_x g)) (fun xs => bnd (axis (g_y g)) (fun ys => f xs ys)) s <> (s', inl tt)).
  { intros f Hf s0 s1. destruct (g_x g) as [xs|] eqn:Ex; [|apply Fl]. destruct (g_y g) as [ys|] eqn:Ey; [|apply Fl].
    cbn [axis]. erewrite run_bnd by reflexivity. erewrite run_bnd by reflexivity. apply Hf; reflexivity. }
  revert s s' C. unfold set_projection. destruct (g_proj g) as [[name ps]|]; [|intros; now apply Fl in C].
  destruct (_ || _).
  { unfold stereographic. apply B. intros [ts o]. cbv zeta. apply B. intros _. apply AX.
    intros xs ys Ex Ey. rewrite (Sm xs ys Ex Ey). apply Fl. }
  destruct (String.eqb name "latitude_longitude").
  { unfold regular. intros s s'. destruct e2.
    - destruct (g_ll g) as [ll|] eqn:El; [|apply Fl]. destruct (L ll eq_refl) as [Ex Ey].
      erewrite run_bnd by reflexivity. cbv beta iota. rewrite (Sm _ _ (eq_sym Ex) (eq_sym Ey)). apply Fl.
    - destruct (g_x g) as [xs|] eqn:Ex; [|apply Fl]. destruct (g_y g) as [ys|] eqn:Ey; [|apply Fl].
      erewrite run_bnd by reflexivity. cbv beta iota. rewrite (Sm _ _ eq_refl eq_refl). apply Fl. }
  destruct (String.eqb name "rotated_latitude_longitude").
  { unfold rotated. apply AX. intros xs ys Ex Ey. rewrite (Sm xs ys Ex Ey). apply Fl. }
  destruct (String.eqb name "lambert_conformal_conic"); [|apply Fl].
  unfold lambert. destruct (attr ps "standard_parallel") as [l|]; [|apply Fl]. cbv zeta.
  apply B. intros q. apply AX. intros xs ys Ex Ey. rewrite (Sm xs ys Ex Ey). apply Fl.
Qed.

(** ** Findings *)

Definition untouched (ks : list string) {A} (m : act A) : Prop :=
  forall s k, In k ks -> w_h (fst (m s)) k = w_h s k.
Lemma un_bnd ks {A B} (m : act A) (f : A -> act B) : untouched ks m -> (forall x, untouched ks (f x)) -> untouched ks (bnd m f).
Proof.
  intros Hm Hf s k Hk. unfold bnd. pose proof (Hm s k Hk) as E. destruct (m s) as [s' [x|e]]; cbn [fst] in *; [|exact E].
  rewrite Hf by exact Hk. exact E.
Qed.
Lemma un_set ks k v : existsb (String.eqb (canon k)) ks = false -> untouched ks (setg k v).
Proof.
  intros H s k' Hk. unfold setg, setk, hset. cbn [fst w_h].
  destruct (String.eqb_spec (canon k) k') as [E|_]; [|reflexivity].
  exfalso. assert (T : existsb (String.eqb (canon k)) ks = true) by (apply existsb_exists; exists k'; split; [exact Hk | now apply String.eqb_eq]).
  rewrite H in T. discriminate.
Qed.
Lemma un_ret ks {A} (x : A) : untouched ks (ret x). Proof. intros s k _. reflexivity. Qed.
Lemma un_fail ks {A} e : untouched ks (@fail A e). Proof. intros s k _. reflexivity. Qed.
Lemma un_lift ks {A} (r : A + exc) : untouched ks (lift r). Proof. intros s k _. destruct r; reflexivity. Qed.
Lemma un_first ks l : untouched ks (first l). Proof. intros s k _. destruct l; reflexivity. Qed.
Lemma un_axis ks l : untouched ks (axis l). Proof. intros s k _. destruct l; reflexivity. Qed.
Ltac unt := repeat match goal with
  | |- untouched _ (bnd _ _) => apply un_bnd; [|intros ?]
  | |- untouched _ (ret _) => apply un_ret
  | |- untouched _ (fail _) => apply un_fail
  | |- untouched _ (setg _ _) => apply un_set; reflexivity
  | |- untouched _ (lift _) => apply un_lift
  | |- untouched _ (first _) => apply un_first
  | |- untouched _ (axis _) => apply un_axis
  | |- untouched _ (match ?x with _ => _ end) => destruct x
  end.

Definition earth_keys : list string :=
  ["earthIsOblate"; "shapeOfTheEarth"; "radiusInMetres"; "scaleFactorOfMajorAxisOfOblateSpheroidEarth";
   "scaledValueOfMajorAxisOfOblateSpheroidEarth"; "scaleFactorOfMinorAxisOfOblateSpheroidEarth";
   "scaledValueOfMinorAxisOfOblateSpheroidEarth"].
(** Finding: the figure of the earth of the projection is not written: the message keeps the one it had *)
Theorem C106_figure_refuted e2 lat_of_scale g s k : In k earth_keys ->
  w_h (fst (set_projection e2 lat_of_scale g s)) k = w_h s k.
Proof.
  apply (fun H : untouched earth_keys (set_projection e2 lat_of_scale g) => H s k).
  unfold set_projection, stereographic, regular, rotated, lambert, attr_or. cbv zeta.
  unt; unfold lonlat_keys, scans; cbv zeta; unt; destruct e2; apply un_set; reflexivity.
Qed.
(** Finding: nor is the pole at the centre of the projection; a grid around the south pole is
    written as one around the north pole *)
Theorem C106_centre_refuted e2 lat_of_scale g s :
  w_h (fst (set_projection e2 lat_of_scale g s)) "projectionCentreFlag" = w_h s "projectionCentreFlag" /\
  w_h (fst (set_projection e2 lat_of_scale g s)) "projectionCenterFlag" = w_h s "projectionCenterFlag".
Proof.
  assert (U : untouched ["projectionCentreFlag"; "projectionCenterFlag"] (set_projection e2 lat_of_scale g)).
  { unfold set_projection, stereographic, regular, rotated, lambert, attr_or. cbv zeta.
    unt; unfold lonlat_keys, scans; cbv zeta; unt; destruct e2; apply un_set; reflexivity. }
  split; apply U; cbn [In]; tauto.
Qed.
(** Finding: the directions of a stereographic grid are not written: the flags of the message
    before (the same handle is used for all messages, C105) remain *)
Theorem C106_directions_refuted e2 lat_of_scale g s name ps :
  g_proj g = Some (name, ps) -> In name ["stereographic"; "polar_stereographic"] ->
  orientation (w_h (fst (set_projection e2 lat_of_scale g s))) = orientation (w_h s).
Proof.
  intros Hp Hn.
  assert (U : untouched ["iScansNegatively"; "jScansPositively"; "jPointsAreConsecutive"; "alternativeRowScanning"]
                (stereographic e2 lat_of_scale name ps g)).
  { unfold stereographic, attr_or. cbv zeta. unt. }
  assert (E : set_projection e2 lat_of_scale g = stereographic e2 lat_of_scale name ps g).
  { unfold set_projection. rewrite Hp. cbn [In] in Hn. destruct Hn as [<-|[<-|[]]]; reflexivity. }
  rewrite E. unfold orientation. keys. rewrite !U by (cbn [In]; tauto). reflexivity.
Qed.
(** Finding: in edition 2 the orientation of a polar_stereographic grid is not written: the name is
    misspelt in the test, and the attribute of stereographic grids is looked for *)
Theorem C106_polar_refuted lat_of_scale g s ps xs ys dx dy ll lon lon' lat lat' :
  g_proj g = Some ("polar_stereographic", ps) ->
  attr ps "latitude_of_projection_origin" = None -> attr ps "scale_factor_at_projection_origin" = None ->
  attr ps "longitude_of_projection_origin" = None ->
  g_x g = Some xs -> g_y g = Some ys -> spaced xs dx -> spaced ys dy ->
  g_ll g = Some ll -> l_lon ll = lon :: lon' -> l_lat ll = lat :: lat' ->
  exists s', set_projection true lat_of_scale g s = (s', inl tt) /\
    w_h s' "orientationOfTheGridInDegrees" = Some (KD (clamp_lon 0)) /\
    w_h s' "latitudeWhereDxAndDyAreSpecifiedInDegrees" = Some (KD (zq 90)).
Proof.
  intros Hp A1 A2 A3 Gx Gy Hx Hy Gl El Elat. unfold set_projection. rewrite Hp.
  cbn [String.eqb Ascii.eqb Bool.eqb orb]. unfold stereographic. cbn [String.eqb Ascii.eqb Bool.eqb].
  rewrite A1, A2. unfold attr_or. rewrite A3. erewrite run_bnd by reflexivity. cbv zeta beta iota.
  rewrite Gx, Gy, Gl, El, Elat. unfold axis.
  erewrite run_bnd by reflexivity. erewrite run_bnd by reflexivity. erewrite run_bnd by reflexivity.
  rewrite (spaced_small _ _ _ _ Hx Hy). eexists. split; [reflexivity|]. now split.
Qed.
(** Finding: in edition 1 the standard parallel of a polar_stereographic grid is ignored (all grids
    are written, and read, as true at 60 degrees); so is, for conic grids, the latitude of origin *)
Theorem C106_parallel_refuted lat_of_scale ps x y ll q s :
  set_projection false lat_of_scale (mkGeo (Some ("polar_stereographic", ("standard_parallel", [q]) :: ps)) x y ll) s
  = set_projection false lat_of_scale (mkGeo (Some ("polar_stereographic", ps)) x y ll) s /\
  (forall e2, set_projection e2 lat_of_scale (mkGeo (Some ("lambert_conformal_conic", ("latitude_of_projection_origin", [q]) :: ps)) x y ll) s
  = set_projection e2 lat_of_scale (mkGeo (Some ("lambert_conformal_conic", ps)) x y ll) s).
Proof. split; [reflexivity|]. intros e2. destruct e2; reflexivity. Qed.
(** Finding: a conic grid with rows from north to south is read with the rows from south to north *)
Theorem C106_rows_refuted e2 show show6 figure project d h xs ys dx dy :
  spaced xs dx -> spaced ys dy -> (dy < 0)%Qc ->
  h "typeOfGrid" = Some (KS "lambert") -> h "Nj" = Some (KL (Z.of_nat (length ys))) ->
  h "DyInMetres" = Some (KD (qabs (step ys))) ->
  read_grid e2 show show6 figure project h = Some d ->
  d_dy d = (- dy)%Qc.
Proof.
  intros Hx Hy Ny Kt Kn Kd R.
  unfold read_grid in R. unfold get_string in R. change (canon "typeOfGrid") with "typeOfGrid" in R. rewrite Kt in R.
  cbn [obnd String.eqb Ascii.eqb Bool.eqb orb] in R. unfold read_lambert in R.
  destruct (metric h) as [m|] eqn:M; [|discriminate R]. cbn [obnd] in R.
  assert (E : exists nx ny dx' lon lat, m = (nx, ny, dx', (- dy)%Qc, lon, lat)).
  { unfold metric in M.
    assert (K : get_double h "DyInMetres" = Some (- dy)%Qc).
    { unfold get_double. change (canon "DyInMetres") with "DyInMetres". rewrite Kd, (spaced_step _ _ Hy), (qabs_neg _ Ny). reflexivity. }
    rewrite K in M. cbn [or_else obnd] in M.
    destruct (get_long h "Ni"); [|discriminate M]. destruct (get_long h "Nj"); [|discriminate M].
    destruct (get_double h "longitudeOfFirstGridPointInDegrees"); [|discriminate M].
    destruct (get_double h "latitudeOfFirstGridPointInDegrees"); [|discriminate M].
    cbn [obnd] in M. destruct (or_else _ _); [|discriminate M]. cbn [obnd] in M. injection M as <-. now repeat eexists. }
  destruct E as (nx & ny & dx' & lon & lat & ->).
  destruct (get_double h "LoVInDegrees"); [|discriminate R]. destruct (get_double h "Latin1InDegrees"); [|discriminate R].
  destruct (get_double h "Latin2InDegrees"); [|discriminate R]. destruct (earth e2 show figure h); [|discriminate R].
  cbn [obnd] in R. unfold projected in R. destruct (project _ lon lat) as [[x0 y0]|]; [|discriminate R]. cbn [obnd] in R.
  destruct (orientation h) as [[[[r b] v] a]|]; [|discriminate R]. cbn [obnd] in R. injection R as <-. reflexivity.
Qed.
(** Finding: the axes of an oblate earth given in kilometres are read as metres; a decimal scale
    factor, which says that the value is to be divided, is used to multiply it *)
Theorem C106_oblate_refuted show h mv nv :
  h "scaleFactorOfMajorAxisOfOblateSpheroidEarth" = Some (KL 2) ->
  h "scaledValueOfMajorAxisOfOblateSpheroidEarth" = Some (KD mv) ->
  h "scaleFactorOfMinorAxisOfOblateSpheroidEarth" = Some (KL 2) ->
  h "scaledValueOfMinorAxisOfOblateSpheroidEarth" = Some (KD nv) ->
  (h "shapeOfTheEarth" = Some (KL 3) \/ h "shapeOfTheEarth" = Some (KL 7)) ->
  earth true show "" h = Some ("+a=" ++ show (mv * zq 100)%Qc ++ " +b=" ++ show (nv * zq 100)%Qc)%string.
Proof.
  intros K1 K2 K3 K4 [K|K]; unfold earth, oblate; keys; rewrite K, K1, K2, K3, K4; reflexivity.
Qed.
Definition frac (a : Z) (b : positive) : Qc := Q2Qc (a # b).
(** Finding: an angle of the pole with a fraction is cut off, also in edition 2 *)
Theorem C106_pole_refuted :
  let g := mkGeo (Some ("rotated_latitude_longitude",
                        [("grid_north_pole_longitude", [frac 401 2]); ("grid_north_pole_latitude", [frac 157 4])]))
                 (Some [frac 0 1; frac 1 2]) (Some [frac 1 1; frac 2 1]) None in
  let s := mkW (fun _ => None) [] in
  let h e2 := w_h (fst (set_projection e2 (fun x => x) g s)) in
  h true "latitudeOfSouthernPoleInDegrees" = Some (KL (-39)) /\
  h true "longitudeOfSouthernPoleInDegrees" = Some (KL 20) /\
  h false "latitudeOfSouthernPoleInDegrees" = Some (KL (-39)).
Proof. vm_compute. repeat split. Qed.
(** Finding: in edition 1 a step of a stereographic grid is cut off to whole metres *)
Theorem C106_metres_refuted :
  let g := mkGeo (Some ("polar_stereographic", [("straight_vertical_longitude_from_pole", [frac 58 1])]))
                 (Some [frac 0 1; frac 5001 2]) (Some [frac 0 1; frac 5001 2])
                 (Some (mkLL [frac 5 1] [frac 60 1] [frac 5 1] [frac 60 1])) in
  let r := set_projection false (fun x => x) g (mkW (fun _ => None) []) in
  snd r = inl tt /\ w_h (fst r) "DxInMetres" = Some (KL 2500).
Proof. vm_compute. repeat split. Qed.
(** Finding: a rotated grid whose increments are not given has its extent divided by the number of
    points, not by the number of steps *)
Theorem C106_steps_refuted show show6 project h0 :
  h0 "ijDirectionIncrementGiven" = Some (KL 0) ->
  h0 "jPointsAreConsecutive" = Some (KL 0) -> h0 "alternativeRowScanning" = Some (KL 0) ->
  let g := mkGeo (Some ("rotated_latitude_longitude",
                        [("grid_north_pole_longitude", [zq 0]); ("grid_north_pole_latitude", [zq 40])]))
                 (Some [frac 0 1; frac 1 1]) (Some [frac 0 1; frac 1 1]) None in
  exists d, read_grid false show show6 "+R=6371000" project (w_h (fst (set_projection false (fun x => x) g (mkW h0 [])))) = Some d /\
    this (d_dx d) = (1 # 2)%Q /\ this (d_dy d) = (1 # 2)%Q.
Proof.
  intros K1 K2 K3 g.
  assert (W : set_projection false (fun x => x) g (mkW h0 []) =
    (mkW (after_lonlat false "rotated_ll" [frac 0 1; frac 1 1] [frac 0 1; frac 1 1]
      (fun h => hset (hset h "latitudeOfSouthernPoleInDegrees" (KL (-40))) "longitudeOfSouthernPoleInDegrees" (KL 180)) h0)%Z [], inl tt)).
  { unfold set_projection, g. cbn [g_proj]. cbn [String.eqb Ascii.eqb Bool.eqb orb]. unfold rotated. cbn [g_x g_y axis].
    erewrite run_bnd by reflexivity. erewrite run_bnd by reflexivity.
    change (small _ _) with false. cbv iota.
    change (attr _ "grid_north_pole_longitude") with (Some [zq 0]). change (attr _ "grid_north_pole_latitude") with (Some [zq 40]).
    cbn [first]. erewrite run_bnd by reflexivity. erewrite run_bnd by reflexivity. cbv zeta.
    replace (to_long (up_to (zq 180) (zq (-90)) (- zq 40)%Qc)) with (@inl Z exc (-40)%Z) by (vm_compute; reflexivity).
    replace (to_long (lon_in false (zq 0 - zq 180)%Qc)) with (@inl Z exc 180%Z) by (vm_compute; reflexivity).
    cbn [lift]. erewrite run_bnd by reflexivity. erewrite run_bnd by reflexivity.
    apply lonlat_keys_run; [now right|]. intros [h o]. reflexivity. }
  rewrite W. cbn [fst w_h].
  match goal with |- context [after_lonlat _ _ ?xs ?ys ?p h0] => set (pp := p);
    destruct (read_keys false "rotated_ll" xs ys pp h0 0 0 0) as
      (T & T1 & T2 & T3 & T4 & T5 & T6 & T7 & T8 & T9 & T10); [ | exact K1 | exact K2 | exact K3 |] end.
  { intros h k0 Hk0. cbn [In] in Hk0. unfold pp. repeat (destruct Hk0 as [<-|Hk0]; [reflexivity|]). destruct Hk0. }
  set (h' := after_lonlat _ _ _ _ _ _) in *.
  assert (T11 : get_double h' "longitudeOfSouthernPoleInDegrees" = Some (zq 180)) by reflexivity.
  assert (T12 : get_double h' "latitudeOfSouthernPoleInDegrees" = Some (zq (-40))) by reflexivity.
  clearbody h'. unfold read_grid. rewrite T. cbn [obnd String.eqb Ascii.eqb Bool.eqb orb]. unfold read_rotated.
  rewrite T1, T2, T3, T4, T11, T12, T10, T7, T5, T6. cbn [obnd Z.eqb].
  change (earth false show "+R=6371000" h') with (Some "+R=6371000"). cbn [obnd].
  eexists. split; [reflexivity|]. cbn [d_dx d_dy]. split; vm_compute; reflexivity.
Qed.

(** a grid over the date line with rows from north to south *)
Example C106_nonvacuous :
  let xs := [frac 175 1; frac 355 2; frac 180 1; frac 365 2] in
  let ys := [frac 60 1; frac 59 1; frac 58 1] in
  let h0 : handle := hsets (fun _ => None)
     [("ijDirectionIncrementGiven", KL 1); ("jPointsAreConsecutive", KL 0); ("alternativeRowScanning", KL 0); ("shapeOfTheEarth", KL 6)] in
  let g := mkGeo (Some ("latitude_longitude", [])) None None (Some (mkLL xs ys xs ys)) in
  spaced xs (frac 5 2) /\ spaced ys (frac (-1) 1) /\ template h0 /\ earth true (fun _ => "") "" h0 = Some "+a=6371229" /\
  match read_grid true (fun _ => "") (fun _ => "") "" (fun _ _ _ => None)
                  (w_h (fst (set_projection true (fun x => x) g (mkW h0 [])))) with
  | Some d => map this (x_axis d) = map this xs /\ map this (y_axis d) = map this ys
  | None => False
  end.
Proof.
  cbv zeta. repeat split; try (cbn [length]; lia).
  - intros [|[|[|[|i]]]] Hi; try (apply Qc_is_canon; vm_compute; reflexivity). cbn [length] in Hi. lia.
  - intros [|[|[|i]]] Hi; try (apply Qc_is_canon; vm_compute; reflexivity). cbn [length] in Hi. lia.
  - exists 1%Z, 0%Z, 0%Z. repeat split. discriminate.
Qed.

Print Assumptions C106_regular.
Print Assumptions C106_rotated.
Print Assumptions C106_lambert.
Print Assumptions C106_stereographic.
Print Assumptions C106_silent.
Print Assumptions C106_unsupported.
Print Assumptions C106_single.
Print Assumptions C106_figure_refuted.
Print Assumptions C106_centre_refuted.
Print Assumptions C106_directions_refuted.
Print Assumptions C106_polar_refuted.
Print Assumptions C106_parallel_refuted.
Print Assumptions C106_rows_refuted.
Print Assumptions C106_oblate_refuted.
Print Assumptions C106_pole_refuted.
Print Assumptions C106_metres_refuted.
Print Assumptions C106_steps_refuted.
