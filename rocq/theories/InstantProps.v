(** C114: instants and calendar times. *)
From Coq Require Import NArith ZArith Ascii String List Bool Lia.
From Verif Require Import Base StringModel TimeModel TextModel InstantModel TextProps.
From Verif Require TimeProps.
Import ListNotations.
Local Open Scope Z_scope.

(** ** The Gregorian calendar *)
Definition leap (y : Z) : Prop := y mod 4 = 0 /\ (y mod 100 <> 0 \/ y mod 400 = 0).
Definition leapb (y : Z) : bool := (y mod 4 =? 0) && (negb (y mod 100 =? 0) || (y mod 400 =? 0)).
Definition month_days (y m : Z) : Z :=
  if m =? 2 then if leapb y then 29 else 28
  else if (m =? 4) || (m =? 6) || (m =? 9) || (m =? 11) then 30 else 31.
Definition date_ok (y m d : Z) : Prop := 1 <= m <= 12 /\ 1 <= d <= month_days y m.
Definition next_day (y m d : Z) : Z * Z * Z :=
  if d <? month_days y m then (y, m, d + 1)
  else if m <? 12 then (y, m + 1, 1) else (y + 1, 1, 1).

Lemma leapb_spec : forall y, leapb y = true <-> leap y.
Proof.
  intro y. unfold leapb, leap. rewrite andb_true_iff, orb_true_iff, negb_true_iff, !Z.eqb_eq, Z.eqb_neq. reflexivity.
Qed.

(** checks over all dates of 400 years *)
Fixpoint all_from (f : Z -> bool) (n : nat) (z : Z) : bool :=
  match n with O => true | S n' => if f z then all_from f n' (z + 1) else false end.
Lemma all_from_spec : forall f n z, all_from f n z = true -> forall x, z <= x < z + Z.of_nat n -> f x = true.
Proof.
  intros f. induction n as [|n IH]; intros z H x X; [lia|]. cbn [all_from] in H.
  destruct (f z) eqn:F; [|discriminate]. destruct (Z.eq_dec x z) as [->|N]; [exact F|]. apply (IH (z + 1) H). lia.
Qed.
Definition days3 (a : Z * Z * Z) : Z := let '(y, m, d) := a in days_from_civil y m d.
(** the days before a year that begins in March *)
Definition before_year (y : Z) : Z := 365 * y + y / 4 - y / 100 + y / 400.
Lemma days_simple : forall y m d, days_from_civil y m d =
  before_year (if m <=? 2 then y - 1 else y) + (153 * (if 2 <? m then m - 3 else m + 9) + 2) / 5 + d - 1 - 719468.
Proof.
  intros. unfold days_from_civil, before_year. cbn zeta.
  assert (G : forall z, z / 400 * 146097 + ((z - z / 400 * 400) * 365 + (z - z / 400 * 400) / 4 - (z - z / 400 * 400) / 100) =
    365 * z + z / 4 - z / 100 + z / 400).
  { intro z. replace (z - z / 400 * 400) with (z + (- (z / 400) * 100) * 4) at 2 by ring.
    replace (z - z / 400 * 400) with (z + (- (z / 400) * 4) * 100) at 2 by ring. rewrite !Z_div_plus_full by lia. ring. }
  rewrite <- G. ring.
Qed.
Lemma step4 : forall n y, 0 < n -> y / n - (y - 1) / n = if y mod n =? 0 then 1 else 0.
Proof.
  intros n y N. assert (E := Z.div_mod y n ltac:(lia)). assert (B := Z.mod_pos_bound y n N).
  destruct (Z.eqb_spec (y mod n) 0).
  - assert ((y - 1) / n = y / n - 1); [|lia]. symmetry. apply (Z.div_unique _ _ _ (n - 1)); lia.
  - assert ((y - 1) / n = y / n); [|lia]. symmetry. apply (Z.div_unique _ _ _ (y mod n - 1)); lia.
Qed.
Lemma year_length : forall y, before_year y - before_year (y - 1) = if leapb y then 366 else 365.
Proof.
  intro y. unfold before_year, leapb. assert (A := step4 4 y ltac:(lia)). assert (B := step4 100 y ltac:(lia)). assert (C := step4 400 y ltac:(lia)).
  assert (X : y mod 400 = 0 -> y mod 100 = 0) by (intro H; apply Z.mod_divide; [lia|]; apply Z.mod_divide in H; [|lia]; destruct H as (k & ->); exists (k * 4); ring).
  assert (Y : y mod 100 = 0 -> y mod 4 = 0) by (intro H; apply Z.mod_divide; [lia|]; apply Z.mod_divide in H; [|lia]; destruct H as (k & ->); exists (k * 25); ring).
  destruct (Z.eqb_spec (y mod 4) 0), (Z.eqb_spec (y mod 100) 0), (Z.eqb_spec (y mod 400) 0); cbn [negb andb orb]; try (exfalso; tauto); lia.
Qed.

Lemma leapb_shift : forall y k, leapb (y + 400 * k) = leapb y.
Proof.
  intros. unfold leapb.
  replace (y + 400 * k) with (y + (100 * k) * 4) at 1 by ring. rewrite Z_mod_plus_full.
  replace (y + 400 * k) with (y + (4 * k) * 100) at 1 by ring. rewrite Z_mod_plus_full.
  replace (y + 400 * k) with (y + k * 400) by ring. rewrite Z_mod_plus_full. reflexivity.
Qed.
Lemma month_days_shift : forall y k m, month_days (y + 400 * k) m = month_days y m.
Proof. intros. unfold month_days. rewrite leapb_shift. reflexivity. Qed.
Definition shift (k : Z) (a : Z * Z * Z) : Z * Z * Z := let '(y, m, d) := a in (y + 400 * k, m, d).
Lemma next_shift : forall y m d k, next_day (y + 400 * k) m d = shift k (next_day y m d).
Proof.
  intros. unfold next_day, shift. rewrite month_days_shift. destruct (d <? _); [reflexivity|]. destruct (m <? 12); [reflexivity|].
  f_equal. f_equal. ring.
Qed.
Lemma days_shift : forall y m d k, days_from_civil (y + 400 * k) m d = days_from_civil y m d + 146097 * k.
Proof.
  intros. unfold days_from_civil. cbn zeta.
  replace (if m <=? 2 then y + 400 * k - 1 else y + 400 * k) with ((if m <=? 2 then y - 1 else y) + k * 400) by (destruct (m <=? 2); ring).
  rewrite Z_div_plus_full by lia.
  replace ((if m <=? 2 then y - 1 else y) + k * 400 - ((if m <=? 2 then y - 1 else y) / 400 + k) * 400)
    with ((if m <=? 2 then y - 1 else y) - (if m <=? 2 then y - 1 else y) / 400 * 400) by ring.
  ring.
Qed.
Lemma civil_shift : forall n k, civil_from_days (n + 146097 * k) = shift k (civil_from_days n).
Proof.
  intros. unfold civil_from_days, shift. cbn zeta.
  replace (n + 146097 * k + 719468) with (n + 719468 + k * 146097) by ring. rewrite Z_div_plus_full by lia.
  replace (n + 719468 + k * 146097 - ((n + 719468) / 146097 + k) * 146097) with (n + 719468 - (n + 719468) / 146097 * 146097) by ring.
  set (doe := n + 719468 - (n + 719468) / 146097 * 146097).
  destruct (_ <=? 2); f_equal; f_equal; ring.
Qed.

Lemma era_of : forall y n, 0 < n -> exists y0 k, y = y0 + n * k /\ 0 <= y0 < n.
Proof.
  intros y n N. exists (y mod n), (y / n). split; [|apply Z.mod_pos_bound, N].
  rewrite Z.add_comm. apply Z.div_mod. lia.
Qed.
Lemma day_linear : forall y m d, days_from_civil y m d = days_from_civil y m 1 + (d - 1).
Proof. intros. unfold days_from_civil. cbn zeta. ring. Qed.
Lemma month_step : forall y m, 1 <= m <= 12 ->
  days3 (if m <? 12 then (y, m + 1, 1) else (y + 1, 1, 1)) = days_from_civil y m 1 + month_days y m.
Proof.
  intros y m M. assert (L := year_length y).
  assert (C : m = 1 \/ m = 2 \/ m = 3 \/ m = 4 \/ m = 5 \/ m = 6 \/ m = 7 \/ m = 8 \/ m = 9 \/ m = 10 \/ m = 11 \/ m = 12) by lia.
  repeat (destruct C as [C|C]); subst m;
    repeat match goal with |- context [?a <? 12] => let v := eval vm_compute in (a <? 12) in change (a <? 12) with v end; cbv iota; cbn [days3];
    rewrite !days_simple; unfold month_days;
    repeat match goal with
           | |- context [?a <=? 2] => let v := eval vm_compute in (a <=? 2) in change (a <=? 2) with v
           | |- context [2 <? ?a] => let v := eval vm_compute in (2 <? a) in change (2 <? a) with v
           | |- context [?a =? ?b] => let v := eval vm_compute in (a =? b) in change (a =? b) with v
           end; cbv iota; cbn [orb]; cbv iota;
    repeat match goal with |- context [?a / 5] => let v := eval vm_compute in (a / 5) in change (a / 5) with v end;
    try (rewrite (Z.add_simpl_r y 1)); try lia.
  destruct (leapb y); lia.
Qed.
Lemma month_days_bound : forall y m, 28 <= month_days y m <= 31.
Proof. intros. unfold month_days. destruct (m =? 2); [destruct (leapb y); lia|]. destruct (_ || _); lia. Qed.
Lemma next_days : forall y m d, date_ok y m d -> days3 (next_day y m d) = days_from_civil y m d + 1.
Proof.
  intros y m d (M & D). unfold next_day. destruct (Z.ltb_spec d (month_days y m)).
  - cbn [days3]. rewrite (day_linear y m (d + 1)), (day_linear y m d). ring.
  - rewrite (month_step y m M), (day_linear y m d). lia.
Qed.
(** the first days of months, by number of the month since year 0 *)
Definition first_of (n : Z) : Z := days_from_civil (n / 12) (n mod 12 + 1) 1.
Lemma first_step : forall n, first_of n + month_days (n / 12) (n mod 12 + 1) = first_of (n + 1).
Proof.
  intro n. unfold first_of. assert (B := Z.mod_pos_bound n 12 ltac:(lia)).
  rewrite <- (month_step (n / 12) (n mod 12 + 1)) by lia.
  assert (E := Z.div_mod n 12 ltac:(lia)).
  destruct (Z.ltb_spec (n mod 12 + 1) 12); cbn [days3].
  - assert (X : (n + 1) / 12 = n / 12) by (symmetry; apply (Z.div_unique _ _ _ (n mod 12 + 1)); lia).
    assert (Y : (n + 1) mod 12 = n mod 12 + 1) by (symmetry; apply (Z.mod_unique _ _ (n / 12)); lia).
    rewrite X, Y. reflexivity.
  - assert (X : (n + 1) / 12 = n / 12 + 1) by (symmetry; apply (Z.div_unique _ _ _ 0); lia).
    assert (Y : (n + 1) mod 12 = 0) by (symmetry; apply (Z.mod_unique _ _ (n / 12 + 1)); lia).
    rewrite X, Y. reflexivity.
Qed.
Lemma first_mono : forall k, 0 <= k -> forall n, first_of n + 28 * k <= first_of (n + k).
Proof.
  apply (natlike_ind (fun k => forall n, first_of n + 28 * k <= first_of (n + k))).
  - intro n. rewrite (Z.add_0_r n). lia.
  - intros k K IH n. specialize (IH n). assert (S := first_step (n + k)). assert (B := month_days_bound ((n + k) / 12) ((n + k) mod 12 + 1)).
    replace (n + Z.succ k) with (n + k + 1) by lia. lia.
Qed.
Lemma first_number : forall y m, 1 <= m <= 12 -> first_of (12 * y + (m - 1)) = days_from_civil y m 1 /\
  (12 * y + (m - 1)) / 12 = y /\ (12 * y + (m - 1)) mod 12 + 1 = m.
Proof.
  intros y m M. assert (X : (12 * y + (m - 1)) / 12 = y) by (symmetry; apply (Z.div_unique _ _ _ (m - 1)); lia).
  assert (Y : (12 * y + (m - 1)) mod 12 = m - 1) by (symmetry; apply (Z.mod_unique _ _ y); lia).
  unfold first_of. rewrite X, Y. replace (m - 1 + 1) with m by ring. auto.
Qed.
(** earlier months come earlier *)
Lemma days_lt : forall y m d y' m' d', date_ok y m d -> date_ok y' m' d' -> 12 * y + m < 12 * y' + m' ->
  days_from_civil y m d < days_from_civil y' m' d'.
Proof.
  intros y m d y' m' d' (M & D) (M' & D') L.
  destruct (first_number y m M) as (F & Q & R). destruct (first_number y' m' M') as (F' & _ & _).
  assert (S := first_step (12 * y + (m - 1))). rewrite Q, R, F in S.
  assert (N := first_mono (12 * y' + m' - (12 * y + m) - 1) ltac:(lia) (12 * y + (m - 1) + 1)).
  replace (12 * y + (m - 1) + 1 + (12 * y' + m' - (12 * y + m) - 1)) with (12 * y' + (m' - 1)) in N by ring.
  rewrite F' in N. rewrite (day_linear y m d), (day_linear y' m' d'). lia.
Qed.
Lemma days_inj : forall y m d y' m' d', date_ok y m d -> date_ok y' m' d' ->
  days_from_civil y m d = days_from_civil y' m' d' -> (y, m, d) = (y', m', d').
Proof.
  intros y m d y' m' d' O O' E. destruct (Z.lt_trichotomy (12 * y + m) (12 * y' + m')) as [L|[L|L]].
  - assert (X := days_lt _ _ _ _ _ _ O O' L). lia.
  - destruct O as (M & _), O' as (M' & _). assert (y = y' /\ m = m') as (-> & ->) by lia.
    rewrite (day_linear y' m' d), (day_linear y' m' d') in E. f_equal. lia.
  - assert (X := days_lt _ _ _ _ _ _ O' O L). lia.
Qed.
(** the year of a day in an era *)
Definition year_of_day (doe : Z) : Z := (doe - doe / 1460 + doe / 36524 - doe / 146096) / 365.
Lemma year_of_day_mono : forall a b, a <= b -> year_of_day a <= year_of_day b.
Proof.
  intros a b H. unfold year_of_day. apply Z.div_le_mono; [lia|].
  assert (A : b / 1460 - a / 1460 <= b - a).
  { assert (X : b / 1460 <= (a + (b - a) * 1460) / 1460) by (apply Z.div_le_mono; lia). rewrite Z_div_plus_full in X by lia. lia. }
  assert (B : a / 36524 <= b / 36524) by (apply Z.div_le_mono; lia).
  assert (Q : forall z, z / 146096 = z / 36524 / 4) by (intro z; rewrite Z.div_div by lia; reflexivity).
  rewrite !Q. assert (C : b / 36524 / 4 <= (a / 36524 + (b / 36524 - a / 36524) * 4) / 4) by (apply Z.div_le_mono; lia).
  rewrite Z_div_plus_full in C by lia. lia.
Qed.
Lemma years_checked : all_from (fun y => (year_of_day (before_year y) =? y) && ((y =? 0) || (year_of_day (before_year y - 1) =? y - 1))) 400 0 = true.
Proof. vm_cast_no_check (eq_refl true). Qed.
Lemma year_found : forall doe, 0 <= doe < 146097 -> 0 <= year_of_day doe < 400 /\ before_year (year_of_day doe) <= doe /\
  (year_of_day doe < 399 -> doe < before_year (year_of_day doe + 1)).
Proof.
  intros doe H.
  assert (T : forall y, 0 <= y < 400 -> year_of_day (before_year y) = y /\ (y = 0 \/ year_of_day (before_year y - 1) = y - 1)).
  { intros y Y. assert (A := all_from_spec _ 400 0 years_checked y Y). cbv beta in A. rewrite andb_true_iff, orb_true_iff, !Z.eqb_eq in A. exact A. }
  assert (B : 0 <= year_of_day doe < 400).
  { assert (X := year_of_day_mono 0 doe ltac:(lia)). assert (Y := year_of_day_mono doe 146096 ltac:(lia)).
    change (year_of_day 0) with 0 in X. change (year_of_day 146096) with 399 in Y. lia. }
  split; [exact B|]. set (g := year_of_day doe) in *. split.
  - destruct (Z.le_gt_cases (before_year g) doe) as [L|L]; [exact L|]. exfalso.
    assert (X := year_of_day_mono doe (before_year g - 1) ltac:(lia)). fold g in X.
    destruct (proj2 (T g B)) as [Z0|Z0]; [|lia]. rewrite Z0 in L. change (before_year 0) with 0 in L. lia.
  - intro G. destruct (Z.lt_ge_cases doe (before_year (g + 1))) as [L|L]; [exact L|]. exfalso.
    assert (X := year_of_day_mono _ _ L). rewrite (proj1 (T (g + 1) ltac:(lia))) in X. fold g in X. lia.
Qed.
(** month and day of a day in the year that begins in March *)
Definition doy_ok (doy : Z) : bool :=
  let mp := (5 * doy + 2) / 153 in let d := doy - (153 * mp + 2) / 5 + 1 in
  let m := if mp <? 10 then mp + 3 else mp - 9 in
  (1 <=? m) && (m <=? 12) && (1 <=? d) && (d <=? if m =? 2 then 29 else month_days 1 m) &&
  ((153 * (if 2 <? m then m - 3 else m + 9) + 2) / 5 =? (153 * mp + 2) / 5) &&
  (negb ((m =? 2) && (d =? 29)) || (doy =? 365)).
Lemma doys_checked : all_from doy_ok 366 0 = true.
Proof. vm_cast_no_check (eq_refl true). Qed.
Lemma days_civil : forall n y m d, civil_from_days n = (y, m, d) -> days_from_civil y m d = n /\ date_ok y m d.
Proof.
  intros n y m d E. destruct (era_of (n + 719468) 146097 ltac:(reflexivity)) as (doe & k & N & B).
  assert (n = doe - 719468 + 146097 * k) by lia. subst n. clear N. rewrite civil_shift in E.
  unfold civil_from_days in E. cbn zeta in E. replace (doe - 719468 + 719468) with doe in E by ring.
  rewrite (Z.div_small doe 146097) in E by exact B. rewrite Z.mul_0_l, Z.sub_0_r, Z.add_0_r in E. fold (year_of_day doe) in E.
  destruct (year_found doe B) as (G & L & U). set (g := year_of_day doe) in *.
  assert (S : before_year g = 365 * g + g / 4 - g / 100).
  { unfold before_year. rewrite (Z.div_small g 400) by exact G. ring. }
  rewrite <- S in E. set (doy := doe - before_year g) in *.
  assert (YL := year_length (g + 1)). replace (g + 1 - 1) with g in YL by ring.
  assert (D : 0 <= doy <= 365 /\ (doy = 365 -> leapb (g + 1) = true)).
  { destruct (Z.eq_dec g 399) as [G9|G9].
    - unfold doy. rewrite G9. change (before_year 399) with 145731. rewrite G9 in L. change (before_year 399) with 145731 in L.
      split; [lia|reflexivity].
    - specialize (U ltac:(lia)). unfold doy. destruct (leapb (g + 1)); split; intros; try reflexivity; lia. }
  destruct D as (D & LY). assert (DE : doe = before_year g + doy) by (unfold doy; ring). clearbody doy.
  assert (Q := all_from_spec _ 366 0 doys_checked doy ltac:(lia)). unfold doy_ok in Q. cbn zeta in Q.
  set (mp := (5 * doy + 2) / 153) in *. set (dd := doy - (153 * mp + 2) / 5 + 1) in *. set (mm := if mp <? 10 then mp + 3 else mp - 9) in *.
  unfold shift in E.
  assert (y = (if mm <=? 2 then g + 1 else g) + 400 * k /\ m = mm /\ d = dd) as (-> & -> & ->) by (injection E; intros; repeat split; symmetry; assumption).
  rewrite !andb_true_iff in Q. destruct Q as (((((Q1 & Q2) & Q3) & Q4) & Q5) & Q6).
  apply Z.leb_le in Q1, Q2, Q3, Q4. apply Z.eqb_eq in Q5.
  rewrite days_shift, days_simple. unfold date_ok. rewrite month_days_shift.
  split.
  - rewrite Q5. replace (if mm <=? 2 then (if mm <=? 2 then g + 1 else g) - 1 else (if mm <=? 2 then g + 1 else g)) with g
      by (destruct (mm <=? 2); ring). unfold dd. lia.
  - split; [lia|]. split; [lia|]. unfold month_days in *. destruct (Z.eqb_spec mm 2) as [M2|M2]; [|exact Q4].
    rewrite M2. cbn [Z.leb Z.compare Pos.compare Pos.compare_cont]. destruct (leapb (g + 1)) eqn:LG; [exact Q4|].
    rewrite andb_true_l in Q6. destruct (Z.eqb_spec dd 29) as [D9|D9]; [|lia]. cbn [negb orb] in Q6. apply Z.eqb_eq in Q6. specialize (LY Q6). discriminate.
Qed.
Lemma civil_days : forall y m d, date_ok y m d -> civil_from_days (days_from_civil y m d) = (y, m, d).
Proof.
  intros y m d O. destruct (civil_from_days (days_from_civil y m d)) as [[y' m'] d'] eqn:E.
  destruct (days_civil _ _ _ _ E) as (A & B). apply days_inj; assumption.
Qed.

(** days are counted from 1970-01-01, one for every date of the calendar *)
Theorem C114_calendar : days_from_civil 1970 1 1 = 0 /\
  (forall y m d, date_ok y m d -> days3 (next_day y m d) = days_from_civil y m d + 1) /\
  (forall y m d y' m' d', next_day y m d = (y', m', d') -> date_ok y m d -> date_ok y' m' d') /\
  (forall n, exists y m d, date_ok y m d /\ days_from_civil y m d = n /\
     forall y' m' d', date_ok y' m' d' -> days_from_civil y' m' d' = n -> (y', m', d') = (y, m, d)) /\
  (forall y, leapb y = true <-> leap y).
Proof.
  split; [reflexivity|]. split; [|split; [|split; [|exact leapb_spec]]].
  - exact next_days.
  - intros y m d y' m' d' E (M & D). unfold next_day in E.
    assert (P : forall a b, 28 <= month_days a b).
    { intros a b. unfold month_days. destruct (b =? 2); [destruct (leapb a); lia|]. destruct (_ || _); lia. }
    destruct (Z.ltb_spec d (month_days y m)); [injection E as <- <- <-; split; lia|].
    destruct (Z.ltb_spec m 12); injection E as <- <- <-; split; try lia; [specialize (P y (m + 1))|specialize (P (y + 1) 1)]; lia.
  - intro n. destruct (civil_from_days n) as [[y m] d] eqn:E. destruct (days_civil n y m d E) as (A & B). exists y, m, d.
    split; [exact B|split; [exact A|]]. intros y' m' d' O N. rewrite <- N, (civil_days y' m' d' O) in E. exact E.
Qed.

(** ** Instants of calendar times *)
Definition time_ok (t : ftime) : Prop :=
  Z.of_N (year t) <= 32767 /\ date_ok (Z.of_N (year t)) (Z.of_N (month t)) (Z.of_N (mday t)) /\
  (hour t <= 23)%N /\ (minute t <= 59)%N /\ (second t <= 59)%N.
Definition seconds_of_day (t : ftime) : Z := Z.of_N (hour t) * 3600 + Z.of_N (minute t) * 60 + Z.of_N (second t).
Definition no_fraction (t : ftime) : ftime := mkTime (year t) (month t) (mday t) (hour t) (minute t) (second t) 0.

Lemma to_char_127 : forall n, (n <= 127)%N -> to_char n = Z.of_N n.
Proof. intros n H. unfold to_char. rewrite Z.mod_small by lia. lia. Qed.
Lemma to_short_id : forall z, - 32768 <= z <= 32767 -> to_short z = z.
Proof. intros z H. unfold to_short. change (2 ^ 15) with 32768. change (2 ^ 16) with 65536. rewrite Z.mod_small; lia. Qed.
Lemma valid_month : forall t, (1 <= month t <= 12)%N -> invalid t = false.
Proof. intros t H. unfold invalid. destruct (N.leb_spec (month t) 0); [lia|]. destruct (N.ltb_spec 12 (month t)); [lia|]. reflexivity. Qed.

(** the instant of a time: the days of its date and the seconds of its day.  The month has to exist; days, hours,
    minutes and seconds up to 127 are carried over *)
Theorem C114_instant : forall t, (1 <= month t <= 12)%N -> Z.of_N (year t) <= 32767 -> (mday t <= 127)%N ->
  (hour t <= 127)%N -> (minute t <= 127)%N -> (second t <= 127)%N ->
  as_time_point t = (days_from_civil (Z.of_N (year t)) (Z.of_N (month t)) 1 + (Z.of_N (mday t) - 1)) * 86400 + seconds_of_day t /\
  epoch_of_time t = as_time_point t.
Proof.
  intros t M Y D H Mi S. unfold epoch_of_time, epoch_of_instant. change (days_from_civil 1970 1 1) with 0.
  split; [|lia]. unfold as_time_point, make_time_point, seconds_of_day. rewrite (valid_month t M).
  rewrite !to_char_127, to_short_id by lia. rewrite !Z.mod_small by lia.
  replace (days_from_civil (Z.of_N (year t)) (Z.of_N (month t)) (Z.of_N (mday t)))
    with (days_from_civil (Z.of_N (year t)) (Z.of_N (month t)) 1 + (Z.of_N (mday t) - 1)) by (unfold days_from_civil; lia).
  lia.
Qed.
Lemma instant_ok : forall t, time_ok t -> as_time_point t = days_from_civil (Z.of_N (year t)) (Z.of_N (month t)) (Z.of_N (mday t)) * 86400 + seconds_of_day t.
Proof.
  intros t (Y & (M & D) & H & Mi & S). assert (B := month_days_bound (Z.of_N (year t)) (Z.of_N (month t))).
  rewrite (proj1 (C114_instant t ltac:(lia) Y ltac:(lia) ltac:(lia) ltac:(lia) ltac:(lia))). unfold days_from_civil. lia.
Qed.

(** seconds a nanosecond clock of 64 bits can hold: 1677-09-21T00:12:44 to 2262-04-11T23:47:16 *)
Definition on_clock (p : Z) : Prop := - 9223372036 <= p <= 9223372036.
Lemma to_clock_ok : forall p, on_clock p -> to_clock p = Ok (p * 1000000000).
Proof.
  intros p H. unfold on_clock in H. unfold to_clock. change (- 2 ^ 63) with (-9223372036854775808). change (2 ^ 63) with 9223372036854775808.
  destruct (Z.leb_spec (-9223372036854775808) (p * 1000000000)); [|lia].
  destruct (Z.ltb_spec (p * 1000000000) 9223372036854775808); [reflexivity|lia].
Qed.
Lemma to_clock_ub : forall p, ~ on_clock p -> to_clock p = UB.
Proof.
  intros p H. unfold on_clock in H. unfold to_clock. change (- 2 ^ 63) with (-9223372036854775808). change (2 ^ 63) with 9223372036854775808.
  destruct (Z.leb_spec (-9223372036854775808) (p * 1000000000)); [|reflexivity].
  destruct (Z.ltb_spec (p * 1000000000) 9223372036854775808); [lia|reflexivity].
Qed.
Lemma utc_ok : forall p, on_clock p ->
  utc p = Ok (civil_from_days (p / 86400), (p mod 86400 / 3600, p mod 86400 mod 3600 / 60, p mod 86400 mod 60)).
Proof. intros p H. unfold utc. rewrite to_clock_ok by assumption. cbn [obind]. rewrite Z.quot_mul by lia. reflexivity. Qed.
Lemma not_invalid : forall p, on_clock p -> is_invalid p = false.
Proof. intros p H. unfold on_clock in H. unfold is_invalid, invalid_instant. apply Z.eqb_neq. change (2 ^ 63 - 1) with 9223372036854775807. lia. Qed.
Lemma day_split : forall n s, 0 <= s < 86400 -> (n * 86400 + s) / 86400 = n /\ (n * 86400 + s) mod 86400 = s.
Proof.
  intros n s H. split.
  - rewrite Z.div_add_l by lia. rewrite Z.div_small by lia. lia.
  - rewrite Z.add_comm, Z_mod_plus_full. apply Z.mod_small, H.
Qed.
Lemma clock_split : forall h m s, 0 <= m <= 59 -> 0 <= s <= 59 ->
  (h * 3600 + m * 60 + s) / 3600 = h /\ (h * 3600 + m * 60 + s) mod 3600 / 60 = m /\ (h * 3600 + m * 60 + s) mod 60 = s.
Proof.
  intros h m s M S. replace (h * 3600 + m * 60 + s) with (h * 3600 + (m * 60 + s)) by ring. split; [|split].
  - rewrite Z.div_add_l by lia. rewrite Z.div_small by lia. lia.
  - rewrite Z.add_comm, Z_mod_plus_full, Z.mod_small by lia. rewrite Z.div_add_l by lia. rewrite Z.div_small by lia. lia.
  - replace (h * 3600 + (m * 60 + s)) with (s + (h * 60 + m) * 60) by ring. rewrite Z_mod_plus_full. apply Z.mod_small. lia.
Qed.
Lemma unsigned_id : forall b z, 0 <= z < 2 ^ b -> to_unsigned b z = Z.to_N z.
Proof. intros b z H. unfold to_unsigned. rewrite Z.mod_small by exact H. reflexivity. Qed.

(** the time of its instant is the time itself, without the fraction of the second *)
Theorem C114_time_to_instant_and_back : forall t, time_ok t -> on_clock (as_time_point t) ->
  from_time_point (as_time_point t) = Ok (no_fraction t).
Proof.
  intros t T C. unfold from_time_point. rewrite (not_invalid _ C), (utc_ok _ C). cbn [obind]. rewrite (instant_ok t T).
  destruct T as (Y & O & H & Mi & S). unfold seconds_of_day.
  destruct (day_split (days_from_civil (Z.of_N (year t)) (Z.of_N (month t)) (Z.of_N (mday t)))
              (Z.of_N (hour t) * 3600 + Z.of_N (minute t) * 60 + Z.of_N (second t)) ltac:(lia)) as (-> & ->).
  destruct (clock_split (Z.of_N (hour t)) (Z.of_N (minute t)) (Z.of_N (second t)) ltac:(lia) ltac:(lia)) as (-> & -> & ->).
  rewrite (civil_days _ _ _ O). destruct O as (M & D). assert (B := month_days_bound (Z.of_N (year t)) (Z.of_N (month t))).
  rewrite !unsigned_id by (change (2 ^ 8) with 256; change (2 ^ 16) with 65536; lia). rewrite !N2Z.id. reflexivity.
Qed.

(** an instant of the clock is a time of the calendar, and the instant of that time *)
Lemma year_on_clock : forall p y m d, on_clock p -> civil_from_days (p / 86400) = (y, m, d) -> 1677 <= y <= 2262.
Proof.
  intros p y m d P E. destruct (days_civil _ _ _ _ E) as (A & M & D). unfold on_clock in P.
  assert (B := month_days_bound y m).
  assert (Q : - 106752 <= p / 86400 <= 106751) by (split; [apply Z.div_le_lower_bound|apply Z.lt_succ_r, Z.div_lt_upper_bound]; lia).
  rewrite <- A in Q. unfold days_from_civil in Q. cbn zeta in Q.
  set (y0 := if m <=? 2 then y - 1 else y) in *. assert (Y0 : y - 1 <= y0 <= y) by (unfold y0; destruct (m <=? 2); lia).
  set (m0 := if 2 <? m then m - 3 else m + 9) in *. assert (M0 : 0 <= m0 <= 11) by (unfold m0; destruct (Z.ltb_spec 2 m); lia).
  assert (J : m0 = 10 -> y0 = y - 1 /\ m = 1) by (unfold m0, y0; destruct (Z.ltb_spec 2 m), (Z.leb_spec m 2); lia).
  assert (J2 : m0 = 11 -> y0 = y - 1 /\ m = 2) by (unfold m0, y0; destruct (Z.ltb_spec 2 m), (Z.leb_spec m 2); lia).
  assert (J3 : m0 < 10 -> y0 = y) by (unfold m0, y0; destruct (Z.ltb_spec 2 m), (Z.leb_spec m 2); lia).
  clearbody y0 m0.
  assert (1676 <= y0 <= 2262); [|lia].
  Z.to_euclidean_division_equations; lia.
Qed.
Theorem C114_instant_to_time_and_back : forall p, on_clock p -> exists t, from_time_point p = Ok t /\ time_ok t /\ as_time_point t = p.
Proof.
  intros p P. unfold from_time_point. rewrite (not_invalid _ P), (utc_ok _ P). cbn [obind].
  destruct (civil_from_days (p / 86400)) as [[y m] d] eqn:E. assert (Y := year_on_clock p y m d P E).
  destruct (days_civil _ _ _ _ E) as (A & M & D). assert (B := month_days_bound y m).
  assert (S := Z.mod_pos_bound p 86400 ltac:(lia)). set (s := p mod 86400) in *.
  assert (S1 : 0 <= s / 3600 <= 23) by (split; [apply Z.div_le_lower_bound|apply Z.lt_succ_r, Z.div_lt_upper_bound]; lia).
  assert (S2 : 0 <= s mod 3600 / 60 <= 59).
  { assert (Q := Z.mod_pos_bound s 3600 ltac:(lia)). split; [apply Z.div_le_lower_bound|apply Z.lt_succ_r, Z.div_lt_upper_bound]; lia. }
  assert (S3 := Z.mod_pos_bound s 60 ltac:(lia)).
  rewrite !unsigned_id by (change (2 ^ 8) with 256; change (2 ^ 16) with 65536; lia).
  eexists. split; [reflexivity|].
  match goal with |- time_ok ?t /\ _ => set (tt := t) end.
  assert (T : time_ok tt).
  { unfold time_ok, tt. cbn [year month mday hour minute second]. rewrite !Z2N.id by lia. unfold date_ok. repeat split; lia. }
  split; [exact T|]. rewrite (instant_ok tt T). unfold seconds_of_day, tt. cbn [year month mday hour minute second].
  rewrite !Z2N.id by lia. rewrite A.
  assert (R : s = s / 3600 * 3600 + s mod 3600 / 60 * 60 + s mod 60).
  { clear. Z.to_euclidean_division_equations; lia. }
  rewrite <- R. unfold s. rewrite (Z.div_mod p 86400) at 3 by lia. lia.
Qed.

(** ** Order *)
Definition fields6 (t : ftime) : list N := [year t; month t; mday t; hour t; minute t; second t].
Fixpoint before (a b : list N) : Prop :=
  match a, b with
  | x :: a, y :: b => (x < y)%N \/ (x = y /\ before a b)
  | _, _ => False
  end.
(** instants are ordered as the times *)
Lemma before_instant : forall t u, time_ok t -> time_ok u -> before (fields6 t) (fields6 u) -> as_time_point t < as_time_point u.
Proof.
  intros t u T U B. rewrite (instant_ok t T), (instant_ok u U).
  destruct T as (Y & O & H & Mi & S), U as (Y' & O' & H' & Mi' & S'). unfold seconds_of_day.
  cbn [before fields6] in B.
  destruct B as [B|(B1 & B)]; [assert (X := days_lt _ _ _ _ _ _ O O' ltac:(destruct O, O'; lia)); lia|]. rewrite B1 in *.
  destruct B as [B|(B2 & B)]; [assert (X := days_lt _ _ _ _ _ _ O O' ltac:(lia)); lia|]. rewrite B2 in *.
  assert (E : forall d, days_from_civil (Z.of_N (year u)) (Z.of_N (month u)) d = days_from_civil (Z.of_N (year u)) (Z.of_N (month u)) 1 + (d - 1))
    by (intro d; unfold days_from_civil; lia).
  rewrite (E (Z.of_N (mday t))), (E (Z.of_N (mday u))). clear E.
  destruct B as [B|(B3 & B)]; [lia|]. rewrite B3. destruct B as [B|(B4 & B)]; [lia|]. rewrite B4.
  destruct B as [B|(B5 & B)]; [lia|]. rewrite B5. destruct B as [B|(B6 & [])]; lia.
Qed.
Theorem C114_order : forall t u, time_ok t -> time_ok u ->
  (as_time_point t < as_time_point u <-> before (fields6 t) (fields6 u)) /\
  (as_time_point t = as_time_point u <-> fields6 t = fields6 u).
Proof.
  intros t u T U. assert (C : before (fields6 t) (fields6 u) \/ fields6 t = fields6 u \/ before (fields6 u) (fields6 t)).
  { unfold fields6. cbn [before].
    destruct (N.lt_total (year t) (year u)) as [?|[->|?]]; [tauto| |tauto].
    destruct (N.lt_total (month t) (month u)) as [?|[->|?]]; [tauto| |tauto].
    destruct (N.lt_total (mday t) (mday u)) as [?|[->|?]]; [tauto| |tauto].
    destruct (N.lt_total (hour t) (hour u)) as [?|[->|?]]; [tauto| |tauto].
    destruct (N.lt_total (minute t) (minute u)) as [?|[->|?]]; [tauto| |tauto].
    destruct (N.lt_total (second t) (second u)) as [?|[->|?]]; tauto. }
  assert (E : fields6 t = fields6 u -> as_time_point t = as_time_point u).
  { intro X. unfold fields6 in X. injection X as X1 X2 X3 X4 X5 X6. rewrite (instant_ok t T), (instant_ok u U). unfold seconds_of_day.
    rewrite X1, X2, X3, X4, X5, X6. reflexivity. }
  assert (I1 := before_instant t u T U). assert (I2 := before_instant u t U T).
  split; (split; [|first [exact I1|exact E]]); intro X; destruct C as [C|[C|C]]; try assumption;
    [rewrite (E C) in X; lia|specialize (I2 C); lia|specialize (I1 C); lia|specialize (I2 C); lia].
Qed.

(** ** Texts *)
Lemma undec_zeros : forall n s, s <> [] -> undec (repeat "0"%char n ++ s) = undec s.
Proof.
  induction n as [|n IH]; intros s H; cbn [repeat List.app]; [reflexivity|]. rewrite <- (IH s H).
  unfold undec. destruct (repeat "0"%char n ++ s) as [|c r] eqn:E; [destruct n, s; try discriminate; congruence|]. reflexivity.
Qed.
Lemma padded_undec : forall w z, undec (padded w z) = Some (Z.to_N z).
Proof.
  intros w z. unfold padded. rewrite undec_zeros; [apply C61_decimal_digits|]. intro E. assert (X := C61_decimal_digits (Z.to_N z)). rewrite E in X. discriminate X.
Qed.
(** the extended text of an instant is read as that instant *)
Theorem C114_text_and_back : forall fuel p, on_clock p -> exists s,
  make_time_string_extended p = Ok s /\ from_string fuel s = Ok p.
Proof.
  intros fuel p P. unfold make_time_string_extended, time_string. rewrite (not_invalid _ P), (utc_ok _ P). cbn [obind].
  destruct (civil_from_days (p / 86400)) as [[y m] d] eqn:E. assert (Y := year_on_clock p y m d P E).
  destruct (days_civil _ _ _ _ E) as (A & M & D). assert (B := month_days_bound y m).
  assert (S := Z.mod_pos_bound p 86400 ltac:(lia)). set (s := p mod 86400) in *.
  assert (S1 : 0 <= s / 3600 <= 23) by (split; [apply Z.div_le_lower_bound|apply Z.lt_succ_r, Z.div_lt_upper_bound]; lia).
  assert (S2 : 0 <= s mod 3600 / 60 <= 59).
  { assert (Q := Z.mod_pos_bound s 3600 ltac:(lia)). split; [apply Z.div_le_lower_bound|apply Z.lt_succ_r, Z.div_lt_upper_bound]; lia. }
  assert (S3 := Z.mod_pos_bound s 60 ltac:(lia)).
  eexists. split; [reflexivity|]. unfold from_string.
  change (s_ "-") with ["-"%char]. change (s_ ":") with [":"%char]. change (s_ "T") with ["T"%char].
  rewrite (C61_parse_fields fuel "T" _ _ _ _ _ _ _ _ _ _ _ _ (or_introl eq_refl) (padded_undec _ _) (padded_undec _ _) (padded_undec _ _)
             (padded_undec _ _) (padded_undec _ _) (padded_undec _ _)) by (cbn; lia).
  cbn [obind]. f_equal.
  destruct (C114_instant_to_time_and_back p P) as (t & F & _ & I). rewrite <- I. f_equal.
  unfold from_time_point in F. rewrite (not_invalid _ P), (utc_ok _ P) in F. cbn [obind] in F. rewrite E in F.
  fold s in F. rewrite !unsigned_id in F by (change (2 ^ 8) with 256; change (2 ^ 16) with 65536; lia). injection F as <-. reflexivity.
Qed.

(** ** What is no time *)
Theorem C114_invalid : forall t, (month t = 0 \/ 12 < month t)%N ->
  as_time_point t = invalid_instant /\ is_invalid (as_time_point t) = true /\
  from_time_point (as_time_point t) = Ok min_date_time /\ invalid min_date_time = true /\
  make_time_string_extended (as_time_point t) = Ok (s_ "invalid-date-time").
Proof.
  intros t H. assert (I : invalid t = true).
  { unfold invalid. destruct (N.leb_spec (month t) 0); [reflexivity|]. destruct (N.ltb_spec 12 (month t)); [reflexivity|lia]. }
  assert (E : as_time_point t = invalid_instant) by (unfold as_time_point; rewrite I; reflexivity). rewrite E.
  repeat split.
Qed.
(** times of the calendar have another instant *)
Theorem C114_valid : forall t, time_ok t -> is_invalid (as_time_point t) = false.
Proof.
  intros t T. rewrite (instant_ok t T). destruct T as (Y & (M & D) & H & Mi & S). unfold is_invalid, invalid_instant, seconds_of_day.
  apply Z.eqb_neq. change (2 ^ 63 - 1) with 9223372036854775807.
  assert (B := month_days_bound (Z.of_N (year t)) (Z.of_N (month t))).
  assert (days_from_civil (Z.of_N (year t)) (Z.of_N (month t)) (Z.of_N (mday t)) <= 12000000); [|lia].
  unfold days_from_civil. cbn zeta. destruct (Z.leb_spec (Z.of_N (month t)) 2), (Z.ltb_spec 2 (Z.of_N (month t))); try lia;
    Z.to_euclidean_division_equations; lia.
Qed.
Theorem C114_timet : forall t, on_clock t -> from_timet t = Ok t.
Proof. intros t H. unfold from_timet. rewrite to_clock_ok by exact H. cbn [obind]. rewrite Z.quot_mul by lia. reflexivity. Qed.

(** Finding: instants before 1677 or after 2262 overflow in the conversion to nanoseconds, though seconds can hold
    them: no time, no text *)
Theorem C114_clock_refuted : forall p, ~ on_clock p -> is_invalid p = false ->
  from_time_point p = UB /\ make_time_string p = UB /\ make_time_string_extended p = UB /\ from_timet p = UB.
Proof.
  intros p N I. unfold from_time_point, make_time_string, make_time_string_extended, time_string, utc, from_timet.
  rewrite I, (to_clock_ub p N). repeat split.
Qed.
Theorem C114_year_1_refuted : exists t, time_ok t /\ year t = 1%N /\ from_time_point (as_time_point t) = UB.
Proof.
  exists (mkTime 1 1 1 0 0 0 0). split; [|split; [reflexivity|vm_compute; reflexivity]].
  unfold time_ok, date_ok, month_days. cbn. repeat split; lia.
Qed.
(** Finding: years from 32768 on are taken as years before 0 *)
Theorem C114_late_year_refuted : exists t, year t = 32768%N /\ (month t = 1 /\ mday t = 1)%N /\
  as_time_point t < as_time_point (mkTime 0 1 1 0 0 0 0).
Proof. exists (mkTime 32768 1 1 0 0 0 0). repeat split; vm_compute; reflexivity. Qed.
(** Finding: the compact text is not read back *)
Theorem C114_compact_text_refuted : forall fuel, exists s, make_time_string 0 = Ok s /\ s = s_ "19700101T000000" /\
  from_string fuel s = Ok invalid_instant.
Proof. intro fuel. eexists. split; [vm_compute; reflexivity|]. split; reflexivity. Qed.
(** Finding: a day that is not in the calendar is taken as another one *)
Theorem C114_no_such_day_refuted : as_time_point (mkTime 2023 2 30 0 0 0 0) = as_time_point (mkTime 2023 3 2 0 0 0 0) /\
  as_time_point (mkTime 2023 3 0 0 0 0 0) = as_time_point (mkTime 2023 2 28 0 0 0 0).
Proof. split; vm_compute; reflexivity. Qed.

Example C114_nonvacuous :
  let t := mkTime 2024 2 29 23 59 58 7 in
  time_ok t /\ on_clock (as_time_point t) /\ as_time_point t = 1709251198 /\
  from_time_point 1709251200 = Ok (mkTime 2024 3 1 0 0 0 0) /\
  make_time_string_extended (-1) = Ok (s_ "1969-12-31T23:59:59") /\
  make_time_string 1709251198 = Ok (s_ "20240229T235958") /\
  next_day 2024 2 28 = (2024, 2, 29) /\ next_day 2100 2 28 = (2100, 3, 1).
Proof.
  cbn zeta. unfold time_ok, date_ok, on_clock. cbn [year month mday hour minute second].
  assert (E : as_time_point (mkTime 2024 2 29 23 59 58 7) = 1709251198) by (vm_compute; reflexivity). rewrite E.
  split; [change (month_days (Z.of_N 2024) (Z.of_N 2)) with 29; repeat split; lia|]. split; [lia|].
  repeat split.
Qed.

Print Assumptions C114_calendar.
Print Assumptions C114_instant.
Print Assumptions C114_time_to_instant_and_back.
Print Assumptions C114_instant_to_time_and_back.
Print Assumptions C114_order.
Print Assumptions C114_text_and_back.
Print Assumptions C114_invalid.
Print Assumptions C114_valid.
Print Assumptions C114_timet.
Print Assumptions C114_clock_refuted.
Print Assumptions C114_year_1_refuted.
Print Assumptions C114_late_year_refuted.
Print Assumptions C114_compact_text_refuted.
Print Assumptions C114_no_such_day_refuted.
