(** C14: calendar times compare chronologically.  C15: packing loses nothing. *)
From Coq Require Import NArith ZArith List Bool Lia.
From Coq Require Import ZifyBool ZifyNat ZifyN.
From Verif Require Import Base TimeModel TimeProofs.
Import ListNotations.
Open Scope N_scope.

(** ** Specification: chronological order *)

(** the fields from the coarsest to the finest *)
Definition fields (t : ftime) : list N :=
  [year t; month t; mday t; hour t; minute t; second t; msecond t].

(** a is before b: they agree up to some field, and there a is smaller *)
Definition before (a b : ftime) : Prop :=
  exists i, (forall j, (j < i)%nat -> nth j (fields a) 0 = nth j (fields b) 0) /\
            nth i (fields a) 0 < nth i (fields b) 0.

(** what the code needs: twelve bits for the year, four for the month, seven for the minute *)
Definition in_range (t : ftime) : Prop :=
  year t <= 4095 /\ month t <= 15 /\ mday t <= 255 /\ hour t <= 255 /\
  minute t <= 127 /\ second t <= 255 /\ msecond t <= 65535.

(** a date of the calendar *)
Definition calendar (t : ftime) : Prop :=
  1 <= month t <= 12 /\ 1 <= mday t <= 31 /\ hour t <= 23 /\ minute t <= 59 /\ second t <= 60 /\
  msecond t <= 999.

Lemma in_range_packable : forall t, in_range t -> packable t.
Proof. unfold in_range, packable. intros. pows. lia. Qed.

Lemma calendar_in_range : forall t, calendar t -> year t <= 4095 -> in_range t.
Proof. unfold calendar, in_range. lia. Qed.

Lemma digit_lt : forall a b x y m, x < m -> y < m -> (a * m + x < b * m + y <-> a < b \/ a = b /\ x < y).
Proof.
  intros a b x y m X Y. split.
  - intro H. destruct (N.lt_trichotomy a b) as [L | [-> | L]]; [ now left | right; split; [ reflexivity | lia ] | ].
    exfalso. assert (b + 1 <= a) by lia. assert ((b + 1) * m <= a * m) by (apply N.mul_le_mono_r; lia). lia.
  - intros [L | [-> L]]; [ | lia ].
    assert (a + 1 <= b) by lia. assert ((a + 1) * m <= b * m) by (apply N.mul_le_mono_r; lia). lia.
Qed.

Lemma digit_eq : forall a b x y m, x < m -> y < m -> (a * m + x = b * m + y <-> a = b /\ x = y).
Proof.
  intros a b x y m X Y. split; [ | intros [-> ->]; reflexivity ].
  intro H. pose proof (digit_lt a b x y m X Y) as L1. pose proof (digit_lt b a y x m Y X) as L2.
  assert (~ a * m + x < b * m + y) by lia. assert (~ b * m + y < a * m + x) by lia.
  assert (a = b) by (destruct (N.lt_trichotomy a b) as [L | [E | L]]; tauto). subst b. lia.
Qed.

Lemma packed_before : forall a b, in_range a -> in_range b -> (packed a < packed b <-> before a b).
Proof.
  intros a b A B. apply in_range_packable, packable_8 in A. apply in_range_packable, packable_8 in B.
  destruct A as (A1 & A2 & A3 & A4 & A5 & A6 & A7). destruct B as (B1 & B2 & B3 & B4 & B5 & B6 & B7).
  unfold packed.
  rewrite (digit_lt _ _ (msecond a) (msecond b)) by assumption.
  rewrite (digit_lt _ _ (second a) (second b)), (digit_eq _ _ (second a) (second b)) by assumption.
  rewrite (digit_lt _ _ (minute a) (minute b)), (digit_eq _ _ (minute a) (minute b)) by assumption.
  rewrite (digit_lt _ _ (hour a) (hour b)), (digit_eq _ _ (hour a) (hour b)) by assumption.
  rewrite (digit_lt _ _ (mday a) (mday b)), (digit_eq _ _ (mday a) (mday b)) by assumption.
  rewrite (digit_lt _ _ (month a) (month b)), (digit_eq _ _ (month a) (month b)) by assumption.
  split.
  - intro H.
    assert (E : year a < year b \/ (year a = year b /\ (month a < month b \/ (month a = month b /\
            (mday a < mday b \/ (mday a = mday b /\ (hour a < hour b \/ (hour a = hour b /\
            (minute a < minute b \/ (minute a = minute b /\ (second a < second b \/
            (second a = second b /\ msecond a < msecond b))))))))))))
      by tauto.
    clear H.
    assert (Z : forall j, nth (S (S (S (S (S (S (S j))))))) (fields a) 0 = 0)
      by (intro j; unfold fields; cbn [nth]; destruct j; reflexivity).
    destruct E as [E | [E1 [E | [E2 [E | [E3 [E | [E4 [E | [E5 [E | [E6 E]]]]]]]]]]]];
      [ exists 0%nat | exists 1%nat | exists 2%nat | exists 3%nat | exists 4%nat | exists 5%nat | exists 6%nat ];
      (split; [ intros j J | exact E ]);
      do 7 (destruct j as [ | j ]; [ cbn [nth fields]; first [ assumption | exfalso; lia ] | ]);
      exfalso; lia.
  - intros (i & Eq & Lt).
    assert (K : forall j, (j < i)%nat -> nth j (fields a) 0 = nth j (fields b) 0) by exact Eq. clear Eq.
    destruct i as [ | [ | [ | [ | [ | [ | [ | i ]]]]]]].
    8:{ exfalso. unfold fields in Lt. cbn [nth] in Lt. destruct i; lia. }
    all: cbn [nth fields] in Lt.
    all: try (pose proof (K 0%nat ltac:(lia)) as K0; cbn [nth fields] in K0).
    all: try (pose proof (K 1%nat ltac:(lia)) as K1; cbn [nth fields] in K1).
    all: try (pose proof (K 2%nat ltac:(lia)) as K2; cbn [nth fields] in K2).
    all: try (pose proof (K 3%nat ltac:(lia)) as K3; cbn [nth fields] in K3).
    all: try (pose proof (K 4%nat ltac:(lia)) as K4; cbn [nth fields] in K4).
    all: try (pose proof (K 5%nat ltac:(lia)) as K5; cbn [nth fields] in K5).
    all: clear K; tauto.
Qed.

Lemma ltb_spec : forall a b, in_range a -> in_range b -> (ft_ltb a b = true <-> before a b).
Proof.
  intros a b A B. unfold ft_ltb, ft_gtb. rewrite N.ltb_lt.
  rewrite !encoded_packed by (apply in_range_packable; assumption).
  apply packed_before; assumption.
Qed.

Lemma ft_eqb_eq : forall a b, ft_eqb a b = true <-> a = b.
Proof.
  intros [a1 a2 a3 a4 a5 a6 a7] [b1 b2 b3 b4 b5 b6 b7]. unfold ft_eqb. cbn.
  rewrite !andb_true_iff, !N.eqb_eq. split.
  - intros ((((((-> & ->) & ->) & ->) & ->) & ->) & ->). reflexivity.
  - intro H. injection H. intros. subst. tauto.
Qed.

(** C14: the operators agree with the chronological order *)
Theorem C14_less_is_before : forall a b, in_range a -> in_range b ->
  (ft_ltb a b = true <-> before a b) /\ (ft_gtb a b = true <-> before b a).
Proof. intros a b A B. split; [ now apply ltb_spec | now apply (ltb_spec b a) ]. Qed.

Theorem C14_equality : forall a b, (ft_eqb a b = true <-> fields a = fields b) /\
  ft_neb a b = negb (ft_eqb a b).
Proof.
  intros a b. split; [ | reflexivity ]. rewrite ft_eqb_eq. split; [ intros ->; reflexivity | ].
  intro H. unfold fields in H. injection H. intros. destruct a, b. cbn in *. now subst.
Qed.

(** exactly one of <, ==, > holds; <= and >= are their combinations *)
Theorem C14_trichotomy : forall a b, in_range a -> in_range b ->
  (before a b /\ a <> b /\ ~ before b a) \/ (a = b /\ ~ before a b /\ ~ before b a) \/
  (before b a /\ a <> b /\ ~ before a b).
Proof.
  intros a b A B. rewrite <- !packed_before by assumption.
  assert (I : packed a = packed b <-> a = b).
  { split; [ intro E | intros ->; reflexivity ].
    rewrite <- (from_packed a), <- (from_packed b), E by (apply packable_8, in_range_packable; assumption).
    reflexivity. }
  destruct (N.lt_trichotomy (packed a) (packed b)) as [L | [E | L]].
  - left. rewrite <- I. lia.
  - right; left. rewrite <- I. lia.
  - right; right. rewrite <- I. lia.
Qed.

Theorem C14_less_equal : forall a b, in_range a -> in_range b ->
  (ft_leb a b = true <-> before a b \/ a = b) /\ (ft_geb a b = true <-> before b a \/ a = b).
Proof.
  intros a b A B. pose proof (C14_trichotomy a b A B) as T.
  pose proof (ltb_spec a b A B) as L1. pose proof (ltb_spec b a B A) as L2.
  unfold ft_leb, ft_geb, ft_ltb in *.
  destruct (ft_gtb a b), (ft_gtb b a); cbn; intuition congruence.
Qed.

Theorem C14_total_order : forall a b c, in_range a -> in_range b -> in_range c ->
  (ft_leb a a = true) /\
  (ft_leb a b = true -> ft_leb b a = true -> ft_eqb a b = true) /\
  (ft_leb a b = true -> ft_leb b c = true -> ft_leb a c = true) /\
  (ft_leb a b = true \/ ft_leb b a = true).
Proof.
  intros a b c A B C. unfold ft_leb, ft_gtb. rewrite ft_eqb_eq.
  rewrite !encoded_packed by (apply in_range_packable; assumption).
  repeat split; try lia.
  intros H1 H2. assert (E : packed a = packed b) by lia.
  rewrite <- (from_packed a), <- (from_packed b), E by (apply packable_8, in_range_packable; assumption).
  reflexivity.
Qed.

(** the special times bound every time the class can hold *)
Theorem C14_bounds : forall t, representable t ->
  ft_leb min_date_time t = true /\ ft_leb t max_date_time = true.
Proof.
  intros t R. unfold ft_leb, ft_gtb.
  change (to_encoded min_date_time) with 0. change (to_encoded max_date_time) with (M64 - 1).
  split; [ lia | ].
  assert (H : to_encoded t < M64); [ | lia ].
  assert (L : forall a b, a < 2 ^ 64 -> b < 2 ^ 64 -> N.lor a b < 2 ^ 64).
  { intros a b Ha Hb. destruct (N.eq_dec (N.lor a b) 0) as [-> | Z]; [ reflexivity | ].
    apply N.log2_lt_pow2; [ lia | ]. rewrite N.log2_lor.
    destruct (N.eq_dec a 0) as [-> | Za], (N.eq_dec b 0) as [-> | Zb];
      rewrite ?(proj1 (N.log2_lt_pow2 a 64 ltac:(lia))); try reflexivity.
    - rewrite N.max_0_l. apply N.log2_lt_pow2; lia.
    - rewrite N.max_0_r. apply N.log2_lt_pow2; lia.
    - apply N.max_lub_lt; apply N.log2_lt_pow2; lia. }
  assert (S : forall v n, shl64 v n < 2 ^ 64) by (intros; apply N.mod_lt; discriminate).
  assert (SI : forall v n, shl_int v n < 2 ^ 64).
  { intros v n. unfold shl_int. pose proof (N.mod_lt (N.shiftl v n) (2 ^ 32) ltac:(discriminate)).
    change M64 with (2 ^ 64). pows. destruct (_ <? _); lia. }
  unfold to_encoded. change M64 with (2 ^ 64).
  assert (msecond t < 2 ^ 64).
  { destruct R as (_ & _ & _ & _ & _ & _ & R). pows. lia. }
  repeat (apply L; auto).
Qed.

(** a late year is cut off, so a time in year 4096 compares as earlier than one in year 2000,
    and as neither earlier nor later than one in year 0 although they differ *)
Theorem C14_late_year_refuted :
  exists a b c, calendar a /\ calendar b /\ calendar c /\ before a b /\ ft_ltb b a = true /\
    c <> b /\ ft_ltb b c = false /\ ft_gtb b c = false /\ ft_eqb b c = false.
Proof.
  exists (mkTime 2000 1 1 0 0 0 0), (mkTime 4096 1 1 0 0 0 0), (mkTime 0 1 1 0 0 0 0).
  unfold calendar. cbn [month mday hour minute second msecond].
  repeat match goal with |- _ /\ _ => split end; try lia; try reflexivity; try discriminate.
  exists 0%nat. split; [ intros; lia | reflexivity ].
Qed.

(** ** C15 *)

Theorem C15_unpack_pack : forall t, in_range t -> from_encoded (to_encoded t) = t.
Proof.
  intros t H. apply in_range_packable in H. rewrite encoded_packed by assumption.
  now apply from_packed, packable_8.
Qed.

Theorem C15_pack_injective : forall a b, in_range a -> in_range b ->
  to_encoded a = to_encoded b -> a = b.
Proof.
  intros a b A B E. rewrite <- (C15_unpack_pack a A), <- (C15_unpack_pack b B), E. reflexivity.
Qed.

(** an encoding is a 64-bit number; the minute is in bits 24..31 *)
Theorem C15_pack_unpack : forall e, e < 2 ^ 64 -> minute (from_encoded e) <= 127 ->
  to_encoded (from_encoded e) = e.
Proof.
  intros e H M. rewrite encoded_packed; [ now apply packed_from | ].
  destruct (from_packable8 e H) as (H1 & H2 & H3 & H4 & H5 & H6 & H7).
  repeat split; try assumption. pows. lia.
Qed.

(** unpacking an encoding always gives field values in their bit widths *)
Theorem C15_unpack_range : forall e, e < 2 ^ 64 ->
  let t := from_encoded e in
  year t <= 4095 /\ month t <= 15 /\ mday t <= 255 /\ hour t <= 255 /\ minute t <= 255 /\
  second t <= 255 /\ msecond t <= 65535.
Proof.
  intros e H. destruct (from_packable8 e H) as (H1 & H2 & H3 & H4 & H5 & H6 & H7).
  cbv zeta. pows. lia.
Qed.

(** two different encodings never unpack to the same time *)
Theorem C15_unpack_injective : forall e f, e < 2 ^ 64 -> f < 2 ^ 64 ->
  from_encoded e = from_encoded f -> e = f.
Proof.
  intros e f E F H. rewrite <- (packed_from e E), <- (packed_from f F), H. reflexivity.
Qed.

(** [minute << 24] is an int: a minute of 128 or more sets all higher bits, so the encoding
    0x80000000 (year 0, minute 128) does not survive, and two different times pack alike *)
Theorem C15_large_minute_refuted :
  (exists e, e < 2 ^ 64 /\ to_encoded (from_encoded e) <> e) /\
  (exists a b, representable a /\ representable b /\ a <> b /\ to_encoded a = to_encoded b).
Proof.
  split.
  - exists (2 ^ 31). split; [ reflexivity | discriminate ].
  - exists (mkTime 0 0 0 0 128 0 0), (mkTime 1 0 0 0 128 0 0).
    split; [ repeat split | split; [ repeat split | split; [ discriminate | reflexivity ]]].
Qed.

(** years from 4096 on lose their high bits *)
Theorem C15_late_year_refuted :
  exists t, calendar t /\ representable t /\ from_encoded (to_encoded t) <> t.
Proof.
  exists (mkTime 4096 1 1 0 0 0 0). split; [ unfold calendar; cbn; lia | ].
  split; [ repeat split | discriminate ].
Qed.

Example C14_nonvacuous :
  let a := mkTime 2008 2 29 23 59 59 999 in let b := mkTime 2008 3 1 0 0 0 0 in
  in_range a /\ in_range b /\ calendar a /\ before a b /\ ft_ltb a b = true /\ ft_geb a b = false.
Proof.
  cbv zeta. unfold in_range, calendar. cbn [year month mday hour minute second msecond].
  repeat match goal with |- _ /\ _ => split end; try lia; try reflexivity.
  exists 1%nat. split; [ | reflexivity ]. intros [ | j ] J; [ reflexivity | lia ].
Qed.

Example C15_nonvacuous :
  to_encoded (mkTime 2008 2 29 23 59 59 999) = 0x7D821D173B3B03E7 /\
  from_encoded 0x7D821D173B3B03E7 = mkTime 2008 2 29 23 59 59 999.
Proof. split; reflexivity. Qed.

Print Assumptions C14_less_is_before.
Print Assumptions C14_equality.
Print Assumptions C14_trichotomy.
Print Assumptions C14_less_equal.
Print Assumptions C14_total_order.
Print Assumptions C14_bounds.
Print Assumptions C14_late_year_refuted.
Print Assumptions C15_unpack_pack.
Print Assumptions C15_pack_injective.
Print Assumptions C15_pack_unpack.
Print Assumptions C15_unpack_range.
Print Assumptions C15_unpack_injective.
Print Assumptions C15_large_minute_refuted.
Print Assumptions C15_late_year_refuted.
