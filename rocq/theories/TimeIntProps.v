(** Theorems about time interpolation. *)
From Coq Require Import ZArith Reals List Lia Lra Arith Bool.
From Coq Require Import ZifyBool ZifyNat.
From Verif Require Import Base LinearModel LinearProps TimeIntModel.
Import ListNotations.
Local Open Scope nat_scope.

(** strictly increasing, and non-decreasing lists *)
Definition increasing (l : list Z) : Prop := forall i j a b, i < j -> nth_error l i = Some a -> nth_error l j = Some b -> (a < b)%Z.
Definition ordered (l : list Z) : Prop := forall i j a b, i < j -> nth_error l i = Some a -> nth_error l j = Some b -> (a <= b)%Z.

(** all before p are less than x, none from p on is *)
Definition split_at (l : list Z) (x : Z) (p : nat) : Prop :=
  p <= length l /\ (forall i a, i < p -> nth_error l i = Some a -> (a < x)%Z) /\ (forall i a, p <= i -> nth_error l i = Some a -> (x <= a)%Z).

Lemma lower_bound_spec fuel : forall l first len x, increasing l -> first + len <= length l -> len < fuel ->
  (forall i a, i < first -> nth_error l i = Some a -> (a < x)%Z) ->
  (forall i a, first + len <= i -> nth_error l i = Some a -> (x <= a)%Z) ->
  exists p, lower_bound fuel l first len x = Ok p /\ split_at l x p.
Proof.
  induction fuel as [ | fuel IH ]; intros l first len x Inc B F Lo Hi; [ lia | ]. cbn [lower_bound].
  destruct (Nat.eqb_spec len 0) as [ -> | Z ].
  - exists first. split; auto. rewrite Nat.add_0_r in *. repeat split; auto.
  - assert (len / 2 < len) as H by (apply Nat.div_lt; lia). generalize dependent (len / 2). intros half H.
    destruct (nth_error l (first + half)) as [ v | ] eqn:E; [ | apply nth_error_None in E; lia ]. cbn [rd obind].
    destruct (Z.ltb_spec v x) as [ V | V ].
    + apply IH; auto; [ lia | lia | | ].
      * intros i a Hi' Ea. destruct (Nat.eq_dec i (first + half)) as [ -> | N ]; [ congruence | ].
        pose proof (Inc i (first + half) a v ltac:(lia) Ea E). lia.
      * intros i a Hi' Ea. apply (Hi i a); auto. lia.
    + apply IH; auto; [ lia | lia | ].
      intros i a Hi' Ea. destruct (Nat.eq_dec i (first + half)) as [ -> | N ]; [ congruence | ].
      pose proof (Inc (first + half) i v a ltac:(lia) E Ea). lia.
Qed.

(** the pair of neighbouring old positions for a new time *)
Definition neighbours (old : list Z) (x : Z) (t1 t2 : nat) : Prop :=
  t2 = S t1 /\ t2 < length old /\
  forall a b, nth_error old t1 = Some a -> nth_error old t2 = Some b ->
    ((a < x <= b)%Z \/ (t1 = 0 /\ (x <= a)%Z) \/ (S t2 = length old /\ (b < x)%Z)).

Lemma map_time_spec old last x : increasing old -> 2 <= length old ->
  last < length old -> (forall i a, i < last -> nth_error old i = Some a -> (a < x)%Z) ->
  exists t1 t2 pos, map_time old last x = Ok (t1, t2, pos) /\ neighbours old x t1 t2 /\ pos < length old /\
    (forall i a, i < pos -> nth_error old i = Some a -> (a < x)%Z).
Proof.
  intros Inc L2 LL Lo. unfold map_time.
  destruct (lower_bound_spec (S (length old)) old last (length old - last) x) as (p & -> & Lp & S1 & S2); auto; try lia.
  { intros i a H E. apply nth_error_None in H || idtac. assert (i < length old) by (apply nth_error_Some; congruence). lia. }
  cbn [obind]. replace (length old =? 0) with false by lia.
  destruct (Nat.eqb_spec p (length old)) as [ -> | N ].
  - replace (length old - 1 =? 0) with false by lia. cbn [negb].
    exists (length old - 1 - 1), (length old - 1), (length old - 1). split; auto. split; [ | split; [ lia | ] ].
    + repeat split; try lia. intros a b Ea Eb. right. right. split; [ lia | ]. apply (S1 (length old - 1)); auto. lia.
    + intros i a H E. apply (S1 i); auto. lia.
  - destruct (Nat.eqb_spec p 0) as [ -> | P ]; cbn [negb].
    + replace (0 + 1 =? length old) with false by lia. cbn [negb].
      exists 0, 1, 0. split; auto. split; [ | split; [ lia | intros i a H; lia ] ].
      repeat split; try lia. intros a b Ea Eb. right. left. split; auto. apply (S2 0); auto.
    + exists (p - 1), p, p. split; auto. split; [ | split; [ lia | auto ] ].
      repeat split; try lia. intros a b Ea Eb. left. split; [ apply (S1 (p - 1)); auto; lia | apply (S2 p); auto ].
Qed.

Lemma map_times_spec old : increasing old -> 2 <= length old -> forall news last,
  ordered news -> last < length old ->
  (forall x i a, In x news -> i < last -> nth_error old i = Some a -> (a < x)%Z) ->
  exists m, map_times old last news = Ok m /\ length m = length news /\
    forall k x t1 t2, nth_error news k = Some x -> nth_error m k = Some (t1, t2) -> neighbours old x t1 t2.
Proof.
  intros Inc L2. induction news as [ | x r IH ]; intros last Or LL Lo.
  - exists []. split; [ reflexivity | ]. split; [ reflexivity | ]. intros [ | k ]; discriminate.
  - cbn [map_times].
    destruct (map_time_spec old last x) as (t1 & t2 & pos & -> & N & Lp & Lo'); auto.
    { intros. eapply Lo; eauto. cbn; auto. }
    cbn [obind].
    destruct (IH pos) as (m & -> & Lm & Nm); auto.
    { intros i j a b H Ea Eb. apply (Or (S i) (S j)); auto. lia. }
    { intros y i a Hy Hi Ea. pose proof (Lo' i a Hi Ea). apply In_nth_error in Hy as (k & Ek).
      assert (x <= y)%Z by (apply (Or 0 (S k)); auto; lia). lia. }
    cbn [obind]. exists ((t1, t2) :: m). split; [ reflexivity | ]. split; [ cbn; lia | ].
    intros [ | k ] y u1 u2 Ey Eu; cbn in Ey, Eu; [ | eapply Nm; eauto ].
    injection Ey as <-. injection Eu as <- <-. exact N.
Qed.

(** Every new time of an ordered list is mapped to two neighbouring old times that bracket it, or
    to the first or last two if it is outside. *)
Theorem C36_mapping :
  forall old news, increasing old -> 2 <= length old -> ordered news ->
    exists m, change_time_axis old news = Ok (Some m) /\ length m = length news /\
      forall k x, nth_error news k = Some x ->
        exists t1 t2, nth_error m k = Some (x, (t1, t2)) /\ neighbours old x t1 t2.
Proof.
  intros old news Inc L Or. destruct (map_times_spec old Inc L news 0) as (m & E & Lm & N); auto; [ lia | intros; lia | ].
  exists (combine news m). unfold change_time_axis. destruct old as [ | o old ]; [ cbn in L; lia | ]. rewrite E. split; auto.
  split; [ rewrite combine_length; lia | ].
  intros k x Ek. assert (k < length m) as H by (rewrite Lm; apply nth_error_Some; congruence).
  destruct (nth_error m k) as [ [ t1 t2 ] | ] eqn:Em; [ | apply nth_error_None in Em; lia ].
  exists t1, t2. split; [ | eapply N; eauto ].
  clear - Ek Em. revert m k Ek Em. induction news as [ | y r IH ]; intros [ | p m ] [ | k ]; cbn; try discriminate; try congruence. apply IH.
Qed.

(** One old time: always that one. *)
Theorem C36_single :
  forall o news, exists m, change_time_axis [o] news = Ok (Some m) /\
      forall k x, nth_error news k = Some x -> nth_error m k = Some (x, (0, 0)).
Proof.
  intros o news.
  assert (map_times [o] 0 news = Ok (map (fun _ => (0, 0)) news)) as E.
  { induction news as [ | x r IH ]; [ reflexivity | ]. cbn [map_times map].
    assert (map_time [o] 0 x = Ok (0, 0, 0)) as -> by (unfold map_time; cbn; destruct (o <? x)%Z; reflexivity).
    cbn [obind]. rewrite IH. reflexivity. }
  exists (combine news (map (fun _ => (0, 0)) news)). cbn [change_time_axis]. rewrite E. split; auto.
  clear. induction news as [ | y r IH ]; intros [ | k ] x; cbn; try discriminate; try congruence. apply IH.
Qed.

Section Values.
  Variables (old news : list Z) (records : list (list num)).
  Hypothesis Inc : increasing old.
  Hypothesis Two : 2 <= length old.
  Hypothesis Ord : ordered news.
  Hypothesis Recs : length records = length old.
  Hypothesis Same : forall i d, nth_error records i = Some d -> length d = length (hd [] records).
  Hypothesis Pos : 0 < length (hd [] records).

  Lemma get_slice_is k x : nth_error news k = Some x ->
    exists m t1 t2 a b d1 d2,
      change_time_axis old news = Ok (Some m) /\ neighbours old x t1 t2 /\
      nth_error old t1 = Some a /\ nth_error old t2 = Some b /\ (a < b)%Z /\
      nth_error records t1 = Some d1 /\ nth_error records t2 = Some d2 /\ length d1 = length d2 /\
      get_slice old records (Some m) k = Ok (linear_weak d1 d2 (time a) (time b) (time x)).
  Proof.
    intro Ek. destruct (C36_mapping old news Inc Two Ord) as (m & E & _ & M). destruct (M k x Ek) as (t1 & t2 & Em & N).
    pose proof N as (N1 & N2 & _).
    destruct (nth_error old t1) as [ a | ] eqn:Ea; [ | apply nth_error_None in Ea; lia ].
    destruct (nth_error old t2) as [ b | ] eqn:Eb; [ | apply nth_error_None in Eb; lia ].
    destruct (nth_error records t1) as [ d1 | ] eqn:E1; [ | apply nth_error_None in E1; lia ].
    destruct (nth_error records t2) as [ d2 | ] eqn:E2; [ | apply nth_error_None in E2; lia ].
    pose proof (Same _ _ E1) as L1. pose proof (Same _ _ E2) as L2.
    exists m, t1, t2, a, b, d1, d2. repeat (split; [ auto; try congruence | ]).
    - apply (Inc t1 t2); auto. lia.
    - unfold get_slice. rewrite Em, Ea, Eb, E1, E2.
      replace (length d1 =? 0) with false by lia. replace (length d2 =? 0) with false by lia.
      replace (length d1 =? length d2) with true by lia. reflexivity.
  Qed.

  (** At an old time the record of that time is returned. *)
  Theorem C36_exact_at_old_times :
    forall k x i d, nth_error news k = Some x -> nth_error old i = Some x -> nth_error records i = Some d ->
      exists m, change_time_axis old news = Ok (Some m) /\ get_slice old records (Some m) k = Ok d.
  Proof.
    intros k x i d Ek Ei Ed. destruct (get_slice_is k x Ek) as (m & t1 & t2 & a & b & d1 & d2 & E & (N1 & N2 & N3) & Ea & Eb & AB & E1 & E2 & L & G).
    exists m. split; auto. rewrite G. f_equal. unfold time.
    assert (forall j c, nth_error old j = Some c -> c = x -> j = i) as Inj.
    { intros j c Ej ->. destruct (Nat.lt_trichotomy i j) as [ H | [ H | H ] ]; auto.
      - pose proof (Inc i j x x H Ei Ej). lia.
      - pose proof (Inc j i x x H Ej Ei). lia. }
    destruct (C50_ends d1 d2 (IZR a) (IZR b)) as (_ & _ & W1 & W2 & _). { intro Q. apply eq_IZR in Q. lia. }
    destruct (Z.eq_dec x a) as [ -> | NA ].
    - rewrite W1. assert (t1 = i) by (eapply Inj; eauto). congruence.
    - destruct (Z.eq_dec x b) as [ -> | NB ].
      + rewrite W2. assert (t2 = i) by (eapply Inj; eauto). congruence.
      + exfalso. destruct (N3 a b Ea Eb) as [ H | [ (-> & H) | (Q & H) ] ].
        * destruct (Nat.lt_trichotomy i t1) as [ Hi | [ -> | Hi ] ]; [ | congruence | ].
          -- pose proof (Inc i t1 x a Hi Ei Ea). lia.
          -- destruct (Nat.eq_dec i t2) as [ -> | ]; [ congruence | ]. pose proof (Inc t2 i b x ltac:(lia) Eb Ei). lia.
        * destruct i as [ | i ]; [ congruence | ]. pose proof (Inc 0 (S i) a x ltac:(lia) Ea Ei). lia.
        * assert (i < length old) by (apply nth_error_Some; congruence).
          destruct (Nat.eq_dec i t2) as [ -> | ]; [ congruence | ]. pose proof (Inc i t2 x b ltac:(lia) Ei Eb). lia.
  Qed.

  (** Between two old times the values lie between those of the two records (strictly, if these
      differ). *)
  Theorem C36_between :
    forall k x i a b d1 d2 c p q,
      nth_error news k = Some x -> nth_error old i = Some a -> nth_error old (S i) = Some b -> (a < x < b)%Z ->
      nth_error records i = Some d1 -> nth_error records (S i) = Some d2 ->
      nth_error d1 c = Some (Some p) -> nth_error d2 c = Some (Some q) ->
      exists m out v, change_time_axis old news = Ok (Some m) /\ get_slice old records (Some m) k = Ok out /\
        nth_error out c = Some (Some v) /\ ((p <= q -> p <= v <= q) /\ (q <= p -> q <= v <= p) /\ (p < q -> p < v < q) /\ (q < p -> q < v < p))%R /\
        (v = p + (IZR x - IZR a) / (IZR b - IZR a) * (q - p))%R.
  Proof.
    intros k x i a b d1 d2 c p q Ek Ea Eb H E1 E2 Ep Eq.
    destruct (get_slice_is k x Ek) as (m & t1 & t2 & a' & b' & d1' & d2' & E & (N1 & N2 & N3) & Ea' & Eb' & AB & E1' & E2' & L & G).
    assert (t1 = i) as ->.
    { destruct (Nat.lt_trichotomy t1 i) as [ Q | [ Q | Q ] ]; auto; exfalso.
      - assert (b' <= a)%Z. { destruct (Nat.eq_dec t2 i) as [ -> | ]; [ assert (b' = a) by congruence; lia | ]. pose proof (Inc t2 i b' a ltac:(lia) Eb' Ea). lia. }
        pose proof (Inc t1 t2 a' b' ltac:(lia) Ea' Eb').
        destruct (N3 a' b' Ea' Eb') as [ ? | [ ( ? & ? ) | ( ? & ? ) ] ]; try lia.
        assert (S i < length old) by (apply nth_error_Some; congruence). lia.
      - assert (b <= a')%Z. { destruct (Nat.eq_dec (S i) t1) as [ <- | ]; [ assert (a' = b) by congruence; lia | ]. pose proof (Inc (S i) t1 b a' ltac:(lia) Eb Ea'). lia. }
        destruct (N3 a' b' Ea' Eb') as [ ? | [ ( ? & ? ) | ( ? & ? ) ] ]; lia. }
    subst t2. assert (a' = a) by congruence. assert (b' = b) by congruence. assert (d1' = d1) by congruence. assert (d2' = d2) by congruence. subst.
    assert (IZR a < IZR x < IZR b)%R as HR by (split; apply IZR_lt; lia).
    destruct (C50_variants_inside d1 d2 (IZR a) (IZR b) (IZR x)) as (W & _); [ left; exact HR | ].
    destruct (C50_between d1 d2 (IZR a) (IZR b) (IZR x) c p q) as (v & Ev & B); auto.
    exists m, (linear_weak d1 d2 (time a) (time b) (time x)), v. repeat (split; auto).
    - unfold time. rewrite W. exact Ev.
    - pose proof (C50_linear d1 d2 (IZR a) (IZR b) (IZR x) c p q ltac:(lra) L Ep Eq) as Q. rewrite Ev in Q. injection Q as ->. reflexivity.
  Qed.
End Values.

(** New times that are not ordered: the search for 1 starts behind it. *)
Theorem C36_unordered_refuted :
  change_time_axis [0; 2; 4; 6]%Z [5; 1]%Z = Ok (Some [(5%Z, (2, 3)); (1%Z, (2, 3))]) /\ ~ neighbours [0; 2; 4; 6]%Z 1 2 3.
Proof.
  split; [ reflexivity | ]. intros (_ & _ & H). destruct (H 4%Z 6%Z) as [ Q | [ (Q & _) | (_ & Q) ] ]; auto; lia.
Qed.

(** Reading before the time axis was changed dereferences the end of a map. *)
Theorem C36_read_before_change_refuted : forall old records pos, get_slice old records None pos = UB.
Proof. reflexivity. Qed.

Example C36_nonvacuous :
  change_time_axis [0; 6; 12]%Z [-3; 0; 3; 6; 12; 20]%Z = Ok (Some [((-3)%Z, (0, 1)); (0%Z, (0, 1)); (3%Z, (0, 1)); (6%Z, (0, 1)); (12%Z, (1, 2)); (20%Z, (1, 2))]).
Proof. reflexivity. Qed.

(** A record without values is replaced by the other one; records of different lengths are refused. *)
Theorem C36_missing_record : forall old news records k x m,
  increasing old -> 2 <= length old -> ordered news -> length records = length old -> nth_error news k = Some x ->
  change_time_axis old news = Ok (Some m) ->
  exists t1 t2 d1 d2, neighbours old x t1 t2 /\ nth_error records t1 = Some d1 /\ nth_error records t2 = Some d2 /\
    (d1 = [] -> get_slice old records (Some m) k = Ok d2) /\ (d2 = [] -> get_slice old records (Some m) k = Ok d1) /\
    (d1 <> [] -> d2 <> [] -> length d1 <> length d2 -> get_slice old records (Some m) k = Throw).
Proof.
  intros old news records k x m Inc Two Ord Recs Ek Em. destruct (C36_mapping old news Inc Two Ord) as (m' & E & _ & M).
  rewrite E in Em. injection Em as ->. destruct (M k x Ek) as (t1 & t2 & Em & N). pose proof N as (N1 & N2 & _).
  destruct (nth_error old t1) as [ a | ] eqn:Ea; [ | apply nth_error_None in Ea; lia ].
  destruct (nth_error old t2) as [ b | ] eqn:Eb; [ | apply nth_error_None in Eb; lia ].
  destruct (nth_error records t1) as [ d1 | ] eqn:E1; [ | apply nth_error_None in E1; lia ].
  destruct (nth_error records t2) as [ d2 | ] eqn:E2; [ | apply nth_error_None in E2; lia ].
  exists t1, t2, d1, d2. split; [ exact N | ]. split; [ exact E1 | ]. split; [ exact E2 | ].
  unfold get_slice. rewrite Em, Ea, Eb, E1, E2. split; [ intros -> | split; [ intros -> | ] ].
  - reflexivity.
  - destruct d1; reflexivity.
  - destruct d1; [ congruence | ]. destruct d2; [ congruence | ]. cbn [length Nat.eqb]. intros _ _ H.
    destruct (Nat.eqb_spec (length d1) (length d2)); [ congruence | reflexivity ].
Qed.
Example C36_missing_record_nonvacuous :
  change_time_axis [0; 6; 12]%Z [3; 9]%Z = Ok (Some [(3%Z, (0, 1)); (9%Z, (1, 2))]) /\
  get_slice [0; 6; 12]%Z [[]; [Some 1%R]; [Some 2%R; None]] (Some [(3%Z, (0, 1)); (9%Z, (1, 2))]) 0 = Ok [Some 1%R] /\
  get_slice [0; 6; 12]%Z [[]; [Some 1%R]; [Some 2%R; None]] (Some [(3%Z, (0, 1)); (9%Z, (1, 2))]) 1 = Throw.
Proof. split; [ reflexivity | split; reflexivity ]. Qed.
Print Assumptions C36_mapping.
Print Assumptions C36_single.
Print Assumptions C36_exact_at_old_times.
Print Assumptions C36_between.
Print Assumptions C36_unordered_refuted.
Print Assumptions C36_read_before_change_refuted.
Print Assumptions C36_missing_record.
