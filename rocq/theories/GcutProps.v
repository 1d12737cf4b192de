(** C118: the program fiGribCut. *)
From Coq Require Import ZArith NArith QArith Qabs Lqa String List Bool Lia.
From Verif Require Import Base IndexSpec SliceModel SliceProofs SliceProps GcutModel.
Import ListNotations.
Local Open Scope nat_scope.

(** ** A range of a regular axis *)
Lemma position_app : forall test n, position test (S n) = if test n then n else position test n.
Proof. intros test n. unfold position. rewrite seq_S, fold_left_app. reflexivity. Qed.
Lemma position_spec : forall test n,
  (forall i, i < n -> test i = true -> i <= position test n) /\
  (position test n = 0 \/ (position test n < n /\ test (position test n) = true)).
Proof.
  intros test n. induction n as [ | n [ IH1 IH2 ] ]; [ split; [ intros; lia | left; reflexivity ] | ].
  rewrite position_app. destruct (test n) eqn:T.
  - split; [ intros; lia | right; split; [ lia | exact T ] ].
  - split.
    + intros i L E. destruct (Nat.eq_dec i n) as [ -> | N ]; [ congruence | ]. apply IH1; [ lia | exact E ].
    + destruct IH2 as [ E | [ L E ] ]; [ left; exact E | right; split; [ lia | exact E ] ].
Qed.
Lemma lt_true : forall a b, lt a b = true <-> (a < b)%Q.
Proof.
  intros a b. unfold lt. rewrite negb_true_iff. split; intros H.
  - apply Qnot_le_lt. intros L. apply Qle_bool_iff in L. congruence.
  - destruct (Qle_bool b a) eqn:E; [ apply Qle_bool_iff in E; lra | reflexivity ].
Qed.
Lemma lt_false : forall a b, lt a b = false <-> (b <= a)%Q.
Proof.
  intros a b. unfold lt. rewrite negb_false_iff. apply Qle_bool_iff.
Qed.
Lemma inject_le : forall i j, (i <= j)%nat -> (inject_Z (Z.of_nat i) <= inject_Z (Z.of_nat j))%Q.
Proof. intros i j H. rewrite <- Zle_Qle. lia. Qed.
Lemma at_le : forall s d i j, (0 < d)%Q -> i <= j -> (at_index s d i <= at_index s d j)%Q.
Proof. intros s d i j D L. unfold at_index. apply inject_le in L. nra. Qed.
Lemma at_ge : forall s d i j, (d < 0)%Q -> i <= j -> (at_index s d j <= at_index s d i)%Q.
Proof. intros s d i j D L. unfold at_index. apply inject_le in L. nra. Qed.
Lemma at_S : forall s d i, (at_index s d (S i) == at_index s d i + d)%Q.
Proof. intros s d i. unfold at_index. rewrite Nat2Z.inj_succ. unfold Z.succ. rewrite inject_Z_plus. change (inject_Z 1) with 1%Q. ring. Qed.

(** an ascending axis: every point from first to last is in the range, and the end of the range only if it is
    the end of the axis; the range is not larger than needed *)
Theorem C118_ascending : forall start incr n first last, (0 < incr)%Q -> 0 < n -> (first <= last)%Q ->
  exists f l, first_last start incr n first last = Ok (f, l) /\ f <= l /\ l < n /\
    (forall i, i < n -> (first <= at_index start incr i <= last)%Q -> f <= i <= l /\ (i = l -> l = n - 1)) /\
    (f = 0 \/ (at_index start incr f <= first - margin)%Q) /\
    (l <= 1 \/ (at_index start incr (l - 1) < last + margin)%Q).
Proof.
  intros start incr n first last D N L. unfold first_last.
  assert (U : lt 0 incr = true) by (apply lt_true; exact D). rewrite U.
  assert (W : lt (last + margin) (first - margin) = false) by (apply lt_false; unfold margin; lra). rewrite W.
  set (tf := fun i => Qle_bool (at_index start incr i) (first - margin)).
  set (tl := fun i => lt (at_index start incr i) (last + margin)).
  destruct (position_spec tf n) as [ F1 F2 ]. destruct (position_spec tl n) as [ L1 L2 ].
  assert (FL : position tf n <= position tl n).
  { destruct F2 as [ -> | [ F2 F3 ] ]; [ lia | ]. apply L1; [ exact F2 | ]. unfold tl. apply lt_true.
    apply Qle_bool_iff in F3. unfold margin in *. lra. }
  assert (FN : position tf n < n) by (destruct F2 as [ -> | [ F2 _ ] ]; lia).
  set (l := if n <=? position tl n + 1 then n - 1 else position tl n + 1).
  exists (position tf n), l. split; [ reflexivity | ].
  assert (E : (l = n - 1 /\ n <= position tl n + 1) \/ (l = position tl n + 1 /\ position tl n + 1 < n)).
  { unfold l. destruct (Nat.leb_spec n (position tl n + 1)); [ left | right ]; lia. }
  split; [ destruct E as [ [ -> ? ] | [ -> ? ] ]; lia | ].
  split; [ destruct E as [ [ -> ? ] | [ -> ? ] ]; lia | ].
  split; [ | split ].
  - intros i I [ A B ]. assert (IL : i <= position tl n) by (apply L1; [ exact I | ]; unfold tl; apply lt_true; unfold margin; lra).
    assert (FI : position tf n <= i).
    { destruct F2 as [ -> | [ _ F3 ] ]; [ lia | ]. apply Qle_bool_iff in F3. destruct (Nat.le_gt_cases (position tf n) i) as [ ? | G ]; [ assumption | exfalso ].
      assert (X := at_le start incr i (position tf n) D ltac:(lia)). unfold margin in F3. lra. }
    destruct E as [ [ E1 E2 ] | [ E1 E2 ] ]; rewrite E1; lia.
  - destruct F2 as [ F2 | [ _ F3 ] ]; [ left; exact F2 | right ]. apply Qle_bool_iff in F3. exact F3.
  - destruct L2 as [ L2 | [ L2 L3 ] ]; [ left; lia | right ].
    change (lt (at_index start incr (position tl n)) (last + margin) = true) in L3. apply lt_true in L3.
    assert (K : l - 1 <= position tl n) by (destruct E as [ [ -> E ] | [ -> E ] ]; clear - E; lia).
    assert (X := at_le start incr (l - 1) (position tl n) D K). clear - X L3. lra.
Qed.
(** a descending axis *)
Theorem C118_descending : forall start incr n first last, (incr < - margin)%Q -> 0 < n -> (last <= first)%Q ->
  exists f l, first_last start incr n first last = Ok (f, l) /\ f <= l /\ l < n /\
    (forall i, i < n -> (last <= at_index start incr i <= first)%Q -> f <= i <= l) /\
    (f = 0 \/ (first + margin <= at_index start incr f)%Q) /\
    (l <= 1 \/ (last + margin < at_index start incr (l - 1))%Q).
Proof.
  intros start incr n first last D N L. unfold first_last.
  assert (D0 : (incr < 0)%Q) by (unfold margin in D; lra).
  assert (U : lt 0 incr = false) by (apply lt_false; lra). rewrite U.
  assert (W : lt (first + margin) (last + margin) = false) by (apply lt_false; lra). rewrite W.
  set (tf := fun i => Qle_bool (first + margin) (at_index start incr i)).
  set (tl := fun i => lt (last + margin) (at_index start incr i)).
  destruct (position_spec tf n) as [ F1 F2 ]. destruct (position_spec tl n) as [ L1 L2 ].
  assert (FN : position tf n < n) by (destruct F2 as [ -> | [ F2 _ ] ]; lia).
  assert (FL : position tf n <= position tl n + 1).
  { destruct F2 as [ -> | [ F2 F3 ] ]; [ lia | ]. apply Qle_bool_iff in F3.
    destruct (position tf n) as [ | k ]; [ lia | ]. enough (k <= position tl n) by lia. apply L1; [ lia | ].
    unfold tl. apply lt_true. assert (X := at_S start incr k). lra. }
  set (l := if n <=? position tl n + 1 then n - 1 else position tl n + 1).
  exists (position tf n), l. split; [ reflexivity | ].
  assert (E : (l = n - 1 /\ n <= position tl n + 1) \/ (l = position tl n + 1 /\ position tl n + 1 < n)).
  { unfold l. destruct (Nat.leb_spec n (position tl n + 1)); [ left | right ]; lia. }
  split; [ destruct E as [ [ -> ? ] | [ -> ? ] ]; lia | ].
  split; [ destruct E as [ [ -> ? ] | [ -> ? ] ]; lia | ].
  split; [ | split ].
  - intros i I [ A B ]. split.
    + destruct F2 as [ -> | [ _ F3 ] ]; [ lia | ]. apply Qle_bool_iff in F3. destruct (Nat.le_gt_cases (position tf n) i) as [ ? | G ]; [ assumption | exfalso ].
      assert (X := at_ge start incr i (position tf n) D0 ltac:(lia)). unfold margin in F3. lra.
    + destruct E as [ [ E1 E2 ] | [ E1 E2 ] ]; rewrite E1; [ lia | ].
      destruct (Nat.le_gt_cases i (position tl n + 1)) as [ ? | G ]; [ assumption | exfalso ].
      destruct i as [ | i ]; [ lia | ].
      assert (T : tl i = false).
      { destruct (tl i) eqn:T; [ | reflexivity ]. assert (Y := L1 i ltac:(lia) T). lia. }
      unfold tl in T. apply lt_false in T. assert (X := at_S start incr i). unfold margin in *. lra.
  - destruct F2 as [ F2 | [ _ F3 ] ]; [ left; exact F2 | right ]. apply Qle_bool_iff in F3. exact F3.
  - destruct L2 as [ L2 | [ L2 L3 ] ]; [ left; lia | right ].
    change (lt (last + margin) (at_index start incr (position tl n)) = true) in L3. apply lt_true in L3.
    assert (K : l - 1 <= position tl n) by (destruct E as [ [ -> E ] | [ -> E ] ]; clear - E; lia).
    assert (X := at_ge start incr (l - 1) (position tl n) D0 K). clear - X L3. lra.
Qed.
(** a range in the wrong direction throws *)
Theorem C118_inverse : forall start incr n first last,
  ((0 < incr)%Q -> (last + margin < first - margin)%Q -> first_last start incr n first last = Throw) /\
  ((incr <= 0)%Q -> (first < last)%Q -> first_last start incr n first last = Throw).
Proof.
  intros start incr n first last. unfold first_last. split; intros D L.
  - assert (U : lt 0 incr = true) by (apply lt_true; exact D). rewrite U.
    assert (W : lt (last + margin) (first - margin) = true) by (apply lt_true; exact L). rewrite W. reflexivity.
  - assert (U : lt 0 incr = false) by (apply lt_false; exact D). rewrite U.
    assert (W : lt (first + margin) (last + margin) = true) by (apply lt_true; lra). rewrite W. reflexivity.
Qed.

(** ** A message *)
Section Cut.
Variable V : Type.
Notation message := (message V).

Definition cuttable (m : message) : Prop :=
  m_type V m = "regular_ll"%string /\ m_right V m = false /\ m_vertical V m = false /\ m_alternating V m = false /\
  length (m_values V m) = m_nj V m * m_ni V m /\ (N.of_nat (m_nj V m * m_ni V m) < M64)%N /\
  0 < m_nj V m /\ 0 < m_ni V m /\ (0 < m_dlon V m)%Q /\ (0 < m_dlat V m)%Q.

Definition row_range (m : message) (b : box) : outcome (nat * nat) :=
  if m_bottom V m then first_last (m_lat V m) (m_dlat V m * -1) (m_nj V m) (b_north b) (b_south b)
  else first_last (m_lat V m) (m_dlat V m) (m_nj V m) (b_south b) (b_north b).

Lemma minus64 : forall a b, a <= b -> (N.of_nat b < M64)%N -> ((N.of_nat b + M64 - N.of_nat a) mod M64)%N = N.of_nat (b - a).
Proof.
  intros a b L H. replace (N.of_nat b + M64 - N.of_nat a)%N with (N.of_nat (b - a) + 1 * M64)%N by lia.
  rewrite N.mod_add by discriminate. apply N.mod_small. lia.
Qed.
Lemma cut_ok : forall m b fj lj fi li, cuttable m -> row_range m b = Ok (fj, lj) -> fj <= lj -> lj < m_nj V m ->
  first_last (m_lon V m) (m_dlon V m) (m_ni V m) (b_west b) (b_east b) = Ok (fi, li) -> fi <= li -> li < m_ni V m ->
  exists out lat lat_last, cut V (Some b) m =
    Ok (mkM V (m_param V m) (m_type V m) (m_right V m) (m_bottom V m) (m_vertical V m) (m_alternating V m)
          lat lat_last (m_dlat V m) (lj - fj)
          (at_index (m_lon V m) (m_dlon V m) fi) (at_index (m_lon V m) (m_dlon V m) li) (m_dlon V m) (li - fi) out) /\
    length out = (li - fi) * (lj - fj) /\
    (forall i j, i < li - fi -> j < lj - fj ->
       nth_error out (i + (li - fi) * j) = nth_error (m_values V m) (fi + i + m_ni V m * (fj + j))) /\
    lat = at_index (m_lat V m) (if m_bottom V m then m_dlat V m * -1 else m_dlat V m)%Q fj /\
    lat_last = at_index (m_lat V m) (if m_bottom V m then m_dlat V m * -1 else m_dlat V m)%Q lj.
Proof.
  intros m b fj lj fi li (T & R & U & A & S & B & NJ & NI & DX & DY) RR FJ LJ CR FI LI.
  unfold cut. rewrite T, String.eqb_refl, R, U, A. cbn [negb orb]. cbv zeta.
  assert (E : (if m_bottom V m
               then first_last (m_lat V m) (if m_bottom V m then m_dlat V m * -1 else m_dlat V m)%Q (m_nj V m) (b_north b) (b_south b)
               else first_last (m_lat V m) (if m_bottom V m then m_dlat V m * -1 else m_dlat V m)%Q (m_nj V m) (b_south b) (b_north b))
              = Ok (fj, lj)) by (rewrite <- RR; unfold row_range; destruct (m_bottom V m); reflexivity).
  rewrite E, CR. cbn [obind fst snd]. rewrite S, Nat.eqb_refl. cbn [negb].
  assert (MJ : (N.of_nat (m_nj V m) < M64)%N) by nia. assert (MI : (N.of_nat (m_ni V m) < M64)%N) by nia.
  rewrite !minus64 by lia. rewrite !Nat2N.id.
  destruct (C01_slice_returns_box V (m_values V m) [m_ni V m; m_nj V m] [fi; fj] [li - fi; lj - fj]) as [ out [ O [ OL ON ] ] ].
  - split; [ reflexivity | ]. split; [ reflexivity | ]. intros [ | [ | [ | k ] ] ] d s z H1 H2 H3; cbn in H1, H2, H3; try discriminate;
      injection H1 as <-; injection H2 as <-; injection H3 as <-; lia.
  - cbn [cells]. rewrite S. lia.
  - rewrite S. exact B.
  - intros [ | [ | [ | k ] ] ] d H; cbn in H; try discriminate; injection H as <-; assumption.
  - cbn [map] in O. rewrite O. cbn [obind]. eexists _, _, _. split; [ reflexivity | ].
    split; [ rewrite OL; cbn [cells]; lia | ]. split; [ | split; reflexivity ]. intros i j I J. specialize (ON [i; j]). cbn [lin shift] in ON.
    replace (i + (li - fi) * j) with (i + (li - fi) * (j + (lj - fj) * 0)) by lia. rewrite ON.
    + f_equal. lia.
    + repeat constructor; assumption.
Qed.

(** the rows of the result: at most one, the first of the message, whatever the box inside the grid *)
Lemma range_start : forall start incr n first last, (0 < incr)%Q -> 0 < n -> (first <= last)%Q -> (last + margin <= start)%Q ->
  first_last start incr n first last = Ok (0, Nat.min 1 (n - 1)).
Proof.
  intros start incr n first last D N L B. unfold first_last.
  assert (U : lt 0 incr = true) by (apply lt_true; exact D). rewrite U.
  assert (W : lt (last + margin) (first - margin) = false) by (apply lt_false; unfold margin; lra). rewrite W.
  assert (G : forall i, (start <= at_index start incr i)%Q).
  { intros i. unfold at_index. assert (X := inject_le 0 i ltac:(lia)). change (inject_Z (Z.of_nat 0)) with 0%Q in X. nra. }
  assert (P : forall t : nat -> bool, (forall i, t i = false) -> position t n = 0).
  { intros t H. destruct (position_spec t n) as [ _ [ E | [ _ E ] ] ]; [ exact E | rewrite H in E; discriminate ]. }
  rewrite !P.
  - do 2 f_equal. destruct (Nat.leb_spec n (0 + 1)); lia.
  - intros i. cbv zeta. apply lt_false. specialize (G i). lra.
  - intros i. cbv zeta. destruct (Qle_bool _ _) eqn:E; [ | reflexivity ]. apply Qle_bool_iff in E. specialize (G i). unfold margin in *. lra.
Qed.
Lemma range_start_down : forall start incr n first last, (incr < 0)%Q -> 0 < n -> (last <= first)%Q -> (start <= last)%Q ->
  first_last start incr n first last = Ok (0, Nat.min 1 (n - 1)).
Proof.
  intros start incr n first last D N L B. unfold first_last.
  assert (U : lt 0 incr = false) by (apply lt_false; lra). rewrite U.
  assert (W : lt (first + margin) (last + margin) = false) by (apply lt_false; lra). rewrite W.
  assert (G : forall i, (at_index start incr i <= start)%Q).
  { intros i. unfold at_index. assert (X := inject_le 0 i ltac:(lia)). change (inject_Z (Z.of_nat 0)) with 0%Q in X. nra. }
  assert (P : forall t : nat -> bool, (forall i, t i = false) -> position t n = 0).
  { intros t H. destruct (position_spec t n) as [ _ [ E | [ _ E ] ] ]; [ exact E | rewrite H in E; discriminate ]. }
  rewrite !P.
  - do 2 f_equal. destruct (Nat.leb_spec n (0 + 1)); lia.
  - intros i. cbv zeta. apply lt_false. specialize (G i). unfold margin. lra.
  - intros i. cbv zeta. destruct (Qle_bool _ _) eqn:E; [ | reflexivity ]. apply Qle_bool_iff in E. specialize (G i). unfold margin in *. lra.
Qed.
(** a box inside the grid, from the first row on *)
Definition behind_first_row (m : message) (b : box) : Prop :=
  if m_bottom V m then (m_lat V m <= b_south b)%Q else (b_north b + margin <= m_lat V m)%Q.
Lemma rows_one : forall m b, cuttable m -> (b_south b <= b_north b)%Q -> behind_first_row m b ->
  row_range m b = Ok (0, Nat.min 1 (m_nj V m - 1)).
Proof.
  intros m b (T & R & U & A & S & B & NJ & NI & DX & DY) SN H. unfold row_range, behind_first_row in *.
  destruct (m_bottom V m).
  - apply range_start_down; [ lra | exact NJ | exact SN | exact H ].
  - apply range_start; assumption.
Qed.
(** Finding: cutting leaves the first row only, which is not in the box *)
Theorem C118_rows_refuted : forall m b, cuttable m -> (b_south b <= b_north b)%Q -> (b_west b <= b_east b)%Q ->
  behind_first_row m b -> 1 < m_nj V m ->
  exists m', cut V (Some b) m = Ok m' /\ m_nj V m' = 1.
Proof.
  intros m b C SN WE H NJ. assert (R := rows_one m b C SN H). assert (C' := C).
  destruct C' as (_ & _ & _ & _ & _ & _ & _ & NI & DX & _).
  destruct (C118_ascending (m_lon V m) (m_dlon V m) (m_ni V m) (b_west b) (b_east b) DX NI WE) as [ fi [ li [ E [ L1 [ L2 _ ] ] ] ] ].
  destruct (cut_ok m b _ _ fi li C R ltac:(lia) ltac:(lia) E L1 L2) as [ out [ lat [ ll [ X _ ] ] ] ].
  eexists. split; [ exact X | ]. cbn [m_nj]. lia.
Qed.

(** the columns: each column of the result is a column of the message with its longitude and its values; all
    columns from west to east are there except the last of the message *)
Theorem C118_columns : forall m b, cuttable m -> (b_south b <= b_north b)%Q -> (b_west b <= b_east b)%Q ->
  behind_first_row m b ->
  exists m' c, cut V (Some b) m = Ok m' /\ c + m_ni V m' < m_ni V m /\ m_dlon V m' = m_dlon V m /\
    length (m_values V m') = m_nj V m' * m_ni V m' /\
    (forall i, i < m_ni V m' ->
       (at_index (m_lon V m') (m_dlon V m') i == at_index (m_lon V m) (m_dlon V m) (c + i))%Q /\
       forall j, j < m_nj V m' ->
         nth_error (m_values V m') (i + m_ni V m' * j) = nth_error (m_values V m) (c + i + m_ni V m * j)) /\
    (forall k, k < m_ni V m - 1 -> (b_west b <= at_index (m_lon V m) (m_dlon V m) k <= b_east b)%Q -> c <= k < c + m_ni V m') /\
    (c = 0 \/ (at_index (m_lon V m) (m_dlon V m) c < b_west b)%Q).
Proof.
  intros m b C SN WE H. assert (R := rows_one m b C SN H). assert (C' := C).
  destruct C' as (_ & _ & _ & _ & _ & _ & NJ & NI & DX & _).
  destruct (C118_ascending (m_lon V m) (m_dlon V m) (m_ni V m) (b_west b) (b_east b) DX NI WE) as [ fi [ li [ E [ L1 [ L2 [ IN [ B1 _ ] ] ] ] ] ] ].
  destruct (cut_ok m b _ _ fi li C R ltac:(lia) ltac:(lia) E L1 L2) as [ out [ lat [ ll [ X [ OL [ ON _ ] ] ] ] ] ].
  eexists _, fi. split; [ exact X | ]. cbn [m_ni m_nj m_dlon m_lon m_values].
  split; [ lia | ]. split; [ reflexivity | ]. split; [ rewrite OL; lia | ]. split; [ | split ].
  - intros i I. split.
    + unfold at_index. rewrite Nat2Z.inj_add, inject_Z_plus. ring.
    + intros j J. rewrite ON by assumption. f_equal.
  - intros k K W. destruct (IN k ltac:(lia) W) as [ A B ]. split; [ lia | ].
    destruct (Nat.eq_dec k li) as [ Q | Q ]; [ specialize (B Q); lia | lia ].
  - destruct B1 as [ B1 | B1 ]; [ left; exact B1 | right ]. unfold margin in B1. lra.
Qed.
(** any box: the result is a rectangle of the message, each value with its latitude and its longitude; the header
    says one row more than there is *)
Theorem C118_rectangle : forall m b, cuttable m -> (b_south b <= b_north b)%Q -> (b_west b <= b_east b)%Q ->
  (m_bottom V m = true -> margin < m_dlat V m)%Q ->
  let down := (if m_bottom V m then -1 else 1)%Q in
  exists m' r c, cut V (Some b) m = Ok m' /\ r + m_nj V m' < m_nj V m /\ c + m_ni V m' < m_ni V m /\
    m_bottom V m' = m_bottom V m /\ m_dlat V m' = m_dlat V m /\ m_dlon V m' = m_dlon V m /\
    (forall j, (at_index (m_lat V m') (m_dlat V m' * down) j == at_index (m_lat V m) (m_dlat V m * down) (r + j))%Q) /\
    (forall i, (at_index (m_lon V m') (m_dlon V m') i == at_index (m_lon V m) (m_dlon V m) (c + i))%Q) /\
    (forall i j, i < m_ni V m' -> j < m_nj V m' ->
       nth_error (m_values V m') (i + m_ni V m' * j) = nth_error (m_values V m) (c + i + m_ni V m * (r + j))) /\
    (forall j, j < m_nj V m - 1 -> (b_south b <= at_index (m_lat V m) (m_dlat V m * down) j <= b_north b)%Q -> r <= j <= r + m_nj V m') /\
    (m_lat_last V m' == at_index (m_lat V m') (m_dlat V m' * down) (m_nj V m'))%Q.
Proof.
  intros m b C SN WE DM down. assert (C' := C).
  destruct C' as (_ & _ & _ & _ & _ & _ & NJ & NI & DX & DY).
  destruct (C118_ascending (m_lon V m) (m_dlon V m) (m_ni V m) (b_west b) (b_east b) DX NI WE) as [ fi [ li [ E [ L1 [ L2 _ ] ] ] ] ].
  assert (ROW : exists fj lj, row_range m b = Ok (fj, lj) /\ fj <= lj /\ lj < m_nj V m /\
    forall j, j < m_nj V m -> (b_south b <= at_index (m_lat V m) (m_dlat V m * down) j <= b_north b)%Q -> fj <= j <= lj).
  { unfold row_range, down. destruct (m_bottom V m).
    - destruct (C118_descending (m_lat V m) (m_dlat V m * -1) (m_nj V m) (b_north b) (b_south b)) as [ f [ l [ X [ Y1 [ Y2 [ Y3 _ ] ] ] ] ] ];
        [ specialize (DM eq_refl); lra | exact NJ | exact SN | ].
      exists f, l. repeat split; try assumption; apply Y3; assumption.
    - destruct (C118_ascending (m_lat V m) (m_dlat V m) (m_nj V m) (b_south b) (b_north b) DY NJ SN) as [ f [ l [ X [ Y1 [ Y2 [ Y3 _ ] ] ] ] ] ].
      exists f, l. repeat split; try assumption; intros; apply Y3; try assumption;
        unfold at_index in *; lra. }
  destruct ROW as [ fj [ lj [ R [ R1 [ R2 R3 ] ] ] ] ].
  destruct (cut_ok m b fj lj fi li C R R1 R2 E L1 L2) as [ out [ lat [ ll [ X [ OL [ ON [ EL ELL ] ] ] ] ] ] ].
  eexists _, fj, fi. split; [ exact X | ]. cbn [m_ni m_nj m_dlon m_lon m_values m_lat m_dlat m_lat_last m_bottom].
  assert (DN : ((if m_bottom V m then m_dlat V m * -1 else m_dlat V m) == m_dlat V m * down)%Q) by (unfold down; destruct (m_bottom V m); ring).
  split; [ lia | ]. split; [ lia | ]. do 3 (split; [ reflexivity | ]). repeat split.
  - intros j. subst lat. unfold at_index. rewrite Nat2Z.inj_add, inject_Z_plus, DN. ring.
  - intros i. unfold at_index. rewrite Nat2Z.inj_add, inject_Z_plus. ring.
  - intros i j I J. apply ON; assumption.
  - apply (R3 j ltac:(lia)). assumption.
  - destruct (R3 j ltac:(lia) H0). lia.
  - subst lat ll. unfold at_index. replace lj with (fj + (lj - fj)) at 1 by lia. rewrite Nat2Z.inj_add, inject_Z_plus, DN. ring.
Qed.
(** Finding: the header says one column more than there is *)
Theorem C118_last_point_refuted : forall m b, cuttable m -> (b_south b <= b_north b)%Q -> (b_west b <= b_east b)%Q ->
  behind_first_row m b ->
  exists m', cut V (Some b) m = Ok m' /\
    (m_lon_last V m' == at_index (m_lon V m') (m_dlon V m') (m_ni V m'))%Q.
Proof.
  intros m b C SN WE H. assert (R := rows_one m b C SN H). assert (C' := C).
  destruct C' as (_ & _ & _ & _ & _ & _ & NJ & NI & DX & _).
  destruct (C118_ascending (m_lon V m) (m_dlon V m) (m_ni V m) (b_west b) (b_east b) DX NI WE) as [ fi [ li [ E [ L1 [ L2 _ ] ] ] ] ].
  destruct (cut_ok m b _ _ fi li C R ltac:(lia) ltac:(lia) E L1 L2) as [ out [ lat [ ll [ X _ ] ] ] ].
  eexists. split; [ exact X | ]. cbn [m_lon_last m_lon m_dlon m_ni]. unfold at_index.
  replace li with (fi + (li - fi)) at 1 by lia. rewrite Nat2Z.inj_add, inject_Z_plus. ring.
Qed.
(** Finding: the last column is never kept, not even for the whole grid *)
Theorem C118_whole_refuted : forall m b, cuttable m -> (b_south b <= b_north b)%Q -> behind_first_row m b ->
  (b_west b <= m_lon V m)%Q -> (at_index (m_lon V m) (m_dlon V m) (m_ni V m) <= b_east b)%Q ->
  exists m', cut V (Some b) m = Ok m' /\ m_ni V m' = m_ni V m - 1.
Proof.
  intros m b C SN H W EA. assert (R := rows_one m b C SN H). assert (C' := C).
  destruct C' as (_ & _ & _ & _ & _ & _ & NJ & NI & DX & _).
  assert (Z : forall k, (m_lon V m <= at_index (m_lon V m) (m_dlon V m) k)%Q).
  { intros k. assert (X := at_le (m_lon V m) (m_dlon V m) 0 k DX ltac:(lia)). unfold at_index in X at 1. change (inject_Z (Z.of_nat 0)) with 0%Q in X. lra. }
  assert (WE : (b_west b <= b_east b)%Q) by (specialize (Z (m_ni V m)); lra).
  destruct (C118_ascending (m_lon V m) (m_dlon V m) (m_ni V m) (b_west b) (b_east b) DX NI WE) as [ fi [ li [ E [ L1 [ L2 [ IN _ ] ] ] ] ] ].
  destruct (cut_ok m b _ _ fi li C R ltac:(lia) ltac:(lia) E L1 L2) as [ out [ lat [ ll [ X _ ] ] ] ].
  eexists. split; [ exact X | ]. cbn [m_ni].
  assert (I : forall k, k < m_ni V m -> fi <= k <= li).
  { intros k K. apply IN; [ exact K | ]. split; [ specialize (Z k); lra | ].
    assert (Y := at_le (m_lon V m) (m_dlon V m) k (m_ni V m) DX ltac:(lia)). lra. }
  assert (I0 := I 0 NI). assert (I1 := I (m_ni V m - 1) ltac:(lia)). lia.
Qed.
(** other grids, other scanning modes, other numbers of values: refused *)
Theorem C118_refused : forall m b,
  m_type V m <> "regular_ll"%string \/ m_right V m = true \/ m_vertical V m = true \/ m_alternating V m = true ->
  cut V (Some b) m = Throw.
Proof.
  intros m b H. unfold cut. destruct (String.eqb_spec (m_type V m) "regular_ll") as [ T | T ]; [ | reflexivity ]. cbn [negb].
  destruct H as [ H | [ H | [ H | H ] ] ]; [ contradiction | | | ]; rewrite H, ?orb_true_r; reflexivity.
Qed.
Theorem C118_no_box : forall m, cut V None m = Ok m.
Proof. reflexivity. Qed.
End Cut.

(** ** Files *)
Section Files.
Variable V : Type.
Notation message := (message V).

Definition selected (params : list Z) (m : message) : Prop := params = [] \/ In (m_param V m) params.
Lemma wanted_iff : forall params m, wanted V params m = true <-> selected params m.
Proof.
  intros [ | p params ] m; unfold wanted, selected.
  - split; auto.
  - rewrite existsb_exists. split.
    + intros [ x [ I E ] ]. apply Z.eqb_eq in E. subst x. right. exact I.
    + intros [ E | I ]; [ discriminate | ]. exists (m_param V m). split; [ exact I | apply Z.eqb_refl ].
Qed.

(** what becomes of one message; [b] is the error count *)
Inductive fate (params : list Z) (bb : option box) : event V -> list message -> nat -> Prop :=
| F_skipped : forall m, ~ selected params m -> fate params bb (Read V m) [] 0
| F_written : forall m m', selected params m -> cut V bb m = Ok m' -> fate params bb (Read V m) [m'] 0
| F_refused : forall m, selected params m -> cut V bb m = Throw -> fate params bb (Read V m) [] 1
| F_damaged : fate params bb (Damaged V) [] 1
| F_nothing : fate params bb (Nothing V) [] 0.
Inductive fates (params : list Z) (bb : option box) : list (event V) -> list message -> nat -> Prop :=
| FS_nil : fates params bb [] [] 0
| FS_cons : forall e l out k out' k', fate params bb e out k -> fates params bb l out' k' ->
    fates params bb (e :: l) (out ++ out') (k + k').
Lemma handle_fate : forall params bb e out k, handle V params bb e = Ok (out, k) <-> fate params bb e out k.
Proof.
  intros params bb e out k. split.
  - destruct e as [ m | | ]; cbn [handle].
    + destruct (wanted V params m) eqn:W.
      * apply wanted_iff in W. destruct (cut V bb m) as [ m' | | | ] eqn:C; intros R; try discriminate; injection R as <- <-; constructor; assumption.
      * intros R. injection R as <- <-. constructor. intros S. apply wanted_iff in S. congruence.
    + intros R. injection R as <- <-. constructor.
    + intros R. injection R as <- <-. constructor.
  - intros H. destruct H as [ m N | m m' S C | m S C | | ]; cbn [handle]; try reflexivity.
    + destruct (wanted V params m) eqn:W; [ apply wanted_iff in W; contradiction | reflexivity ].
    + apply wanted_iff in S. rewrite S, C. reflexivity.
    + apply wanted_iff in S. rewrite S, C. reflexivity.
Qed.
Lemma fates_app : forall params bb l l' out k out' k', fates params bb l out k -> fates params bb l' out' k' ->
  fates params bb (l ++ l') (out ++ out') (k + k').
Proof.
  intros params bb l l' out k out' k' H H'. induction H as [ | e l o i o' i' F FS IH ]; [ exact H' | ].
  cbn [List.app]. rewrite <- app_assoc, <- Nat.add_assoc. constructor; assumption.
Qed.
Lemma cut_file_ok : forall params bb l hs, omapM (handle V params bb) l = Ok hs ->
  fates params bb l (flat_map fst hs) (fold_right (fun h k => snd h + k) 0 hs).
Proof.
  induction l as [ | e l IH ]; intros hs R.
  - injection R as <-. constructor.
  - cbn [omapM] in R. destruct (handle V params bb e) as [ [ o k ] | | | ] eqn:H; try discriminate. cbn [obind] in R.
    destruct (omapM (handle V params bb) l) as [ hs' | | | ]; try discriminate. cbn [obind] in R. injection R as <-.
    cbn [flat_map fold_right fst snd]. constructor; [ apply handle_fate; exact H | apply IH; reflexivity ].
Qed.
(** all messages of all files in order: each is skipped, written or counted as an error *)
Theorem C118_files : forall params bb files out k,
  cut_files V params bb files = Ok (out, k) ->
  exists all, files = map Some all /\ fates params bb (concat all) out k.
Proof.
  induction files as [ | [ l | ] r IH ]; intros out k R; cbn [cut_files] in R; [ | | discriminate ].
  - injection R as <- <-. exists []. split; [ reflexivity | constructor ].
  - destruct (omapM (handle V params bb) l) as [ hs | | | ] eqn:H; try discriminate. cbn [obind] in R.
    destruct (cut_files V params bb r) as [ [ o k' ] | | | ]; try discriminate. cbn [obind fst snd] in R. injection R as <- <-.
    destruct (IH o k' eq_refl) as [ all [ -> F ] ]. exists (l :: all). split; [ reflexivity | ].
    cbn [concat]. apply fates_app; [ apply cut_file_ok; exact H | exact F ].
Qed.
(** without box: exactly the selected messages, unchanged, and no error *)
Theorem C118_selection : forall params (all : list (list message)),
  cut_files V params None (map (fun l => Some (map (Read V) l)) all) =
  Ok (filter (wanted V params) (concat all), 0).
Proof.
  induction all as [ | l all IH ]; [ reflexivity | ]. cbn [map cut_files].
  assert (H : omapM (handle V params None) (map (Read V) l) = Ok (map (fun m => (if wanted V params m then [m] else [], 0)) l)).
  { clear. induction l as [ | m l IH ]; [ reflexivity | ]. cbn [map omapM handle cut]. rewrite IH.
    destruct (wanted V params m); reflexivity. }
  rewrite H, IH. cbn [obind fst snd concat]. rewrite filter_app. do 2 f_equal.
  - f_equal. clear. induction l as [ | m l IH ]; [ reflexivity | ]. cbn [map flat_map filter fst]. rewrite IH.
    destruct (wanted V params m); reflexivity.
  - clear. induction l as [ | m l IH ]; [ reflexivity | exact IH ].
Qed.
(** Finding: a file that cannot be opened crashes the program *)
Theorem C118_missing_file_refuted : forall params bb before r,
  (forall l, In l before -> exists hs, omapM (handle V params bb) l = Ok hs) ->
  cut_files V params bb (map Some before ++ None :: r) = UB.
Proof.
  induction before as [ | l before IH ]; intros r H; [ reflexivity | ]. cbn [map List.app cut_files].
  destruct (H l (or_introl eq_refl)) as [ hs -> ]. cbn [obind]. rewrite IH; [ reflexivity | ]. intros x I. apply H. right. exact I.
Qed.

(** ** The program *)
Lemma numbers_all : forall X (l : list X), numbers (map Some l) = Ok l.
Proof. induction l as [ | x l IH ]; [ reflexivity | ]. cbn [map numbers]. rewrite IH. reflexivity. Qed.
Lemma numbers_ok : forall X (l : list (option X)) r, numbers l = Ok r -> l = map Some r.
Proof.
  induction l as [ | [ x | ] l IH ]; intros r R; cbn [numbers] in R; try discriminate.
  - injection R as <-. reflexivity.
  - destruct (numbers l) as [ y | | | ]; try discriminate. cbn [obind] in R. injection R as <-. rewrite (IH y eq_refl). reflexivity.
Qed.
(** what a box must be *)
Definition good_box (b : box) : Prop :=
  (inject_Z (-90) <= b_south b /\ b_south b <= b_north b /\ b_north b <= inject_Z 90 /\
   inject_Z (-180) <= b_west b /\ b_west b <= b_east b /\ b_east b <= inject_Z 180)%Q.
Theorem C118_box : forall n e s w more,
  (good_box (mkB n e s w) -> box_of (Some n :: Some e :: Some s :: Some w :: more) = Ok (Some (mkB n e s w))) /\
  (~ good_box (mkB n e s w) -> box_of (Some n :: Some e :: Some s :: Some w :: more) = Ok None).
Proof.
  intros n e s w more. unfold good_box. cbn [b_north b_east b_south b_west]. unfold box_of.
  cbn [numbers obind]. cbv zeta.
  change (- inject_Z 90)%Q with (inject_Z (-90)). change (- inject_Z 180)%Q with (inject_Z (-180)).
  assert (D : forall a b, lt a b = true \/ lt a b = false) by (intros a b; destruct (lt a b); auto).
  split; intros H.
  - replace (_ || lt e w) with false; [ reflexivity | ]. symmetry. rewrite !orb_false_iff, !lt_false.
    repeat split; lra.
  - replace (_ || lt e w) with true; [ reflexivity | ]. symmetry. apply not_false_iff_true. intros F.
    rewrite !orb_false_iff, !lt_false in F. apply H. repeat split; lra.
Qed.
(** a text that is not a number: the program ends with an exception *)
Lemma numbers_bad : forall X (l : list (option X)), In None l -> numbers l = Throw.
Proof.
  induction l as [ | [ x | ] l IH ]; intros H; [ destruct H | | reflexivity ].
  destruct H as [ H | H ]; [ discriminate | ]. cbn [numbers]. rewrite (IH H). reflexivity.
Qed.
Theorem C118_no_number : forall argc o, argc <> 1 -> o_help V o = false -> o_version V o = false ->
  o_input V o <> [] -> o_output V o = true ->
  In None (o_params V o) \/ (exists n e s w more, o_box V o = Some (n :: e :: s :: w :: more) /\ In None [n; e; s; w]) /\ ~ In None (o_params V o) ->
  main V argc o = Throw.
Proof.
  intros argc o A H1 H2 I O B. unfold main. destruct (Nat.eqb_spec argc 1); [ contradiction | ].
  rewrite H1, H2. cbn [orb]. destruct (o_input V o) as [ | f fs ]; [ contradiction | ]. rewrite O. cbn [negb].
  destruct B as [ B | [ [ bn [ e [ s [ w [ more [ -> B ] ] ] ] ] ] P ] ]; [ rewrite (numbers_bad _ _ B); reflexivity | ].
  assert (N : exists l, numbers (o_params V o) = Ok l).
  { clear - P. induction (o_params V o) as [ | [ x | ] l IH ]; [ eexists; reflexivity | | exfalso; apply P; left; reflexivity ].
    destruct IH as [ y Y ]; [ intros H; apply P; right; exact H | ]. cbn [numbers]. rewrite Y. eexists. reflexivity. }
  destruct N as [ l -> ]. cbn [obind]. unfold box_of. rewrite (numbers_bad _ _ B). reflexivity.
Qed.
Theorem C118_short_box : forall l, length l < 4 -> box_of l = Ok None.
Proof. intros [ | a [ | b [ | c [ | d l ] ] ] ] H; try reflexivity. cbn [length] in H. lia. Qed.

(** a call with input, output, numbers as parameters and a good box or none: the files are cut, and the exit code
    is the number of errors, in eight bits *)
Theorem C118_main : forall argc o params bb, argc <> 1 -> o_help V o = false -> o_version V o = false ->
  o_input V o <> [] -> o_output V o = true -> o_params V o = map Some params ->
  (o_box V o = None /\ bb = None \/
   exists n e s w more, o_box V o = Some (Some n :: Some e :: Some s :: Some w :: more) /\ good_box (mkB n e s w) /\ bb = Some (mkB n e s w)) ->
  main V argc o = (do r <- cut_files V params bb (o_input V o); Ok (Done V (fst r) (Z.of_nat (snd r) mod 256))).
Proof.
  intros argc o params bb A H1 H2 I O P B. unfold main. destruct (Nat.eqb_spec argc 1); [ contradiction | ].
  rewrite H1, H2. cbn [orb]. destruct (o_input V o) as [ | f fs ]; [ contradiction | ]. rewrite O. cbn [negb].
  rewrite P, numbers_all. cbn [obind]. destruct B as [ [ -> -> ] | [ bn [ e [ s [ w [ more [ -> [ G -> ] ] ] ] ] ] ] ].
  - reflexivity.
  - rewrite (proj1 (C118_box bn e s w more) G). reflexivity.
Qed.
Theorem C118_usage : forall argc o,
  (argc = 1 \/ o_help V o = true \/ o_version V o = true -> main V argc o = Ok (Stop V 0)) /\
  (argc <> 1 -> o_help V o = false -> o_version V o = false ->
     (o_input V o = [] \/ o_output V o = false -> main V argc o = Ok (Stop V 1)) /\
     (forall params l, o_input V o <> [] -> o_output V o = true -> o_params V o = map Some params ->
        o_box V o = Some l -> box_of l = Ok None -> main V argc o = Ok (Stop V 1))).
Proof.
  intros argc o. unfold main. split; [ | intros A H1 H2; destruct (Nat.eqb_spec argc 1); [ contradiction | ]; rewrite H1, H2; cbn [orb]; split ].
  - intros [ -> | [ -> | -> ] ]; [ reflexivity | rewrite orb_true_r; reflexivity | destruct (_ || _); reflexivity ].
  - intros [ -> | -> ]; [ reflexivity | destruct (o_input V o); reflexivity ].
  - intros params l I O P B N. destruct (o_input V o) as [ | f fs ]; [ contradiction | ]. rewrite O. cbn [negb].
    rewrite P, numbers_all. cbn [obind]. rewrite B, N. reflexivity.
Qed.
(** Finding: 256 damaged messages are a success *)
Theorem C118_exit_code_refuted : forall params,
  cut_files V params None [Some (repeat (Damaged V) 256)] = Ok ([], 256) /\ (Z.of_nat 256 mod 256 = 0)%Z.
Proof. intros params. split; [ | reflexivity ]. vm_compute. reflexivity. Qed.
End Files.

(** ** Cases: a grid of 4 columns and 3 rows from 0 E, 60 N on *)
Definition grid43 : message Z := mkM Z 130 "regular_ll" false false false false (60 # 1) (58 # 1) (1 # 1) 3 (0 # 1) (3 # 1) (1 # 1) 4
  [1; 2; 3; 4; 5; 6; 7; 8; 9; 10; 11; 12]%Z.
Example C118_nonvacuous :
  cuttable Z grid43 /\ behind_first_row Z grid43 (mkB (59 # 1) (2 # 1) (58 # 1) (1 # 1)) /\
  first_last 0 (1 # 1) 4 (1 # 1) (2 # 1) = Ok (0, 3) /\
  first_last 0 (1 # 1) 4 (21 # 20) (2 # 1) = Ok (1, 3) /\ first_last 0 (1 # 1) 4 (100001 # 100000) (2 # 1) = Ok (1, 3) /\
  first_last 0 (1 # 1) 4 (1000005 # 1000000) (2 # 1) = Ok (0, 3) /\
  first_last (60 # 1) (-1 # 1) 3 (59 # 1) (58 # 1) = Ok (0, 2) /\
  omap (fun m => (m_values Z m, m_ni Z m, m_nj Z m)) (cut Z (Some (mkB (59 # 1) (2 # 1) (58 # 1) (1 # 1))) grid43) = Ok ([1; 2; 3]%Z, 3, 1) /\
  cut_files Z [130%Z] None [Some [Read Z grid43; Damaged Z; Nothing Z]] = Ok ([grid43], 1) /\
  cut_files Z [131%Z] None [Some [Read Z grid43]] = Ok ([], 0).
Proof.
  split; [ unfold cuttable; cbn; repeat split; try reflexivity; lia | ].
  split; [ unfold behind_first_row; cbn; unfold margin; lra | ].
  repeat split; vm_compute; reflexivity.
Qed.
Print Assumptions C118_ascending.
Print Assumptions C118_descending.
Print Assumptions C118_inverse.
Print Assumptions C118_rows_refuted.
Print Assumptions C118_columns.
Print Assumptions C118_rectangle.
Print Assumptions C118_no_number.
Print Assumptions C118_last_point_refuted.
Print Assumptions C118_whole_refuted.
Print Assumptions C118_refused.
Print Assumptions C118_no_box.
Print Assumptions C118_files.
Print Assumptions C118_selection.
Print Assumptions C118_missing_file_refuted.
Print Assumptions C118_box.
Print Assumptions C118_short_box.
Print Assumptions C118_main.
Print Assumptions C118_usage.
Print Assumptions C118_exit_code_refuted.
Print Assumptions C118_nonvacuous.
