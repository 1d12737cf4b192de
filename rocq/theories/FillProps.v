(** C48 filling undefined cells. *)
From Coq Require Import NArith ZArith QArith Qcanon List Bool Lia Lqa.
From Coq Require Import ZifyBool ZifyNat ZifyN.
From Verif Require Import Base RegridModel FillModel FillProofs.
Import ListNotations.

Definition cell (l : list value) (i : nat) : option value := nth_error l i.
(** some cell is defined *)
Definition some_defined (l : list value) : Prop := exists q, In (Some q) l.

(** what filling promises: same size, defined cells untouched, and nothing undefined is left if there
    was something to start from; the count is the number of cells that were undefined *)
Definition filled (l : list value) (r : list value * N) : Prop :=
  length (fst r) = length l /\
  (forall i q, cell l i = Some (Some q) -> cell (fst r) i = Some (Some q)) /\
  (some_defined l -> ~ In None (fst r)) /\
  (~ some_defined l -> fst r = l) /\
  snd r = N.of_nat (length (filter (fun v => match v with None => true | Some _ => false end) l)).

Lemma filled_intro l f n : keeps l f -> full (fun _ => True) f -> some_defined l -> n = count_undef l -> filled l (f, n).
Proof.
  intros [ L K ] F S ->. repeat split; auto.
  - intros _ I. unfold full in F. rewrite Forall_forall in F. apply F in I. destruct I as (q & E & _). discriminate.
  - contradiction.
Qed.
Lemma filled_nothing l : (N.of_nat (length l) - count_undef l = 0 \/ count_undef l = 0)%N -> filled l (l, count_undef l).
Proof.
  intro H. repeat split; auto. intros (q & I). destruct H as [ H | H ].
  - rewrite count_defined_zero in H. exfalso. now apply (H q).
  - now apply count_undef_zero.
Qed.
Lemma some_defined_iff l : (N.of_nat (length l) - count_undef l <> 0)%N -> some_defined l.
Proof.
  intro H. induction l as [ | [ q | ] l IH ].
  - cbn in H. lia.
  - exists q. now left.
  - destruct IH as (q & I); [ | exists q; now right ].
    unfold count_undef in *. cbn [length filter undef] in H. change (length (None :: filter undef l)) with (S (length (filter undef l))) in H. lia.
Qed.

(** general form: any predicate on values that averaging keeps *)
Lemma fill2d_gen (I W : Qc -> Prop) nx ny (field : list value) relaxCrit corrEff maxLoop nc0 :
  (1 <= nx)%nat -> (2 <= ny)%nat -> length field = (nx * ny)%nat ->
  W 0%Qc -> W 1%Qc -> (forall w, W w -> W (w * corrEff)%Qc) ->
  (forall a b c d x w, I a -> I b -> I c -> I d -> I x -> W w -> I (x + ((a + b + c + d) * Q2Qc (1 # 4) - x) * w)%Qc) ->
  (forall a x w, I a -> I x -> W w -> I (x + (a - x) * w)%Qc) ->
  (forall q, In (Some q) field -> I q) ->
  ((N.of_nat (length field) - count_undef field <> 0)%N ->
    I (sum_defined field / qc (Z.of_N (N.of_nat (length field) - count_undef field)))%Qc) ->
  exists r, fill2d nx ny field relaxCrit corrEff maxLoop nc0 = Ok r /\ filled field r /\
    (some_defined field -> full I (fst r)).
Proof.
  intros X Y L W0 W1 WM C4 C1 D A. unfold fill2d.
  destruct (Nat.eqb_spec (nx * ny) 0); [ nia | ]. rewrite <- L in *.
  destruct (N.eqb_spec (N.of_nat (length field) - count_undef field) 0) as [ E | E ].
  { cbn [orb]. eexists. split; [ reflexivity | ]. split; [ apply filled_nothing; now left | ].
    intros (q & I0). rewrite count_defined_zero in E. exfalso. now apply (E q). }
  cbn [orb]. destruct (N.eqb_spec (count_undef field) 0) as [ E2 | E2 ].
  { eexists. split; [ reflexivity | ]. split; [ apply filled_nothing; now right | ].
    intros _. cbn [fst]. unfold full. apply Forall_forall. intros [ q | ] I0; [ exists q; auto | ].
    apply count_undef_zero in E2. contradiction. }
  assert (A' := A E). set (avg := (sum_defined field / qc (Z.of_N (N.of_nat (length field) - count_undef field)))%Qc) in *.
  cbv zeta.
  destruct (weights_inv field nx ny I W corrEff X Y L WM C4 C1) with (w0 := map (fun v : value => match v with None => 1%Qc | Some _ => 0%Qc end) field)
    as (w & EW & (LW & FW & ZW)); auto.
  { split; [ apply map_length | ]. split.
    - apply Forall_map, Forall_forall. intros [ q | ] _; auto.
    - intros i v E0. exact (map_nth_error (fun v : value => match v with None => 1%Qc | Some _ => 0%Qc end) i field E0). }
  rewrite EW. cbn [obind].
  match goal with |- context [fill_loop ?k ?n ?m nx ny ?c ?s] =>
    destruct (fill_loop_inv field nx ny I W corrEff X Y L WM C4 C1 k n m c s) as (s' & ES & HS) end.
  { split; [ apply first_guess_keeps | ]. split; [ now apply first_guess_full | ].
    repeat split; auto. apply repeat_length. }
  rewrite ES. cbn [obind]. eexists. split; [ reflexivity | ].
  destruct s' as [ [ f' w' ] e' ]. cbn [fst]. destruct HS as (K & F & _). split; [ | intros _; exact F ].
  apply filled_intro; auto.
  - revert F. apply Forall_impl. intros v (q & -> & _). now exists q.
  - now apply some_defined_iff.
Qed.

(** ** fill2d: for two or more rows it ends normally, whatever the number of rounds and the parameters *)
Theorem C48_fill2d : forall nx ny (field : list value) relaxCrit corrEff maxLoop nc0,
  (1 <= nx)%nat -> (2 <= ny)%nat -> length field = (nx * ny)%nat ->
  exists r, fill2d nx ny field relaxCrit corrEff maxLoop nc0 = Ok r /\ filled field r.
Proof.
  intros nx ny field relaxCrit corrEff maxLoop nc0 X Y L.
  destruct (fill2d_gen (fun _ => True) (fun _ => True) nx ny field relaxCrit corrEff maxLoop nc0) as (r & E & F & _); auto.
  now exists r.
Qed.

(** without over-relaxation the new values are within the range of the defined ones *)
Theorem C48_fill2d_range : forall nx ny (field : list value) relaxCrit corrEff maxLoop nc0 lo hi,
  (1 <= nx)%nat -> (2 <= ny)%nat -> length field = (nx * ny)%nat -> (0 <= corrEff)%Qc -> (corrEff <= 1)%Qc ->
  (forall q, In (Some q) field -> (lo <= q)%Qc /\ (q <= hi)%Qc) -> some_defined field ->
  exists r, fill2d nx ny field relaxCrit corrEff maxLoop nc0 = Ok r /\
    forall v, In v (fst r) -> exists q, v = Some q /\ (lo <= q)%Qc /\ (q <= hi)%Qc.
Proof.
  intros nx ny field relaxCrit corrEff maxLoop nc0 lo hi X Y L C0 C1 D S.
  destruct (fill2d_gen (between lo hi) (fun w => (0 <= w)%Qc /\ (w <= 1)%Qc) nx ny field relaxCrit corrEff maxLoop nc0)
    as (r & E & F & G); auto.
  - split; discriminate.
  - split; discriminate.
  - intros w [ H1 H2 ]. unfold Qcle in *. rewrite this_mul. change (this 0%Qc) with 0%Q in *. change (this 1%Qc) with 1%Q in *.
    split; nra.
  - intros. now apply relax4_between.
  - intros. now apply relax1_between.
  - intro N. now apply mean_between.
  - exists r. split; [ exact E | ]. intros v I. specialize (G S). unfold full in G. rewrite Forall_forall in G.
    destruct (G v I) as (q & -> & H). exists q. now split.
Qed.

(** over-relaxation leaves the range *)
Definition vq (z : Z) : value := Some (qc z).
Theorem C48_fill2d_overshoot_refuted : exists nx ny field corrEff maxLoop r,
  length field = (nx * ny)%nat /\ (forall q, In (Some q) field -> (q <= qc 8)%Qc) /\
  fill2d nx ny field (qc 0) corrEff maxLoop 0 = Ok r /\ exists q, In (Some q) (fst r) /\ (qc 8 < q)%Qc.
Proof.
  exists 3%nat, 3%nat, [vq 0; vq 8; vq 0; vq 8; None; vq 8; vq 0; vq 8; vq 0], (Q2Qc (16 # 10)), 1%N.
  eexists. split; [ reflexivity | ]. split; [ | split; [ vm_compute; reflexivity | ] ].
  - intros q H.
    assert (F : Forall (fun v => match v with Some q => (q <= qc 8)%Qc | None => True end)
                  [vq 0; vq 8; vq 0; vq 8; None; vq 8; vq 0; vq 8; vq 0]).
    { repeat (apply Forall_cons; [ first [ exact I | vm_compute; discriminate ] | ]). apply Forall_nil. }
    rewrite Forall_forall in F. exact (F _ H).
  - eexists. cbn [fst]. split; [ do 4 right; left; reflexivity | ]. reflexivity.
Qed.

Lemma thin_loop nx ny k maxLoop crtest s : inner nx ny = [] -> (maxLoop < M64)%N -> maxLoop <> 5%N ->
  fill_loop k 0 maxLoop nx ny crtest s = Ok s.
Proof.
  intros E L N. destruct k as [ | k ]; [ reflexivity | ]. cbn [fill_loop]. rewrite E. cbn [ofold obind].
  assert (P : (0 <? sub64 maxLoop 5)%N = true).
  { apply N.ltb_lt. destruct (N.le_gt_cases 5 maxLoop).
    - rewrite sub64_small by lia. lia.
    - rewrite sub64_neg by (try reflexivity; lia). unfold M64. lia. }
  rewrite P. change (0 mod 10 =? 0)%N with true. cbn [andb]. unfold not_converged. destruct s as [ [ f w ] e ].
  rewrite E. reflexivity.
Qed.

(** fields with at most two rows or columns have no inner cells: the test for convergence succeeds at
    once and every undefined cell keeps the mean, unless maxLoop is 5 *)
Theorem C48_fill2d_thin : forall nx ny (field : list value) relaxCrit corrEff maxLoop nc0,
  (1 <= nx)%nat -> (1 <= ny)%nat -> (nx <= 2 \/ ny <= 2)%nat -> length field = (nx * ny)%nat ->
  (maxLoop < M64)%N -> maxLoop <> 5%N -> some_defined field ->
  exists avg n, fill2d nx ny field relaxCrit corrEff maxLoop nc0 =
    Ok (map (fun v : value => match v with None => Some avg | Some _ => v end) field, n).
Proof.
  intros nx ny field relaxCrit corrEff maxLoop nc0 X Y T L M N (q & S). unfold fill2d.
  destruct (Nat.eqb_spec (nx * ny) 0); [ nia | ]. rewrite <- L.
  destruct (N.eqb_spec (N.of_nat (length field) - count_undef field) 0) as [ E | E ].
  { rewrite count_defined_zero in E. exfalso. now apply (E q). }
  cbn [orb]. destruct (N.eqb_spec (count_undef field) 0) as [ E2 | E2 ].
  { exists 0%Qc, (count_undef field). f_equal. f_equal. apply count_undef_zero in E2. clear - E2.
    induction field as [ | [ x | ] l IH ]; cbn [map]; [ reflexivity | | exfalso; apply E2; now left ].
    f_equal. apply IH. intro I. apply E2. now right. }
  cbv zeta. rewrite (inner_nil nx ny T). cbn [ofold obind]. rewrite thin_loop; [ | now apply inner_nil | assumption | assumption ].
  cbn [obind fst]. eexists _, _. reflexivity.
Qed.

(** one row and maxLoop = 5: the update of the border reads outside of the field *)
Theorem C48_fill2d_one_row_refuted : forall nx (field : list value) relaxCrit corrEff nc0,
  (1 <= nx)%nat -> length field = nx -> some_defined field -> In None field ->
  fill2d nx 1 field relaxCrit corrEff 5 nc0 = UB.
Proof.
  intros nx field relaxCrit corrEff nc0 X L (q & SD) U. unfold fill2d. rewrite Nat.mul_1_r.
  destruct (Nat.eqb_spec nx 0); [ lia | ]. rewrite <- L.
  destruct (N.eqb_spec (N.of_nat (length field) - count_undef field) 0) as [ E | E ].
  { rewrite count_defined_zero in E. exfalso. now apply (E q). }
  cbn [orb]. destruct (N.eqb_spec (count_undef field) 0) as [ E2 | E2 ].
  { apply count_undef_zero in E2. contradiction. }
  cbv zeta. rewrite (inner_nil _ 1) by lia. cbn [ofold obind]. change (N.to_nat 5) with 5%nat. cbn [fill_loop].
  rewrite (inner_nil _ 1) by lia. cbn [ofold obind]. change (0 <? sub64 5 5)%N with false. cbn [andb obind].
  unfold border. cbn [seq Nat.sub flat_map app]. destruct (length field) as [ | k ] eqn:EL; [ lia | ].
  cbn [seq flat_map app ofold fill_border]. unfold getz at 1.
  destruct (Z.ltb_spec (Z.of_nat (S k) + Z.of_nat 0) 0); [ lia | ].
  replace (Z.to_nat (Z.of_nat (S k) + Z.of_nat 0)) with (S k) by lia.
  match goal with |- context [nth_error ?l (S k)] => assert (EN : nth_error l (S k) = None) by (apply nth_error_None; rewrite map_length; lia) end.
  rewrite EN. reflexivity.
Qed.

(** ** creep fill *)
Lemma creep_gen (I : Qc -> Prop) nx ny (field : list value) d rep setWeight :
  (1 <= nx)%nat -> (2 <= ny)%nat -> length field = (nx * ny)%nat -> wok setWeight ->
  (forall x a b c d w1 w2 w3 w4, I x -> I a -> I b -> I c -> I d -> wok w1 -> wok w2 -> wok w3 -> wok w4 ->
    I ((x + (qc w1 * a + qc w2 * b + qc w3 * c + qc w4 * d)) / qc (1 + (w1 + w2 + w3 + w4)))%Qc) ->
  (forall x a w, I x -> I a -> wok w -> I ((x + a * qc w) / qc (1 + w))%Qc) ->
  (forall q, In (Some q) field -> I q) -> I d ->
  exists f, creepfill_impl nx ny field (Some d) rep setWeight (count_undef field) = Ok f /\
    filled field (f, count_undef field) /\ (some_defined field -> full I f).
Proof.
  intros X Y L SW C4 C1 D A. unfold creepfill_impl.
  destruct (Nat.eqb_spec (nx * ny) 0); [ nia | ]. rewrite <- L in *.
  destruct (N.eqb_spec (N.of_nat (length field) - count_undef field) 0) as [ E | E ].
  { cbn [orb]. eexists. split; [ reflexivity | ]. split; [ apply filled_nothing; now left | ].
    intros (q & I0). rewrite count_defined_zero in E. exfalso. now apply (E q). }
  cbn [orb]. destruct (N.eqb_spec (count_undef field) 0) as [ E2 | E2 ].
  { eexists. split; [ reflexivity | ]. split; [ apply filled_nothing; now right | ].
    intros _. unfold full. apply Forall_forall. intros [ q | ] I0; [ exists q; auto | ].
    apply count_undef_zero in E2. contradiction. }
  cbv zeta.
  match goal with |- context [creep_loop ?k nx ny rep ?s] =>
    destruct (creep_loop_inv field nx ny I rep X Y L C4 C1 k s) as (s' & -> & H1) end.
  { split; [ apply first_guess_keeps | ]. split; [ now apply first_guess_full | ].
    repeat split.
    - apply map_length.
    - apply Forall_map, Forall_forall. intros [ q | ] _; [ exact SW | unfold wok; lia ].
    - apply map_length.
    - intros i v E0. exact (map_nth_error (fun v : value => match v with None => 0%N | Some _ => rep end) i field E0). }
  cbn [obind].
  destruct (creep_borders_inv field nx ny I rep X Y L C4 C1 (N.to_nat rep) s' H1) as (s2 & -> & H2).
  cbn [obind]. destruct s2 as [ [ [ f' w' ] r' ] ch' ]. destruct H2 as (K & F & _).
  eexists. split; [ reflexivity | ]. split; [ | intros _; exact F ].
  apply filled_intro; auto.
  - revert F. apply Forall_impl. intros v (q & -> & _). now exists q.
  - now apply some_defined_iff.
Qed.

(** any number of repeats, any weight that is not negative *)
Theorem C48_creepfillval : forall nx ny (field : list value) d rep setWeight nc0,
  (1 <= nx)%nat -> (2 <= ny)%nat -> length field = (nx * ny)%nat -> (0 <= setWeight <= 127)%Z ->
  exists r, creepfillval2d nx ny field (Some d) rep setWeight nc0 = Ok r /\ filled field r.
Proof.
  intros nx ny field d rep setWeight nc0 X Y L SW. unfold creepfillval2d.
  destruct (Nat.eqb_spec (nx * ny) 0); [ nia | ].
  destruct (creep_gen (fun _ => True) nx ny field d rep setWeight) as (f & -> & F & _); auto.
  cbn [obind]. eauto.
Qed.
Theorem C48_creepfill : forall nx ny (field : list value) rep setWeight nc0,
  (1 <= nx)%nat -> (2 <= ny)%nat -> length field = (nx * ny)%nat -> (0 <= setWeight <= 127)%Z ->
  exists r, creepfill2d nx ny field rep setWeight nc0 = Ok r /\ filled field r.
Proof.
  intros nx ny field rep setWeight nc0 X Y L SW. unfold creepfill2d.
  destruct (Nat.eqb_spec (nx * ny) 0); [ nia | ].
  destruct (N.eqb_spec (N.of_nat (nx * ny) - count_undef field) 0) as [ E | E ].
  - eexists. split; [ reflexivity | ]. apply filled_nothing. left. now rewrite L.
  - match goal with |- context [creepfill_impl nx ny field (Some ?d) rep setWeight _] =>
      destruct (creep_gen (fun _ => True) nx ny field d rep setWeight) as (f & -> & F & _); auto end.
    cbn [obind]. eauto.
Qed.

(** the new values are within the range of the defined ones and the default *)
Theorem C48_creepfillval_range : forall nx ny (field : list value) d rep setWeight nc0 lo hi,
  (1 <= nx)%nat -> (2 <= ny)%nat -> length field = (nx * ny)%nat -> (0 <= setWeight <= 127)%Z ->
  (forall q, In (Some q) field -> (lo <= q)%Qc /\ (q <= hi)%Qc) -> (lo <= d)%Qc -> (d <= hi)%Qc -> some_defined field ->
  exists r, creepfillval2d nx ny field (Some d) rep setWeight nc0 = Ok r /\
    forall v, In v (fst r) -> exists q, v = Some q /\ (lo <= q)%Qc /\ (q <= hi)%Qc.
Proof.
  intros nx ny field d rep setWeight nc0 lo hi X Y L SW D D1 D2 S. unfold creepfillval2d.
  destruct (Nat.eqb_spec (nx * ny) 0); [ nia | ].
  destruct (creep_gen (between lo hi) nx ny field d rep setWeight) as (f & -> & F & G); auto.
  - intros. now apply creep4_between.
  - intros. now apply creep1_between.
  - now split.
  - cbn [obind]. eexists. split; [ reflexivity | ]. cbn [fst]. intros v I. specialize (G S).
    unfold full in G. rewrite Forall_forall in G. destruct (G v I) as (q & -> & H). exists q. now split.
Qed.
Theorem C48_creepfill_range : forall nx ny (field : list value) rep setWeight nc0 lo hi,
  (1 <= nx)%nat -> (2 <= ny)%nat -> length field = (nx * ny)%nat -> (0 <= setWeight <= 127)%Z ->
  (forall q, In (Some q) field -> (lo <= q)%Qc /\ (q <= hi)%Qc) -> some_defined field ->
  exists r, creepfill2d nx ny field rep setWeight nc0 = Ok r /\
    forall v, In v (fst r) -> exists q, v = Some q /\ (lo <= q)%Qc /\ (q <= hi)%Qc.
Proof.
  intros nx ny field rep setWeight nc0 lo hi X Y L SW D S. unfold creepfill2d.
  destruct (Nat.eqb_spec (nx * ny) 0); [ nia | ]. rewrite <- L.
  destruct (N.eqb_spec (N.of_nat (length field) - count_undef field) 0) as [ E | E ].
  { destruct S as (q & S). rewrite count_defined_zero in E. exfalso. now apply (E q). }
  match goal with |- context [creepfill_impl nx ny field (Some ?d) rep setWeight _] =>
    destruct (creep_gen (between lo hi) nx ny field d rep setWeight) as (f & -> & F & G); auto end.
  - intros. now apply creep4_between.
  - intros. now apply creep1_between.
  - now apply mean_between.
  - cbn [obind]. eexists. split; [ reflexivity | ]. cbn [fst]. intros v I. specialize (G S).
    unfold full in G. rewrite Forall_forall in G. destruct (G v I) as (q & -> & H). exists q. now split.
Qed.

(** one row: the update of the border always reads outside of the field *)
Theorem C48_creepfill_one_row_refuted : forall nx (field : list value) d rep setWeight nc0,
  (1 <= nx)%nat -> length field = nx -> some_defined field -> In None field -> (1 <= rep)%N ->
  creepfillval2d nx 1 field d rep setWeight nc0 = UB.
Proof.
  intros nx field d rep setWeight nc0 X L (q & S) U R. unfold creepfillval2d, creepfill_impl. rewrite Nat.mul_1_r.
  destruct (Nat.eqb_spec nx 0); [ lia | ]. rewrite <- L.
  destruct (N.eqb_spec (N.of_nat (length field) - count_undef field) 0) as [ E | E ].
  { rewrite count_defined_zero in E. exfalso. now apply (E q). }
  cbn [orb]. destruct (N.eqb_spec (count_undef field) 0) as [ E2 | E2 ].
  { apply count_undef_zero in E2. contradiction. }
  cbv zeta.
  set (f := map (fun v : value => match v with None => d | Some _ => v end) field).
  set (w := map (fun v : value => match v with None => 0%Z | Some _ => setWeight end) field).
  set (r := map (fun v : value => match v with None => 0%N | Some _ => rep end) field).
  assert (Z1 : forall k, creep_loop k (length field) 1 rep (f, w, r, 0%N) = Ok (f, w, r, 0%N)) by (intros [ | k ]; reflexivity).
  assert (Z2 : forall k, k <> 0%nat -> creep_loop k (length field) 1 rep (f, w, r, 1%N) = Ok (f, w, r, 0%N)).
  { intros [ | k ] K; [ congruence | ]. cbn [creep_loop]. change (1 =? 0)%N with false. cbn iota.
    rewrite inner_nil by lia. cbn [ofold obind]. apply Z1. }
  rewrite Z2 by lia. cbn [obind].
  destruct (N.to_nat rep) as [ | k ] eqn:EK; [ lia | ]. cbn [oiter].
  assert (G : ofold (creep_border rep) (border (length field) 1) (f, w, r, 0%N) = UB).
  { unfold border. cbn [seq Nat.sub flat_map app].
    apply In_nth_error in U. destruct U as (i & U).
    assert (LI : (i < length field)%nat) by (apply nth_error_Some; intro C; assert (C' := eq_trans (eq_sym C) U); discriminate C').
    assert (B : forall a n, (a + n = length field)%nat -> (a <= i)%nat ->
      ofold (creep_border rep) (flat_map (fun x => [(Z.of_nat x, (Z.of_nat (length field) + Z.of_nat x)%Z);
        ((Z.of_nat 1 - 1) * Z.of_nat (length field) + Z.of_nat x, (Z.of_nat 1 - 1 - 1) * Z.of_nat (length field) + Z.of_nat x)%Z]) (seq a n))
        (f, w, r, 0%N) = UB).
    { intros a m. revert a. induction m as [ | m IH ]; intros a H1 H2; [ lia | ].
      cbn [seq flat_map app ofold]. unfold creep_border at 1.
      destruct (getz_ok r (Z.of_nat a)) as (ra & -> & ER); [ unfold r; rewrite map_length; lia | ]. cbn [obind].
      destruct (N.ltb_spec ra rep) as [ C | C ].
      - unfold getz at 1. destruct (Z.ltb_spec (Z.of_nat (length field) + Z.of_nat a) 0); [ lia | ].
        assert (EN : nth_error f (Z.to_nat (Z.of_nat (length field) + Z.of_nat a)) = None).
        { apply nth_error_None. unfold f. rewrite map_length. lia. }
        rewrite EN. reflexivity.
      - cbn [obind]. unfold creep_border at 1.
        replace ((Z.of_nat 1 - 1) * Z.of_nat (length field) + Z.of_nat a)%Z with (Z.of_nat a) by lia.
        destruct (getz_ok r (Z.of_nat a)) as (ra' & -> & ER'); [ unfold r; rewrite map_length; lia | ]. cbn [obind].
        rewrite ER in ER'. injection ER' as <-. destruct (N.ltb_spec ra rep); [ lia | ]. cbn [obind].
        apply IH; [ lia | ]. destruct (Nat.eq_dec a i) as [ -> | ]; [ | lia ]. exfalso.
        rewrite Nat2Z.id in ER. unfold r in ER.
        rewrite (map_nth_error (fun v : value => match v with None => 0%N | Some _ => rep end) i field U : nth_error (map _ field) i = Some 0%N) in ER.
        injection ER as <-. lia. }
    apply B; lia. }
  rewrite G. reflexivity.
Qed.

(** a weight of -1: the sum of weights and the centre is 0, and the division leaves an undefined cell *)
Theorem C48_creepfill_negative_weight_refuted : exists nx ny field r,
  length field = (nx * ny)%nat /\ some_defined field /\
  creepfillval2d nx ny field (vq 1) 1 (-1) 0 = Ok r /\ In None (fst r).
Proof.
  exists 3%nat, 3%nat, [None; vq 1; None; None; None; None; None; None; None]. eexists.
  split; [ reflexivity | ]. split; [ exists (qc 1); right; now left | ].
  split; [ vm_compute; reflexivity | ]. cbn. tauto.
Qed.

Example C48_nonvacuous :
  let f := [vq 1; vq 2; vq 3; vq 4; None; vq 6; vq 7; vq 8; None] in
  (exists r, fill2d 3 3 f (qc 0) (qc 1) 20 0 = Ok r /\ nth_error (fst r) 4 = Some (vq 5) /\ snd r = 2%N) /\
  (exists r, creepfill2d 3 3 f 3 5 0 = Ok r /\ ~ In None (fst r) /\ nth_error (fst r) 8 <> nth_error (fst r) 4 /\ snd r = 2%N) /\
  some_defined f /\ In None f.
Proof.
  repeat split.
  - eexists. split; [ vm_compute; reflexivity | ]. cbn. split; [ | reflexivity ]. unfold vq. f_equal.
  - eexists. split; [ vm_compute; reflexivity | ]. cbn. repeat split; [ intuition discriminate | discriminate ].
  - exists (qc 1). now left.
  - cbn. tauto.
Qed.

(** ** the border *)
Definition targets (l : list (Z * Z)) : list Z := map fst l.
Lemma nth_lt {A} (l : list A) i x : nth_error l i = Some x -> (i < length l)%nat.
Proof. intro H. apply nth_error_Some. rewrite H. discriminate. Qed.
Lemma fill_border_cells f w e t src s' : fill_border (f, w, e) (t, src) = Ok s' ->
  exists a x wt, nth_error f (Z.to_nat src) = Some a /\ nth_error f (Z.to_nat t) = Some x /\ nth_error w (Z.to_nat t) = Some wt /\
    (0 <= t)%Z /\ (0 <= src)%Z /\ s' = (upd f (Z.to_nat t) (vadd x (vmul (vsub a x) (Some wt))), w, e).
Proof.
  unfold fill_border, getz, setz. intro H.
  destruct (src <? 0)%Z eqn:S; [discriminate|]. destruct (nth_error f (Z.to_nat src)) as [a|]; [|discriminate]. cbn [rd obind] in H.
  destruct (t <? 0)%Z eqn:T; [discriminate|]. destruct (nth_error f (Z.to_nat t)) as [x|] eqn:Ex; [|discriminate]. cbn [rd obind] in H.
  destruct (nth_error w (Z.to_nat t)) as [wt|]; [|discriminate]. cbn [rd obind] in H.
  unfold wr in H. destruct (Z.to_nat t <? length f)%nat eqn:B; [|discriminate]. cbn [obind] in H. injection H as <-.
  exists a, x, wt. repeat split; auto; lia.
Qed.
Lemma sweep_other l : forall f w e f' w' e', ofold fill_border l (f, w, e) = Ok (f', w', e') ->
  w' = w /\ forall p, (0 <= p)%Z -> ~ In p (targets l) -> nth_error f' (Z.to_nat p) = nth_error f (Z.to_nat p).
Proof.
  induction l as [|(t, src) l IH]; intros f w e f' w' e' H; cbn [ofold] in H; [injection H as <- <- <-; auto|].
  destruct (fill_border (f, w, e) (t, src)) as [((f1, w1), e1)| | |] eqn:E; try discriminate. cbn [obind] in H.
  apply fill_border_cells in E. destruct E as (a & x & wt & _ & _ & _ & T & S & [= -> -> ->]).
  apply IH in H. destruct H as (-> & H). split; [reflexivity|]. intros p P N. cbn [targets map fst] in N.
  rewrite H by (auto; intro; apply N; now right). apply nth_error_upd_other. intro Q. apply N. left. lia.
Qed.
Lemma sweep_full l : forall f w e f' w' e', ofold fill_border l (f, w, e) = Ok (f', w', e') -> ~ In None f -> ~ In None f'.
Proof.
  induction l as [|(t, src) l IH]; intros f w e f' w' e' H N; cbn [ofold] in H; [injection H as <- <- <-; auto|].
  destruct (fill_border (f, w, e) (t, src)) as [((f1, w1), e1)| | |] eqn:E; try discriminate. cbn [obind] in H.
  apply fill_border_cells in E. destruct E as (a & x & wt & Ea & Ex & _ & T & S & [= -> -> ->]).
  apply IH in H; [exact H|]. intro I. apply In_nth_error in I. destruct I as (i & I).
  destruct (Nat.eq_dec (Z.to_nat t) i) as [<-|Ne].
  - rewrite nth_error_upd_same in I by (exact (nth_lt _ _ _ Ex)). injection I as I.
    apply nth_error_In in Ea. apply nth_error_In in Ex. destruct a as [a|]; [|contradiction]. destruct x as [x|]; [|contradiction]. discriminate.
  - rewrite nth_error_upd_other in I by exact Ne. apply nth_error_In in I. contradiction.
Qed.
(** a sweep whose targets are not changed and not used later copies its sources *)
Lemma sweep_copies l : forall f w e f' w' e', ofold fill_border l (f, w, e) = Ok (f', w', e') -> ~ In None f ->
  (forall l1 t src l2, l = l1 ++ (t, src) :: l2 -> ~ In t (targets l2) /\ ~ In src (targets l2) /\ t <> src) ->
  forall t src, In (t, src) l -> nth_error w (Z.to_nat t) = Some 1%Qc -> nth_error f' (Z.to_nat t) = nth_error f' (Z.to_nat src).
Proof.
  induction l as [|(t0, s0) l IH]; intros f w e f' w' e' H N C t src I W1; cbn [ofold] in H; [destruct I|].
  destruct (fill_border (f, w, e) (t0, s0)) as [((f1, w1), e1)| | |] eqn:E; try discriminate. cbn [obind] in H.
  assert (N1 : ~ In None f1).
  { apply (sweep_full [(t0, s0)] f w e f1 w1 e1); [|exact N]. cbn [ofold]. rewrite E. reflexivity. }
  apply fill_border_cells in E. destruct E as (a & x & wt & Ea & Ex & Ew & T & S & [= -> -> ->]).
  destruct I as [[= <- <-]|I].
  - destruct (C [] t0 s0 l eq_refl) as (C1 & C2 & C3). apply sweep_other in H. destruct H as (_ & H).
    rewrite 2!H by assumption. rewrite Ew in W1. injection W1 as ->.
    rewrite nth_error_upd_same by (exact (nth_lt _ _ _ Ex)). rewrite nth_error_upd_other by lia. rewrite Ea.
    apply nth_error_In in Ea. apply nth_error_In in Ex. destruct a as [a|]; [|contradiction]. destruct x as [x|]; [|contradiction].
    cbn [vsub vmul vadd]. do 2 f_equal. ring.
  - apply (IH _ _ _ _ _ _ H N1); auto. intros l1 t' src' l2 ->. apply (C ((t0, s0) :: l1)). reflexivity.
Qed.

Lemma border_order nx ny : (3 <= nx)%nat -> (3 <= ny)%nat ->
  forall l1 t src l2, border nx ny = l1 ++ (t, src) :: l2 -> ~ In t (targets l2) /\ ~ In src (targets l2) /\ t <> src.
Proof.
  intros X Y.
  set (x_ := Z.of_nat nx). set (y_ := Z.of_nat ny).
  set (col := fun y : nat => [(Z.of_nat y * x_, Z.of_nat y * x_ + 1); (Z.of_nat y * x_ + (x_ - 1), Z.of_nat y * x_ + (x_ - 2))]%Z).
  set (row := fun x : nat => [(Z.of_nat x, x_ + Z.of_nat x); ((y_ - 1) * x_ + Z.of_nat x, (y_ - 1 - 1) * x_ + Z.of_nat x)]%Z).
  change (border nx ny) with (flat_map col (seq 1 (ny - 2)) ++ flat_map row (seq 0 nx)).
  (* every later entry has another target, and its target is not the source *)
  set (R := fun a b : Z * Z => fst a <> fst b /\ snd a <> fst b).
  assert (Main : ForallOrdPairs R (flat_map col (seq 1 (ny - 2)) ++ flat_map row (seq 0 nx)) /\
                 forall a, In a (flat_map col (seq 1 (ny - 2)) ++ flat_map row (seq 0 nx)) -> fst a <> snd a).
  { assert (CC : forall n k, (1 <= k)%nat -> (k + n <= ny - 1)%nat -> ForallOrdPairs R (flat_map col (seq k n))).
    { induction n as [|n IH]; intros k K1 K2; [constructor|]. cbn [seq flat_map]. cbn [app col].
      assert (Z1 : forall p, In p (flat_map col (seq (S k) n)) -> R (Z.of_nat k * x_, Z.of_nat k * x_ + 1)%Z p /\
                    R (Z.of_nat k * x_ + (x_ - 1), Z.of_nat k * x_ + (x_ - 2))%Z p).
      { intros p I. apply in_flat_map in I. destruct I as (y & Hy & I). apply in_seq in Hy.
        unfold R. destruct I as [<-|[<-|[]]]; cbn [fst snd]; unfold x_; split; split; nia. }
      constructor; [|constructor].
      - constructor; [unfold R, x_; cbn [fst snd]; split; nia|]. apply Forall_forall. intros p I. now apply Z1.
      - apply Forall_forall. intros p I. now apply Z1.
      - apply IH; lia. }
    assert (RR : forall n k, (k + n <= nx)%nat -> ForallOrdPairs R (flat_map row (seq k n))).
    { induction n as [|n IH]; intros k K; [constructor|]. cbn [seq flat_map]. cbn [app row].
      assert (Z1 : forall p, In p (flat_map row (seq (S k) n)) -> R (Z.of_nat k, x_ + Z.of_nat k)%Z p /\
                    R ((y_ - 1) * x_ + Z.of_nat k, (y_ - 1 - 1) * x_ + Z.of_nat k)%Z p).
      { intros p I. apply in_flat_map in I. destruct I as (y & Hy & I). apply in_seq in Hy.
        unfold R. destruct I as [<-|[<-|[]]]; cbn [fst snd]; unfold x_, y_; split; split; nia. }
      constructor; [|constructor].
      - constructor; [unfold R, x_, y_; cbn [fst snd]; split; nia|]. apply Forall_forall. intros p I. now apply Z1.
      - apply Forall_forall. intros p I. now apply Z1.
      - apply IH; lia. }
    assert (APP : forall l m, ForallOrdPairs R l -> ForallOrdPairs R m -> (forall a b, In a l -> In b m -> R a b) -> ForallOrdPairs R (l ++ m)).
    { clear. induction l as [|a l IH]; intros m L M H; [exact M|]. inversion L; subst. cbn. constructor.
      - apply Forall_app. split; [assumption|]. apply Forall_forall. intros b B. apply H; [now left|exact B].
      - apply IH; auto. intros a0 b A B. apply H; [now right|exact B]. }
    split.
    - apply APP; [apply CC; lia|apply RR; lia|]. intros a b A B. apply in_flat_map in A. apply in_flat_map in B.
      destruct A as (y & Hy & A), B as (x & Hx & B). apply in_seq in Hy. apply in_seq in Hx.
      unfold R. destruct A as [<-|[<-|[]]], B as [<-|[<-|[]]]; cbn [fst snd]; unfold x_, y_; split; nia.
    - intros a A. apply in_app_or in A. destruct A as [A|A]; apply in_flat_map in A; destruct A as (y & Hy & A); apply in_seq in Hy;
        destruct A as [<-|[<-|[]]]; cbn [fst snd]; unfold x_, y_; nia. }
  destruct Main as (P & Q). intros l1 t src l2 E. rewrite E in P, Q.
  assert (F : Forall (R (t, src)) l2).
  { clear - P. induction l1 as [|a l1 IH]; cbn in P; inversion P; subst; auto. }
  rewrite Forall_forall in F. split; [|split].
  - intro I. apply in_map_iff in I. destruct I as (b & <- & B). destruct (F b B) as (F1 & _). now apply F1.
  - intro I. apply in_map_iff in I. destruct I as (b & <- & B). destruct (F b B) as (_ & F2). now apply F2.
  - apply (Q (t, src)). apply in_or_app. right. now left.
Qed.

Lemma getz_in {A} (l : list A) p x : getz l p = Ok x -> In x l.
Proof.
  unfold getz. destruct (p <? 0)%Z; [discriminate|]. destruct (nth_error l (Z.to_nat p)) as [y|] eqn:E; cbn [rd]; [|discriminate].
  intros [= <-]. now apply nth_error_In in E.
Qed.
Lemma setz_full (l l' : list value) p q : setz l p (Some q) = Ok l' -> ~ In None l -> ~ In None l'.
Proof.
  unfold setz. destruct (p <? 0)%Z; [discriminate|]. unfold wr. destruct (Z.to_nat p <? length l)%nat eqn:E; [|discriminate].
  intros [= <-] N I. apply In_nth_error in I. destruct I as (i & I). destruct (Nat.eq_dec (Z.to_nat p) i) as [<-|Ne].
  - apply Nat.ltb_lt in E. assert (J := eq_trans (eq_sym I) (nth_error_upd_same l _ (Some q) E)). discriminate.
  - rewrite nth_error_upd_other in I by exact Ne. apply nth_error_In in I. contradiction.
Qed.
Lemma relax_all nx l : forall f w e f' w' e', ofold (relax nx) l (f, w, e) = Ok (f', w', e') ->
  w' = w /\ (~ In None f -> ~ In None f').
Proof.
  induction l as [|p l IH]; intros f w e f' w' e' H; cbn [ofold] in H; [injection H as <- <- <-; auto|].
  destruct (relax nx (f, w, e) p) as [((f1, w1), e1)| | |] eqn:E; try discriminate. cbn [obind] in H. apply IH in H.
  destruct H as (-> & H). unfold relax in E.
  destruct (getz f (p + 1)) as [a| | |] eqn:Ea; cbn [obind] in E; try discriminate.
  destruct (getz f (p - 1)) as [b| | |] eqn:Eb; cbn [obind] in E; try discriminate.
  destruct (getz f (p + Z.of_nat nx)) as [c| | |] eqn:Ec; cbn [obind] in E; try discriminate.
  destruct (getz f (p - Z.of_nat nx)) as [d| | |] eqn:Ed; cbn [obind] in E; try discriminate.
  destruct (getz f p) as [x| | |] eqn:Ex; cbn [obind] in E; try discriminate.
  apply getz_in in Ea, Eb, Ec, Ed, Ex.
  destruct (setz e p _) as [e2| | |]; cbn [obind] in E; try discriminate.
  destruct (getz w p) as [wp| | |]; cbn [obind] in E; try discriminate.
  destruct (setz f p _) as [f2| | |] eqn:Ef; cbn [obind] in E; try discriminate.
  injection E as <- <- <-. split; [reflexivity|]. intro N. apply H.
  destruct a as [a|]; [|contradiction]. destruct b as [b|]; [|contradiction]. destruct c as [c|]; [|contradiction].
  destruct d as [d|]; [|contradiction]. destruct x as [x|]; [|contradiction]. cbn [vadd vsub vmul] in Ef.
  now apply setz_full in Ef.
Qed.
Lemma fill_loop_border k nx ny c : forall n f0 w0 e0 s', ~ In None f0 -> fill_loop (S k) n 5 nx ny c (f0, w0, e0) = Ok s' ->
  exists f e, ofold fill_border (border nx ny) (f, w0, e) = Ok s' /\ ~ In None f.
Proof.
  induction k as [|k IH]; intros n f0 w0 e0 s' N H.
  - cbn [fill_loop] in H. destruct (ofold (relax nx) (inner nx ny) (f0, w0, e0)) as [((f1, w1), e1)| | |] eqn:E; try discriminate. cbn [obind] in H.
    change (sub64 5 5) with 0%N in H. replace (n <? 0)%N with false in H by lia. cbn [andb obind] in H.
    apply relax_all in E. destruct E as (-> & E).
    destruct (ofold fill_border (border nx ny) (f1, w0, e1)) as [s2| | |] eqn:E2; try discriminate. cbn [obind] in H. injection H as <-.
    exists f1, e1. auto.
  - remember (S k) as k1 eqn:Ek. cbn [fill_loop] in H.
    destruct (ofold (relax nx) (inner nx ny) (f0, w0, e0)) as [((f1, w1), e1)| | |] eqn:E; try discriminate. cbn [obind] in H.
    change (sub64 5 5) with 0%N in H. replace (n <? 0)%N with false in H by lia. cbn [andb obind] in H.
    apply relax_all in E. destruct E as (-> & E).
    destruct (ofold fill_border (border nx ny) (f1, w0, e1)) as [((f2, w2), e2)| | |] eqn:E2; try discriminate. cbn [obind] in H. subst k1.
    assert (N2 := sweep_full _ _ _ _ _ _ _ E2 (E N)). apply sweep_other in E2. destruct E2 as (-> & _).
    now apply IH in H.
Qed.
Lemma weights_other c l : forall w w', ofold (fun w p => do x <- getz w p; setz w p (x * c)%Qc) l w = Ok w' ->
  forall p, (0 <= p)%Z -> ~ In p l -> nth_error w' (Z.to_nat p) = nth_error w (Z.to_nat p).
Proof.
  induction l as [|q l IH]; intros w w' H p P N; cbn [ofold] in H; [now injection H as <-|].
  destruct (getz w q) as [x| | |] eqn:Ex; cbn [obind] in H; try discriminate.
  destruct (setz w q (x * c)%Qc) as [w1| | |] eqn:Es; cbn [obind] in H; try discriminate.
  rewrite (IH _ _ H p P) by (intro; apply N; now right). unfold setz in Es.
  destruct (q <? 0)%Z eqn:Q; [discriminate|]. unfold wr in Es. destruct (Z.to_nat q <? length w)%nat; [|discriminate]. injection Es as <-.
  apply nth_error_upd_other. intro Z0. apply N. left. lia.
Qed.
Lemma border_not_inner nx ny t src : (3 <= nx)%nat -> (3 <= ny)%nat -> In (t, src) (border nx ny) -> ~ In t (inner nx ny).
Proof.
  intros X Y B I. unfold inner in I. apply in_flat_map in I. destruct I as (y & Hy & I). apply in_seq in Hy.
  apply in_map_iff in I. destruct I as (x & Ex & Hx). apply in_seq in Hx.
  unfold border in B. apply in_app_or in B. destruct B as [B|B]; apply in_flat_map in B; destruct B as (z & Hz & B); apply in_seq in Hz;
    destruct B as [[= B _]|[[= B _]|[]]]; rewrite <- Ex, Nat2Z.inj_add, Nat2Z.inj_mul in B; clear Ex;
    [destruct (Nat.lt_trichotomy y z) as [T|[T|T]]; nia|destruct (Nat.lt_trichotomy y z) as [T|[T|T]]; nia| |];
    [assert (Z.of_nat nx * 1 <= Z.of_nat nx * Z.of_nat y)%Z by (apply Z.mul_le_mono_nonneg_l; lia); nia|
     assert (Z.of_nat nx * Z.of_nat y <= Z.of_nat nx * (Z.of_nat ny - 2))%Z by (apply Z.mul_le_mono_nonneg_l; lia); nia].
Qed.

(** ** fill2d: an undefined cell of the border gets the value of its neighbour inside; with five rounds the loop
    never ends early, and its last step is the border *)
Definition neighbour (nx ny : nat) (t src : nat) : Prop :=
  (exists y, (1 <= y < ny - 1)%nat /\ ((t = y * nx /\ src = y * nx + 1) \/ (t = y * nx + (nx - 1) /\ src = y * nx + (nx - 2)))%nat) \/
  (exists x, (x < nx)%nat /\ ((t = x /\ src = nx + x) \/ (t = (ny - 1) * nx + x /\ src = (ny - 2) * nx + x))%nat).
Lemma neighbour_border nx ny t src : (3 <= nx)%nat -> (3 <= ny)%nat -> neighbour nx ny t src -> In (Z.of_nat t, Z.of_nat src) (border nx ny).
Proof.
  intros X Y [(y & Hy & H)|(x & Hx & H)]; apply in_or_app; [left|right]; apply in_flat_map.
  - exists y. split; [apply in_seq; lia|]. destruct H as [(-> & ->)|(-> & ->)]; [left|right; left]; f_equal; nia.
  - exists x. split; [apply in_seq; lia|]. destruct H as [(-> & ->)|(-> & ->)]; [left|right; left]; f_equal; nia.
Qed.
Theorem C48_fill2d_border : forall nx ny (field : list value) relaxCrit corrEff nc0 r,
  (3 <= nx)%nat -> (3 <= ny)%nat -> length field = (nx * ny)%nat -> some_defined field ->
  fill2d nx ny field relaxCrit corrEff 5 nc0 = Ok r ->
  forall t src, neighbour nx ny t src -> nth_error field t = Some None -> nth_error (fst r) t = nth_error (fst r) src.
Proof.
  intros nx ny field relaxCrit corrEff nc0 r X Y L (q & SD) H t src NB U. unfold fill2d in H.
  destruct (Nat.eqb_spec (nx * ny) 0); [nia|]. rewrite <- L in H.
  destruct (N.eqb_spec (N.of_nat (length field) - count_undef field) 0) as [E|E].
  { rewrite count_defined_zero in E. exfalso. now apply (E q). }
  destruct (N.eqb_spec (count_undef field) 0) as [E2|E2].
  { rewrite count_undef_zero in E2. exfalso. apply E2. now apply nth_error_In in U. }
  cbn [orb] in H. cbv zeta in H.
  match type of H with obind (ofold ?g ?l ?w0) _ = _ => set (w00 := w0) in H; destruct (ofold g l w00) as [w| | |] eqn:EW; cbn [obind] in H; try discriminate end.
  match type of H with obind (fill_loop ?k ?n ?m nx ny ?c (?f0, w, ?e)) _ = _ =>
    destruct (fill_loop k n m nx ny c (f0, w, e)) as [((f', w'), e')| | |] eqn:EL; cbn [obind] in H; try discriminate end.
  injection H as <-. cbn [fst].
  change (N.to_nat 5) with (S 4) in EL. apply fill_loop_border in EL.
  - destruct EL as (f & e & S & N). assert (B := neighbour_border nx ny t src X Y NB).
    assert (C := sweep_copies _ _ _ _ _ _ _ S N (border_order nx ny X Y) _ _ B). rewrite !Nat2Z.id in C. apply C.
    replace t with (Z.to_nat (Z.of_nat t)) by apply Nat2Z.id.
    rewrite (weights_other _ _ _ _ EW); [|lia|exact (border_not_inner nx ny _ _ X Y B)]. rewrite Nat2Z.id.
    unfold w00. exact (map_nth_error (fun v : value => match v with None => 1%Qc | Some _ => 0%Qc end) t field U).
  - intro I. apply in_map_iff in I. destruct I as ([v|] & I & _); discriminate.
Qed.
Example C48_fill2d_border_nonvacuous :
  let field := [None; None; None; None; vq 4; None; None; None; vq 7] in
  exists r, fill2d 3 3 field (qc 0) (qc 1) 5 0 = Ok r /\ neighbour 3 3 5 4 /\ nth_error field 5 = Some None /\
    nth_error (fst r) 5 = Some (vq 4) /\ nth_error (fst r) 8 = Some (vq 7).
Proof.
  eexists. split; [vm_compute; reflexivity|]. split; [|split; [reflexivity|split; reflexivity]].
  left. exists 1%nat. split; [lia|]. right. lia.
Qed.

Print Assumptions C48_fill2d.
Print Assumptions C48_fill2d_range.
Print Assumptions C48_fill2d_overshoot_refuted.
Print Assumptions C48_fill2d_thin.
Print Assumptions C48_fill2d_one_row_refuted.
Print Assumptions C48_creepfillval.
Print Assumptions C48_creepfill.
Print Assumptions C48_creepfillval_range.
Print Assumptions C48_creepfill_range.
Print Assumptions C48_creepfill_one_row_refuted.
Print Assumptions C48_creepfill_negative_weight_refuted.
Print Assumptions C48_fill2d_border.
