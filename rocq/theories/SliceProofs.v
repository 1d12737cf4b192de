(** Proofs about array slicing and slice requests. *)
From Coq Require Import NArith ZArith String List Bool Lia Arith.
From Coq Require Import ZifyBool ZifyNat ZifyN.
From Verif Require Import Base StdMap IndexSpec SliceModel.
Import ListNotations.
Local Open Scope nat_scope.

Notation ofN := N.of_nat.

(** ** 64-bit arithmetic is a ring homomorphism *)
Lemma add64_w a b : add64 (w64 a) b = w64 (a + b).
Proof. unfold add64, w64. rewrite N.add_mod_idemp_l by discriminate. reflexivity. Qed.
Lemma add64_w2 a b : add64 a (w64 b) = w64 (a + b).
Proof. unfold add64, w64. rewrite N.add_mod_idemp_r by discriminate. reflexivity. Qed.
Lemma mul64_w a b : mul64 a (w64 b) = w64 (a * b).
Proof. unfold mul64, w64. rewrite N.mul_mod_idemp_r by discriminate. reflexivity. Qed.
Lemma mul64_wl a b : mul64 (w64 a) b = w64 (a * b).
Proof. unfold mul64, w64. rewrite N.mul_mod_idemp_l by discriminate. reflexivity. Qed.

Ltac w64n := unfold w64;
  repeat first [rewrite N.add_mod_idemp_l by discriminate | rewrite N.add_mod_idemp_r by discriminate
               | rewrite N.mul_mod_idemp_l by discriminate | rewrite N.mul_mod_idemp_r by discriminate].

Lemma positions_snoc zs z :
  positions (zs ++ [z]) = flat_map (fun i => map (fun is => is ++ [i]) (positions zs)) (seq 0 z).
Proof.
  induction zs as [|d zs IH].
  - cbn. rewrite app_nil_r. induction (seq 0 z) as [|a l IHl]; cbn; auto; f_equal; auto.
  - cbn [app positions]. rewrite IH; clear IH.
    induction (seq 0 z) as [|a l IHl]; cbn; auto.
    rewrite flat_map_app, IHl. clear IHl. f_equal.
    induction (positions zs) as [|p ps IHp]; cbn; auto.
    rewrite map_app, IHp. f_equal. rewrite map_map. reflexivity.
Qed.

Lemma shift_app s1 s2 i1 i2 :
  length s1 = length i1 -> shift (s1 ++ s2) (i1 ++ i2) = shift s1 i1 ++ shift s2 i2.
Proof.
  revert i1; induction s1 as [|s s1 IH]; intros [|i i1] H; try discriminate; cbn; auto.
  f_equal. apply IH. cbn in H; lia.
Qed.

Lemma shift_length s i : length s = length i -> length (shift s i) = length i.
Proof.
  revert i; induction s as [|a s IH]; intros [|b i] H; try discriminate; cbn; auto.
Qed.

Lemma slice_sizes_nth acc dims k :
  k < length dims ->
  nth_error (slice_sizes (w64 acc) (map ofN dims)) k = Some (w64 (acc * ofN (cells (firstn k dims)))).
Proof.
  revert acc k; induction dims as [|d ds IH]; cbn [length map slice_sizes]; intros acc k H; [lia|].
  destruct k as [|k]; cbn [nth_error firstn cells].
  - f_equal. f_equal. lia.
  - rewrite mul64_wl, IH by lia. f_equal. f_equal. nia.
Qed.

Lemma firstn_S_nth {A} (l : list A) k x :
  nth_error l k = Some x -> firstn (S k) l = firstn k l ++ [x].
Proof.
  revert k; induction l as [|a l IH]; intros [|k] H; cbn in *; try discriminate.
  - congruence.
  - f_equal. apply IH; auto.
Qed.

Lemma firstn_length_lt {A} (l : list A) k x : nth_error l k = Some x -> length (firstn k l) = k.
Proof.
  intro H. rewrite firstn_length.
  assert (k < length l) by (apply nth_error_Some; congruence). lia.
Qed.

Section Copy.
  Context {A : Type}.
  Variable data : list A.
  Variables dims start size : list nat.
  Variable cap : N.
  Hypothesis Hfit : fits dims start size.
  Hypothesis Hdims : forall k d, nth_error dims k = Some d -> (ofN d < M64)%N.
  Hypothesis Hdata : (ofN (length data) < M64)%N.

  Let N1 := map ofN dims.
  Let NS := slice_sizes 1 N1.

  Definition box_spec (k P : nat) : list (option A) :=
    map (fun idx => nth_error data (P + lin (firstn k dims) (shift (firstn k start) idx)))
        (positions (firstn k size)).

  Lemma copy_loop_spec cd n Q out :
    cd < length dims ->
    (forall P out, P + cells (firstn cd dims) <= length data ->
       (ofN (length out + cells (firstn cd size)) <= cap)%N ->
       exists blk, copy_rec (cd - 1) data cap N1 NS (map ofN start) (map ofN size) (w64 (ofN P), out)
         = Ok (w64 (ofN (P + cells (firstn cd dims))), out ++ blk)
         /\ map Some blk = box_spec cd P) ->
    Q + n * cells (firstn cd dims) <= length data ->
    (ofN (length out + n * cells (firstn cd size)) <= cap)%N ->
    exists blk,
      oiter n (copy_rec (cd - 1) data cap N1 NS (map ofN start) (map ofN size)) (w64 (ofN Q), out)
      = Ok (w64 (ofN (Q + n * cells (firstn cd dims))), out ++ blk)
      /\ map Some blk = flat_map (fun i => box_spec cd (Q + i * cells (firstn cd dims))) (seq 0 n).
  Proof.
    intros Hcd IH. revert Q out. induction n as [|n IHn]; intros Q out HQ Hcap.
    - exists []. cbn. rewrite app_nil_r, Nat.add_0_r. auto.
    - destruct (IH Q out) as (b1 & E1 & B1); [nia|nia|].
      assert (length b1 = cells (firstn cd size)) as L1.
      { apply (f_equal (@length _)) in B1. unfold box_spec in B1.
        rewrite !map_length, positions_length in B1. auto. }
      destruct (IHn (Q + cells (firstn cd dims)) (out ++ b1)) as (b2 & E2 & B2).
      + nia.
      + rewrite app_length, L1. nia.
      + exists (b1 ++ b2). cbn [oiter]. rewrite E1. cbn [obind]. rewrite E2. split.
        * f_equal. f_equal. { f_equal. lia. } rewrite app_assoc. reflexivity.
        * rewrite map_app, B1, B2. cbn [seq flat_map]. f_equal; [f_equal; lia|].
          rewrite <- seq_shift, !flat_map_concat_map, map_map. f_equal.
          apply map_ext. intro i. f_equal. lia.
  Qed.

  Lemma fits_nth k d : nth_error dims k = Some d ->
    exists s z, nth_error start k = Some s /\ nth_error size k = Some z /\ s + z <= d.
  Proof.
    intro H. destruct Hfit as (L1 & L2 & F).
    assert (k < length dims) by (apply nth_error_Some; congruence).
    destruct (nth_error start k) as [s|] eqn:E1; [|apply nth_error_None in E1; lia].
    destruct (nth_error size k) as [z|] eqn:E2; [|apply nth_error_None in E2; lia].
    exists s, z. repeat split; auto. eapply F; eauto.
  Qed.

  Lemma copy_rec_spec cd P out :
    cd < length dims ->
    P + cells (firstn (S cd) dims) <= length data ->
    (ofN (length out + cells (firstn (S cd) size)) <= cap)%N ->
    exists blk, copy_rec cd data cap N1 NS (map ofN start) (map ofN size) (w64 (ofN P), out)
         = Ok (w64 (ofN (P + cells (firstn (S cd) dims))), out ++ blk)
         /\ map Some blk = box_spec (S cd) P.
  Proof.
    revert P out; induction cd as [|cd IH]; intros P out Hcd HP Hcap.
    - destruct (nth_error dims 0) as [d|] eqn:Ed; [|apply nth_error_None in Ed; lia].
      destruct (fits_nth 0 d Ed) as (s & z & Es & Ez & Hsz).
      pose proof (Hdims 0 d Ed) as Hd.
      pose proof (slice_sizes_nth 1 dims 0 Hcd) as Esl. change (w64 1) with 1%N in Esl.
      cbn [firstn cells] in Esl.
      rewrite (firstn_S_nth _ _ _ Ed) in HP |- *. rewrite (firstn_S_nth _ _ _ Ez) in Hcap.
      cbn [firstn app cells] in HP, Hcap |- *.
      exists (firstn z (skipn (P + s) data)). cbn [copy_rec].
      unfold N1, NS, N1. rewrite !nth_error_map, Ed, Es, Ez, Esl. cbn [option_map rd obind].
      change (w64 (1 * ofN 1)) with 1%N. unfold mul64 at 1. rewrite N.mul_1_r.
      rewrite add64_w.
      rewrite (w64_small (ofN s)) by lia. rewrite (w64_small (ofN P + ofN s)) by lia.
      unfold copy_block.
      assert ((if (ofN z =? 0)%N then Ok out
               else if ((ofN P + ofN s + ofN z <=? ofN (length data)) && (ofN (length out) + ofN z <=? cap))%N
               then Ok (out ++ firstn (N.to_nat (ofN z)) (skipn (N.to_nat (ofN P + ofN s)) data)) else UB)
              = Ok (out ++ firstn z (skipn (P + s) data))) as EB.
      { destruct (N.eqb_spec (ofN z) 0) as [Hz|Hz].
        - assert (z = 0) as -> by lia. cbn. rewrite app_nil_r; auto.
        - replace (_ && _)%bool with true by (symmetry; apply andb_true_intro; split; apply N.leb_le; lia).
          do 2 f_equal. rewrite Nat2N.id. f_equal. f_equal. lia. }
      rewrite EB. cbn [obind]. split.
      + do 2 f_equal. rewrite (add64_small (ofN s)) by lia. rewrite sub64_small by lia.
        unfold add64, mul64. w64n. rewrite (N.mod_small (ofN P + ofN s * 1)) by lia. f_equal; lia.
      + unfold box_spec. rewrite (firstn_S_nth _ _ _ Ed), (firstn_S_nth _ _ _ Es), (firstn_S_nth _ _ _ Ez).
        cbn [firstn app positions]. cbn [flat_map]. rewrite app_nil_r, map_map.
        apply nth_error_ext. intro i. rewrite !nth_error_map, nth_error_firstn, nth_error_skipn, nth_error_seq.
        destruct (Nat.ltb_spec i z); cbn; auto.
        destruct (nth_error data (P + s + i)) eqn:E.
        * cbn. f_equal. rewrite <- E. f_equal. lia.
        * apply nth_error_None in E. lia.
    - destruct (nth_error dims (S cd)) as [d|] eqn:Ed; [|apply nth_error_None in Ed; lia].
      destruct (fits_nth (S cd) d Ed) as (s & z & Es & Ez & Hsz).
      pose proof (Hdims (S cd) d Ed) as Hd.
      pose proof (slice_sizes_nth 1 dims (S cd) Hcd) as Esl. change (w64 1) with 1%N in Esl.
      rewrite N.mul_1_l in Esl.
      rewrite (firstn_S_nth _ _ _ Ed) in HP |- *. rewrite (firstn_S_nth _ _ _ Ez) in Hcap.
      rewrite cells_app in HP, Hcap |- *. cbn [cells] in HP, Hcap |- *. rewrite Nat.mul_1_r in HP, Hcap |- *.
      set (SL := cells (firstn (S cd) dims)) in *. set (SZ := cells (firstn (S cd) size)) in *.
      destruct (copy_loop_spec (S cd) z (P + s * SL) out Hcd) as (blk & E & B).
      { intros P' out' H1 H2. replace (S cd - 1) with cd by lia. apply IH; auto. lia. }
      { fold SL. nia. }
      { fold SZ. nia. }
      exists blk. cbn [copy_rec]. unfold N1, NS, N1 in *.
      rewrite !nth_error_map, Ed, Es, Ez, Esl. cbn [option_map rd obind].
      rewrite mul64_w, add64_w.
      replace (S cd - 1) with cd in E by lia. fold SL in E.
      rewrite Nat2N.id.
      replace (w64 (ofN P + w64 (ofN s * ofN SL))) with (w64 (ofN (P + s * SL)))
        by (w64n; f_equal; lia).
      rewrite E. cbn [obind]. split.
      + do 2 f_equal. rewrite (add64_small (ofN s)) by lia. rewrite sub64_small by lia.
        rewrite mul64_w, add64_w. unfold w64. rewrite N.add_mod_idemp_r by discriminate. f_equal. nia.
      + rewrite B. unfold box_spec.
        rewrite (firstn_S_nth _ _ _ Ed), (firstn_S_nth _ _ _ Es), (firstn_S_nth _ _ _ Ez).
        rewrite positions_snoc. rewrite !flat_map_concat_map, concat_map, map_map.
        f_equal. apply map_ext_in. intros i Hi. rewrite map_map. apply map_ext_in. intros is Hin.
        apply positions_inside, inside_length in Hin.
        assert (length (firstn (S cd) start) = length is) as L1.
        { rewrite <- Hin. rewrite (firstn_length_lt _ _ _ Es), (firstn_length_lt _ _ _ Ez). auto. }
        rewrite shift_app by auto. rewrite lin_app.
        * cbn. f_equal. fold SL. nia.
        * rewrite shift_length by auto. rewrite <- L1.
          rewrite (firstn_length_lt _ _ _ Es), (firstn_length_lt _ _ _ Ed). auto.
  Qed.
End Copy.

(** ** DataImpl::slice *)

(** Specification: [out] holds exactly the cells of the box. *)
Definition is_box {A} (data : list A) (dims start size : list nat) (out : list A) : Prop :=
  length out = cells size /\
  forall idx, inside size idx ->
    nth_error out (lin size idx) = nth_error data (lin dims (shift start idx)).

Lemma is_box_unique {A} (data : list A) dims start size o1 o2 :
  is_box data dims start size o1 -> is_box data dims start size o2 -> o1 = o2.
Proof.
  intros [L1 H1] [L2 H2]. apply nth_error_ext. intro i.
  destruct (Nat.lt_ge_cases i (cells size)) as [H|H].
  - rewrite <- (lin_unlin size i H), H1, H2 by (apply unlin_inside; auto). reflexivity.
  - rewrite !nth_error_None_ge by lia. reflexivity.
Qed.

Lemma slice_check_ok dims start size a b :
  fits dims start size ->
  (forall k d, nth_error dims k = Some d -> (ofN d < M64)%N) ->
  slice_check (map ofN dims) (map ofN start) (map ofN size) (w64 a) (w64 b)
  = Ok (w64 (a * ofN (cells size)), w64 (b * ofN (cells dims))).
Proof.
  revert start size a b; induction dims as [|d ds IH]; intros [|s ss] [|z zs] a b F H;
    try (destruct F as (L1 & L2 & _); cbn in *; lia).
  - cbn. do 2 f_equal; f_equal; lia.
  - apply fits_cons in F as [Hd F].
    pose proof (H 0 d eq_refl) as Hd2. cbn [map slice_check].
    rewrite (add64_small (ofN s)) by lia.
    replace (ofN d <? ofN s + ofN z)%N with false by (symmetry; apply N.ltb_ge; lia).
    rewrite !mul64_wl. rewrite IH; auto.
    + cbn [cells]. do 2 f_equal; f_equal; lia.
    + intros k d' Hk. apply (H (S k)); auto.
Qed.

Lemma cells_fits dims start size : fits dims start size -> cells size <= cells dims.
Proof.
  revert start size; induction dims as [|d ds IH]; intros [|s ss] [|z zs] F;
    try (destruct F as (L1 & L2 & _); cbn in *; lia).
  apply fits_cons in F as [Hd F]. apply IH in F. cbn. nia.
Qed.

Lemma is_box_of_spec {A} (data : list A) dims start size out :
  length dims = length start -> length dims = length size ->
  map Some out = map (fun idx => nth_error data (lin dims (shift start idx))) (positions size) ->
  is_box data dims start size out.
Proof.
  intros L1 L2 E. split.
  - apply (f_equal (@length _)) in E. rewrite !map_length, positions_length in E. auto.
  - intros idx H. pose proof (lin_lt size idx H) as Hlt.
    apply (f_equal (fun l => nth_error l (lin size idx))) in E.
    rewrite !nth_error_map, positions_nth in E.
    apply Nat.ltb_lt in Hlt. rewrite Hlt in E. cbn in E. rewrite unlin_lin in E by auto.
    destruct (nth_error out (lin size idx)); cbn in E; congruence.
Qed.

Lemma slice_ok {A} (data : list A) dims start size :
  fits dims start size ->
  cells dims = length data ->
  (ofN (length data) < M64)%N ->
  (forall k d, nth_error dims k = Some d -> (ofN d < M64)%N) ->
  exists out, slice data (map ofN dims) (map ofN start) (map ofN size) = Ok out
              /\ is_box data dims start size out.
Proof.
  intros F E HD Hd.
  pose proof F as (L1 & L2 & _).
  destruct dims as [|d ds].
  - destruct start; [|discriminate]. destruct size; [|discriminate].
    exists data. split; auto. split; [cbn in *; auto|].
    intros idx H. inversion H; subst. reflexivity.
  - set (dims := d :: ds) in *.
    pose proof (cells_fits _ _ _ F) as Hc.
    destruct (copy_rec_spec data dims start size (w64 (ofN (cells size))) F Hd HD (length dims - 1) 0 [])
      as (blk & Ek & B).
    + cbn; lia.
    + replace (S (length dims - 1)) with (length dims) by (cbn; lia).
      rewrite firstn_all. lia.
    + replace (S (length dims - 1)) with (length dims) by (cbn; lia).
      rewrite L2, firstn_all. rewrite w64_small by lia. cbn. lia.
    + replace (S (length dims - 1)) with (length dims) in * by (cbn; lia).
      unfold box_spec in B. rewrite (firstn_all dims) in B.
      assert (firstn (length dims) start = start) as F1 by (rewrite L1; apply firstn_all).
      assert (firstn (length dims) size = size) as F2 by (rewrite L2; apply firstn_all).
      rewrite F1, F2 in B. cbn [app Nat.add] in Ek, B.
      apply is_box_of_spec in B; auto.
      exists blk. split; auto.
      unfold slice. 
      assert (map ofN dims <> []) as NE by discriminate.
      destruct (map ofN dims) as [|x xs] eqn:EM; [congruence|]. rewrite <- EM.
      pose proof (slice_check_ok dims start size 1 1 F Hd) as EC.
      change (w64 1) with 1%N in EC. rewrite EC. cbn [obind].
      rewrite !N.mul_1_l. rewrite E. rewrite (w64_small (ofN (length data))) by auto.
      rewrite N.eqb_refl. cbn [negb]. rewrite map_length.
      rewrite <- EM in Ek. change (w64 (ofN 0)) with 0%N in Ek. rewrite Ek. cbn [obind].
      destruct B as [Bl _]. rewrite Bl. rewrite (w64_small (ofN (cells size))) by lia.
      rewrite N.eqb_refl. reflexivity.
Qed.

(** Rejection. *)
Lemma slice_check_throw dims start size a b k d s z :
  length dims = length start -> length dims = length size ->
  nth_error dims k = Some d -> nth_error start k = Some s -> nth_error size k = Some z ->
  (s + z < M64)%N -> (d < s + z)%N ->
  slice_check dims start size a b = Throw.
Proof.
  revert start size a b k; induction dims as [|d0 ds IH]; intros [|s0 ss] [|z0 zs] a b k L1 L2 E1 E2 E3 H1 H2;
    try discriminate.
  - destruct k; discriminate.
  - cbn. destruct (d0 <? add64 s0 z0)%N eqn:C; auto.
    destruct k as [|k].
    + cbn in *. injection E1 as ->. injection E2 as ->. injection E3 as ->.
      rewrite add64_small in C by auto. apply N.ltb_ge in C. lia.
    + cbn in *. eapply (IH ss zs _ _ k); eauto.
Qed.

Lemma slice_throw_range {A} (data : list A) dims start size k d s z :
  length dims = length start -> length dims = length size ->
  nth_error dims k = Some d -> nth_error start k = Some s -> nth_error size k = Some z ->
  (s + z < M64)%N -> (d < s + z)%N ->
  slice data dims start size = Throw.
Proof.
  intros L1 L2 E1 E2 E3 H1 H2. unfold slice. destruct dims as [|d0 ds]; [destruct k; discriminate|].
  erewrite slice_check_throw by eauto. reflexivity.
Qed.

Lemma slice_throw_mismatch {A} (data : list A) dims start size :
  dims <> [] ->
  fits dims start size ->
  cells dims <> length data ->
  (ofN (length data) < M64)%N -> (ofN (cells dims) < M64)%N ->
  (forall k d, nth_error dims k = Some d -> (ofN d < M64)%N) ->
  slice data (map ofN dims) (map ofN start) (map ofN size) = Throw.
Proof.
  intros NE F E H1 H2 Hd. unfold slice.
  destruct (map ofN dims) as [|x xs] eqn:EM; [destruct dims; [congruence|discriminate]|].
  rewrite <- EM.
  pose proof (slice_check_ok dims start size 1 1 F Hd) as EC.
  change (w64 1) with 1%N in EC. rewrite EC. cbn [obind]. rewrite !N.mul_1_l.
  rewrite (w64_small (ofN (cells dims))) by auto.
  replace (ofN (cells dims) =? ofN (length data))%N with false; auto.
  symmetry. apply N.eqb_neq. lia.
Qed.

(** ** Block writes *)
(** Specification of a block write: [n] cells of [src] starting at [first] appear at [pos]. *)
Definition is_write {A} (this src : list A) (pos first n : nat) (res : list A) : Prop :=
  length res = length this /\
  forall i, nth_error res i =
    if (pos <=? i) && (i <? pos + n) then nth_error src (first + (i - pos)) else nth_error this i.

Lemma write_block_spec {A} (this src : list A) pos first n blk :
  blk = firstn n (skipn first src) ->
  first + n <= length src -> pos + n <= length this ->
  exists res, write_block this (ofN pos) blk = Ok res /\ is_write this src pos first n res.
Proof.
  intros -> H1 H2. unfold write_block.
  set (blk := firstn n (skipn first src)).
  assert (length blk = n) as L by (unfold blk; rewrite firstn_length, skipn_length; lia).
  rewrite L. replace (ofN pos + ofN n <=? ofN (length this))%N with true
    by (symmetry; apply N.leb_le; lia).
  eexists; split; [reflexivity|]. rewrite Nat2N.id. split.
  - rewrite !app_length, firstn_length, skipn_length, L. lia.
  - intro i.
    destruct (Nat.leb_spec pos i) as [C|C]; cbn [andb].
    + rewrite nth_error_app2 by (rewrite firstn_length; lia).
      rewrite firstn_length, Nat.min_l by lia.
      destruct (Nat.ltb_spec i (pos + n)).
      * rewrite nth_error_app1 by lia. unfold blk. rewrite nth_error_firstn, nth_error_skipn.
        destruct (Nat.ltb_spec (i - pos) n); [reflexivity|lia].
      * rewrite nth_error_app2 by lia. rewrite nth_error_skipn. f_equal. lia.
    + rewrite nth_error_app1 by (rewrite firstn_length; lia). rewrite nth_error_firstn.
      destruct (Nat.ltb_spec i pos); [reflexivity|lia].
Qed.

Lemma copy_data_ok {A} (this other : list A) startPos first (last : N) :
  startPos <= length this -> first <= length other ->
  (ofN (length this) + ofN (length other) < M64)%N ->
  exists res, copy_data this other (ofN startPos) (ofN first) last = Ok res /\
    is_write this other startPos first
      (Nat.min (length this - startPos) (N.to_nat (N.min last (ofN (length other))) - first)) res.
Proof.
  intros H1 H2 H3. unfold copy_data.
  replace (ofN (length other) <? ofN first)%N with false by (symmetry; apply N.ltb_ge; lia).
  rewrite sub64_small by lia. rewrite add64_small by lia.
  set (l1 := N.min last (ofN (length other))).
  set (l2 := N.min _ l1).
  destruct (N.ltb_spec (ofN first) l2) as [C|C].
  - replace (Nat.min _ _) with (N.to_nat (l2 - ofN first)) by lia.
    rewrite Nat2N.id. apply write_block_spec; auto; lia.
  - exists this. split; auto. split; auto. intro i.
    replace (Nat.min _ _) with 0 by lia.
    replace ((startPos <=? i) && (i <? startPos + 0)) with false; auto.
    symmetry. apply andb_false_iff. rewrite Nat.leb_gt, Nat.ltb_ge. lia.
Qed.

Lemma copy_data_throw {A} (this other : list A) startPos first last :
  (ofN (length other) < first)%N -> copy_data this other startPos first last = Throw.
Proof.
  intro H. unfold copy_data. apply N.ltb_lt in H. rewrite H. reflexivity.
Qed.

Lemma set_values_range_ok {A} (this src : list A) pos :
  pos + length src <= length this -> (ofN (length this) < M64)%N ->
  exists res, set_values_range this src (ofN pos) = Ok res /\
              is_write this src pos 0 (length src) res.
Proof.
  intros H1 H2. unfold set_values_range. rewrite add64_small by lia.
  replace (ofN (length this) <? ofN (length src) + ofN pos)%N with false by (symmetry; apply N.ltb_ge; lia).
  destruct src as [|x src].
  - exists this. split; auto. split; auto. intro i. cbn [length].
    replace ((pos <=? i) && (i <? pos + 0)) with false; auto.
    symmetry. apply andb_false_iff. rewrite Nat.leb_gt, Nat.ltb_ge. lia.
  - apply (write_block_spec this (x :: src) pos 0 (length (x :: src))); cbn in *; try lia.
    rewrite firstn_all. reflexivity.
Qed.

Lemma set_values_range_throw {A} (this src : list A) pos :
  (ofN (length this) < ofN (length src) + pos)%N -> (ofN (length src) + pos < M64)%N ->
  set_values_range this src pos = Throw.
Proof.
  intros H1 H2. unfold set_values_range. rewrite add64_small by lia.
  apply N.ltb_lt in H1. rewrite H1. reflexivity.
Qed.
