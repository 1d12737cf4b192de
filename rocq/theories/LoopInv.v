(** The loop of C35 for a group whose number of shared dimensions has been lowered afterwards
    (ArrayGroup::minimizeShared, src/ArrayLoop.cc:216-222): the same statements from the invariant of
    the group. *)
From Coq Require Import String List Arith ZArith Bool Lia.
From Coq Require Import ZifyBool ZifyNat.
From Verif Require Import Base IndexSpec LoopModel LoopProofs LoopProps.
Import ListNotations.
Local Open Scope string_scope.
Local Open Scope list_scope.
Local Open Scope nat_scope.

Section Lowered.
  Variables (arrays : list adims) (g : group).
  Hypothesis W : forall a, In a arrays -> wf a.
  Hypothesis Iv0 : inv g arrays.
  Hypothesis Some0 : exists n, g_shared g = Some n.

  Lemma low_array_of s a : nth_error arrays s = Some a -> exists m, nth_error (g_arrays g) s = Some (a, m) /\ In (a, m) (g_arrays g).
  Proof.
    intro H. assert (Iv := Iv0). destruct Iv as (_ & _ & Dn & _). rewrite <- Dn in H.
    rewrite nth_error_map in H. destruct (nth_error (g_arrays g) s) as [ [ b m ] | ] eqn:Es; cbn in H; [ | discriminate ].
    injection H as ->. exists m. split; [ reflexivity | now apply nth_error_In in Es ].
  Qed.

  (** the strides of an array in the group give the array's own linear position *)
  Lemma low_position_sum a m t : In (a, m) (g_arrays g) -> List.length t = List.length (g_lens g) ->
    lin (a_lens a) (sub (g_names g) t a) = sumof (fun i => nth i t 0 * delta (a, m) i) (seq 0 (List.length (g_lens g))).
  Proof.
    intros I Lt. assert (Iv := Iv0). destruct Iv as (D & Ll & Dn & Ar & _ & _).
    assert (Ia : In a arrays) by (rewrite <- Dn; apply (in_map fst _ _ I)). destruct (W a Ia) as (W1 & W2 & W3 & W4 & W5 & W6).
    destruct (Ar (a, m) I) as (M1 & M2 & M3). cbn [fst snd] in *.
    rewrite lin_sumof by (unfold sub; rewrite map_length, seq_length; reflexivity).
    set (iv := fun j => if nth j (a_shared a) false then index_of (nth j (a_names a) "") (g_names g) else None).
    rewrite (sumof_ext _ (fun i => match nth i m None with Some j => nth i t 0 * nth j (a_deltas a) 0 | None => 0 end) (seq 0 (List.length (g_lens g))))
      by (intros i _; unfold delta; cbn [fst snd]; destruct (nth i m None); [ reflexivity | lia ]).
    rewrite (sum_bijection (fun i => nth i m None) iv (fun i j => nth i t 0 * nth j (a_deltas a) 0) (List.length (g_lens g)) (rank a)).
    - apply sumof_ext. intros j Hj. apply in_seq in Hj. change (List.length (a_lens a)) with (rank a) in *. unfold sub, iv.
      rewrite nth_map_seq by lia.
      rewrite <- W5 by lia.
      destruct (nth j (a_shared a) false); [ | lia ]. destruct (index_of _ (g_names g)); lia.
    - intros i j Hi H. destruct (M2 i j H) as (X1 & X2 & X3 & X4 & X5). split; [ exact X2 | ]. unfold iv. rewrite X3, X4. now apply index_of_nth.
    - intros i j Hj H. unfold iv in H. destruct (nth j (a_shared a) false) eqn:Es; [ | discriminate ]. apply index_of_some in H. destruct H as (Hi & Hn).
      split; [ lia | ]. destruct (M3 j Hj Es) as (i' & Ei). destruct (M2 i' j Ei) as (X1 & X2 & X3 & X4 & X5).
      assert (i' = i); [ | congruence ]. apply (proj1 (NoDup_nth (g_names g) "") D); [ exact X1 | exact Hi | congruence ].
  Qed.

  Hypothesis NE : arrays <> [].

  Lemma low_shared_bound : shared_dims g <= List.length (g_lens g) /\ below (shared_dims g) (g_shared g) = (shared_dims g < shared_dims g) /\
    (forall d, d < shared_dims g -> below d (g_shared g)).
  Proof.
    destruct arrays as [ | a l ] eqn:Ea; [ congruence | ]. rewrite <- Ea in *. clear NE.
    destruct Some0 as (n & Hn). assert (Sd : shared_dims g = n) by (unfold shared_dims; now rewrite Hn).
    rewrite Sd, Hn. split; [ | split; [ reflexivity | auto ] ].
    destruct (Nat.le_gt_cases n (List.length (g_lens g))) as [ | G ]; [ assumption | exfalso ].
    assert (Iv := Iv0). destruct Iv as (D & Ll & Dn & Ar & Sh & _).
    destruct (low_array_of 0 a) as (m & _ & I); [ rewrite Ea; reflexivity | ].
    assert (Q := Sh (a, m) (List.length (g_lens g)) I). rewrite Hn in Q. specialize (Q G). cbn in Q.
    destruct (Ar (a, m) I) as (M1 & _). cbn in M1. rewrite nth_overflow in Q by lia. discriminate.
  Qed.
  Lemma low_sv_cells : shared_volume g = cells (firstn (shared_dims g) (g_lens g)).
  Proof. unfold shared_volume. induction (firstn (shared_dims g) (g_lens g)) as [ | x l IH ]; cbn; [ reflexivity | now rewrite IH ]. Qed.
  Lemma low_lens_split : g_lens g = firstn (shared_dims g) (g_lens g) ++ outer_lens g.
  Proof. unfold outer_lens. now rewrite firstn_skipn. Qed.
  Lemma low_volume_split : shared_volume g * cells (outer_lens g) = cells (g_lens g).
  Proof. rewrite low_sv_cells, <- cells_app. f_equal. symmetry. apply low_lens_split. Qed.
  Lemma low_lens_pos l : In l (g_lens g) -> l > 0.
  Proof.
    intro I. assert (Iv := Iv0). destruct Iv as (D & Ll & Dn & Ar & Sh & Fr).
    apply (In_nth _ _ 0) in I. destruct I as (i & Hi & <-). destruct (Fr i) as (b & k & Ib & Hk & _ & _ & Ek); [ lia | ].
    rewrite <- Ek. destruct (W b Ib) as (_ & _ & _ & _ & _ & W6). apply W6. now apply nth_In.
  Qed.

  (** in the shared dimensions all arrays have the same strides *)
  Lemma low_inner_delta am i : In am (g_arrays g) -> i < shared_dims g -> delta am i = cells (firstn i (g_lens g)).
  Proof.
    intros I Hi. destruct am as [ a m ]. assert (Iv := Iv0). destruct Iv as (D & Ll & Dn & Ar & Sh & Fr).
    assert (Q : forall d, d < shared_dims g -> nth d m None = Some d) by (intros d Hd; apply (Sh (a, m) d I); now apply low_shared_bound).
    unfold delta. cbn [fst snd]. rewrite Q by exact Hi.
    destruct (Ar (a, m) I) as (M1 & M2 & _). cbn in *.
    assert (Ia : In a arrays) by (rewrite <- Dn; apply (in_map fst _ _ I)). destruct (W a Ia) as (W1 & W2 & W3 & W4 & W5 & W6).
    assert (R : forall d, d < shared_dims g -> d < rank a /\ nth d (a_lens a) 0 = nth d (g_lens g) 0).
    { intros d Hd. destruct (M2 d d (Q d Hd)) as (X1 & X2 & X3 & X4 & X5). auto. }
    rewrite W5 by now apply R. f_equal. apply nth_error_ext. intro k. rewrite !nth_error_firstn. destruct (Nat.ltb_spec k i); [ | reflexivity ].
    destruct (R k ltac:(lia)) as (R1 & R2). assert (k < List.length (g_lens g)) by (assert (B := proj1 low_shared_bound); lia).
    rewrite (nth_error_nth' (a_lens a) 0) by (unfold rank in R1; exact R1). rewrite (nth_error_nth' (g_lens g) 0) by assumption. now rewrite R2.
  Qed.

  Lemma low_inner_sum am j : In am (g_arrays g) -> j < shared_volume g ->
    sumof (fun i => nth i (unlin (firstn (shared_dims g) (g_lens g)) j) 0 * delta am i) (seq 0 (shared_dims g)) = j.
  Proof.
    intros I Hj. rewrite low_sv_cells in Hj. assert (B := proj1 low_shared_bound).
    transitivity (lin (firstn (shared_dims g) (g_lens g)) (unlin (firstn (shared_dims g) (g_lens g)) j)); [ | now apply lin_unlin ].
    rewrite lin_sumof; [ | ].
    - rewrite firstn_length, Nat.min_l by exact B. apply sumof_ext. intros i Hi. apply in_seq in Hi. rewrite low_inner_delta by (auto; lia).
      rewrite firstn_firstn, Nat.min_l by lia. reflexivity.
    - assert (Q := unlin_inside _ _ Hj). unfold inside in Q. apply Forall2_length in Q. now symmetry.
  Qed.

  Lemma low_unlin_length dims k : List.length (unlin dims k) = List.length dims.
  Proof. revert k. induction dims; intro k; cbn; auto. Qed.

  Theorem lowered_loop fuel : cells (outer_lens g) <= fuel -> (forall l, In l (g_lens g) -> (Z.of_nat l <= 2 ^ 31)%Z) ->
    exists r, loop fuel g = Ok r /\ List.length r * shared_volume g = cells (g_lens g) /\
      (forall k, k < List.length r -> List.length (nth k r []) = List.length arrays) /\
      forall s a k, nth_error arrays s = Some a -> k < List.length r ->
        nth s (nth k r []) 0%Z = (Z.of_nat (lin (a_lens a) (sub (g_names g) (unlin (g_lens g) (k * shared_volume g)) a)) mod W64)%Z /\
        forall j, j < shared_volume g ->
          lin (a_lens a) (sub (g_names g) (unlin (g_lens g) (k * shared_volume g + j)) a) =
          lin (a_lens a) (sub (g_names g) (unlin (g_lens g) (k * shared_volume g)) a) + j.
  Proof.
    intros Hf Hl. assert (B := proj1 low_shared_bound).
    assert (Iv := Iv0). destruct Iv as (D & Ll & Dn & Ar & Sh & Fr).
    assert (Lo : List.length (outer_lens g) = List.length (g_lens g) - shared_dims g) by (unfold outer_lens; apply skipn_length).
    assert (Ho : forall l, In l (outer_lens g) -> l > 0 /\ (Z.of_nat l <= 2 ^ 31)%Z).
    { intros l I. assert (In l (g_lens g)) by (rewrite low_lens_split; apply in_app_iff; now right). split; [ now apply low_lens_pos | now apply Hl ]. }
    destruct (turns_spec (outer_lens g) (outer_deltas g) (List.length (g_arrays g))) with (m := cells (outer_lens g)) (k := 0)
      (idx := map (fun _ : adims * list (option nat) => 0%Z) (g_arrays g)) (fuel := fuel) as (r & Er & Lr & Vr).
    { unfold outer_deltas. rewrite map_length, seq_length. now symmetry. }
    { intros d Hd. unfold outer_deltas in Hd. apply in_map_iff in Hd. destruct Hd as (i & <- & _). apply map_length. }
    { exact Ho. }
    { lia. }
    { apply cells_pos. intros l I. now apply Ho. }
    { exact Hf. }
    { apply map_length. }
    { intros s Hs. rewrite zeros_unlin, dot_zero. cbn.
clear. revert s. induction (g_arrays g) as [ | x l IH ]; intros [ | s ]; cbn; auto. }
    exists r. unfold loop. rewrite <- (zeros_unlin (outer_lens g)). split; [ exact Er | ]. split; [ rewrite Lr, Nat.mul_comm; apply low_volume_split | ].
    rewrite Lr. split; [ intros k Hk; destruct (Vr k Hk) as (V & _); rewrite V, <- Dn; symmetry; apply map_length | ].
    intros s a k Hs Hk. destruct (low_array_of s a Hs) as (m & Em & I).
    assert (Sp : forall j, j < shared_volume g ->
      lin (a_lens a) (sub (g_names g) (unlin (g_lens g) (k * shared_volume g + j)) a) = j + dot (unlin (outer_lens g) k) (col (outer_deltas g) s)).
    { intros j Hj. rewrite (low_position_sum a m) by (auto; apply low_unlin_length).
      assert (U : unlin (g_lens g) (k * shared_volume g + j) = unlin (firstn (shared_dims g) (g_lens g)) j ++ unlin (outer_lens g) k).
      { rewrite low_lens_split at 1. replace (k * shared_volume g + j) with (j + cells (firstn (shared_dims g) (g_lens g)) * k) by (rewrite low_sv_cells; lia).
        apply unlin_app. now rewrite <- low_sv_cells. }
      rewrite U. replace (List.length (g_lens g)) with (shared_dims g + (List.length (g_lens g) - shared_dims g)) by lia.
      rewrite seq_app, sumof_app. cbn [Nat.add]. f_equal.
      - etransitivity; [ | exact (low_inner_sum (a, m) j I Hj) ]. apply sumof_ext. intros i Hi. apply in_seq in Hi.
        rewrite app_nth1; [ reflexivity | ]. rewrite low_unlin_length, firstn_length. lia.
      - assert (Lc : List.length (col (outer_deltas g) s) = List.length (g_lens g) - shared_dims g) by (unfold col, outer_deltas; now rewrite !map_length, seq_length).
        rewrite dot_sumof by (rewrite low_unlin_length, Lo; now symmetry). rewrite Lc.
        replace (seq (shared_dims g) (List.length (g_lens g) - shared_dims g)) with (map (fun i => shared_dims g + i) (seq 0 (List.length (g_lens g) - shared_dims g))).
        + rewrite sumof_map. apply sumof_ext. intros i Hi. apply in_seq in Hi.
          rewrite app_nth2 by (rewrite low_unlin_length, firstn_length; lia). rewrite low_unlin_length, firstn_length, Nat.min_l by exact B.
          replace (shared_dims g + i - shared_dims g) with i by lia. f_equal.
          unfold col, outer_deltas. rewrite map_map.
          set (F := fun x : nat => nth s (map (fun am => delta am x) (g_arrays g)) 0).
          rewrite (nth_indep _ 0 (F 0)) by (rewrite map_length, seq_length; lia). rewrite map_nth, seq_nth by lia. unfold F.
          symmetry. apply nth_error_nth. now rewrite nth_error_map, Em.
        + clear. generalize (List.length (g_lens g) - shared_dims g) as n. generalize (shared_dims g) as b. intros b n. revert b.
          induction n as [ | n IH ]; intro b; [ reflexivity | ]. cbn [seq map]. f_equal; [ lia | ]. rewrite <- (IH (S b)), <- seq_shift, map_map. apply map_ext. intro; lia. }
    assert (V0 := low_volume_split). assert (Sv : shared_volume g > 0).
    { rewrite low_sv_cells. apply cells_pos. intros l Il. apply low_lens_pos. rewrite low_lens_split. apply in_app_iff. now left. }
    split.
    - destruct (Vr k Hk) as (_ & V). rewrite V by (apply nth_error_Some; rewrite Em; discriminate). cbn [Nat.add].
      rewrite <- (Nat.add_0_r (k * shared_volume g)), Sp by exact Sv. reflexivity.
    - intros j Hj. rewrite Sp by exact Hj. rewrite <- (Nat.add_0_r (k * shared_volume g)), Sp by exact Sv. lia.
  Qed.
End Lowered.
