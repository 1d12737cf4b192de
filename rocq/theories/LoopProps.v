(** C35: loops over groups of arrays. *)
From Coq Require Import String List Arith ZArith Bool Lia.
From Coq Require Import ZifyBool ZifyNat.
From Verif Require Import Base IndexSpec LoopModel LoopProofs.
Import ListNotations.
Local Open Scope string_scope.
Local Open Scope list_scope.
Local Open Scope nat_scope.

(** ** building shapes *)
Lemma strides_spec rest : forall d prev r, strides d prev rest = Ok r ->
  List.length r = List.length rest /\ (forall j, j < List.length rest -> nth j r 0 = d * cells (firstn (S j) (prev :: rest))) /\
  (forall l, In l (removelast (prev :: rest)) -> l > 0).
Proof.
  induction rest as [ | l rest IH ]; intros d prev r E; cbn [strides] in E.
  - injection E as <-. split; [ reflexivity | ]. split; [ cbn; lia | intros l [] ].
  - destruct (Nat.eqb_spec prev 0) as [ | Np ]; [ discriminate | ].
    destruct (strides (d * prev) l rest) as [ r' | | | ] eqn:E'; cbn [obind] in E; try discriminate. injection E as <-.
    destruct (IH _ _ _ E') as (A & B & C). split; [ cbn; lia | ]. split.
    + intros [ | j ] Hj.
      * cbn. lia.
      * cbn [nth]. rewrite B by (cbn in Hj; lia). cbn [firstn cells]. lia.
    + intros x Hx. change (removelast (prev :: l :: rest)) with (prev :: removelast (l :: rest)) in Hx.
      destruct Hx as [ <- | Hx ]; [ lia | now apply C ].
Qed.

(** a shape built from names and non-zero lengths is well-formed: the stride of every dimension is the
    product of the lengths before it *)
Theorem C35_make_dims names lens a : NoDup names -> (forall l, In l lens -> l > 0) -> make_dims names lens = Ok a ->
  wf a /\ a_names a = names /\ a_lens a = lens.
Proof.
  intros Nd Hl E. unfold make_dims in E. destruct (Nat.eqb_spec (List.length names) (List.length lens)) as [ L | ]; cbn [negb] in E; [ | discriminate ].
  destruct lens as [ | l rest ].
  - injection E as <-. unfold wf, rank. cbn. repeat split; auto; try lia.
  - destruct (l =? 0); [ discriminate | ]. destruct (strides 1 l rest) as [ ds | | | ] eqn:Es; cbn [obind] in E; try discriminate. injection E as <-.
    destruct (strides_spec _ _ _ _ Es) as (A & B & _). unfold wf, rank. cbn [a_names a_lens a_deltas a_shared].
    split; [ | auto ]. split; [ exact L | ]. split; [ cbn; now rewrite map_length | ]. split; [ cbn; lia | ]. split; [ exact Nd | ]. split; [ | exact Hl ].
    intros [ | j ] Hj; [ reflexivity | ]. cbn [nth]. rewrite B by (cbn in Hj; lia). lia.
Qed.
(** adding dimensions one by one *)
Theorem C35_add_dim a n len a' : wf a -> ~ In n (a_names a) -> add_dim a n len = Ok a' -> wf a' /\ a_names a' = a_names a ++ [n] /\ a_lens a' = a_lens a ++ [len].
Proof.
  intros (W1 & W2 & W3 & W4 & W5 & W6) Hn E. unfold add_dim in E. destruct (Nat.eqb_spec len 0) as [ | Nl ]; [ discriminate | ]. injection E as <-.
  unfold wf, rank in *. cbn [a_names a_lens a_deltas a_shared]. split; [ | auto ].
  rewrite !app_length. cbn [List.length]. split; [ lia | ]. split; [ lia | ]. split; [ lia | ]. split; [ now apply NoDup_snoc | ]. split.
  - intros j Hj. destruct (Nat.lt_ge_cases j (List.length (a_lens a))) as [ L | L ].
    + rewrite app_nth1 by lia. rewrite W5 by exact L. rewrite firstn_app. replace (j - List.length (a_lens a)) with 0 by lia. cbn. now rewrite app_nil_r.
    + assert (j = List.length (a_lens a)) by lia. subst j. rewrite app_nth2 by lia. rewrite W3, Nat.sub_diag. cbn [nth].
      rewrite firstn_app, firstn_all, Nat.sub_diag. cbn [firstn]. rewrite app_nil_r.
      destruct (a_lens a) as [ | x l ] eqn:El using rev_ind; [ reflexivity | ]. clear IHl.
      destruct (l ++ [x]) eqn:Q; [ destruct l; discriminate | ]. rewrite <- Q in *. clear Q.
      rewrite last_last. rewrite app_length in *. cbn in *.
      assert (Ld : last (a_deltas a) 0 = nth (List.length l) (a_deltas a) 0).
      { destruct (a_deltas a) as [ | y ys _ ] using rev_ind; [ cbn in W3; lia | ]. rewrite last_last. rewrite app_length in W3. cbn in W3.
        rewrite app_nth2 by lia. replace (List.length l - List.length ys) with 0 by lia. reflexivity. }
      rewrite Ld, W5 by lia. rewrite firstn_app, firstn_all, Nat.sub_diag. cbn. rewrite app_nil_r, cells_app. cbn. lia.
  - intros l I. apply in_app_iff in I. destruct I as [ I | [ <- | [] ] ]; [ auto | lia ].
Qed.
(** the last dimension may be changed afterwards *)
Theorem C35_set_length_last a n len a' : wf a -> index_of n (a_names a) = Some (rank a - 1) -> set_length a n len = Ok a' -> wf a'.
Proof.
  intros (W1 & W2 & W3 & W4 & W5 & W6) Hi E. unfold set_length in E. rewrite Hi in E. destruct (Nat.eqb_spec len 0) as [ | Nl ]; [ discriminate | ]. injection E as <-.
  unfold wf, rank in *. cbn [a_names a_lens a_deltas a_shared]. rewrite length_upd. repeat split; auto.
  - intros j Hj. rewrite W5 by exact Hj. f_equal. apply nth_error_ext. intro i. rewrite !nth_error_firstn. destruct (Nat.ltb_spec i j); [ | reflexivity ].
    symmetry. apply nth_error_upd_other. lia.
  - intros l I. apply In_nth_error in I. destruct I as (i & I). rewrite nth_error_upd in I.
    destruct (_ && _); [ injection I as <-; lia | ]. apply nth_error_In in I. auto.
Qed.
Theorem C35_set_not_shared a n : wf a -> wf (set_not_shared a n).
Proof.
  intros (W1 & W2 & W3 & W4 & W5 & W6). unfold set_not_shared. destruct (index_of n (a_names a)); unfold wf, rank in *; cbn; rewrite ?length_upd; repeat split; auto.
Qed.

(** ** the position of a tuple of the group in an array: the dimensions that the array shares with the
    group take the tuple's values, the others are 0 *)
Definition sub (names : list string) (t : list nat) (a : adims) : list nat :=
  map (fun j => if nth j (a_shared a) false then match index_of (nth j (a_names a) "") names with Some i => nth i t 0 | None => 0 end else 0)
      (seq 0 (rank a)).

Lemma nth_map_seq {A} (f : nat -> A) n j d : j < n -> nth j (map f (seq 0 n)) d = f j.
Proof.
  intro H. rewrite (nth_indep _ d (f 0)) by (rewrite map_length, seq_length; lia). rewrite map_nth, seq_nth by lia. reflexivity.
Qed.

Section Group.
  Variables (arrays : list adims) (g : group).
  Hypothesis W : forall a, In a arrays -> wf a.
  Hypothesis E : make_group arrays = Ok g.

  Lemma array_of s a : nth_error arrays s = Some a -> exists m, nth_error (g_arrays g) s = Some (a, m) /\ In (a, m) (g_arrays g).
  Proof.
    intro H. assert (Iv := make_group_inv arrays W g E). destruct Iv as (_ & _ & Dn & _). rewrite <- Dn in H.
    rewrite nth_error_map in H. destruct (nth_error (g_arrays g) s) as [ [ b m ] | ] eqn:Es; cbn in H; [ | discriminate ].
    injection H as ->. exists m. split; [ reflexivity | now apply nth_error_In in Es ].
  Qed.

  (** the strides of an array in the group give the array's own linear position *)
  Lemma position_sum a m t : In (a, m) (g_arrays g) -> List.length t = List.length (g_lens g) ->
    lin (a_lens a) (sub (g_names g) t a) = sumof (fun i => nth i t 0 * delta (a, m) i) (seq 0 (List.length (g_lens g))).
  Proof.
    intros I Lt. assert (Iv := make_group_inv arrays W g E). destruct Iv as (D & Ll & Dn & Ar & _ & _).
    assert (Ia : In a arrays) by (rewrite <- Dn; apply (in_map fst _ _ I)). destruct (W a Ia) as (W1 & W2 & W3 & W4 & W5 & W6).
    destruct (Ar (a, m) I) as (M1 & M2 & M3). cbn [fst snd] in *.
    rewrite lin_sumof by (unfold sub; rewrite map_length, seq_length; reflexivity).
    set (iv := fun j => if nth j (a_shared a) false then index_of (nth j (a_names a) "") (g_names g) else None).
    rewrite (sumof_ext _ (fun i => match nth i m None with Some j => nth i t 0 * nth j (a_deltas a) 0 | None => 0 end) (seq 0 (List.length (g_lens g))))
      by (intros i _; unfold delta; cbn [fst snd]; destruct (nth i m None); [ reflexivity | lia ]).
    rewrite (sum_bijection (fun i => nth i m None) iv (fun i j => nth i t 0 * nth j (a_deltas a) 0) (List.length (g_lens g)) (rank a)).
    - apply sumof_ext. intros j Hj. apply in_seq in Hj. change (List.length (a_lens a)) with (rank a) in *. unfold sub, iv.
      rewrite nth_map_seq by lia.
      rewrite <- W5 by lia.
      destruct (nth j (a_shared a) false); [ | lia ]. destruct (index_of _ (g_names g)); lia.
    - intros i j Hi H. destruct (M2 i j H) as (X1 & X2 & X3 & X4 & X5). split; [ exact X2 | ]. unfold iv. rewrite X3, X4. now apply index_of_nth.
    - intros i j Hj H. unfold iv in H. destruct (nth j (a_shared a) false) eqn:Es; [ | discriminate ]. apply index_of_some in H. destruct H as (Hi & Hn).
      split; [ lia | ]. destruct (M3 j Hj Es) as (i' & Ei). destruct (M2 i' j Ei) as (X1 & X2 & X3 & X4 & X5).
      assert (i' = i); [ | congruence ]. apply (proj1 (NoDup_nth (g_names g) "") D); [ exact X1 | exact Hi | congruence ].
  Qed.

  Hypothesis NE : arrays <> [].

  Lemma shared_bound : shared_dims g <= List.length (g_lens g) /\ below (shared_dims g) (g_shared g) = (shared_dims g < shared_dims g) /\
    (forall d, d < shared_dims g -> below d (g_shared g)).
  Proof.
    destruct arrays as [ | a l ] eqn:Ea; [ congruence | ]. rewrite <- Ea in *. clear NE.
    assert (E' := E). rewrite Ea in E'. destruct (shared_some l a g E') as (n & Hn). assert (Sd : shared_dims g = n) by (unfold shared_dims; now rewrite Hn).
    rewrite Sd, Hn. split; [ | split; [ reflexivity | auto ] ].
    destruct (Nat.le_gt_cases n (List.length (g_lens g))) as [ | G ]; [ assumption | exfalso ].
    assert (Iv := make_group_inv arrays W g E). destruct Iv as (D & Ll & Dn & Ar & Sh & _).
    destruct (array_of 0 a) as (m & _ & I); [ rewrite Ea; reflexivity | ].
    assert (Q := Sh (a, m) (List.length (g_lens g)) I). rewrite Hn in Q. specialize (Q G). cbn in Q.
    destruct (Ar (a, m) I) as (M1 & _). cbn in M1. rewrite nth_overflow in Q by lia. discriminate.
  Qed.
  Lemma sv_cells : shared_volume g = cells (firstn (shared_dims g) (g_lens g)).
  Proof. unfold shared_volume. induction (firstn (shared_dims g) (g_lens g)) as [ | x l IH ]; cbn; [ reflexivity | now rewrite IH ]. Qed.
  Lemma lens_split : g_lens g = firstn (shared_dims g) (g_lens g) ++ outer_lens g.
  Proof. unfold outer_lens. now rewrite firstn_skipn. Qed.
  Lemma volume_split : shared_volume g * cells (outer_lens g) = cells (g_lens g).
  Proof. rewrite sv_cells, <- cells_app. f_equal. symmetry. apply lens_split. Qed.
  Lemma lens_pos l : In l (g_lens g) -> l > 0.
  Proof.
    intro I. assert (Iv := make_group_inv arrays W g E). destruct Iv as (D & Ll & Dn & Ar & Sh & Fr).
    apply (In_nth _ _ 0) in I. destruct I as (i & Hi & <-). destruct (Fr i) as (b & k & Ib & Hk & _ & _ & Ek); [ lia | ].
    rewrite <- Ek. destruct (W b Ib) as (_ & _ & _ & _ & _ & W6). apply W6. now apply nth_In.
  Qed.

  (** in the shared dimensions all arrays have the same strides *)
  Lemma inner_delta am i : In am (g_arrays g) -> i < shared_dims g -> delta am i = cells (firstn i (g_lens g)).
  Proof.
    intros I Hi. destruct am as [ a m ]. assert (Iv := make_group_inv arrays W g E). destruct Iv as (D & Ll & Dn & Ar & Sh & Fr).
    assert (Q : forall d, d < shared_dims g -> nth d m None = Some d) by (intros d Hd; apply (Sh (a, m) d I); now apply shared_bound).
    unfold delta. cbn [fst snd]. rewrite Q by exact Hi.
    destruct (Ar (a, m) I) as (M1 & M2 & _). cbn in *.
    assert (Ia : In a arrays) by (rewrite <- Dn; apply (in_map fst _ _ I)). destruct (W a Ia) as (W1 & W2 & W3 & W4 & W5 & W6).
    assert (R : forall d, d < shared_dims g -> d < rank a /\ nth d (a_lens a) 0 = nth d (g_lens g) 0).
    { intros d Hd. destruct (M2 d d (Q d Hd)) as (X1 & X2 & X3 & X4 & X5). auto. }
    rewrite W5 by now apply R. f_equal. apply nth_error_ext. intro k. rewrite !nth_error_firstn. destruct (Nat.ltb_spec k i); [ | reflexivity ].
    destruct (R k ltac:(lia)) as (R1 & R2). assert (k < List.length (g_lens g)) by (assert (B := proj1 shared_bound); lia).
    rewrite (nth_error_nth' (a_lens a) 0) by (unfold rank in R1; exact R1). rewrite (nth_error_nth' (g_lens g) 0) by assumption. now rewrite R2.
  Qed.

  Lemma inner_sum am j : In am (g_arrays g) -> j < shared_volume g ->
    sumof (fun i => nth i (unlin (firstn (shared_dims g) (g_lens g)) j) 0 * delta am i) (seq 0 (shared_dims g)) = j.
  Proof.
    intros I Hj. rewrite sv_cells in Hj. assert (B := proj1 shared_bound).
    transitivity (lin (firstn (shared_dims g) (g_lens g)) (unlin (firstn (shared_dims g) (g_lens g)) j)); [ | now apply lin_unlin ].
    rewrite lin_sumof; [ | ].
    - rewrite firstn_length, Nat.min_l by exact B. apply sumof_ext. intros i Hi. apply in_seq in Hi. rewrite inner_delta by (auto; lia).
      rewrite firstn_firstn, Nat.min_l by lia. reflexivity.
    - assert (Q := unlin_inside _ _ Hj). unfold inside in Q. apply Forall2_length in Q. now symmetry.
  Qed.

  Lemma unlin_length dims k : List.length (unlin dims k) = List.length dims.
  Proof. revert k. induction dims; intro k; cbn; auto. Qed.

  Theorem C35_loop fuel : cells (outer_lens g) <= fuel -> (forall l, In l (g_lens g) -> (Z.of_nat l <= 2 ^ 31)%Z) ->
    exists r, loop fuel g = Ok r /\ List.length r * shared_volume g = cells (g_lens g) /\
      forall s a k, nth_error arrays s = Some a -> k < List.length r ->
        nth s (nth k r []) 0%Z = (Z.of_nat (lin (a_lens a) (sub (g_names g) (unlin (g_lens g) (k * shared_volume g)) a)) mod W64)%Z /\
        forall j, j < shared_volume g ->
          lin (a_lens a) (sub (g_names g) (unlin (g_lens g) (k * shared_volume g + j)) a) =
          lin (a_lens a) (sub (g_names g) (unlin (g_lens g) (k * shared_volume g)) a) + j.
  Proof.
    intros Hf Hl. assert (B := proj1 shared_bound).
    assert (Iv := make_group_inv arrays W g E). destruct Iv as (D & Ll & Dn & Ar & Sh & Fr).
    assert (Lo : List.length (outer_lens g) = List.length (g_lens g) - shared_dims g) by (unfold outer_lens; apply skipn_length).
    assert (Ho : forall l, In l (outer_lens g) -> l > 0 /\ (Z.of_nat l <= 2 ^ 31)%Z).
    { intros l I. assert (In l (g_lens g)) by (rewrite lens_split; apply in_app_iff; now right). split; [ now apply lens_pos | now apply Hl ]. }
    destruct (turns_spec (outer_lens g) (outer_deltas g) (List.length (g_arrays g))) with (m := cells (outer_lens g)) (k := 0)
      (idx := map (fun _ : adims * list (option nat) => 0%Z) (g_arrays g)) (fuel := fuel) as (r & Er & Lr & Vr).
    { unfold outer_deltas. rewrite map_length, seq_length. now symmetry. }
    { intros d Hd. unfold outer_deltas in Hd. apply in_map_iff in Hd. destruct Hd as (i & <- & _). apply map_length. }
    { exact Ho. }
    { lia. }
    { apply cells_pos. intros l I. now apply Ho. }
    { exact Hf. }
    { apply map_length. }
    { intros s Hs. rewrite zeros_unlin, dot_zero. cbn.
clear. revert s. induction (g_arrays g) as [ | x l IH ]; intros [ | s ]; cbn; auto. }
    exists r. unfold loop. rewrite <- (zeros_unlin (outer_lens g)). split; [ exact Er | ]. split; [ rewrite Lr, Nat.mul_comm; apply volume_split | ].
    rewrite Lr. intros s a k Hs Hk. destruct (array_of s a Hs) as (m & Em & I).
    assert (Sp : forall j, j < shared_volume g ->
      lin (a_lens a) (sub (g_names g) (unlin (g_lens g) (k * shared_volume g + j)) a) = j + dot (unlin (outer_lens g) k) (col (outer_deltas g) s)).
    { intros j Hj. rewrite (position_sum a m) by (auto; apply unlin_length).
      assert (U : unlin (g_lens g) (k * shared_volume g + j) = unlin (firstn (shared_dims g) (g_lens g)) j ++ unlin (outer_lens g) k).
      { rewrite lens_split at 1. replace (k * shared_volume g + j) with (j + cells (firstn (shared_dims g) (g_lens g)) * k) by (rewrite sv_cells; lia).
        apply unlin_app. now rewrite <- sv_cells. }
      rewrite U. replace (List.length (g_lens g)) with (shared_dims g + (List.length (g_lens g) - shared_dims g)) by lia.
      rewrite seq_app, sumof_app. cbn [Nat.add]. f_equal.
      - etransitivity; [ | exact (inner_sum (a, m) j I Hj) ]. apply sumof_ext. intros i Hi. apply in_seq in Hi.
        rewrite app_nth1; [ reflexivity | ]. rewrite unlin_length, firstn_length. lia.
      - assert (Lc : List.length (col (outer_deltas g) s) = List.length (g_lens g) - shared_dims g) by (unfold col, outer_deltas; now rewrite !map_length, seq_length).
        rewrite dot_sumof by (rewrite unlin_length, Lo; now symmetry). rewrite Lc.
        replace (seq (shared_dims g) (List.length (g_lens g) - shared_dims g)) with (map (fun i => shared_dims g + i) (seq 0 (List.length (g_lens g) - shared_dims g))).
        + rewrite sumof_map. apply sumof_ext. intros i Hi. apply in_seq in Hi.
          rewrite app_nth2 by (rewrite unlin_length, firstn_length; lia). rewrite unlin_length, firstn_length, Nat.min_l by exact B.
          replace (shared_dims g + i - shared_dims g) with i by lia. f_equal.
          unfold col, outer_deltas. rewrite map_map.
          set (F := fun x : nat => nth s (map (fun am => delta am x) (g_arrays g)) 0).
          rewrite (nth_indep _ 0 (F 0)) by (rewrite map_length, seq_length; lia). rewrite map_nth, seq_nth by lia. unfold F.
          symmetry. apply nth_error_nth. now rewrite nth_error_map, Em.
        + clear. generalize (List.length (g_lens g) - shared_dims g) as n. generalize (shared_dims g) as b. intros b n. revert b.
          induction n as [ | n IH ]; intro b; [ reflexivity | ]. cbn [seq map]. f_equal; [ lia | ]. rewrite <- (IH (S b)), <- seq_shift, map_map. apply map_ext. intro; lia. }
    assert (V0 := volume_split). assert (Sv : shared_volume g > 0).
    { rewrite sv_cells. apply cells_pos. intros l Il. apply lens_pos. rewrite lens_split. apply in_app_iff. now left. }
    split.
    - destruct (Vr k Hk) as (_ & V). rewrite V by (apply nth_error_Some; rewrite Em; discriminate). cbn [Nat.add].
      rewrite <- (Nat.add_0_r (k * shared_volume g)), Sp by exact Sv. reflexivity.
    - intros j Hj. rewrite Sp by exact Hj. rewrite <- (Nat.add_0_r (k * shared_volume g)), Sp by exact Sv. lia.
  Qed.
End Group.

(** every tuple of the group is visited exactly once, in storage order: turn [k], element [j] is tuple
    number k * sharedVolume + j *)
Theorem C35_tuples g m : m < cells (g_lens g) -> shared_volume g > 0 ->
  exists k j, m = k * shared_volume g + j /\ j < shared_volume g /\
    (forall k' j', m = k' * shared_volume g + j' -> j' < shared_volume g -> k' = k /\ j' = j) /\
    nth_error (positions (g_lens g)) m = Some (unlin (g_lens g) m).
Proof.
  intros Hm Hs. exists (m / shared_volume g), (m mod shared_volume g).
  assert (D := Nat.div_mod m (shared_volume g) ltac:(lia)). assert (R := Nat.mod_upper_bound m (shared_volume g) ltac:(lia)).
  split; [ lia | ]. split; [ exact R | ]. split.
  - intros k' j' Eq Hj. split.
    + apply (Nat.div_unique m (shared_volume g) k' j'); lia.
    + apply (Nat.mod_unique m (shared_volume g) k' j'); lia.
  - rewrite positions_nth. apply Nat.ltb_lt in Hm. now rewrite Hm.
Qed.

(** ** which groups are accepted *)
Definition consistent (l : list adims) : Prop := forall a b j k, In a l -> In b l -> j < rank a -> k < rank b ->
  nth j (a_shared a) false = true -> nth k (a_shared b) false = true -> nth j (a_names a) "" = nth k (a_names b) "" ->
  nth j (a_lens a) 0 = nth k (a_lens b) 0.

Theorem C35_accepted arrays : (forall a, In a arrays -> wf a) -> ((exists g, make_group arrays = Ok g) <-> consistent arrays) /\
  (~ consistent arrays -> make_group arrays = Throw).
Proof.
  intro W.
  assert (Cn : forall g, make_group arrays = Ok g -> consistent arrays).
  { intros g E a b j k Ia Ib Hj Hk Sj Sk En. assert (Iv := make_group_inv arrays W g E). destruct Iv as (D & Ll & Dn & Ar & _).
    apply In_nth_error in Ia. destruct Ia as (sa & Ia). apply In_nth_error in Ib. destruct Ib as (sb & Ib).
    destruct (array_of arrays g W E sa a Ia) as (ma & _ & Ja). destruct (array_of arrays g W E sb b Ib) as (mb & _ & Jb).
    destruct (Ar _ Ja) as (_ & A2 & A3). destruct (Ar _ Jb) as (_ & B2 & B3). cbn in *.
    destruct (A3 j Hj Sj) as (i & Ei). destruct (B3 k Hk Sk) as (i' & Ei').
    destruct (A2 _ _ Ei) as (X1 & X2 & X3 & X4 & X5). destruct (B2 _ _ Ei') as (Y1 & Y2 & Y3 & Y4 & Y5).
    assert (i = i') by (apply (proj1 (NoDup_nth (g_names g) "") D); [ exact X1 | exact Y1 | congruence ]). subst i'. congruence. }
  (* the outcome is Ok or Throw, and Ok if consistent *)
  assert (St : forall a done st j, wf a -> j < rank a -> step_inv a done st j ->
    exists o, add_one a st j = o /\ ((exists st', o = Ok st') \/ (o = Throw /\ ~ consistent (done ++ [a])))).
  { intros a done [ g m ] j (W1 & W2 & W3 & W4 & W5 & W6) Hj (D & Ll & Dn & Ar & Sh & Mo & Id & Ln & Fr). eexists. split; [ reflexivity | ]. unfold add_one.
    unfold rank in *.
    destruct (nth_error (a_shared a) j) as [ sh | ] eqn:Es; [ | apply nth_error_None in Es; lia ]. cbn [rd obind]. destruct sh; cbn [negb]; [ | left; eauto ].
    destruct (nth_error (a_lens a) j) as [ len | ] eqn:El; [ | apply nth_error_None in El; lia ]. cbn [rd obind].
    destruct (nth_error (a_names a) j) as [ name | ] eqn:En; [ | apply nth_error_None in En; lia ]. cbn [rd obind].
    destruct (index_of name (g_names g)) as [ i | ] eqn:Ei; [ | left; eauto ]. apply index_of_some in Ei. destruct Ei as (Hi & Hn).
    destruct (nth_error (g_lens g) i) as [ gl | ] eqn:Eg; [ | apply nth_error_None in Eg; lia ]. cbn [rd obind].
    destruct (Nat.eqb_spec len gl) as [ | Ne ]; cbn [negb]; [ left; eauto | right ]. split; [ reflexivity | ]. intro C. apply Ne.
    destruct (Fr i Hi) as (b & k & Ib & Hk & Sb & Nb & Lb).
    assert (Es' := nth_error_nth _ _ false Es). assert (El' := nth_error_nth _ _ 0 El). assert (En' := nth_error_nth _ _ "" En). assert (Eg' := nth_error_nth _ _ 0 Eg).
    rewrite <- El', <- Eg', <- Lb. apply (C a b j k); auto; [ apply in_app_iff; right; now left | congruence ]. }
  assert (Lp : forall a done, wf a -> forall n j st, j + n = rank a -> step_inv a done st j ->
    (exists st', ofold (add_one a) (seq j n) st = Ok st') \/ (ofold (add_one a) (seq j n) st = Throw /\ ~ consistent (done ++ [a]))).
  { intros a done Wa. induction n as [ | n IH ]; intros j st Hn S; cbn; [ left; eauto | ].
    destruct (St a done st j Wa ltac:(lia) S) as (o & Eo & [ (st' & ->) | (-> & C) ]); rewrite Eo; cbn [obind]; [ | right; auto ].
    apply IH; [ lia | ]. apply (add_one_inv a done st j st'); auto. lia. }
  assert (Gr : forall l done g0, (forall a, In a l -> wf a) -> inv g0 done -> (done = [] -> g_names g0 = []) ->
    (exists g, ofold add_array l g0 = Ok g) \/ (ofold add_array l g0 = Throw /\ ~ consistent (done ++ l))).
  { induction l as [ | a l IH ]; intros done g0 Wl Iv E0; cbn; [ left; eauto | ].
    assert (S0 : step_inv a done (g0, repeat None (List.length (g_lens g0))) 0).
    { destruct Iv as (D & Ll & Dn & Ar & Sh & Nm). unfold step_inv. split; [ exact D | ]. split; [ exact Ll | ]. split; [ exact Dn | ]. split; [ exact Ar | ]. split; [ exact Sh | ]. split.
      - split; [ rewrite repeat_length; exact Ll | ]. split; [ | lia ]. intros i j H. exfalso.
        destruct (Nat.lt_ge_cases i (List.length (g_lens g0))) as [ L | L ]; [ | rewrite nth_overflow in H by (rewrite repeat_length; exact L); discriminate ].
        rewrite nth_repeat in H. discriminate.
      - split; [ lia | ]. split; [ intro Q; rewrite (E0 Q); cbn; lia | ].
        intros i Hi. destruct (Nm i Hi) as (b & k & I & X). exists b, k. split; [ apply in_app_iff; now left | exact X ]. }
    assert (Wa : wf a) by (apply Wl; now left).
    destruct (Lp a done Wa (rank a) 0 _ eq_refl S0) as [ (st' & Es) | (Es & C) ].
    - assert (Ea : exists g1, add_array g0 a = Ok g1) by (unfold add_array; rewrite Es; destruct st'; cbn; eauto). destruct Ea as (g1 & Ea). rewrite Ea. cbn [obind].
      change (a :: l) with ([a] ++ l). rewrite app_assoc. apply IH; [ intros; apply Wl; now right | apply (add_array_inv g0 done a g1); auto | intro Q; destruct done; discriminate ].
    - assert (Ea : add_array g0 a = Throw) by (unfold add_array; rewrite Es; reflexivity). rewrite Ea. cbn [obind]. right. split; [ reflexivity | ].
      intro C'. apply C. intros x y j k Ix Iy. apply C'; apply in_app_iff; apply in_app_iff in Ix; apply in_app_iff in Iy; cbn in *; tauto. }
  assert (R : (exists g, make_group arrays = Ok g) \/ (make_group arrays = Throw /\ ~ consistent arrays)).
  { apply (Gr arrays [] empty_group W); [ | auto ].
    unfold inv, empty_group. cbn. split; [ constructor | ]. repeat split; try (intros; contradiction). intros i Hi. cbn in Hi. lia. }
  split.
  - split; [ intros (g & Eg); exact (Cn g Eg) | ]. intro C. destruct R as [ R | (_ & R) ]; [ exact R | contradiction ].
  - intro C. destruct R as [ (g & Eg) | (R & _) ]; [ exfalso; apply C; exact (Cn g Eg) | exact R ].
Qed.

(** ** findings *)
(** changing the length of a dimension that is not the last leaves the strides as they were: two
    different tuples get the same position *)
Theorem C35_set_length_refuted : exists a a' g r,
  make_dims ["x"; "y"] [2; 2] = Ok a /\ set_length a "x" 4 = Ok a' /\ make_group [a'; set_not_shared a "x"] = Ok g /\ loop 10 g = Ok r /\
  List.length r = 8 /\ nth 0 (nth 2 r []) 9%Z = nth 0 (nth 4 r []) 8%Z.
Proof.
  do 4 eexists. split; [ vm_compute; reflexivity | ]. split; [ vm_compute; reflexivity | ]. split; [ vm_compute; reflexivity | ].
  split; [ vm_compute; reflexivity | ]. split; reflexivity.
Qed.
(** a last dimension of length 0 is accepted by the constructor, and the loop does not end before the
    position counter wraps *)
Theorem C35_zero_length_refuted : exists a g, make_dims ["x"; "y"] [2; 0] = Ok a /\ make_group [a; set_not_shared a "x"] = Ok g /\
  g_lens g = [2; 0] /\ forall fuel, loop fuel g = Hang.
Proof.
  do 2 eexists. split; [ vm_compute; reflexivity | ]. split; [ vm_compute; reflexivity | ]. split; [ reflexivity | ].
  intro fuel. unfold loop. cbn [outer_lens outer_deltas].
  set (G := {| g_names := _ |}). assert (O : outer_lens G = [2; 0]) by reflexivity. rewrite O.
  generalize (map (fun _ : adims * list (option nat) => 0%Z) (g_arrays G)) as idx. cbn [map].
  assert (Od : outer_deltas G = [[1; 0]; [2; 2]]) by reflexivity. rewrite Od. clear.
  assert (Go : forall p q idx, turns fuel [2; 0] [[1; 0]; [2; 2]] [p; q] idx = Hang).
  { induction fuel as [ | n IH ]; intros p q idx; [ reflexivity | ]. cbn [turns next].
    destruct (Nat.eqb_spec (p + 1) 2).
    - destruct (Nat.eqb_spec (q + 1) 0); [ lia | ]. now rewrite IH.
    - now rewrite IH. }
  apply (Go 0 0).
Qed.

Example C35_nonvacuous : exists a b c g r,
  make_dims ["x"; "y"; "z"; "t"] [2; 3; 4; 2] = Ok a /\ make_dims ["x"; "y"; "t"] [2; 3; 2] = Ok b /\ make_dims ["x"; "k"] [2; 5] = Ok c /\
  wf (set_not_shared a "z") /\ wf b /\ wf (set_not_shared c "k") /\
  make_group [set_not_shared a "z"; b; set_not_shared c "k"] = Ok g /\ g_lens g = [2; 3; 2] /\ shared_volume g = 2 /\
  loop 6 g = Ok r /\ List.length r = 6 /\ nth 4 r [] = [26; 8; 0]%Z /\ consistent [a; b; c].
Proof.
  do 5 eexists. split; [ vm_compute; reflexivity | ]. split; [ vm_compute; reflexivity | ]. split; [ vm_compute; reflexivity | ].
  split; [ apply C35_set_not_shared; apply (C35_make_dims ["x"; "y"; "z"; "t"] [2; 3; 4; 2]); [ repeat constructor; cbn; intuition discriminate | cbn; intuition lia | vm_compute; reflexivity ] | ].
  split; [ apply (C35_make_dims ["x"; "y"; "t"] [2; 3; 2]); [ repeat constructor; cbn; intuition discriminate | cbn; intuition lia | vm_compute; reflexivity ] | ].
  split; [ apply C35_set_not_shared; apply (C35_make_dims ["x"; "k"] [2; 5]); [ repeat constructor; cbn; intuition discriminate | cbn; intuition lia | vm_compute; reflexivity ] | ].
  split; [ vm_compute; reflexivity | ]. split; [ reflexivity | ]. split; [ reflexivity | ].
  split; [ vm_compute; reflexivity | ]. split; [ reflexivity | ]. split; [ reflexivity | ].
  intros x y j k Ix Iy Hj Hk _ _.
  destruct Ix as [ <- | [ <- | [ <- | [] ] ] ]; destruct Iy as [ <- | [ <- | [ <- | [] ] ] ]; cbn in Hj, Hk |- *;
    repeat (destruct j as [ | j ]; try lia); repeat (destruct k as [ | k ]; try lia); cbn; congruence.
Qed.

(** the volume of a shape is its number of cells; a scalar has one *)
Theorem C35_volume names lens a : NoDup names -> (forall l, In l lens -> l > 0) -> make_dims names lens = Ok a -> volume a = cells lens.
Proof.
  intros Nd Hl E. destruct (C35_make_dims names lens a Nd Hl E) as ((_ & _ & W3 & _ & W5 & _) & _ & El). unfold volume, rank in *. rewrite El in *.
  destruct lens as [ | l rest ] eqn:Q; [ reflexivity | ]. rewrite <- Q in *. assert (Ne : lens <> []) by (rewrite Q; discriminate). clear l rest Q.
  destruct (exists_last Ne) as (pre & l & ->). rewrite app_length in *. cbn [List.length] in *.
  assert (D := W5 (List.length pre) ltac:(lia)). rewrite firstn_app, firstn_all, Nat.sub_diag in D. cbn [firstn] in D. rewrite app_nil_r in D.
  assert (Nd' : a_deltas a <> []) by (intro Z; rewrite Z in W3; cbn in W3; lia).
  destruct (exists_last Nd') as (dp & d & Ed). rewrite Ed in *. rewrite app_length in W3. cbn [List.length] in W3.
  rewrite app_nth2 in D by lia. replace (List.length pre - List.length dp) with 0 in D by lia. cbn [nth] in D.
  rewrite !last_last, cells_app, D. cbn [cells]. lia.
Qed.
Example C35_volume_nonvacuous :
  (exists a, make_dims [] [] = Ok a /\ volume a = 1) /\ (exists a, make_dims ["x"; "y"; "z"] [2; 3; 4] = Ok a /\ volume a = 24).
Proof. split; eexists; split; reflexivity. Qed.
Print Assumptions C35_make_dims.
Print Assumptions C35_add_dim.
Print Assumptions C35_set_length_last.
Print Assumptions C35_set_not_shared.
Print Assumptions C35_loop.
Print Assumptions C35_tuples.
Print Assumptions C35_accepted.
Print Assumptions C35_set_length_refuted.
Print Assumptions C35_zero_length_refuted.
Print Assumptions C35_volume.
