(** Properties C06, C07, C08. *)
From Coq Require Import NArith ZArith String List Bool Lia Arith Permutation.
From Coq Require Import ZifyBool ZifyNat ZifyN.
From Verif Require Import Base StdMap IndexSpec SliceModel SliceProofs ReaderProofs ExtractModel ExtractProofs.
Import ListNotations.
Local Open Scope nat_scope.

(** ** C06: extraction returns the selected cells in order *)

(** [xs]: per dimension of the variable (fastest first) its original length, the selected
    positions (None: not reduced) and the requested (start,size) within the reduced dimension.
    [wanted_of x] are the original positions asked for; [tuples] enumerates the index tuples with
    the first dimension running fastest. *)
Theorem C06_selected_cells_in_order :
  forall (A : Type) (data : list A) (fill : A) xs,
    cells (map org_len xs) = length data ->
    (forall k d, nth_error (map org_len xs) k = Some d -> (N.of_nat d < M64)%N) ->
    Forall good_dim xs ->
    (N.of_nat (length (tuples (map wanted_of xs))) + N.of_nat (length data) < M64)%N ->
    order_kept xs ->
    exists out,
      extract_slice (read_memory data (map org_len xs)) fill xs = Ok out /\
      map Some out = map (fun t => nth_error data (lin (map org_len xs) t)) (tuples (map wanted_of xs)).
Proof.
  intros A data fill xs H1 H2 H3 H4 H5.
  destruct (extract_ok data fill xs H1 H2 H3 H4) as (out & perm & E & _ & H & HO).
  exists out. split; auto. rewrite HO in H by auto. exact H.
Qed.

(** Two simple sufficient conditions: every selection is one contiguous range, ... *)
Theorem C06_contiguous_selections :
  forall xs, (forall x, In x xs -> selection x <> None -> ~ broken (wanted_of x)) -> order_kept xs.
Proof.
  intros xs H i j xi xj Hij Hi Hj Hs Hb. exfalso. eapply H; eauto. eapply nth_error_In; eauto.
Qed.

(** ... or every dimension slower than the first split one is reduced, too. *)
Theorem C06_only_slower_dimensions_split :
  forall xs1 xs2,
    (forall x, In x xs1 -> selection x <> None -> ~ broken (wanted_of x)) ->
    (forall x, In x xs2 -> selection x <> None) ->
    order_kept (xs1 ++ xs2).
Proof.
  intros xs1 xs2 H1 H2 i j xi xj Hij Hi Hj Hs Hb Hn. exfalso.
  destruct (Nat.lt_ge_cases i (length xs1)) as [L|L].
  - rewrite nth_error_app1 in Hi by auto. eapply H1; eauto. eapply nth_error_In; eauto.
  - rewrite nth_error_app2 in Hj by lia. eapply H2; [|eauto]. eapply nth_error_In; eauto.
Qed.

(** Whatever the selections, exactly the selected cells come back, as often as selected; only the
    order may differ. *)
Theorem C06_selected_cells_up_to_order :
  forall (A : Type) (data : list A) (fill : A) xs,
    cells (map org_len xs) = length data ->
    (forall k d, nth_error (map org_len xs) k = Some d -> (N.of_nat d < M64)%N) ->
    Forall good_dim xs ->
    (N.of_nat (length (tuples (map wanted_of xs))) + N.of_nat (length data) < M64)%N ->
    exists out,
      extract_slice (read_memory data (map org_len xs)) fill xs = Ok out /\
      length out = fold_right Nat.mul 1 (map (fun x => length (wanted_of x)) xs) /\
      Permutation (map Some out)
        (map (fun t => nth_error data (lin (map org_len xs) t)) (tuples (map wanted_of xs))).
Proof.
  intros A data fill xs H1 H2 H3 H4.
  destruct (extract_ok data fill xs H1 H2 H3 H4) as (out & perm & E & HP & H & _).
  exists out. split; auto.
  assert (Permutation (map Some out)
    (map (fun t => nth_error data (lin (map org_len xs) t)) (tuples (map wanted_of xs)))) as P.
  { rewrite H. apply Permutation_map. auto. }
  split; auto.
  apply Permutation_length in P. rewrite !map_length in P. rewrite P, tuples_length, map_map. reflexivity.
Qed.

(** Finding: x = {0,2} of 3 and y unreduced with 2 rows: the order is wrong. *)
Theorem C06_order_refuted :
  exists (data : list nat) xs out,
    cells (map org_len xs) = length data /\ Forall good_dim xs /\
    extract_slice (read_memory data (map org_len xs)) 99 xs = Ok out /\
    map Some out <> map (fun t => nth_error data (lin (map org_len xs) t)) (tuples (map wanted_of xs)) /\
    out = [0; 3; 2; 5] /\
    map (fun t => nth_error data (lin (map org_len xs) t)) (tuples (map wanted_of xs))
      = [Some 0; Some 2; Some 3; Some 5].
Proof.
  exists [0;1;2;3;4;5], [(3, Some [0;2], (0,2)); (2, None, (0,2))], [0;3;2;5].
  repeat split; try (vm_compute; reflexivity).
  - repeat constructor; cbn; try lia.
  - vm_compute. discriminate.
Qed.

(** Finding: an empty request along a reduced dimension returns one element. *)
Theorem C06_empty_request_refuted :
  extract_slice (read_memory [10;11;12] [3]) 99 [(3, Some [1;2], (0,0))] = Ok [11] /\
  wanted_of (3, Some [1;2], (0,0)) = [].
Proof. split; vm_compute; reflexivity. Qed.

(** 4x3x2 array; x = {0,2,3}, y = {2}, z unreduced, last record requested *)
Example C06_nonvacuous :
  let xs := [(4, Some [0;2;3], (0,3)); (3, Some [0;2], (1,1)); (2, None, (1,1))] in
  extract_slice (read_memory (seq 0 24) (map org_len xs)) 99 xs = Ok [20; 22; 23] /\
  Forall good_dim xs /\ order_kept xs /\ cells (map org_len xs) = 24.
Proof.
  cbn zeta. repeat split; try (vm_compute; reflexivity).
  - repeat constructor; cbn; try lia.
  - intros i j xi xj Hij Hi Hj Hs Hb Hn.
    assert (j = 2) as -> by (destruct j as [|[|[|[|j]]]]; cbn in Hj; try discriminate; auto;
      injection Hj as <-; discriminate).
    injection Hj as <-. cbn. auto.
Qed.

Print Assumptions C06_selected_cells_in_order.
Print Assumptions C06_contiguous_selections.
Print Assumptions C06_only_slower_dimensions_split.
Print Assumptions C06_selected_cells_up_to_order.
Print Assumptions C06_order_refuted.
Print Assumptions C06_empty_request_refuted.

(** ** C07: reducing a dimension *)

Open Scope N_scope.

Theorem C07_index_set :
  forall x dim slices len,
    sfind dim (x_len x) = Some len ->
    (forall p, In p slices -> p < len) ->
    exists x', reduce_set x dim slices = Ok x' /\
      sfind dim (x_len x') = Some (N.of_nat (length slices)) /\
      sfind dim (x_sel x') = Some slices /\
      forall d, d <> dim -> sfind d (x_len x') = sfind d (x_len x) /\ sfind d (x_sel x') = sfind d (x_sel x).
Proof.
  intros x dim slices len E H. unfold reduce_set. rewrite E.
  rewrite existsb_false.
  - eexists. split; [reflexivity|]. cbn [x_len x_sel]. rewrite !sfind_sput, !String.eqb_refl.
    repeat split; auto; rewrite sfind_sput; destruct (String.eqb_spec d dim); congruence.
  - intros p Hp. apply N.ltb_ge. apply H in Hp. lia.
Qed.

Theorem C07_position_beyond_length_throws :
  forall x dim slices len p,
    sfind dim (x_len x) = Some len -> In p slices -> len < p ->
    reduce_set x dim slices = Throw.
Proof.
  intros x dim slices len p E Hp H. unfold reduce_set. rewrite E.
  replace (existsb _ slices) with true; auto. symmetry. apply existsb_exists. exists p.
  split; auto. apply N.ltb_lt; auto.
Qed.

Theorem C07_unknown_dimension_throws :
  forall x dim, sfind dim (x_len x) = None ->
    (forall slices, reduce_set x dim slices = Throw) /\
    (forall s l, reduce_start_len x dim s l = Throw) /\
    (forall s e, reduce_start_end x dim s e = Throw).
Proof.
  intros x dim E. repeat split; intros.
  - unfold reduce_set. rewrite E. reflexivity.
  - unfold reduce_start_len, reduce_set. rewrite E. reflexivity.
  - unfold reduce_start_end. destruct (0 <? e)%Z; [|rewrite E; reflexivity].
    unfold reduce_start_len, reduce_set. rewrite E. reflexivity.
Qed.

(** Finding: the position equal to the length (one past the end) is accepted. *)
Theorem C07_position_equal_length_accepted_refuted :
  forall x dim len, sfind dim (x_len x) = Some len ->
    exists x', reduce_set x dim [len] = Ok x' /\ sfind dim (x_sel x') = Some [len].
Proof.
  intros x dim len E. unfold reduce_set. rewrite E. cbn [existsb]. rewrite N.ltb_irrefl. cbn.
  eexists. split; [reflexivity|]. cbn. rewrite sfind_sput, String.eqb_refl. reflexivity.
Qed.

(** ... but reading it fails later. *)
Theorem C07_reading_position_equal_length_throws :
  forall (A : Type) (data : list A) fill len,
    extract_slice (read_memory data [len]) fill [(len, Some [len], (0, 1)%nat)] = Throw.
Proof.
  intros. unfold extract_slice. cbn. unfold set_next.
  replace (len <? len + (len - len + 1))%nat with true by (symmetry; apply Nat.ltb_lt; lia). reflexivity.
Qed.

Theorem C07_start_and_length :
  forall x dim start n len,
    sfind dim (x_len x) = Some len -> len < M64 -> start + N.of_nat n <= len ->
    exists x', reduce_start_len x dim start (N.of_nat n) = Ok x' /\
      sfind dim (x_len x') = Some (N.of_nat n) /\
      sfind dim (x_sel x') = Some (map (fun i => start + N.of_nat i) (seq 0 n)).
Proof.
  intros x dim start n len E H1 H2. unfold reduce_start_len. rewrite Nat2N.id, range_set by lia.
  destruct (C07_index_set x dim (map (fun i => start + N.of_nat i) (seq 0 n)) len E) as (x' & E' & HL & HS & _).
  - intros p Hp. apply in_map_iff in Hp as (i & <- & Hi). apply in_seq in Hi. lia.
  - exists x'. rewrite map_length, seq_length in HL. auto.
Qed.

(** Requests ending more than one past the end are refused (one past the end: see above). *)
Theorem C07_start_and_length_rejects :
  forall x dim start n len,
    sfind dim (x_len x) = Some len -> start + N.of_nat n <= M64 ->
    (0 < n)%nat -> len + 1 < start + N.of_nat n ->
    reduce_start_len x dim start (N.of_nat n) = Throw.
Proof.
  intros x dim start n len E H1 H2 H3. unfold reduce_start_len. rewrite Nat2N.id, range_set by lia.
  eapply (C07_position_beyond_length_throws x dim _ len (start + N.of_nat (n - 1))); eauto; [|lia].
  apply in_map_iff. exists (n - 1)%nat. split; auto. apply in_seq. lia.
Qed.

(** start..end (inclusive) for a positive end; end <= 0 counts from the end of the dimension *)
Theorem C07_start_end :
  forall x dim start e len,
    sfind dim (x_len x) = Some len -> len < M64 ->
    ((0 < e)%Z -> (Z.of_N start <= e)%Z -> (e < Z.of_N len)%Z ->
      exists x', reduce_start_end x dim start e = Ok x' /\
        sfind dim (x_sel x') =
          Some (map (fun i => start + N.of_nat i) (seq 0 (Z.to_nat (e - Z.of_N start + 1))))) /\
    ((e <= 0)%Z -> (Z.of_N start - e <= Z.of_N len)%Z -> (- 2 ^ 63 <= e)%Z ->
      exists x', reduce_start_end x dim start e = Ok x' /\
        sfind dim (x_sel x') =
          Some (map (fun i => start + N.of_nat i) (seq 0 (Z.to_nat (Z.of_N len + e - Z.of_N start))))).
Proof.
  intros x dim start e len E H. pose proof N2Z_M64 as HM.
  assert (Z.of_N len < 2^64)%Z as HlenZ by lia. clear HM.
  split; intros H1 H2 H3; unfold reduce_start_end, start_end_length.
  - replace (0 <? e)%Z with true by lia.
    assert (ll2size e = Z.to_N e) as EL.
    { unfold ll2size. rewrite Z.mod_small by lia. reflexivity. }
    rewrite EL, sub64_small by lia. rewrite add64_small by lia.
    replace (Z.to_N e - start + 1) with (N.of_nat (Z.to_nat (e - Z.of_N start + 1))) by lia.
    edestruct C07_start_and_length as (x' & E' & _ & HS); [exact E|exact H| |exists x'; split; [exact E'|exact HS]].
    lia.
  - replace (0 <? e)%Z with false by lia. rewrite E.
    rewrite sub64_small by lia.
    assert (add64 (len - start) (ll2size e) = N.of_nat (Z.to_nat (Z.of_N len + e - Z.of_N start))) as EL.
    { unfold add64, w64, ll2size. apply N2Z.inj. rewrite N2Z.inj_mod, N2Z.inj_add, N2Z_M64.
      rewrite Z2N.id by (apply Z.mod_pos_bound; lia).
      rewrite Z.add_mod_idemp_r by lia. rewrite Z.mod_small by lia. lia. }
    rewrite EL.
    edestruct C07_start_and_length as (x' & E' & _ & HS); [exact E|exact H| |exists x'; split; [exact E'|exact HS]].
    lia.
Qed.

(** Finding: a start behind the end is not refused; the length wraps. *)
Theorem C07_start_behind_end_wraps_refuted :
  forall len start e, (0 < e)%Z -> (e + 1 < Z.of_N start)%Z -> start < M64 ->
    start_end_length len start e = M64 - (start - Z.to_N e - 1).
Proof.
  intros len start e H1 H2 H3. pose proof N2Z_M64 as HM.
  unfold start_end_length. replace (0 <? e)%Z with true by lia.
  assert (ll2size e = Z.to_N e) as EL.
  { unfold ll2size. rewrite Z.mod_small by lia. reflexivity. }
  rewrite EL, sub64_neg by lia. rewrite add64_small by lia. lia.
Qed.

(** Finding: a start just behind the end empties the dimension silently. *)
Theorem C07_start_just_behind_end_empties_refuted :
  exists x', reduce_start_end (mkExt [("x"%string, 10)] []) "x" 5 4 = Ok x' /\
             sfind "x" (x_len x') = Some 0.
Proof. eexists. split; vm_compute; reflexivity. Qed.

Example C07_nonvacuous :
  reduce_start_end (mkExt [("x"%string, 10)] []) "x" 2 (-5)
    = Ok (mkExt [("x"%string, 3)] [("x"%string, [2;3;4])]) /\
  reduce_start_end (mkExt [("x"%string, 10)] []) "x" 2 5
    = Ok (mkExt [("x"%string, 4)] [("x"%string, [2;3;4;5])]) /\
  reduce_start_len (mkExt [("x"%string, 10)] []) "x" 8 4 = Throw /\
  reduce_start_len (mkExt [("x"%string, 10)] []) "x" 8 3
    = Ok (mkExt [("x"%string, 3)] [("x"%string, [8;9;10])]).
Proof. repeat split; vm_compute; reflexivity. Qed.

Print Assumptions C07_index_set.
Print Assumptions C07_position_beyond_length_throws.
Print Assumptions C07_unknown_dimension_throws.
Print Assumptions C07_position_equal_length_accepted_refuted.
Print Assumptions C07_reading_position_equal_length_throws.
Print Assumptions C07_start_and_length.
Print Assumptions C07_start_and_length_rejects.
Print Assumptions C07_start_end.
Print Assumptions C07_start_behind_end_wraps_refuted.
Print Assumptions C07_start_just_behind_end_empties_refuted.

(** ** C08: reducing a dimension again *)

(** The second selection replaces the first one: state as if only the second had been made. *)
Theorem C08_second_reduction_replaces_first :
  forall x dim s1 s2 x1 x2 x2',
    reduce_set x dim s1 = Ok x1 -> reduce_set x1 dim s2 = Ok x2 -> reduce_set x dim s2 = Ok x2' ->
    forall d, sfind d (x_len x2) = sfind d (x_len x2') /\ sfind d (x_sel x2) = sfind d (x_sel x2').
Proof.
  intros x dim s1 s2 x1 x2 x2' E1 E2 E2' d.
  unfold reduce_set in *.
  destruct (sfind dim (x_len x)) as [len|]; [|discriminate].
  destruct (existsb _ s1); [discriminate|]. injection E1 as <-.
  destruct (existsb _ s2) eqn:C2; [discriminate|]. injection E2' as <-.
  cbn [x_len x_sel] in *. rewrite sfind_sput, String.eqb_refl in E2.
  destruct (existsb _ s2); [discriminate|]. injection E2 as <-.
  cbn [x_len x_sel]. rewrite !sfind_sput. destruct (d =? dim)%string; auto.
Qed.

(** The reported length always matches the number of selected positions, for any history of
    reductions. *)
Theorem C08_length_matches_selection :
  forall lens ops x,
    fold_left (fun o (op : string * list N) => do y <- o; reduce_set y (fst op) (snd op)) ops
      (Ok (mkExt lens [])) = Ok x ->
    forall d ps, sfind d (x_sel x) = Some ps -> sfind d (x_len x) = Some (N.of_nat (length ps)).
Proof.
  intros lens ops.
  assert (forall o x,
    (forall y, o = Ok y -> forall d ps, sfind d (x_sel y) = Some ps -> sfind d (x_len y) = Some (N.of_nat (length ps))) ->
    fold_left (fun o (op : string * list N) => do y <- o; reduce_set y (fst op) (snd op)) ops o = Ok x ->
    forall d ps, sfind d (x_sel x) = Some ps -> sfind d (x_len x) = Some (N.of_nat (length ps))) as HI.
  { induction ops as [|[dim sl] ops IH]; intros o x Ho E d ps Hd; cbn [fold_left] in E.
    - eapply Ho; eauto.
    - eapply IH; [|exact E|exact Hd]. clear E Hd d ps x.
      intros y E d ps Hd. cbn [fst snd] in E.
      destruct o as [y0| | |]; cbn [obind] in E; try discriminate.
      unfold reduce_set in E. destruct (sfind dim (x_len y0)); [|discriminate].
      destruct (existsb _ sl); [discriminate|]. injection E as <-. cbn [x_len x_sel] in *.
      rewrite sfind_sput in Hd. rewrite sfind_sput. destruct (d =? dim)%string.
      + injection Hd as <-. reflexivity.
      + eapply Ho; eauto. }
  intros x E. eapply HI; [|exact E]. intros y Hy d ps Hd. injection Hy as <-. discriminate.
Qed.

(** Finding: positions refer to the original dimension, but are checked against the reduced length:
    position 5 of 10 is refused after the dimension was reduced to {4,5,6}. *)
Theorem C08_valid_original_position_refused_refuted :
  exists x1 x2, reduce_set (mkExt [("x"%string, 10)] []) "x" [4;5;6] = Ok x1 /\
    reduce_set x1 "x" [5] = Throw /\
    reduce_set (mkExt [("x"%string, 10)] []) "x" [5] = Ok x2.
Proof. do 2 eexists. repeat split; vm_compute; reflexivity. Qed.

(** Finding: they are not relative to the reduced dimension either: {4,5,6} then {0} gives original
    position 0, not 4. *)
Theorem C08_not_composition_refuted :
  exists x1 x2, reduce_set (mkExt [("x"%string, 10)] []) "x" [4;5;6] = Ok x1 /\
    reduce_set x1 "x" [0] = Ok x2 /\ sfind "x" (x_sel x2) = Some [0] /\ nth_error [4;5;6] 0 = Some 4.
Proof. do 2 eexists. repeat split; vm_compute; reflexivity. Qed.

(** The two readings coincide exactly when the first selection fixes the chosen positions; in
    particular after a reduction to a prefix. *)
Theorem C08_prefix_then_any :
  forall x dim n s2 len x1,
    sfind dim (x_len x) = Some len -> N.of_nat n <= len ->
    reduce_set x dim (map N.of_nat (seq 0 n)) = Ok x1 ->
    (forall p, In p s2 -> p < N.of_nat n) ->
    exists x2, reduce_set x1 dim s2 = Ok x2 /\ sfind dim (x_sel x2) = Some s2 /\
      map Some s2 = map (fun p => nth_error (map N.of_nat (seq 0 n)) (N.to_nat p)) s2.
Proof.
  intros x dim n s2 len x1 E Hn E1 H.
  assert (sfind dim (x_len x1) = Some (N.of_nat n)) as E2.
  { unfold reduce_set in E1. rewrite E in E1. destruct (existsb _ _); [discriminate|].
    injection E1 as <-. cbn [x_len]. rewrite sfind_sput, String.eqb_refl, map_length, seq_length. reflexivity. }
  destruct (C07_index_set x1 dim s2 _ E2 H) as (x2 & E3 & _ & HS & _).
  exists x2. repeat split; auto.
  apply map_ext_in. intros p Hp. apply H in Hp.
  rewrite nth_error_map, nth_error_seq.
  replace (N.to_nat p <? n)%nat with true by (symmetry; apply Nat.ltb_lt; lia).
  cbn. f_equal. lia.
Qed.

Example C08_nonvacuous :
  exists x1 x2, reduce_set (mkExt [("x"%string, 10)] []) "x" [0;1;2;3] = Ok x1 /\
    reduce_set x1 "x" [1;3] = Ok x2 /\ sfind "x" (x_sel x2) = Some [1;3] /\ sfind "x" (x_len x2) = Some 2.
Proof. do 2 eexists. repeat split; vm_compute; reflexivity. Qed.

Print Assumptions C08_second_reduction_replaces_first.
Print Assumptions C08_length_matches_selection.
Print Assumptions C08_valid_original_position_refused_refuted.
Print Assumptions C08_not_composition_refuted.
Print Assumptions C08_prefix_then_any.
