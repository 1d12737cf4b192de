(** Properties C01, C02, C03, C05. *)
From Coq Require Import NArith ZArith String List Bool Lia Arith.
From Verif Require Import Base StdMap IndexSpec SliceModel SliceProofs SliceBuilderProofs.
Import ListNotations.
Local Open Scope nat_scope.

(** ** C01: a box slice returns exactly the requested cells *)

Theorem C01_slice_returns_box :
  forall (A : Type) (data : list A) (dims start size : list nat),
    fits dims start size ->
    cells dims = length data ->
    (N.of_nat (length data) < M64)%N ->
    (forall k d, nth_error dims k = Some d -> (N.of_nat d < M64)%N) ->
    exists out,
      slice data (map N.of_nat dims) (map N.of_nat start) (map N.of_nat size) = Ok out /\
      length out = cells size /\
      forall idx, inside size idx ->
        nth_error out (lin size idx) = nth_error data (lin dims (shift start idx)).
Proof. exact @slice_ok. Qed.

Theorem C01_slice_rejects_out_of_range :
  forall (A : Type) (data : list A) (dims start size : list N) k d s z,
    length dims = length start -> length dims = length size ->
    nth_error dims k = Some d -> nth_error start k = Some s -> nth_error size k = Some z ->
    (s + z < M64)%N -> (d < s + z)%N ->
    slice data dims start size = Throw.
Proof. exact @slice_throw_range. Qed.

Theorem C01_slice_rejects_wrong_shape :
  forall (A : Type) (data : list A) (dims start size : list nat),
    dims <> [] ->
    fits dims start size ->
    cells dims <> length data ->
    (N.of_nat (length data) < M64)%N -> (N.of_nat (cells dims) < M64)%N ->
    (forall k d, nth_error dims k = Some d -> (N.of_nat d < M64)%N) ->
    slice data (map N.of_nat dims) (map N.of_nat start) (map N.of_nat size) = Throw.
Proof. exact @slice_throw_mismatch. Qed.

(** Finding: without the no-wrap guard rejection fails.  A 4x2 array is asked for columns
    starting at 2^64-4 of row 1; the request is accepted and row 0 is returned.  With a
    one-dimensional array the same request reads outside of the array. *)
Theorem C01_wrapped_request_accepted_refuted :
  ~ (forall (data : list nat) (dims start size : list N) k d s z,
      length dims = length start -> length dims = length size ->
      nth_error dims k = Some d -> nth_error start k = Some s -> nth_error size k = Some z ->
      (s < M64)%N -> (z < M64)%N -> (d < s + z)%N ->
      slice data dims start size = Throw).
Proof.
  intro H.
  specialize (H [0;1;2;3;4;5;6;7] [4;2]%N [18446744073709551612;1]%N [4;1]%N 0
                4%N 18446744073709551612%N 4%N
                eq_refl eq_refl eq_refl eq_refl eq_refl eq_refl eq_refl eq_refl).
  vm_compute in H. discriminate.
Qed.

Example C01_wrapped_request_returns_row_0 :
  slice [0;1;2;3;4;5;6;7] [4;2]%N [18446744073709551612;1]%N [4;1]%N = Ok [0;1;2;3].
Proof. vm_compute. reflexivity. Qed.

Example C01_wrapped_request_reads_outside :
  slice [0;1;2] [3]%N [18446744073709551615]%N [1]%N = UB.
Proof. vm_compute. reflexivity. Qed.

(** A 3x2x2 array, box of size 2x1x2 at (1,1,0). *)
Example C01_nonvacuous :
  slice [0;1;2;3;4;5;6;7;8;9;10;11] [3;2;2]%N [1;1;0]%N [2;1;2]%N = Ok [4;5;10;11] /\
  fits [3;2;2] [1;1;0] [2;1;2] /\ inside [2;1;2] [1;0;1].
Proof.
  split; [vm_compute; reflexivity|]. split.
  - rewrite !fits_cons. repeat split; auto; try lia. intros [|k] ? ? ? H; discriminate.
  - repeat constructor.
Qed.

Print Assumptions C01_slice_returns_box.
Print Assumptions C01_slice_rejects_out_of_range.
Print Assumptions C01_slice_rejects_wrong_shape.
Print Assumptions C01_wrapped_request_accepted_refuted.

(** ** C02: a slice request is always inside the variable *)

(** Complete description of the visible state after any history: the request reported for a
    dimension is the last acceptable one, the full extent if there is none. *)
Theorem C02_request_is_last_acceptable :
  forall names sizes unlim sb0,
    sb_init names sizes unlim = Ok sb0 -> NoDup names ->
    Forall (fun m => (m < M64)%N) sizes ->
    forall ops d p m u,
      Forall no_wrap ops ->
      nth_error names p = Some d -> nth_error sizes p = Some m -> nth_error unlim p = Some u ->
      sb_get (sb_run sb0 ops) d = Ok (last_request d m u ops).
Proof. exact sb_refines. Qed.

Theorem C02_request_in_range :
  forall names sizes unlim sb0,
    sb_init names sizes unlim = Ok sb0 -> NoDup names ->
    Forall (fun m => (m < M64)%N) sizes ->
    forall ops d p m,
      Forall no_wrap ops ->
      nth_error names p = Some d -> nth_error sizes p = Some m -> nth_error unlim p = Some false ->
      exists s z, sb_get (sb_run sb0 ops) d = Ok (s, z) /\ (s + z <= m)%N.
Proof.
  intros names sizes unlim sb0 Hi ND Hs ops d p m NW Hp Hm Hu.
  pose proof (sb_refines names sizes unlim sb0 Hi ND Hs ops d p m false NW Hp Hm Hu) as E.
  pose proof (last_request_in_range d m ops) as R.
  destruct (last_request d m false ops) as [s z]. exists s, z. auto.
Qed.

Theorem C02_unknown_dimension_throws :
  forall names sizes unlim sb0,
    sb_init names sizes unlim = Ok sb0 -> NoDup names ->
    Forall (fun m => (m < M64)%N) sizes ->
    forall ops d, Forall no_wrap ops -> ~ In d names ->
      sb_get (sb_run sb0 ops) d = Throw /\
      forall s z, sb_setStartAndSize (sb_run sb0 ops) d s z = Throw /\
                  sb_setAll (sb_run sb0 ops) d = Throw.
Proof.
  intros names sizes unlim sb0 Hi ND Hs ops d NW Hn. split.
  - eapply sb_unknown; eauto.
  - intros s z. unfold sb_setStartAndSize, sb_setAll.
    erewrite getDimPos_notin by eauto using run_frame. auto.
Qed.

(** The dimension names come back in variable order, whatever was called. *)
Theorem C02_dimension_names_stable :
  forall names sizes unlim sb0,
    sb_init names sizes unlim = Ok sb0 -> NoDup names ->
    Forall (fun m => (m < M64)%N) sizes ->
    forall ops, Forall no_wrap ops -> sb_getDimensionNames (sb_run sb0 ops) = Ok names.
Proof. exact getDimensionNames_spec. Qed.

(** Finding: a request whose end wraps past 2^64 is accepted. *)
Theorem C02_request_in_range_refuted :
  exists names sizes unlim sb0 ops d m s z,
    sb_init names sizes unlim = Ok sb0 /\ NoDup names /\
    nth_error names 0 = Some d /\ nth_error sizes 0 = Some m /\ nth_error unlim 0 = Some false /\
    sb_get (sb_run sb0 ops) d = Ok (s, z) /\ (s < M64)%N /\ (z < M64)%N /\ (m < s + z)%N.
Proof.
  exists ["x"%string], [10%N], [false], (mkSB [("x"%string, 0)] [0%N] [10%N] [10%N] [false] []),
    [SetStartAndSize "x" 18446744073709551615 1], "x"%string, 10%N, 18446744073709551615%N, 1%N.
  repeat split; try (vm_compute; reflexivity).
  repeat constructor; auto.
Qed.

Example C02_nonvacuous :
  exists sb0, sb_init ["x"; "y"; "time"]%string [10; 5; 3]%N [false; false; true] = Ok sb0 /\
  let ops := [SetStartAndSize "x" 2 4; SetStartAndSize "y" 3 3; SetStartAndSize "time" 5 7;
              SetStartAndSize "y" 1 2; SetAll "x"; SetStartAndSize "z" 0 0] in
  sb_get (sb_run sb0 ops) "x" = Ok (0, 10)%N /\
  sb_get (sb_run sb0 ops) "y" = Ok (1, 2)%N /\
  sb_get (sb_run sb0 ops) "time" = Ok (5, 7)%N /\
  Forall no_wrap ops.
Proof. eexists. split; [vm_compute; reflexivity|]. repeat split; repeat constructor. Qed.

Print Assumptions C02_request_is_last_acceptable.
Print Assumptions C02_request_in_range.
Print Assumptions C02_unknown_dimension_throws.
Print Assumptions C02_dimension_names_stable.
Print Assumptions C02_request_in_range_refuted.

(** ** C03: bookkeeping of unset dimensions *)

Theorem C03_unset_dimensions :
  forall names sizes unlim sb0,
    sb_init names sizes unlim = Ok sb0 -> NoDup names ->
    Forall (fun m => (m < M64)%N) sizes ->
    forall ops, Forall no_wrap ops ->
      NoDup (sb_getUnset (sb_run sb0 ops)) /\
      forall d, In d (sb_getUnset (sb_run sb0 ops)) <->
        (In d names /\
         forall op p m u, In op ops -> nth_error names p = Some d ->
           nth_error sizes p = Some m -> nth_error unlim p = Some u -> acceptable d m u op = false).
Proof.
  intros names sizes unlim sb0 Hi ND Hs ops NW. split.
  - eapply unset_NoDup; eauto.
  - intro d. eapply unset_spec; eauto.
Qed.

(** Requests on different dimensions commute (as far as any later observation can tell). *)
Theorem C03_different_dimensions_commute :
  forall names sizes unlim sb0,
    sb_init names sizes unlim = Ok sb0 -> NoDup names ->
    Forall (fun m => (m < M64)%N) sizes ->
    forall ops1 a b ops2 d,
      Forall no_wrap (ops1 ++ a :: b :: ops2) -> op_dim a <> op_dim b ->
      sb_get (sb_run sb0 (ops1 ++ a :: b :: ops2)) d = sb_get (sb_run sb0 (ops1 ++ b :: a :: ops2)) d.
Proof.
  intros names sizes unlim sb0 Hi ND Hs ops1 a b ops2 d NW Hab.
  assert (Forall no_wrap (ops1 ++ b :: a :: ops2)) as NW'.
  { rewrite !Forall_app, !Forall_cons_iff in *. tauto. }
  destruct (in_dec String.string_dec d names) as [Hin|Hni].
  - apply In_nth_error in Hin as [p Hp].
    destruct (nth_max names sizes unlim sb0 Hi Hs p d Hp) as (m & u & Hm & Hu & _).
    rewrite !(sb_refines names sizes unlim sb0 Hi ND Hs _ d p m u) by auto.
    f_equal. unfold last_request. rewrite !filter_app. cbn.
    destruct (String.string_dec (op_dim a) d) as [E|NE].
    + rewrite (acceptable_other d m u b) by congruence. reflexivity.
    + rewrite (acceptable_other d m u a) by congruence. reflexivity.
  - rewrite !(sb_unknown names sizes unlim sb0 Hi ND Hs) by auto. reflexivity.
Qed.

Example C03_nonvacuous :
  exists sb0, sb_init ["x"; "y"; "time"]%string [10; 5; 3]%N [false; false; true] = Ok sb0 /\
  sb_getUnset (sb_run sb0 [SetStartAndSize "y" 3 3; SetStartAndSize "x" 2 4]) = ["time"; "y"]%string.
Proof. eexists. split; vm_compute; reflexivity. Qed.

Print Assumptions C03_unset_dimensions.
Print Assumptions C03_different_dimensions_commute.

(** ** C05: writing a block touches only that block *)

Theorem C05_block_write :
  forall (A : Type) (this other : list A) (startPos first : nat) (last : N),
    startPos <= length this -> first <= length other ->
    (N.of_nat (length this) + N.of_nat (length other) < M64)%N ->
    exists res,
      copy_data this other (N.of_nat startPos) (N.of_nat first) last = Ok res /\
      length res = length this /\
      let n := Nat.min (length this - startPos)
                       (N.to_nat (N.min last (N.of_nat (length other))) - first) in
      forall i, nth_error res i =
        if (startPos <=? i) && (i <? startPos + n)
        then nth_error other (first + (i - startPos)) else nth_error this i.
Proof. exact @copy_data_ok. Qed.

Theorem C05_range_write :
  forall (A : Type) (this src : list A) (pos : nat),
    pos + length src <= length this -> (N.of_nat (length this) < M64)%N ->
    exists res,
      set_values_range this src (N.of_nat pos) = Ok res /\ length res = length this /\
      forall i, nth_error res i =
        if (pos <=? i) && (i <? pos + length src) then nth_error src (i - pos) else nth_error this i.
Proof. exact @set_values_range_ok. Qed.

Theorem C05_range_write_rejects :
  forall (A : Type) (this src : list A) (pos : N),
    (N.of_nat (length this) < N.of_nat (length src) + pos)%N ->
    (N.of_nat (length src) + pos < M64)%N ->
    set_values_range this src pos = Throw.
Proof. exact @set_values_range_throw. Qed.

Theorem C05_block_write_rejects_bad_source :
  forall (A : Type) (this other : list A) startPos first last,
    (N.of_nat (length other) < first)%N -> copy_data this other startPos first last = Throw.
Proof. exact @copy_data_throw. Qed.

(** Finding: a start position beyond the end writes outside the array. *)
Theorem C05_block_write_inside_refuted :
  exists (this other : list nat) startPos first last,
    (startPos < M64)%N /\ (first <= N.of_nat (length other))%N /\
    copy_data this other startPos first last = UB.
Proof. exists [1;2], [7;8;9], 3%N, 0%N, 3%N. repeat split; vm_compute; congruence. Qed.

(** The write is outside for every start position beyond the end (and a non-empty source). *)
Theorem C05_start_beyond_end_is_ub :
  forall (A : Type) (this other : list A) startPos,
    (N.of_nat (length this) < startPos)%N -> (startPos < M64)%N ->
    other <> [] -> (N.of_nat (length other) + startPos <= M64)%N ->
    copy_data this other startPos 0 (M64 - 1) = UB.
Proof.
  intros A this other startPos H1 H2 H3 H4. unfold copy_data.
  assert (N.of_nat (length other) > 0)%N by (destruct other; [congruence|cbn; lia]).
  replace (N.of_nat (length other) <? 0)%N with false by (symmetry; apply N.ltb_ge; lia).
  rewrite sub64_neg by lia.
  rewrite add64_small by lia.
  replace (N.min (M64 - 1) (N.of_nat (length other))) with (N.of_nat (length other)) by lia.
  replace (N.min _ (N.of_nat (length other))) with (N.of_nat (length other)) by lia.
  replace (0 <? N.of_nat (length other))%N with true by (symmetry; apply N.ltb_lt; lia).
  unfold write_block.
  replace (_ <=? N.of_nat (length this))%N with false; auto.
  symmetry. apply N.leb_gt. rewrite firstn_length. lia.
Qed.

Example C05_nonvacuous :
  copy_data [0;0;0;0;0] [7;8;9;10] 3 1 (M64 - 1) = Ok [0;0;0;8;9] /\
  set_values_range [0;0;0;0;0] [7;8] 2 = Ok [0;0;7;8;0].
Proof. split; vm_compute; reflexivity. Qed.

Print Assumptions C05_block_write.
Print Assumptions C05_range_write.
Print Assumptions C05_range_write_rejects.
Print Assumptions C05_block_write_rejects_bad_source.
Print Assumptions C05_block_write_inside_refuted.
Print Assumptions C05_start_beyond_end_is_ub.
