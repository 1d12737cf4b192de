(** Properties C09, C10, C11. *)
From Coq Require Import ZArith NArith QArith Qcanon Qabs List Bool Lia Permutation.
From Coq Require Import ZifyBool ZifyNat ZifyN.
From Verif Require Import Base IndexSpec SliceProofs Rounding RegridModel RegridProofs.
Import ListNotations.
Local Open Scope nat_scope.

(** ** C09: nearest-neighbour regridding *)

(** [data] is the whole nx*ny*nz input field, [field] the part of it the interpolator asks for
    (offset and size as stored in the interpolator, all levels).  Every output cell of every level
    is the value of the nearest input cell, or undefined when that cell does not exist; [Ok]
    means that no read leaves [field].  Domain reduction is inside [nn_construct]. *)
Theorem C09_nearest_cell_value :
  forall (A : Type) (undef : A) nan nx ny nz (pts : list (Q * Q)) (data field : list A),
  0 < nx -> 0 < ny -> (N.of_nat (nx * ny) < 2 ^ 32)%N -> Forall int_range pts ->
  length data = cells [nx; ny; nz] ->
  let g := nn_construct nan (N.of_nat nx) (N.of_nat ny) (map known pts) in
  is_box data [nx; ny; nz] [N.to_nat (nn_x0 g); N.to_nat (nn_y0 g); 0]
              [N.to_nat (nn_inX g); N.to_nat (nn_inY g); nz] field ->
  exists out, nn_interpolate undef g field = Ok out /\
    length out = length pts * nz /\
    forall z o p, z < nz -> nth_error pts o = Some p ->
      nth_error out (o + length pts * z) =
      match cell_of nx ny p with
      | Some (x, y) => nth_error data (lin [nx; ny; nz] [x; y; z])
      | None => Some undef
      end.
Proof. intros A undef nan nx ny nz pts data field. apply nn_interpolate_spec. Qed.
Print Assumptions C09_nearest_cell_value.

(** The part asked for lies inside the input grid. *)
Theorem C09_request_inside_input :
  forall nan nx ny (pts : list (Q * Q)),
  0 < nx -> 0 < ny -> (N.of_nat (nx * ny) < 2 ^ 32)%N -> Forall int_range pts ->
  let g := nn_construct nan (N.of_nat nx) (N.of_nat ny) (map known pts) in
  (nn_x0 g + nn_inX g <= N.of_nat nx /\ nn_y0 g + nn_inY g <= N.of_nat ny /\
   0 < nn_inX g /\ 0 < nn_inY g)%N.
Proof.
  intros nan nx ny pts PX PY B F. apply (nn_map_spec nan nx ny pts PX PY B F).
Qed.
Print Assumptions C09_request_inside_input.

(** "Nearest": no integer is nearer to the position than the cell index, and halves go away
    from zero. *)
Theorem C09_rounding_is_nearest : forall (q : Q),
  (forall k : Z, (Qabs (q - inject_Z (lround q)) <= Qabs (q - inject_Z k))%Q) /\
  (forall z : Z, (0 <= z)%Z -> (q == inject_Z z + (1#2))%Q -> lround q = (z + 1)%Z).
Proof.
  intro q. split; [apply lround_nearest|]. intros z P E. rewrite (lround_comp _ _ E).
  apply lround_half_up; auto.
Qed.
Print Assumptions C09_rounding_is_nearest.

(** The uncached variant agrees. *)
Theorem C09_single_point_agrees :
  forall (A : Type) nan (undef : A) data nx ny nz (p : Q * Q),
  int_range p -> length data = cells [nx; ny; nz] ->
  exists out, get_values_f nan undef data (Some (fst p)) (Some (snd p)) (Z.of_nat nx) (Z.of_nat ny) nz
                = Ok out /\ length out = nz /\
    forall z, z < nz -> nth_error out z =
      match cell_of nx ny p with
      | Some (x, y) => nth_error data (lin [nx; ny; nz] [x; y; z])
      | None => Some undef
      end.
Proof. intros. apply get_values_f_spec; auto. Qed.
Print Assumptions C09_single_point_agrees.

(** Findings.  A position far outside the grid is narrowed to int first and lands on a cell;
    an undefined position takes whatever lround returns (2^63 as on x86-64: cell 0);
    the marker for "no cell" is a valid cell number of a grid of 2^32 cells. *)
Theorem C09_far_position_refuted :
  nn_interpolate 99%Z (nn_construct 0 3 1 [(Some (inject_Z (2 ^ 32 + 1)), Some 0%Q)]) [10; 20; 30]%Z
  = Ok [20%Z].
Proof. vm_compute. reflexivity. Qed.
Print Assumptions C09_far_position_refuted.

Theorem C09_nan_position_refuted :
  nn_interpolate 99%Z (nn_construct (- 2 ^ 63) 3 1 [(None, None)]) [10; 20; 30]%Z = Ok [10%Z].
Proof. vm_compute. reflexivity. Qed.
Print Assumptions C09_nan_position_refuted.

Theorem C09_marker_is_a_cell_refuted :
  nn_index 0 65536 65536 (Some 65535%Q, Some 65535%Q) = INVALID.
Proof. vm_compute. reflexivity. Qed.
Print Assumptions C09_marker_is_a_cell_refuted.

(** Non-vacuous: a 9x8 grid, two levels, positions in one corner: the domain is reduced to 5x5. *)
Definition ex_pts : list (Q * Q) :=
  [((25#4), (27#5)); (inject_Z 8, inject_Z 7); ((-3#4), 1); ((15#2), (33#5))]%Q.
Definition ex_data : list Z := map Z.of_nat (seq 0 144).
Definition box_of {A} (d : A) (data : list A) dims start size : list A :=
  map (fun idx => nth (lin dims (shift start idx)) data d) (positions size).
Example C09_nonvacuous :
  let g := nn_construct 0 9 8 (map known ex_pts) in
  let field := box_of 0%Z ex_data [9; 8; 2] [4; 3; 0] [5; 5; 2] in
  Forall int_range ex_pts /\ length ex_data = cells [9; 8; 2] /\
  (nn_x0 g, nn_y0 g, nn_inX g, nn_inY g) = (4, 3, 5, 5)%N /\
  is_box ex_data [9; 8; 2] [4; 3; 0] [5; 5; 2] field /\
  nn_interpolate (-1)%Z g field = Ok [51; 71; -1; 71; 123; 143; -1; 143]%Z.
Proof.
  cbv zeta. split; [|split; [|split; [|split]]].
  - repeat constructor; vm_compute; congruence.
  - reflexivity.
  - vm_compute. reflexivity.
  - apply is_box_of_spec; vm_compute; reflexivity.
  - vm_compute. reflexivity.
Qed.

(** ** C11: aggregates of one cell *)

(** What each aggregate is: undefined when no value is left (the normal variants skip undefined
    values, the undef variants keep them); the sum, arithmetic mean, minimum, maximum and (upper)
    median of the values otherwise; undefined for sum and mean when an undefined value is kept. *)
Theorem C11_aggregate_is_its_name :
  forall k u vs, u = false \/ is_sum k \/ ~ In None vs ->
  exists v, cell_agg k u vs = Ok v /\
    ((used u vs = [] /\ v = None) \/
     (u = true /\ In None vs /\ is_sum k /\ v = None) \/
     exists qs r, used u vs = map Some qs /\ qs <> [] /\ v = Some r /\ is_aggregate k qs r).
Proof. intros k u vs H. exact (cell_agg_spec k u vs H). Qed.
Print Assumptions C11_aggregate_is_its_name.

(** The result does not depend on the order of the values. *)
Theorem C11_order_independent :
  forall k u vs ws, Permutation vs ws ->
  u = false \/ is_sum k \/ k = AMedian \/ ~ In None vs ->
  cell_agg k u vs = cell_agg k u ws.
Proof. intros k u vs ws. apply cell_agg_permuted. Qed.
Print Assumptions C11_order_independent.

(** The aggregator object, shared by all cells, is as new after each cell. *)
Theorem C11_no_memory_between_cells :
  forall k u vs v a, get_and_reset k (push_all k u agg0 vs) = Ok (v, a) -> a = agg0.
Proof.
  intros k u vs v a H. rewrite get_clean in H. destruct (cell_agg k u vs); cbn in H; congruence.
Qed.
Print Assumptions C11_no_memory_between_cells.

(** Findings.  In the undef min and max a first undefined value makes the result undefined, a
    later one is ignored, whatever the other values are. *)
Theorem C11_undef_minmax_first_refuted :
  forall k vs, k = AMin \/ k = AMax -> cell_agg k true (None :: vs) = Ok None.
Proof.
  intros k vs K. unfold cell_agg. rewrite push_all_used. cbn [used fold_left].
  pose proof (push_minmax_none_first k vs K (push k agg0 None)) as E.
  destruct K; subst k; specialize (E eq_refl (Nat.lt_0_succ 0)); cbn [get_and_reset];
    unfold reset; rewrite E; destruct (Nat.eqb _ 0); reflexivity.
Qed.
Print Assumptions C11_undef_minmax_first_refuted.

Theorem C11_undef_minmax_later_refuted :
  forall k q vs, k = AMin \/ k = AMax ->
  cell_agg k true (Some q :: vs) = cell_agg k false (Some q :: vs).
Proof.
  intros k q vs K. unfold cell_agg. rewrite !push_all_used. cbn [used defined filter fold_left].
  fold (defined vs).
  pose proof (push_minmax_skip k vs K (push k agg0 (Some q)) (push k agg0 (Some q)) q) as E.
  assert (k <> AMedian) as KM by (destruct K; subst; discriminate).
  pose proof (push_count k KM vs (push k agg0 (Some q))) as C1.
  pose proof (push_count k KM (defined vs) (push k agg0 (Some q))) as C2.
  destruct K; subst k; specialize (E eq_refl eq_refl (Nat.lt_0_succ 0) (Nat.lt_0_succ 0));
    cbn [get_and_reset]; unfold reset; rewrite C1, C2, E; cbn [push a_count];
    rewrite !Nat.add_succ_r; reflexivity.
Qed.
Print Assumptions C11_undef_minmax_later_refuted.

Theorem C11_undef_order_dependent_refuted :
  exists vs ws, Permutation vs ws /\
    cell_agg AMin true vs = Ok None /\ cell_agg AMin true ws = Ok (Some 1%Qc).
Proof.
  exists [None; Some 1%Qc], [Some 1%Qc; None]. split; [apply perm_swap|]. split; reflexivity.
Qed.
Print Assumptions C11_undef_order_dependent_refuted.

(** Finding: an undefined value in the undef median breaks the precondition of nth_element. *)
Theorem C11_undef_median_refuted :
  forall vs, In None vs -> cell_agg AMedian true vs = UB.
Proof. apply cell_agg_undef_median. Qed.
Print Assumptions C11_undef_median_refuted.

Definition qz (z : Z) : Qc := Q2Qc (inject_Z z).
Example C11_nonvacuous :
  let vs := [Some (qz 3); None; Some (qz 1); Some (qz 8); Some (qz 4)] in
  map (fun k => cell_agg k false vs) [ASum; AMean; AMin; AMax; AMedian] =
  [Ok (Some (qz 16)); Ok (Some (qz 4)); Ok (Some (qz 1)); Ok (Some (qz 8)); Ok (Some (qz 4))] /\
  cell_agg ASum true vs = Ok None /\ cell_agg AMean true vs = Ok None /\
  cell_agg AMin true vs = Ok (Some (qz 1)) /\ cell_agg AMedian false [] = Ok None.
Proof.
  vm_compute. repeat split. do 4 f_equal. apply Qc_is_canon. reflexivity.
Qed.

(** ** C10: forward regridding *)

(** Output of any number of levels: the same layer repeated, whose cell (ox,oy) is the aggregate
    of the values *of level 0* of all input cells whose nearest output cell is (ox,oy). *)
Theorem C10_every_level_is_level_zero :
  forall k u nan nx ny nz outX outY (pts : list (Q * Q)) (data field : list value),
  0 < nx -> 0 < ny -> 0 < nz -> 0 < outX -> 0 < outY -> (N.of_nat (outX * outY) < 2 ^ 32)%N ->
  Forall int_range pts -> length pts = nx * ny -> length data = cells [nx; ny; nz] ->
  u = false \/ is_sum k \/ (forall i, i < nx * ny -> nth i data None <> None) ->
  exists g, fw_construct nan (N.of_nat nx) (N.of_nat ny) (N.of_nat outX) (N.of_nat outY)
              (map known pts) = Ok g /\
    (fw_x0 g + fw_inX g <= N.of_nat nx /\ fw_y0 g + fw_inY g <= N.of_nat ny)%N /\
    (is_box data [nx; ny; nz] [N.to_nat (fw_x0 g); N.to_nat (fw_y0 g); 0]
              [N.to_nat (fw_inX g); N.to_nat (fw_inY g); nz] field ->
    exists layer,
      fw_interpolate k u g agg0 field = Ok (concat (repeat layer nz), agg0) /\
      length layer = outX * outY /\
      forall ox oy, ox < outX -> oy < outY ->
        exists v, nth_error layer (ox + outX * oy) = Some v /\
          agg_spec k u (map (fun i => nth i data None) (contributions outX outY pts ox oy)) v).
Proof. intros k u nan nx ny nz outX outY pts data field. apply fw_interpolate_spec. Qed.
Print Assumptions C10_every_level_is_level_zero.

(** Hence for one level the output is the aggregate of the input. *)
Theorem C10_single_level :
  forall k u nan nx ny outX outY (pts : list (Q * Q)) (data field : list value),
  0 < nx -> 0 < ny -> 0 < outX -> 0 < outY -> (N.of_nat (outX * outY) < 2 ^ 32)%N ->
  Forall int_range pts -> length pts = nx * ny -> length data = cells [nx; ny; 1] ->
  u = false \/ is_sum k \/ ~ In None data ->
  exists g, fw_construct nan (N.of_nat nx) (N.of_nat ny) (N.of_nat outX) (N.of_nat outY)
              (map known pts) = Ok g /\
    (is_box data [nx; ny; 1] [N.to_nat (fw_x0 g); N.to_nat (fw_y0 g); 0]
              [N.to_nat (fw_inX g); N.to_nat (fw_inY g); 1] field ->
    exists out,
      fw_interpolate k u g agg0 field = Ok (out, agg0) /\
      length out = outX * outY /\
      forall ox oy, ox < outX -> oy < outY ->
        exists v, nth_error out (ox + outX * oy) = Some v /\
          agg_spec k u (map (fun i => nth i data None) (contributions outX outY pts ox oy)) v).
Proof.
  intros k u nan nx ny outX outY pts data field PX PY OX OY B F LP LD H.
  destruct (fw_interpolate_spec k u nan nx ny 1 outX outY pts data field PX PY (Nat.lt_0_succ 0) OX OY B F LP LD)
    as (g & EG & _ & HG).
  { destruct H as [H|[H|H]]; auto. right; right. intros i LI E. apply H.
    rewrite <- E. apply nth_In. rewrite LD. cbn. nia. }
  exists g. split; [exact EG|]. intro BX. destruct (HG BX) as (layer & E1 & L & HL).
  exists layer. split; [|split; [exact L|exact HL]].
  rewrite E1. cbn [repeat concat]. rewrite app_nil_r. reflexivity.
Qed.
Print Assumptions C10_single_level.

(** Every input cell contributes to exactly the output cell nearest to its position. *)
Theorem C10_contributions :
  forall outX outY pts ox oy i,
  In i (contributions outX outY pts ox oy) <->
  exists p, nth_error pts i = Some p /\ cell_of outX outY p = Some (ox, oy).
Proof.
  intros outX outY pts ox oy i. unfold contributions. rewrite filter_In, in_seq. split.
  - intros [L H]. destruct (nth_error pts i) as [p|]; [|discriminate]. exists p. split; auto.
    destruct (cell_of outX outY p) as [[x y]|]; [|discriminate].
    apply andb_true_iff in H as [H1 H2]. apply Nat.eqb_eq in H1, H2. congruence.
  - intros (p & E & E2).
    assert (i < length pts) by (apply nth_error_Some; congruence).
    rewrite E, E2, !Nat.eqb_refl. split; [lia|reflexivity].
Qed.
Print Assumptions C10_contributions.

(** Finding: the second level's values are never read. *)
Theorem C10_second_level_refuted :
  exists g, fw_construct 0 1 1 1 1 [(Some 0%Q, Some 0%Q)] = Ok g /\
    fw_interpolate ASum false g agg0 [Some (qz 5); Some (qz 7)] = Ok ([Some (qz 5); Some (qz 5)], agg0).
Proof. eexists. split; vm_compute; reflexivity. Qed.
Print Assumptions C10_second_level_refuted.

Theorem C10_levels_ignored_refuted :
  forall k u g a field1 field2,
  length field1 = length field2 ->
  (forall i, i < N.to_nat (fw_inX g * fw_inY g) -> nth_error field1 i = nth_error field2 i) ->
  (forall is i, In is (fw_map g) -> In i is -> N.to_nat i < N.to_nat (fw_inX g * fw_inY g)) ->
  fw_interpolate k u g a field1 = fw_interpolate k u g a field2.
Proof.
  intros k u g a f1 f2 L H M. unfold fw_interpolate. cbv zeta. rewrite L.
  destruct (Nat.eqb _ 0); auto.
  assert (forall m a, (forall is, In is m -> In is (fw_map g)) ->
            fw_layer k u f1 m a = fw_layer k u f2 m a) as HL.
  { induction m as [|is m IH]; intros a' HM; cbn [fw_layer]; auto.
    assert (omapM (fun i => rd (nth_error f1 (N.to_nat i))) is =
            omapM (fun i => rd (nth_error f2 (N.to_nat i))) is) as ->.
    { assert (forall i, In i is -> N.to_nat i < N.to_nat (fw_inX g * fw_inY g)) as HI
        by (intros; eapply M; eauto; apply HM; left; auto).
      clear - HI H. induction is as [|i is IH]; cbn [omapM]; auto.
      rewrite H by (apply HI; left; auto). rewrite IH by (intros; apply HI; right; auto). reflexivity. }
    destruct (omapM _ is); cbn [obind]; auto. destruct (get_and_reset k _) as [[v a'']| | |]; cbn [obind fst snd]; auto.
    rewrite IH by (intros; apply HM; right; auto). reflexivity. }
  generalize (length f2 / N.to_nat (fw_inX g * fw_inY g)). intro nz. revert a.
  induction nz as [|nz IH]; intro a; cbn [fw_levels]; auto.
  rewrite HL by auto. destruct (fw_layer k u f2 (fw_map g) a) as [[l a'] | | |]; cbn [obind fst snd]; auto.
  rewrite IH. reflexivity.
Qed.
Print Assumptions C10_levels_ignored_refuted.

(** Non-vacuous: 3x2 input cells onto a 2x1 grid. *)
Definition ex_fpts : list (Q * Q) := [(0, 0); ((1#3), (2#5)); (1, 0); ((6#5), 0); (5, 0); ((-1#5), 0)]%Q.
Example C10_nonvacuous :
  let data := [Some (qz 1); Some (qz 2); Some (qz 4); None; Some (qz 16); Some (qz 32)] in
  Forall int_range ex_fpts /\ length ex_fpts = 3 * 2 /\ length data = cells [3; 2; 1] /\
  exists g, fw_construct 0 3 2 2 1 (map known ex_fpts) = Ok g /\
    fw_interpolate ASum false g agg0 data = Ok ([Some (qz 35); Some (qz 4)], agg0) /\
    fw_interpolate ASum true g agg0 data = Ok ([Some (qz 35); None], agg0) /\
    fw_interpolate AMedian false g agg0 data = Ok ([Some (qz 2); Some (qz 4)], agg0).
Proof.
  cbv zeta. split; [repeat constructor; vm_compute; congruence|].
  split; [reflexivity|]. split; [reflexivity|]. eexists. split; [vm_compute; reflexivity|].
  repeat split; vm_compute; reflexivity.
Qed.
