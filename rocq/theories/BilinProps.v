(** Properties C12, C57, C58. *)
From Coq Require Import ZArith NArith QArith Qcanon Qround Qabs Lqa List Bool Lia.
From Coq Require Import ZifyBool ZifyNat.
From Verif Require Import Base IndexSpec SliceProofs ReaderProofs Rounding RegridModel SearchModel SearchProofs BilinModel BilinProofs.
From Verif Require RegridProps.
Import ListNotations.
Local Open Scope Z_scope.

(** the cell (i, j) of level z of a field of nx * ny * nz values *)
Definition cell3 (data : list value) (nx ny nz i j z : nat) : option value :=
  nth_error data (lin [nx; ny; nz] [i; j; z]).

Lemma cell3_at3 data nx ny nz i j z :
  length data = cells [nx; ny; nz] -> (i < nx)%nat -> (j < ny)%nat -> (z < nz)%nat ->
  cell3 data nx ny nz i j z = Some (at3 data nx ny (Z.of_nat i) (Z.of_nat j) z).
Proof.
  intros L HI HJ HZ. unfold cell3, at3. rewrite !Nat2Z.id.
  pose proof (lin_lt [nx; ny; nz] [i; j; z] ltac:(repeat constructor; auto)) as LT.
  rewrite <- L in LT. etransitivity; [exact (nth_error_nth' data None LT)|]. f_equal. cbn [lin]. f_equal. lia.
Qed.

(** ** C12: bilinear interpolation *)

(** Positions are inside when the nearest cell exists.  Every finite position whose integer part
    fits an int is covered, apart from the corner strip of [C12_corner_strip_refuted]: no read
    outside the field, one value per level, undefined outside. *)
Theorem C12_no_read_outside :
  forall data nx ny nz x y, length data = cells [nx; ny; nz] -> fits_int x -> fits_int y ->
  ~ corner (Z.of_nat nx) (Z.of_nat ny) x y ->
  exists out, bilinear data x y (Z.of_nat nx) (Z.of_nat ny) nz = Ok out /\ length out = nz.
Proof.
  intros data nx ny nz x y L FX FY NC. eexists. split.
  - apply bilinear_spec; auto. rewrite L. cbn [cells]. lia.
  - rewrite map_length, seq_length. reflexivity.
Qed.
Print Assumptions C12_no_read_outside.

(** Between the extrema of the cells around the position. *)
Theorem C12_between_surrounding_cells :
  forall data nx ny nz x y z lo hi out, length data = cells [nx; ny; nz] -> fits_int x -> fits_int y ->
  (- (1#2) < x)%Q -> (x < inject_Z (Z.of_nat nx) - (1#2))%Q ->
  (- (1#2) < y)%Q -> (y < inject_Z (Z.of_nat ny) - (1#2))%Q ->
  (z < nz)%nat ->
  (forall i j, (i < nx)%nat -> (j < ny)%nat ->
     (Qabs (x - inject_Z (Z.of_nat i)) <= 1)%Q -> (Qabs (y - inject_Z (Z.of_nat j)) <= 1)%Q ->
     exists v, cell3 data nx ny nz i j z = Some (Some v) /\ (lo <= v <= hi)%Qc) ->
  bilinear data x y (Z.of_nat nx) (Z.of_nat ny) nz = Ok out ->
  exists r, nth_error out z = Some (Some r) /\ (lo <= r <= hi)%Qc.
Proof.
  intros data nx ny nz x y z lo hi out L FX FY X1 X2 Y1 Y2 HZ H E.
  assert (forall n u, (- (1#2) < u)%Q -> (u < inject_Z (Z.of_nat n) - (1#2))%Q -> 0 <= lround u < Z.of_nat n) as R.
  { intros n u U1 U2. apply lround_range. repeat split; auto.
    assert (inject_Z 0 < inject_Z (Z.of_nat n))%Q as P by (change (inject_Z 0) with 0%Q; lra).
    rewrite <- Zlt_Qlt in P. lia. }
  pose proof (R nx x X1 X2) as RX. pose proof (R ny y Y1 Y2) as RY.
  rewrite bilinear_spec in E; auto.
  2:{ rewrite L. cbn [cells]. lia. }
  2:{ intros (_ & _ & C). lia. }
  injection E as <-.
  destruct (bil_between (Z.of_nat nx) (Z.of_nat ny) x y (fun i j => at3 data nx ny i j z) lo hi) as (r & ER & B).
  - apply weights_nonempty. auto.
  - apply weights_nonempty. auto.
  - intros i j a b I J. pose proof (weights_range _ _ _ _ I) as RI. pose proof (weights_range _ _ _ _ J) as RJ.
    destruct (H (Z.to_nat i) (Z.to_nat j)) as (v & EV & B); try lia.
    + rewrite Z2Nat.id by lia. eapply weights_near; eauto.
    + rewrite Z2Nat.id by lia. eapply weights_near; eauto.
    + rewrite cell3_at3 in EV by (auto; lia). rewrite !Z2Nat.id in EV by lia.
      injection EV as EV. eauto.
  - exists r. split; auto. rewrite nth_error_map, nth_error_seq.
    destruct (Nat.ltb_spec z nz); [|lia]. cbn. rewrite <- ER. reflexivity.
Qed.
Print Assumptions C12_between_surrounding_cells.

(** Exact at grid points as soon as the cells to the right and above are defined. *)
Theorem C12_grid_points :
  forall data nx ny nz i j z v out, length data = cells [nx; ny; nz] ->
  Z.of_nat nx < 2 ^ 31 -> Z.of_nat ny < 2 ^ 31 -> (i < nx)%nat -> (j < ny)%nat -> (z < nz)%nat ->
  cell3 data nx ny nz i j z = Some (Some v) ->
  (forall i' j', (i <= i' <= i + 1)%nat -> (j <= j' <= j + 1)%nat -> (i' < nx)%nat -> (j' < ny)%nat ->
     cell3 data nx ny nz i' j' z <> Some None) ->
  bilinear data (inject_Z (Z.of_nat i)) (inject_Z (Z.of_nat j)) (Z.of_nat nx) (Z.of_nat ny) nz = Ok out ->
  nth_error out z = Some (Some v).
Proof.
  intros data nx ny nz i j z v out L BX BY HI HJ HZ E D EO.
  assert (forall n k, Z.of_nat n < 2 ^ 31 -> (k < n)%nat -> fits_int (inject_Z (Z.of_nat k))) as F.
  { intros n k B K. unfold fits_int. rewrite Qfloor_Z, lround_int. lia. }
  rewrite bilinear_spec in EO; eauto.
  2:{ rewrite L. cbn [cells]. lia. }
  2:{ intros (_ & _ & C). rewrite lround_int in C. lia. }
  injection EO as <-. rewrite nth_error_map, nth_error_seq. destruct (Nat.ltb_spec z nz); [|lia]. cbn [option_map Nat.add].
  f_equal. apply (bil_grid_point (Z.of_nat nx) (Z.of_nat ny) (Z.of_nat i) (Z.of_nat j)); try lia.
  - rewrite cell3_at3 in E by auto. injection E as E. exact E.
  - intros i' j' A1 A2 A3 A4. specialize (D (Z.to_nat i') (Z.to_nat j')).
    rewrite cell3_at3 in D by (auto; lia). rewrite !Z2Nat.id in D by lia.
    intro C. apply D; try lia. rewrite C. reflexivity.
Qed.
Print Assumptions C12_grid_points.

(** Affine fields are reproduced exactly. *)
Theorem C12_affine_exact :
  forall data nx ny nz x y z a b d out, length data = cells [nx; ny; nz] ->
  (0 <= x)%Q -> (x <= inject_Z (Z.of_nat nx - 1))%Q -> (0 <= y)%Q -> (y <= inject_Z (Z.of_nat ny - 1))%Q ->
  fits_int x -> fits_int y -> (z < nz)%nat ->
  (forall i j, (i < nx)%nat -> (j < ny)%nat ->
     cell3 data nx ny nz i j z = Some (Some (a + b * qz (Z.of_nat i) + d * qz (Z.of_nat j))%Qc)) ->
  bilinear data x y (Z.of_nat nx) (Z.of_nat ny) nz = Ok out ->
  nth_error out z = Some (Some (a + b * Q2Qc x + d * Q2Qc y)%Qc).
Proof.
  intros data nx ny nz x y z a b d out L X1 X2 Y1 Y2 FX FY HZ H E.
  rewrite bilinear_spec in E; auto.
  2:{ rewrite L. cbn [cells]. lia. }
  2:{ intros (_ & _ & C). assert (0 <= lround y < Z.of_nat ny); [|lia]. apply lround_range.
      unfold Zminus in Y2. rewrite inject_Z_plus in Y2. change (inject_Z (-(1))) with (-1)%Q in Y2.
      assert (inject_Z 0 < inject_Z (Z.of_nat ny))%Q as P by (change (inject_Z 0) with 0%Q; lra).
      rewrite <- Zlt_Qlt in P. repeat split; try lra. auto. }
  injection E as <-. rewrite nth_error_map, nth_error_seq. destruct (Nat.ltb_spec z nz); [|lia]. cbn [option_map Nat.add].
  f_equal. transitivity (bil_point (Z.of_nat nx) (Z.of_nat ny) x y
     (fun i j => Some (a + b * qz i + d * qz j)%Qc)); [|apply bil_affine; auto].
  apply bil_point_ext. intros i j HI HJ. specialize (H (Z.to_nat i) (Z.to_nat j)).
  rewrite cell3_at3 in H by (auto; lia). rewrite !Z2Nat.id in H by lia. specialize (H ltac:(lia) ltac:(lia)).
  injection H as H. exact H.
Qed.
Print Assumptions C12_affine_exact.

(** Undefined outside. *)
Theorem C12_undefined_outside :
  forall data nx ny nz x y out, length data = cells [nx; ny; nz] -> fits_int x -> fits_int y ->
  ~ corner (Z.of_nat nx) (Z.of_nat ny) x y ->
  (x <= - (1#2))%Q \/ (inject_Z (Z.of_nat nx) - (1#2) <= x)%Q \/
  (y <= - (1#2))%Q \/ (inject_Z (Z.of_nat ny) - (1#2) <= y)%Q ->
  bilinear data x y (Z.of_nat nx) (Z.of_nat ny) nz = Ok out -> out = repeat None nz.
Proof.
  intros data nx ny nz x y out L FX FY NC O E.
  rewrite bilinear_spec in E; auto.
  2:{ rewrite L. cbn [cells]. lia. }
  injection E as <-. apply nth_error_ext. intro k. rewrite nth_error_map, nth_error_seq, nth_error_repeat.
  destruct (Nat.ltb k nz); auto. cbn [option_map]. f_equal.
  assert (weights (Z.of_nat nx) x = [] \/ weights (Z.of_nat ny) y = []) as W.
  { destruct (weights (Z.of_nat nx) x) eqn:EX; auto. destruct (weights (Z.of_nat ny) y) eqn:EY; auto. exfalso.
    assert (weights (Z.of_nat nx) x <> []) as WX by congruence.
    assert (weights (Z.of_nat ny) y <> []) as WY by congruence.
    apply weights_nonempty, lround_range in WX, WY. lra. }
  unfold bil_point. destruct W as [-> | ->]; auto. destruct (weights (Z.of_nat nx) x); auto.
Qed.
Print Assumptions C12_undefined_outside.

(** Finding: in the half-cell strip above the last row, when the column is in a border too, the
    row test admits row ny and the last level is read outside the field. *)
Theorem C12_corner_strip_refuted :
  forall data nx ny nz x y, length data = cells [nx; ny; nz] -> fits_int x -> fits_int y ->
  (0 < nz)%nat -> (0 < ny)%nat ->
  ~ (0 <= Qfloor x /\ Qfloor x + 1 < Z.of_nat nx) -> 0 <= lround x < Z.of_nat nx -> lround y = Z.of_nat ny ->
  bilinear data x y (Z.of_nat nx) (Z.of_nat ny) nz = UB.
Proof.
  intros data nx ny nz x y L FX FY PZ PY C1 C2 C3. apply bilinear_corner; auto.
  - rewrite L. cbn [cells]. lia.
  - split; auto.
Qed.
Print Assumptions C12_corner_strip_refuted.

(** Finding: a cell of weight zero still makes the result undefined: (0,0) is exactly on a defined
    cell. *)
Theorem C12_undefined_neighbour_refuted :
  bilinear [Some 1%Qc; None; Some 1%Qc; Some 1%Qc] 0 0 2 2 1 = Ok [None].
Proof. vm_compute. reflexivity. Qed.
Print Assumptions C12_undefined_neighbour_refuted.

Definition ex_field : list value := map (fun k => Some (qz k)) [1; 2; 4;  5; 8; 7;  0; 0; 0;  9; 9; 9].
Example C12_nonvacuous :
  length ex_field = cells [3; 2; 2]%nat /\ fits_int (1#2) /\ fits_int (1#4) /\
  ~ corner 3 2 (1#2) (1#4) /\
  exists a b, bilinear ex_field (1#2) (1#4) 3 2 2 = Ok [Some a; Some b] /\ a = Q2Qc (11#4) /\ b = Q2Qc (9#4) /\
  corner 3 2 (inject_Z 2) (3#2).
Proof.
  split; [reflexivity|]. split; [repeat split; vm_compute; congruence|].
  split; [repeat split; vm_compute; congruence|].
  split. { intros (_ & _ & C). vm_compute in C. discriminate. }
  eexists. eexists. split; [vm_compute; reflexivity|].
  split; [apply Qc_is_canon; reflexivity|]. split; [apply Qc_is_canon; reflexivity|].
  split; [|split].
  - intros [_ C]. vm_compute in C. discriminate.
  - vm_compute. split; congruence.
  - reflexivity.
Qed.

(** ** C57: bicubic interpolation *)

(** The result is the sum over the 4x4 cells around the position, weighted by the cubic
    convolution kernel (a = -1/2) of the distances; undefined when one of the cells does not
    exist; no read outside the field. *)
Theorem C57_cubic_convolution :
  forall data nx ny nz x y, length data = cells [nx; ny; nz] -> fits_int x -> fits_int y ->
  exists out, bicubic data x y (Z.of_nat nx) (Z.of_nat ny) nz = Ok out /\ length out = nz /\
  forall z, (z < nz)%nat -> nth_error out z = Some
    (if ((1 <=? Qfloor x) && (Qfloor x + 2 <? Z.of_nat nx) && ((1 <=? Qfloor y) && (Qfloor y + 2 <? Z.of_nat ny)))%Z
     then wsum (map (fun l => (Q2Qc (kernel (y - inject_Z (Qfloor y + l))),
            wsum (map (fun k => (Q2Qc (kernel (x - inject_Z (Qfloor x + k))),
                                 at3 data nx ny (Qfloor x + k) (Qfloor y + l) z)) [-1; 0; 1; 2])))
                    [-1; 0; 1; 2])
     else None).
Proof.
  intros data nx ny nz x y L FX FY. eexists. split; [|split].
  - apply bicubic_spec; auto. rewrite L. cbn [cells]. lia.
  - rewrite map_length, seq_length. reflexivity.
  - intros z HZ. rewrite nth_error_map, nth_error_seq. destruct (Nat.ltb_spec z nz); [|lia]. reflexivity.
Qed.
Print Assumptions C57_cubic_convolution.

(** Biquadratic fields are reproduced exactly. *)
Theorem C57_quadratic_exact :
  forall data nx ny nz x y z (p : nat -> nat -> Qc) out,
  let poly (u v : Qc) := (p 0%nat 0%nat + p 1%nat 0%nat * u + p 2%nat 0%nat * u * u
     + (p 0%nat 1%nat + p 1%nat 1%nat * u + p 2%nat 1%nat * u * u) * v
     + (p 0%nat 2%nat + p 1%nat 2%nat * u + p 2%nat 2%nat * u * u) * v * v)%Qc in
  length data = cells [nx; ny; nz] -> fits_int x -> fits_int y ->
  (1 <= x)%Q -> (x < inject_Z (Z.of_nat nx - 2))%Q -> (1 <= y)%Q -> (y < inject_Z (Z.of_nat ny - 2))%Q ->
  (z < nz)%nat ->
  (forall i j, (i < nx)%nat -> (j < ny)%nat ->
     cell3 data nx ny nz i j z = Some (Some (poly (qz (Z.of_nat i)) (qz (Z.of_nat j))))) ->
  bicubic data x y (Z.of_nat nx) (Z.of_nat ny) nz = Ok out ->
  nth_error out z = Some (Some (poly (Q2Qc x) (Q2Qc y))).
Proof.
  intros data nx ny nz x y z p out poly L FX FY X1 X2 Y1 Y2 HZ H E.
  assert (forall n u, (1 <= u)%Q -> (u < inject_Z (Z.of_nat n - 2))%Q -> cub_inside (Z.of_nat n) u = true) as CI.
  { intros n u U1 U2. pose proof (Qfloor_bounds u) as [B1 B2]. unfold cub_inside.
    assert (inject_Z (Qfloor u) < inject_Z (Z.of_nat n - 2))%Q as G1 by lra.
    assert (inject_Z 0 < inject_Z (Qfloor u))%Q as G2 by (change (inject_Z 0) with 0%Q; lra).
    rewrite <- Zlt_Qlt in G1, G2. lia. }
  rewrite bicubic_spec in E; auto.
  2:{ rewrite L. cbn [cells]. lia. }
  injection E as <-. rewrite nth_error_map, nth_error_seq. destruct (Nat.ltb_spec z nz); [|lia]. cbn [option_map Nat.add].
  f_equal. transitivity (cub_point (Z.of_nat nx) (Z.of_nat ny) x y (fun i j => Some (poly (qz i) (qz j)))).
  - apply cub_point_ext. intros i j HI HJ. specialize (H (Z.to_nat i) (Z.to_nat j)).
    rewrite cell3_at3 in H by (auto; lia). rewrite !Z2Nat.id in H by lia. specialize (H ltac:(lia) ltac:(lia)).
    injection H as H. exact H.
  - apply cub_quadratic; auto.
Qed.
Print Assumptions C57_quadratic_exact.

Theorem C57_grid_points :
  forall data nx ny nz i j z out, length data = cells [nx; ny; nz] ->
  Z.of_nat nx < 2 ^ 31 -> Z.of_nat ny < 2 ^ 31 ->
  (1 <= i)%nat -> (i + 2 < nx)%nat -> (1 <= j)%nat -> (j + 2 < ny)%nat -> (z < nz)%nat ->
  (forall i' j', (i - 1 <= i' <= i + 2)%nat -> (j - 1 <= j' <= j + 2)%nat ->
     cell3 data nx ny nz i' j' z <> Some None) ->
  bicubic data (inject_Z (Z.of_nat i)) (inject_Z (Z.of_nat j)) (Z.of_nat nx) (Z.of_nat ny) nz = Ok out ->
  nth_error out z = cell3 data nx ny nz i j z.
Proof.
  intros data nx ny nz i j z out L BX BY I1 I2 J1 J2 HZ D E.
  assert (forall n k, Z.of_nat n < 2 ^ 31 -> (k < n)%nat -> fits_int (inject_Z (Z.of_nat k))) as F.
  { intros n k B K. unfold fits_int. rewrite Qfloor_Z, lround_int. lia. }
  rewrite bicubic_spec in E; [|rewrite L; cbn [cells]; lia|apply (F nx); [auto|lia]|apply (F ny); [auto|lia]].
  injection E as <-. rewrite nth_error_map, nth_error_seq. destruct (Nat.ltb_spec z nz); [|lia]. cbn [option_map Nat.add].
  rewrite cell3_at3 by (auto; lia). f_equal.
  apply (cub_grid_point _ _ _ _ (fun i j => at3 data nx ny i j z)); try lia.
  intros i' j' A1 A2. specialize (D (Z.to_nat i') (Z.to_nat j')).
  rewrite cell3_at3 in D by (auto; lia). rewrite !Z2Nat.id in D by lia.
  intro C. apply D; try lia. rewrite C. reflexivity.
Qed.
Print Assumptions C57_grid_points.

(** Not a convex combination: the result can leave the range of the cells. *)
Theorem C57_overshoot_refuted :
  exists r, bicubic (map (fun k => Some (qz k)) [0;1;1;0; 0;1;1;0; 0;1;1;0; 0;1;1;0]) (3#2) (3#2) 4 4 1 = Ok [Some r]
    /\ (1 < r)%Qc.
Proof. eexists. split; [vm_compute; reflexivity|]. vm_compute. reflexivity. Qed.
Print Assumptions C57_overshoot_refuted.

Example C57_nonvacuous :
  let data := map (fun k => Some (qz (Z.of_nat k))) (seq 0 20) in
  length data = cells [5; 4; 1]%nat /\ fits_int (5#2) /\ fits_int (3#2) /\
  exists r, bicubic data (5#2) (3#2) 5 4 1 = Ok [Some r] /\ r = qz 10.
Proof.
  cbv zeta. split; [reflexivity|]. split; [repeat split; vm_compute; congruence|].
  split; [repeat split; vm_compute; congruence|]. eexists. split; [vm_compute; reflexivity|].
  apply Qc_is_canon. reflexivity.
Qed.

(** ** C58: reading only the needed part of the input does not change the result *)

(** The part asked for lies inside the input grid. *)
Theorem C58_request_inside_input :
  forall pts nx ny, pts <> [] -> 0 < nx -> 0 < ny ->
  exists g, create_reduced pts nx ny = Ok g /\
    0 <= ci_x0 g /\ 0 <= ci_y0 g /\ 0 < ci_inX g /\ 0 < ci_inY g /\
    ci_x0 g + ci_inX g <= nx /\ ci_y0 g + ci_inY g <= ny.
Proof.
  intros pts nx ny NE PX PY. destruct (create_reduced_spec pts nx ny NE PX PY) as (g & E & H). exists g. tauto.
Qed.
Print Assumptions C58_request_inside_input.

(** Bilinear: interpolating from the requested part [field] gives, for every output cell and
    level, what the point function gives on the whole field. *)
Theorem C58_bilinear_reduction :
  forall nx ny nz pts data field g, pts <> [] -> (0 < nx)%nat -> (0 < ny)%nat ->
  Z.of_nat nx < 2 ^ 31 -> Z.of_nat ny < 2 ^ 31 -> length data = cells [nx; ny; nz] ->
  (forall p, In p pts -> fits_int (fst p) /\ fits_int (snd p) /\ ~ corner (Z.of_nat nx) (Z.of_nat ny) (fst p) (snd p)) ->
  create_reduced pts (Z.of_nat nx) (Z.of_nat ny) = Ok g ->
  is_box data [nx; ny; nz] [Z.to_nat (ci_x0 g); Z.to_nat (ci_y0 g); 0%nat]
         [Z.to_nat (ci_inX g); Z.to_nat (ci_inY g); nz] field ->
  exists out, cached_interpolate bilinear g field = Ok out /\ length out = (length pts * nz)%nat /\
  forall o p z col, nth_error pts o = Some p -> (z < nz)%nat ->
    bilinear data (fst p) (snd p) (Z.of_nat nx) (Z.of_nat ny) nz = Ok col ->
    nth_error out (o + length pts * z) = nth_error col z.
Proof.
  intros nx ny nz pts data field g NE PX PY BX BY L H EG BOX.
  pose proof (cached_spec bilinear bil_point _ bilinear_computes nx ny nz pts data field g NE PX PY BX BY L H EG BOX) as E.
  eexists. split; [exact E|].
  assert (Forall (fun b => length b = length pts) (map (fun z => map (fun p => bil_point (Z.of_nat nx) (Z.of_nat ny) (fst p) (snd p)
     (fun i j => at3 data nx ny i j z)) pts) (seq 0 nz))) as FB.
  { apply Forall_forall. intros b I. apply in_map_iff in I as (z & <- & _). apply map_length. }
  split.
  - rewrite (length_concat_blocks (length pts)) by exact FB. rewrite map_length, seq_length. lia.
  - intros o p z col EO HZ EC. destruct (H p (nth_error_In _ _ EO)) as (F1 & F2 & NC).
    rewrite bilinear_spec in EC; auto. 2:{ rewrite L. cbn [cells]. lia. } injection EC as <-.
    assert (o < length pts)%nat by (apply nth_error_Some; congruence).
    etransitivity.
    + apply (nth_error_concat_blocks (length pts)) with (b := map (fun p => bil_point (Z.of_nat nx) (Z.of_nat ny) (fst p) (snd p)
         (fun i j => at3 data nx ny i j z)) pts); auto.
      rewrite nth_error_map, nth_error_seq. destruct (Nat.ltb_spec z nz); [|lia]. reflexivity.
    + rewrite !nth_error_map, nth_error_seq, EO. destruct (Nat.ltb_spec z nz); [|lia]. reflexivity.
Qed.
Print Assumptions C58_bilinear_reduction.

Theorem C58_bicubic_reduction :
  forall nx ny nz pts data field g, pts <> [] -> (0 < nx)%nat -> (0 < ny)%nat ->
  Z.of_nat nx < 2 ^ 31 -> Z.of_nat ny < 2 ^ 31 -> length data = cells [nx; ny; nz] ->
  (forall p, In p pts -> fits_int (fst p) /\ fits_int (snd p)) ->
  create_reduced pts (Z.of_nat nx) (Z.of_nat ny) = Ok g ->
  is_box data [nx; ny; nz] [Z.to_nat (ci_x0 g); Z.to_nat (ci_y0 g); 0%nat]
         [Z.to_nat (ci_inX g); Z.to_nat (ci_inY g); nz] field ->
  exists out, cached_interpolate bicubic g field = Ok out /\ length out = (length pts * nz)%nat /\
  forall o p z col, nth_error pts o = Some p -> (z < nz)%nat ->
    bicubic data (fst p) (snd p) (Z.of_nat nx) (Z.of_nat ny) nz = Ok col ->
    nth_error out (o + length pts * z) = nth_error col z.
Proof.
  intros nx ny nz pts data field g NE PX PY BX BY L H EG BOX.
  assert (forall p, In p pts -> fits_int (fst p) /\ fits_int (snd p) /\ True) as H' by (intros p I; specialize (H p I); tauto).
  pose proof (cached_spec bicubic cub_point _ bicubic_computes nx ny nz pts data field g NE PX PY BX BY L H' EG BOX) as E.
  eexists. split; [exact E|].
  assert (Forall (fun b => length b = length pts) (map (fun z => map (fun p => cub_point (Z.of_nat nx) (Z.of_nat ny) (fst p) (snd p)
     (fun i j => at3 data nx ny i j z)) pts) (seq 0 nz))) as FB.
  { apply Forall_forall. intros b I. apply in_map_iff in I as (z & <- & _). apply map_length. }
  split.
  - rewrite (length_concat_blocks (length pts)) by exact FB. rewrite map_length, seq_length. lia.
  - intros o p z col EO HZ EC. destruct (H p (nth_error_In _ _ EO)) as (F1 & F2).
    rewrite bicubic_spec in EC; auto. 2:{ rewrite L. cbn [cells]. lia. } injection EC as <-.
    assert (o < length pts)%nat by (apply nth_error_Some; congruence).
    etransitivity.
    + apply (nth_error_concat_blocks (length pts)) with (b := map (fun p => cub_point (Z.of_nat nx) (Z.of_nat ny) (fst p) (snd p)
         (fun i j => at3 data nx ny i j z)) pts); auto.
      rewrite nth_error_map, nth_error_seq. destruct (Nat.ltb_spec z nz); [|lia]. reflexivity.
    + rewrite !nth_error_map, nth_error_seq, EO. destruct (Nat.ltb_spec z nz); [|lia]. reflexivity.
Qed.
Print Assumptions C58_bicubic_reduction.

(** Finding: an empty output grid dereferences the end of the position array. *)
Theorem C58_empty_output_refuted : forall nx ny, create_reduced [] nx ny = UB.
Proof. reflexivity. Qed.
Print Assumptions C58_empty_output_refuted.

Example C58_nonvacuous :
  let pts := [((25#4), (11#2)); (inject_Z 7, (15#4)); ((27#4), inject_Z 6)]%Q in
  let data := map (fun k => Some (qz (Z.of_nat k))) (seq 0 240) in
  exists g, create_reduced pts 12 10 = Ok g /\
    (ci_x0 g, ci_y0 g, ci_inX g, ci_inY g) = (4, 1, 6, 8) /\
    (forall p, In p pts -> fits_int (fst p) /\ fits_int (snd p) /\ ~ corner 12 10 (fst p) (snd p)) /\
    is_box data [12; 10; 2]%nat [4; 1; 0]%nat [6; 8; 2]%nat (RegridProps.box_of None data [12; 10; 2]%nat [4; 1; 0]%nat [6; 8; 2]%nat).
Proof.
  cbv zeta. eexists. split; [vm_compute; reflexivity|]. split; [reflexivity|]. split.
  - intros p [<-|[<-|[<-|[]]]]; (split; [repeat split; vm_compute; congruence|]);
      (split; [repeat split; vm_compute; congruence|]); intros (_ & _ & C); vm_compute in C; discriminate.
  - apply is_box_of_spec; vm_compute; reflexivity.
Qed.
