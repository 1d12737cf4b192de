(** Specification and lemmas for C09, C10, C11. *)
From Coq Require Import ZArith NArith QArith Qcanon List Bool Lia Permutation.
From Coq Require Import ZifyBool ZifyNat ZifyN.
From Verif Require Import Base IndexSpec SliceProofs ReaderProofs ExtractProofs Rounding RegridModel.
Import ListNotations.
Local Open Scope nat_scope.

(** ** Specification *)

(** The cell of an nx*ny grid nearest to a position, if it exists. *)
Definition cell_of (nx ny : nat) (p : Q * Q) : option (nat * nat) :=
  let r := lround (fst p) in let s := lround (snd p) in
  if ((0 <=? r) && (r <? Z.of_nat nx) && (0 <=? s) && (s <? Z.of_nat ny))%Z
  then Some (Z.to_nat r, Z.to_nat s) else None.

(** The rounded position can be represented as an int. *)
Definition int_range (p : Q * Q) : Prop :=
  (- 2 ^ 31 <= lround (fst p) < 2 ^ 31 /\ - 2 ^ 31 <= lround (snd p) < 2 ^ 31)%Z.

(** Positions without NaN. *)
Definition known (p : Q * Q) : option Q * option Q := (Some (fst p), Some (snd p)).

(** ** Rounding and clamping *)

Lemma INVALID_val : INVALID = 4294967295%N.
Proof. reflexivity. Qed.

Lemma round_clamp_spec nan n q :
  (- 2 ^ 31 <= lround q < 2 ^ 31)%Z -> 0 < n -> (N.of_nat n < 2 ^ 32)%N ->
  round_clamp nan (N.of_nat n - 1) (Some q) =
  if ((0 <=? lround q) && (lround q <? Z.of_nat n))%Z then Z.to_N (lround q) else INVALID.
Proof.
  intros R P B. unfold round_clamp. rewrite to_int32_small by exact R.
  destruct (Z.leb_spec 0 (lround q)) as [C|C].
  - rewrite to_size_small by lia. cbn [andb].
    destruct (Z.ltb_spec (lround q) (Z.of_nat n)), (N.leb_spec (Z.to_N (lround q)) (N.of_nat n - 1)); auto; lia.
  - rewrite to_size_neg by lia. cbn [andb].
    destruct (N.leb_spec (Z.to_N (2 ^ 64 + lround q)) (N.of_nat n - 1)); auto; lia.
Qed.

Lemma clamp_pair nan nx ny p :
  int_range p -> 0 < nx -> 0 < ny -> (N.of_nat nx < 2 ^ 32)%N -> (N.of_nat ny < 2 ^ 32)%N ->
  let ix := round_clamp nan (N.of_nat nx - 1) (fst (known p)) in
  let iy := round_clamp nan (N.of_nat ny - 1) (snd (known p)) in
  match cell_of nx ny p with
  | Some (x, y) => x < nx /\ y < ny /\ ix = N.of_nat x /\ iy = N.of_nat y /\
                   negb (ix =? INVALID)%N && negb (iy =? INVALID)%N = true
  | None => negb (ix =? INVALID)%N && negb (iy =? INVALID)%N = false
  end.
Proof.
  intros [R1 R2] PX PY BX BY. cbn [known fst snd].
  rewrite !round_clamp_spec by assumption. unfold cell_of. rewrite INVALID_val.
  destruct (Z.leb_spec 0 (lround (fst p))), (Z.ltb_spec (lround (fst p)) (Z.of_nat nx)),
    (Z.leb_spec 0 (lround (snd p))), (Z.ltb_spec (lround (snd p)) (Z.of_nat ny)); cbn [andb];
    try (repeat split; lia); lia.
Qed.

(** ** The used range and the reduced domain *)

Definition covers (r : range) (x y : nat) : Prop :=
  (minX r <= N.of_nat x <= maxX r /\ minY r <= N.of_nat y <= maxY r)%N.

Lemma widen_covers r ix iy x y : covers r x y -> covers (widen r ix iy) x y.
Proof.
  unfold covers, widen. cbn [minX maxX minY maxY]. intros H.
  destruct (N.ltb_spec ix (minX r)), (N.ltb_spec (maxX r) ix), (N.ltb_spec iy (minY r)),
    (N.ltb_spec (maxY r) iy); lia.
Qed.

(** an initial range for which the first widening is correct, or a correct one *)
Definition sane (r : range) (nx ny : nat) : Prop :=
  (minX r = N.of_nat nx /\ maxX r = 0 /\ minY r = N.of_nat ny /\ maxY r = 0 \/
   minX r <= maxX r /\ minY r <= maxY r)%N.

Lemma widen_sane r x y nx ny : x < nx -> y < ny -> sane r nx ny ->
  sane (widen r (N.of_nat x) (N.of_nat y)) nx ny /\
  covers (widen r (N.of_nat x) (N.of_nat y)) x y.
Proof.
  unfold sane, covers, widen. cbn [minX maxX minY maxY]. intros HX HY H.
  destruct (N.ltb_spec (N.of_nat x) (minX r)), (N.ltb_spec (maxX r) (N.of_nat x)),
    (N.ltb_spec (N.of_nat y) (minY r)), (N.ltb_spec (maxY r) (N.of_nat y)); lia.
Qed.

Lemma shrink_fits nx ny r x0 y0 rx ry :
  0 < nx -> 0 < ny ->
  shrink (N.of_nat nx) (N.of_nat ny) r = Some (x0, y0, (rx, ry)) ->
  (x0 + rx <= N.of_nat nx /\ y0 + ry <= N.of_nat ny /\ 0 < rx /\ 0 < ry)%N.
Proof.
  intros PX PY. unfold shrink, EXTEND.
  set (a := if (2 <? minX r)%N then (minX r - 2)%N else 0%N).
  set (b := if (2 <? minY r)%N then (minY r - 2)%N else 0%N).
  destruct (_ && _ && _) eqn:E; [|discriminate]. intro H; injection H as <- <- <- <-.
  apply andb_true_iff in E as [E E3]. apply andb_true_iff in E as [E1 E2].
  apply N.leb_le in E2, E3. lia.
Qed.

Lemma shrink_covers nx ny r x0 y0 rx ry x y :
  x < nx -> y < ny -> covers r x y ->
  shrink (N.of_nat nx) (N.of_nat ny) r = Some (x0, y0, (rx, ry)) ->
  (x0 <= N.of_nat x < x0 + rx /\ y0 <= N.of_nat y < y0 + ry)%N.
Proof.
  intros PX PY [C1 C2]. unfold shrink, EXTEND.
  set (a := if (2 <? minX r)%N then (minX r - 2)%N else 0%N).
  set (b := if (2 <? minY r)%N then (minY r - 2)%N else 0%N).
  assert (a <= minX r)%N as HA by (unfold a; destruct (N.ltb_spec 2 (minX r)); lia).
  assert (b <= minY r)%N as HB by (unfold b; destruct (N.ltb_spec 2 (minY r)); lia).
  destruct (_ && _ && _) eqn:E; [|discriminate]. intro H; injection H as <- <- <- <-.
  apply andb_true_iff in E as [E E3]. apply andb_true_iff in E as [E1 E2].
  apply N.leb_le in E2, E3. lia.
Qed.

Lemma remap_spec nx x y x0 y0 rx ry :
  x < nx -> (x0 <= N.of_nat x < x0 + rx)%N -> (y0 <= N.of_nat y < y0 + ry)%N ->
  remap (N.of_nat nx) x0 y0 rx (N.of_nat (x + nx * y)) =
  ((N.of_nat y - y0) * rx + (N.of_nat x - x0))%N.
Proof.
  intros HX HXR HYR. unfold remap.
  assert (N.of_nat (x + nx * y) / N.of_nat nx = N.of_nat y)%N as ->.
  { symmetry. apply (N.div_unique _ _ _ (N.of_nat x)); lia. }
  assert (N.of_nat (x + nx * y) mod N.of_nat nx = N.of_nat x)%N as ->.
  { symmetry. apply (N.mod_unique _ _ (N.of_nat y)); lia. }
  reflexivity.
Qed.

(** ** Nearest neighbour *)

Lemma nn_index_spec nan nx ny p :
  int_range p -> 0 < nx -> 0 < ny -> (N.of_nat (nx * ny) < 2 ^ 32)%N ->
  nn_index nan (N.of_nat nx) (N.of_nat ny) (known p) =
  match cell_of nx ny p with Some (x, y) => N.of_nat (x + nx * y) | None => INVALID end.
Proof.
  intros R PX PY B.
  assert (N.of_nat nx < 2 ^ 32 /\ N.of_nat ny < 2 ^ 32)%N as [BX BY] by nia.
  pose proof (clamp_pair nan nx ny p R PX PY BX BY) as H. cbv zeta in H. unfold nn_index.
  destruct (cell_of nx ny p) as [[x y]|].
  - destruct H as (HX & HY & -> & -> & ->). lia.
  - rewrite H. reflexivity.
Qed.

Lemma cell_of_bound nx ny p x y : cell_of nx ny p = Some (x, y) -> x < nx /\ y < ny.
Proof.
  unfold cell_of. destruct (_ && _ && _ && _) eqn:E; [|discriminate].
  intro H; injection H as <- <-. rewrite !andb_true_iff in E. lia.
Qed.

Lemma nn_track_covers nan nx ny :
  0 < nx -> 0 < ny -> (N.of_nat (nx * ny) < 2 ^ 32)%N -> forall pts r,
  Forall int_range pts -> sane r nx ny ->
  let r' := fold_left (nn_track nan (N.of_nat nx) (N.of_nat ny)) (map known pts) r in
  (forall x y, covers r x y -> covers r' x y) /\
  forall p x y, In p pts -> cell_of nx ny p = Some (x, y) -> covers r' x y.
Proof.
  intros PX PY B.
  assert (N.of_nat nx < 2 ^ 32 /\ N.of_nat ny < 2 ^ 32)%N as [BX BY] by nia.
  induction pts as [|p pts IH]; intros r F S; cbn [map fold_left]; cbv zeta.
  - split; [auto|]. intros p x y [].
  - inversion F as [|? ? R F']; subst.
    pose proof (clamp_pair nan nx ny p R PX PY BX BY) as H. cbv zeta in H.
    set (r1 := nn_track _ _ _ r _).
    assert (sane r1 nx ny /\ (forall x y, covers r x y -> covers r1 x y) /\
            forall x y, cell_of nx ny p = Some (x, y) -> covers r1 x y) as (S1 & C1 & C2).
    { unfold r1, nn_track. destruct (cell_of nx ny p) as [[x y]|].
      - destruct H as (HX & HY & -> & -> & ->).
        destruct (widen_sane r x y nx ny HX HY S) as [W1 W2].
        split; [exact W1|]. split; [intros; apply widen_covers; auto|].
        intros ? ? E; injection E as <- <-. exact W2.
      - rewrite H. split; [exact S|]. split; [auto|discriminate]. }
    destruct (IH r1 F' S1) as [I1 I2]. split; [auto|].
    intros p' x y [<-|I] E; [apply I1; auto|eapply I2; eauto].
Qed.

(** where a position's index points to in the field the interpolator asks for *)
Lemma nn_map_spec nan nx ny pts :
  0 < nx -> 0 < ny -> (N.of_nat (nx * ny) < 2 ^ 32)%N -> Forall int_range pts ->
  let g := nn_construct nan (N.of_nat nx) (N.of_nat ny) (map known pts) in
  (nn_x0 g + nn_inX g <= N.of_nat nx /\ nn_y0 g + nn_inY g <= N.of_nat ny /\
   0 < nn_inX g /\ 0 < nn_inY g)%N /\
  exists f, nn_map g = map f pts /\ forall p, In p pts ->
    match cell_of nx ny p with
    | None => f p = INVALID
    | Some (x, y) =>
        (nn_x0 g <= N.of_nat x < nn_x0 g + nn_inX g /\
         nn_y0 g <= N.of_nat y < nn_y0 g + nn_inY g /\
         f p = (N.of_nat y - nn_y0 g) * nn_inX g + (N.of_nat x - nn_x0 g))%N
    end.
Proof.
  intros PX PY B F. cbv zeta. unfold nn_construct.
  set (r := fold_left _ _ _).
  assert (forall p x y, In p pts -> cell_of nx ny p = Some (x, y) -> covers r x y) as C.
  { apply (nn_track_covers nan nx ny PX PY B pts); auto. left. cbn. auto. }
  rewrite map_map.
  destruct (shrink _ _ r) as [[[x0 y0] [rx ry]]|] eqn:E; cbn [nn_map nn_x0 nn_y0 nn_inX nn_inY].
  - split; [eapply shrink_fits; eauto|]. rewrite map_map.
    eexists; split; [reflexivity|]. cbv beta. intros p I.
    rewrite nn_index_spec by (auto; eapply Forall_forall in F; eauto).
    destruct (cell_of nx ny p) as [[x y]|] eqn:EC; [|rewrite N.eqb_refl; reflexivity].
    destruct (cell_of_bound _ _ _ _ _ EC) as [HX HY].
    destruct (shrink_covers nx ny r x0 y0 rx ry x y HX HY (C p x y I EC) E) as [W1 W2].
    split; [exact W1|]. split; [exact W2|].
    replace (N.of_nat (x + nx * y) =? INVALID)%N with false
      by (symmetry; apply N.eqb_neq; rewrite INVALID_val; nia).
    apply (remap_spec nx x y x0 y0 rx ry); auto.
  - split; [lia|]. eexists; split; [reflexivity|]. cbv beta. intros p I.
    rewrite nn_index_spec by (auto; eapply Forall_forall in F; eauto).
    destruct (cell_of nx ny p) as [[x y]|] eqn:EC; [|reflexivity].
    destruct (cell_of_bound _ _ _ _ _ EC) as [HX HY]. lia.
Qed.

(** a cell of the reduced field *)
Lemma box_cell {A} (data field : list A) nx ny nz x0 y0 rx ry x y z :
  is_box data [nx; ny; nz] [N.to_nat x0; N.to_nat y0; 0] [N.to_nat rx; N.to_nat ry; nz] field ->
  (x0 <= N.of_nat x < x0 + rx)%N -> (y0 <= N.of_nat y < y0 + ry)%N -> z < nz ->
  nth_error field (z * N.to_nat (rx * ry) +
                   N.to_nat ((N.of_nat y - y0) * rx + (N.of_nat x - x0))) =
  nth_error data (lin [nx; ny; nz] [x; y; z]).
Proof.
  intros [_ H] HX HY HZ.
  specialize (H [x - N.to_nat x0; y - N.to_nat y0; z]).
  cbn [shift lin] in H.
  replace (N.to_nat x0 + (x - N.to_nat x0)) with x in H by lia.
  replace (N.to_nat y0 + (y - N.to_nat y0)) with y in H by lia.
  replace (0 + z) with z in H by lia. cbn [lin]. rewrite <- H.
  - f_equal. nia.
  - repeat constructor; lia.
Qed.

Lemma nn_interpolate_spec {A} (undef : A) nan nx ny nz pts data field :
  0 < nx -> 0 < ny -> (N.of_nat (nx * ny) < 2 ^ 32)%N -> Forall int_range pts ->
  length data = cells [nx; ny; nz] ->
  let g := nn_construct nan (N.of_nat nx) (N.of_nat ny) (map known pts) in
  is_box data [nx; ny; nz] [N.to_nat (nn_x0 g); N.to_nat (nn_y0 g); 0]
              [N.to_nat (nn_inX g); N.to_nat (nn_inY g); nz] field ->
  exists out, nn_interpolate undef g field = Ok out /\
    length out = length pts * nz /\
    forall z o p, z < nz -> nth_error pts o = Some p ->
      nth_error out (o + length pts * z) =
      match cell_of nx ny p with
      | Some (x, y) => nth_error data (lin [nx; ny; nz] [x; y; z])
      | None => Some undef
      end.
Proof.
  intros PX PY B F LD g BX.
  destruct (nn_map_spec nan nx ny pts PX PY B F) as [(G1 & G2 & G3 & G4) (f & EM & FM)].
  fold g in G1, G2, G3, G4, EM, FM.
  set (value_at := fun z p => match cell_of nx ny p with
                              | Some (x, y) => match nth_error data (lin [nx; ny; nz] [x; y; z]) with
                                               | Some v => v | None => undef end
                              | None => undef end).
  assert (forall p z, z < nz -> match cell_of nx ny p with
      | Some (x, y) => nth_error data (lin [nx; ny; nz] [x; y; z]) = Some (value_at z p)
      | None => value_at z p = undef end) as HV.
  { intros p z HZ. unfold value_at. destruct (cell_of nx ny p) as [[x y]|] eqn:EC; auto.
    destruct (cell_of_bound _ _ _ _ _ EC) as [HX HY].
    destruct (nth_error data _) eqn:E; auto. exfalso.
    apply nth_error_None in E. rewrite LD in E.
    assert (lin [nx; ny; nz] [x; y; z] < cells [nx; ny; nz]).
    { apply lin_lt. repeat constructor; auto. }
    lia. }
  exists (concat (map (fun z => map (value_at z) pts) (seq 0 nz))).
  assert (Forall (fun b => length b = length pts) (map (fun z => map (value_at z) pts) (seq 0 nz))) as FB.
  { apply Forall_forall. intros b I. apply in_map_iff in I as (z & <- & _). apply map_length. }
  split; [|split].
  - unfold nn_interpolate. cbv zeta.
    destruct (Nat.eqb_spec (N.to_nat (nn_inX g * nn_inY g)) 0) as [E0|E0]; [nia|].
    replace (length field / N.to_nat (nn_inX g * nn_inY g)) with nz.
    2:{ destruct BX as [LB _]. rewrite LB. cbn [cells].
        apply (Nat.div_unique _ _ _ 0); nia. }
    rewrite omapM_ok with (g := fun z => map (value_at z) pts); [reflexivity|].
    intros z IZ. apply in_seq in IZ. rewrite EM.
    rewrite omapM_ok with (g := fun i => match find (fun p => N.eqb (f p) i) pts with
                                         | Some p => value_at z p | None => undef end).
    2:{ intros i II. apply in_map_iff in II as (p & EP & IP).
        destruct (find (fun p => N.eqb (f p) i) pts) as [p'|] eqn:EF.
        2:{ exfalso. apply find_none with (x := p) in EF; auto.
            rewrite EP, N.eqb_refl in EF. discriminate. }
        apply find_some in EF as [IP' EQ]. apply N.eqb_eq in EQ.
        pose proof (FM p' IP') as H. pose proof (HV p' z ltac:(lia)) as V.
        destruct (cell_of nx ny p') as [[x y]|] eqn:EC.
        - destruct H as (H1 & H2 & H3). rewrite <- EQ, H3.
          replace (_ =? INVALID)%N with false.
          2:{ symmetry. apply N.eqb_neq. rewrite INVALID_val. nia. }
          rewrite (box_cell data field nx ny nz (nn_x0 g) (nn_y0 g)) by (auto; lia).
          rewrite V. reflexivity.
        - rewrite <- EQ, H, N.eqb_refl. congruence. }
    f_equal. rewrite map_map. apply map_ext_in. intros p IP.
    destruct (find (fun p0 => N.eqb (f p0) (f p)) pts) as [p'|] eqn:EF.
    2:{ exfalso. apply find_none with (x := p) in EF; auto. rewrite N.eqb_refl in EF. discriminate. }
    apply find_some in EF as [IP' EQ]. apply N.eqb_eq in EQ.
    pose proof (FM p IP) as H1. pose proof (FM p' IP') as H2.
    unfold value_at.
    destruct (cell_of nx ny p) as [[x y]|] eqn:E1, (cell_of nx ny p') as [[x' y']|] eqn:E2; auto.
    + assert (x = x' /\ y = y') as [-> ->]; auto.
      destruct H1 as (A1 & A2 & A3), H2 as (B1 & B2 & B3). rewrite A3, B3 in EQ.
      assert (N.of_nat x - nn_x0 g = N.of_nat x' - nn_x0 g)%N.
      { rewrite (N.mod_unique ((N.of_nat y - nn_y0 g) * nn_inX g + (N.of_nat x - nn_x0 g))
                   (nn_inX g) (N.of_nat y - nn_y0 g) (N.of_nat x - nn_x0 g)) by lia.
        rewrite <- EQ. symmetry.
        apply (N.mod_unique _ _ (N.of_nat y' - nn_y0 g)); lia. }
      split; nia.
    + exfalso. destruct H1 as (A1 & A2 & A3). rewrite A3, H2, INVALID_val in EQ. nia.
    + exfalso. destruct H2 as (A1 & A2 & A3). rewrite A3, H1, INVALID_val in EQ. nia.
  - rewrite (length_concat_blocks (length pts)) by exact FB. rewrite map_length, seq_length. lia.
  - intros z o p HZ HO.
    rewrite (nth_error_concat_blocks (length pts) _ z (map (value_at z) pts) o); [| exact FB | |].
    + rewrite nth_error_map, HO. cbn [option_map]. pose proof (HV p z HZ) as V.
      destruct (cell_of nx ny p) as [[x y]|]; [symmetry; exact V|rewrite V; reflexivity].
    + rewrite nth_error_map, nth_error_seq. destruct (Nat.ltb_spec z nz); [reflexivity|lia].
    + apply nth_error_Some. congruence.
Qed.

Lemma get_values_f_spec {A} nan (undef : A) data nx ny nz p :
  int_range p -> length data = cells [nx; ny; nz] ->
  exists out, get_values_f nan undef data (Some (fst p)) (Some (snd p)) (Z.of_nat nx) (Z.of_nat ny) nz
                = Ok out /\ length out = nz /\
    forall z, z < nz -> nth_error out z =
      match cell_of nx ny p with
      | Some (x, y) => nth_error data (lin [nx; ny; nz] [x; y; z])
      | None => Some undef
      end.
Proof.
  intros [R1 R2] LD. unfold get_values_f. rewrite !to_int32_small by assumption.
  destruct (cell_of nx ny p) as [[x y]|] eqn:EC; pose proof EC as EC2; unfold cell_of in EC;
    destruct (_ && _ && _ && _) eqn:E; try discriminate.
  - injection EC as <- <-. rewrite !andb_true_iff in E.
    set (x := Z.to_nat (lround (fst p))) in *. set (y := Z.to_nat (lround (snd p))) in *.
    destruct (cell_of_bound _ _ _ _ _ EC2) as [HX HY].
    assert (forall z, Z.to_nat ((Z.of_nat z * Z.of_nat ny + lround (snd p)) * Z.of_nat nx + lround (fst p)) =
              lin [nx; ny; nz] [x; y; z]) as HL.
    { intro z. cbn [lin]. replace (lround (fst p)) with (Z.of_nat x) by lia.
      replace (lround (snd p)) with (Z.of_nat y) by lia.
      replace ((Z.of_nat z * Z.of_nat ny + Z.of_nat y) * Z.of_nat nx + Z.of_nat x)%Z
        with (Z.of_nat ((z * ny + y) * nx + x)) by lia. rewrite Nat2Z.id. nia. }
    assert (forall z, z < nz -> exists v, nth_error data (lin [nx; ny; nz] [x; y; z]) = Some v) as HV.
    { intros z HZ. destruct (nth_error data (lin [nx; ny; nz] [x; y; z])) eqn:EN; eauto.
      apply nth_error_None in EN. rewrite LD in EN.
      assert (lin [nx; ny; nz] [x; y; z] < cells [nx; ny; nz]) by (apply lin_lt; repeat constructor; auto).
      lia. }
    rewrite omapM_ok with (g := fun z => match nth_error data (lin [nx; ny; nz] [x; y; z]) with
                                         | Some v => v | None => undef end).
    2:{ intros z IZ. apply in_seq in IZ. rewrite HL.
        destruct (HV z ltac:(lia)) as [v ->]. reflexivity. }
    eexists. split; [reflexivity|]. split; [rewrite map_length; apply seq_length|].
    intros z HZ. rewrite nth_error_map, nth_error_seq. destruct (Nat.ltb_spec z nz); [|lia].
    cbn [option_map Nat.add]. destruct (HV z HZ) as [v ->]. reflexivity.
  - eexists. split; [reflexivity|]. split; [apply repeat_length|].
    intros z HZ. rewrite nth_error_repeat. destruct (Nat.ltb_spec z nz); [reflexivity|lia].
Qed.

(** ** Aggregates: specification *)

Definition qsum (l : list Qc) : Qc := fold_right Qcplus 0%Qc l.
Definition defined (l : list value) : list value :=
  filter (fun v => match v with Some _ => true | None => false end) l.
Definition qlt (a b : Qc) : bool := match (a ?= b)%Qc with Lt => true | _ => false end.
Definition count_below (m : Qc) (l : list Qc) : nat := length (filter (fun v => qlt v m) l).
Definition count_above (m : Qc) (l : list Qc) : nat := length (filter (fun v => qlt m v) l).

(** [res] is the chosen aggregate of the numbers [qs] (not empty). *)
Definition is_aggregate (k : aggkind) (qs : list Qc) (res : Qc) : Prop :=
  match k with
  | ASum => res = qsum qs
  | AMean => (res * Q2Qc (inject_Z (Z.of_nat (length qs))) = qsum qs)%Qc
  | AMin => In res qs /\ forall q, In q qs -> (res <= q)%Qc
  | AMax => In res qs /\ forall q, In q qs -> (q <= res)%Qc
  | AMedian => In res qs /\ count_below res qs <= length qs / 2 /\
               count_above res qs <= length qs - 1 - length qs / 2
  end.

(** ** Aggregates: the object is clean after every use *)

(** result of one cell *)
Definition cell_agg (k : aggkind) (u : bool) (vs : list value) : outcome value :=
  do va <- get_and_reset k (push_all k u agg0 vs); Ok (fst va).

Definition used (u : bool) (vs : list value) : list value := if u then vs else defined vs.

Lemma push_all_used k u : forall vs a, push_all k u a vs = fold_left (push k) (used u vs) a.
Proof.
  destruct u; intros vs; unfold push_all, used.
  - intro a. apply (f_equal (fun f => fold_left f vs a)). reflexivity.
  - induction vs as [|[q|] vs IH]; intro a; cbn; auto.
Qed.

Lemma push_values k vs : k <> AMedian -> forall a, a_values (fold_left (push k) vs a) = a_values a.
Proof.
  intro K. induction vs as [|v vs IH]; intro a; cbn [fold_left]; auto.
  rewrite IH. destruct k; auto. congruence.
Qed.

Lemma push_median vs : forall a, fold_left (push AMedian) vs a =
  mkAgg (a_count a) (a_val a) (a_values a ++ vs).
Proof.
  induction vs as [|v vs IH]; intro a; cbn [fold_left].
  - rewrite app_nil_r. destruct a; reflexivity.
  - rewrite IH. cbn [push a_count a_val a_values]. rewrite <- app_assoc. reflexivity.
Qed.

Lemma get_clean k u vs : get_and_reset k (push_all k u agg0 vs) =
  (do v <- cell_agg k u vs; Ok (v, agg0)).
Proof.
  unfold cell_agg. rewrite push_all_used.
  assert (k <> AMedian -> a_values (fold_left (push k) (used u vs) agg0) = []) as V
    by (intro K; rewrite push_values by exact K; reflexivity).
  destruct k; cbn [get_and_reset]; unfold reset.
  1-4: rewrite V by discriminate; destruct (Nat.eqb _ 0); reflexivity.
  rewrite push_median. cbn [a_values agg0 app]. destruct (used u vs) as [|v l]; [reflexivity|].
  destruct (nth_sorted _ _); reflexivity.
Qed.

Lemma fw_layer_clean k u field m :
  fw_layer k u field m agg0 =
  (do l <- omapM (fun is => do vs <- omapM (fun i => rd (nth_error field (N.to_nat i))) is;
                            cell_agg k u vs) m;
   Ok (l, agg0)).
Proof.
  induction m as [|is m IH]; cbn [fw_layer omapM]; auto.
  destruct (omapM _ is) as [vs| | |]; cbn [obind]; auto.
  rewrite get_clean. destruct (cell_agg k u vs) as [v| | |]; cbn [obind fst snd]; auto.
  rewrite IH. destruct (omapM _ m); reflexivity.
Qed.

(** ** Aggregates: results *)

Lemma cell_agg_empty k u vs : used u vs = [] -> cell_agg k u vs = Ok None.
Proof. intro H. unfold cell_agg. rewrite push_all_used, H. destruct k; reflexivity. Qed.

Lemma push_count k : k <> AMedian -> forall vs a,
  a_count (fold_left (push k) vs a) = length vs + a_count a.
Proof.
  intro K. induction vs as [|v vs IH]; intro a; cbn [fold_left length]; auto.
  rewrite IH. destruct k; cbn [push a_count]; try lia. congruence.
Qed.

Lemma vadd_none_l v : vadd None v = None.
Proof. reflexivity. Qed.
Lemma vadd_none_r v : vadd v None = None.
Proof. destruct v; reflexivity. Qed.

Definition is_sum k := k = ASum \/ k = AMean.

Lemma push_sum k qs : is_sum k -> forall a x, a_val a = Some x ->
  a_val (fold_left (push k) (map Some qs) a) = Some (x + qsum qs)%Qc.
Proof.
  intro K. induction qs as [|q qs IH]; intros a x E; cbn [map fold_left qsum fold_right].
  - rewrite E. f_equal. ring.
  - assert (a_val (push k a (Some q)) = Some (x + q)%Qc) as E1
      by (destruct K; subst k; cbn [push a_val]; rewrite E; reflexivity).
    rewrite (IH _ _ E1). f_equal. fold (qsum qs). ring.
Qed.

Lemma push_sum_none k vs : is_sum k -> forall a,
  (a_val a = None \/ In None vs) -> a_val (fold_left (push k) vs a) = None.
Proof.
  intro K. induction vs as [|v vs IH]; intros a H; cbn [fold_left].
  - destruct H as [H|[]]. exact H.
  - apply IH. destruct H as [H|[->|H]]; auto; left;
      destruct K; subst k; cbn [push a_val]; rewrite ?H, ?vadd_none_r, ?vadd_none_l; reflexivity.
Qed.

Lemma qc_dec a b : (a < b)%Qc \/ (b <= a)%Qc.
Proof. destruct (Qclt_le_dec a b); auto. Qed.

Lemma vlt_spec a b : vlt (Some a) (Some b) = true <-> (a < b)%Qc.
Proof.
  cbn. unfold Qclt, Qccompare. rewrite Qlt_alt. destruct (this a ?= this b)%Q; split; congruence.
Qed.

Lemma push_min qs : forall a x, a_val a = Some x -> 0 < a_count a ->
  exists m, a_val (fold_left (push AMin) (map Some qs) a) = Some m /\
    In m (x :: qs) /\ forall q, In q (x :: qs) -> (m <= q)%Qc.
Proof.
  induction qs as [|q qs IH]; intros a x E P; cbn [map fold_left].
  - exists x. split; auto. split; [left; auto|]. intros q [<-|[]]. apply Qcle_refl.
  - destruct (Nat.eqb_spec (a_count a) 0) as [|NZ]; [lia|].
    destruct (qc_dec q x) as [C|C].
    + destruct (IH (push AMin a (Some q)) q) as (m & E1 & I & M).
      * cbn [push a_val]. destruct (Nat.eqb _ 0); auto. rewrite E.
        apply vlt_spec in C. cbn [orb]. rewrite C. reflexivity.
      * cbn. lia.
      * exists m. split; [exact E1|]. split; [right; auto|].
        intros q' [<-|I']; [|auto]. apply Qcle_trans with q; [apply M; left; auto|apply Qclt_le_weak; auto].
    + destruct (IH (push AMin a (Some q)) x) as (m & E1 & I & M).
      * cbn [push a_val]. destruct (Nat.eqb_spec (a_count a) 0); [lia|]. rewrite E.
        destruct (vlt (Some q) (Some x)) eqn:EV; auto.
        apply vlt_spec in EV. exfalso. apply (Qclt_not_le _ _ EV C).
      * cbn. lia.
      * exists m. split; [exact E1|]. split; [destruct I; [left|right; right]; auto|].
        intros q' [<-|[<-|I']]; [apply M; left; auto| |apply M; right; auto].
        apply Qcle_trans with x; auto. apply M; left; auto.
Qed.

Lemma push_max qs : forall a x, a_val a = Some x -> 0 < a_count a ->
  exists m, a_val (fold_left (push AMax) (map Some qs) a) = Some m /\
    In m (x :: qs) /\ forall q, In q (x :: qs) -> (q <= m)%Qc.
Proof.
  induction qs as [|q qs IH]; intros a x E P; cbn [map fold_left].
  - exists x. split; auto. split; [left; auto|]. intros q [<-|[]]. apply Qcle_refl.
  - destruct (Nat.eqb_spec (a_count a) 0) as [|NZ]; [lia|].
    destruct (qc_dec x q) as [C|C].
    + destruct (IH (push AMax a (Some q)) q) as (m & E1 & I & M).
      * cbn [push a_val]. destruct (Nat.eqb _ 0); auto. rewrite E.
        apply vlt_spec in C. cbn [orb]. rewrite C. reflexivity.
      * cbn. lia.
      * exists m. split; [exact E1|]. split; [right; auto|].
        intros q' [<-|I']; [|auto]. apply Qcle_trans with q; [apply Qclt_le_weak; auto|apply M; left; auto].
    + destruct (IH (push AMax a (Some q)) x) as (m & E1 & I & M).
      * cbn [push a_val]. destruct (Nat.eqb_spec (a_count a) 0); [lia|]. rewrite E.
        destruct (vlt (Some x) (Some q)) eqn:EV; auto.
        apply vlt_spec in EV. exfalso. apply (Qclt_not_le _ _ EV C).
      * cbn. lia.
      * exists m. split; [exact E1|]. split; [destruct I; [left|right; right]; auto|].
        intros q' [<-|[<-|I']]; [apply M; left; auto| |apply M; right; auto].
        apply Qcle_trans with x; auto. apply M; left; auto.
Qed.

(** sorting *)
Lemma insert_perm x l : Permutation (insert x l) (x :: l).
Proof.
  induction l as [|y l IH]; cbn; auto. destruct (x ?= y)%Qc; auto.
  eapply perm_trans; [apply perm_skip, IH|apply perm_swap].
Qed.

Lemma isort_perm l : Permutation (isort l) l.
Proof.
  induction l as [|x l IH]; cbn; auto.
  eapply perm_trans; [apply insert_perm|auto].
Qed.

Inductive ordered : list Qc -> Prop :=
| ord_nil : ordered []
| ord_cons x l : (forall y, In y l -> (x <= y)%Qc) -> ordered l -> ordered (x :: l).

Lemma insert_ordered x l : ordered l -> ordered (insert x l).
Proof.
  induction 1 as [|y l HY HO IH]; cbn.
  - constructor; [intros y []|constructor].
  - destruct (x ?= y)%Qc eqn:E.
    + constructor; [|constructor; auto]. apply Qceq_alt in E. subst.
      intros z [<-|I]; auto. apply Qcle_refl.
    + constructor; [|constructor; auto]. apply Qclt_alt in E.
      intros z [<-|I]; [apply Qclt_le_weak; auto|].
      apply Qcle_trans with y; [apply Qclt_le_weak; auto|auto].
    + apply Qcgt_alt in E. constructor; auto.
      intros z I. apply (Permutation_in _ (insert_perm x l)) in I as [<-|I]; auto.
      apply Qclt_le_weak; auto.
Qed.

Lemma isort_ordered l : ordered (isort l).
Proof. induction l; cbn; [constructor|apply insert_ordered; auto]. Qed.

Lemma ordered_nth l : ordered l -> forall i j a b, i <= j ->
  nth_error l i = Some a -> nth_error l j = Some b -> (a <= b)%Qc.
Proof.
  induction 1 as [|x l H O IH]; intros i j a b L E1 E2; [destruct i; discriminate|].
  destruct i as [|i], j as [|j]; cbn in *.
  - injection E1 as ->. injection E2 as ->. apply Qcle_refl.
  - injection E1 as ->. apply H. eapply nth_error_In; eauto.
  - lia.
  - apply (IH i j); auto. lia.
Qed.

Lemma ordered_unique l1 : ordered l1 -> forall l2, ordered l2 -> Permutation l1 l2 -> l1 = l2.
Proof.
  induction 1 as [|x l1 H1 O1 IH]; intros l2 O2 P.
  - apply Permutation_nil in P. auto.
  - destruct O2 as [|y l2 H2 O2]; [apply Permutation_sym, Permutation_nil in P; discriminate|].
    assert (x = y) as ->.
    { apply Qcle_antisym.
      - assert (In y (x :: l1)) as [->|I] by (eapply Permutation_in; [apply Permutation_sym, P|left; auto]);
          [apply Qcle_refl|auto].
      - assert (In x (y :: l2)) as [->|I] by (eapply Permutation_in; [apply P|left; auto]);
          [apply Qcle_refl|auto]. }
    f_equal. apply IH; auto. eapply Permutation_cons_inv; eauto.
Qed.

Lemma isort_permuted l1 l2 : Permutation l1 l2 -> isort l1 = isort l2.
Proof.
  intro P. apply ordered_unique; try apply isort_ordered.
  eapply perm_trans; [apply isort_perm|]. eapply perm_trans; [apply P|].
  apply Permutation_sym, isort_perm.
Qed.

Lemma filter_length_perm {A} (f : A -> bool) l1 l2 :
  Permutation l1 l2 -> length (filter f l1) = length (filter f l2).
Proof.
  induction 1 as [|x l1 l2 P IH|x y l|l1 l2 l3 P1 I1 P2 I2]; cbn; auto.
  - destruct (f x); cbn; auto.
  - destruct (f x), (f y); auto.
  - congruence.
Qed.

Lemma filter_below_bound {A} (f : A -> bool) l k :
  (forall i a, k <= i -> nth_error l i = Some a -> f a = false) -> length (filter f l) <= k.
Proof.
  intro H. rewrite <- (firstn_skipn k l), filter_app, app_length.
  assert (filter f (skipn k l) = []) as ->.
  { destruct (filter f (skipn k l)) as [|a r] eqn:E; auto. exfalso.
    assert (In a (filter f (skipn k l))) as I by (rewrite E; left; auto).
    apply filter_In in I as [I F]. apply In_nth_error in I as [i I].
    rewrite nth_error_skipn in I. rewrite (H (k + i) a) in F; [discriminate|lia|auto]. }
  cbn. pose proof (firstn_le_length k l).
  assert (length (filter f (firstn k l)) <= length (firstn k l)).
  { clear. induction (firstn k l) as [|a r IH]; cbn; auto. destruct (f a); cbn; lia. }
  lia.
Qed.

Lemma filter_above_bound {A} (f : A -> bool) l k :
  (forall i a, i < k -> nth_error l i = Some a -> f a = false) ->
  length (filter f l) <= length l - k.
Proof.
  intro H. rewrite <- (firstn_skipn k l) at 1. rewrite filter_app, app_length.
  assert (filter f (firstn k l) = []) as ->.
  { destruct (filter f (firstn k l)) as [|a r] eqn:E; auto. exfalso.
    assert (In a (filter f (firstn k l))) as I by (rewrite E; left; auto).
    apply filter_In in I as [I F]. apply In_nth_error in I as [i I].
    rewrite nth_error_firstn in I. destruct (Nat.ltb_spec i k); [|discriminate].
    rewrite (H i a) in F; [discriminate|lia|auto]. }
  cbn. rewrite <- skipn_length.
  induction (skipn k l) as [|a r IH]; cbn; auto. destruct (f a); cbn; lia.
Qed.

Lemma all_some_map {A} (qs : list A) : all_some (map Some qs) = Some qs.
Proof. induction qs as [|q qs IH]; cbn; auto. rewrite IH. reflexivity. Qed.

Lemma all_some_none {A} (l : list (option A)) : In None l -> all_some l = None.
Proof.
  induction l as [|[a|] l IH]; cbn; intros H; auto.
  - destruct H.
  - destruct H as [H|H]; [discriminate|]. rewrite IH by auto. reflexivity.
Qed.

Lemma qlt_false a b : (b <= a)%Qc -> qlt a b = false.
Proof.
  intro H. unfold qlt. destruct (a ?= b)%Qc eqn:E; auto.
  apply Qclt_alt in E. exfalso. apply (Qclt_not_le _ _ E H).
Qed.

Lemma nat_nonzero_Qc n : 0 < n -> Q2Qc (inject_Z (Z.of_nat n)) <> 0%Qc.
Proof.
  intros P E. apply Qc_is_canon in E || apply (f_equal this) in E.
  assert (inject_Z (Z.of_nat n) == 0)%Q as E2.
  { rewrite <- (Qred_correct (inject_Z (Z.of_nat n))). change (Qred (inject_Z (Z.of_nat n))) with (this (Q2Qc (inject_Z (Z.of_nat n)))).
    rewrite E. reflexivity. }
  unfold Qeq in E2. cbn in E2. lia.
Qed.

(** with numbers only, every aggregate is what its name says *)
Lemma cell_agg_numbers k u vs qs :
  used u vs = map Some qs -> qs <> [] ->
  exists res, cell_agg k u vs = Ok (Some res) /\ is_aggregate k qs res.
Proof.
  intros E NE. unfold cell_agg. rewrite push_all_used, E.
  assert (0 < length qs) as LP by (destruct qs; cbn; [congruence|lia]).
  assert (k <> AMedian -> a_count (fold_left (push k) (map Some qs) agg0) = length qs) as HC.
  { intro K. rewrite push_count by exact K. rewrite map_length. cbn. lia. }
  destruct k; cbn [get_and_reset is_aggregate]; unfold reset.
  1-4: rewrite HC by discriminate; destruct (Nat.eqb_spec (length qs) 0); [lia|].
  - rewrite (push_sum ASum qs (or_introl eq_refl) agg0 0%Qc eq_refl). cbn [obind fst].
    eexists; split; [reflexivity|]. ring.
  - destruct (Nat.ltb_spec 0 (length qs)); [|lia].
    rewrite (push_sum AMean qs (or_intror eq_refl) agg0 0%Qc eq_refl). cbn [obind fst vdiv].
    eexists; split; [reflexivity|]. rewrite Qcplus_0_l. field. apply nat_nonzero_Qc. exact LP.
  - destruct qs as [|q qs]; [congruence|]. cbn [map fold_left obind fst].
    destruct (push_min qs (push AMin agg0 (Some q)) q) as (m & E1 & I & M); [reflexivity|cbn; lia|].
    exists m. rewrite E1. auto.
  - destruct qs as [|q qs]; [congruence|]. cbn [map fold_left obind fst].
    destruct (push_max qs (push AMax agg0 (Some q)) q) as (m & E1 & I & M); [reflexivity|cbn; lia|].
    exists m. rewrite E1. auto.
  - rewrite push_median. cbn [agg0 a_values a_count a_val app].
    destruct (map Some qs) as [|v l] eqn:EM; [destruct qs; [congruence|discriminate]|].
    rewrite <- EM, map_length. unfold nth_sorted. rewrite all_some_map.
    assert (length qs / 2 < length (isort qs)) as LT.
    { rewrite (Permutation_length (isort_perm qs)). apply Nat.div_lt; lia. }
    destruct (nth_error (isort qs) (length qs / 2)) as [m|] eqn:EN.
    2:{ apply nth_error_None in EN. lia. }
    cbn [obind fst]. exists m. split; [reflexivity|]. split; [|split].
    + eapply Permutation_in; [apply isort_perm|]. eapply nth_error_In; eauto.
    + unfold count_below. rewrite <- (filter_length_perm _ _ _ (isort_perm qs)).
      apply filter_below_bound. intros i a L EA. apply qlt_false.
      eapply ordered_nth; [apply isort_ordered| | |]; eauto.
    + unfold count_above. rewrite <- (filter_length_perm _ _ _ (isort_perm qs)).
      replace (length qs - 1 - length qs / 2) with (length (isort qs) - (length qs / 2 + 1))
        by (rewrite (Permutation_length (isort_perm qs)); lia).
      apply filter_above_bound. intros i a L EA. apply qlt_false.
      eapply (ordered_nth _ (isort_ordered qs) i (length qs / 2)); eauto. lia.
Qed.

Lemma cell_agg_undef_sum k vs : is_sum k -> In None vs -> cell_agg k true vs = Ok None.
Proof.
  intros K I. unfold cell_agg. rewrite push_all_used. cbn [used].
  assert (k <> AMedian) as KM by (destruct K; subst; discriminate).
  assert (0 < length vs) by (destruct vs; [destruct I|cbn; lia]).
  assert (exists n, a_count (fold_left (push k) vs agg0) = S n) as [n HC].
  { rewrite (push_count k KM vs agg0). destruct vs as [|v l]; [destruct I|]. cbn. eauto. }
  pose proof (push_sum_none k vs K agg0 (or_intror I)) as HN.
  destruct K; subst k; cbn [get_and_reset]; unfold reset; rewrite HC, HN; reflexivity.
Qed.

Lemma cell_agg_undef_median vs : In None vs -> cell_agg AMedian true vs = UB.
Proof.
  intro I. unfold cell_agg. rewrite push_all_used. cbn [used]. rewrite push_median.
  cbn [get_and_reset a_values agg0 app a_count a_val]. destruct vs as [|v l]; [destruct I|].
  unfold nth_sorted. rewrite all_some_none by exact I. reflexivity.
Qed.

(** undefined first element sticks in the undef min/max; a later one is ignored *)
Lemma push_minmax_none_first k vs : k = AMin \/ k = AMax -> forall a, a_val a = None ->
  0 < a_count a -> a_val (fold_left (push k) vs a) = None.
Proof.
  intro K. induction vs as [|v vs IH]; intros a E P; cbn [fold_left]; auto.
  apply IH; [|destruct K; subst; cbn; lia].
  destruct (Nat.eqb_spec (a_count a) 0) as [|NZ]; [lia|].
  destruct K; subst k; cbn [push a_val]; rewrite E;
    (destruct (Nat.eqb_spec (a_count a) 0); [lia|]); destruct v; reflexivity.
Qed.

Lemma push_minmax_skip k vs : k = AMin \/ k = AMax -> forall a b x, a_val a = Some x ->
  a_val b = Some x -> 0 < a_count a -> 0 < a_count b ->
  a_val (fold_left (push k) vs a) = a_val (fold_left (push k) (defined vs) b).
Proof.
  intro K. induction vs as [|[v|] vs IH]; intros a b x E1 E2 P1 P2;
    cbn [fold_left defined filter]; [congruence| |].
  - destruct (Nat.eqb_spec (a_count a) 0) as [|NZ]; [lia|].
    destruct (Nat.eqb_spec (a_count b) 0) as [|NZ2]; [lia|].
    assert (exists y, a_val (push k a (Some v)) = Some y /\ a_val (push k b (Some v)) = Some y)
      as (y & Y1 & Y2).
    { exists (if match k with AMin => vlt (Some v) (Some x) | _ => vlt (Some x) (Some v) end
              then v else x).
      destruct K; subst k; cbn [push a_val];
      (destruct (Nat.eqb_spec (a_count a) 0); [lia|]);
      (destruct (Nat.eqb_spec (a_count b) 0); [lia|]); rewrite E1, E2; cbn [orb];
      destruct (vlt _ _); auto. }
    apply (IH _ _ y); auto; destruct K; subst; cbn; lia.
  - fold (defined vs).
    apply (IH (push k a None) b x); auto.
    2: destruct K; subst; cbn; lia.
    destruct (Nat.eqb_spec (a_count a) 0) as [|NZ]; [lia|].
    destruct K; subst k; cbn [push a_val]; rewrite E1;
      (destruct (Nat.eqb_spec (a_count a) 0); [lia|]); reflexivity.
Qed.

(** ** Order of the values *)

Lemma used_permuted u vs ws : Permutation vs ws -> Permutation (used u vs) (used u ws).
Proof.
  intro P. unfold used. destruct u; auto. unfold defined.
  induction P as [|v l1 l2 P IH|a b l|l1 l2 l3 P1 I1 P2 I2]; cbn; auto.
  - destruct v; auto.
  - destruct a, b; auto. apply perm_swap.
  - eapply perm_trans; eauto.
Qed.

Lemma defined_numbers vs : exists qs, defined vs = map Some qs.
Proof.
  induction vs as [|[q|] vs [qs IH]]; cbn.
  - exists []. reflexivity.
  - exists (q :: qs). cbn. fold (defined vs). rewrite IH. reflexivity.
  - exists qs. exact IH.
Qed.

Lemma numbers_or_none (vs : list value) : (exists qs, vs = map Some qs) \/ In None vs.
Proof.
  induction vs as [|[q|] vs [[qs ->]|I]]; auto.
  - left. exists []. reflexivity.
  - left. exists (q :: qs). reflexivity.
  - right; right; auto.
  - right; left; auto.
  - right; left; auto.
Qed.

Lemma qsum_permuted l1 l2 : Permutation l1 l2 -> qsum l1 = qsum l2.
Proof.
  induction 1 as [|x l1 l2 P IH|x y l|l1 l2 l3 P1 I1 P2 I2]; cbn; auto.
  - fold (qsum l1) (qsum l2). congruence.
  - ring.
  - congruence.
Qed.

Lemma is_aggregate_unique k q1 q2 r1 r2 :
  k <> AMedian -> q1 <> [] ->
  Permutation q1 q2 -> is_aggregate k q1 r1 -> is_aggregate k q2 r2 -> r1 = r2.
Proof.
  intros K NE P H1 H2. destruct k; cbn in *; [| | | |congruence].
  - subst. apply qsum_permuted; auto.
  - rewrite <- (Permutation_length P), <- (qsum_permuted _ _ P) in H2.
    assert (Q2Qc (inject_Z (Z.of_nat (length q1))) <> 0%Qc) as NZ.
    { apply nat_nonzero_Qc. destruct q1; cbn; [congruence|lia]. }
    rewrite <- H1 in H2.
    assert (forall a b c : Qc, c <> 0 -> a * c = b * c -> b = a)%Qc as C.
    { intros a b c NC E. rewrite <- (Qcdiv_mult_l a c NC), <- (Qcdiv_mult_l b c NC).
      unfold Qcdiv. rewrite E. reflexivity. }
    exact (C _ _ _ NZ H2).
  - destruct H1 as [I1 M1], H2 as [I2 M2]. apply Qcle_antisym.
    + apply M1. eapply Permutation_in; [apply Permutation_sym, P|auto].
    + apply M2. eapply Permutation_in; [apply P|auto].
  - destruct H1 as [I1 M1], H2 as [I2 M2]. apply Qcle_antisym.
    + apply M2. eapply Permutation_in; [apply P|auto].
    + apply M1. eapply Permutation_in; [apply Permutation_sym, P|auto].
Qed.

Lemma cell_agg_permuted_numbers k u vs ws q1 q2 :
  used u vs = map Some q1 -> used u ws = map Some q2 -> Permutation q1 q2 ->
  cell_agg k u vs = cell_agg k u ws.
Proof.
  intros E1 E2 P.
  destruct q1 as [|x q1].
  - apply Permutation_nil in P. subst q2. rewrite !cell_agg_empty; auto.
  - assert (q2 <> []) as NE2.
    { intros ->. apply Permutation_sym, Permutation_nil in P. discriminate. }
    destruct k.
    5:{ unfold cell_agg. rewrite !push_all_used, E1, E2, !push_median.
        cbn [get_and_reset agg0 a_values app a_count a_val].
        destruct q2 as [|y q2]; [congruence|]. cbn [map].
        change (Some x :: map Some q1) with (map Some (x :: q1)).
        change (Some y :: map Some q2) with (map Some (y :: q2)).
        unfold nth_sorted. rewrite !all_some_map, !map_length, (Permutation_length P),
          (isort_permuted _ _ P). reflexivity. }
    all: assert (x :: q1 <> []) as NE1 by discriminate.
    all: match goal with |- cell_agg ?k _ _ = _ =>
      assert (k <> AMedian) as KM by discriminate;
      destruct (cell_agg_numbers k u vs _ E1 NE1) as (r1 & -> & A1);
      destruct (cell_agg_numbers k u ws _ E2 NE2) as (r2 & -> & A2);
      rewrite (is_aggregate_unique k _ _ r1 r2 KM NE1 P A1 A2); reflexivity end.
Qed.

Lemma map_Some_perm (q1 q2 : list Qc) :
  Permutation (map Some q1) (map Some q2) -> Permutation q1 q2.
Proof.
  intro P. apply Permutation_map_inv in P as (l & E & P).
  assert (q1 = l) as ->; [|apply Permutation_sym; auto].
  clear P q2. revert l E. induction q1 as [|q q1 IH]; intros [|x l] E; try discriminate; auto.
  injection E as -> E. f_equal. auto.
Qed.

Lemma cell_agg_permuted k u vs ws :
  Permutation vs ws ->
  u = false \/ is_sum k \/ k = AMedian \/ ~ In None vs ->
  cell_agg k u vs = cell_agg k u ws.
Proof.
  intros P H.
  destruct (numbers_or_none (used u vs)) as [[q1 E1]|I].
  - pose proof (used_permuted u _ _ P) as PU.
    destruct (numbers_or_none (used u ws)) as [[q2 E2]|I].
    + eapply cell_agg_permuted_numbers; eauto. apply map_Some_perm. rewrite <- E1, <- E2. exact PU.
    + exfalso. apply (Permutation_in _ (Permutation_sym PU)) in I. rewrite E1 in I.
      apply in_map_iff in I as (? & ? & ?). discriminate.
  - destruct u; cbn [used] in I.
    + assert (In None ws) as I2 by (eapply Permutation_in; eauto).
      destruct H as [H|[H|[->|H]]]; [discriminate| | |contradiction].
      * rewrite !cell_agg_undef_sum; auto.
      * rewrite !cell_agg_undef_median; auto.
    + exfalso. apply filter_In in I as [_ I]. discriminate.
Qed.

(** ** Forward *)

Lemma length_push_at m o i : length (push_at m o i) = length m.
Proof. revert o; induction m as [|l m IH]; intros [|o]; cbn; auto. Qed.

Lemma nth_error_push_at m o i k :
  nth_error (push_at m o i) k =
  match nth_error m k with
  | Some l => Some (if Nat.eqb k o then l ++ [i] else l)
  | None => None
  end.
Proof.
  revert o k; induction m as [|l m IH]; intros [|o] [|k]; cbn; auto.
  destruct (nth_error m k); reflexivity.
Qed.

Lemma in_cells_eq nx ny :
  in_cells (N.of_nat nx) (N.of_nat ny) =
  map (fun i => (N.of_nat (i mod nx), N.of_nat (i / nx))) (seq 0 (nx * ny)).
Proof.
  unfold in_cells. rewrite !Nat2N.id.
  induction ny as [|ny IH].
  - rewrite Nat.mul_0_r. reflexivity.
  - rewrite seq_S, flat_map_app, IH. cbn [flat_map].
    rewrite app_nil_r, Nat.mul_succ_r, seq_app, map_app. f_equal.
    assert (seq (0 + nx * ny) nx = map (fun i => nx * ny + i) (seq 0 nx)) as ->
      by (rewrite map_add_seq; f_equal; lia).
    rewrite map_map. apply map_ext_in. intros a I. apply in_seq in I.
    replace (nx * ny + a) with (a + ny * nx) by lia.
    rewrite Nat.mod_add, Nat.div_add by lia.
    rewrite Nat.mod_small, Nat.div_small by lia. reflexivity.
Qed.

(** The input cells contributing to output cell (ox, oy), in ascending order. *)
Definition contributions (outX outY : nat) (pts : list (Q * Q)) (ox oy : nat) : list nat :=
  filter (fun i => match nth_error pts i with
                   | Some p => match cell_of outX outY p with
                               | Some (x, y) => Nat.eqb x ox && Nat.eqb y oy
                               | None => false end
                   | None => false end) (seq 0 (length pts)).

(** linear output cell of input cell i *)
Definition target (outX outY : nat) (pts : list (Q * Q)) (i : nat) : option nat :=
  match nth_error pts i with
  | Some p => match cell_of outX outY p with Some (x, y) => Some (x + outX * y) | None => None end
  | None => None
  end.

Definition hits (outX outY : nat) (pts : list (Q * Q)) (o i : nat) : bool :=
  match target outX outY pts i with Some o' => Nat.eqb o o' | None => false end.

Definition fw_inv (nx outX outY : nat) (pts : list (Q * Q)) (done : list nat) (s : fwstate) : Prop :=
  length (fs_map s) = outX * outY /\
  (forall o, o < outX * outY ->
     nth_error (fs_map s) o = Some (map N.of_nat (filter (hits outX outY pts o) done))) /\
  (fs_max s = 0%N -> forall i, In i done -> target outX outY pts i = None) /\
  (forall i, In i done -> target outX outY pts i <> None ->
     covers (fs_range s) (i mod nx) (i / nx)) /\
  (fs_max s <> 0 -> minX (fs_range s) <= maxX (fs_range s) /\
                    minY (fs_range s) <= maxY (fs_range s))%N.

Lemma fw_steps nan nx outX outY pts :
  0 < nx -> 0 < outX -> 0 < outY -> (N.of_nat (outX * outY) < 2 ^ 32)%N ->
  Forall int_range pts -> forall todo done s,
  (forall i, In i todo -> i < length pts) ->
  fw_inv nx outX outY pts done s ->
  exists s', ofold (fw_step nan (N.of_nat nx) (N.of_nat outX) (N.of_nat outY) (map known pts))
               (map (fun i => (N.of_nat (i mod nx), N.of_nat (i / nx))) todo) s = Ok s' /\
    fw_inv nx outX outY pts (done ++ todo) s'.
Proof.
  intros PX OX OY B F.
  assert (N.of_nat outX < 2 ^ 32 /\ N.of_nat outY < 2 ^ 32)%N as [BX BY] by nia.
  induction todo as [|i todo IH]; intros done s HT INV; cbn [map ofold].
  - exists s. rewrite app_nil_r. auto.
  - assert (i < length pts) as LI by (apply HT; left; auto).
    destruct (nth_error pts i) as [p|] eqn:EP; [|apply nth_error_None in EP; lia].
    assert (N.of_nat (i / nx) * N.of_nat nx + N.of_nat (i mod nx) = N.of_nat i)%N as EI.
    { pose proof (Nat.div_mod i nx ltac:(lia)). nia. }
    assert (exists s1, fw_step nan (N.of_nat nx) (N.of_nat outX) (N.of_nat outY) (map known pts) s
                (N.of_nat (i mod nx), N.of_nat (i / nx)) = Ok s1 /\
              fw_inv nx outX outY pts (done ++ [i]) s1) as (s1 & E1 & I1).
    { unfold fw_step. rewrite EI, Nat2N.id, nth_error_map, EP. cbn [option_map rd obind].
      assert (int_range p) as R by (eapply Forall_forall in F; eauto; eapply nth_error_In; eauto).
      pose proof (clamp_pair nan outX outY p R OX OY BX BY) as H. cbv zeta in H.
      destruct INV as (I1 & I2 & I3 & I4 & I5).
      destruct (cell_of outX outY p) as [[x y]|] eqn:EC.
      - destruct H as (HX & HY & -> & -> & ->).
        assert (target outX outY pts i = Some (x + outX * y)) as ET
          by (unfold target; rewrite EP, EC; reflexivity).
        replace (N.to_nat (N.of_nat y * N.of_nat outX + N.of_nat x)) with (x + outX * y) by lia.
        assert (x + outX * y < outX * outY) as OL by nia.
        eexists. split; [reflexivity|]. unfold fw_inv. cbn [fs_map fs_range fs_max].
        assert (length (nth (x + outX * y) (push_at (fs_map s) (x + outX * y) (N.of_nat i)) []) =
                S (length (filter (hits outX outY pts (x + outX * y)) done))) as LN.
        { erewrite nth_error_nth.
          2:{ rewrite nth_error_push_at, I2 by exact OL. rewrite Nat.eqb_refl. reflexivity. }
          rewrite app_length, map_length. cbn. lia. }
        split; [|split; [|split; [|split]]].
        + rewrite length_push_at. exact I1.
        + intros o LO. rewrite nth_error_push_at, I2 by exact LO.
          rewrite filter_app. cbn [filter].
          assert (hits outX outY pts o i = (o =? x + outX * y)) as -> by (unfold hits; rewrite ET; reflexivity).
          destruct (Nat.eqb_spec o (x + outX * y)).
          * rewrite map_app. reflexivity.
          * rewrite app_nil_r. reflexivity.
        + rewrite LN. intro E0. exfalso.
          destruct (N.ltb_spec (fs_max s)
             (N.of_nat (S (length (filter (hits outX outY pts (x + outX * y)) done))))); lia.
        + intros j IJ TJ. apply in_app_or in IJ.
          destruct (N.eqb_spec (fs_max s) 0) as [E0|E0].
          * destruct IJ as [IJ|[<-|[]]]; [exfalso; apply TJ; apply I3; auto|].
            unfold covers. cbn [minX maxX minY maxY]. lia.
          * destruct IJ as [IJ|[<-|[]]]; [apply widen_covers; auto|].
            apply (widen_sane _ _ _ (S (i mod nx)) (S (i / nx))); try lia. right. auto.
        + intros _. destruct (N.eqb_spec (fs_max s) 0) as [E0|E0]; [cbn; lia|].
          specialize (I5 E0). unfold widen. cbn [minX maxX minY maxY].
          destruct (N.ltb_spec (N.of_nat (i mod nx)) (minX (fs_range s))),
            (N.ltb_spec (maxX (fs_range s)) (N.of_nat (i mod nx))),
            (N.ltb_spec (N.of_nat (i / nx)) (minY (fs_range s))),
            (N.ltb_spec (maxY (fs_range s)) (N.of_nat (i / nx))); lia.
      - rewrite H. exists s. split; [reflexivity|].
        assert (target outX outY pts i = None) as ET by (unfold target; rewrite EP, EC; reflexivity).
        split; [exact I1|]. split; [|split; [|split; [|exact I5]]].
        + intros o LO. rewrite I2 by exact LO. rewrite filter_app. cbn [filter].
          assert (hits outX outY pts o i = false) as -> by (unfold hits; rewrite ET; reflexivity).
          rewrite app_nil_r. reflexivity.
        + intros E0 j IJ. apply in_app_or in IJ as [IJ|[<-|[]]]; auto.
        + intros j IJ TJ. apply in_app_or in IJ as [IJ|[<-|[]]]; [auto|congruence]. }
    rewrite E1. cbn [obind].
    destruct (IH (done ++ [i]) s1) as (s' & E' & I').
    + intros j J. apply HT. right. auto.
    + exact I1.
    + exists s'. split; [exact E'|]. rewrite <- app_assoc in I'. exact I'.
Qed.

Lemma contributions_hits outX outY pts ox oy :
  ox < outX ->
  contributions outX outY pts ox oy = filter (hits outX outY pts (ox + outX * oy)) (seq 0 (length pts)).
Proof.
  intro L. apply filter_ext. intro i. unfold hits, target.
  destruct (nth_error pts i) as [p|]; auto.
  destruct (cell_of outX outY p) as [[x y]|] eqn:E; auto.
  apply cell_of_bound in E as [HX HY].
  destruct (Nat.eqb_spec x ox), (Nat.eqb_spec y oy), (Nat.eqb_spec (ox + outX * oy) (x + outX * y));
    cbn; auto; subst; try lia; try nia.
Qed.

Lemma fw_construct_spec nan nx ny outX outY pts :
  0 < nx -> 0 < ny -> 0 < outX -> 0 < outY -> (N.of_nat (outX * outY) < 2 ^ 32)%N ->
  Forall int_range pts -> length pts = nx * ny ->
  exists g, fw_construct nan (N.of_nat nx) (N.of_nat ny) (N.of_nat outX) (N.of_nat outY)
              (map known pts) = Ok g /\
    (fw_x0 g + fw_inX g <= N.of_nat nx /\ fw_y0 g + fw_inY g <= N.of_nat ny /\
     0 < fw_inX g /\ 0 < fw_inY g)%N /\
    length (fw_map g) = outX * outY /\
    exists f,
      (forall o, o < outX * outY -> nth_error (fw_map g) o =
         Some (map f (filter (hits outX outY pts o) (seq 0 (nx * ny))))) /\
      (forall i, i < nx * ny -> target outX outY pts i <> None ->
        let x := i mod nx in let y := i / nx in
        (fw_x0 g <= N.of_nat x < fw_x0 g + fw_inX g /\
         fw_y0 g <= N.of_nat y < fw_y0 g + fw_inY g /\
         f i = (N.of_nat y - fw_y0 g) * fw_inX g + (N.of_nat x - fw_x0 g))%N).
Proof.
  intros PX PY OX OY B F LP. unfold fw_construct. rewrite in_cells_eq.
  replace (N.to_nat (N.of_nat outX * N.of_nat outY)) with (outX * outY) by lia.
  destruct (fw_steps nan nx outX outY pts PX OX OY B F (seq 0 (nx * ny)) []
              (mkFws (repeat [] (outX * outY)) (mkRange 0 0 0 0) 0)) as (s & E & INV).
  { intros i I. apply in_seq in I. lia. }
  { unfold fw_inv. cbn [fs_map fs_range fs_max]. split; [apply repeat_length|].
    split; [|split; [|split]].
    - intros o LO. rewrite nth_error_repeat. destruct (Nat.ltb_spec o (outX * outY)); [reflexivity|lia].
    - intros _ i [].
    - intros i [].
    - intro H; congruence. }
  rewrite E. cbn [obind app] in *. destruct INV as (I1 & I2 & I3 & I4 & I5).
  destruct (shrink _ _ (fs_range s)) as [[[x0 y0] [rx ry]]|] eqn:ES;
    (eexists; split; [reflexivity|]); cbn [fw_map fw_x0 fw_y0 fw_inX fw_inY].
  - split; [eapply shrink_fits; eauto|]. split; [rewrite map_length; exact I1|].
    exists (fun i => remap (N.of_nat nx) x0 y0 rx (N.of_nat i)). split.
    + intros o LO. rewrite nth_error_map, I2 by exact LO. cbn [option_map]. rewrite map_map. reflexivity.
    + intros i LI T. cbv zeta.
      assert (i mod nx < nx) as HX by (apply Nat.mod_upper_bound; lia).
      assert (i / nx < ny) as HY by (apply Nat.div_lt_upper_bound; lia).
      destruct (shrink_covers nx ny (fs_range s) x0 y0 rx ry _ _ HX HY) as [W1 W2]; auto.
      { apply I4; auto. apply in_seq. lia. }
      split; [exact W1|]. split; [exact W2|].
      rewrite (Nat.div_mod i nx) at 1 by lia. rewrite Nat.add_comm.
      apply (remap_spec nx _ _ x0 y0 rx ry); auto.
  - split; [lia|]. split; [exact I1|]. exists N.of_nat. split.
    + exact I2.
    + intros i LI T. cbv zeta.
      assert (i mod nx < nx) as HX by (apply Nat.mod_upper_bound; lia).
      assert (i / nx < ny) as HY by (apply Nat.div_lt_upper_bound; lia).
      pose proof (Nat.div_mod i nx ltac:(lia)) as H. revert H HX HY.
      generalize (i mod nx) (i / nx). intros a b H HX HY. subst i. clear - HX HY.
      split; [lia|]. split; [lia|]. nia.
Qed.

(** what the value of an output cell has to be *)
Definition agg_spec (k : aggkind) (u : bool) (vs : list value) (v : value) : Prop :=
  (used u vs = [] /\ v = None) \/
  (u = true /\ In None vs /\ is_sum k /\ v = None) \/
  exists qs r, used u vs = map Some qs /\ qs <> [] /\ v = Some r /\ is_aggregate k qs r.

Lemma cell_agg_spec k u vs :
  u = false \/ is_sum k \/ ~ In None vs ->
  exists v, cell_agg k u vs = Ok v /\ agg_spec k u vs v.
Proof.
  intro H.
  destruct (numbers_or_none (used u vs)) as [[qs E]|I].
  - destruct qs as [|q qs].
    + exists None. split; [apply cell_agg_empty; auto|left; auto].
    + assert (q :: qs <> []) as NE by discriminate.
      destruct (cell_agg_numbers k u vs _ E NE) as (r & E1 & A).
      exists (Some r). split; auto. right; right. exists (q :: qs), r. auto.
  - destruct u; cbn [used] in I.
    + destruct H as [H|[H|H]]; [discriminate| |contradiction].
      exists None. split; [apply cell_agg_undef_sum; auto|]. right; left. auto.
    + exfalso. apply filter_In in I as [_ I]. discriminate.
Qed.

Lemma fw_levels_clean k u field m l nz :
  fw_layer k u field m agg0 = Ok (l, agg0) ->
  fw_levels k u field m agg0 nz = Ok (concat (repeat l nz), agg0).
Proof.
  intro E. induction nz as [|nz IH]; cbn [fw_levels repeat concat]; auto.
  rewrite E. cbn [obind fst snd]. rewrite IH. reflexivity.
Qed.

Lemma omapM_list {A B} (f : A -> outcome B) (P : nat -> B -> Prop) (l : list A) :
  (forall i a, nth_error l i = Some a -> exists b, f a = Ok b /\ P i b) ->
  exists bs, omapM f l = Ok bs /\ length bs = length l /\
    forall i, i < length l -> exists b, nth_error bs i = Some b /\ P i b.
Proof.
  revert P. induction l as [|a l IH]; intros P H; cbn [omapM].
  - exists []. split; auto. split; auto. cbn. intros; lia.
  - destruct (H 0 a eq_refl) as (b & -> & PB). cbn [obind].
    destruct (IH (fun i => P (S i))) as (bs & -> & L & HB).
    { intros i a' E. apply (H (S i) a'). exact E. }
    cbn [obind]. exists (b :: bs). split; auto. cbn [length]. split; [congruence|].
    intros [|i] LI; [exists b; auto|]. apply HB. lia.
Qed.

Definition level0 (data : list value) (is : list nat) : list value :=
  map (fun i => nth i data None) is.

Lemma fw_interpolate_spec k u nan nx ny nz outX outY pts (data field : list value) :
  0 < nx -> 0 < ny -> 0 < nz -> 0 < outX -> 0 < outY -> (N.of_nat (outX * outY) < 2 ^ 32)%N ->
  Forall int_range pts -> length pts = nx * ny -> length data = cells [nx; ny; nz] ->
  u = false \/ is_sum k \/ (forall i, i < nx * ny -> nth i data None <> None) ->
  exists g, fw_construct nan (N.of_nat nx) (N.of_nat ny) (N.of_nat outX) (N.of_nat outY)
              (map known pts) = Ok g /\
    (fw_x0 g + fw_inX g <= N.of_nat nx /\ fw_y0 g + fw_inY g <= N.of_nat ny)%N /\
    (is_box data [nx; ny; nz] [N.to_nat (fw_x0 g); N.to_nat (fw_y0 g); 0]
              [N.to_nat (fw_inX g); N.to_nat (fw_inY g); nz] field ->
    exists layer,
      fw_interpolate k u g agg0 field = Ok (concat (repeat layer nz), agg0) /\
      length layer = outX * outY /\
      forall ox oy, ox < outX -> oy < outY ->
        exists v, nth_error layer (ox + outX * oy) = Some v /\
          agg_spec k u (level0 data (contributions outX outY pts ox oy)) v).
Proof.
  intros PX PY PZ OX OY B F LP LD H.
  destruct (fw_construct_spec nan nx ny outX outY pts PX PY OX OY B F LP)
    as (g & EG & (G1 & G2 & G3 & G4) & LM & f & FM & FI).
  exists g. split; [exact EG|]. split; [auto|]. intro BX.
  assert (forall o is, nth_error (fw_map g) o = Some is ->
    exists v, (do vs <- omapM (fun i => rd (nth_error field (N.to_nat i))) is; cell_agg k u vs) = Ok v /\
      agg_spec k u (level0 data (filter (hits outX outY pts o) (seq 0 (nx * ny)))) v) as HC.
  { intros o is EO.
    assert (o < outX * outY) as LO by (rewrite <- LM; apply nth_error_Some; congruence).
    rewrite FM in EO by exact LO. injection EO as <-.
    set (is := filter (hits outX outY pts o) (seq 0 (nx * ny))).
    assert (omapM (fun i => rd (nth_error field (N.to_nat i))) (map f is) = Ok (level0 data is)) as ->.
    { assert (forall i, In i is -> rd (nth_error field (N.to_nat (f i))) = Ok (nth i data None)) as HR.
      { intros i I. apply filter_In in I as [I HI]. apply in_seq in I.
        assert (target outX outY pts i <> None) as T
          by (unfold hits in HI; destruct (target outX outY pts i); [discriminate|discriminate]).
        destruct (FI i ltac:(lia) T) as (W1 & W2 & ->).
        pose proof (box_cell data field nx ny nz _ _ _ _ _ _ 0 BX W1 W2 PZ) as E.
        cbn [Nat.mul Nat.add] in E. rewrite E.
        replace (lin [nx; ny; nz] [i mod nx; i / nx; 0]) with i.
        2:{ cbn [lin]. pose proof (Nat.div_mod i nx ltac:(lia)). lia. }
        rewrite (nth_error_nth' data None); [reflexivity|]. rewrite LD. cbn [cells]. nia. }
      clear - HR. unfold level0. induction is as [|i is IH]; cbn; auto.
      rewrite HR by (left; auto). cbn. rewrite IH by (intros; apply HR; right; auto). reflexivity. }
    cbn [obind]. apply cell_agg_spec.
    destruct H as [H|[H|H]]; auto. right; right. intro I.
    unfold level0 in I. apply in_map_iff in I as (i & EI & I). apply filter_In in I as [I _].
    apply in_seq in I. apply (H i); auto. lia. }
  destruct (omapM_list _ _ _ HC) as (layer & EL & LL & HL).
  exists layer. split; [|split].
  - unfold fw_interpolate. cbv zeta.
    destruct (Nat.eqb_spec (N.to_nat (fw_inX g * fw_inY g)) 0) as [E0|E0]; [nia|].
    replace (length field / N.to_nat (fw_inX g * fw_inY g)) with nz.
    2:{ destruct BX as [LB _]. rewrite LB. cbn [cells]. apply (Nat.div_unique _ _ _ 0); nia. }
    apply fw_levels_clean. rewrite fw_layer_clean, EL. reflexivity.
  - congruence.
  - intros ox oy HX HY. destruct (HL (ox + outX * oy)) as (v & E & A); [rewrite LM; nia|].
    exists v. split; [exact E|]. rewrite contributions_hits by exact HX. rewrite LP. exact A.
Qed.
