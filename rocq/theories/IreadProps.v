(** Reading data of an interpolated file: C100. *)
From Coq Require Import NArith QArith Qcanon Ascii String List Bool Arith Lia.
From Verif Require Import Base StdMap RegridModel StringModel ConvertModel IndexSpec SliceModel SliceProofs VecModel IreadModel IreadProofs.
Import ListNotations.
Local Open Scope string_scope.
Local Open Scope list_scope.
Local Open Scope nat_scope.

(** ** shapes and requests *)

(** the request for the box [start], [size] of dimensions [names] with lengths [dims] *)
Fixpoint req (names : list string) (dims start size : list nat) : request :=
  match names, dims, start, size with
  | n :: ns, d :: ds, s :: ss, z :: zs => mkPart n (N.of_nat s) (N.of_nat z) (N.of_nat d) :: req ns ds ss zs
  | _, _, _, _ => []
  end.
Definition zeros (l : list nat) : list nat := map (fun _ => 0) l.
(** dimensions as the reader has them *)
Definition with_lengths (names : list string) (dims : list nat) : list (string * N) := combine names (map N.of_nat dims).

Lemma req_max names : forall dims start size, length names = length dims -> fits dims start size -> map p_max (req names dims start size) = map N.of_nat dims.
Proof.
  induction names as [|n names IH]; intros [|d dims] start size L F; try discriminate; [reflexivity|].
  pose proof F as (L1 & L2 & _). destruct start as [|s start], size as [|z size]; try discriminate. apply fits_cons in F as [_ F]. cbn. f_equal. apply IH; auto.
Qed.
Lemma req_start names : forall dims start size, length names = length dims -> fits dims start size -> map p_start (req names dims start size) = map N.of_nat start.
Proof.
  induction names as [|n names IH]; intros [|d dims] start size L F; try discriminate; pose proof F as (L1 & L2 & _); destruct start as [|s start], size as [|z size]; try discriminate; [reflexivity|].
  apply fits_cons in F as [_ F]. cbn. f_equal. apply IH; auto.
Qed.
Lemma req_size names : forall dims start size, length names = length dims -> fits dims start size -> map p_size (req names dims start size) = map N.of_nat size.
Proof.
  induction names as [|n names IH]; intros [|d dims] start size L F; try discriminate; pose proof F as (L1 & L2 & _); destruct start as [|s start], size as [|z size]; try discriminate; [reflexivity|].
  apply fits_cons in F as [_ F]. cbn. f_equal. apply IH; auto.
Qed.
Lemma req_names names : forall dims start size p, In p (req names dims start size) -> In (p_name p) names.
Proof.
  induction names as [|n names IH]; intros dims start size p I; [destruct I|]. destruct dims, start, size; try now destruct I. cbn in I. destruct I as [<-|I]; [now left|right; eauto].
Qed.

(** positions *)
Lemma positions_app a b : positions (a ++ b) = flat_map (fun k => map (fun ij => ij ++ k) (positions a)) (positions b).
Proof.
  induction a as [|d a IH]; cbn [app positions].
  - cbn [map app]. clear. induction (positions b) as [|x l IH]; cbn; congruence.
  - rewrite IH. clear. induction (positions b) as [|x l IH]; cbn; [reflexivity|]. rewrite flat_map_app, IH. f_equal. clear.
    induction (positions a) as [|y l IH]; cbn; [reflexivity|]. rewrite map_app, IH. f_equal. rewrite map_map. reflexivity.
Qed.
Lemma positions_ne dims : 0 < cells dims -> positions dims <> [].
Proof. intros H E. pose proof (positions_length dims). rewrite E in *. cbn in *. lia. Qed.

(** the layer of a field at outer position [p]: the box of [ax] columns and [ay] rows from [x0], [y0] *)
Definition lay (D : list value) (ix iy : nat) (zz : list nat) (x0 y0 ax ay : nat) (p : list nat) : list value :=
  map (fun ij => nth (lin (ix :: iy :: zz) (shift [x0; y0] ij ++ p)) D None) (positions [ax; ay]).
Lemma lay_len D ix iy zz x0 y0 ax ay p : length (lay D ix iy zz x0 y0 ax ay p) = ax * ay.
Proof. unfold lay. rewrite map_length, positions_length. cbn. lia. Qed.

Lemma box_layers D ix iy zz x0 y0 sz ax ay nz d : length D = cells (ix :: iy :: zz) -> fits (ix :: iy :: zz) (x0 :: y0 :: sz) (ax :: ay :: nz) ->
  is_box D (ix :: iy :: zz) (x0 :: y0 :: sz) (ax :: ay :: nz) d ->
  d = concat (map (lay D ix iy zz x0 y0 ax ay) (map (shift sz) (positions nz))).
Proof.
  intros L F B. apply (is_box_unique _ _ _ _ _ _ B). apply is_box_of_spec; [apply F|apply F|].
  change (ax :: ay :: nz) with ([ax; ay] ++ nz). rewrite positions_app. rewrite map_map, flat_map_concat_map, !concat_map, !map_map. f_equal.
  apply map_ext_in. intros k Hk. unfold lay. rewrite !map_map. apply map_ext_in. intros ij Hij.
  apply positions_inside in Hk, Hij.
  assert (inside (ix :: iy :: zz) (shift (x0 :: y0 :: sz) (ij ++ k))) as I.
  { apply shift_inside with (size := ax :: ay :: nz); auto. change (ax :: ay :: nz) with ([ax; ay] ++ nz). apply inside_app; [now apply inside_length in Hij|auto]. }
  assert (shift (x0 :: y0 :: sz) (ij ++ k) = shift [x0; y0] ij ++ shift sz k) as Es.
  { apply inside_length in Hij. destruct ij as [|i [|j [|? ?]]]; try discriminate. reflexivity. }
  rewrite Es in *. symmetry. apply nth_error_nth'. rewrite L. apply lin_lt. exact I.
Qed.

(** ** what is asked of the reader *)
Lemma asked_in q : forall names dims start size n s z d, q = req names dims start size -> NoDup names -> In (mkPart n s z d) q -> asked q n = Ok (s, z).
Proof.
  intros names. revert q. induction names as [|m names IH]; intros q dims start size n s z d -> ND I; [destruct I|].
  destruct dims as [|d0 dims], start as [|s0 start], size as [|z0 size]; try now destruct I.
  cbn in I. unfold asked. cbn [req find p_name]. inversion ND as [|? ? NI ND']; subst. destruct (String.eqb_spec n m) as [->|N].
  - destruct I as [E|I]; [injection E as <- <- <-; reflexivity|]. apply req_names in I. cbn in I. tauto.
  - destruct I as [E|I]; [congruence|]. exact (IH _ _ _ _ _ _ _ _ eq_refl ND' I).
Qed.

Lemma input_outer ci q : forall names dims start size, length names = length dims -> fits dims start size -> (forall d, In d dims -> (N.of_nat d < M64)%N) ->
  (forall n, In n names -> n <> ci_x ci /\ n <> ci_y ci) -> (forall p, In p (req names dims start size) -> asked q (p_name p) = Ok (p_start p, p_size p)) ->
  omapM (input_part ci q) (with_lengths names dims) = Ok (req names dims start size).
Proof.
  induction names as [|n names IH]; intros [|d dims] start size L F B NX A; try discriminate; pose proof F as (L1 & L2 & _); destruct start as [|s start], size as [|z size]; try discriminate; [reflexivity|].
  apply fits_cons in F as [F0 F]. cbn [with_lengths combine map omapM]. destruct (NX n (or_introl eq_refl)) as [N1 N2].
  pose proof (A (mkPart n (N.of_nat s) (N.of_nat z) (N.of_nat d)) (or_introl eq_refl)) as A0. cbn [p_name p_start p_size] in A0.
  assert (input_part ci q (n, N.of_nat d) = Ok (mkPart n (N.of_nat s) (N.of_nat z) (N.of_nat d))) as ->.
  { unfold input_part. apply String.eqb_neq in N1, N2. rewrite N1, N2. cbn [orb]. pose proof (B d (or_introl eq_refl)).
    destruct (ci_from ci) as [[x0 y0]|]; rewrite A0; cbn [obind fst snd]; rewrite add64_small by lia;
      (replace (N.of_nat d <? N.of_nat s + N.of_nat z)%N with false by (symmetry; apply N.ltb_ge; lia)); reflexivity. }
  cbn [obind]. change (combine names (map N.of_nat dims)) with (with_lengths names dims).
  rewrite (IH dims start size); auto.
  - intros d' I. apply B. now right.
  - intros m I. apply NX. now right.
  - intros p I. apply A. now right.
Qed.

(** the region of the input an interpolation uses: inside the grid, all of it if it is not reduced *)
Definition region (ci : cached) (ix iy x0 y0 ax ay : nat) : Prop :=
  ci_inX ci = N.of_nat ax /\ ci_inY ci = N.of_nat ay /\ 0 < ax /\ 0 < ay /\ x0 + ax <= ix /\ y0 + ay <= iy /\
  match ci_from ci with
  | Some p => p = (N.of_nat x0, N.of_nat y0)
  | None => x0 = 0 /\ y0 = 0 /\ ax = ix /\ ay = iy
  end.

(** a variable of the reader on the axes of the interpolation, x fastest, y next *)
Definition on_axes (ci : cached) (s : stored) (ix iy : nat) (zs : list string) (zz : list nat) : Prop :=
  s_dims s = with_lengths (ci_x ci :: ci_y ci :: zs) (ix :: iy :: zz) /\ length (s_data s) = cells (ix :: iy :: zz) /\
  (N.of_nat (length (s_data s)) < M64)%N.

Lemma input_box ci s q ix iy zs zz x0 y0 ax ay sz nz :
  on_axes ci s ix iy zs zz -> region ci ix iy x0 y0 ax ay -> length zs = length zz -> (forall d, In d (ix :: iy :: zz) -> (N.of_nat d < M64)%N) ->
  ci_x ci <> ci_y ci -> (forall n, In n zs -> n <> ci_x ci /\ n <> ci_y ci) -> fits zz sz nz ->
  (forall p, In p (req zs zz sz nz) -> asked q (p_name p) = Ok (p_start p, p_size p)) ->
  input ci s q = Ok (concat (map (lay (s_data s) ix iy zz x0 y0 ax ay) (map (shift sz) (positions nz)))).
Proof.
  intros (SD & LD & BD) (IX & IY & PX & PY & RX & RY & RF) LZ B NXY NX F A. unfold input. rewrite SD.
  assert (fits (ix :: iy :: zz) (x0 :: y0 :: sz) (ax :: ay :: nz)) as FA by (apply fits_cons; split; [lia|]; apply fits_cons; split; [lia|exact F]).
  assert (omapM (input_part ci q) (with_lengths (ci_x ci :: ci_y ci :: zs) (ix :: iy :: zz)) = Ok (req (ci_x ci :: ci_y ci :: zs) (ix :: iy :: zz) (x0 :: y0 :: sz) (ax :: ay :: nz))) as ->.
  { pose proof (input_outer ci q zs zz sz nz LZ F (fun d I => B d (or_intror (or_intror I))) NX A) as O.
    pose proof (B ix (or_introl eq_refl)) as Bx. pose proof (B iy (or_intror (or_introl eq_refl))) as By.
    cbn [with_lengths combine map omapM]. change (combine zs (map N.of_nat zz)) with (with_lengths zs zz).
    assert (input_part ci q (ci_x ci, N.of_nat ix) = Ok (mkPart (ci_x ci) (N.of_nat x0) (N.of_nat ax) (N.of_nat ix))) as ->.
    { unfold input_part. rewrite String.eqb_refl. cbn [orb]. destruct (ci_from ci) as [[a b]|].
      - injection RF as -> ->. rewrite IX. cbn [obind fst snd]. rewrite add64_small by lia. replace (N.of_nat ix <? N.of_nat x0 + N.of_nat ax)%N with false by (symmetry; apply N.ltb_ge; lia). reflexivity.
      - destruct RF as (-> & -> & -> & ->). cbn [obind fst snd]. rewrite add64_small by lia. replace (N.of_nat ix <? 0 + N.of_nat ix)%N with false by (symmetry; apply N.ltb_ge; lia). reflexivity. }
    cbn [obind].
    assert (input_part ci q (ci_y ci, N.of_nat iy) = Ok (mkPart (ci_y ci) (N.of_nat y0) (N.of_nat ay) (N.of_nat iy))) as ->.
    { unfold input_part. rewrite String.eqb_refl. destruct (String.eqb_spec (ci_y ci) (ci_x ci)); [congruence|]. cbn [orb]. destruct (ci_from ci) as [[a b]|].
      - injection RF as -> ->. rewrite IY. cbn [obind fst snd]. rewrite add64_small by lia. replace (N.of_nat iy <? N.of_nat y0 + N.of_nat ay)%N with false by (symmetry; apply N.ltb_ge; lia). reflexivity.
      - destruct RF as (-> & -> & -> & ->). cbn [obind fst snd]. rewrite add64_small by lia. replace (N.of_nat iy <? 0 + N.of_nat iy)%N with false by (symmetry; apply N.ltb_ge; lia). reflexivity. }
    cbn [obind]. rewrite O. reflexivity. }
  cbn [obind]. unfold fetch. rewrite req_max, req_start, req_size by (cbn [length]; auto).
  destruct (s_data s) as [|v0 data] eqn:ED.
  - f_equal. apply (box_layers [] ix iy zz x0 y0 sz ax ay nz []); auto. pose proof (cells_fits _ _ _ FA). cbn [length] in LD. split; [cbn [length]; lia|].
    intros idx I. apply lin_lt in I. lia.
  - rewrite <- ED in *. destruct (slice_ok (s_data s) (ix :: iy :: zz) (x0 :: y0 :: sz) (ax :: ay :: nz) FA (eq_sym LD) BD) as (out & E & BO).
    { intros k d N. apply B. now apply nth_error_In in N. }
    rewrite E. f_equal. now apply box_layers.
Qed.

(** ** reading *)

(** The variable [v] of the reader is interpolated by [ci] from the box [x0], [y0], [ax], [ay] of its ix * iy grid to an
    ox * oy grid; [zs], [zz] are its other dimensions and [pt] the component it is turned with. The interpolation, the
    turning and the processes treat layers separately. *)
Definition regular (i : interp) (v h : string) (ci : cached) (s : stored) (pt : option (bool * stored * turning))
    (ix iy ox oy x0 y0 ax ay : nat) (zs : list string) (zz : list nat) : Prop :=
  sfind v (i_own i) = None /\ sfind v (i_reader i) = Some s /\ sfind v (i_grid i) = Some h /\ sfind h (i_cached i) = Some ci /\
  match pt with
  | None => partner i v h = None
  | Some (is_x, s', t) => (exists c, partner i v h = Some (is_x, c, t) /\ sfind c (i_reader i) = Some s') /\
      on_axes ci s' ix iy zs zz /\ pairs_by_layers (ox * oy) t
  end /\
  on_axes ci s ix iy zs zz /\ region ci ix iy x0 y0 ax ay /\ length zs = length zz /\ NoDup (ci_x ci :: ci_y ci :: zs) /\
  (forall d, In d (ix :: iy :: zz) -> (N.of_nat d < M64)%N) /\
  ci_outX ci = N.of_nat ox /\ ci_outY ci = N.of_nat oy /\ 0 < ox /\ 0 < oy /\
  (forall d, In d [ox; oy] -> (N.of_nat d < M64)%N) /\ (N.of_nat (cells (ox :: oy :: zz)) < M64)%N /\
  by_layers (ax * ay) (ox * oy) (ci_values ci) /\ keeps_size (ci_inX ci) (ci_inY ci) (i_pre i) /\ keeps_size (ci_outX ci) (ci_outY ci) (i_post i).

(** names of the horizontal dimensions of the interpolated variable: those of the axes, or others if all of both
    dimensions is asked for *)
Definition names_fit (ci : cached) (x' y' : string) (zs : list string) (ox oy sx sy nx ny : nat) : Prop :=
  NoDup (x' :: y' :: zs) /\
  (x' = ci_x ci /\ y' = ci_y ci \/
   (x' <> ci_x ci /\ x' <> ci_y ci /\ y' <> ci_x ci /\ y' <> ci_y ci) /\ sx = 0 /\ sy = 0 /\ nx = ox /\ ny = oy).

(** what one layer at outer position [p] becomes *)
Definition one (i : interp) (ci : cached) (s : stored) (pt : option (bool * stored * turning)) (ix iy : nat) (zz : list nat) (x0 y0 ax ay : nat) (p : list nat) : outcome (list value) :=
  full i ci s pt (lay (s_data s) ix iy zz x0 y0 ax ay p)
    (match pt with Some (_, s', _) => lay (s_data s') ix iy zz x0 y0 ax ay p | None => lay (s_data s) ix iy zz x0 y0 ax ay p end).

Lemma outer_parts q zs zz sz nz x' y' ox oy sx sy nx ny :
  q = req (x' :: y' :: zs) (ox :: oy :: zz) (sx :: sy :: sz) (nx :: ny :: nz) -> NoDup (x' :: y' :: zs) ->
  forall p, In p (req zs zz sz nz) -> asked q (p_name p) = Ok (p_start p, p_size p).
Proof.
  intros -> ND [n s z d] I. cbn [p_name p_start p_size]. eapply asked_in; [reflexivity|exact ND|]. cbn. right. right. exact I.
Qed.

Lemma pt_ok i v h ci s pt ix iy ox oy x0 y0 ax ay zs zz : regular i v h ci s pt ix iy ox oy x0 y0 ax ay zs zz ->
  pair_ok ci pt.
Proof.
  intros (_ & _ & _ & _ & PT & _ & _ & _ & _ & _ & OX & OY & _). unfold pair_ok. destruct pt as [[[x s'] t]|]; [|exact I].
  destruct PT as (_ & _ & T). rewrite OX, OY. replace (N.to_nat (N.of_nat ox * N.of_nat oy)) with (ox * oy) by lia. exact T.
Qed.

(** everything before the output slice *)
Lemma read_steps i v h ci s pt ix iy ox oy x0 y0 ax ay zs zz x' y' sx sy sz nx ny nz :
  regular i v h ci s pt ix iy ox oy x0 y0 ax ay zs zz -> NoDup (x' :: y' :: zs) -> fits zz sz nz -> 0 < cells nz ->
  let q := req (x' :: y' :: zs) (ox :: oy :: zz) (sx :: sy :: sz) (nx :: ny :: nz) in
  let ps := map (shift sz) (positions nz) in
  read i v q = do w <- full i ci s pt (concat (map (lay (s_data s) ix iy zz x0 y0 ax ay) ps))
    (concat (map (fun p => match pt with Some (_, s', _) => lay (s_data s') ix iy zz x0 y0 ax ay p | None => lay (s_data s) ix iy zz x0 y0 ax ay p end) ps)); output ci w q.
Proof.
  intros (O1 & O2 & O3 & O4 & PT & OA & RG & LZ & ND & B & OX & OY & PX & PY & BO & BC & CV & KI & KO) ND' F C q ps.
  assert (forall s1, on_axes ci s1 ix iy zs zz -> input ci s1 q = Ok (concat (map (lay (s_data s1) ix iy zz x0 y0 ax ay) ps))) as IN.
  { intros s1 O. apply input_box with (zs := zs); auto.
    - inversion ND as [|? ? NI _]; subst. cbn in NI. intuition congruence.
    - inversion ND as [|? ? NI ND2]; subst. inversion ND2 as [|? ? NI2 _]; subst. intros n In_. split; intros ->; cbn in *; tauto.
    - eapply outer_parts; [reflexivity|exact ND']. }
  unfold read. rewrite O1, O2, O3, O4, (IN s OA). cbn [obind]. destruct RG as (IX & IY & AX & AY & RX & RY & RF).
  set (d := concat (map (lay (s_data s) ix iy zz x0 y0 ax ay) ps)).
  assert (forall s1, length (concat (map (lay (s_data s1) ix iy zz x0 y0 ax ay) ps)) = ax * ay * cells nz) as LC.
  { intro s1. rewrite (concat_len (ax * ay)).
    - unfold ps. now rewrite !map_length, positions_length.
    - apply Forall_forall. intros l Hl. apply in_map_iff in Hl as (p & <- & _). apply lay_len. }
  assert (length d = ax * ay * cells nz) as LD by apply LC.
  destruct d as [|v0 d0] eqn:Ed; [cbn in LD; nia|]. rewrite <- Ed in *.
  unfold full, single, rest, turned. destruct pt as [[[is_x s'] t]|].
  - destruct PT as ((c & PA & RC) & OA' & _). rewrite PA, RC, (IN s' OA'). cbn [obind].
    set (d' := concat (map (lay (s_data s') ix iy zz x0 y0 ax ay) ps)).
    replace (length d') with (length d) by (unfold d'; now rewrite LC).
    destruct (prepared i ci s (length d) d) as [a| | |]; cbn [obind]; auto. destruct (ci_values ci a) as [b| | |]; cbn [obind]; auto.
    destruct (prepared i ci s' (length d) d') as [a'| | |]; cbn [obind]; auto. destruct (ci_values ci a') as [b'| | |]; cbn [obind]; auto.
    destruct (if is_x then omap fst (t b b') else omap snd (t b' b)) as [r| | |]; cbn [obind]; auto. destruct (process (i_post i) (ci_outX ci) (ci_outY ci) r); reflexivity.
  - rewrite PT. destruct (prepared i ci s (length d) d) as [a| | |]; cbn [obind]; auto. destruct (ci_values ci a) as [b| | |]; cbn [obind]; auto.
    destruct (process (i_post i) (ci_outX ci) (ci_outY ci) b); reflexivity.
Qed.

Lemma of_outer ci zs zz sz nz : (forall n, In n zs -> n <> ci_x ci /\ n <> ci_y ci) -> forall p, In p (req zs zz sz nz) -> of_axes ci p = false.
Proof.
  intros NX p I. apply req_names in I. apply NX in I as [A B]. unfold of_axes. apply String.eqb_neq in A, B. now rewrite A, B.
Qed.
Lemma zeros_of nz : map (fun _ : nat => 0%N) nz = map N.of_nat (zeros nz).
Proof. unfold zeros. rewrite map_map. reflexivity. Qed.
Lemma map_const {A B C} (c : C) (l : list A) (l' : list B) : length l = length l' -> map (fun _ => c) l = map (fun _ => c) l'.
Proof. revert l'. induction l as [|a l IH]; intros [|b l'] L; try discriminate; cbn; f_equal. apply IH. now injection L. Qed.
Lemma req_length names : forall dims start size, length names = length dims -> fits dims start size -> length (req names dims start size) = length size.
Proof. intros dims start size L F. rewrite <- (map_length p_size), req_size, map_length by auto. reflexivity. Qed.

(** the output slice takes the box of the interpolated layers *)
Lemma output_box i v h ci s pt ix iy ox oy x0 y0 ax ay zs zz x' y' sx sy sz nx ny nz w :
  regular i v h ci s pt ix iy ox oy x0 y0 ax ay zs zz -> names_fit ci x' y' zs ox oy sx sy nx ny -> fits (ox :: oy :: zz) (sx :: sy :: sz) (nx :: ny :: nz) ->
  length w = cells (ox :: oy :: nz) ->
  exists out, output ci w (req (x' :: y' :: zs) (ox :: oy :: zz) (sx :: sy :: sz) (nx :: ny :: nz)) = Ok out /\
    is_box w (ox :: oy :: nz) (sx :: sy :: zeros nz) (nx :: ny :: nz) out.
Proof.
  intros (O1 & O2 & O3 & O4 & PT & OA & RG & LZ & ND & B & OX & OY & PX & PY & BO & BC & CV & KI & KO) (ND' & NF) F LW.
  pose proof F as F0. apply fits_cons in F as [Fx F]. apply fits_cons in F as [Fy F].
  assert (fits (ox :: oy :: nz) (sx :: sy :: zeros nz) (nx :: ny :: nz)) as FO.
  { apply fits_cons. split; [exact Fx|]. apply fits_cons. split; [exact Fy|]. clear. induction nz as [|z nz IH]; [repeat split; auto; intros [|k]; discriminate|]. apply fits_cons. split; [lia|exact IH]. }
  assert (cells nz <= cells zz) as CL by (eapply cells_fits; eauto).
  destruct (slice_ok w (ox :: oy :: nz) (sx :: sy :: zeros nz) (nx :: ny :: nz) FO (eq_sym LW)) as (out & E & BX).
  { rewrite LW. cbn [cells] in *. assert (ox * (oy * cells nz) <= ox * (oy * cells zz)) by (apply Nat.mul_le_mono_l, Nat.mul_le_mono_l; exact CL). lia. }
  { intros k d N. apply nth_error_In in N. cbn in N. destruct N as [<-|[<-|N]]; [apply BO; now left|apply BO; right; now left|].
    pose proof F as (L1 & L2 & FF). apply In_nth_error in N as (j & N). destruct (nth_error zz j) as [dz|] eqn:Ez.
    - destruct (nth_error sz j) as [sj|] eqn:Es.
      + pose proof (FF j dz sj d Ez Es N). pose proof (B dz ltac:(right; right; eapply nth_error_In; eauto)). lia.
      + apply nth_error_None in Es. assert (j < length zz) by (apply nth_error_Some; congruence). lia.
    - apply nth_error_None in Ez. assert (j < length nz) by (apply nth_error_Some; congruence). lia. }
  exists out. split; [|exact BX]. rewrite <- E. unfold output. f_equal; cycle 2.
  - apply req_size; cbn; auto.
  - cbn [req map of_axes p_name p_max p_size]. pose proof (of_outer ci zs zz sz nz) as OO.
    assert (forall n, In n zs -> n <> ci_x ci /\ n <> ci_y ci) as NX.
    { inversion ND as [|? ? NI ND2]; subst. inversion ND2 as [|? ? NI2 _]; subst. intros n In_. split; intros ->; cbn in *; tauto. }
    assert (map (fun p => if of_axes ci p then p_max p else p_size p) (req zs zz sz nz) = map N.of_nat nz) as ->.
    { rewrite <- (req_size zs zz sz nz LZ F). apply map_ext_in. intros p I. now rewrite (OO NX p I). }
    unfold of_axes. cbn [p_name]. destruct NF as [(-> & ->)|((A1 & A2 & A3 & A4) & -> & -> & -> & ->)].
    + rewrite !String.eqb_refl, orb_true_r. reflexivity.
    + apply String.eqb_neq in A1, A2, A3, A4. rewrite A1, A2, A3, A4. reflexivity.
  - cbn [req map of_axes p_name p_start]. pose proof (of_outer ci zs zz sz nz) as OO.
    assert (forall n, In n zs -> n <> ci_x ci /\ n <> ci_y ci) as NX.
    { inversion ND as [|? ? NI ND2]; subst. inversion ND2 as [|? ? NI2 _]; subst. intros n In_. split; intros ->; cbn in *; tauto. }
    assert (map (fun p => if of_axes ci p then p_start p else 0%N) (req zs zz sz nz) = map N.of_nat (zeros nz)) as ->.
    { rewrite <- zeros_of. rewrite <- (map_const 0%N (req zs zz sz nz) nz (req_length zs zz sz nz LZ F)). apply map_ext_in. intros p I. now rewrite (OO NX p I). }
    unfold of_axes. cbn [p_name]. destruct NF as [(-> & ->)|((A1 & A2 & A3 & A4) & -> & -> & -> & ->)].
    + rewrite !String.eqb_refl, orb_true_r. reflexivity.
    + apply String.eqb_neq in A1, A2, A3, A4. rewrite A1, A2, A3, A4. reflexivity.
Qed.

(** the values of a request: the layers of the outer positions, cut *)
Lemma read_layers i v h ci s pt ix iy ox oy x0 y0 ax ay zs zz x' y' sx sy sz nx ny nz :
  regular i v h ci s pt ix iy ox oy x0 y0 ax ay zs zz -> names_fit ci x' y' zs ox oy sx sy nx ny -> fits (ox :: oy :: zz) (sx :: sy :: sz) (nx :: ny :: nz) -> 0 < cells nz ->
  forall out, read i v (req (x' :: y' :: zs) (ox :: oy :: zz) (sx :: sy :: sz) (nx :: ny :: nz)) = Ok out <->
  exists outs, Forall2 (fun k o => one i ci s pt ix iy zz x0 y0 ax ay (shift sz k) = Ok o) (positions nz) outs /\
    Forall (fun o => length o = ox * oy) outs /\ is_box (concat outs) (ox :: oy :: nz) (sx :: sy :: zeros nz) (nx :: ny :: nz) out.
Proof.
  intros R NF F C out. pose proof R as (O1 & O2 & O3 & O4 & PT & OA & RG & LZ & ND & B & OX & OY & PX & PY & BO & BC & CV & KI & KO).
  pose proof RG as (IX & IY & AX & AY & _). pose proof (pt_ok _ _ _ _ _ _ _ _ _ _ _ _ _ _ _ _ R) as PK.
  pose proof F as F0. apply fits_cons in F as [Fx F]. apply fits_cons in F as [Fy F].
  rewrite (read_steps i v h ci s pt ix iy ox oy x0 y0 ax ay zs zz x' y' sx sy sz nx ny nz R (proj1 NF) F C).
  set (q := req (x' :: y' :: zs) (ox :: oy :: zz) (sx :: sy :: sz) (nx :: ny :: nz)).
  set (ps := map (shift sz) (positions nz)).
  set (lay' := fun p => match pt with Some (_, s', _) => lay (s_data s') ix iy zz x0 y0 ax ay p | None => lay (s_data s) ix iy zz x0 y0 ax ay p end).
  set (ls := map (fun p => (lay (s_data s) ix iy zz x0 y0 ax ay p, lay' p)) ps).
  replace (map (lay (s_data s) ix iy zz x0 y0 ax ay) ps) with (map fst ls) by (unfold ls; rewrite map_map; reflexivity).
  replace (map lay' ps) with (map snd ls) by (unfold ls; rewrite map_map; reflexivity).
  assert (N.to_nat (ci_inX ci * ci_inY ci) = ax * ay) as NI by (rewrite IX, IY; lia).
  assert (N.to_nat (ci_outX ci * ci_outY ci) = ox * oy) as NO by (rewrite OX, OY; lia).
  assert (0 < ci_inX ci * ci_inY ci)%N as P1 by (rewrite IX, IY; lia).
  assert (0 < ci_outX ci * ci_outY ci)%N as P2 by (rewrite OX, OY; lia).
  assert (ls <> []) as NE.
  { unfold ls, ps. intro Z. apply map_eq_nil in Z. apply map_eq_nil in Z. now apply positions_ne in C. }
  assert (Forall (fun l => length (fst l) = N.to_nat (ci_inX ci * ci_inY ci) /\ length (snd l) = N.to_nat (ci_inX ci * ci_inY ci)) ls) as LL.
  { rewrite NI. apply Forall_forall. intros l Hl. apply in_map_iff in Hl as (p & <- & _). cbn. unfold lay'. split; [apply lay_len|]. destruct pt as [[[? ?] ?]|]; apply lay_len. }
  rewrite <- NI, <- NO in CV.
  pose proof (full_layers i ci P1 P2 KI KO CV s pt ls PK NE LL) as FL.
  assert (forall outs, Forall2 (fun l o => full i ci s pt (fst l) (snd l) = Ok o) ls outs <->
     Forall2 (fun k o => one i ci s pt ix iy zz x0 y0 ax ay (shift sz k) = Ok o) (positions nz) outs) as EQ.
  { unfold ls, ps. rewrite map_map. intro outs. clear. revert outs. induction (positions nz) as [|k l IH]; intro outs; split; intro H; inversion H; subst; cbn; constructor; auto; now apply IH. }
  assert (forall outs, Forall2 (fun l o => full i ci s pt (fst l) (snd l) = Ok o) ls outs -> Forall (fun o => length o = ox * oy) outs) as LO.
  { intros outs H. rewrite <- NO. clear - H LL PK P1 P2 KI KO CV. induction H as [|l o ls os E H IH]; constructor; inversion LL as [|? ? [L1 L2] LL']; subst; auto.
    exact (full_one i ci P1 P2 KI KO CV s pt _ _ _ PK L1 L2 E). }
  assert (forall outs, Forall2 (fun l o => full i ci s pt (fst l) (snd l) = Ok o) ls outs -> length (concat outs) = cells (ox :: oy :: nz)) as LT.
  { intros outs H. rewrite (concat_len (ox * oy)) by auto. apply Forall2_length in H. rewrite <- H. unfold ls, ps. rewrite !map_length, positions_length. cbn [cells]. lia. }
  split.
  - intro E. destruct (full i ci s pt (concat (map fst ls)) (concat (map snd ls))) as [w| | |] eqn:W; try discriminate. cbn [obind] in E.
    destruct (proj1 (FL w) eq_refl) as (outs & O & ->). exists outs. split; [now apply EQ|]. split; [now apply LO|].
    destruct (output_box i v h ci s pt ix iy ox oy x0 y0 ax ay zs zz x' y' sx sy sz nx ny nz (concat outs) R NF F0 (LT outs O)) as (out' & E' & B').
    fold q in E'. rewrite E' in E. injection E as <-. exact B'.
  - intros (outs & O & _ & BX). apply EQ in O. rewrite (proj2 (FL (concat outs))) by eauto. cbn [obind].
    destruct (output_box i v h ci s pt ix iy ox oy x0 y0 ax ay zs zz x' y' sx sy sz nx ny nz (concat outs) R NF F0 (LT outs O)) as (out' & E' & B').
    fold q in E'. rewrite E'. f_equal. eapply is_box_unique; eauto.
Qed.

Lemma read_empty i v h ci s pt ix iy ox oy x0 y0 ax ay zs zz x' y' sx sy sz nx ny nz :
  regular i v h ci s pt ix iy ox oy x0 y0 ax ay zs zz -> NoDup (x' :: y' :: zs) -> fits zz sz nz -> cells nz = 0 ->
  read i v (req (x' :: y' :: zs) (ox :: oy :: zz) (sx :: sy :: sz) (nx :: ny :: nz)) = Ok [].
Proof.
  intros (O1 & O2 & O3 & O4 & PT & OA & RG & LZ & ND & B & OX & OY & PX & PY & BO & BC & CV & KI & KO) ND' F C.
  unfold read. rewrite O1, O2, O3, O4. rewrite (input_box ci s _ ix iy zs zz x0 y0 ax ay sz nz); auto.
  - assert (positions nz = []) as -> by (apply length_zero_iff_nil; now rewrite positions_length). reflexivity.
  - inversion ND as [|? ? NI _]; subst. cbn in NI. intuition congruence.
  - inversion ND as [|? ? NI ND2]; subst. inversion ND2 as [|? ? NI2 _]; subst. intros n In_. split; intros ->; cbn in *; tauto.
  - eapply outer_parts; [reflexivity|exact ND'].
Qed.

Lemma shift_zeros l : forall idx, length idx = length l -> shift (zeros l) idx = idx.
Proof. induction l as [|a l IH]; intros [|i idx] L; try discriminate; cbn; auto. f_equal. apply IH. now injection L. Qed.
Lemma fits_whole l : fits l (zeros l) l.
Proof. induction l as [|a l IH]; [repeat split; auto; intros [|k]; discriminate|]. apply fits_cons. split; [lia|exact IH]. Qed.
Lemma shift_length_eq s : forall idx, length idx = length s -> length (shift s idx) = length s.
Proof. induction s as [|a s IH]; intros [|i idx] L; try discriminate; cbn; auto. Qed.

(** A part of an interpolated variable is that part of the whole of it: whatever box is asked for, the values are
    those the whole variable has there. *)
Theorem C100_pieces : forall i v h ci s pt ix iy ox oy x0 y0 ax ay zs zz x' y' start size w,
  regular i v h ci s pt ix iy ox oy x0 y0 ax ay zs zz ->
  fits (ox :: oy :: zz) start size ->
  names_fit ci x' y' zs ox oy (nth 0 start 0) (nth 1 start 0) (nth 0 size 0) (nth 1 size 0) ->
  let shape := ox :: oy :: zz in
  let names := x' :: y' :: zs in
  read i v (req names shape (zeros shape) shape) = Ok w ->
  length w = cells shape /\
  exists out, read i v (req names shape start size) = Ok out /\ is_box w shape start size out.
Proof.
  intros i v h ci s pt ix iy ox oy x0 y0 ax ay zs zz x' y' start size w R F NF shape names W.
  pose proof F as (L1 & L2 & _). destruct start as [|sx [|sy sz]]; try discriminate. destruct size as [|nx [|ny nz]]; try discriminate. cbn [nth] in NF.
  assert (names_fit ci x' y' zs ox oy 0 0 ox oy) as NW.
  { destruct NF as (N1 & [N2|(N2 & _)]); split; auto. right. auto. }
  pose proof F as F0. apply fits_cons in F as [Fx F]. apply fits_cons in F as [Fy F]. pose proof (cells_fits _ _ _ F) as CL.
  pose proof (fits_whole shape) as FW.
  change (zeros shape) with (0 :: 0 :: zeros zz) in W, FW. unfold shape, names in W.
  destruct (Nat.eq_dec (cells zz) 0) as [Z|NZ].
  - rewrite (read_empty i v h ci s pt ix iy ox oy x0 y0 ax ay zs zz x' y' 0 0 (zeros zz) ox oy zz R (proj1 NF) (fits_whole zz) Z) in W. injection W as <-.
    split; [unfold shape; cbn [cells length]; rewrite Z; lia|]. exists []. split; [apply read_empty with (1 := R); auto; [apply NF|lia]|].
    split; [cbn [cells length]; replace (cells nz) with 0 by lia; lia|]. intros idx I. apply lin_lt in I. cbn [cells] in I. replace (cells nz) with 0 in I by lia. lia.
  - apply (read_layers i v h ci s pt ix iy ox oy x0 y0 ax ay zs zz x' y' 0 0 (zeros zz) ox oy zz R NW FW ltac:(lia)) in W as (wo & WO & WL & WB).
    assert (w = concat wo) as ->.
    { apply (is_box_unique (concat wo) (ox :: oy :: zz) (0 :: 0 :: zeros zz) (ox :: oy :: zz)); auto. split.
      - rewrite (concat_len (ox * oy)) by auto. apply Forall2_length in WO. rewrite <- WO, positions_length. cbn [cells]. lia.
      - intros idx I. f_equal. f_equal. symmetry. apply (shift_zeros (ox :: oy :: zz)). apply inside_length in I. auto. }
    assert (length (concat wo) = cells shape) as LW.
    { rewrite (concat_len (ox * oy)) by auto. apply Forall2_length in WO. rewrite <- WO, positions_length. unfold shape. cbn [cells]. lia. }
    split; [exact LW|].
    destruct (Nat.eq_dec (cells nz) 0) as [Zn|Nn].
    { exists []. split; [apply read_empty with (1 := R); auto; apply NF|].
      split; [cbn [cells length]; rewrite Zn; lia|]. intros idx I. apply lin_lt in I. cbn [cells] in I. rewrite Zn in I. lia. }
    assert (forall p, inside zz p -> exists o, one i ci s pt ix iy zz x0 y0 ax ay p = Ok o /\ nth_error wo (lin zz p) = Some o) as ALL.
    { intros p I. assert (nth_error (positions zz) (lin zz p) = Some p) as NP.
      { rewrite positions_nth. pose proof (lin_lt _ _ I) as Hlt. apply Nat.ltb_lt in Hlt. rewrite Hlt. now rewrite unlin_lin. }
      clear - WO NP I. assert (forall k a, nth_error (positions zz) k = Some a -> exists o, one i ci s pt ix iy zz x0 y0 ax ay (shift (zeros zz) a) = Ok o /\ nth_error wo k = Some o) as G.
      { clear - WO. induction WO as [|x o l os E WO IH]; intros [|k] a N; try discriminate; cbn in *; [injection N as ->; eauto|eauto]. }
      destruct (G _ _ NP) as (o & E & N). exists o. rewrite shift_zeros in E by (apply inside_length in I; auto). auto. }
    assert (exists outs, Forall2 (fun k o => one i ci s pt ix iy zz x0 y0 ax ay (shift sz k) = Ok o) (positions nz) outs) as (outs & O).
    { assert (forall k, In k (positions nz) -> exists o, one i ci s pt ix iy zz x0 y0 ax ay (shift sz k) = Ok o) as G.
      { intros k I. apply positions_inside in I. destruct (ALL (shift sz k)) as (o & E & _); [eapply shift_inside; eauto|eauto]. }
      clear - G. induction (positions nz) as [|k l IH]; [now exists []|]. destruct (G k (or_introl eq_refl)) as (o & E). destruct IH as (os & O); [intros; apply G; now right|].
      exists (o :: os). now constructor. }
    assert (Forall (fun o => length o = ox * oy) outs) as LO.
    { assert (forall k o, inside nz k -> one i ci s pt ix iy zz x0 y0 ax ay (shift sz k) = Ok o -> length o = ox * oy) as G.
      { intros k o I E. destruct (ALL (shift sz k)) as (o' & E' & N); [eapply shift_inside; eauto|]. rewrite E in E'. injection E' as <-. rewrite Forall_forall in WL. apply WL. eapply nth_error_In; eauto. }
      assert (forall k, In k (positions nz) -> inside nz k) as G2 by (intros k I; now apply positions_inside).
      clear - O G G2. induction O as [|k o l os E O IH]; constructor; [eapply G; [apply G2; now left|exact E]|apply IH; intros; apply G2; now right]. }
    assert (length (concat outs) = cells (ox :: oy :: nz)) as LT.
    { rewrite (concat_len (ox * oy)) by auto. apply Forall2_length in O. rewrite <- O, positions_length. cbn [cells]. lia. }
    destruct (output_box i v h ci s pt ix iy ox oy x0 y0 ax ay zs zz x' y' sx sy sz nx ny nz (concat outs) R NF F0 LT) as (out & _ & BX).
    exists out. split.
    + apply (read_layers i v h ci s pt ix iy ox oy x0 y0 ax ay zs zz x' y' sx sy sz nx ny nz R NF F0 ltac:(lia)). exists outs. auto.
    + destruct BX as (LB & BX). split; [exact LB|]. intros idx I. rewrite BX by exact I.
      pose proof I as I0. inversion I0 as [|? a ? idx1 Ha I1]; subst. inversion I1 as [|? b ? k Hb I2]; subst.
      cbn [shift]. rewrite shift_zeros by (apply inside_length in I2; auto). unfold shape. cbn [lin].
      assert (inside zz (shift sz k)) as Ik by (eapply shift_inside; eauto).
      destruct (ALL _ Ik) as (o & E & N).
      replace (sx + a + ox * (sy + b + oy * lin nz k)) with (sx + a + ox * (sy + b) + ox * oy * lin nz k) by nia.
      replace (sx + a + ox * (sy + b + oy * lin zz (shift sz k))) with (sx + a + ox * (sy + b) + ox * oy * lin zz (shift sz k)) by nia.
      rewrite !(concat_nth (ox * oy)) by (auto; nia). rewrite N.
      assert (nth_error outs (lin nz k) = Some o) as ->; auto.
      assert (nth_error (positions nz) (lin nz k) = Some k) as NP.
      { rewrite positions_nth. pose proof (lin_lt _ _ I2) as Hlt. apply Nat.ltb_lt in Hlt. rewrite Hlt. now rewrite unlin_lin. }
      clear - O NP E. assert (forall j a, nth_error (positions nz) j = Some a -> exists o, one i ci s pt ix iy zz x0 y0 ax ay (shift sz a) = Ok o /\ nth_error outs j = Some o) as G.
      { clear - O. induction O as [|x o l os E O IH]; intros [|j] a N; try discriminate; cbn in *; [injection N as ->; eauto|eauto]. }
      destruct (G _ _ NP) as (o' & E' & N'). rewrite E in E'. now injection E' as <-.
Qed.
(** the other component of a vector: the counterpart named by the variable, on the same grid, if
    that grid is turned; the variable itself is the x component if its direction says so *)
Theorem C100_partner i v h is_x c t : partner i v h = Some (is_x, c, t) <->
  (sfind v (i_vec i) = Some (c, DX) /\ is_x = true \/ sfind v (i_vec i) = Some (c, DY) /\ is_x = false) /\
  sfind c (i_grid i) = Some h /\ sfind h (i_turn i) = Some t.
Proof.
  unfold partner. split.
  - intros E. destruct (sfind v (i_vec i)) as [[c' d]|] eqn:F; [ | discriminate E ].
    destruct d; try discriminate E; (destruct (sfind c' (i_grid i)) as [h'|] eqn:Q; [ | discriminate E ]);
      (destruct (sfind h (i_turn i)) as [t'|] eqn:T; [ | discriminate E ]);
      (destruct (String.eqb_spec h h') as [->|N]; [ | discriminate E ]); injection E as <- <- <-; rewrite Q; auto.
  - intros ([[-> ->]|[-> ->]] & -> & ->); rewrite String.eqb_refl; reflexivity.
Qed.

Print Assumptions C100_pieces.
Print Assumptions C100_partner.
