(** C100: nearest neighbours, vectors, records, and concrete files. *)
From Coq Require Import NArith ZArith QArith Qcanon Ascii String List Bool Arith Lia.
From Verif Require ConvertProofs.
From Verif Require Import Base StdMap Rounding RegridModel RegridProofs StringModel ConvertModel IndexSpec SliceModel SliceProofs VecModel IreadModel IreadProofs IreadProps.
Import ListNotations.
Local Open Scope string_scope.
Local Open Scope list_scope.
Local Open Scope nat_scope.

(** ** nearest neighbours *)

(** A CachedNNInterpolation as getInputDataSlice sees it; a domain that was not reduced starts at 0, 0 and is asked
    for whole. *)
Definition nearest_grid (nan : Z) (x y : string) (ix iy ox oy : nat) (pts : list (Q * Q)) : cached :=
  let g := nn_construct nan (N.of_nat ix) (N.of_nat iy) (map known pts) in
  mkCached x y (Some (nn_x0 g, nn_y0 g)) (nn_inX g) (nn_inY g) (N.of_nat ox) (N.of_nat oy) (nn_interpolate None g).

Definition pick (g : nn) (l : list value) : list value :=
  map (fun i => if (i =? INVALID)%N then None else nth (N.to_nat i) l None) (nn_map g).
Lemma nn_pick g ls : (0 < nn_inX g * nn_inY g)%N -> Forall (fun i => i = INVALID \/ (i < nn_inX g * nn_inY g)%N) (nn_map g) ->
  Forall (fun l => length l = N.to_nat (nn_inX g * nn_inY g)) ls -> nn_interpolate None g (concat ls) = Ok (concat (map (pick g) ls)).
Proof.
  intros P M F. unfold nn_interpolate. set (n := N.to_nat (nn_inX g * nn_inY g)) in *. destruct (Nat.eqb_spec n 0); [lia|].
  rewrite (concat_len n) by exact F. replace (Nat.div (n * length ls) n) with (length ls) by (rewrite Nat.mul_comm, Nat.div_mul; lia).
  rewrite <- (map_seq_nth (fun z => pick g (nth z ls [])) (pick g) ls).
  2:{ intros k l N. f_equal. now apply nth_error_nth. }
  assert (forall zs, (forall z, In z zs -> z < length ls) -> omapM (fun z => omapM (fun i => if (i =? INVALID)%N then Ok None else rd (nth_error (concat ls) (z * n + N.to_nat i))) (nn_map g)) zs
    = Ok (map (fun z => pick g (nth z ls [])) zs)) as G.
  { induction zs as [|z zs IH]; intro H; [reflexivity|]. cbn [omapM map]. rewrite IH by (intros; apply H; now right).
    assert (omapM (fun i => if (i =? INVALID)%N then Ok None else rd (nth_error (concat ls) (z * n + N.to_nat i))) (nn_map g) = Ok (pick g (nth z ls []))) as ->; [|reflexivity].
    unfold pick. pose proof (H z (or_introl eq_refl)) as Hz. clear - M F Hz. induction M as [|i m Hi M IH]; [reflexivity|]. cbn [omapM map]. rewrite IH.
    destruct (N.eqb_spec i INVALID) as [->|NI]; [reflexivity|]. destruct Hi as [?|Hi]; [congruence|].
    rewrite Nat.add_comm, Nat.mul_comm, (concat_nth n) by (auto; unfold n; lia). rewrite (nth_error_nth' ls []) by exact Hz.
    rewrite (nth_error_nth' (nth z ls []) None); [reflexivity|]. rewrite Forall_forall in F. rewrite (F (nth z ls [])) by (now apply nth_In). lia. }
  rewrite G; [reflexivity|]. intros z I. apply in_seq in I. lia.
Qed.

(** The nearest-neighbour interpolation treats layers separately, so that [by_layers] is met by it. *)
Theorem C100_nearest_layers : forall nan x y ix iy ox oy pts,
  0 < ix -> 0 < iy -> (N.of_nat (ix * iy) < 2 ^ 32)%N -> Forall RegridProofs.int_range pts -> length pts = ox * oy ->
  let ci := nearest_grid nan x y ix iy ox oy pts in
  by_layers (N.to_nat (ci_inX ci * ci_inY ci)) (ox * oy) (ci_values ci).
Proof.
  intros nan x y ix iy ox oy pts PX PY B F LP ci. destruct (nn_map_spec nan ix iy pts PX PY B F) as [(G1 & G2 & G3 & G4) (f & EM & FM)].
  cbn [ci nearest_grid ci_inX ci_inY ci_values]. set (g := nn_construct nan (N.of_nat ix) (N.of_nat iy) (map known pts)) in *.
  assert (0 < nn_inX g * nn_inY g)%N as P by nia.
  assert (Forall (fun i => i = INVALID \/ (i < nn_inX g * nn_inY g)%N) (nn_map g)) as M.
  { rewrite EM. apply Forall_forall. intros i I. apply in_map_iff in I as (p & <- & I). specialize (FM p I). destruct (cell_of ix iy p) as [[cx cy]|]; [|now left]. right. destruct FM as (F1 & F2 & ->). nia. }
  assert (forall l, length l = N.to_nat (nn_inX g * nn_inY g) -> nn_interpolate None g l = Ok (pick g l)) as One.
  { intros l L. pose proof (nn_pick g [l] P M ltac:(repeat constructor; exact L)) as E. cbn in E. rewrite !app_nil_r in E. exact E. }
  split.
  - intros ls NE FL out. rewrite nn_pick by auto. split.
    + intro E. injection E as <-. exists (map (pick g) ls). split; [|reflexivity]. clear - FL One. induction FL; cbn; constructor; auto.
    + intros (outs & O & ->). do 2 f_equal. clear - O FL One. induction O as [|l o ls os E O IH]; [reflexivity|]. inversion FL; subst. cbn. rewrite One in E by auto. injection E as <-. f_equal. now apply IH.
  - intros l o L E. rewrite One in E by exact L. injection E as <-. unfold pick. now rewrite map_length, EM, map_length.
Qed.

(** what is shown of a stored value: missing values as the fill value *)
Definition filled (fill : value) (v : value) : value := match v with None => fill | Some _ => v end.
Lemma written_float s l : s_type s = DFloat -> written s l = Ok (map (filled (s_fill s)) l).
Proof.
  intro T. unfold written, convert_data_type. rewrite T. cbn [veqb andb numeric]. unfold scale_array. cbn [static_cast ConvertModel.int_range obind].
  change (Qc_eq_bool 1 0) with false. cbn match. apply ConvertProofs.omapM_pointwise. intros [q|] _; [|reflexivity].
  cbn. do 2 f_equal. unfold Qcdiv. assert (/ 1 = 1)%Qc as -> by reflexivity. ring.
Qed.
Lemma filled_bad fill v : forall l, map (filled fill) (bad2nan fill l) = map (filled fill) l /\ filled fill (match fill with None => v | Some _ => if veqb v fill then None else v end) = filled fill v.
Proof.
  assert (forall v, filled fill (match fill with None => v | Some _ => if veqb v fill then None else v end) = filled fill v) as H.
  { clear. intros v. destruct fill as [f|]; [|reflexivity]. destruct v as [q|]; [|reflexivity]. cbn. destruct (Qc_eq_bool q f) eqn:E; [|reflexivity]. apply Qc_eq_bool_correct in E. now subst. }
  intro l. split; [|apply H]. unfold bad2nan. destruct fill as [f|]; [|reflexivity]. rewrite map_map. apply map_ext. intro a. apply (H a).
Qed.

(** Nearest-neighbour interpolation of floats, from the reader to the reader of the interpolated file: whatever box is
    asked for, each value is that of the input cell closest to the point, on the same levels and times, and the fill
    value where there is no such cell. *)
Theorem C100_nearest : forall nan i v h s x y ix iy ox oy zs zz pts start size,
  sfind v (i_own i) = None -> sfind v (i_reader i) = Some s -> sfind v (i_grid i) = Some h ->
  let ci := nearest_grid nan x y ix iy ox oy pts in
  sfind h (i_cached i) = Some ci -> partner i v h = None -> i_pre i = [] -> i_post i = [] ->
  s_type s = DFloat -> on_axes ci s ix iy zs zz -> length zs = length zz -> NoDup (x :: y :: zs) ->
  (forall d, In d (ix :: iy :: ox :: oy :: zz) -> (N.of_nat d < M64)%N) -> (N.of_nat (cells (ox :: oy :: zz)) < M64)%N ->
  0 < ix -> 0 < iy -> 0 < ox -> 0 < oy -> (N.of_nat (ix * iy) < 2 ^ 32)%N -> Forall RegridProofs.int_range pts -> length pts = ox * oy ->
  fits (ox :: oy :: zz) start size ->
  exists out, read i v (req (x :: y :: zs) (ox :: oy :: zz) start size) = Ok out /\ length out = cells size /\
    forall idx a b k, inside size idx -> shift start idx = a :: b :: k ->
      nth_error out (lin size idx) =
      match cell_of ix iy (nth (a + ox * b) pts (0, 0)%Q) with
      | Some (cx, cy) => option_map (filled (s_fill s)) (nth_error (s_data s) (lin (ix :: iy :: zz) (cx :: cy :: k)))
      | None => Some (s_fill s)
      end.
Proof.
  intros nan i v h s x y ix iy ox oy zs zz pts start size O1 O2 O3 ci O4 PT PR PO TY OA LZ ND B BC PX PY QX QY BI FP LP FI.
  destruct (nn_map_spec nan ix iy pts PX PY BI FP) as [(G1 & G2 & G3 & G4) (f & EM & FM)].
  pose proof (C100_nearest_layers nan x y ix iy ox oy pts PX PY BI FP LP) as BL. cbv zeta in BL. fold ci in BL.
  set (g := nn_construct nan (N.of_nat ix) (N.of_nat iy) (map known pts)) in *.
  assert (ci_inX ci = nn_inX g /\ ci_inY ci = nn_inY g) as [CX CY] by (split; reflexivity).
  set (x0 := N.to_nat (nn_x0 g)). set (y0 := N.to_nat (nn_y0 g)). set (ax := N.to_nat (nn_inX g)). set (ay := N.to_nat (nn_inY g)).
  assert (regular i v h ci s None ix iy ox oy x0 y0 ax ay zs zz) as R.
  { split; [exact O1|]. split; [exact O2|]. split; [exact O3|]. split; [exact O4|]. split; [exact PT|]. split; [exact OA|]. split.
    { unfold region, x0, y0, ax, ay. cbn [ci nearest_grid ci_inX ci_inY ci_from]. fold g. repeat split; try lia. f_equal; lia. }
    split; [exact LZ|]. split; [exact ND|]. split; [intros d [<-|[<-|I]]; apply B; cbn; tauto|]. split; [reflexivity|]. split; [reflexivity|]. split; [exact QX|]. split; [exact QY|].
    split; [intros d [<-|[<-|[]]]; apply B; cbn; tauto|]. split; [exact BC|]. split; [|split; intros p I; [rewrite PR in I|rewrite PO in I]; destruct I].
    rewrite CX, CY in BL. replace (N.to_nat (nn_inX g * nn_inY g)) with (ax * ay) in BL by (unfold ax, ay; lia). exact BL. }
  assert (names_fit ci x y zs ox oy (nth 0 start 0) (nth 1 start 0) (nth 0 size 0) (nth 1 size 0)) as NF by (split; [exact ND|left; split; reflexivity]).
  assert (names_fit ci x y zs ox oy 0 0 ox oy) as NW by (split; [exact ND|left; split; reflexivity]).
  (* one layer *)
  assert (0 < nn_inX g * nn_inY g)%N as P by nia.
  assert (Forall (fun i => i = INVALID \/ (i < nn_inX g * nn_inY g)%N) (nn_map g)) as M.
  { rewrite EM. apply Forall_forall. intros j I. apply in_map_iff in I as (p & <- & I). specialize (FM p I). destruct (cell_of ix iy p) as [[cx cy]|]; [|now left]. right. destruct FM as (F1 & F2 & ->). nia. }
  set (layer_at := fun p => map (filled (s_fill s)) (pick g (lay (s_data s) ix iy zz x0 y0 ax ay p))).
  assert (forall p, one i ci s None ix iy zz x0 y0 ax ay p = Ok (layer_at p)) as ONE.
  { intro p. unfold one, full, single, rest, prepared. set (l := lay (s_data s) ix iy zz x0 y0 ax ay p).
    assert (length l = ax * ay) as LL by apply lay_len.
    rewrite TY. change (convert_values DFloat DFloat l) with (Ok l). cbn [obind]. rewrite Nat.ltb_irrefl, PR, PO. cbn [process obind].
    rewrite <- (bad2nan_len (s_fill s) l), firstn_all.
    pose proof (nn_pick g [bad2nan (s_fill s) l] P M) as E. cbn [concat map] in E. rewrite !app_nil_r in E.
    assert (ci_values ci (bad2nan (s_fill s) l) = Ok (pick g (bad2nan (s_fill s) l))) as -> by (apply E; repeat constructor; rewrite bad2nan_len, LL; unfold ax, ay; lia). cbn [obind]. rewrite written_float by exact TY. f_equal.
    unfold layer_at, pick. fold l. rewrite !map_map. apply map_ext_in. intros j I. destruct (j =? INVALID)%N; [reflexivity|].
    rewrite <- !(map_nth (filled (s_fill s))). now rewrite (proj1 (filled_bad (s_fill s) None l)). }
  destruct (Nat.eq_dec (cells (tl (tl size))) 0) as [Z|NZ].
  { pose proof FI as (L1 & L2 & _). destruct start as [|sx [|sy sz]]; try discriminate. destruct size as [|nx [|ny nz]]; try discriminate. cbn [tl] in Z.
    pose proof FI as F. apply fits_cons in F as [Fx F]. apply fits_cons in F as [Fy F].
    exists []. split; [apply read_empty with (1 := R); auto|]. split; [cbn [cells length]; rewrite Z; lia|]. intros idx a b k I. apply lin_lt in I. cbn [cells] in I. rewrite Z in I. lia. }
  pose proof FI as (L1 & L2 & _). destruct start as [|sx [|sy sz]]; try discriminate. destruct size as [|nx [|ny nz]]; try discriminate. cbn [tl nth] in *.
  pose proof FI as F. apply fits_cons in F as [Fx F]. apply fits_cons in F as [Fy F].
  set (outs := map (fun k => layer_at (shift sz k)) (positions nz)).
  assert (Forall (fun o => length o = ox * oy) outs) as LO.
  { apply Forall_forall. intros o I. apply in_map_iff in I as (k & <- & _). unfold layer_at, pick. now rewrite !map_length, EM, map_length. }
  assert (length (concat outs) = cells (ox :: oy :: nz)) as LT.
  { rewrite (concat_len (ox * oy)) by auto. unfold outs. rewrite map_length, positions_length. cbn [cells]. lia. }
  destruct (output_box i v h ci s None ix iy ox oy x0 y0 ax ay zs zz x y sx sy sz nx ny nz (concat outs) R NF FI LT) as (out & _ & BX).
  exists out. split.
  { apply (read_layers i v h ci s None ix iy ox oy x0 y0 ax ay zs zz x y sx sy sz nx ny nz R NF FI ltac:(lia)). exists outs. split; [|auto].
    unfold outs. clear - ONE. induction (positions nz) as [|k l IH]; cbn; constructor; auto. }
  destruct BX as (LB & BX). split; [exact LB|]. intros idx a b k I SH. rewrite BX by exact I.
  pose proof I as I0. inversion I0 as [|? a' ? idx1 Ha I1]; subst. inversion I1 as [|? b' ? k' Hb I2]; subst.
  cbn [shift] in SH |- *. injection SH as <- <- <-. rewrite shift_zeros by (apply inside_length in I2; auto). cbn [lin].
  replace (sx + a' + ox * (sy + b' + oy * lin nz k')) with (sx + a' + ox * (sy + b') + ox * oy * lin nz k') by nia.
  rewrite (concat_nth (ox * oy)) by (auto; nia).
  unfold outs. rewrite nth_error_map, positions_nth. pose proof (lin_lt _ _ I2) as Hlt. apply Nat.ltb_lt in Hlt. rewrite Hlt. cbn [option_map]. rewrite unlin_lin by exact I2.
  set (r := sx + a' + ox * (sy + b')). assert (r < ox * oy) as Hr by (unfold r; nia).
  unfold layer_at, pick. rewrite EM, !nth_error_map. rewrite (nth_error_nth' pts (0, 0)%Q) by lia. cbn [option_map].
  assert (In (nth r pts (0, 0)%Q) pts) as IP by (apply nth_In; lia). specialize (FM _ IP).
  destruct (cell_of ix iy (nth r pts (0, 0)%Q)) as [[cx cy]|] eqn:EC.
  - destruct FM as (F1 & F2 & ->). destruct (cell_of_bound _ _ _ _ _ EC) as [HX HY].
    replace ((N.of_nat cy - nn_y0 g) * nn_inX g + (N.of_nat cx - nn_x0 g) =? INVALID)%N with false by (symmetry; apply N.eqb_neq; rewrite INVALID_val; nia).
    unfold lay. assert (inside [ax; ay] [cx - x0; cy - y0]) as IL by (unfold ax, ay, x0, y0; repeat constructor; lia).
    assert (nth_error (positions [ax; ay]) (N.to_nat ((N.of_nat cy - nn_y0 g) * nn_inX g + (N.of_nat cx - nn_x0 g))) = Some [cx - x0; cy - y0]) as NP.
    { replace (N.to_nat ((N.of_nat cy - nn_y0 g) * nn_inX g + (N.of_nat cx - nn_x0 g))) with (lin [ax; ay] [cx - x0; cy - y0]) by (unfold ax, ay, x0, y0; cbn [lin]; nia).
      rewrite positions_nth. pose proof (lin_lt _ _ IL) as Hl. apply Nat.ltb_lt in Hl. rewrite Hl. now rewrite unlin_lin. }
    erewrite nth_error_nth by (rewrite nth_error_map, NP; reflexivity). cbn [shift app]. replace (x0 + (cx - x0)) with cx by (unfold x0; lia). replace (y0 + (cy - y0)) with cy by (unfold y0; lia).
    assert (inside zz (shift sz k')) as Ik by (eapply shift_inside; eauto).
    rewrite (nth_error_nth' (s_data s) None); [reflexivity|]. destruct OA as (_ & -> & _). apply (lin_lt (ix :: iy :: zz) (cx :: cy :: shift sz k')). constructor; [exact HX|]. constructor; [exact HY|exact Ik].
  - rewrite FM, N.eqb_refl. reflexivity.
Qed.
Print Assumptions C100_nearest.

(** ** vectors *)

(** what is handed out of interpolated values [l]: postprocessed, in the type of the variable, the part asked for *)
Definition handed (i : interp) (ci : cached) (s : stored) (q : request) (l : list value) : outcome (list value) :=
  do e <- process (i_post i) (ci_outX ci) (ci_outY ci) l; do w <- written s e; output ci w q.
(** the same file without vectors *)
Definition unturned (i : interp) : interp := mkInterp (i_reader i) (i_own i) (i_grid i) (i_cached i) (i_turn i) [] (i_pre i) (i_post i).

(** Both components of a vector are read with the same turning of the same two interpolated fields: the x component
    is its first, the y component its second result. Without the turning the two fields themselves are read. *)
Theorem C100_vector : forall i u v h ci su sv t ix iy ox oy x0 y0 ax ay zs zz x' y' start size ou ov,
  regular i u h ci su (Some (true, sv, t)) ix iy ox oy x0 y0 ax ay zs zz ->
  regular i v h ci sv (Some (false, su, t)) ix iy ox oy x0 y0 ax ay zs zz ->
  fits (ox :: oy :: zz) start size -> NoDup (x' :: y' :: zs) -> 0 < cells (tl (tl size)) ->
  let q := req (x' :: y' :: zs) (ox :: oy :: zz) start size in
  read i u q = Ok ou -> read i v q = Ok ov ->
  exists a b a' b', t a b = Ok (a', b') /\ read (unturned i) u q = handed i ci su q a /\ read (unturned i) v q = handed i ci sv q b /\
    handed i ci su q a' = Ok ou /\ handed i ci sv q b' = Ok ov.
Proof.
  intros i u v h ci su sv t ix iy ox oy x0 y0 ax ay zs zz x' y' start size ou ov RU RV F ND C q EU EV.
  pose proof F as (L1 & L2 & _). destruct start as [|sx [|sy sz]]; try discriminate. destruct size as [|nx [|ny nz]]; try discriminate. cbn [tl] in C.
  apply fits_cons in F as [Fx F]. apply fits_cons in F as [Fy F]. unfold q in EU, EV.
  rewrite (read_steps _ _ _ _ _ _ _ _ _ _ _ _ _ _ _ _ x' y' sx sy sz nx ny nz RU ND F C) in EU.
  rewrite (read_steps _ _ _ _ _ _ _ _ _ _ _ _ _ _ _ _ x' y' sx sy sz nx ny nz RV ND F C) in EV. fold q in EU, EV.
  assert (forall w s pt, regular i w h ci s pt ix iy ox oy x0 y0 ax ay zs zz -> regular (unturned i) w h ci s None ix iy ox oy x0 y0 ax ay zs zz) as RN.
  { intros w s pt (O1 & O2 & O3 & O4 & PT & RR). split; [exact O1|]. split; [exact O2|]. split; [exact O3|]. split; [exact O4|]. split; [reflexivity|exact RR]. }
  unfold q. rewrite (read_steps _ _ _ _ _ _ _ _ _ _ _ _ _ _ _ _ x' y' sx sy sz nx ny nz (RN _ _ _ RU) ND F C).
  rewrite (read_steps _ _ _ _ _ _ _ _ _ _ _ _ _ _ _ _ x' y' sx sy sz nx ny nz (RN _ _ _ RV) ND F C). fold q.
  set (du := concat (map (lay (s_data su) ix iy zz x0 y0 ax ay) (map (shift sz) (positions nz)))) in *.
  set (dv := concat (map (lay (s_data sv) ix iy zz x0 y0 ax ay) (map (shift sz) (positions nz)))) in *.
  change (map (fun p => lay (s_data sv) ix iy zz x0 y0 ax ay p) (map (shift sz) (positions nz))) with (map (lay (s_data sv) ix iy zz x0 y0 ax ay) (map (shift sz) (positions nz))) in *.
  change (map (fun p => lay (s_data su) ix iy zz x0 y0 ax ay p) (map (shift sz) (positions nz))) with (map (lay (s_data su) ix iy zz x0 y0 ax ay) (map (shift sz) (positions nz))) in *.
  unfold full, rest in *. fold du in EU, EV |- *. fold dv in EU, EV |- *.
  change (single (unturned i) ci su du) with (single i ci su du). change (single (unturned i) ci sv dv) with (single i ci sv dv). change (i_post (unturned i)) with (i_post i).
  destruct (single i ci su du) as [a| | |] eqn:A; try discriminate. destruct (single i ci sv dv) as [b| | |] eqn:Bv; try discriminate. cbn [obind] in *.
  destruct (t a b) as [[a' b']| | |] eqn:T; try discriminate. cbn [omap obind fst snd] in *.
  exists a, b, a', b'. split; [exact T|]. unfold handed.
  split; [destruct (process (i_post i) (ci_outX ci) (ci_outY ci) a); reflexivity|]. split; [destruct (process (i_post i) (ci_outX ci) (ci_outY ci) b); reflexivity|].
  split; [rewrite <- EU; destruct (process (i_post i) (ci_outX ci) (ci_outY ci) a'); reflexivity|rewrite <- EV; destruct (process (i_post i) (ci_outX ci) (ci_outY ci) b'); reflexivity].
Qed.
Print Assumptions C100_vector.

(** ** records *)

Definition rec_start (u : string) (pos : nat) (names : list string) : list nat := map (fun n => if String.eqb n u then pos else 0) names.
Fixpoint rec_size (u : string) (names : list string) (dims : list nat) : list nat :=
  match names, dims with n :: ns, d :: ds => (if String.eqb n u then 1 else d) :: rec_size u ns ds | _, _ => [] end.
Lemma record_req i v u pos names : forall dims, length names = length dims ->
  record i v (with_lengths names dims) (Some u) (N.of_nat pos) = read i v (req names dims (rec_start u pos names) (rec_size u names dims)).
Proof.
  intros dims L. unfold record. f_equal. revert dims L. induction names as [|n names IH]; intros [|d dims] L; try discriminate; [reflexivity|].
  cbn [with_lengths combine map rec_start rec_size req]. change (combine names (map N.of_nat dims)) with (with_lengths names dims). rewrite IH by (now injection L).
  destruct (String.eqb n u); reflexivity.
Qed.
Lemma record_fits u pos : forall names dims, length names = length dims -> (forall n d, In (n, d) (combine names dims) -> n = u -> pos < d) -> fits dims (rec_start u pos names) (rec_size u names dims).
Proof.
  induction names as [|n names IH]; intros [|d dims] L H; try discriminate; [repeat split; auto; intros [|k]; discriminate|].
  cbn [rec_start map rec_size]. apply fits_cons. split.
  - destruct (String.eqb_spec n u) as [->|NE]; [|lia]. pose proof (H u d (or_introl eq_refl) eq_refl). lia.
  - apply IH; [now injection L|]. intros m e I. apply H. now right.
Qed.

(** A record of an interpolated variable is the part of the whole at that position of the unlimited dimension. *)
Theorem C100_record : forall i v h ci s pt ix iy ox oy x0 y0 ax ay zs zz u pos w,
  regular i v h ci s pt ix iy ox oy x0 y0 ax ay zs zz ->
  let shape := ox :: oy :: zz in
  let names := ci_x ci :: ci_y ci :: zs in
  (forall n d, In (n, d) (combine names shape) -> n = u -> pos < d) ->
  read i v (req names shape (zeros shape) shape) = Ok w ->
  exists out, record i v (with_lengths names shape) (Some u) (N.of_nat pos) = Ok out /\
    is_box w shape (rec_start u pos names) (rec_size u names shape) out.
Proof.
  intros i v h ci s pt ix iy ox oy x0 y0 ax ay zs zz u pos w R shape names H W.
  pose proof R as (_ & _ & _ & _ & _ & _ & _ & LZ & ND & _). rewrite record_req by (cbn; auto).
  destruct (C100_pieces i v h ci s pt ix iy ox oy x0 y0 ax ay zs zz (ci_x ci) (ci_y ci) (rec_start u pos names) (rec_size u names shape) w R) as (_ & G); auto.
  - apply record_fits; cbn; auto.
  - split; [exact ND|left; auto].
Qed.
Print Assumptions C100_record.
Print Assumptions C100_nearest_layers.
