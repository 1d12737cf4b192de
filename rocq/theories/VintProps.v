(** C76: vertical interpolation computes every cell from its own column. *)
From Coq Require Import ZArith QArith String List Bool Arith Lia.
From Coq Require Import ZifyBool ZifyNat Lqa.
From Verif Require Import Base IndexSpec LoopModel LoopProofs LoopProps SearchModel SearchProps VintModel VintProofs.
Import ListNotations.
Local Open Scope string_scope.
Local Open Scope list_scope.
Local Open Scope nat_scope.

(** ** what a cell should be.  A point has a coordinate for every dimension name. *)
Definition value_at {A} (f : field A) (p : string -> nat) : A := f_at f (map p (f_shape f)).
(** target level [k] of a point *)
Definition new_level (tgt : target) (zo : string) (p : string -> nat) (k : nat) : Q :=
  match tgt with Fixed l => nth k l 0%Q | Converter c => value_at (vc_levels c) (put p zo k) end.
(** the input levels of a point *)
Definition column (conv : vconv) (zi : string) (n : nat) (p : string -> nat) : list Q :=
  map (fun j => value_at (vc_levels conv) (put p zi j)) (seq 0 n).
(** the level is between the limits at [p0] *)
Definition allowed (lmax lmin : option (field Q)) (p0 : string -> nat) (x : Q) : bool :=
  match lmin with Some f => Qle_bool (value_at f p0) x | None => true end &&
  match lmax with Some f => Qle_bool x (value_at f p0) | None => true end.
Definition cell_value int_func (var : field (option Q)) (conv : vconv) (zi : string) (n : nat) (zo : string) (tgt : target)
           (lmax lmin : option (field Q)) (p p0 : string -> nat) (k : nat) : option Q :=
  let x := new_level tgt zo p k in
  if allowed lmax lmin p0 x then
    let col := column conv zi n p in
    let (a, b) := find_closest_neighbor col x in
    if a =? b then None
    else int_func (value_at var (put p zi a)) (value_at var (put p zi b)) (nth a col 0%Q) (nth b col 0%Q) x
  else None.

(** the neighbours are elements of the list *)
Lemma neighbor_range x l : forall i s, n_low s < i + List.length l -> n_high s < i + List.length l ->
  n_low (neighbor_loop x l i s) < i + List.length l /\ n_high (neighbor_loop x l i s) < i + List.length l.
Proof.
  induction l as [ | c l IH ]; intros i s L H; cbn [neighbor_loop List.length] in *; [ auto | ].
  replace (i + Datatypes.S (List.length l)) with (Datatypes.S i + List.length l) in * by lia. apply IH; unfold neighbor_step;
    destruct (Qle_bool 0 (x - c)); match goal with |- context [less_diff ?a ?b] => destruct (less_diff a b) end; cbn; lia.
Qed.
Lemma neighbor_in_range l x : l <> [] -> fst (find_closest_neighbor l x) < List.length l /\ snd (find_closest_neighbor l x) < List.length l.
Proof.
  destruct l as [ | v l ]; [ congruence | intros _ ]. unfold find_closest_neighbor.
  assert (R := C16_indices_in_range v l x). cbv zeta in R.
  match goal with |- context [neighbor_loop x l 1 ?s] => destruct (neighbor_range x l 1 s) as (A & B); [ cbn; lia | cbn; lia | ] end.
  destruct (n_lowD _); [ destruct (n_highD _) | ]; cbn [fst snd List.length] in *; try (split; apply R); lia.
Qed.

Lemma isu_some unlim n : is_unlim unlim n = true -> unlim = Some n.
Proof. unfold is_unlim. destruct unlim; [ | discriminate ]. intro H. apply String.eqb_eq in H. now subst. Qed.

Section Column.
  Variables (dim_len : string -> option nat) (unlim : option string).
  Variable int_func : option Q -> option Q -> Q -> Q -> Q -> option Q.
  Notation size := (dim_size dim_len).
  Notation isu := (is_unlim unlim).
  Notation sz1 := (size1 dim_len unlim).

  Variables (var : field (option Q)) (conv : vconv) (zi zo : string) (tgt : target) (ign_max ign_min : bool) (vmin vmax : option Q) (pos : nat).
  Let lmax := fst (the_limits ign_max ign_min conv tgt).
  Let lmin := snd (the_limits ign_max ign_min conv tgt).
  Let shape_out := map (fun n => if String.eqb n zi then zo else n) (f_shape var).
  Let tshape := match tgt with Fixed _ => [zo] | Converter c => f_shape (vc_levels c) end.

  Definition dims_of (o : option (field Q)) : list (list string) := match o with Some f => [f_shape f] | None => [] end.
  Let shapes := [f_shape var; f_shape (vc_levels conv); shape_out; tshape] ++ dims_of lmax ++ dims_of lmin.

  Hypothesis POS : forall n, size n > 0.
  Hypothesis MAXLEN : forall n, (Z.of_nat (size n) <= 2 ^ 31)%Z.
  Hypothesis FIXED : forall l, tgt = Fixed l -> size zo = List.length l.
  Hypothesis DISTINCT : forall sh, In sh shapes -> NoDup sh.
  Hypothesis LAST : forall sh, In sh shapes -> unlim_last unlim sh.
  Hypothesis VOL : forall sh, In sh shapes -> (Z.of_nat (cells (map sz1 sh)) <= 2 ^ 64)%Z.
  Hypothesis ZI : In zi (f_shape var).
  Hypothesis ZO : ~ In zo (f_shape var).
  Hypothesis ZU : isu zi = false /\ isu zo = false.
  (** every other dimension of the levels and limits is one of the variable *)
  Hypothesis SUB_I : forall n, In n (f_shape (vc_levels conv)) -> n = zi \/ In n (f_shape var).
  Hypothesis SUB_O : forall n, In n tshape -> n = zo \/ (In n (f_shape var) /\ n <> zi).
  Hypothesis SUB_L : forall sh n, In sh (dims_of lmax ++ dims_of lmin) -> In n sh -> In n (f_shape var) /\ n <> zi.
  Hypothesis RECORD : forall u, unlim = Some u -> In u (f_shape var) -> pos < size u.

  (** the dimensions of the variable without the vertical one *)
  Definition horizontal (n : string) : Prop := In n (f_shape var) /\ n <> zi.

  Lemma out_in n : In n shape_out <-> n = zo \/ horizontal n.
  Proof.
    unfold shape_out, horizontal. rewrite in_map_iff. split.
    - intros (m & E & I). destruct (String.eqb_spec m zi); [ now left | right; subst; auto ].
    - intros [ -> | (I & N) ].
      + exists zi. now rewrite String.eqb_refl.
      + exists n. split; [ | exact I ]. destruct (String.eqb_spec n zi); [ contradiction | reflexivity ].
  Qed.
  Lemma horizontal_zo n : horizontal n -> n <> zo.
  Proof. intros (I & _) ->. contradiction. Qed.

  Let cv := cell_value int_func var conv zi (size zi) zo tgt lmax lmin.

  (** only the horizontal coordinates matter *)
  Lemma map_put_ext {A} (f : field A) (p p' : string -> nat) z k :
    (forall n, In n (f_shape f) -> n <> z -> p n = p' n) -> value_at f (put p z k) = value_at f (put p' z k).
  Proof.
    intro H. unfold value_at. f_equal. apply map_ext_in. intros n I. unfold put. destruct (String.eqb_spec n z); [ reflexivity | now apply H ].
  Qed.
  Lemma cell_ext p p' p0 p0' k : (forall n, horizontal n -> p n = p' n) -> (forall n, horizontal n -> p0 n = p0' n) -> cv p p0 k = cv p' p0' k.
  Proof.
    intros H H0. unfold cv, cell_value.
    assert (X : new_level tgt zo p k = new_level tgt zo p' k).
    { unfold new_level. unfold tshape in SUB_O. destruct tgt as [ l | c ]; [ reflexivity | ]. apply map_put_ext. intros n I N. apply H.
      destruct (SUB_O n I); [ contradiction | exact H1 ]. }
    rewrite X.
    assert (C : column conv zi (size zi) p = column conv zi (size zi) p').
    { unfold column. apply map_ext. intro j. apply map_put_ext. intros n I N. apply H. destruct (SUB_I n I); [ contradiction | split; assumption ]. }
    rewrite C.
    assert (V : forall a, value_at var (put p zi a) = value_at var (put p' zi a)) by (intro a; apply map_put_ext; intros n I N; apply H; split; assumption).
    assert (L : forall f : field Q, In (f_shape f) (dims_of lmax ++ dims_of lmin) -> value_at f p0 = value_at f p0').
    { intros f I. unfold value_at. f_equal. apply map_ext_in. intros n In'. apply H0. now apply (SUB_L (f_shape f)). }
    assert (A : forall x, allowed lmax lmin p0 x = allowed lmax lmin p0' x).
    { intro x. unfold allowed. f_equal.
      - destruct lmin as [ f | ]; [ | reflexivity ]. rewrite L; [ reflexivity | apply in_app_iff; right; now left ].
      - destruct lmax as [ f | ]; [ | reflexivity ]. rewrite L; [ reflexivity | apply in_app_iff; left; now left ]. }
    rewrite A. destruct (allowed _ _ _ _); [ | reflexivity ]. destruct (find_closest_neighbor _ _) as [ a b ]. now rewrite !V.
  Qed.

  (** one array, in the two steps of the code *)
  Lemma build sh z : In sh shapes -> exists a0 a, array_dims dim_len sh = Ok a0 /\ force1 unlim (set_not_shared a0 z) = Ok a /\ good sz1 (Some z) sh a.
  Proof.
    intro I. destruct (good_dims size sh (DISTINCT sh I) POS) as (a0 & E0 & G0).
    destruct (good_force dim_len unlim POS (Some z) sh (set_not_shared a0 z)) as (a & E & G); [ now apply good_not_shared | now apply LAST | ].
    exists a0, a. auto.
  Qed.
  Lemma build_limit o : (forall f, o = Some f -> In (f_shape f) shapes) ->
    exists r, limit_array dim_len unlim o = Ok r /\
      match o with None => r = None | Some f => exists a, r = Some (a, full_slice dim_len f) /\ good sz1 None (f_shape f) a end.
  Proof.
    intro I. destruct o as [ f | ]; cbn [limit_array]; [ | exists None; auto ].
    destruct (good_dims size (f_shape f) (DISTINCT _ (I f eq_refl)) POS) as (a0 & E0 & G0). unfold array_dims. rewrite E0. cbn [obind].
    destruct (good_force dim_len unlim POS None (f_shape f) a0 G0) as (a & E & G); [ now apply LAST, I | ]. rewrite E. cbn [obind]. eexists. split; [ reflexivity | ]. eauto.
  Qed.

  (** reading a slice of one record *)
  Lemma record_ok {A} (f : field A) : (forall n, In n (f_shape f) -> n = zi \/ n = zo \/ In n (f_shape var)) ->
    exists l, record_slice dim_len unlim f pos = Ok l /\
      forall q, (forall n, In n (f_shape f) -> q n < sz1 n) ->
        nth_error l (lin (map sz1 (f_shape f)) (map q (f_shape f))) = Some (value_at f (fun n => if isu n then pos else q n)).
  Proof.
    intro I. unfold record_slice.
    assert (X : existsb (fun n => isu n && (size n <=? pos)) (f_shape f) = false).
    { destruct (existsb _ (f_shape f)) eqn:Ex; [ | reflexivity ]. apply existsb_exists in Ex. destruct Ex as (n & In' & Q). apply andb_true_iff in Q. destruct Q as (Q1 & Q2).
      exfalso. assert (R : In n (f_shape var)). { destruct (I n In') as [ -> | [ -> | R ] ]; [ destruct ZU; congruence | destruct ZU; congruence | exact R ]. }
      unfold is_unlim in Q1. destruct unlim as [ u | ] eqn:Eu; [ | discriminate ]. apply String.eqb_eq in Q1. subst n. specialize (RECORD u eq_refl R). apply Nat.leb_le in Q2. lia. }
    rewrite X. eexists. split; [ reflexivity | ]. intros q Hq.
    change (map (fun n => if isu n then 1 else size n) (f_shape f)) with (map sz1 (f_shape f)).
    rewrite box_nth by now apply inside_map. rewrite shift_map. unfold value_at. f_equal. f_equal. apply map_ext_in. intros n In'. specialize (Hq n In'). unfold size1 in Hq.
    destruct (isu n); lia.
  Qed.
  Lemma full_ok (f : field Q) q : NoDup (f_shape f) -> unlim_last unlim (f_shape f) -> (forall n, In n (f_shape f) -> q n < sz1 n) ->
    nth_error (full_slice dim_len f) (lin (map sz1 (f_shape f)) (map q (f_shape f))) = Some (value_at f q).
  Proof.
    intros ND U Hq. unfold full_slice. rewrite lin_size1 by assumption. rewrite box_nth.
    - rewrite shift_map. reflexivity.
    - apply inside_map. intros n I. specialize (Hq n I). unfold size1 in Hq. destruct (isu n); [ | exact Hq ]. assert (P := POS n). lia.
  Qed.

  Theorem C76_column : exists out,
    level_slice dim_len unlim int_func var conv zi shape_out zo tgt ign_max ign_min vmin vmax pos = Ok out /\
    List.length out = cells (map sz1 shape_out) /\
    forall p k, (forall n, In n shape_out -> p n < size n) -> (forall u, unlim = Some u -> In u shape_out -> p u = pos) -> k < size zo ->
      let p0 := fun n => if isu n then 0 else p n in
      nth_error out (lin (map sz1 shape_out) (map (put p0 zo k) shape_out)) =
      Some (clamp vmin vmax (cell_value int_func var conv zi (size zi) zo tgt lmax lmin p p0 k)).
  Proof.
    destruct ZU as (Zi & Zo).
    assert (S0 : In (f_shape var) shapes) by (left; reflexivity).
    assert (S1 : In (f_shape (vc_levels conv)) shapes) by (right; left; reflexivity).
    assert (S2 : In shape_out shapes) by (do 2 right; left; reflexivity).
    assert (S3 : In tshape shapes) by (do 3 right; left; reflexivity).
    destruct (build _ zi S0) as (i0 & ai & Ei0 & Ei & Gi). destruct (build _ zi S1) as (v0 & av & Ev0 & Ev & Gv).
    destruct (build _ zo S2) as (o0 & ao & Eo0 & Eo & Go).
    assert (T : exists t0 at_, (match tgt with Converter c => array_dims dim_len (f_shape (vc_levels c)) | Fixed l => add_dim empty_dims zo (List.length l) end) = Ok t0 /\
      force1 unlim (set_not_shared t0 zo) = Ok at_ /\ good sz1 (Some zo) tshape at_).
    { clear - FIXED POS S3 DISTINCT LAST Zo. unfold tshape in *. destruct tgt as [ l | c ].
      - assert (Q := FIXED l eq_refl). assert (P := POS zo). unfold add_dim. cbn [a_names a_lens a_deltas a_shared empty_dims app]. destruct (Nat.eqb_spec (List.length l) 0); [ lia | ].
        assert (G : good size None [zo] {| a_names := [zo]; a_lens := [List.length l]; a_deltas := [1]; a_shared := [true] |}).
        { split; [ | split; [ reflexivity | split; [ cbn; now rewrite Q | ] ] ].
          - unfold wf, rank. cbn. split; [ reflexivity | ]. split; [ reflexivity | ]. split; [ reflexivity | ]. split; [ repeat constructor; intros [] | ]. split.
            + intros j H. destruct j; [ reflexivity | lia ].
            + intros x [ <- | [] ]. lia.
          - cbn. intros j H. destruct j; [ reflexivity | lia ]. }
        apply (good_not_shared _ _ _ zo) in G. destruct (good_force dim_len unlim POS (Some zo) [zo] _ G) as (a & E & G').
        { intros u Eu [ <- | [] ]. unfold is_unlim in Zo. rewrite Eu, String.eqb_refl in Zo. discriminate. }
        do 2 eexists. split; [ reflexivity | ]. split; [ exact E | exact G' ].
      - destruct (good_dims size (f_shape (vc_levels c))) as (a0 & E0 & G0); [ now apply DISTINCT | exact POS | ].
        destruct (good_force dim_len unlim POS (Some zo) (f_shape (vc_levels c)) (set_not_shared a0 zo)) as (a & E & G); [ now apply good_not_shared | now apply LAST | ].
        exists a0, a. auto. }
    destruct T as (t0 & at_ & Et0 & Et & Gt).
    assert (Imax : forall f, lmax = Some f -> In (f_shape f) shapes) by (intros f E; unfold shapes; rewrite E; apply in_app_iff; right; left; reflexivity).
    assert (Imin : forall f, lmin = Some f -> In (f_shape f) shapes) by (intros f E; unfold shapes; rewrite E; apply in_app_iff; right; apply in_app_iff; right; left; reflexivity).
    destruct (build_limit lmax Imax) as (rmax & Emax & Gmax). destruct (build_limit lmin Imin) as (rmin & Emin & Gmin).
    set (extra := opt_list (option_map fst rmax) ++ opt_list (option_map fst rmin)).
    set (arrays := [ai; av; ao; at_] ++ extra).
    assert (GA : forall a, In a arrays -> exists z sh, good sz1 z sh a /\ In sh shapes /\ forall n, In n sh -> is_z z n = false -> horizontal n).
    { intros a I. unfold arrays in I. apply in_app_iff in I. destruct I as [ [ <- | [ <- | [ <- | [ <- | [] ] ] ] ] | I ].
      - exists (Some zi), (f_shape var). split; [ exact Gi | ]. split; [ exact S0 | ]. cbn. intros n I Q. split; [ exact I | ]. intros ->. rewrite String.eqb_refl in Q. discriminate.
      - exists (Some zi), (f_shape (vc_levels conv)). split; [ exact Gv | ]. split; [ exact S1 | ]. cbn. intros n I Q. assert (n <> zi) by (intros ->; rewrite String.eqb_refl in Q; discriminate). split; [ | assumption ]. destruct (SUB_I n I); [ contradiction | assumption ].
      - exists (Some zo), shape_out. split; [ exact Go | ]. split; [ exact S2 | ]. cbn. intros n I Q. apply out_in in I. destruct I as [ -> | I ]; [ rewrite String.eqb_refl in Q; discriminate | exact I ].
      - exists (Some zo), tshape. split; [ exact Gt | ]. split; [ exact S3 | ]. cbn. intros n I Q. destruct (SUB_O n I) as [ -> | I' ]; [ rewrite String.eqb_refl in Q; discriminate | exact I' ].
      - unfold extra in I. apply in_app_iff in I. destruct I as [ I | I ].
        + destruct lmax as [ f | ] eqn:El.
          * destruct Gmax as (b & -> & Gb). cbn in I. destruct I as [ <- | [] ]. exists None, (f_shape f). split; [ exact Gb | ]. split; [ now apply Imax | ].
            intros n In' _. apply (SUB_L (f_shape f)); [ apply in_app_iff; left; now left | exact In' ].
          * rewrite Gmax in I. destruct I.
        + destruct lmin as [ f | ] eqn:El.
          * destruct Gmin as (b & -> & Gb). cbn in I. destruct I as [ <- | [] ]. exists None, (f_shape f). split; [ exact Gb | ]. split; [ now apply Imin | ].
            intros n In' _. apply (SUB_L (f_shape f)); [ apply in_app_iff; right; now left | exact In' ].
          * rewrite Gmin in I. destruct I. }
    assert (GA' : forall a, In a arrays -> exists z sh, good sz1 z sh a) by (intros a I; destruct (GA a I) as (z & sh & Q & _); eauto).
    assert (W : forall a, In a arrays -> wf a) by (intros a I; destruct (GA' a I) as (z & sh & Q); apply Q).
    destruct (group_ok arrays sz1 GA') as (g & Eg).
    destruct (group_separate _ _ _ Eg) as (g1 & h & Eg1 & Eh & Sm & Sh0).
    destruct (group_names arrays g sz1 GA' Eg) as (Lens & Ndg & Names).
    assert (NamesH : forall n, In n (g_names g) <-> horizontal n).
    { intro n. rewrite Names. split.
      - intros (a & z & sh & Ia & Ga & In' & Nz). destruct (GA a Ia) as (z' & sh' & Ga' & _ & Hs).
        assert (sh = sh') by (destruct Ga as (_ & A & _); destruct Ga' as (_ & B & _); congruence). subst sh'.
        apply Hs; [ exact In' | ]. destruct Ga as (_ & _ & _ & Sa). destruct Ga' as (_ & _ & _ & Sb).
        apply (In_nth _ _ "") in In'. destruct In' as (j & Hj & <-). specialize (Sa j Hj). specialize (Sb j Hj). rewrite Sa, Nz in Sb. cbn in Sb. now destruct (is_z z' (nth j sh "")).
      - intros Hn. exists ao, (Some zo), shape_out. split; [ unfold arrays; apply in_app_iff; left; do 2 right; now left | ]. split; [ exact Go | ]. split; [ apply out_in; now right | ].
        cbn. apply String.eqb_neq. now apply horizontal_zo. }
    assert (Bl : forall l, In l (g_lens g) -> (Z.of_nat l <= 2 ^ 31)%Z).
    { rewrite Lens. intros l I. apply in_map_iff in I. destruct I as (n & <- & _). unfold size1. destruct (isu n); [ lia | apply MAXLEN ]. }
    destruct (loop_separate arrays g h W Eg Sm Sh0 Bl) as (turns & El & Lt & Vt).
    (* the point of a turn *)
    set (pt := fun m => point (g_names g) (unlin (g_lens g) m)).
    assert (PtB : forall m, m < cells (g_lens g) -> forall n, pt m n < sz1 n).
    { intros m Hm n. unfold pt, point. destruct (index_of n (g_names g)) as [ i | ] eqn:Ei'; [ | apply size1_pos; exact POS ].
      apply index_of_some in Ei'. destruct Ei' as (Hi & <-). assert (I := unlin_inside (g_lens g) m Hm). unfold inside in I.
      assert (Ll : List.length (g_lens g) = List.length (g_names g)) by (now rewrite Lens, map_length).
      assert (N1 := nth_error_nth' (unlin (g_lens g) m) 0 (n := i)). rewrite unlin_length in N1.
      assert (Fl : forall (l1 l2 : list nat) i, Forall2 (fun d i => i < d) l1 l2 -> i < List.length l1 -> nth i l2 0 < nth i l1 0).
      { clear. intros l1 l2 i F. revert i. induction F; intros i H0; cbn in *; [ lia | ]. destruct i; [ assumption | apply IHF; lia ]. }
      assert (F := Fl _ _ i I ltac:(lia)). assert (Nl : nth i (g_lens g) 0 = sz1 (nth i (g_names g) "")).
      { rewrite Lens. rewrite (nth_indep _ 0 (sz1 "")) by (rewrite map_length; exact Hi). apply map_nth. }
      rewrite Nl in F. exact F. }
    assert (AT : forall m s a z sh, m < cells (g_lens g) -> nth_error arrays s = Some a -> good sz1 z sh a -> In sh shapes ->
      at_turn (nth m turns []) s = lin (a_lens a) (map (fun n => if is_z z n then 0 else pt m n) sh)).
    { intros m s a z sh Hm Ha Ga Is. unfold at_turn. rewrite (Vt m s a) by (auto; now rewrite Lt).
      rewrite (sub_point (g_names g) (unlin (g_lens g) m) sz1 z sh a Ga).
      assert (In' : inside (a_lens a) (map (fun n => if is_z z n then 0 else point (g_names g) (unlin (g_lens g) m) n) sh)).
      { destruct Ga as (_ & _ & -> & _). apply inside_map. intros n _. destruct (is_z z n); [ apply size1_pos; exact POS | now apply PtB ]. }
      assert (B := lin_lt _ _ In'). assert (V := VOL sh Is). assert (Ea : a_lens a = map sz1 sh) by apply Ga. rewrite Ea in B.
      rewrite Z.mod_small; [ now rewrite Nat2Z.id | ]. rewrite Ea. unfold W64. lia. }
    (* what the code computes for a turn *)
    set (pp := fun m n => if isu n then pos else pt m n).
    assert (RI : forall n, In n (f_shape (vc_levels conv)) -> n = zi \/ n = zo \/ In n (f_shape var)) by (intros n I; destruct (SUB_I n I); auto).
    destruct (record_ok (vc_levels conv) RI) as (ivert & Eiv & Viv).
    destruct (record_ok var) as (idata & Eid & Vid); [ auto | ].
    assert (OV : exists overt, match tgt with Converter c => record_slice dim_len unlim (vc_levels c) pos | Fixed l => Ok l end = Ok overt /\
       forall m k, m < cells (g_lens g) -> k < size zo -> nth_error overt (lin (map sz1 tshape) (map (put (pt m) zo k) tshape)) = Some (new_level tgt zo (pp m) k)).
    { assert (TC : (exists l, tgt = Fixed l) \/ (exists c, tgt = Converter c)) by (clear; destruct tgt; eauto).
      destruct TC as [ (l & Etg) | (c & Etg) ].
      - exists l. split; [ now rewrite Etg | ]. intros m k Hm Hk. unfold tshape. rewrite Etg. cbn [map lin new_level]. rewrite put_same, Nat.mul_0_r, Nat.add_0_r. apply nth_error_nth'. now rewrite <- (FIXED l Etg).
      - assert (Ts : tshape = f_shape (vc_levels c)) by (unfold tshape; now rewrite Etg).
        destruct (record_ok (vc_levels c)) as (l & E & V).
        { intros n I. rewrite <- Ts in I. destruct (SUB_O n I) as [ -> | (I' & _) ]; auto. }
        exists l. split; [ now rewrite Etg | ]. intros m k Hm Hk. rewrite Ts, V.
        + rewrite Etg. cbn [new_level]. unfold value_at. f_equal. f_equal. apply map_ext. intro n. unfold put, pp. destruct (String.eqb_spec n zo) as [ -> | ]; [ now rewrite Zo | reflexivity ].
        + intros n _. unfold put. destruct (String.eqb_spec n zo) as [ -> | ]; [ unfold size1; now rewrite Zo | now apply PtB ]. }
    destruct OV as (overt & Eov & Vov).
    assert (LP : forall n, In n (g_names g) -> True) by auto. clear LP.
    assert (ZiO : size zi = dim_length ai zi).
    { rewrite (length_z sz1 zi (f_shape var) ai Gi ZI). unfold size1. now rewrite Zi. }
    assert (ZoO : size zo = dim_length ao zo).
    { rewrite (length_z sz1 zo shape_out ao Go); [ unfold size1; now rewrite Zo | apply out_in; now left ]. }
    assert (N0 : nth_error arrays 0 = Some ai) by reflexivity. assert (N1 : nth_error arrays 1 = Some av) by reflexivity.
    assert (N2 : nth_error arrays 2 = Some ao) by reflexivity. assert (N3 : nth_error arrays 3 = Some at_) by reflexivity.
    assert (VOLo : volume ao = cells (map sz1 shape_out)) by (apply (good_volume sz1 (Some zo)); exact Go).
    (* levels of a turn *)
    assert (COL : forall m, m < cells (g_lens g) ->
      omapM (fun j => rd (nth_error ivert (at_turn (nth m turns []) 1 + j * dim_delta av zi))) (seq 0 (dim_length ai zi)) = Ok (column conv zi (size zi) (pp m))).
    { intros m Hm. rewrite <- ZiO. unfold column.
      assert (Q : forall l, (forall j, In j l -> j < size zi) -> omapM (fun j => rd (nth_error ivert (at_turn (nth m turns []) 1 + j * dim_delta av zi))) l =
        Ok (map (fun j => value_at (vc_levels conv) (put (pp m) zi j)) l)).
      { induction l as [ | j l IH ]; intro Hl; cbn [omapM map]; [ reflexivity | ].
        rewrite (AT m 1 av (Some zi) _ Hm N1 Gv S1). rewrite (step_z sz1 zi (f_shape (vc_levels conv)) av (pt m) j Gv).
        rewrite Viv.
        2: { intros n _. unfold put. destruct (String.eqb_spec n zi) as [ -> | ]; [ unfold size1; rewrite Zi; apply Hl; now left | now apply PtB ]. }
        cbn [rd obind]. rewrite <- (AT m 1 av (Some zi) _ Hm N1 Gv S1). rewrite IH by (intros; apply Hl; now right). cbn [obind].
        assert (VV : value_at (vc_levels conv) (fun n => if isu n then pos else put (pt m) zi j n) = value_at (vc_levels conv) (put (pp m) zi j)).
        { unfold value_at. f_equal. apply map_ext. intro n. unfold put, pp. destruct (String.eqb_spec n zi) as [ -> | ]; [ now rewrite Zi | reflexivity ]. }
        rewrite VV. reflexivity. }
      apply Q. intros j Hj. apply in_seq in Hj. lia. }
    assert (VAL : forall m a, m < cells (g_lens g) -> a < size zi ->
      rd (nth_error idata (at_turn (nth m turns []) 0 + dim_delta ai zi * a)) = Ok (value_at var (put (pp m) zi a))).
    { intros m a Hm Ha. rewrite (AT m 0 ai (Some zi) _ Hm N0 Gi S0). rewrite (Nat.mul_comm (dim_delta ai zi)). rewrite (step_z sz1 zi (f_shape var) ai (pt m) a Gi). rewrite Vid.
      2: { intros n _. unfold put. destruct (String.eqb_spec n zi) as [ -> | ]; [ unfold size1; now rewrite Zi | now apply PtB ]. }
      cbn [rd]. f_equal. unfold value_at. f_equal. apply map_ext. intro n. unfold put, pp. destruct (String.eqb_spec n zi) as [ -> | ]; [ now rewrite Zi | reflexivity ]. }
    assert (LIM : forall m s (o : option (field Q)) r, m < cells (g_lens g) -> (forall f, o = Some f -> In (f_shape f) shapes) ->
      match o with None => r = None | Some f => exists a, r = Some (a, full_slice dim_len f) /\ good sz1 None (f_shape f) a /\ nth_error arrays s = Some a end ->
      match r with None => Ok None | Some am => do v <- rd (nth_error (snd am) (at_turn (nth m turns []) s)); Ok (Some v) end =
      Ok (option_map (fun f => value_at f (pt m)) o)).
    { intros m s [ f | ] r Hm Io Hr.
      - destruct Hr as (a & -> & Ga & Na). cbn [snd]. rewrite (AT m s a None _ Hm Na Ga (Io f eq_refl)). destruct Ga as (_ & _ & -> & _). cbn [is_z].
        rewrite full_ok; [ reflexivity | apply DISTINCT; now apply Io | apply LAST; now apply Io | intros n _; now apply PtB ].
      - subst r. reflexivity. }
    set (w := fun e : nat * nat => cv (pp (snd e)) (pt (snd e)) (fst e)).
    set (c := fun e : nat * nat => lin (map sz1 shape_out) (map (put (pt (snd e)) zo (fst e)) shape_out)).
    assert (CB : forall k m, k < size zo -> m < cells (g_lens g) -> inside (map sz1 shape_out) (map (put (pt m) zo k) shape_out)).
    { intros k m Hk Hm. apply inside_map. intros n _. unfold put. destruct (String.eqb_spec n zo) as [ -> | ]; [ unfold size1; now rewrite Zo | now apply PtB ]. }
    (* the body of the loops *)
    set (val := fun e : nat * list Z =>
        do x <- rd (nth_error overt (at_turn (snd e) 3 + fst e * dim_delta at_ zo));
        do maxs <- match rmax with None => Ok None | Some am => do m <- rd (nth_error (snd am) (at_turn (snd e) 4)); Ok (Some m) end;
        do mins <- match rmin with
                   | None => Ok None
                   | Some am => do m <- rd (nth_error (snd am) (at_turn (snd e) (match rmax with None => 4 | Some _ => 5 end))); Ok (Some m)
                   end;
        (if in_range maxs mins x then
           do levels <- omapM (fun j => rd (nth_error ivert (at_turn (snd e) 1 + j * dim_delta av zi))) (seq 0 (dim_length ai zi));
           interpolate int_func levels (fun p => rd (nth_error idata (at_turn (snd e) 0 + dim_delta ai zi * p))) x
         else Ok None)).
    assert (BODY : forall k m, k < size zo -> m < cells (g_lens g) -> val (k, nth m turns []) = Ok (w (k, m))).
    { intros k m Hk Hm. unfold val, w. cbn [fst snd]. rewrite (AT m 3 at_ (Some zo) _ Hm N3 Gt S3). rewrite (step_z sz1 zo tshape at_ (pt m) k Gt). rewrite Vov by assumption. cbn [rd obind].
      rewrite (LIM m 4 lmax rmax Hm Imax).
      2: { destruct lmax as [ f | ] eqn:Elm; [ | exact Gmax ]. destruct Gmax as (a & -> & Ga). exists a. split; [ reflexivity | ]. split; [ exact Ga | reflexivity ]. }
      cbn [obind].
      rewrite (LIM m (match rmax with None => 4 | Some _ => 5 end) lmin rmin Hm Imin).
      2: { destruct lmin as [ f | ] eqn:Elm; [ | exact Gmin ]. destruct Gmin as (a & -> & Ga). exists a. split; [ reflexivity | ]. split; [ exact Ga | ].
           destruct lmax as [ f2 | ]; [ destruct Gmax as (b & -> & Gb) | subst rmax ]; reflexivity. }
      cbn [obind]. unfold cv, cell_value.
      assert (IR : in_range (option_map (fun f => value_at f (pt m)) lmax) (option_map (fun f => value_at f (pt m)) lmin) (new_level tgt zo (pp m) k) =
                   allowed lmax lmin (pt m) (new_level tgt zo (pp m) k)).
      { unfold in_range, allowed. destruct lmax, lmin; reflexivity. }
      rewrite IR. destruct (allowed _ _ _ _); [ | reflexivity ]. rewrite COL by exact Hm. cbn [obind]. unfold interpolate.
      assert (Ln : List.length (column conv zi (size zi) (pp m)) = size zi) by (unfold column; now rewrite map_length, seq_length).
      assert (Rg := neighbor_in_range (column conv zi (size zi) (pp m)) (new_level tgt zo (pp m) k)). rewrite Ln in Rg.
      destruct (find_closest_neighbor _ _) as [ a b ]. cbn [fst snd] in Rg. destruct Rg as (Ra & Rb).
      { intro Z. rewrite Z in Ln. cbn in Ln. assert (P := POS zi). lia. }
      destruct (a =? b); cbn [negb]; [ reflexivity | ]. rewrite !VAL by assumption. cbn [obind]. rewrite !(nth_error_nth' (column conv zi (size zi) (pp m)) 0%Q) by lia. cbn [rd obind]. reflexivity. }
    (* all writes *)
    assert (Lw : forall e : nat * list Z, In e (list_prod (seq 0 (size zo)) turns) <-> exists k m, e = (k, nth m turns []) /\ k < size zo /\ m < cells (g_lens g)).
    { intros [ k idx ]. rewrite in_prod_iff, in_seq. split.
      - intros (Hk & I). apply (In_nth _ _ []) in I. destruct I as (m & Hm & <-). exists k, m. split; [ reflexivity | ]. rewrite Lt in Hm. split; [ lia | exact Hm ].
      - intros (k' & m & E & Hk & Hm). injection E as -> ->. split; [ lia | ]. apply nth_In. now rewrite Lt. }
    set (cz := fun e : nat * list Z => at_turn (snd e) 2 + fst e * dim_delta ao zo).
    assert (CZ : forall k m, m < cells (g_lens g) -> cz (k, nth m turns []) = c (k, m)).
    { intros k m Hm. unfold cz, c. cbn [fst snd]. rewrite (AT m 2 ao (Some zo) _ Hm N2 Go S2). now apply step_z. }
    set (wz := fun e : nat * list Z => match val e with Ok v => v | _ => None end).
    assert (WZ : forall k m, k < size zo -> m < cells (g_lens g) -> wz (k, nth m turns []) = w (k, m)) by (intros; unfold wz; now rewrite BODY).
    (* two writes to the same cell agree *)
    assert (AG : forall k m k' m', k < size zo -> k' < size zo -> m < cells (g_lens g) -> m' < cells (g_lens g) -> c (k, m) = c (k', m') -> w (k, m) = w (k', m')).
    { intros k m k' m' Hk Hk' Hm Hm' E. unfold c in E. cbn [fst snd] in E. apply lin_inj in E; [ | now apply CB | now apply CB ].
      assert (PE : forall n, In n shape_out -> put (pt m) zo k n = put (pt m') zo k' n) by (intros n I; apply (proj2 (map_ext_in_iff _ _ shape_out) E n I) || (revert n I; apply map_ext_in_iff; exact E)).
      assert (Ek : k = k') by (specialize (PE zo (proj2 (out_in zo) (or_introl eq_refl))); now rewrite !put_same in PE). subst k'.
      assert (PH : forall n, horizontal n -> pt m n = pt m' n).
      { intros n Hn. specialize (PE n (proj2 (out_in n) (or_intror Hn))). now rewrite !put_other in PE by now apply horizontal_zo. }
      unfold w. cbn [fst snd]. apply cell_ext; [ | exact PH ]. intros n Hn. unfold pp. destruct (isu n); [ reflexivity | now apply PH ]. }
    destruct (writes cz val wz (list_prod (seq 0 (size zo)) turns) (repeat None (volume ao))) as (out & Eout & Lout & Nout).
    { intros e I. apply Lw in I. destruct I as (k & m & -> & Hk & Hm). split; [ rewrite WZ by assumption; now apply BODY | ].
      rewrite CZ by exact Hm. rewrite repeat_length, VOLo. apply lin_lt. now apply CB. }
    exists (map (clamp vmin vmax) out). split; [ | split ].
    - unfold level_slice. rewrite Eiv. cbn [obind]. rewrite Eov. cbn [obind]. rewrite Ei0. cbn [obind]. rewrite Ev0. cbn [obind]. rewrite Eo0. cbn [obind]. rewrite Et0. cbn [obind].
      rewrite Ei. cbn [obind]. rewrite Ev. cbn [obind]. rewrite Eo. cbn [obind]. rewrite Et. cbn [obind]. rewrite Eg1. cbn [obind].
      unfold lmax in Emax. unfold lmin in Emin. destruct (the_limits ign_max ign_min conv tgt) as [ lx ln ]. cbn [fst snd] in Emax, Emin. rewrite Emax. cbn [obind]. rewrite Emin. cbn [obind].
      fold extra. rewrite Eh. cbn [obind]. rewrite Eid. cbn [obind]. rewrite El. cbn [obind]. rewrite <- ZoO.
      match goal with |- (do out <- ofold ?F (seq 0 (size zo)) ?o; _) = _ => assert (FE : ofold F (seq 0 (size zo)) o = Ok out) end.
      { rewrite <- Eout. transitivity (ofold (fun s k => ofold (fun s idx => do x <- val (k, idx); wr s (cz (k, idx)) x) turns s) (seq 0 (size zo)) (repeat None (volume ao))).
        2: { rewrite (ofold_nested (fun k idx out => do x <- val (k, idx); wr out (cz (k, idx)) x)). apply ofold_ext_in. intros [ k idx ] s _. reflexivity. }
        apply ofold_ext_in. intros k s _. apply ofold_ext_in. intros idx s' _. unfold val, cz. cbn [fst snd].
        destruct (rd (nth_error overt _)); cbn [obind]; auto.
        destruct rmax as [ am | ]; [ destruct (rd (nth_error (snd am) _)); cbn [obind]; auto | cbn [obind] ];
        (destruct rmin as [ bm | ]; [ destruct (rd (nth_error (snd bm) _)); cbn [obind]; auto | cbn [obind] ]); try reflexivity. }
      rewrite FE. reflexivity.
    - rewrite map_length, Lout, repeat_length. exact VOLo.
    - intros p k Hp Hu Hk. cbv zeta. set (p0 := fun n => if isu n then 0 else p n).
      assert (Bp : forall n, horizontal n -> p0 n < sz1 n).
      { intros n Hn. unfold p0, size1. destruct (isu n); [ lia | ]. apply Hp. apply out_in. now right. }
      set (m := lin (g_lens g) (map p0 (g_names g))).
      assert (Ins : inside (g_lens g) (map p0 (g_names g))) by (rewrite Lens; apply inside_map; intros n I; apply Bp; now apply NamesH).
      assert (Hm : m < cells (g_lens g)) by (now apply lin_lt).
      assert (Pm : forall n, horizontal n -> pt m n = p0 n).
      { intros n Hn. unfold pt, m. rewrite unlin_lin by exact Ins. apply point_map. now apply NamesH. }
      assert (Ce : lin (map sz1 shape_out) (map (put p0 zo k) shape_out) = c (k, m)).
      { unfold c. cbn [fst snd]. f_equal. apply map_ext_in. intros n I. unfold put. destruct (String.eqb_spec n zo) as [ | N ]; [ reflexivity | ].
        symmetry. apply Pm. apply out_in in I. destruct I; [ contradiction | assumption ]. }
      rewrite Ce, <- (CZ k m Hm). rewrite nth_error_map. rewrite (Nout (k, nth m turns [])).
      + cbn [option_map]. f_equal. f_equal. rewrite WZ by assumption. unfold w. cbn [fst snd]. apply cell_ext.
        * intros n Hn. unfold pp. destruct (isu n) eqn:Iu; [ | rewrite Pm by exact Hn; unfold p0; now rewrite Iu ].
          symmetry. apply Hu; [ now apply isu_some | apply out_in; now right ].
        * intros n Hn. rewrite Pm by exact Hn. reflexivity.
      + intros e' I Ec. apply Lw in I. destruct I as (k' & m' & -> & Hk' & Hm'). rewrite !CZ in Ec by assumption. rewrite !WZ by assumption. now apply AG.
      + left. apply Lw. exists k, m. auto.
  Qed.
End Column.

(** every cell of the result belongs to a point and a target level *)
Theorem C76_every_cell dim_len unlim zo (shape_out : list string) (pos : nat) : NoDup shape_out -> In zo shape_out -> is_unlim unlim zo = false ->
  (forall u, unlim = Some u -> In u shape_out -> pos < dim_size dim_len u) -> (forall n, dim_size dim_len n > 0) ->
  forall i, i < cells (map (size1 dim_len unlim) shape_out) -> exists p k,
    (forall n, In n shape_out -> p n < dim_size dim_len n) /\ (forall u, unlim = Some u -> In u shape_out -> p u = pos) /\ k < dim_size dim_len zo /\
    i = lin (map (size1 dim_len unlim) shape_out) (map (put (fun n => if is_unlim unlim n then 0 else p n) zo k) shape_out).
Proof.
  intros ND Iz Zo Rec Pos i Hi. set (lens := map (size1 dim_len unlim) shape_out) in *. set (q := point shape_out (unlin lens i)).
  assert (Q : map q shape_out = unlin lens i).
  { apply nth_error_ext. intro j. rewrite nth_error_map. destruct (Nat.lt_ge_cases j (List.length shape_out)) as [ L | L ].
    - rewrite (nth_error_nth' shape_out "") by exact L. cbn. unfold q, point. rewrite index_of_nth by assumption. symmetry. apply nth_error_nth'. rewrite unlin_length. unfold lens. now rewrite map_length.
    - rewrite !nth_error_None_ge; [ reflexivity | rewrite unlin_length; unfold lens; now rewrite map_length | exact L ]. }
  assert (B : forall n, In n shape_out -> q n < size1 dim_len unlim n).
  { apply inside_map_inv. rewrite Q. now apply unlin_inside. }
  exists (fun n => if is_unlim unlim n then pos else q n), (q zo). split; [ | split; [ | split ] ].
  - intros n I. specialize (B n I). unfold size1 in B. destruct (is_unlim unlim n) eqn:E; [ apply Rec; [ now apply isu_some | exact I ] | exact B ].
  - intros u Eu I. unfold is_unlim. now rewrite Eu, String.eqb_refl.
  - specialize (B zo Iz). unfold size1 in B. now rewrite Zo in B.
  - rewrite <- (lin_unlin lens i Hi) at 1. rewrite <- Q. f_equal. apply map_ext_in. intros n I. unfold put. destruct (String.eqb_spec n zo) as [ -> | ]; [ reflexivity | ].
    specialize (B n I). unfold size1 in B. destruct (is_unlim unlim n); [ lia | reflexivity ].
Qed.

(** a level between the levels of the column: the value is interpolated between the largest level below and the
    smallest level above *)
Theorem C76_between int_func var conv zi n zo tgt lmax lmin p p0 k v0 col lo hi :
  let x := new_level tgt zo p k in
  column conv zi n p = v0 :: col -> allowed lmax lmin p0 x = true -> ~ (v0 == x)%Q ->
  In lo (v0 :: col) -> (lo <= x)%Q -> In hi (v0 :: col) -> (x < hi)%Q ->
  exists a b, a < n /\ b < n /\
    let la := value_at (vc_levels conv) (put p zi a) in let lb := value_at (vc_levels conv) (put p zi b) in
    (la <= x < lb)%Q /\
    (forall j, j < n -> let lj := value_at (vc_levels conv) (put p zi j) in ((lj <= x -> lj <= la) /\ (x < lj -> lb <= lj))%Q) /\
    cell_value int_func var conv zi n zo tgt lmax lmin p p0 k =
    int_func (value_at var (put p zi a)) (value_at var (put p zi b)) la lb x.
Proof.
  intros x C A N Il Ll Ih Lh. assert (R := C16_brackets_inside v0 col x lo hi N Il Ll Ih Lh). cbv zeta in R.
  unfold cell_value. fold x. rewrite A, C. destruct (find_closest_neighbor (v0 :: col) x) as [ a b ]. cbn [fst snd] in R.
  destruct R as (la & lb & Na & Nb & (L1 & L2) & M1 & M2). rewrite <- C in Na, Nb, M1, M2.
  assert (CN : forall j l, nth_error (column conv zi n p) j = Some l -> j < n /\ l = value_at (vc_levels conv) (put p zi j)).
  { intros j l H. unfold column in H. rewrite nth_error_map, nth_error_seq in H. destruct (Nat.ltb_spec j n); cbn in H; [ | discriminate ]. injection H as <-. auto. }
  destruct (CN _ _ Na) as (Ha & Ea). destruct (CN _ _ Nb) as (Hb & Eb). exists a, b. split; [ exact Ha | ]. split; [ exact Hb | ]. cbv zeta. rewrite <- Ea, <- Eb.
  split; [ auto | ]. split.
  - intros j Hj. assert (I : In (value_at (vc_levels conv) (put p zi j)) (column conv zi n p)).
    { unfold column. apply in_map_iff. exists j. split; [ reflexivity | apply in_seq; lia ]. }
    split; [ now apply M1 | now apply M2 ].
  - destruct (Nat.eqb_spec a b) as [ -> | Nab ].
    + exfalso. rewrite Na in Nb. injection Nb as ->. apply (Qlt_irrefl x). now apply Qlt_le_trans with lb.
    + rewrite <- C. rewrite (nth_error_nth _ _ 0%Q Na), (nth_error_nth _ _ 0%Q Nb). reflexivity.
Qed.

(** outside the limits the value is undefined *)
Theorem C76_outside_limits int_func var conv zi n zo tgt lmax lmin p p0 k :
  let x := new_level tgt zo p k in
  (exists f, lmin = Some f /\ (x < value_at f p0)%Q) \/ (exists f, lmax = Some f /\ (value_at f p0 < x)%Q) ->
  cell_value int_func var conv zi n zo tgt lmax lmin p p0 k = None.
Proof.
  intros x H. unfold cell_value. fold x.
  assert (A : allowed lmax lmin p0 x = false).
  { unfold allowed. apply andb_false_iff. destruct H as [ (f & -> & L) | (f & -> & L) ]; [ left | right ];
      (destruct (Qle_bool _ _) eqn:E; [ apply Qle_bool_iff in E; exfalso; apply (Qlt_not_le _ _ L E) | reflexivity ]). }
  now rewrite A.
Qed.

(** a record that does not exist *)
Theorem C76_no_record dim_len u int_func var conv zi so zo tgt im ii vmin vmax pos :
  In u (f_shape (vc_levels conv)) -> dim_size dim_len u <= pos ->
  level_slice dim_len (Some u) int_func var conv zi so zo tgt im ii vmin vmax pos = Throw.
Proof.
  intros I L. unfold level_slice, record_slice at 1.
  assert (E : existsb (fun n => is_unlim (Some u) n && (dim_size dim_len n <=? pos)) (f_shape (vc_levels conv)) = true).
  { apply existsb_exists. exists u. split; [ exact I | ]. cbn. rewrite String.eqb_refl. apply Nat.leb_le in L. now rewrite L. }
  now rewrite E.
Qed.

(** A dimension the metadata do not know counts as one position. *)
Theorem C76_unknown_dimension dim_len n :
  (dim_len n = None -> dim_size dim_len n = 1) /\ (forall l, dim_len n = Some l -> dim_size dim_len n = l).
Proof. unfold dim_size. split; [ now intros -> | intros l -> ]. reflexivity. Qed.
(** The limits used: those of the new levels if they have any, else those of the old levels; a limit to be
    ignored is none. *)
Theorem C76_limits_used (ign_max ign_min : bool) conv tgt :
  let of (c : vconv) := (if ign_max then None else vc_max c, if ign_min then None else vc_min c) in
  (forall l, tgt = Fixed l -> the_limits ign_max ign_min conv tgt = of conv) /\
  (forall c, tgt = Converter c -> of c = (None, None) -> the_limits ign_max ign_min conv tgt = of conv) /\
  (forall c, tgt = Converter c -> of c <> (None, None) -> the_limits ign_max ign_min conv tgt = of c).
Proof.
  cbv zeta. split; [ now intros l -> | ]. unfold the_limits, limits. split; intros c -> H.
  - injection H as H1 H2. now rewrite H1, H2.
  - destruct (if ign_max then None else vc_max c), (if ign_min then None else vc_min c); try reflexivity. now elim H.
Qed.
(** Values outside the valid range of the variable are set to its ends, all others and missing ones stay. *)
Theorem C76_valid_range vmin vmax v : (forall a b, vmin = Some a -> vmax = Some b -> (a <= b)%Q) ->
  clamp vmin vmax None = None /\
  exists y, clamp vmin vmax (Some v) = Some y /\
    (forall a, vmin = Some a -> (a <= y)%Q /\ ((v < a)%Q -> y = a)) /\ (forall b, vmax = Some b -> (y <= b)%Q /\ ((b < v)%Q -> y = b)) /\
    ((forall a, vmin = Some a -> (a <= v)%Q) -> (forall b, vmax = Some b -> (v <= b)%Q) -> y = v).
Proof.
  intro AB. unfold clamp. split; [ now destruct vmin, vmax | ].
  assert (L : forall a b, qltb a b = true <-> (a < b)%Q).
  { intros a b. unfold qltb. rewrite negb_true_iff, <- not_true_iff_false, Qle_bool_iff. split; [ apply Qnot_le_lt | apply Qlt_not_le ]. }
  assert (L' : forall a b, qltb a b = false <-> (b <= a)%Q).
  { intros a b. rewrite <- not_true_iff_false, L. split; [ apply Qnot_lt_le | apply Qle_not_lt ]. }
  destruct vmin as [ a | ], vmax as [ b | ].
  - assert (O := AB a b eq_refl eq_refl). destruct (qltb v a) eqn:E1; [ apply L in E1 | apply L' in E1 ].
    + destruct (qltb b a) eqn:E2; [ apply L in E2; lra | ]. exists a. split; [ reflexivity | ].
      split; [ intros x X; injection X as <-; split; [ lra | reflexivity ] | ]. split; [ intros x X; injection X as <-; split; [ lra | intro; lra ] | ].
      intros H _. specialize (H a eq_refl). lra.
    + destruct (qltb b v) eqn:E2; [ apply L in E2 | apply L' in E2 ].
      * exists b. split; [ reflexivity | ]. split; [ intros x X; injection X as <-; split; [ lra | intro; lra ] | ].
        split; [ intros x X; injection X as <-; split; [ lra | reflexivity ] | ]. intros _ H. specialize (H b eq_refl). lra.
      * exists v. split; [ reflexivity | ]. split; [ intros x X; injection X as <-; split; [ lra | intro; lra ] | ].
        split; [ intros x X; injection X as <-; split; [ lra | intro; lra ] | reflexivity ].
  - destruct (qltb v a) eqn:E1; [ apply L in E1 | apply L' in E1 ].
    + exists a. split; [ reflexivity | ]. split; [ intros x X; injection X as <-; split; [ lra | reflexivity ] | ]. split; [ discriminate | ].
      intros H _. specialize (H a eq_refl). lra.
    + exists v. split; [ reflexivity | ]. split; [ intros x X; injection X as <-; split; [ lra | intro; lra ] | ]. split; [ discriminate | reflexivity ].
  - destruct (qltb b v) eqn:E2; [ apply L in E2 | apply L' in E2 ].
    + exists b. split; [ reflexivity | ]. split; [ discriminate | ]. split; [ intros x X; injection X as <-; split; [ lra | reflexivity ] | ].
      intros _ H. specialize (H b eq_refl). lra.
    + exists v. split; [ reflexivity | ]. split; [ discriminate | ]. split; [ intros x X; injection X as <-; split; [ lra | intro; lra ] | reflexivity ].
  - exists v. split; [ reflexivity | ]. split; [ discriminate | ]. split; [ discriminate | reflexivity ].
Qed.

(** ** findings *)
(** Finding: a target level that is equal to the first level of the column is never interpolated: the value is
    undefined although the level is in the data *)
Theorem C76_first_level_refuted int_func var conv zi n zo tgt lmax lmin p p0 k v0 col :
  column conv zi n p = v0 :: col -> (v0 == new_level tgt zo p k)%Q ->
  cell_value int_func var conv zi n zo tgt lmax lmin p p0 k = None.
Proof.
  intros C E. unfold cell_value. rewrite C. destruct (allowed _ _ _ _); [ | reflexivity ]. now rewrite C16_first_match_refuted by exact E.
Qed.
(** Finding: a level outside of the column that is closest to its first level is not extrapolated, whereas one
    that is closest to its last level is *)
Theorem C76_beyond_first_refuted int_func var conv zi n zo tgt lmax lmin p p0 k v0 col :
  let x := new_level tgt zo p k in
  column conv zi n p = v0 :: col -> ~ (v0 == x)%Q ->
  (forall e, In e (v0 :: col) -> (x < e)%Q) \/ (forall e, In e (v0 :: col) -> (e <= x)%Q) ->
  (forall e, In e col -> (Qabs.Qabs (x - v0) < Qabs.Qabs (x - e))%Q) ->
  cell_value int_func var conv zi n zo tgt lmax lmin p p0 k = None.
Proof.
  intros x C N O F. unfold cell_value. fold x. rewrite C. destruct (allowed _ _ _ _); [ | reflexivity ].
  rewrite C16_outside_uses_closest_two by assumption. now rewrite C16_first_closest_refuted by exact F.
Qed.

(** ** a concrete case: a column of three levels, two points, two records; the limits differ between the records *)
Definition ex_len (n : string) : option nat :=
  if String.eqb n "x" then Some 2 else if String.eqb n "k" then Some 3 else if String.eqb n "p" then Some 2 else if String.eqb n "t" then Some 2 else None.
Definition ex_at3 (i : list nat) : nat := match i with [x; k; t] => x + 10 * k + 100 * t | _ => 0 end.
Definition ex_var : field (option Q) := mkField ["x"; "k"; "t"] (fun i => Some (inject_Z (Z.of_nat (ex_at3 i)))).
Definition ex_min : field Q := mkField ["x"; "t"] (fun i => match i with [x; 0] => 14%Q | _ => 0%Q end).
(** levels 10 (k + 1) - x *)
Definition ex_conv : vconv :=
  mkConv (mkField ["x"; "k"; "t"] (fun i => match i with [x; k; t] => inject_Z (10 * (Z.of_nat k + 1) - Z.of_nat x) | _ => 0%Q end)) None
         (Some ex_min).
Definition ex_lin (v0 v1 : option Q) (l0 l1 x : Q) : option Q :=
  match v0, v1 with Some a, Some b => Some (Qred (a + (x - l0) / (l1 - l0) * (b - a)))%Q | _, _ => None end.
Definition ex_run (ign_min : bool) (pos : nat) :=
  level_slice ex_len (Some "t") ex_lin ex_var ex_conv "k" ["x"; "p"; "t"] "p" (Fixed [15; 12]%Q) false ign_min None (Some 106%Q) pos.

Example C76_nonvacuous : exists out,
  ex_run true 1 = Ok out /\ List.length out = 4 /\
  nth_error out (lin [2; 2; 1] [1; 0; 0]) = Some (Some 106%Q) /\   (* 107 before valid_max *)
  (forall p k, (forall n, In n ["x"; "p"; "t"] -> p n < dim_size ex_len n) -> p "t" = 1 -> k < 2 ->
    nth_error out (lin [2; 2; 1] (map (put (fun n => if String.eqb n "t" then 0 else p n) "p" k) ["x"; "p"; "t"])) =
    Some (clamp None (Some 106%Q) (cell_value ex_lin ex_var ex_conv "k" 3 "p" (Fixed [15; 12]%Q) None None p (fun n => if String.eqb n "t" then 0 else p n) k))).
Proof.
  assert (X := C76_column ex_len (Some "t") ex_lin ex_var ex_conv "k" "p" (Fixed [15; 12]%Q) false true None (Some 106%Q) 1).
  cbn [f_shape ex_var ex_conv vc_levels vc_max vc_min the_limits limits fst snd dims_of app map String.eqb Ascii.eqb Bool.eqb] in X.
  destruct X as (out & E & L & P).
  - intro n. unfold dim_size, ex_len. repeat (destruct (String.eqb _ _); [ lia | ]). lia.
  - intro n. unfold dim_size, ex_len. repeat (destruct (String.eqb _ _); [ lia | ]). lia.
  - intros l H. injection H as <-. reflexivity.
  - intros sh I. cbn in I. repeat (destruct I as [ <- | I ]; [ repeat constructor; cbn; intuition discriminate | ]). destruct I.
  - intros sh I u H Iu. injection H as <-. cbn in I. destruct I as [ <- | [ <- | [ <- | [ <- | [] ] ] ] ].
    + now exists ["x"; "k"]. + now exists ["x"; "k"]. + now exists ["x"; "p"]. + destruct Iu as [ Iu | [] ]. discriminate.
  - intros sh I. cbn in I. repeat (destruct I as [ <- | I ]; [ vm_compute; discriminate | ]). destruct I.
  - cbn. auto.
  - cbn. intuition discriminate.
  - split; reflexivity.
  - cbn. intuition auto.
  - cbn. intuition auto.
  - cbn. intros sh n [].
  - intros u H _. injection H as <-. cbn. lia.
  - exists out. split; [ exact E | ]. split; [ exact L | ]. split.
    + assert (E' : Ok out = ex_run true 1) by (symmetry; exact E). clear - E'. revert E'. vm_compute. intros [= ->]. reflexivity.
    + intros p k Hp Ht Hk. apply (P p k); [ exact Hp | intros u H _; injection H as <-; exact Ht | exact Hk ].
Qed.

(** Finding: the limits are read for all records but always used at record 0: the level 12 is above the limit 0 of
    record 1, but the limit 14 of record 0 makes the value undefined *)
Theorem C76_limits_record_refuted : exists out,
  ex_run false 1 = Ok out /\ nth_error out (lin [2; 2; 1] [0; 1; 0]) = Some None /\
  (value_at ex_min (fun n => if String.eqb n "t" then 1%nat else 0%nat) <= 12)%Q /\
  exists out', ex_run true 1 = Ok out' /\ nth_error out' (lin [2; 2; 1] [0; 1; 0]) = Some (Some 102%Q).
Proof.
  eexists. split; [ vm_compute; reflexivity | ]. split; [ reflexivity | ]. split; [ vm_compute; discriminate | ].
  eexists. split; [ vm_compute; reflexivity | ]. reflexivity.
Qed.
Example C76_first_level_nonvacuous : exists out,
  level_slice ex_len (Some "t") ex_lin ex_var ex_conv "k" ["x"; "p"; "t"] "p" (Fixed [10; 20]%Q) true true None None 0 = Ok out /\
  out = [None; Some 2%Q; Some 10%Q; Some 12%Q].
Proof. eexists. split; vm_compute; reflexivity. Qed.
Print Assumptions C76_column.
Print Assumptions C76_every_cell.
Print Assumptions C76_between.
Print Assumptions C76_outside_limits.
Print Assumptions C76_no_record.
Print Assumptions C76_first_level_refuted.
Print Assumptions C76_beyond_first_refuted.
Print Assumptions C76_limits_record_refuted.
Print Assumptions C76_unknown_dimension.
Print Assumptions C76_limits_used.
Print Assumptions C76_valid_range.
