(** Lemmas for C100. *)
From Coq Require Import NArith QArith Qcanon Ascii String List Bool Arith Lia.
From Verif Require Import Base StdMap RegridModel StringModel ConvertModel IndexSpec SliceModel SliceProofs VecModel IreadModel.
Import ListNotations.
Local Open Scope string_scope.
Local Open Scope list_scope.
Local Open Scope nat_scope.

(** ** layers *)

Lemma concat_nth {A} m : forall (ls : list (list A)), Forall (fun l => length l = m) ls -> forall k r, r < m ->
  nth_error (concat ls) (r + m * k) = match nth_error ls k with Some l => nth_error l r | None => None end.
Proof.
  induction 1 as [|l ls L F IH]; intros k r Hr.
  - cbn. destruct k; cbn; now destruct (r + _).
  - cbn [concat]. destruct k as [|k].
    + rewrite Nat.mul_0_r, Nat.add_0_r. cbn. rewrite nth_error_app1 by lia. reflexivity.
    + rewrite nth_error_app2 by lia. cbn [nth_error]. rewrite <- IH by exact Hr. f_equal. lia.
Qed.
Lemma concat_len {A} m (ls : list (list A)) : Forall (fun l => length l = m) ls -> length (concat ls) = m * length ls.
Proof. induction 1 as [|l ls L F IH]; cbn; [lia|]. rewrite app_length, IH, L. lia. Qed.

Lemma skipn_concat {A} m : forall (ls : list (list A)) k, Forall (fun l => length l = m) ls -> skipn (k * m) (concat ls) = concat (skipn k ls).
Proof.
  intros ls k F. revert k. induction F as [|l ls L F IH]; intros [|k]; cbn [skipn concat]; auto.
  - now rewrite skipn_nil.
  - replace (S k * m) with (m + k * m) by lia. rewrite skipn_app, L. replace (m + k * m - m) with (k * m) by lia.
    rewrite skipn_all2 by lia. cbn. apply IH.
Qed.
Lemma layer_concat m (ls : list (list value)) k l : Forall (fun l => length l = m) ls -> nth_error ls k = Some l -> layer m k (concat ls) = l.
Proof.
  intros F N. unfold layer. rewrite skipn_concat by exact F.
  assert (skipn k ls = l :: skipn (S k) ls) as ->.
  { clear F. revert k N. induction ls as [|a ls IH]; intros [|k] N; try discriminate; cbn in *; [now injection N as ->|]. now apply IH. }
  cbn. rewrite firstn_app. rewrite Forall_forall in F. pose proof (F l (nth_error_In _ _ N)) as L. rewrite <- L, firstn_all, Nat.sub_diag. cbn. apply app_nil_r.
Qed.
Lemma map_seq_nth {A B} (f : nat -> B) (g : A -> B) : forall ls, (forall k l, nth_error ls k = Some l -> f k = g l) -> map f (seq 0 (length ls)) = map g ls.
Proof.
  intros ls H. apply nth_error_ext. intro i. rewrite !nth_error_map. destruct (nth_error ls i) as [l|] eqn:E.
  - assert (i < length ls) by (apply nth_error_Some; congruence). rewrite (nth_error_nth' _ 0) by (rewrite seq_length; lia).
    rewrite seq_nth by lia. cbn. f_equal. now apply H.
  - apply nth_error_None in E. replace (nth_error (seq 0 (length ls)) i) with (@None nat); auto. symmetry. apply nth_error_None. rewrite seq_length. lia.
Qed.

(** what one layer becomes *)
Definition keeps_size (nx ny : N) (ps : list process2d) : Prop :=
  forall p, In p ps -> forall l, length l = N.to_nat (nx * ny) -> length (p nx ny l) = N.to_nat (nx * ny).
Definition all_of (ps : list process2d) (nx ny : N) (l : list value) : list value := fold_left (fun a p => p nx ny a) ps l.
Lemma all_of_len ps nx ny : keeps_size nx ny ps -> forall l, length l = N.to_nat (nx * ny) -> length (all_of ps nx ny l) = N.to_nat (nx * ny).
Proof.
  unfold all_of. induction ps as [|p ps IH]; intros K l L; cbn; auto. apply IH; [intros p' I; apply K; now right|]. apply K; [now left|exact L].
Qed.
Lemma process_layers ps nx ny ls : (0 < nx * ny)%N -> Forall (fun l => length l = N.to_nat (nx * ny)) ls ->
  process ps nx ny (concat ls) = Ok (concat (map (all_of ps nx ny) ls)).
Proof.
  intros P F. unfold process. destruct ps as [|p ps].
  - do 2 f_equal. symmetry. rewrite <- (map_id ls) at 2. apply map_ext. reflexivity.
  - set (n := N.to_nat (nx * ny)) in *. assert (0 < n) by (unfold n; lia).
    destruct (Nat.eqb_spec n 0); [lia|]. rewrite (concat_len n) by exact F.
    replace (Nat.div (n * length ls) n) with (length ls) by (rewrite Nat.mul_comm, Nat.div_mul; lia).
    rewrite skipn_all2 by (rewrite (concat_len n) by exact F; lia). rewrite app_nil_r. do 2 f_equal.
    apply map_seq_nth. intros k l N. now rewrite (layer_concat n ls k l F N).
Qed.

(** functions on whole fields that treat layers of [n] values separately *)
Definition by_layers (n m : nat) (g : list value -> outcome (list value)) : Prop :=
  (forall ls, ls <> [] -> Forall (fun l => length l = n) ls -> forall out,
     g (concat ls) = Ok out <-> exists outs, Forall2 (fun l o => g l = Ok o) ls outs /\ out = concat outs) /\
  (forall l o, length l = n -> g l = Ok o -> length o = m).
(** the same for functions of two fields with two results *)
Definition pairs_by_layers (m : nat) (t : turning) : Prop :=
  (forall ls, ls <> [] -> Forall (fun l => length (fst l) = m /\ length (snd l) = m) ls -> forall a b,
     t (concat (map fst ls)) (concat (map snd ls)) = Ok (a, b) <->
     exists outs, Forall2 (fun l o => t (fst l) (snd l) = Ok o) ls outs /\ a = concat (map fst outs) /\ b = concat (map snd outs)) /\
  (forall u v a b, length u = m -> length v = m -> t u v = Ok (a, b) -> length a = m /\ length b = m).

(** functions that treat every value by itself *)
Definition by_values (g : list value -> outcome (list value)) : Prop :=
  (forall a b r, g (a ++ b) = Ok r <-> exists ra rb, g a = Ok ra /\ g b = Ok rb /\ r = ra ++ rb) /\
  (forall a r, g a = Ok r -> length r = length a).
Lemma omapM_app {A B} (f : A -> outcome B) a b r : omapM f (a ++ b) = Ok r <-> exists ra rb, omapM f a = Ok ra /\ omapM f b = Ok rb /\ r = ra ++ rb.
Proof.
  revert r. induction a as [|x a IH]; intro r; cbn [app omapM].
  - split; [intro H; now exists [], r | intros (ra & rb & E & H & ->); now injection E as <-].
  - destruct (f x) as [y| | |]; cbn; try (split; [discriminate|intros (ra & rb & E & _); discriminate]).
    destruct (omapM f (a ++ b)) as [l| | |] eqn:E; cbn.
    + destruct (proj1 (IH l) eq_refl) as (ra & rb & Ea & Eb & ->). rewrite Ea. cbn. split.
      * intro H. injection H as <-. now exists (y :: ra), rb.
      * intros (ra' & rb' & E1 & E2 & ->). injection E1 as <-. rewrite Eb in E2. now injection E2 as <-.
    + split; [discriminate|]. intros (ra & rb & Ea & Eb & _). destruct (omapM f a) as [l| | |] eqn:Ea'; try discriminate.
      pose proof (proj2 (IH (l ++ rb)) (ex_intro _ l (ex_intro _ rb (conj eq_refl (conj Eb eq_refl))))). discriminate.
    + split; [discriminate|]. intros (ra & rb & Ea & Eb & _). destruct (omapM f a) as [l| | |] eqn:Ea'; try discriminate.
      pose proof (proj2 (IH (l ++ rb)) (ex_intro _ l (ex_intro _ rb (conj eq_refl (conj Eb eq_refl))))). discriminate.
    + split; [discriminate|]. intros (ra & rb & Ea & Eb & _). destruct (omapM f a) as [l| | |] eqn:Ea'; try discriminate.
      pose proof (proj2 (IH (l ++ rb)) (ex_intro _ l (ex_intro _ rb (conj eq_refl (conj Eb eq_refl))))). discriminate.
Qed.
Lemma omapM_len {A B} (f : A -> outcome B) l : forall r, omapM f l = Ok r -> length r = length l.
Proof.
  induction l as [|x l IH]; intros r H; cbn in H; [now injection H as <-|]. destruct (f x); try discriminate. cbn in H.
  destruct (omapM f l); try discriminate. injection H as <-. cbn. f_equal. now apply IH.
Qed.
Lemma by_values_omapM (f : value -> outcome value) : by_values (omapM f).
Proof. split; [apply omapM_app|apply omapM_len]. Qed.
Lemma by_values_ok : by_values (fun l => Ok l).
Proof.
  split; [|intros a r H; now injection H as <-]. intros a b r. split; [intro H; injection H as <-; now exists a, b|].
  intros (ra & rb & E1 & E2 & ->). injection E1 as <-. now injection E2 as <-.
Qed.
Lemma by_values_throw : by_values (fun l => Throw).
Proof. split; [|discriminate]. intros a b r. split; [discriminate|intros (ra & rb & E & _); discriminate]. Qed.
Lemma by_values_ub : by_values (fun l => UB).
Proof. split; [|discriminate]. intros a b r. split; [discriminate|intros (ra & rb & E & _); discriminate]. Qed.
Lemma by_values_hang : by_values (fun l => Hang).
Proof. split; [|discriminate]. intros a b r. split; [discriminate|intros (ra & rb & E & _); discriminate]. Qed.
Lemma by_values_convert tin tout : by_values (convert_values tin tout).
Proof.
  unfold convert_values. destruct (dtype_eqb tin tout); [apply by_values_ok|]. destruct (numeric tout); [apply by_values_omapM|apply by_values_throw].
Qed.
Lemma by_values_written s : by_values (written s).
Proof.
  unfold written, convert_data_type. destruct (_ && _); [apply by_values_convert|]. destruct (numeric (s_type s)); [|apply by_values_throw].
  unfold scale_array. destruct (static_cast DFloat None) as [o| | |]; cbn [obind]; [|apply by_values_throw|apply by_values_ub|apply by_values_hang].
  destruct (static_cast (s_type s) (s_fill s)) as [n| | |]; cbn [obind]; [|apply by_values_throw|apply by_values_ub|apply by_values_hang].
  destruct (Qc_eq_bool 1 0); [apply by_values_ub|]. apply by_values_omapM.
Qed.
Lemma values_layers g n : by_values g -> by_layers n n g.
Proof.
  intros (A & L). split; [|intros l o <- E; now apply L]. intros ls NE F. clear F. induction ls as [|l ls IH]; [congruence|]. intro out. destruct ls as [|l2 ls].
  - cbn [concat]. rewrite app_nil_r. split.
    + intro E. exists [out]. split; [repeat constructor; exact E|]. cbn. now rewrite app_nil_r.
    + intros (outs & H & ->). inversion H as [|? o ? os E H2]; subst. inversion H2; subst. cbn. now rewrite app_nil_r.
  - change (concat (l :: l2 :: ls)) with (l ++ concat (l2 :: ls)). rewrite A. split.
    + intros (ra & rb & Ea & Eb & ->). apply IH in Eb as (outs & H & ->); [|discriminate]. exists (ra :: outs). split; [now constructor|reflexivity].
    + intros (outs & H & ->). inversion H as [|? o ? os E H2]; subst. exists o, (concat os). split; [exact E|]. split; [|reflexivity].
      apply IH; [discriminate|]. now exists os.
Qed.
Lemma layers_comp g h n m k : by_layers n m g -> by_layers m k h -> by_layers n k (fun l => do r <- g l; h r).
Proof.
  intros (G & GL) (H & HL). split.
  - intros ls NE F out. split.
    + intro E. destruct (g (concat ls)) as [r| | |] eqn:Eg; try discriminate. cbn in E. apply G in Eg as (mids & M & ->); auto.
      assert (Forall (fun l => length l = m) mids) as FM.
      { clear - GL M F. induction M as [|l o ls os E M IH]; constructor; inversion F; subst; eauto. }
      apply H in E as (outs & O & ->); auto.
      2:{ intro Z. subst mids. inversion M; subst; congruence. }
      exists outs. split; [|reflexivity]. clear - M O. revert outs O. induction M as [|l o ls os E M IH]; intros outs O; inversion O; subst; constructor; auto. now rewrite E.
    + intros (outs & O & ->).
      assert (exists mids, Forall2 (fun l o => g l = Ok o) ls mids /\ Forall2 (fun l o => h l = Ok o) mids outs) as (mids & M & O2).
      { clear - O. induction O as [|l o ls os E O (mids & M & O2)]; [now exists []|]. destruct (g l) as [r| | |] eqn:Eg; try discriminate. exists (r :: mids). split; now constructor. }
      assert (Forall (fun l => length l = m) mids) as FM.
      { clear - GL M F. induction M as [|l o ls os E M IH]; constructor; inversion F; subst; eauto. }
      assert (g (concat ls) = Ok (concat mids)) as -> by (apply G; eauto). cbn. apply H; eauto. intro Z. subst mids. inversion M; subst; congruence.
  - intros l o L E. destruct (g l) as [r| | |] eqn:Eg; try discriminate. cbn in E. eauto.
Qed.
Lemma layers_ext n m g h : (forall l, g l = h l) -> by_layers n m g -> by_layers n m h.
Proof.
  intros E (G & L). split; [|intros l o Hl Ho; rewrite <- E in Ho; eauto]. intros ls NE F out. rewrite <- E, G by auto.
  split; intros (outs & O & ->); exists outs; (split; [|reflexivity]); clear - O E; induction O as [|l o ls os Eo O IH]; constructor; auto; congruence.
Qed.
Lemma layers_process ps nx ny : (0 < nx * ny)%N -> keeps_size nx ny ps -> by_layers (N.to_nat (nx * ny)) (N.to_nat (nx * ny)) (process ps nx ny).
Proof.
  intros P K. assert (forall l, length l = N.to_nat (nx * ny) -> process ps nx ny l = Ok (all_of ps nx ny l)) as One.
  { intros l L. pose proof (process_layers ps nx ny [l] P ltac:(repeat constructor; exact L)) as E. cbn in E. rewrite !app_nil_r in E. exact E. }
  split.
  - intros ls NE F out. rewrite process_layers by auto. split.
    + intro E. injection E as <-. exists (map (all_of ps nx ny) ls). split; [|reflexivity]. clear - F One. induction F as [|l ls L F IH]; cbn; constructor; auto.
    + intros (outs & O & ->). do 2 f_equal. clear - O F One. induction O as [|l o ls os E O IH]; [reflexivity|]. inversion F; subst. cbn. rewrite One in E by auto. injection E as <-. f_equal. now apply IH.
  - intros l o L E. rewrite One in E by exact L. injection E as <-. now apply all_of_len.
Qed.
Lemma bad2nan_app b l1 l2 : bad2nan b (l1 ++ l2) = bad2nan b l1 ++ bad2nan b l2.
Proof. destruct b; cbn; [apply map_app|reflexivity]. Qed.
Lemma bad2nan_len b l : length (bad2nan b l) = length l.
Proof. destruct b; cbn; [apply map_length|reflexivity]. Qed.
Lemma by_values_bad b : by_values (fun l => Ok (bad2nan b l)).
Proof.
  split; [|intros a r H; injection H as <-; apply bad2nan_len]. intros x y r. rewrite bad2nan_app. split; [intro H; injection H as <-; eauto|].
  intros (ra & rb & E1 & E2 & ->). injection E1 as <-. now injection E2 as <-.
Qed.

(** ** all steps on one or many layers *)

Section Steps.
  Variables (i : interp) (ci : cached).
  Let nin := N.to_nat (ci_inX ci * ci_inY ci).
  Let nout := N.to_nat (ci_outX ci * ci_outY ci).
  Hypothesis PI : (0 < ci_inX ci * ci_inY ci)%N.
  Hypothesis PO : (0 < ci_outX ci * ci_outY ci)%N.
  Hypothesis KI : keeps_size (ci_inX ci) (ci_inY ci) (i_pre i).
  Hypothesis KO : keeps_size (ci_outX ci) (ci_outY ci) (i_post i).
  Hypothesis CV : by_layers nin nout (ci_values ci).

  Definition single (s : stored) (d : list value) : outcome (list value) := do a <- prepared i ci s (length d) d; ci_values ci a.
  Definition rest (s : stored) (l : list value) : outcome (list value) := do e <- process (i_post i) (ci_outX ci) (ci_outY ci) l; written s e.
  Definition full (s : stored) (pt : option (bool * stored * turning)) (d d' : list value) : outcome (list value) :=
    do b <- single s d;
    do t <- match pt with
            | None => Ok b
            | Some (is_x, s', t) => do b' <- single s' d'; if is_x then omap fst (t b b') else omap snd (t b' b)
            end;
    rest s t.

  Lemma single_layers s : by_layers nin nout (single s).
  Proof.
    pose proof (layers_comp _ _ _ _ _ (values_layers _ nin (by_values_convert (s_type s) DFloat))
      (layers_comp _ _ _ _ _ (values_layers _ nin (by_values_bad (s_fill s))) (layers_comp _ _ _ _ _ (layers_process (i_pre i) _ _ PI KI) CV))) as B.
    revert B. apply layers_ext. intro l. unfold single, prepared. pose proof (proj2 (by_values_convert (s_type s) DFloat) l) as L.
    destruct (convert_values (s_type s) DFloat l) as [f| | |]; cbn [obind]; auto. rewrite (L f eq_refl), Nat.ltb_irrefl.
    rewrite <- (L f eq_refl), <- (bad2nan_len (s_fill s) f), firstn_all. reflexivity.
  Qed.
  Lemma rest_layers s : by_layers nout nout (rest s).
  Proof. exact (layers_comp _ _ _ _ _ (layers_process (i_post i) _ _ PO KO) (values_layers _ nout (by_values_written s))). Qed.

  Lemma forall2_len g n m (ls outs : list (list value)) : by_layers n m g -> Forall (fun l => length l = n) ls -> Forall2 (fun l o => g l = Ok o) ls outs -> Forall (fun l => length l = m) outs.
  Proof. intros (_ & L) F O. clear - L F O. induction O as [|l o ls os E O IH]; constructor; inversion F; subst; eauto. Qed.

  Definition pair_ok (pt : option (bool * stored * turning)) : Prop :=
    match pt with None => True | Some (_, _, t) => pairs_by_layers nout t end.

  Lemma full_one s pt d d' o : pair_ok pt -> length d = nin -> length d' = nin -> full s pt d d' = Ok o -> length o = nout.
  Proof.
    intros T L L' E. unfold full in E. destruct (single s d) as [b| | |] eqn:B; try discriminate. cbn [obind] in E.
    pose proof (proj2 (single_layers s) d b L B) as Lb.
    destruct pt as [[[x s'] t]|]; cbn [obind] in E.
    - destruct (single s' d') as [b'| | |] eqn:B'; try discriminate. cbn [obind] in E. pose proof (proj2 (single_layers s') d' b' L' B') as Lb'. destruct T as (_ & TL).
      destruct x.
      + destruct (t b b') as [[p r]| | |] eqn:Et; try discriminate. cbn in E. apply TL in Et as [P R]; auto. exact (proj2 (rest_layers s) _ _ P E).
      + destruct (t b' b) as [[p r]| | |] eqn:Et; try discriminate. cbn in E. apply TL in Et as [P R]; auto. exact (proj2 (rest_layers s) _ _ R E).
    - exact (proj2 (rest_layers s) _ _ Lb E).
  Qed.

  Lemma forall2_comp {A B C} (f : A -> outcome B) (g : B -> outcome C) l r : Forall2 (fun a c => (do b <- f a; g b) = Ok c) l r <->
    exists m, Forall2 (fun a b => f a = Ok b) l m /\ Forall2 (fun b c => g b = Ok c) m r.
  Proof.
    split.
    - induction 1 as [|a c l r E H (m & M1 & M2)]; [now exists []|]. destruct (f a) as [b| | |] eqn:Ef; try discriminate. exists (b :: m). split; now constructor.
    - intros (m & M1 & M2). revert r M2. induction M1 as [|a b l m E M1 IH]; intros r M2; inversion M2; subst; constructor; auto. now rewrite E.
  Qed.
  Lemma forall2_fst {A B C} (f : A -> outcome C) (l : list (A * B)) r : Forall2 (fun a c => f (fst a) = Ok c) l r <-> Forall2 (fun a c => f a = Ok c) (map fst l) r.
  Proof.
    split; [induction 1; cbn; constructor; auto|]. revert r. induction l as [|a l IH]; intros r H; inversion H; subst; constructor; auto.
  Qed.
  Lemma forall2_snd {A B C} (f : B -> outcome C) (l : list (A * B)) r : Forall2 (fun a c => f (snd a) = Ok c) l r <-> Forall2 (fun a c => f a = Ok c) (map snd l) r.
  Proof.
    split; [induction 1; cbn; constructor; auto|]. revert r. induction l as [|a l IH]; intros r H; inversion H; subst; constructor; auto.
  Qed.

  Lemma full_layers s pt ls : pair_ok pt -> ls <> [] -> Forall (fun l => length (fst l) = nin /\ length (snd l) = nin) ls -> forall out,
    full s pt (concat (map fst ls)) (concat (map snd ls)) = Ok out <->
    exists outs, Forall2 (fun l o => full s pt (fst l) (snd l) = Ok o) ls outs /\ out = concat outs.
  Proof.
    intros T NE F out.
    assert (map fst ls <> [] /\ map snd ls <> []) as [N1 N2] by (destruct ls; [congruence|split; discriminate]).
    assert (Forall (fun l => length l = nin) (map fst ls) /\ Forall (fun l => length l = nin) (map snd ls)) as [F1 F2].
    { clear - F. induction F as [|l ls [A B] F [IH1 IH2]]; split; cbn; constructor; auto. }
    pose proof (single_layers s) as S1. pose proof (rest_layers s) as R1.
    destruct pt as [[[x s'] t]|].
    - pose proof (single_layers s') as S2. destruct T as (T & TL).
      (* the steps on all layers, by pairs of interpolated layers *)
      set (two := fun l : list value * list value => do b <- single s (fst l); do b' <- single s' (snd l); Ok (if x then (b, b') else (b', b))).
      set (turn1 := fun l : list value * list value => omap (if x then fst else snd) (t (fst l) (snd l))).
      assert (forall a b, full s (Some (x, s', t)) a b = (do p <- two (a, b); do r <- turn1 p; rest s r)) as Eq.
      { intros a b. unfold full, two, turn1. cbn [fst snd]. destruct (single s a); cbn [obind]; auto. destruct (single s' b); cbn [obind]; auto. destruct x; reflexivity. }
      rewrite Eq. split.
      + intro E. unfold two in E. cbn [fst snd] in E. destruct (single s (concat (map fst ls))) as [b| | |] eqn:B; try discriminate. cbn [obind] in E.
        destruct (single s' (concat (map snd ls))) as [b'| | |] eqn:B'; try discriminate. cbn [obind] in E.
        apply S1 in B as (bs & Bs & ->); auto. apply S2 in B' as (bs' & Bs' & ->); auto.
        pose proof (forall2_len _ _ _ _ _ S1 F1 Bs) as Lb. pose proof (forall2_len _ _ _ _ _ S2 F2 Bs') as Lb'.
        apply Forall2_length in Bs as LB. apply Forall2_length in Bs' as LB'. rewrite map_length in LB, LB'.
        set (ps := if x then combine bs bs' else combine bs' bs).
        assert (Forall2 (fun l p => two l = Ok p) ls ps) as TW.
        { apply forall2_fst in Bs. apply forall2_snd in Bs'. unfold ps, two. clear - Bs Bs'. revert bs' Bs'. induction Bs as [|l o ls os E Bs IH]; intros bs' Bs'; inversion Bs' as [|? o' ? os' E' B']; subst.
          - destruct x; constructor.
          - specialize (IH _ B'). destruct x; cbn [combine]; (constructor; [rewrite E; cbn; rewrite E'; reflexivity|exact IH]). }
        assert (map fst ps = (if x then bs else bs') /\ map snd ps = (if x then bs' else bs)) as [M1 M2].
        { unfold ps. assert (length bs = length bs') as L by congruence. clear - L. revert bs' L. induction bs as [|a bs IH]; intros [|a' bs'] L; try discriminate; [destruct x; split; reflexivity|].
          destruct (IH bs' ltac:(cbn in L; lia)) as [I1 I2]. destruct x; cbn; rewrite I1, I2; split; reflexivity. }
        assert (ps <> []) as PN by (intro Z; rewrite Z in TW; inversion TW; subst; congruence).
        assert (Forall (fun l => length (fst l) = nout /\ length (snd l) = nout) ps) as PL.
        { assert (Forall (fun l => length l = nout) (map fst ps) /\ Forall (fun l => length l = nout) (map snd ps)) as [P1 P2] by (rewrite M1, M2; destruct x; auto).
          clear - P1 P2. induction ps as [|p ps IH]; constructor; inversion P1; inversion P2; subst; auto. }
        assert (turn1 (concat (map fst ps), concat (map snd ps)) = turn1 (if x then (concat bs, concat bs') else (concat bs', concat bs))) as TE.
        { rewrite M1, M2. now destruct x. }
        rewrite <- TE in E. unfold turn1 in E at 1. cbn [fst snd] in E.
        destruct (t (concat (map fst ps)) (concat (map snd ps))) as [[p r]| | |] eqn:Et; try discriminate. cbn [omap obind] in E.
        apply T in Et as (outs & O & -> & ->); auto.
        assert (rest s (concat (map (if x then fst else snd) outs)) = Ok out) as E2 by (destruct x; exact E).
        apply R1 in E2 as (fin & FI & ->).
        * exists fin. split; [|reflexivity].
          cut (Forall2 (fun l o => (do p <- two l; do r <- turn1 p; rest s r) = Ok o) ls fin).
          { clear - Eq. induction 1 as [|l o ls os E O IH]; constructor; auto. rewrite Eq. now destruct l. }
          apply (proj2 (forall2_comp two (fun p => do r <- turn1 p; rest s r) ls fin)). exists ps. split; [exact TW|].
          apply (proj2 (forall2_comp turn1 (rest s) ps fin)). exists (map (if x then fst else snd) outs). split; [|exact FI].
          clear - O. unfold turn1. induction O as [|l o ls os E O IH]; cbn; constructor; auto. now rewrite E.
        * intro Z. apply map_eq_nil in Z. subst outs. inversion O; subst; congruence.
        * clear - O PL TL. induction O as [|l [a b] ls os E O IH]; cbn; constructor; inversion PL as [|? ? [P1 P2] PL']; subst; auto. apply TL in E as [A B]; auto. now destruct x.
      + intros (fin & FI & ->).
        assert (Forall2 (fun l o => (do p <- two l; do r <- turn1 p; rest s r) = Ok o) ls fin) as FI2.
        { clear - Eq FI. induction FI as [|l o ls os E O IH]; constructor; auto. rewrite Eq in E. now destruct l. }
        apply (proj1 (forall2_comp two (fun p => do r <- turn1 p; rest s r) ls fin)) in FI2 as (ps & TW & FI2).
        apply (proj1 (forall2_comp turn1 (rest s) ps fin)) in FI2 as (ms & TM & FI2).
        assert (exists bs bs', Forall2 (fun l o => single s l = Ok o) (map fst ls) bs /\ Forall2 (fun l o => single s' l = Ok o) (map snd ls) bs' /\
          map fst ps = (if x then bs else bs') /\ map snd ps = (if x then bs' else bs)) as (bs & bs' & B & B' & M1 & M2).
        { clear - TW. unfold two in TW. induction TW as [|l o ls os E TW (bs & bs' & B & B' & M1 & M2)]; [exists [], []; repeat split; try constructor; now destruct x|].
          destruct (single s (fst l)) as [b| | |] eqn:Eb; try discriminate. cbn [obind] in E. destruct (single s' (snd l)) as [b'| | |] eqn:Eb'; try discriminate. injection E as <-.
          exists (b :: bs), (b' :: bs'). repeat split; try (constructor; auto); cbn; rewrite ?M1, ?M2; now destruct x. }
        pose proof (forall2_len _ _ _ _ _ S1 F1 B) as Lb. pose proof (forall2_len _ _ _ _ _ S2 F2 B') as Lb'.
        assert (ps <> []) as PN by (intro Z; rewrite Z in TW; inversion TW; subst; congruence).
        assert (Forall (fun l => length (fst l) = nout /\ length (snd l) = nout) ps) as PL.
        { assert (Forall (fun l => length l = nout) (map fst ps) /\ Forall (fun l => length l = nout) (map snd ps)) as [P1 P2] by (rewrite M1, M2; destruct x; auto).
          clear - P1 P2. induction ps as [|p ps IH]; constructor; inversion P1; inversion P2; subst; auto. }
        assert (exists outs, Forall2 (fun l o => t (fst l) (snd l) = Ok o) ps outs /\ ms = map (if x then fst else snd) outs) as (outs & O & ->).
        { clear - TM. unfold turn1 in TM. induction TM as [|l o ls os E TM (outs & O & ->)]; [now exists []|]. destruct (t (fst l) (snd l)) as [p| | |] eqn:Et; try discriminate. injection E as <-.
          exists (p :: outs). split; [now constructor|reflexivity]. }
        assert (t (concat (map fst ps)) (concat (map snd ps)) = Ok (concat (map fst outs), concat (map snd outs))) as TT by (apply T; eauto).
        unfold two. cbn [fst snd]. rewrite (proj2 (proj1 S1 (map fst ls) N1 F1 (concat bs))) by eauto. cbn [obind].
        rewrite (proj2 (proj1 S2 (map snd ls) N2 F2 (concat bs'))) by eauto. cbn [obind].
        assert (turn1 (if x then (concat bs, concat bs') else (concat bs', concat bs)) = Ok (concat (map (if x then fst else snd) outs))) as ->.
        { unfold turn1. replace (if x then (concat bs, concat bs') else (concat bs', concat bs)) with (concat (map fst ps), concat (map snd ps)) by (rewrite M1, M2; now destruct x).
          cbn [fst snd]. rewrite TT. cbn. now destruct x. }
        cbn [obind]. apply (proj1 R1).
        * intro Z. apply map_eq_nil in Z. subst outs. inversion O; subst; congruence.
        * clear - O PL TL. induction O as [|l [a b] ls os E O IH]; cbn; constructor; inversion PL as [|? ? [P1 P2] PL']; subst; auto. apply TL in E as [A B]; auto. now destruct x.
        * now exists fin.
    - pose proof (layers_comp _ _ _ _ _ S1 R1) as B. change (full s None (concat (map fst ls)) (concat (map snd ls))) with (do r <- single s (concat (map fst ls)); rest s r).
      rewrite (proj1 B) by auto. split; intros (outs & O & ->); exists outs; (split; [|reflexivity]).
      + apply forall2_fst in O. clear - O. induction O; constructor; auto.
      + apply forall2_fst. clear - O. induction O; constructor; auto.
  Qed.
End Steps.
