(** C49: the points, bounds and names of cross-sections. *)
From Coq Require Import QArith Qabs Qminmax Qround ZArith NArith List Ascii Lia Lqa Arith.
From Coq Require Import ZifyBool ZifyNat ZifyN.
From Verif Require Import Base CrossModel.
Import ListNotations.
Local Open Scope nat_scope.

Lemma bind_ok {A B} (o : outcome A) (f : A -> outcome B) b :
  obind o f = Ok b -> exists a, o = Ok a /\ f a = Ok b.
Proof. destruct o; cbn; intro H; try discriminate. eauto. Qed.

(** ** vocabulary of the statements *)

(** both coordinates differ by less than two steps of the grid *)
Definition near (dx dy : Q) (a b : point) : Prop :=
  (Qabs (fst b - fst a) < 2 * Qabs dx)%Q /\ (Qabs (snd b - snd a) < 2 * Qabs dy)%Q.

Fixpoint chain (dx dy : Q) (a : point) (l : list point) : Prop :=
  match l with [] => True | b :: r => near dx dy a b /\ chain dx dy b r end.

Lemma last_cons {A} : forall (l : list A) b a, last (b :: l) a = last l b.
Proof. induction l as [|c l IH]; intros b a; auto. change (last (c :: l) a = last (c :: l) b). rewrite !IH. reflexivity. Qed.

Lemma chain_app dx dy : forall l a m, chain dx dy a l -> chain dx dy (last l a) m -> chain dx dy a (l ++ m).
Proof.
  induction l as [|b l IH]; intros a m H G; [exact G|]. destruct H as [H1 H2]. split; [exact H1|].
  apply IH; [exact H2|]. rewrite last_cons in G. exact G.
Qed.

Lemma nq_S n : (nq (S n) == nq n + 1)%Q.
Proof. unfold nq. rewrite Nat2Z.inj_succ. unfold Z.succ. rewrite inject_Z_plus. reflexivity. Qed.

Lemma nq_pos n : (0 < n)%nat -> (0 < nq n)%Q.
Proof. intro H. unfold nq. change 0%Q with (inject_Z 0). rewrite <- Zlt_Qlt. lia. Qed.

Lemma abs_div (x d : Q) : ~ (d == 0)%Q -> (Qabs x == Qabs (x / d) * Qabs d)%Q.
Proof.
  intro H. rewrite <- Qabs_Qmult. apply Qabs_wd. field. exact H.
Qed.

Lemma abs_pos (d : Q) : ~ (d == 0)%Q -> (0 < Qabs d)%Q.
Proof.
  intro H. destruct (Qlt_le_dec 0 (Qabs d)) as [?|L]; auto. exfalso. apply H.
  assert (Z := Qabs_nonneg d). destruct (Qlt_le_dec d 0).
  - rewrite Qabs_neg in * by lra. lra.
  - rewrite Qabs_pos in * by lra. lra.
Qed.

(** the steps of one part are below two grid steps *)
Lemma small_step d x num : ~ (d == 0)%Q -> (0 < num)%nat ->
  (Qabs (x / d) < nq num + 1)%Q -> (Qabs (x / nq num) < 2 * Qabs d)%Q.
Proof.
  intros D N H. assert (P := nq_pos num N). assert (PD := abs_pos d D).
  assert (1 <= nq num)%Q as P1.
  { unfold nq. change 1%Q with (inject_Z 1). rewrite <- Zle_Qle. lia. }
  assert (Qabs (x / nq num) == Qabs x / nq num)%Q as E.
  { unfold Qdiv. rewrite Qabs_Qmult. rewrite (Qabs_pos (/ nq num)); [reflexivity|].
    apply Qlt_le_weak, Qinv_lt_0_compat, P. }
  rewrite E. apply Qlt_shift_div_r; auto. rewrite (abs_div x d D).
  assert (0 <= Qabs (x / d))%Q by apply Qabs_nonneg. nra.
Qed.

Lemma floor_bounds dx dy xd yd num : gridpoints dx dy xd yd = Ok num ->
  (Qabs (xd / dx) < nq num + 1)%Q /\ (Qabs (yd / dy) < nq num + 1)%Q
  /\ (nq num <= Qmax (Qabs (xd / dx)) (Qabs (yd / dy)))%Q.
Proof.
  unfold gridpoints. set (m := Qmax _ _). destruct (Qfloor m <? _)%Z eqn:C; [|discriminate]. intros [= <-].
  assert (0 <= m)%Q as P. { unfold m. eapply Qle_trans; [apply Qabs_nonneg|apply Q.le_max_l]. }
  assert (0 <= Qfloor m)%Z as PF. { change 0%Z with (Qfloor 0). apply Qfloor_resp_le. exact P. }
  assert (nq (Z.to_nat (Qfloor m)) == inject_Z (Qfloor m))%Q as E.
  { unfold nq. rewrite Z2Nat.id by exact PF. reflexivity. }
  assert (L := Qlt_floor m). rewrite inject_Z_plus in L. change (inject_Z 1) with 1%Q in L.
  assert (G := Qfloor_le m).
  assert (Qabs (xd / dx) <= m)%Q by apply Q.le_max_l.
  assert (Qabs (yd / dy) <= m)%Q by apply Q.le_max_r.
  repeat split; lra.
Qed.

Section Part.
  Context (dx dy : Q) (Dx : ~ (dx == 0)%Q) (Dy : ~ (dy == 0)%Q) (p q : point) (num : nat)
          (H : gridpoints dx dy (fst q - fst p) (snd q - snd p) = Ok num).
  Let pt j := ((fst p + nq j * (fst q - fst p) / nq num)%Q, (snd p + nq j * (snd q - snd p) / nq num)%Q).

  Lemma mid_chain : forall n k (a : point), 1 <= k -> k + n = num ->
    (fst a == fst (pt (k - 1)))%Q -> (snd a == snd (pt (k - 1)))%Q ->
    chain dx dy a (map pt (seq k n) ++ [q]).
  Proof using Dx Dy H.
    destruct (floor_bounds _ _ _ _ _ H) as (Bx & By & _).
    induction n as [|n IH]; intros k a K E Ex Ey.
    - cbn. split; auto. assert (k = num) by lia. subst k.
      assert (P := nq_pos num ltac:(lia)).
      assert (nq num == nq (num - 1) + 1)%Q as S1. { rewrite <- nq_S. replace (S (num - 1)) with num by lia. reflexivity. }
      cbn [pt fst snd] in Ex, Ey. split.
      + assert (fst q - fst a == (fst q - fst p) / nq num)%Q as -> .
        { rewrite Ex. assert (nq (num - 1) == nq num - 1)%Q as -> by lra. field. lra. }
        apply small_step; auto; lia.
      + assert (snd q - snd a == (snd q - snd p) / nq num)%Q as -> .
        { rewrite Ey. assert (nq (num - 1) == nq num - 1)%Q as -> by lra. field. lra. }
        apply small_step; auto; lia.
    - cbn [seq map app]. assert (P := nq_pos num ltac:(lia)).
      assert (nq k == nq (k - 1) + 1)%Q as S1. { rewrite <- nq_S. replace (S (k - 1)) with k by lia. reflexivity. }
      split.
      + cbn [pt fst snd] in Ex, Ey. split; cbn [pt fst snd].
        * assert (fst p + nq k * (fst q - fst p) / nq num - fst a == (fst q - fst p) / nq num)%Q as -> .
          { rewrite Ex, S1. field. lra. }
          apply small_step; auto; lia.
        * assert (snd p + nq k * (snd q - snd p) / nq num - snd a == (snd q - snd p) / nq num)%Q as -> .
          { rewrite Ey, S1. field. lra. }
          apply small_step; auto; lia.
      + apply IH; try lia; replace (S k - 1) with k by lia; reflexivity.
  Qed.

  Lemma part_chain : chain dx dy p (map pt (seq 1 (num - 1)) ++ [q]).
  Proof using Dx Dy H.
    destruct (Nat.eq_dec num 0) as [Z|Z].
    - destruct (floor_bounds _ _ _ _ _ H) as (Bx & By & _). rewrite Z in *. cbn. split; auto.
      assert (nq 0 == 0)%Q as N0 by reflexivity. rewrite N0 in *.
      assert (PX := abs_pos dx Dx). assert (PY := abs_pos dy Dy). split.
      + rewrite (abs_div _ dx Dx). assert (0 <= Qabs ((fst q - fst p) / dx))%Q by apply Qabs_nonneg. nra.
      + rewrite (abs_div _ dy Dy). assert (0 <= Qabs ((snd q - snd p) / dy))%Q by apply Qabs_nonneg. nra.
    - apply mid_chain; try lia; cbn [pt fst snd]; assert (P := nq_pos num ltac:(lia));
        change (nq (1 - 1)) with 0%Q; field; lra.
  Qed.
End Part.

Lemma last_app_one {A} (l : list A) x d : last (l ++ [x]) d = x.
Proof. induction l as [|a l IH]; auto. cbn. destruct (l ++ [x]) eqn:E; [destruct l; discriminate|exact IH]. Qed.

(** the points of a cross-section of two or more coordinates *)
Lemma segments_spec from to dx dy : ~ (dx == 0)%Q -> ~ (dy == 0)%Q ->
  forall rest a fst_ r, segments from to dx dy fst_ a rest = Ok r -> rest <> [] ->
  exists g, r = map to (if fst_ then from a :: g else g) /\ chain dx dy (from a) g /\ g <> []
            /\ last g (from a) = from (last rest a) /\ (forall b, In b rest -> In (from b) g).
Proof.
  intros Dx Dy. induction rest as [|b rest IH]; intros a f r H N; [congruence|]. clear N. cbn in H.
  apply bind_ok in H. destruct H as (s & Hs & H). apply bind_ok in H. destruct H as (r' & Hr & [= <-]).
  unfold segment in Hs. apply bind_ok in Hs. destruct Hs as (num & Hn & [= <-]).
  set (mid := map (fun j => ((fst (from a) + nq j * (fst (from b) - fst (from a)) / nq num)%Q,
                             (snd (from a) + nq j * (snd (from b) - snd (from a)) / nq num)%Q)) (seq 1 (num - 1))).
  assert (part f num (from a) (from b) = (if f then [from a] else []) ++ mid ++ [from b]) as -> by reflexivity.
  assert (chain dx dy (from a) (mid ++ [from b])) as C by (apply part_chain; auto).
  destruct rest as [|c rest].
  - cbn in Hr. injection Hr as <-. exists (mid ++ [from b]). repeat split; auto.
    + rewrite app_nil_r. destruct f; reflexivity.
    + destruct mid; discriminate.
    + apply last_app_one.
    + intros x [<-|[]]. apply in_or_app. right. left. reflexivity.
  - destruct (IH b false r' Hr ltac:(discriminate)) as (g & -> & C2 & N & L & I).
    exists ((mid ++ [from b]) ++ g). split; [|split; [|split; [|split]]].
    + rewrite <- map_app. f_equal. destruct f; cbn [app]; rewrite ?app_nil_l, <- ?app_assoc; reflexivity.
    + apply chain_app; auto. rewrite last_app_one. exact C2.
    + destruct mid; discriminate.
    + transitivity (last g (from b)).
      { destruct (exists_last N) as (g' & x & ->). rewrite app_assoc. etransitivity; [apply last_app_one|].
        symmetry. apply last_app_one. }
      etransitivity; [exact L|]. f_equal. symmetry. apply last_cons.
    + intros x [<-|Hx]; apply in_or_app; [left; apply in_or_app; right; left; reflexivity|right; auto].
Qed.

(** ** all sections *)
Definition used (cs : list section) : list section :=
  filter (fun c => match cs_coords c with [] => false | _ => true end) cs.

Fixpoint prefix_sums (s : nat) (l : list (list point)) : list nat :=
  match l with [] => [] | x :: r => s :: prefix_sums (s + length x) r end.

Lemma prefix_sums_app : forall l s x, prefix_sums s (l ++ [x]) = prefix_sums s l ++ [s + length (concat l)].
Proof.
  induction l as [|y l IH]; intros; cbn; [rewrite Nat.add_0_r; reflexivity|].
  rewrite IH, app_length. rewrite Nat.add_assoc. reflexivity.
Qed.

Lemma collect_spec from to dx dy : forall cs st r done,
  ofold (collect from to dx dy) cs st = Ok r ->
  vals st = concat done -> starts st = prefix_sums 0 done ->
  exists pss, Forall2 (fun c ps => section_points from to dx dy (cs_coords c) = Ok ps) (used cs) pss
    /\ vals r = concat (done ++ pss) /\ starts r = prefix_sums 0 (done ++ pss)
    /\ names r = names st ++ map cs_name (used cs)
    /\ maxlen st <= maxlen r /\ (forall c, In c (used cs) -> length (cs_name c) < maxlen r)
    /\ (forall m, maxlen st <= m -> (forall c, In c (used cs) -> length (cs_name c) < m) -> maxlen r <= m).
Proof.
  induction cs as [|c cs IH]; intros st r done H V S.
  - cbn in H. injection H as <-. exists []. rewrite !app_nil_r. repeat split; auto. constructor. intros c [].
  - cbn [ofold] in H. apply bind_ok in H. destruct H as (st1 & H1 & H). unfold collect in H1.
    destruct (cs_coords c) as [|k ks] eqn:E.
    + injection H1 as <-. unfold used. cbn [filter]. rewrite E. apply (IH _ _ _ H V S).
    + apply bind_ok in H1. destruct H1 as (pts & Hp & [= <-]).
      destruct (IH _ _ (done ++ [pts]) H) as (pss & F & V2 & S2 & N2 & M0 & M1 & M2).
      { cbn. rewrite V, concat_app. cbn. rewrite app_nil_r. reflexivity. }
      { cbn. rewrite S, V, prefix_sums_app. reflexivity. }
      exists (pts :: pss). cbn [vals starts names maxlen] in *.
      assert (used (c :: cs) = c :: used cs) as U. { unfold used. cbn [filter]. rewrite E. reflexivity. }
      rewrite <- app_assoc in V2, S2. cbn in V2, S2. rewrite U.
      split; [constructor; [rewrite E; exact Hp|exact F]|]. split; [exact V2|]. split; [exact S2|].
      split; [rewrite N2, <- app_assoc; reflexivity|]. split; [lia|]. split.
      * intros d [<-|Hd]; [lia|auto].
      * intros m Hm Hc. apply M2; [|intros d Hd; apply Hc; right; exact Hd].
        specialize (Hc c (or_introl eq_refl)). lia.
Qed.

Lemma prefix_nth : forall l s i, nth_error (prefix_sums s l) i =
  if i <? length l then Some (s + length (concat (firstn i l))) else None.
Proof.
  induction l as [|x l IH]; intros s [|i]; cbn [prefix_sums nth_error length firstn concat]; auto.
  - cbn. rewrite Nat.add_0_r. reflexivity.
  - rewrite IH. change (S i <? S (length l)) with (i <? length l). destruct (i <? length l); auto.
    rewrite app_length. f_equal. lia.
Qed.

Lemma prefix_len : forall l s, length (prefix_sums s l) = length l.
Proof. induction l; intros; cbn; auto. Qed.

Lemma omapM_nth {A B} (f : A -> outcome B) : forall l r, omapM f l = Ok r ->
  length r = length l /\ forall i a, nth_error l i = Some a -> exists b, f a = Ok b /\ nth_error r i = Some b.
Proof.
  induction l as [|x l IH]; intros r H; cbn in H.
  - injection H as <-. split; auto. intros [|i] a; discriminate.
  - apply bind_ok in H. destruct H as (b & Hb & H). apply bind_ok in H. destruct H as (bs & Hbs & [= <-]).
    destruct (IH _ Hbs) as (L & N). split; [cbn; lia|]. intros [|i] a Ha; cbn in Ha.
    + injection Ha as <-. eauto.
    + apply N. exact Ha.
Qed.

Lemma to_int_small x : (0 <= x < 2^31)%Z -> to_int x = x.
Proof. intro H. unfold to_int. rewrite Z.mod_small by lia. lia. Qed.

Lemma firstn_snoc {A} (l : list A) i x : nth_error l i = Some x -> firstn (S i) l = firstn i l ++ [x].
Proof.
  revert i; induction l as [|a l IH]; intros [|i] H; cbn in *; try discriminate.
  - injection H as <-. reflexivity.
  - rewrite (IH i H). reflexivity.
Qed.

Lemma concat_firstn_len (l : list (list point)) i : length (concat (firstn i l)) <= length (concat l).
Proof. rewrite <- (firstn_skipn i l) at 2. rewrite concat_app, app_length. lia. Qed.

(** what the bounds are, when all section lists are non-empty *)
Lemma bounds_spec pss b : (forall ps, In ps pss -> ps <> []) -> (Z.of_nat (length (concat pss)) <= 2^31)%Z ->
  cross_bounds (prefix_sums 0 pss) (length (concat pss)) = Ok b ->
  pss <> [] /\ length b = length pss /\
  forall i ps, nth_error pss i = Some ps ->
    let s := length (concat (firstn i pss)) in
    nth_error b i = Some (Z.of_nat s, (Z.of_nat s + Z.of_nat (length ps) - 1)%Z).
Proof.
  intros NE SM H. unfold cross_bounds in H. rewrite prefix_len in H.
  destruct (length pss) as [|n] eqn:L.
  - destruct pss; [|discriminate]. cbn in H. discriminate.
  - split; [intro; subst; discriminate|]. apply bind_ok in H. destruct H as (rows & Hr & H).
    apply bind_ok in H. destruct H as (s & Hs & [= <-]).
    destruct (omapM_nth _ _ _ Hr) as (LR & NR). rewrite seq_length in LR.
    split; [rewrite app_length; cbn; lia|]. intros i ps Hp. cbn zeta.
    assert (i < S n) as Hi. { rewrite <- L. apply nth_error_Some. congruence. }
    assert (length (concat (firstn (S i) pss)) = length (concat (firstn i pss)) + length ps) as E1.
    { rewrite (firstn_snoc _ _ _ Hp), concat_app, app_length. cbn. rewrite app_nil_r. reflexivity. }
    assert (B := concat_firstn_len pss (S i)). assert (0 < length ps) as PS.
    { apply nth_error_In in Hp. specialize (NE ps Hp). destruct ps; [congruence|cbn; lia]. }
    destruct (Nat.eq_dec i n) as [->|Hne].
    + rewrite nth_error_app2 by lia. rewrite LR, Nat.sub_diag. cbn [nth_error].
      unfold at_ in Hs. rewrite prefix_nth, L in Hs.
      destruct (Nat.ltb_spec n (S n)); [|lia]. injection Hs as <-. cbn [plus].
      assert (firstn (S n) pss = pss) as FA. { rewrite <- L. apply firstn_all. }
      rewrite FA in E1.
      rewrite !to_int_small by lia. f_equal. f_equal. lia.
    + rewrite nth_error_app1 by lia.
      destruct (NR i i) as (x & Hx & ->). { rewrite nth_error_seq. destruct (Nat.ltb_spec i n); [f_equal; lia|lia]. }
      unfold at_ in Hx. rewrite !prefix_nth, L in Hx.
      destruct (Nat.ltb_spec i (S n)); [|lia]. cbn [obind] in Hx.
      destruct (Nat.ltb_spec (i + 1) (S n)); [|lia]. cbn [obind] in Hx. injection Hx as <-.
      cbn [plus]. replace (i + 1) with (S i) by lia. rewrite !to_int_small by lia.
      f_equal. f_equal. lia.
Qed.

Lemma section_nonempty from to dx dy coords ps : ~ (dx == 0)%Q -> ~ (dy == 0)%Q ->
  section_points from to dx dy coords = Ok ps -> coords <> [] -> ps <> [].
Proof.
  intros Dx Dy H N. destruct coords as [|a [|b rest]]; [congruence|injection H as <-; discriminate|].
  cbn [section_points] in H.
  destruct (segments_spec _ _ _ _ Dx Dy _ _ _ _ H ltac:(discriminate)) as (g & -> & _). discriminate.
Qed.

Lemma Forall2_nth {A B} (R : A -> B -> Prop) l m : Forall2 R l m -> forall i a, nth_error l i = Some a ->
  exists b, nth_error m i = Some b /\ R a b.
Proof. induction 1; intros [|i] z Hz; cbn in *; try discriminate; [injection Hz as <-; eauto|auto]. Qed.

Lemma Forall2_length {A B} (R : A -> B -> Prop) l m : Forall2 R l m -> length l = length m.
Proof. induction 1; cbn; auto. Qed.

Lemma Forall2_nth_r {A B} (R : A -> B -> Prop) l m : Forall2 R l m -> forall i b, nth_error m i = Some b ->
  exists a, nth_error l i = Some a /\ R a b.
Proof. induction 1; intros [|i] z Hz; cbn in *; try discriminate; [injection Hz as <-; eauto|auto]. Qed.

Lemma axis_step_spec v d : axis_step v = Ok d -> ~ (d == 0)%Q.
Proof.
  unfold axis_step. destruct v as [|a [|b v]]; try discriminate. destruct (Qeq_bool (b - a) 0) eqn:E; [discriminate|].
  intros [= <-] Z. apply Qeq_bool_iff in Z. congruence.
Qed.

Lemma cross_parts from to xa ya cs r : cross_sections from to xa ya cs = Ok r ->
  exists dx dy pss, ~ (dx == 0)%Q /\ ~ (dy == 0)%Q /\ axis_step xa = Ok dx /\ axis_step ya = Ok dy /\
    Forall2 (fun c ps => section_points from to dx dy (cs_coords c) = Ok ps) (used cs) pss /\
    (forall ps, In ps pss -> ps <> []) /\ x_points r = concat pss /\
    cross_bounds (prefix_sums 0 pss) (length (concat pss)) = Ok (x_bounds r) /\
    cross_names (x_namelen r) (map cs_name (used cs)) = Ok (x_names r) /\
    80 <= x_namelen r /\ (forall c, In c (used cs) -> length (cs_name c) < x_namelen r) /\
    (forall m, 80 <= m -> (forall c, In c (used cs) -> length (cs_name c) < m) -> x_namelen r <= m).
Proof.
  unfold cross_sections. intro H.
  apply bind_ok in H. destruct H as (dx & Hx & H). apply bind_ok in H. destruct H as (dy & Hy & H).
  apply bind_ok in H. destruct H as (st & Hst & H). apply bind_ok in H. destruct H as (nm & Hnm & H).
  apply bind_ok in H. destruct H as (bs & Hbs & [= <-]).
  destruct (collect_spec _ _ _ _ _ _ _ [] Hst eq_refl eq_refl) as (pss & F & V & S & N & M0 & M1 & M2).
  assert (Zx := axis_step_spec _ _ Hx). assert (Zy := axis_step_spec _ _ Hy).
  exists dx, dy, pss. cbn [x_points x_bounds x_names x_namelen app] in *. rewrite V, S in *. rewrite N in Hnm. cbn in Hnm.
  repeat split; auto.
  intros ps Hps. destruct (In_nth_error _ _ Hps) as (i & Hi).
  destruct (Forall2_nth_r _ _ _ F i ps Hi) as (c & Hc & R).
  apply (section_nonempty _ _ _ _ _ _ Zx Zy R).
  apply nth_error_In in Hc. unfold used in Hc. apply filter_In in Hc. destruct (cs_coords c); [destruct Hc; discriminate|discriminate].
Qed.

(** ** C49 *)

(** the bounds of the cross-sections that have coordinates partition the points *)
Theorem C49_bounds : forall from to xa ya cs r, cross_sections from to xa ya cs = Ok r ->
  (Z.of_nat (length (x_points r)) <= 2^31)%Z ->
  length (x_bounds r) = length (used cs) /\ used cs <> [] /\
  forall i s e, nth_error (x_bounds r) i = Some (s, e) ->
    (0 <= s <= e)%Z /\ (e < Z.of_nat (length (x_points r)))%Z /\
    (i = 0 -> s = 0%Z) /\
    (forall s' e', nth_error (x_bounds r) (S i) = Some (s', e') -> s' = (e + 1)%Z) /\
    (S i = length (x_bounds r) -> e = (Z.of_nat (length (x_points r)) - 1)%Z).
Proof.
  intros from to xa ya cs r H SM. destruct (cross_parts _ _ _ _ _ _ H)
    as (dx & dy & pss & _ & _ & _ & _ & F & NE & P & B & _).
  rewrite P in *. destruct (bounds_spec pss _ NE SM B) as (N0 & L & SP).
  assert (FL := Forall2_length _ _ _ F). split; [congruence|]. split; [intro U; rewrite U in FL; destruct pss; [congruence|discriminate]|].
  intros i s e Hi. assert (i < length pss) as LI. { rewrite <- L. apply nth_error_Some. congruence. }
  destruct (nth_error pss i) as [ps|] eqn:Ei; [|apply nth_error_None in Ei; lia].
  assert (Q := SP i ps Ei). cbn zeta in Q. rewrite Hi in Q. injection Q as -> ->.
  assert (0 < length ps) as PS. { apply nth_error_In in Ei. specialize (NE ps Ei). destruct ps; [congruence|cbn; lia]. }
  assert (length (concat (firstn (S i) pss)) = length (concat (firstn i pss)) + length ps) as E1.
  { rewrite (firstn_snoc _ _ _ Ei), concat_app, app_length. cbn. rewrite app_nil_r. reflexivity. }
  assert (BB := concat_firstn_len pss (S i)).
  split; [lia|]. split; [lia|]. split; [intros ->; cbn; lia|]. split.
  - intros s' e' H'. assert (S i < length pss) as LS. { rewrite <- L. apply nth_error_Some. congruence. }
    destruct (nth_error pss (S i)) as [qs|] eqn:Es; [|apply nth_error_None in Es; lia].
    assert (Q := SP (S i) qs Es). cbn zeta in Q. rewrite H', E1 in Q. injection Q as -> _. lia.
  - intro E. assert (firstn (S i) pss = pss) as FA. { rewrite E, L. apply firstn_all. }
    rewrite FA in E1. lia.
Qed.

(** the points of a cross-section from its bounds *)
Definition slice (l : list point) (s e : Z) : list point :=
  firstn (Z.to_nat (e - s + 1)) (skipn (Z.to_nat s) l).

Lemma slice_concat : forall (pss : list (list point)) i ps, nth_error pss i = Some ps ->
  firstn (length ps) (skipn (length (concat (firstn i pss))) (concat pss)) = ps.
Proof.
  induction pss as [|x pss IH]; intros [|i] ps H; cbn in H; try discriminate.
  - injection H as <-. cbn. rewrite firstn_app, Nat.sub_diag, firstn_all, firstn_O, app_nil_r. reflexivity.
  - cbn [firstn concat]. rewrite app_length, skipn_app.
    rewrite skipn_all2 by lia. cbn [app]. replace (length x + _ - length x) with (length (concat (firstn i pss))) by lia.
    apply IH, H.
Qed.

(** a single coordinate is taken as it is; otherwise the points are the images of grid points that start and
    end at the first and last coordinate, pass through every coordinate and lie less than two grid steps
    apart *)
Theorem C49_points : forall from to xa ya cs r, cross_sections from to xa ya cs = Ok r ->
  (Z.of_nat (length (x_points r)) <= 2^31)%Z ->
  forall i c, nth_error (used cs) i = Some c ->
  exists s e, nth_error (x_bounds r) i = Some (s, e) /\
    match cs_coords c with
    | [] => False
    | [a] => slice (x_points r) s e = [a]
    | a :: rest => exists dx dy g, axis_step xa = Ok dx /\ axis_step ya = Ok dy /\
        slice (x_points r) s e = map to (from a :: g) /\ chain dx dy (from a) g /\
        last g (from a) = from (last rest a) /\ (forall b, In b rest -> In (from b) g)
    end.
Proof.
  intros from to xa ya cs r H SM i c Hc. destruct (cross_parts _ _ _ _ _ _ H)
    as (dx & dy & pss & Zx & Zy & Hx & Hy & F & NE & P & B & _).
  rewrite P in *. destruct (bounds_spec pss _ NE SM B) as (N0 & L & SP).
  destruct (Forall2_nth _ _ _ F i c Hc) as (ps & Hp & R).
  eexists _, _. split; [apply (SP i ps Hp)|].
  assert (slice (concat pss) (Z.of_nat (length (concat (firstn i pss))))
            (Z.of_nat (length (concat (firstn i pss))) + Z.of_nat (length ps) - 1) = ps) as SL.
  { unfold slice. rewrite Nat2Z.id. replace (Z.to_nat _) with (length ps) by lia. apply slice_concat, Hp. }
  destruct (cs_coords c) as [|a [|b rest]] eqn:E.
  - apply nth_error_In in Hc. unfold used in Hc. apply filter_In in Hc. rewrite E in Hc. destruct Hc. discriminate.
  - cbn in R. injection R as <-. exact SL.
  - cbn [section_points] in R.
    destruct (segments_spec _ _ _ _ Zx Zy _ _ _ _ R ltac:(discriminate)) as (g & -> & C & _ & LL & I).
    exists dx, dy, g. repeat split; auto.
Qed.

(** names *)
Definition pad (m : nat) (n : list ascii) : list ascii := n ++ repeat zero (m - length n).

Lemma names_step m : forall todo done, (forall n, In n todo -> length n < m) ->
  (forall n, In n done -> length n < m) ->
  ofold (fun t i => match nth_error (done ++ todo) i with
           | None => UB
           | Some n => replace t (i * m) (Nat.min (m - 1) (length n)) n end)
    (seq (length done) (length todo)) (concat (map (pad m) done) ++ repeat zero (m * length todo))
  = Ok (concat (map (pad m) (done ++ todo))).
Proof.
  induction todo as [|n todo IH]; intros done Ht Hd.
  - cbn. rewrite Nat.mul_0_r. cbn. rewrite !app_nil_r. reflexivity.
  - cbn [length seq ofold]. rewrite nth_error_app2, Nat.sub_diag by lia. cbn [nth_error].
    assert (length (concat (map (pad m) done)) = length done * m) as LD.
    { clear -Hd. induction done as [|x done IHd]; auto. cbn [map concat length]. rewrite app_length, IHd.
      - unfold pad. rewrite app_length, repeat_length. specialize (Hd x (or_introl eq_refl)). lia.
      - intros y Hy. apply Hd. right. exact Hy. }
    assert (Ln := Ht n (or_introl eq_refl)).
    unfold replace. rewrite app_length, LD, repeat_length.
    destruct (Nat.ltb_spec (length done * m + m * S (length todo)) (length done * m)); [lia|].
    replace (Nat.min (m - 1) (length n)) with (length n) by lia.
    replace (Nat.min (length n) (length done * m + m * S (length todo) - length done * m)) with (length n) by lia.
    cbn [obind]. rewrite firstn_app, LD, Nat.sub_diag, firstn_O, app_nil_r.
    rewrite firstn_all2 by lia. rewrite skipn_app, LD.
    rewrite skipn_all2 by lia. cbn [app].
    replace (length done * m + length n - length done * m) with (length n) by lia.
    assert (skipn (length n) (repeat zero (m * S (length todo))) = repeat zero (m - length n) ++ repeat zero (m * length todo)) as ->.
    { replace (m * S (length todo)) with (length n + ((m - length n) + m * length todo)) by nia.
      rewrite repeat_app. rewrite skipn_app, repeat_length, Nat.sub_diag. rewrite skipn_all2 by (rewrite repeat_length; lia).
      cbn [app]. rewrite skipn_O. apply repeat_app. }
    specialize (IH (done ++ [n])).
    rewrite app_length, map_app, concat_app in IH. cbn [length map concat] in IH.
    rewrite app_nil_r, <- !app_assoc in IH. cbn [app] in IH. unfold pad in IH at 2. rewrite <- !app_assoc in IH.
    replace (length done + 1) with (S (length done)) in IH by lia.
    apply IH.
    + intros x Hx. apply Ht. right. exact Hx.
    + intros x Hx. apply in_app_or in Hx. destruct Hx as [Hx|[<-|[]]]; auto.
Qed.

(** every name is stored in its own row of equal length, followed by at least one NUL *)
Theorem C49_names : forall from to xa ya cs r, cross_sections from to xa ya cs = Ok r ->
  let m := x_namelen r in
  length (x_names r) = length (used cs) * m /\
  (forall i c, nth_error (used cs) i = Some c ->
     length (cs_name c) < m /\
     firstn m (skipn (i * m) (x_names r)) = cs_name c ++ repeat zero (m - length (cs_name c))) /\
  (m = 80 \/ exists c, In c (used cs) /\ m = length (cs_name c) + 1).
Proof.
  intros from to xa ya cs r H m. destruct (cross_parts _ _ _ _ _ _ H)
    as (dx & dy & pss & Zx & Zy & Hx & Hy & F & NE & P & B & N & M0 & M1 & M2). fold m in N, M0, M1, M2.
  assert (x_names r = concat (map (pad m) (map cs_name (used cs)))) as E.
  { assert (Q := names_step m (map cs_name (used cs)) []). cbn [app length map concat] in Q.
    unfold cross_names in N. rewrite Q in N; [congruence| |intros ? []].
    intros n Hn. apply in_map_iff in Hn. destruct Hn as (c & <- & Hc). auto. }
  assert (forall l : list section, (forall c, In c l -> length (cs_name c) < m) ->
            length (concat (map (pad m) (map cs_name l))) = length l * m) as LL.
  { clear. induction l as [|x l IH]; intro H; auto. cbn [map concat length]. rewrite app_length, IH.
    - unfold pad. rewrite app_length, repeat_length. specialize (H x (or_introl eq_refl)). lia.
    - intros y Hy. apply H. right. exact Hy. }
  split; [rewrite E; apply LL, M1|]. split.
  - intros i c Hc. split; [apply M1; eapply nth_error_In; eauto|]. rewrite E. clear -Hc M1 LL.
    revert i c Hc. induction (used cs) as [|x l IH]; intros [|i] c Hc; cbn in Hc; try discriminate.
    + injection Hc as <-. cbn [map concat]. rewrite Nat.mul_0_l, skipn_O.
      assert (length (pad m (cs_name x)) = m) as LP.
      { unfold pad. rewrite app_length, repeat_length. specialize (M1 x (or_introl eq_refl)). lia. }
      rewrite firstn_app, LP, Nat.sub_diag, firstn_O, app_nil_r. rewrite firstn_all2 by lia. reflexivity.
    + cbn [map concat]. assert (length (pad m (cs_name x)) = m) as LP.
      { unfold pad. rewrite app_length, repeat_length. specialize (M1 x (or_introl eq_refl)). lia. }
      rewrite skipn_app, LP. rewrite skipn_all2 by (rewrite LP; lia). cbn [app].
      replace (S i * m - m) with (i * m) by lia. apply IH; auto. intros d Hd. apply M1. right. exact Hd.
  - destruct (Nat.eq_dec m 80) as [?|Hm]; auto. right.
    assert (forall l : list section, ~ (exists c, In c l /\ m = length (cs_name c) + 1) ->
       (forall c, In c l -> length (cs_name c) < m) -> forall c, In c l -> length (cs_name c) < m - 1) as X.
    { intros l Hn Hl c Hc. specialize (Hl c Hc). destruct (Nat.eq_dec m (length (cs_name c) + 1)); [exfalso; eauto|lia]. }
    destruct (List.Exists_dec (fun c => m = length (cs_name c) + 1) (used cs)) as [D|D].
    + intro c. apply Nat.eq_dec.
    + apply Exists_exists in D. exact D.
    + exfalso. assert (m <= m - 1); [|lia]. apply M2; [lia|]. apply X; auto. intro Q. apply D, Exists_exists, Q.
Qed.

(** FINDING: without a cross-section that has coordinates the last index wraps around and the call leaves
    with std::out_of_range (after the dimensions and the name variable were added) *)
Theorem C49_no_sections : forall from to xa ya cs, used cs = [] -> cross_sections from to xa ya cs = Throw.
Proof.
  intros from to xa ya cs U. unfold cross_sections.
  destruct (axis_step xa) eqn:Hx; cbn [obind]; auto.
  2,3: unfold axis_step in Hx; destruct xa as [|? [|? ?]]; try discriminate;
       destruct (Qeq_bool _ _); discriminate.
  destruct (axis_step ya) eqn:Hy; cbn [obind]; auto.
  2,3: unfold axis_step in Hy; destruct ya as [|? [|? ?]]; try discriminate;
       destruct (Qeq_bool _ _); discriminate.
  assert (ofold (collect from to a a0) cs start_state = Ok start_state) as ->; [|reflexivity].
  induction cs as [|c cs IH]; auto. unfold used in U. cbn [filter] in U. cbn [ofold]. unfold collect at 1.
  destruct (cs_coords c); [|discriminate]. apply IH. exact U.
Qed.

(** otherwise the call fails only if an axis has no step or the number of points overflows *)
Theorem C49_total : forall from to xa ya cs dx dy, axis_step xa = Ok dx -> axis_step ya = Ok dy ->
  used cs <> [] ->
  (forall a b, (Qmax (Qabs ((fst (from b) - fst (from a)) / dx)) (Qabs ((snd (from b) - snd (from a)) / dy))
                < inject_Z (Z.of_N M64))%Q) ->
  exists r, cross_sections from to xa ya cs = Ok r.
Proof.
  intros from to xa ya cs dx dy Hx Hy U SMALL. unfold cross_sections. rewrite Hx, Hy. cbn [obind].
  assert (forall f a b, exists r, segment from to dx dy f a b = Ok r) as T1.
  { intros f a b. unfold segment, gridpoints.
    destruct (Z.ltb_spec (Qfloor (Qmax (Qabs ((fst (from b) - fst (from a)) / dx)) (Qabs ((snd (from b) - snd (from a)) / dy))))
                (Z.of_N M64)) as [?|G]; [cbn; eauto|].
    exfalso. assert (L := Qfloor_le (Qmax (Qabs ((fst (from b) - fst (from a)) / dx)) (Qabs ((snd (from b) - snd (from a)) / dy)))).
    specialize (SMALL a b). apply (Z.le_lteq) in G.
    assert (inject_Z (Z.of_N M64) <= inject_Z (Qfloor (Qmax (Qabs ((fst (from b) - fst (from a)) / dx)) (Qabs ((snd (from b) - snd (from a)) / dy)))))%Q.
    { rewrite <- Zle_Qle. lia. }
    apply (Qlt_not_le _ _ SMALL). eapply Qle_trans; eauto. }
  assert (forall rest f a, exists r, segments from to dx dy f a rest = Ok r) as T2.
  { induction rest as [|b rest IH]; intros f a; cbn [segments]; [eauto|].
    destruct (T1 f a b) as (s & ->). cbn [obind]. destruct (IH false b) as (r & ->). cbn [obind]. eauto. }
  assert (forall co, exists r, section_points from to dx dy co = Ok r) as T3.
  { intros [|a [|b rest]]; cbn [section_points]; eauto. }
  assert (forall l st, exists r, ofold (collect from to dx dy) l st = Ok r) as T4.
  { induction l as [|c l IH]; intro st; cbn [ofold]; [eauto|]. unfold collect at 1.
    destruct (cs_coords c) as [|k ks]; [cbn [obind]; apply IH|].
    destruct (T3 (k :: ks)) as (ps & ->). cbn [obind]. apply IH. }
  destruct (T4 cs start_state) as (st & Hst). rewrite Hst. cbn [obind].
  destruct (collect_spec _ _ _ _ _ _ _ [] Hst eq_refl eq_refl) as (pss & F & V & S & N & M0 & M1 & M2).
  cbn [app start_state names] in *.
  assert (exists nm, cross_names (maxlen st) (names st) = Ok nm) as (nm & ->).
  { rewrite N. assert (Q := names_step (maxlen st) (map cs_name (used cs)) []). cbn [app length map concat] in Q.
    eexists. apply Q; [|intros ? []]. intros n Hn. apply in_map_iff in Hn. destruct Hn as (c & <- & Hc). auto. }
  cbn [obind].
  assert (exists bs, cross_bounds (starts st) (length (vals st)) = Ok bs) as (bs & ->); [|cbn; eauto].
  rewrite S. unfold cross_bounds. rewrite prefix_len. assert (FL := Forall2_length _ _ _ F).
  destruct (length pss) as [|n] eqn:L; [destruct (used cs); [congruence|cbn in FL; lia]|].
  assert (forall i, i <= n -> exists x, at_ (prefix_sums 0 pss) i = Ok x) as AT.
  { intros i Hi. unfold at_. rewrite prefix_nth, L. destruct (Nat.ltb_spec i (Datatypes.S n)); [eauto|lia]. }
  assert (forall k s, s + k <= n -> exists rows, omapM (fun i => do s <- at_ (prefix_sums 0 pss) i; do e <- at_ (prefix_sums 0 pss) (i + 1);
            Ok (to_int (Z.of_nat s), to_int (Z.of_nat e - 1))) (seq s k) = Ok rows) as T5.
  { induction k as [|k IH]; intros s Hk; cbn [seq omapM]; [eauto|].
    destruct (AT s ltac:(lia)) as (x & ->). destruct (AT (s + 1) ltac:(lia)) as (y & ->). cbn [obind].
    destruct (IH (Datatypes.S s) ltac:(lia)) as (rows & ->). cbn [obind]. eauto. }
  destruct (T5 n 0 ltac:(lia)) as (rows & ->). destruct (AT n ltac:(lia)) as (x & ->). cbn [obind]. eauto.
Qed.

(** a concrete run: grid step 1/2, three sections of which the second is empty *)
Definition ex_sections : list section :=
  [ {| cs_name := ["a"%char]; cs_coords := [(0, 0); (1, (1#2)); (1, 0)]%Q |};
    {| cs_name := ["b"%char]; cs_coords := [] |};
    {| cs_name := ["c"%char; "d"%char]; cs_coords := [(3, 3)]%Q |} ].
Definition idp (p : point) := p.
Example C49_nonvacuous : exists r, cross_sections idp idp [0; (1#2); 1]%Q [5; (9#2)]%Q ex_sections = Ok r
  /\ length (x_points r) = 5%nat /\ x_bounds r = [(0, 3); (4, 4)]%Z /\ x_namelen r = 80.
Proof. eexists. split; [vm_compute; reflexivity|]. repeat split. Qed.
Print Assumptions C49_bounds.
Print Assumptions C49_points.
Print Assumptions C49_names.
Print Assumptions C49_no_sections.
Print Assumptions C49_total.
