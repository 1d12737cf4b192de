(** C117: grids and axes of FELT files. *)
From Coq Require Import ZArith QArith Qabs Lqa String List Bool Lia.
From Verif Require Import Base FwordModel FwordProps FgridModel.
Import ListNotations.
Local Open Scope Z_scope.

(** ** Additional words *)
Definition pairs (l : list (Z * Z)) : list Z := flat_map (fun x => [fst x; snd x]) l.
Definition triples (l : list (Z * (Z * Z))) : list Z := flat_map (fun x => [fst x; fst (snd x); snd (snd x)]) l.

Lemma pairs_length : forall l, length (pairs l) = (2 * length l)%nat.
Proof. induction l as [ | [ a b ] l IH ]; [ reflexivity | ]. change (S (S (length (pairs l))) = (2 * S (length l))%nat). lia. Qed.
Lemma triples_length : forall l, length (triples l) = (3 * length l)%nat.
Proof. induction l as [ | [ a [ b c ] ] l IH ]; [ reflexivity | ]. change (S (S (S (length (triples l)))) = (3 * S (length l))%nat). lia. Qed.

Lemma pairs_nth : forall l i x, nth_error l i = Some x -> w (2 * i) (pairs l) = fst x /\ w (2 * i + 1) (pairs l) = snd x.
Proof.
  induction l as [ | [ a b ] l IH ]; intros [ | i ] x E; try discriminate.
  - injection E as <-. split; reflexivity.
  - cbn [nth_error] in E. destruct (IH i x E) as [ A B ].
    replace (2 * S i)%nat with (S (S (2 * i))) by lia. replace (S (S (2 * i)) + 1)%nat with (S (S (2 * i + 1))) by lia.
    split; [ exact A | exact B ].
Qed.
Lemma triples_nth : forall l i x, nth_error l i = Some x ->
  w (3 * i) (triples l) = fst x /\ w (3 * i + 1) (triples l) = fst (snd x) /\ w (3 * i + 2) (triples l) = snd (snd x).
Proof.
  induction l as [ | [ a [ b c ] ] l IH ]; intros [ | i ] x E; try discriminate.
  - injection E as <-. repeat split; reflexivity.
  - cbn [nth_error] in E. destruct (IH i x E) as [ A [ B C ] ].
    replace (3 * S i)%nat with (S (S (S (3 * i)))) by lia.
    replace (S (S (S (3 * i))) + 1)%nat with (S (S (S (3 * i + 1)))) by lia.
    replace (S (S (S (3 * i))) + 2)%nat with (S (S (S (3 * i + 2)))) by lia.
    split; [ exact A | split; [ exact B | exact C ] ].
Qed.

Lemma map_seq : forall {A B} (f : nat -> B) (g : A -> B) (l : list A) k,
  (forall i x, nth_error l i = Some x -> f (k + i)%nat = g x) -> map f (seq k (length l)) = map g l.
Proof.
  intros A B f g. induction l as [ | x l IH ]; intros k H; [ reflexivity | ]. cbn [length seq map]. f_equal.
  - rewrite <- (H 0%nat x eq_refl). f_equal. lia.
  - apply IH. intros i y E. rewrite <- (H (S i) y E). f_equal. lia.
Qed.

(** the first method: numbers in two words and a common factor *)
Theorem C117_first_method : forall p n scale l, length l = n -> (0 < n)%nat ->
  scale_extra p n scale (pairs l) = Ok (map (fun x => (inject_Z (10000 * fst x + snd x) / scale)%Q) l ++ skipn n p).
Proof.
  intros p n scale l L N. unfold scale_extra. rewrite pairs_length, L.
  destruct (Nat.eqb_spec (2 * n) 0); [ lia | ]. rewrite Nat.eqb_refl. unfold replaced. do 2 f_equal.
  rewrite <- L. apply map_seq. intros i x E. cbn [Nat.add]. destruct (pairs_nth l i x E) as [ A B ].
  unfold first_method, two. rewrite A, B. reflexivity.
Qed.
(** the second method: every number has its own power of ten *)
Theorem C117_second_method : forall p n scale l, length l = n -> (0 < n)%nat ->
  scale_extra p n scale (Z.of_nat n :: 3 :: triples l) =
  Ok (map (fun x => (inject_Z (10000 * fst (snd x) + snd (snd x)) * Qpower 10 (fst x))%Q) l ++ skipn n p).
Proof.
  intros p n scale l L N. unfold scale_extra. cbn [length]. rewrite triples_length, L.
  destruct (Nat.eqb_spec (S (S (3 * n))) 0); [ lia | ]. destruct (Nat.eqb_spec (S (S (3 * n))) (2 * n)); [ lia | ].
  destruct (Nat.eqb_spec (S (S (3 * n))) (2 + 3 * n)); [ | lia ].
  unfold w at 1 2. cbn [nth]. rewrite Z.eqb_refl. cbn [negb Z.eqb Pos.eqb]. unfold replaced. do 2 f_equal.
  rewrite <- L. apply map_seq. intros i x E. cbn [Nat.add]. destruct (triples_nth l i x E) as [ A [ B C ] ].
  unfold second_method, two.
  replace (3 * i + 2)%nat with (S (S (3 * i))) by lia. replace (3 * i + 3)%nat with (S (S (3 * i + 1))) by lia.
  replace (3 * i + 4)%nat with (S (S (3 * i + 2))) by lia. unfold w in *. cbn [nth]. rewrite A, B, C. reflexivity.
Qed.
(** the same words in both methods *)
Theorem C117_methods_agree : forall p n l, length l = n -> (0 < n)%nat -> length p = 6%nat -> (n <= 6)%nat ->
  exists a b, scale_extra p n (inject_Z 10000) (pairs l) = Ok a /\
    scale_extra p n (inject_Z 10000) (Z.of_nat n :: 3 :: triples (map (fun x => (-4, x)) l)) = Ok b /\ Forall2 Qeq a b.
Proof.
  intros p n l L N P B. eexists _, _. split; [ exact (C117_first_method p n (inject_Z 10000) l L N) | ].
  split; [ apply C117_second_method; [ rewrite map_length; exact L | exact N ] | ].
  apply Forall2_app.
  - clear. induction l as [ | x l IH ]; [ constructor | ]. cbn [map fst snd]. constructor; [ | exact IH ].
    unfold Qdiv. reflexivity.
  - generalize (skipn n p). intros r. induction r; constructor; [ reflexivity | assumption ].
Qed.
(** other numbers of words, other words in front: refused *)
Definition used (type : Z) : nat := if (type =? 1) || (type =? 4) || (type =? 5) then 5 else 6.
Lemma scale_refused : forall p n scale e, (length e <> 0 -> length e <> 2 * n -> length e <> 2 + 3 * n ->
  scale_extra p n scale e = Throw)%nat.
Proof.
  intros p n scale e A B C. unfold scale_extra. destruct (Nat.eqb_spec (length e) 0); [ contradiction | ].
  destruct (Nat.eqb_spec (length e) (2 * n)); [ contradiction | ].
  destruct (Nat.eqb_spec (length e) (2 + 3 * n)); [ contradiction | reflexivity ].
Qed.
Lemma pars_cases : forall type a b c d e,
  (exists p0 s k, grid_pars type a b c d e = (do p <- scale_extra p0 (used type) s e; k p)) \/ grid_pars type a b c d e = Throw.
Proof.
  intros type a b c d e. unfold grid_pars, used.
  destruct (type =? 1); [ left; eexists _, _, _; reflexivity | ].
  destruct (type =? 4); [ left; eexists _, _, _; reflexivity | ]. cbn [orb].
  destruct (type =? 2) eqn:T2; [ apply Z.eqb_eq in T2; subst type; left; eexists _, _, _; reflexivity | ].
  destruct (type =? 3) eqn:T3; [ apply Z.eqb_eq in T3; subst type; left; eexists _, _, _; reflexivity | ]. cbn [orb].
  destruct (type =? 5); [ left; eexists _, _, _; reflexivity | ].
  destruct (type =? 6); [ left; eexists _, _, _; reflexivity | ].
  right. reflexivity.
Qed.
Theorem C117_wrong_number : forall type a b c d e,
  (length e <> 0 -> length e <> 2 * used type -> length e <> 2 + 3 * used type ->
   grid_pars type a b c d e = Throw)%nat.
Proof.
  intros type a b c d e A B C. destruct (pars_cases type a b c d e) as [ [ p0 [ s [ k -> ] ] ] | -> ]; [ | reflexivity ].
  rewrite scale_refused by assumption. reflexivity.
Qed.
Theorem C117_wrong_front : forall type a b c d x y r,
  (length r = 3 * used type)%nat -> x <> Z.of_nat (used type) \/ y <> 3 ->
  grid_pars type a b c d (x :: y :: r) = Throw.
Proof.
  intros type a b c d x y r L F. destruct (pars_cases type a b c d (x :: y :: r)) as [ [ p0 [ s [ k -> ] ] ] | -> ]; [ | reflexivity ].
  unfold scale_extra. cbn [length]. rewrite L.
  assert (U : (0 < used type)%nat) by (unfold used; destruct (_ || _ || _); lia).
  destruct (Nat.eqb_spec (S (S (3 * used type))) 0); [ lia | ].
  destruct (Nat.eqb_spec (S (S (3 * used type))) (2 * used type)); [ lia | ].
  destruct (Nat.eqb_spec (S (S (3 * used type))) (2 + 3 * used type)); [ | lia ].
  unfold w. cbn [nth]. destruct (Z.eqb_spec x (Z.of_nat (used type))) as [ E | E ]; [ | reflexivity ].
  cbn [negb]. destruct (Z.eqb_spec y 3) as [ E' | E' ]; [ | reflexivity ]. destruct F; contradiction.
Qed.

(** with additional words the four words of the header are not used *)
Theorem C117_words_replaced : forall type a b c d a' b' c' d' e, e <> [] ->
  grid_pars type a b c d e = grid_pars type a' b' c' d' e.
Proof.
  intros type a b c d a' b' c' d' e N.
  assert (E : forall p p' n s, length p = 6%nat -> length p' = 6%nat -> skipn n p = skipn n p' ->
    scale_extra p n s e = scale_extra p' n s e).
  { intros p p' n s L L' S. unfold scale_extra. destruct e as [ | x e ]; [ congruence | ]. cbn [length Nat.eqb].
    unfold replaced. rewrite S. reflexivity. }
  unfold grid_pars, polar_pars, geographic_pars, mercator_pars, lambert_pars. cbv zeta.
  destruct ((type =? 1) || (type =? 4)).
  { rewrite (E (if 0 <? c then _ else _) (if 0 <? c' then [hundredth a'; hundredth b'; tenth c'; inject_Z d'; inject_Z 60; 0%Q]
       else [inject_Z a'; inject_Z b'; tenth (- c'); inject_Z d'; inject_Z 60; 0%Q]));
      [ reflexivity | destruct (0 <? c); reflexivity | destruct (0 <? c'); reflexivity
      | destruct (0 <? c); destruct (0 <? c'); reflexivity ]. }
  destruct ((type =? 2) || (type =? 3)).
  { rewrite (E _ [hundredth b'; hundredth a'; hundredth d'; hundredth c'; 0%Q; 0%Q]); reflexivity. }
  destruct (type =? 5).
  { rewrite (E _ [hundredth a'; hundredth b'; tenth c'; tenth d'; 0%Q; 0%Q]); reflexivity. }
  destruct (type =? 6); [ | reflexivity ].
  rewrite (E _ [hundredth a'; hundredth b'; tenth c'; tenth d'; 0%Q; 0%Q]); reflexivity.
Qed.

(** ** Without additional words *)
Lemma nonzero : forall x, ~ (x == 0)%Q -> zero x = false.
Proof. intros x N. unfold zero. destruct (Qeq_bool x 0) eqn:E; [ | reflexivity ]. apply Qeq_bool_iff in E. contradiction. Qed.
Lemma zero_true : forall x, zero x = true -> (x == 0)%Q.
Proof. intros x E. apply Qeq_bool_iff. exact E. Qed.
Lemma scaled_nonzero : forall z k, z <> 0 -> ~ (inject_Z z * (1 # k) == 0)%Q.
Proof. intros z k N E. unfold Qeq, Qmult, inject_Z in E. cbn [Qnum Qden] in E. lia. Qed.

Theorem C117_geographic : forall type lat lon dlat dlon, type = 2 \/ type = 3 -> dlat <> 0 -> dlon <> 0 ->
  grid_pars type lat lon dlat dlon [] =
  Ok [inject_Z lon * (1 # 100); inject_Z lat * (1 # 100); inject_Z dlon * (1 # 100); inject_Z dlat * (1 # 100); 0; 0]%Q.
Proof.
  intros type lat lon dlat dlon T A B.
  assert (G : grid_pars type lat lon dlat dlon [] = geographic_pars lat lon dlat dlon []) by (destruct T; subst; reflexivity).
  rewrite G. unfold geographic_pars, scale_extra. cbn [length Nat.eqb obind q nth].
  rewrite !nonzero by (apply scaled_nonzero; assumption). reflexivity.
Qed.
Theorem C117_mercator : forall west south dx dy, dx <> 0 -> dy <> 0 ->
  grid_pars 5 west south dx dy [] =
  Ok [inject_Z west * (1 # 100); inject_Z south * (1 # 100); inject_Z dx * (1 # 10); inject_Z dy * (1 # 10); 0; 0]%Q.
Proof.
  intros west south dx dy A B. change (grid_pars 5 west south dx dy []) with (mercator_pars west south dx dy []).
  unfold mercator_pars, scale_extra. cbn [length Nat.eqb obind q nth].
  rewrite !nonzero by (apply scaled_nonzero; assumption). reflexivity.
Qed.
(** Finding: a Lambert grid needs additional words, its angle is 0 without them *)
Theorem C117_lambert : forall west south dx dy, grid_pars 6 west south dx dy [] = Throw.
Proof.
  intros west south dx dy. change (grid_pars 6 west south dx dy []) with (lambert_pars west south dx dy []).
  unfold lambert_pars, scale_extra. cbn [length Nat.eqb obind q nth].
  destruct (zero (tenth dx) || zero (tenth dy)); reflexivity.
Qed.
(** the distance of a stereographic grid: so many of 79 * 150 cells between equator and pole *)
Theorem C117_polar : forall type x y dist angle, type = 1 \/ type = 4 -> 0 < dist ->
  exists p, grid_pars type x y dist angle [] = Ok p /\
    Forall2 Qeq p [inject_Z x * (1 # 100); inject_Z y * (1 # 100); inject_Z 118500 / inject_Z dist; inject_Z angle; inject_Z 60; 0]%Q.
Proof.
  intros type x y dist angle T D.
  assert (G : grid_pars type x y dist angle [] = polar_pars x y dist angle []) by (destruct T; subst; reflexivity).
  rewrite G. unfold polar_pars, scale_extra. cbv zeta. destruct (Z.ltb_spec 0 dist); [ | lia ].
  cbn [length Nat.eqb obind q nth]. rewrite nonzero by (apply scaled_nonzero; lia).
  eexists. split; [ reflexivity | ]. cbn [set upd]. repeat constructor; try reflexivity.
  unfold tenth. change (79 * 150) with 11850. field. unfold Qeq, inject_Z. cbn. lia.
Qed.
Theorem C117_polar_old : forall type x y dist angle, type = 1 \/ type = 4 -> dist < 0 ->
  exists p, grid_pars type x y dist angle [] = Ok p /\
    Forall2 Qeq p [inject_Z x; inject_Z y; inject_Z 118500 / inject_Z (- dist); inject_Z angle; inject_Z 60; 0]%Q.
Proof.
  intros type x y dist angle T D.
  assert (G : grid_pars type x y dist angle [] = polar_pars x y dist angle []) by (destruct T; subst; reflexivity).
  rewrite G. unfold polar_pars, scale_extra. cbv zeta. destruct (Z.ltb_spec 0 dist); [ lia | ].
  cbn [length Nat.eqb obind q nth]. rewrite nonzero by (apply scaled_nonzero; lia).
  eexists. split; [ reflexivity | ]. cbn [set upd]. repeat constructor; try reflexivity.
  unfold tenth. change (79 * 150) with 11850. field. unfold Qeq, inject_Z. cbn. lia.
Qed.
Theorem C117_types : forall type a b c d e, type < 1 \/ 6 < type -> grid_pars type a b c d e = Throw.
Proof.
  intros type a b c d e T. unfold grid_pars.
  destruct (Z.eqb_spec type 1); [ lia | ]. destruct (Z.eqb_spec type 4); [ lia | ]. destruct (Z.eqb_spec type 2); [ lia | ].
  destruct (Z.eqb_spec type 3); [ lia | ]. destruct (Z.eqb_spec type 5); [ lia | ]. destruct (Z.eqb_spec type 6); [ lia | ].
  reflexivity.
Qed.

(** what is accepted: six parameters, steps that are not 0, angles of the projection *)
Lemma scale_length : forall p n s e r, length p = 6%nat -> (n <= 6)%nat -> scale_extra p n s e = Ok r -> length r = 6%nat.
Proof.
  intros p n s e r L N R.
  assert (X : forall f, length (replaced n f p) = 6%nat).
  { intros f. unfold replaced. rewrite app_length, map_length, seq_length, skipn_length. lia. }
  unfold scale_extra in R. destruct (_ =? 0)%nat; [ injection R as <-; exact L | ].
  destruct (_ =? 2 * n)%nat; [ injection R as <-; apply X | ].
  destruct (_ =? 2 + 3 * n)%nat; [ | discriminate ]. destruct (negb _); [ discriminate | ].
  destruct (negb _); [ discriminate | ]. injection R as <-. apply X.
Qed.
Definition step_ok (type : Z) (p : pars) : Prop :=
  ~ (q 2 p == 0)%Q /\
  (type = 1 \/ type = 4 -> ~ (q 4 p == 0)%Q /\ (inject_Z (-90) <= q 4 p <= inject_Z 90)%Q) /\
  (type = 2 \/ type = 3 \/ type = 5 \/ type = 6 -> ~ (q 3 p == 0)%Q) /\
  (type = 6 -> ~ (q 5 p == 0)%Q /\ ~ (q 5 p == inject_Z 90)%Q /\ ~ (q 5 p == inject_Z (-90))%Q).
Lemma below_false : forall a b, below a b = false -> (b <= a)%Q.
Proof. intros a b E. unfold below in E. apply negb_false_iff in E. apply Qle_bool_iff. exact E. Qed.
Lemma eqb_false : forall a b, Qeq_bool a b = false -> ~ (a == b)%Q.
Proof. intros a b E H. apply Qeq_bool_iff in H. congruence. Qed.
Theorem C117_accepted : forall type a b c d e p, grid_pars type a b c d e = Ok p ->
  1 <= type <= 6 /\ length p = 6%nat /\ step_ok type p.
Proof.
  intros type a b c d e p R. unfold grid_pars in R.
  destruct ((type =? 1) || (type =? 4)) eqn:T.
  { assert (T' : type = 1 \/ type = 4).
    { apply orb_true_iff in T. destruct T as [ T | T ]; apply Z.eqb_eq in T; auto. }
    split; [ lia | ]. unfold polar_pars in R. cbv zeta in R.
    destruct (scale_extra _ _ _ _) as [ r | | | ] eqn:S; try discriminate. cbn [obind] in R.
    apply scale_length in S; [ | destruct (0 <? c); reflexivity | lia ].
    destruct (zero (q 2 r)) eqn:Z0; [ discriminate | ].
    destruct r as [ | r0 [ | r1 [ | r2 [ | r3 [ | r4 [ | r5 [ | ? ? ] ] ] ] ] ] ]; try discriminate S.
    cbn [set upd q nth] in R, Z0.
    destruct (zero r4) eqn:Z4; [ discriminate | ]. destruct (below r4 (inject_Z (-90))) eqn:B1; [ discriminate | ].
    destruct (below (inject_Z 90) r4) eqn:B2; [ discriminate | ]. cbn [orb] in R. injection R as <-.
    apply below_false in B1, B2. apply eqb_false in Z4, Z0.
    split; [ reflexivity | ]. unfold step_ok. cbn [q nth]. split; [ | split; [ intros _; auto | split; intros; lia ] ].
    intros E. match type of E with (?u / ?v == 0)%Q => assert (X : (u == u / v * v)%Q) by (field; exact Z0) end.
    rewrite E in X. ring_simplify in X. unfold Qeq in X. cbn in X. lia. }
  destruct ((type =? 2) || (type =? 3)) eqn:T2.
  { assert (T' : type = 2 \/ type = 3).
    { apply orb_true_iff in T2. destruct T2 as [ T2 | T2 ]; apply Z.eqb_eq in T2; auto. }
    split; [ lia | ]. unfold geographic_pars in R.
    destruct (scale_extra _ _ _ _) as [ r | | | ] eqn:S; try discriminate. cbn [obind] in R.
    apply scale_length in S; [ | reflexivity | lia ].
    destruct (zero (q 2 r)) eqn:Z2; [ discriminate | ]. destruct (zero (q 3 r)) eqn:Z3; [ discriminate | ].
    injection R as <-. apply eqb_false in Z2, Z3. split; [ exact S | ]. unfold step_ok.
    split; [ exact Z2 | split; [ lia | split; [ auto | lia ] ] ]. }
  destruct (Z.eqb_spec type 5) as [ T5 | T5 ].
  { split; [ lia | ]. unfold mercator_pars in R.
    destruct (scale_extra _ _ _ _) as [ r | | | ] eqn:S; try discriminate. cbn [obind] in R.
    apply scale_length in S; [ | reflexivity | lia ].
    destruct (zero (q 2 r)) eqn:Z2; [ discriminate | ]. destruct (zero (q 3 r)) eqn:Z3; [ discriminate | ].
    injection R as <-. apply eqb_false in Z2, Z3. split; [ exact S | ]. unfold step_ok.
    split; [ exact Z2 | split; [ lia | split; [ auto | lia ] ] ]. }
  destruct (Z.eqb_spec type 6) as [ T6 | T6 ]; [ | discriminate ].
  split; [ lia | ]. unfold lambert_pars in R.
  destruct (scale_extra _ _ _ _) as [ r | | | ] eqn:S; try discriminate. cbn [obind] in R.
  apply scale_length in S; [ | reflexivity | lia ].
  destruct (zero (q 2 r)) eqn:Z2; [ discriminate | ]. destruct (zero (q 3 r)) eqn:Z3; [ discriminate | ]. cbn [orb] in R.
  destruct (Qeq_bool (q 5 r) (inject_Z 90)) eqn:A; [ discriminate | ].
  destruct (Qeq_bool (q 5 r) (inject_Z (-90))) eqn:B; [ discriminate | ]. cbn [orb] in R.
  destruct (zero (q 5 r)) eqn:Z5; [ discriminate | ]. injection R as <-. apply eqb_false in Z2, Z3, Z5, A, B.
  split; [ exact S | ]. unfold step_ok. split; [ exact Z2 | split; [ lia | split; [ auto | auto ] ] ].
Qed.

(** ** The axes *)
Definition arithmetic (start incr : Q) (l : list Q) : Prop :=
  forall i, (i < length l)%nat -> (nth i l 0 == start + inject_Z (Z.of_nat i) * incr)%Q.
Lemma axis_nth : forall s d n i, (i < n)%nat -> nth i (map (axis_value s d) (seq 0 n)) 0%Q = axis_value s d i.
Proof.
  intros s d n i L. rewrite nth_indep with (d' := axis_value s d 0) by (rewrite map_length, seq_length; exact L).
  rewrite map_nth, seq_nth by exact L. reflexivity.
Qed.
Lemma axis_arithmetic : forall s d n, arithmetic s d (map (axis_value s d) (seq 0 n)).
Proof. intros s d n i L. rewrite map_length, seq_length in L. rewrite axis_nth by exact L. reflexivity. Qed.

(** a geographic grid, from either end: the first value is the file's, the step is the file's *)
Lemma six : forall p : pars, length p = 6%nat -> exists a b c d e f, p = [a; b; c; d; e; f].
Proof.
  intros p L. destruct p as [ | r0 [ | r1 [ | r2 [ | r3 [ | r4 [ | r5 [ | ? ? ] ] ] ] ] ] ]; try discriminate L.
  eauto 10.
Qed.
Theorem C117_geographic_axes : forall sine project type ny a b c d e p,
  type = 2 \/ type = 3 -> grid_pars type a b c d e = Ok p -> forall nx, (0 < ny)%nat ->
  exists g, define sine project type (Z.of_nat ny) a b c d e = Ok g /\
    (0 < d_dy g)%Q /\
    length (x_axis g nx) = nx /\ length (y_axis g ny) = ny /\
    arithmetic (q 0 p) (q 2 p) (x_axis g nx) /\ arithmetic (q 1 p) (q 3 p) (y_axis g ny).
Proof.
  intros sine project type ny a b c d e p T P nx N.
  assert (A := C117_accepted _ _ _ _ _ _ _ P). destruct A as [ _ [ L [ _ [ _ [ A _ ] ] ] ] ].
  assert (N3 : ~ (q 3 p == 0)%Q) by (apply A; tauto). clear A.
  unfold define. assert (T14 : ((type =? 1) || (type =? 4)) = false) by (destruct T; subst; reflexivity).
  assert (T23 : ((type =? 2) || (type =? 3)) = true) by (destruct T; subst; reflexivity).
  rewrite T14, T23, P. cbn [obind]. clear P.
  destruct (six p L) as [ p0 [ p1 [ p2 [ p3 [ p4 [ p5 -> ] ] ] ] ] ]. cbn [q nth] in N3.
  unfold scan_mode. cbn [q nth]. destruct (below p3 0) eqn:B.
  - cbn [set upd q nth]. eexists. split; [ reflexivity | ].
    unfold x_axis, y_axis. cbn [d_upper d_x d_dx d_y d_dy]. rewrite !map_length, !seq_length.
    unfold below in B. apply negb_true_iff in B.
    assert (B' : ~ (0 <= p3)%Q) by (intros H; apply Qle_bool_iff in H; congruence).
    split; [ lra | ]. split; [ reflexivity | ]. split; [ reflexivity | ]. split; [ apply axis_arithmetic | ].
    intros i I. rewrite map_length, seq_length in I. rewrite axis_nth by exact I. unfold axis_value.
    unfold Z.sub. rewrite inject_Z_plus. change (inject_Z (- (1))) with (-1 # 1). ring.
  - eexists. split; [ reflexivity | ].
    unfold x_axis, y_axis. cbn [d_upper d_x d_dx d_y d_dy q nth]. rewrite !map_length, !seq_length.
    apply below_false in B. split; [ lra | ]. split; [ reflexivity | ]. split; [ reflexivity | ].
    split; apply axis_arithmetic.
Qed.
(** Finding: a field that is read with another number of rows than its header says gets other rows *)
Theorem C117_rows_refuted : exists sine project g,
  define sine project 2 3 9000 0 (-100) 100 [] = Ok g /\
  (nth 0 (y_axis g 3) 0 == inject_Z 90)%Q /\ (nth 0 (y_axis g 2) 0 == inject_Z 89)%Q.
Proof.
  exists (fun x => x), (fun _ x y => Ok (x, y)). eexists. split; [ vm_compute; reflexivity | ].
  split; vm_compute; reflexivity.
Qed.

(** a stereographic grid: equal steps, and the pole at the point (0, 0) *)
Theorem C117_polar_axes : forall sine project type ny a b c d e p,
  type = 1 \/ type = 4 -> grid_pars type a b c d e = Ok p ->
  exists g step, define sine project type ny a b c d e = Ok g /\
    (step * q 2 p == inject_Z 6371000 * (1 + sine (q 4 p)))%Q /\
    (forall n, length (x_axis g n) = n /\ arithmetic ((1 - q 0 p) * step) step (x_axis g n)) /\
    (forall n, length (y_axis g n) = n /\ arithmetic ((1 - q 1 p) * step) step (y_axis g n)).
Proof.
  intros sine project type ny a b c d e p T P.
  assert (A := C117_accepted _ _ _ _ _ _ _ P). destruct A as [ _ [ _ [ N2 _ ] ] ].
  unfold define. assert (T14 : ((type =? 1) || (type =? 4)) = true) by (destruct T; subst; reflexivity).
  rewrite T14, P. cbn [obind]. cbv zeta. eexists _, _. split; [ reflexivity | ].
  split; [ | split; intros n; unfold x_axis, y_axis; cbn [d_upper d_x d_dx d_y d_dy]; rewrite map_length, seq_length;
             (split; [ reflexivity | apply axis_arithmetic ]) ].
  field. exact N2.
Qed.
Theorem C117_pole : forall sine project type ny a b c d e p g n i j,
  type = 1 \/ type = 4 -> grid_pars type a b c d e = Ok p -> define sine project type ny a b c d e = Ok g ->
  (q 0 p == inject_Z (Z.of_nat i + 1))%Q -> (q 1 p == inject_Z (Z.of_nat j + 1))%Q -> (i < n)%nat -> (j < n)%nat ->
  (nth i (x_axis g n) 0 == 0)%Q /\ (nth j (y_axis g n) 0 == 0)%Q.
Proof.
  intros sine project type ny a b c d e p g n i j T P D X Y I J.
  destruct (C117_polar_axes sine project type ny a b c d e p T P) as [ g' [ s [ D' [ _ [ AX AY ] ] ] ] ].
  rewrite D in D'. injection D' as <-. destruct (AX n) as [ LX VX ]. destruct (AY n) as [ LY VY ].
  rewrite (VX i) by (rewrite LX; exact I). rewrite (VY j) by (rewrite LY; exact J). rewrite X, Y, !inject_Z_plus.
  split; ring.
Qed.
(** Mercator and Lambert: the corner is projected, steps are in kilometres *)
Theorem C117_projected : forall sine project type ny a b c d e p t x y,
  type = 5 \/ type = 6 -> grid_pars type a b c d e = Ok p -> proj_definition type p = Ok t ->
  project t (q 0 p) (q 1 p) = Ok (x, y) ->
  exists g, define sine project type ny a b c d e = Ok g /\
    (forall n, length (x_axis g n) = n /\ arithmetic x (q 2 p * inject_Z 1000) (x_axis g n)) /\
    (forall n, length (y_axis g n) = n /\ arithmetic y (q 3 p * inject_Z 1000) (y_axis g n)).
Proof.
  intros sine project type ny a b c d e p t x y T P D V. unfold define.
  assert (T14 : ((type =? 1) || (type =? 4)) = false) by (destruct T; subst; reflexivity).
  assert (T23 : ((type =? 2) || (type =? 3)) = false) by (destruct T; subst; reflexivity).
  assert (T56 : ((type =? 5) || (type =? 6)) = true) by (destruct T; subst; reflexivity).
  rewrite T14, T23, T56, P. cbn [obind]. rewrite D. cbn [obind]. rewrite V. cbn [obind].
  eexists. split; [ reflexivity | ].
  split; intros n; unfold x_axis, y_axis; cbn [d_upper d_x d_dx d_y d_dy fst snd]; rewrite map_length, seq_length;
    (split; [ reflexivity | apply axis_arithmetic ]).
Qed.

(** ** Fields of one file *)
Definition near (x y delta : Q) : Prop := (x == y)%Q \/ (- delta <= x - y <= delta)%Q.
Theorem C117_check : forall t0 t1 p0 p1 delta,
  check_grid t0 t1 p0 p1 delta = Ok tt <->
  (grid_class t0 = grid_class t1 /\ forall i, (i < 6)%nat -> near (q i p1) (q i p0) (q i delta)).
Proof.
  intros t0 t1 p0 p1 delta. unfold check_grid.
  assert (D : forall x y z, differs x y z = false <-> near x y z).
  { intros x y z. unfold differs, near. rewrite andb_false_iff, !negb_false_iff, Qeq_bool_iff, Qle_bool_iff.
    rewrite Qabs.Qabs_Qle_condition. reflexivity. }
  destruct (Z.eqb_spec (grid_class t0) (grid_class t1)) as [ E | E ]; cbn [negb].
  - destruct (existsb _ _) eqn:X.
    + split; [ discriminate | ]. intros [ _ H ]. apply existsb_exists in X. destruct X as [ i [ I X ] ].
      apply in_seq in I. assert (N : differs (q i p1) (q i p0) (q i delta) = false) by (apply D, H; lia). congruence.
    + split; [ | reflexivity ]. intros _. split; [ exact E | ]. intros i I. apply D.
      destruct (differs _ _ _) eqn:Y; [ | reflexivity ]. exfalso.
      assert (Z : existsb (fun i => differs (q i p1) (q i p0) (q i delta)) (seq 0 6) = true).
      { apply existsb_exists. exists i. split; [ apply in_seq; lia | exact Y ]. }
      congruence.
  - split; [ discriminate | ]. intros [ F _ ]. contradiction.
Qed.
Theorem C117_common_type : forall t ts k,
  common_type (t :: ts) = Ok k <-> (forall x, In x (t :: ts) -> grid_class x = k).
Proof.
  intros t ts k. unfold common_type. cbn [map]. split.
  - destruct (forallb _ _) eqn:F; [ | discriminate ]. intros R. injection R as <-. intros x I.
    rewrite forallb_forall in F. assert (G := F (grid_class x) (in_map grid_class _ _ I)).
    apply Z.eqb_eq in G. symmetry. exact G.
  - intros H. rewrite (H t (or_introl eq_refl)).
    replace (forallb _ _) with true; [ reflexivity | ]. symmetry. apply forallb_forall. intros x [ I | I ].
    + subst x. apply Z.eqb_refl.
    + apply in_map_iff in I. destruct I as [ y [ <- I ] ]. rewrite (H y (or_intror I)). apply Z.eqb_refl.
Qed.
(** types with a number of additional words and without are the same *)
Theorem C117_class : forall type extra, 1 <= type < 1000 -> 0 <= extra < 1000 ->
  grid_class type = type /\ grid_class (1000 * type + extra) = type.
Proof.
  intros type extra T E. unfold grid_class. split.
  - destruct (Z.leb_spec 1000 type); [ lia | reflexivity ].
  - destruct (Z.leb_spec 1000 (1000 * type + extra)); [ | lia ].
    rewrite Z.quot_div_nonneg by lia. symmetry. apply Z.div_unique with (r := extra); lia.
Qed.

(** ** The numbers in the additional words, for each type *)
Inductive says (scale : Z) (n : nat) : list Z -> list Q -> Prop :=
| Pairs : forall l, length l = n ->
    says scale n (pairs l) (map (fun x => (inject_Z (10000 * fst x + snd x) / inject_Z scale)%Q) l)
| Triples : forall l, length l = n ->
    says scale n (Z.of_nat n :: 3 :: triples l)
      (map (fun x => (inject_Z (10000 * fst (snd x) + snd (snd x)) * Qpower 10 (fst x))%Q) l).
Lemma says_scaled : forall scale n e v p, says scale n e v -> (0 < n)%nat ->
  scale_extra p n (inject_Z scale) e = Ok (v ++ skipn n p).
Proof. intros scale n e v p H N. destruct H; [ apply C117_first_method | apply C117_second_method ]; assumption. Qed.
Lemma says_length : forall scale n e v, says scale n e v -> length v = n.
Proof. intros scale n e v H. destruct H; rewrite map_length; assumption. Qed.

Theorem C117_geographic_words : forall type a b c d e west south dx dy lon lat, type = 2 \/ type = 3 ->
  says 10000 6 e [west; south; dx; dy; lon; lat] ->
  (~ (dx == 0)%Q -> ~ (dy == 0)%Q -> grid_pars type a b c d e = Ok [west; south; dx; dy; lon; lat]) /\
  ((dx == 0)%Q \/ (dy == 0)%Q -> grid_pars type a b c d e = Throw).
Proof.
  intros type a b c d e west south dx dy lon lat T S.
  assert (G : grid_pars type a b c d e = geographic_pars a b c d e) by (destruct T; subst; reflexivity).
  rewrite G. unfold geographic_pars. rewrite (says_scaled _ _ _ _ _ S) by lia. cbn [skipn List.app obind q nth]. split.
  - intros A B. rewrite !nonzero by assumption. reflexivity.
  - intros [ A | A ]; apply Qeq_bool_iff in A; unfold zero; rewrite A, ?orb_true_r; reflexivity.
Qed.
Theorem C117_mercator_words : forall a b c d e west south dx dy lat,
  says 10000 5 e [west; south; dx; dy; lat] ->
  (~ (dx == 0)%Q -> ~ (dy == 0)%Q -> grid_pars 5 a b c d e = Ok [west; south; dx; dy; lat; 0%Q]) /\
  ((dx == 0)%Q \/ (dy == 0)%Q -> grid_pars 5 a b c d e = Throw).
Proof.
  intros a b c d e west south dx dy lat S.
  change (grid_pars 5 a b c d e) with (mercator_pars a b c d e).
  unfold mercator_pars. rewrite (says_scaled _ _ _ _ _ S) by lia. cbn [skipn List.app obind q nth]. split.
  - intros A B. rewrite !nonzero by assumption. reflexivity.
  - intros [ A | A ]; apply Qeq_bool_iff in A; unfold zero; rewrite A, ?orb_true_r; reflexivity.
Qed.
Theorem C117_lambert_words : forall a b c d e west south dx dy lon lat,
  says 10000 6 e [west; south; dx; dy; lon; lat] ->
  (~ (dx == 0)%Q -> ~ (dy == 0)%Q -> ~ (lat == 0)%Q -> ~ (lat == inject_Z 90)%Q -> ~ (lat == inject_Z (-90))%Q ->
   grid_pars 6 a b c d e = Ok [west; south; dx; dy; lon; lat]) /\
  ((dx == 0)%Q \/ (dy == 0)%Q \/ (lat == 0)%Q \/ (lat == inject_Z 90)%Q \/ (lat == inject_Z (-90))%Q ->
   grid_pars 6 a b c d e = Throw).
Proof.
  intros a b c d e west south dx dy lon lat S.
  change (grid_pars 6 a b c d e) with (lambert_pars a b c d e).
  unfold lambert_pars. rewrite (says_scaled _ _ _ _ _ S) by lia. cbn [skipn List.app obind q nth].
  assert (N : forall x y, ~ (x == y)%Q -> Qeq_bool x y = false).
  { intros x y H. destruct (Qeq_bool x y) eqn:E; [ apply Qeq_bool_iff in E; contradiction | reflexivity ]. }
  split.
  - intros A B C D E. rewrite !nonzero by assumption. rewrite !N by assumption. reflexivity.
  - unfold zero. intros [ A | [ A | [ A | [ A | A ] ] ] ]; apply Qeq_bool_iff in A; rewrite A, ?orb_true_r; cbn [orb];
      try reflexivity; destruct (Qeq_bool dx 0 || Qeq_bool dy 0); try reflexivity.
    destruct (Qeq_bool lat (inject_Z 90) || Qeq_bool lat (inject_Z (-90))); reflexivity.
Qed.
Theorem C117_polar_words : forall type a b c d e x y dist angle lat, type = 1 \/ type = 4 ->
  says 100 5 e [x; y; dist; angle; lat] ->
  (~ (dist == 0)%Q -> ~ (lat == 0)%Q -> (inject_Z (-90) <= lat <= inject_Z 90)%Q ->
   exists step, grid_pars type a b c d e = Ok [x; y; step; angle; lat; 0%Q] /\ (step * dist == inject_Z 11850)%Q) /\
  ((dist == 0)%Q \/ (lat == 0)%Q \/ (lat < inject_Z (-90))%Q \/ (inject_Z 90 < lat)%Q ->
   grid_pars type a b c d e = Throw).
Proof.
  intros type a b c d e x y dist angle lat T S.
  assert (G : grid_pars type a b c d e = polar_pars a b c d e) by (destruct T; subst; reflexivity).
  rewrite G. unfold polar_pars. cbv zeta. rewrite (says_scaled _ _ _ _ _ S) by lia.
  replace (skipn 5 _) with [0%Q] by (destruct (0 <? c); reflexivity).
  cbn [List.app obind q nth]. cbn [set upd q nth].
  assert (L : forall u v, (v <= u)%Q -> below u v = false).
  { intros u v H. unfold below. apply Qle_bool_iff in H. rewrite H. reflexivity. }
  assert (M : forall u v, (u < v)%Q -> below u v = true).
  { intros u v H. unfold below. destruct (Qle_bool v u) eqn:E; [ apply Qle_bool_iff in E; lra | reflexivity ]. }
  split.
  - intros A B [ C D ]. rewrite !nonzero by assumption. rewrite !L by assumption. cbn [orb].
    eexists. split; [ reflexivity | ]. change (79 * 150) with 11850. field. exact A.
  - intros [ A | A ]; [ apply Qeq_bool_iff in A; unfold zero; rewrite A; reflexivity | ].
    destruct (zero dist); [ reflexivity | ].
    destruct A as [ A | [ A | A ] ].
    + apply Qeq_bool_iff in A; unfold zero; rewrite A; reflexivity.
    + rewrite (M _ _ A), orb_true_r. reflexivity.
    + rewrite (M _ _ A), orb_true_r. reflexivity.
Qed.

(** ** The grid of a field in a file: words 10 and 14 to 17 of what lies before its data, and the words after *)
Theorem C117_field : forall sine project ws h first total, placed h first total -> first + total <= Z.of_nat (length ws) ->
  exists g d e, g ++ d ++ e = firstn (Z.to_nat total) (skipn (Z.to_nat first) ws) /\ length g = 20%nat /\
    Z.of_nat (length e) = extra_size h /\
    (grid_type h < 1000 -> e = [] /\
       field_grid sine project ws h = define sine project (grid_type h) (w 10 g) (w 14 g) (w 15 g) (w 16 g) (w 17 g) []) /\
    (forall type n, grid_type h = 1000 * type + n -> 1 <= type -> 0 <= n < 1000 -> Z.of_nat (length e) = n /\
       field_grid sine project ws h = define sine project type (w 10 g) (w 14 g) (w 15 g) (w 16 g) (w 17 g) e).
Proof.
  intros sine project ws h first total P L. destruct (C116_layout ws h first total P L) as [ g [ d [ e [ G [ _ [ E [ A [ B C ] ] ] ] ] ] ] ].
  exists g, d, e. split; [ exact A | ]. split; [ exact B | ]. split; [ exact C | ].
  unfold field_grid. rewrite G, E. cbn [obind]. unfold extra_size in C. split.
  - intros T. destruct (Z.ltb_spec 1000 (grid_type h)); [ lia | ]. destruct e; [ | cbn [length] in C; lia ].
    split; [ reflexivity | ]. destruct (Z.ltb_spec 999 (grid_type h)); [ lia | reflexivity ].
  - intros type n T K N. rewrite T in *. split.
    + destruct (Z.ltb_spec 1000 (1000 * type + n)).
      * rewrite C. rewrite Z.rem_mod_nonneg by lia. rewrite Z.add_comm, Z.mul_comm, Z_mod_plus_full. apply Z.mod_small. lia.
      * lia.
    + destruct (Z.ltb_spec 999 (1000 * type + n)); [ | lia ].
      replace (Z.quot (1000 * type + n) 1000) with type; [ reflexivity | ].
      rewrite Z.quot_div_nonneg by lia. apply Z.div_unique with (r := n); lia.
Qed.

(** ** The projection of each type, on a sphere *)
Theorem C117_projection : forall type x y dx dy a b,
  let sphere := [Txt " +R="; Num (inject_Z 6371000); Txt " +no_defs"] in
  let p := [x; y; dx; dy; a; b] in
  (type = 1 \/ type = 4 -> proj_definition type p =
     Ok ([Txt "+proj=stere +lat_0=90 +lon_0="; Num dy; Txt " +lat_ts="; Num a; Txt " +units=m"] ++ sphere)) /\
  (type = 2 -> proj_definition type p = Ok (Txt "+proj=longlat" :: sphere)) /\
  (type = 3 -> exists pole, (pole + b == inject_Z 90)%Q /\ proj_definition type p =
     Ok ([Txt "+proj=ob_tran +o_proj=longlat +lon_0="; Num a; Txt " +o_lat_p="; Num pole] ++ sphere)) /\
  (type = 5 -> proj_definition type p = Ok ([Txt "+proj=merc +lat_ts="; Num a] ++ sphere)) /\
  (type = 6 -> proj_definition type p =
     Ok ([Txt "+proj=lcc +lon_0="; Num a; Txt " +lat_0="; Num b; Txt " +lat_1="; Num b; Txt " +lat_2="; Num b] ++ sphere)) /\
  (type < 1 \/ 6 < type -> proj_definition type p = Throw).
Proof.
  intros type x y dx dy a b sphere p.
  split; [ intros [ -> | -> ]; reflexivity | ]. split; [ intros ->; reflexivity | ].
  split; [ intros ->; eexists; split; [ | reflexivity ]; cbn [q nth p]; ring | ].
  split; [ intros ->; reflexivity | ]. split; [ intros ->; reflexivity | ].
  intros T. unfold proj_definition.
  destruct (Z.eqb_spec type 1); [ lia | ]. destruct (Z.eqb_spec type 4); [ lia | ]. destruct (Z.eqb_spec type 2); [ lia | ].
  destruct (Z.eqb_spec type 3); [ lia | ]. destruct (Z.eqb_spec type 5); [ lia | ]. destruct (Z.eqb_spec type 6); [ lia | ].
  reflexivity.
Qed.

(** ** Cases *)
Example C117_nonvacuous :
  (exists p, grid_pars 3 0 0 0 0 (pairs [(-2, -5000); (10, 0); (0, 2000); (0, -2000); (-40, 0); (22, 0)]) = Ok p /\
     Forall2 Qeq p [(-5 # 2); 10 # 1; 1 # 5; (-1 # 5); inject_Z (-40); inject_Z 22]%Q) /\
  (exists g, define (fun x => x) (fun _ x y => Ok (x, y)) 3 4 0 0 0 0
       (pairs [(-2, -5000); (10, 0); (0, 2000); (0, -2000); (-40, 0); (22, 0)]) = Ok g /\
     Forall2 Qeq (y_axis g 4) [10 # 1; 98 # 10; 96 # 10; 94 # 10]%Q /\ Forall2 Qeq (x_axis g 2) [(-5 # 2); (-23 # 10)]%Q) /\
  (exists p, grid_pars 1 300 400 1500 (-24) [] = Ok p /\ (q 2 p == inject_Z 79)%Q) /\
  check_grid 3012 3 [1 # 1; 2 # 1; 3 # 1; 4 # 1; 5 # 1; 6 # 1]%Q [1 # 1; 2 # 1; 3 # 1; 4 # 1; 5 # 1; 61 # 10]%Q
    [0; 0; 0; 0; 0; 1 # 5]%Q = Ok tt /\
  check_grid 3012 2 [1 # 1]%Q [1 # 1]%Q [1 # 1]%Q = Throw /\
  common_type [3012; 3; 3020] = Ok 3 /\ common_type [1; 2] = Throw.
Proof.
  split; [ eexists; split; [ vm_compute; reflexivity | repeat constructor ] | ].
  split; [ eexists; split; [ vm_compute; reflexivity | split; vm_compute; repeat constructor ] | ].
  split; [ eexists; split; [ vm_compute; reflexivity | reflexivity ] | ].
  repeat split.
Qed.
Print Assumptions C117_first_method.
Print Assumptions C117_second_method.
Print Assumptions C117_methods_agree.
Print Assumptions C117_wrong_number.
Print Assumptions C117_wrong_front.
Print Assumptions C117_words_replaced.
Print Assumptions C117_geographic.
Print Assumptions C117_mercator.
Print Assumptions C117_lambert.
Print Assumptions C117_polar.
Print Assumptions C117_polar_old.
Print Assumptions C117_types.
Print Assumptions C117_accepted.
Print Assumptions C117_geographic_axes.
Print Assumptions C117_rows_refuted.
Print Assumptions C117_polar_axes.
Print Assumptions C117_pole.
Print Assumptions C117_projected.
Print Assumptions C117_check.
Print Assumptions C117_common_type.
Print Assumptions C117_class.
Print Assumptions C117_geographic_words.
Print Assumptions C117_mercator_words.
Print Assumptions C117_lambert_words.
Print Assumptions C117_polar_words.
Print Assumptions C117_field.
Print Assumptions C117_projection.
Print Assumptions C117_nonvacuous.
