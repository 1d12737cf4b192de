(** Lemmas about the odometer of Loop::next and the dimension maps of array groups. *)
From Coq Require Import List String Arith ZArith Bool Lia Permutation.
From Coq Require Import ZifyBool ZifyNat.
From Verif Require Import Base IndexSpec LoopModel.
Import ListNotations.
Local Open Scope nat_scope.

(** ** the odometer *)
(** sum of positions times strides *)
Fixpoint dot (pos ds : list nat) : nat :=
  match pos, ds with
  | p :: pos', d :: ds' => p * d + dot pos' ds'
  | _, _ => 0
  end.

Lemma dot_zero (l : list nat) ds : dot (map (fun _ => 0) l) ds = 0.
Proof. revert ds; induction l as [ | x l IH ]; intros [ | d ds ]; cbn; auto. Qed.

Lemma to_int_small l : 1 <= l -> (Z.of_nat l <= 2 ^ 31)%Z -> to_int (- (Z.of_nat l - 1)) = (1 - Z.of_nat l)%Z.
Proof. intros H1 H2. unfold to_int. rewrite Z.mod_small; lia. Qed.

Lemma move_length ds st idx : List.length ds = List.length idx -> List.length (move ds st idx) = List.length idx.
Proof. intro H. unfold move. rewrite map_length, combine_length. lia. Qed.
Lemma move_nth ds st idx s : List.length ds = List.length idx -> s < List.length idx ->
  nth s (move ds st idx) 0%Z = ((nth s idx 0 + Z.of_nat (nth s ds 0%nat) * st) mod W64)%Z.
Proof.
  intros L H. unfold move. set (F := fun di : nat * Z => _).
  rewrite (nth_indep _ 0%Z (F (0, 0%Z))) by (rewrite map_length, combine_length; lia).
  rewrite map_nth, combine_nth by exact L. reflexivity.
Qed.

(** one call of next; [col s] gives the strides of array [s] *)
Definition col (deltas : list (list nat)) (s : nat) : list nat := map (fun d => nth s d 0) deltas.

Lemma next_spec lens : forall deltas pos idx n,
  inside lens pos -> List.length deltas = List.length lens -> (forall d, In d deltas -> List.length d = n) -> List.length idx = n ->
  (forall l, In l lens -> (Z.of_nat l <= 2 ^ 31)%Z) ->
  exists pos' idx' more, next lens deltas pos idx = (pos', idx', more) /\ inside lens pos' /\ List.length idx' = n /\
    (forall s, s < n -> (0 <= nth s idx 0 < W64)%Z ->
       (nth s idx' 0 = (nth s idx 0 + Z.of_nat (dot pos' (col deltas s)) - Z.of_nat (dot pos (col deltas s))) mod W64)%Z) /\
    (if more : bool then lin lens pos' = lin lens pos + 1 else lin lens pos + 1 = cells lens /\ pos' = map (fun _ => 0) lens).
Proof.
  induction lens as [ | l lens IH ]; intros deltas pos idx n Hin Ld Hd Li Hl; inversion Hin as [ | l0 p ls ps Hp Hps ]; subst.
  - exists [], idx, false. destruct deltas as [ | d0 deltas0 ]; [ | cbn in Ld; discriminate ]. cbn [next].
    split; [ reflexivity | ]. split; [ constructor | ]. split; [ reflexivity | ]. split; [ | cbn; auto ].
    intros s Hs B. cbn. rewrite Z.sub_0_r, Z.add_0_r, Z.mod_small; auto.
  - destruct deltas as [ | d deltas ]; [ cbn in Ld; lia | ]. cbn [next].
    assert (Ldd : List.length d = List.length idx) by (apply Hd; now left).
    destruct (Nat.eqb_spec (p + 1) l) as [ E | E ].
    + rewrite to_int_small by (try lia; apply Hl; now left).
      destruct (IH deltas ps (move d (1 - Z.of_nat l) idx) (List.length idx)) as (pos' & idx' & more & E1 & I1 & L1 & V1 & M1);
        [ exact Hps | cbn in Ld; lia | intros; apply Hd; now right | now apply move_length | intros; apply Hl; now right | ].
      rewrite E1. exists (0 :: pos'), idx', more. split; [ reflexivity | ]. split; [ constructor; [ lia | exact I1 ] | ]. split; [ exact L1 | ]. split.
      * intros s Hs B. rewrite V1; [ | exact Hs | ].
        { rewrite move_nth by auto. cbn [col map dot]. fold (col deltas s).

          assert (W : (0 < W64)%Z) by reflexivity.
          replace ((nth s idx 0 + Z.of_nat (nth s d 0%nat) * (1 - Z.of_nat l)) mod W64 + Z.of_nat (dot pos' (col deltas s)) - Z.of_nat (dot ps (col deltas s)))%Z
            with ((nth s idx 0 + Z.of_nat (nth s d 0%nat) * (1 - Z.of_nat l)) mod W64 + (Z.of_nat (dot pos' (col deltas s)) - Z.of_nat (dot ps (col deltas s))))%Z by lia.
          rewrite Zplus_mod_idemp_l. f_equal. nia. }
        { rewrite move_nth by auto. apply Z.mod_pos_bound. reflexivity. }
      * destruct more; cbn [lin cells].
        { rewrite M1. nia. }
        { destruct M1 as (M1 & M2). split; [ nia | ]. cbn. now rewrite M2. }
    + exists (p + 1 :: ps), (move d 1 idx), true. split; [ reflexivity | ]. split; [ constructor; [ lia | exact Hps ] | ].
      split; [ now apply move_length | ]. split; [ | cbn; lia ].
      intros s Hs B. rewrite move_nth by auto. cbn [col map dot]. fold (col deltas s). f_equal. nia.
Qed.

Lemma cells_pos lens : (forall l, In l lens -> l > 0) -> cells lens > 0.
Proof. induction lens as [ | l lens IH ]; intro H; cbn; [ lia | ]. assert (l > 0) by (apply H; now left). assert (cells lens > 0) by (apply IH; intros; apply H; now right). nia. Qed.
Lemma zeros_unlin lens : unlin lens 0 = map (fun _ => 0) lens.
Proof. induction lens as [ | l lens IH ]; [ reflexivity | ]. cbn [unlin map]. destruct l; [ cbn; now rewrite IH | ]. rewrite Nat.mod_small, Nat.div_small by lia. now rewrite IH. Qed.

Lemma turns_spec lens deltas n : List.length deltas = List.length lens -> (forall d, In d deltas -> List.length d = n) ->
  (forall l, In l lens -> l > 0 /\ (Z.of_nat l <= 2 ^ 31)%Z) ->
  forall m k idx fuel, k + m = cells lens -> m > 0 -> m <= fuel -> List.length idx = n ->
  (forall s, s < n -> nth s idx 0%Z = (Z.of_nat (dot (unlin lens k) (col deltas s)) mod W64)%Z) ->
  exists r, turns fuel lens deltas (unlin lens k) idx = Ok r /\ List.length r = m /\
    forall i, i < m -> List.length (nth i r []) = n /\
      forall s, s < n -> nth s (nth i r []) 0%Z = (Z.of_nat (dot (unlin lens (k + i)) (col deltas s)) mod W64)%Z.
Proof.
  intros Ld Hd Hl. induction m as [ | m IH ]; intros k idx fuel Hk Hm Hf Li V; [ lia | ].
  destruct fuel as [ | fuel ]; [ lia | ]. cbn [turns].
  destruct (next_spec lens deltas (unlin lens k) idx n) as (pos' & idx' & more & E & I' & L' & V' & M);
    [ apply unlin_inside; lia | exact Ld | exact Hd | exact Li | intros; now apply Hl | ].
  rewrite E. rewrite lin_unlin in M by lia. destruct more.
  - assert (P' : pos' = unlin lens (k + 1)) by (rewrite <- M; symmetry; now apply unlin_lin). subst pos'.
    destruct m as [ | m ].
    { exfalso. assert (lin lens (unlin lens (k + 1)) < cells lens) by now apply lin_lt. lia. }
    destruct (IH (k + 1) idx' fuel) as (r & E2 & L2 & V2); [ lia | lia | lia | exact L' | | ].
    { intros s Hs. rewrite V' by (try exact Hs; rewrite V by exact Hs; apply Z.mod_pos_bound; reflexivity).
      rewrite V by exact Hs. rewrite <- Z.add_sub_assoc, Zplus_mod_idemp_l. f_equal. lia. }
    rewrite E2. cbn [obind]. exists (idx :: r). split; [ reflexivity | ]. split; [ cbn; lia | ].
    intros [ | i ] Hi; cbn [nth]; [ split; [ exact Li | ]; intros s Hs; rewrite Nat.add_0_r; auto | ].
    replace (k + S i) with (k + 1 + i) by lia. apply V2. lia.
  - destruct M as (M & _). assert (m = 0) by lia. subst m. exists [idx]. split; [ reflexivity | ]. split; [ reflexivity | ].
    intros i Hi. assert (i = 0) by lia. subst i. cbn [nth]. split; [ exact Li | ]. intros s Hs. rewrite Nat.add_0_r. auto.
Qed.

(** a position in the outer dimensions and a position in the inner ones make up a position *)
Lemma unlin_app inner outer k j : j < cells inner -> unlin (inner ++ outer) (j + cells inner * k) = unlin inner j ++ unlin outer k.
Proof.
  revert k j. induction inner as [ | d ds IH ]; intros k j H; cbn [app cells unlin] in *.
  - f_equal. cbn in H. lia.
  - assert (D : d > 0) by nia.
    assert (Q : (j + d * cells ds * k) / d = j / d + cells ds * k).
    { replace (j + d * cells ds * k) with (j + (cells ds * k) * d) by nia. now rewrite Nat.div_add by lia. }
    assert (R : (j + d * cells ds * k) mod d = j mod d).
    { replace (j + d * cells ds * k) with (j + (cells ds * k) * d) by nia. now rewrite Nat.mod_add by lia. }
    rewrite Q, R. rewrite IH; [ reflexivity | ]. apply Nat.div_lt_upper_bound; lia.
Qed.

Lemma cells_app a b : cells (a ++ b) = cells a * cells b.
Proof. induction a as [ | x a IH ]; cbn; [ lia | ]. rewrite IH. lia. Qed.

(** ** sums *)
Definition sumof {A} (f : A -> nat) (l : list A) : nat := fold_right (fun x s => f x + s) 0 l.
Lemma sumof_app {A} (f : A -> nat) l m : sumof f (l ++ m) = sumof f l + sumof f m.
Proof. unfold sumof. induction l as [ | x l IH ]; cbn; [ reflexivity | ]. rewrite IH. lia. Qed.
Lemma sumof_perm {A} (f : A -> nat) l m : Permutation l m -> sumof f l = sumof f m.
Proof. unfold sumof. induction 1; cbn; lia. Qed.
Lemma sumof_ext {A} (f g : A -> nat) l : (forall x, In x l -> f x = g x) -> sumof f l = sumof g l.
Proof. intro H. induction l as [ | x l IH ]; cbn; [ reflexivity | ]. unfold sumof in IH. rewrite IH, H; [ reflexivity | now left | intros; apply H; now right ]. Qed.
Lemma sumof_map {A B} (f : B -> nat) (g : A -> B) l : sumof f (map g l) = sumof (fun x => f (g x)) l.
Proof. unfold sumof. induction l; cbn; auto. Qed.
Lemma sumof_filter {A} (f : A -> nat) p l : (forall x, In x l -> p x = false -> f x = 0) -> sumof f (filter p l) = sumof f l.
Proof.
  intro H. unfold sumof in *. induction l as [ | x l IH ]; cbn; [ reflexivity | ]. destruct (p x) eqn:E; cbn; rewrite IH; auto; [ intros; apply H; auto; now right | | intros; apply H; auto; now right ].
  rewrite (H x); [ reflexivity | now left | exact E ].
Qed.

Lemma sumof_seq_S (f : nat -> nat) n : sumof f (seq 0 (S n)) = f 0 + sumof (fun i => f (S i)) (seq 0 n).
Proof. cbn [seq]. rewrite <- seq_shift. change (sumof f (0 :: map S (seq 0 n))) with (f 0 + sumof f (map S (seq 0 n))). now rewrite sumof_map. Qed.

Lemma dot_sumof pos : forall ds, List.length pos = List.length ds -> dot pos ds = sumof (fun i => nth i pos 0 * nth i ds 0) (seq 0 (List.length ds)).
Proof.
  induction pos as [ | p pos IH ]; intros [ | d ds ] L; cbn in L; try discriminate; [ reflexivity | ].
  cbn [List.length dot]. rewrite sumof_seq_S. cbn [nth]. rewrite IH by lia. reflexivity.
Qed.

(** strides of a shape *)
Lemma lin_sumof lens : forall pos, List.length pos = List.length lens ->
  lin lens pos = sumof (fun j => nth j pos 0 * cells (firstn j lens)) (seq 0 (List.length lens)).
Proof.
  induction lens as [ | l lens IH ]; intros [ | p pos ] L; cbn in L; try discriminate; [ reflexivity | ].
  cbn [List.length lin]. rewrite sumof_seq_S. cbn [nth firstn cells]. rewrite IH by lia.
  rewrite Nat.mul_1_r. f_equal. clear. unfold sumof. generalize (seq 0 (List.length lens)) as L. intro L. revert l.
  induction L as [ | x L IHL ]; intro l; cbn; [ lia | ]. rewrite Nat.mul_add_distr_l, IHL. lia.
Qed.

(** reordering a sum over a partial bijection *)
Lemma sum_bijection (m inv : nat -> option nat) (F : nat -> nat -> nat) n r :
  (forall i j, i < n -> m i = Some j -> j < r /\ inv j = Some i) ->
  (forall i j, j < r -> inv j = Some i -> i < n /\ m i = Some j) ->
  sumof (fun i => match m i with Some j => F i j | None => 0 end) (seq 0 n) =
  sumof (fun j => match inv j with Some i => F i j | None => 0 end) (seq 0 r).
Proof.
  intros H1 H2.
  set (isS := fun (h : nat -> option nat) i => match h i with Some _ => true | None => false end).
  rewrite <- (sumof_filter _ (isS m)) by (intros i _ E; unfold isS in E; destruct (m i); [ discriminate | reflexivity ]).
  rewrite <- (sumof_filter _ (isS inv) (seq 0 r)) by (intros i _ E; unfold isS in E; destruct (inv i); [ discriminate | reflexivity ]).
  set (G := fun ij : nat * nat => F (fst ij) (snd ij)).
  assert (A : sumof (fun i => match m i with Some j => F i j | None => 0 end) (filter (isS m) (seq 0 n)) =
    sumof G (map (fun i => (i, match m i with Some j => j | None => 0 end)) (filter (isS m) (seq 0 n)))).
  { rewrite sumof_map. apply sumof_ext. intros i I. apply filter_In in I. destruct I as (_ & I). unfold isS in I. cbn. destruct (m i); [ reflexivity | discriminate ]. }
  assert (B : sumof (fun j => match inv j with Some i => F i j | None => 0 end) (filter (isS inv) (seq 0 r)) =
    sumof G (map (fun j => (match inv j with Some i => i | None => 0 end, j)) (filter (isS inv) (seq 0 r)))).
  { rewrite sumof_map. apply sumof_ext. intros i I. apply filter_In in I. destruct I as (_ & I). unfold isS in I. cbn. destruct (inv i); [ reflexivity | discriminate ]. }
  rewrite A, B. apply sumof_perm. apply NoDup_Permutation.
  - apply (NoDup_map_inv fst). rewrite map_map. cbn. rewrite map_id. apply NoDup_filter, seq_NoDup.
  - apply (NoDup_map_inv snd). rewrite map_map. cbn. rewrite map_id. apply NoDup_filter, seq_NoDup.
  - intros [ i j ]. rewrite !in_map_iff. split.
    + intros (x & E & I). apply filter_In in I. destruct I as (I & S). apply in_seq in I. unfold isS in S. destruct (m x) as [ y | ] eqn:Em; [ | discriminate ].
      injection E as -> <-. destruct (H1 i y ltac:(lia) Em) as (Y1 & Y2). exists y. rewrite Y2. split; [ reflexivity | ].
      apply filter_In. split; [ apply in_seq; lia | ]. unfold isS. now rewrite Y2.
    + intros (x & E & I). apply filter_In in I. destruct I as (I & S). apply in_seq in I. unfold isS in S. destruct (inv x) as [ y | ] eqn:Em; [ | discriminate ].
      injection E as <- ->. destruct (H2 y j ltac:(lia) Em) as (Y1 & Y2). exists y. rewrite Y2. split; [ reflexivity | ].
      apply filter_In. split; [ apply in_seq; lia | ]. unfold isS. now rewrite Y2.
Qed.

(** ** groups *)
Local Open Scope string_scope.
Local Open Scope list_scope.
Local Open Scope nat_scope.
Definition wf (a : adims) : Prop :=
  List.length (a_names a) = rank a /\ List.length (a_shared a) = rank a /\ List.length (a_deltas a) = rank a /\
  NoDup (a_names a) /\ (forall j, j < rank a -> nth j (a_deltas a) 0 = cells (firstn j (a_lens a))) /\
  (forall l, In l (a_lens a) -> l > 0).

Definition below (d : nat) (s : option nat) : Prop := match s with None => True | Some n => d < n end.
Lemma below_min d s n : below d (minimize s n) <-> below d s /\ d < n.
Proof. destruct s as [ x | ]; cbn; [ destruct (Nat.ltb_spec n x); cbn; lia | tauto ]. Qed.

(** the map of an array, for its dimensions below [r] *)
Definition map_ok (names : list string) (lens : list nat) (a : adims) (m : list (option nat)) (r : nat) : Prop :=
  List.length m = List.length names /\
  (forall i j, nth i m None = Some j -> i < List.length names /\ j < r /\ nth j (a_shared a) false = true /\
     nth j (a_names a) "" = nth i names "" /\ nth j (a_lens a) 0 = nth i lens 0) /\
  (forall j, j < r -> nth j (a_shared a) false = true -> exists i, nth i m None = Some j).

(** every dimension of the group is a shared dimension of some array *)
Definition from (names : list string) (lens : list nat) (l : list adims) : Prop :=
  forall i, i < List.length names -> exists b k, In b l /\ k < rank b /\ nth k (a_shared b) false = true /\
    nth k (a_names b) "" = nth i names "" /\ nth k (a_lens b) 0 = nth i lens 0.

Definition inv (g : group) (done : list adims) : Prop :=
  NoDup (g_names g) /\ List.length (g_lens g) = List.length (g_names g) /\ map fst (g_arrays g) = done /\
  (forall am, In am (g_arrays g) -> map_ok (g_names g) (g_lens g) (fst am) (snd am) (rank (fst am))) /\
  (forall am d, In am (g_arrays g) -> below d (g_shared g) -> nth d (snd am) None = Some d) /\
  from (g_names g) (g_lens g) done.

Lemma index_of_some n l i : index_of n l = Some i -> i < List.length l /\ nth i l "" = n.
Proof.
  revert i; induction l as [ | x l IH ]; intros i E; cbn in E; [ discriminate | ].
  destruct (String.eqb_spec n x); [ injection E as <-; cbn; split; [ lia | congruence ] | ].
  destruct (index_of n l) as [ k | ]; [ | discriminate ]. injection E as <-. destruct (IH k eq_refl). cbn. split; [ lia | assumption ].
Qed.
Lemma index_of_none n l : index_of n l = None -> ~ In n l.
Proof.
  induction l as [ | x l IH ]; intros E; cbn in E; [ auto | ].
  destruct (String.eqb_spec n x); [ discriminate | ]. destruct (index_of n l); [ discriminate | ]. intros [ -> | I ]; [ congruence | ]. now apply IH.
Qed.
Lemma index_of_nth l : NoDup l -> forall i, i < List.length l -> index_of (nth i l "") l = Some i.
Proof.
  induction 1 as [ | x l N D IH ]; intros i H; [ cbn in H; lia | ]. destruct i as [ | i ]; cbn.
  - now rewrite String.eqb_refl.
  - destruct (String.eqb_spec (nth i l "") x) as [ E | E ]; [ exfalso; apply N; rewrite <- E; apply nth_In; cbn in H; lia | ].
    rewrite IH by (cbn in H; lia). reflexivity.
Qed.
Lemma NoDup_snoc {A} (l : list A) x : NoDup l -> ~ In x l -> NoDup (l ++ [x]).
Proof.
  intros D N. apply NoDup_rev in D. rewrite <- (rev_involutive (l ++ [x])). apply NoDup_rev. rewrite rev_app_distr. cbn.
  constructor; [ now rewrite <- in_rev | exact D ].
Qed.
Lemma nth_upd {A} (l : list A) i x j d : i < List.length l -> nth j (upd l i x) d = if j =? i then x else nth j l d.
Proof.
  intro H. destruct (Nat.eqb_spec j i) as [ -> | N ].
  - apply nth_error_nth. now apply nth_error_upd_same.
  - destruct (nth_error l j) as [ y | ] eqn:E.
    + rewrite (nth_error_nth l j d E). apply nth_error_nth. rewrite nth_error_upd_other by auto. exact E.
    + rewrite !nth_overflow; [ reflexivity | now apply nth_error_None | rewrite length_upd; now apply nth_error_None ].
Qed.
Lemma nth_snoc_none (m : list (option nat)) i : nth i (m ++ [None]) None = nth i m None.
Proof.
  destruct (Nat.lt_ge_cases i (List.length m)); [ now apply app_nth1 | ].
  rewrite app_nth2 by assumption. rewrite (nth_overflow m) by assumption. destruct (i - List.length m) as [ | [ | k ] ]; reflexivity.
Qed.

Lemma map_ok_extend names lens a m r n l : List.length lens = List.length names -> map_ok names lens a m r -> map_ok (names ++ [n]) (lens ++ [l]) a (m ++ [None]) r.
Proof.
  intros Ll (L & A & B). split; [ rewrite !app_length; cbn; lia | ]. split.
  - intros i j E. rewrite nth_snoc_none in E. destruct (A i j E) as (H1 & H2 & H3 & H4 & H5). rewrite app_length. cbn.
    repeat split; auto; try lia; rewrite app_nth1; auto; lia.
  - intros j Hj Hs. destruct (B j Hj Hs) as (i & E). exists i. now rewrite nth_snoc_none.
Qed.

(** invariant inside ArrayGroup::add *)
Definition step_inv (a : adims) (done : list adims) (st : group * list (option nat)) (j : nat) : Prop :=
  let '(g, m) := st in
  NoDup (g_names g) /\ List.length (g_lens g) = List.length (g_names g) /\ map fst (g_arrays g) = done /\
  (forall am, In am (g_arrays g) -> map_ok (g_names g) (g_lens g) (fst am) (snd am) (rank (fst am))) /\
  (forall am d, In am (g_arrays g) -> below d (g_shared g) -> nth d (snd am) None = Some d) /\
  map_ok (g_names g) (g_lens g) a m j /\
  (forall d, d < j -> below d (g_shared g) -> nth d m None = Some d) /\
  (done = [] -> List.length (g_names g) <= j) /\
  from (g_names g) (g_lens g) (done ++ [a]).

Lemma add_one_inv a done st j st' : wf a -> j < rank a -> step_inv a done st j -> add_one a st j = Ok st' -> step_inv a done st' (S j).
Proof.
  destruct st as [ g m ]. intros (W1 & W2 & W3 & W4 & W5 & W6) Hj (D & Ll & Dn & Ar & Sh & Mo & Id & Ln & Nm) E. unfold add_one in E.
  destruct (nth_error (a_shared a) j) as [ sh | ] eqn:Es; [ | discriminate ]. cbn [rd obind] in E.
  assert (Es' := nth_error_nth _ _ false Es).
  destruct sh; cbn [negb] in E.
  2: { injection E as <-. unfold step_inv. cbn. split; [ exact D | ]. split; [ exact Ll | ]. split; [ exact Dn | ]. split; [ exact Ar | ]. split.
       { intros am d I B. apply below_min in B. apply Sh; tauto. }
       split.
       { destruct Mo as (M1 & M2 & M3). split; [ exact M1 | ]. split.
         - intros i k H. destruct (M2 i k H) as (X1 & X2 & X3). split; [ exact X1 | ]. split; [ lia | exact X3 ].
         - intros k Hk Hs. destruct (Nat.eq_dec k j); [ subst; congruence | ]. apply M3; auto. lia. }
       split. { intros d Hd B. apply below_min in B. apply Id; [ lia | tauto ]. }
       split; [ intro Q; specialize (Ln Q); lia | exact Nm ]. }
  destruct (nth_error (a_lens a) j) as [ len | ] eqn:El; [ | discriminate ]. cbn [rd obind] in E.
  destruct (nth_error (a_names a) j) as [ name | ] eqn:En; [ | discriminate ]. cbn [rd obind] in E.
  assert (El' := nth_error_nth _ _ 0 El). assert (En' := nth_error_nth _ _ "" En).
  destruct (index_of name (g_names g)) as [ i | ] eqn:Ei.
  - apply index_of_some in Ei. destruct Ei as (Hi & Hn).
    destruct (nth_error (g_lens g) i) as [ gl | ] eqn:Eg; [ | discriminate ]. cbn [rd obind] in E.
    destruct (Nat.eqb_spec len gl) as [ -> | ]; cbn [negb] in E; [ | discriminate ]. injection E as <-. unfold step_inv. cbn.
    assert (Eg' := nth_error_nth _ _ 0 Eg). destruct Mo as (M1 & M2 & M3).
    assert (Mi : i < List.length m) by lia.
    assert (Ni : nth i m None = None).
    { destruct (nth i m None) as [ k | ] eqn:Ek; [ | reflexivity ]. destruct (M2 i k Ek) as (_ & X2 & _ & X4 & _).
      exfalso. assert (k = j); [ | lia ]. apply (proj1 (NoDup_nth (a_names a) "") W4); [ lia | lia | congruence ]. }
    assert (Bs : forall d, below d (if i =? j then g_shared g else minimize (g_shared g) (Nat.min j i)) -> below d (g_shared g) /\ (i <> j -> d < j)).
    { intros d B. destruct (Nat.eqb_spec i j) as [ -> | N ]; [ split; [ exact B | congruence ] | ]. apply below_min in B. split; [ tauto | lia ]. }
    split; [ exact D | ]. split; [ exact Ll | ]. split; [ exact Dn | ]. split; [ exact Ar | ]. split.
    { intros am d I B. apply Sh; [ exact I | now apply Bs ]. }
    split.
    { split; [ rewrite length_upd; exact M1 | ]. split.
      - intros i' k H. rewrite nth_upd in H by exact Mi. destruct (Nat.eqb_spec i' i) as [ -> | N ].
        + injection H as <-. repeat split; auto; congruence.
        + destruct (M2 i' k H) as (X1 & X2 & X3). split; [ exact X1 | ]. split; [ lia | exact X3 ].
      - intros k Hk Hs. destruct (Nat.eq_dec k j) as [ -> | N ].
        + exists i. rewrite nth_upd by exact Mi. now rewrite Nat.eqb_refl.
        + destruct (M3 k) as (i' & Ei'); [ lia | exact Hs | ]. exists i'. rewrite nth_upd by exact Mi.
          destruct (Nat.eqb_spec i' i) as [ -> | ]; [ congruence | exact Ei' ]. }
    split.
    { intros d Hd B. destruct (Bs d B) as (B1 & B2). rewrite nth_upd by exact Mi.
      destruct (Nat.eq_dec i j) as [ -> | N ].
      - destruct (Nat.eqb_spec d j) as [ -> | ]; [ reflexivity | ]. apply Id; [ lia | exact B1 ].
      - destruct (Nat.eqb_spec d i) as [ -> | ].
        + exfalso. destruct (Nat.eqb_spec i j); [ congruence | ]. apply below_min in B. lia.
        + apply Id; auto. }
    split; [ intro Q; specialize (Ln Q); lia | exact Nm ].
  - apply index_of_none in Ei. injection E as <-. unfold step_inv. cbn.
    split; [ now apply NoDup_snoc | ]. split; [ rewrite !app_length; cbn; lia | ].
    split; [ rewrite map_map; exact Dn | ].
    assert (Bs : forall d, below d (match g_arrays g with [] => g_shared g | _ => minimize (g_shared g) j end) -> below d (g_shared g) /\ (g_arrays g <> [] -> d < j)).
    { intros d B. destruct (g_arrays g); [ split; [ exact B | congruence ] | ]. apply below_min in B. tauto. }
    split. { intros am I. apply in_map_iff in I. destruct I as ([ b mb ] & <- & I). cbn. apply map_ok_extend; [ exact Ll | ]. apply (Ar (b, mb) I). }
    split. { intros am d I B. apply in_map_iff in I. destruct I as ([ b mb ] & <- & I). cbn. rewrite nth_snoc_none. apply (Sh (b, mb) d I). now apply Bs. }
    destruct Mo as (M1 & M2 & M3). split.
    { split; [ rewrite !app_length; cbn; lia | ]. split.
      - intros i k H. rewrite app_length. cbn. destruct (Nat.lt_ge_cases i (List.length m)) as [ L | L ].
        + rewrite app_nth1 in H by exact L. destruct (M2 i k H) as (X1 & X2 & X3 & X4 & X5).
          repeat split; auto; try lia; rewrite app_nth1; auto; lia.
        + rewrite app_nth2 in H by exact L. destruct (i - List.length m) as [ | q ] eqn:Q; [ | destruct q; discriminate ]. cbn in H. injection H as <-.
          assert (i = List.length m) by lia. subst i. repeat split; auto; try lia.
          * rewrite app_nth2 by lia. rewrite M1, Nat.sub_diag. exact En'.
          * rewrite app_nth2 by lia. rewrite M1, Ll, Nat.sub_diag. exact El'.
      - intros k Hk Hs. destruct (Nat.eq_dec k j) as [ -> | N ].
        + exists (List.length m). rewrite app_nth2, Nat.sub_diag by lia. reflexivity.
        + destruct (M3 k) as (i & Ei'); [ lia | exact Hs | ]. exists i. destruct (Nat.lt_ge_cases i (List.length m)); [ now rewrite app_nth1 | ].
          rewrite nth_overflow in Ei' by assumption. discriminate. }
    split.
    { intros d Hd B. destruct (Bs d B) as (B1 & B2).
      destruct (Nat.eq_dec d j) as [ -> | N ].
      - destruct (g_arrays g) as [ | x y ] eqn:Eg; [ | exfalso; assert (j < j) by (apply B2; discriminate); lia ].
        cbn in Dn. specialize (Ln (eq_sym Dn)).
        assert (Lm : List.length m = j).
        { destruct (Nat.eq_dec (List.length m) j) as [ | Nj ]; [ assumption | exfalso ].
          assert (Z : List.length m < j) by lia.
          assert (Q : nth (List.length m) m None = Some (List.length m)).
          { apply Id; [ exact Z | ]. clear - B1 Z. destruct (g_shared g); cbn in *; [ lia | exact Logic.I ]. }
          rewrite nth_overflow in Q by lia. discriminate. }
        rewrite app_nth2 by lia. rewrite Lm, Nat.sub_diag. reflexivity.
      - assert (Z : d < j) by lia. assert (Q := Id d Z B1). rewrite app_nth1; [ exact Q | ].
        destruct (Nat.lt_ge_cases d (List.length m)); [ assumption | ]. rewrite nth_overflow in Q by assumption. discriminate. }
    split; [ intro Q; specialize (Ln Q); rewrite app_length; cbn; lia | ].
    intros i Hi. rewrite app_length in Hi. cbn in Hi. destruct (Nat.eq_dec i (List.length (g_names g))) as [ -> | N ].
    { exists a, j. split; [ apply in_app_iff; right; now left | ]. split; [ exact Hj | ]. split; [ exact Es' | ].
      rewrite !app_nth2 by lia. rewrite Ll, Nat.sub_diag. split; [ exact En' | exact El' ]. }
    { destruct (Nm i) as (b & k & X); [ lia | ]. exists b, k. rewrite !app_nth1 by lia. exact X. }
Qed.

Lemma add_loop_inv a done : wf a -> forall n j st st', j + n = rank a -> step_inv a done st j -> ofold (add_one a) (seq j n) st = Ok st' -> step_inv a done st' (rank a).
Proof.
  intros W. induction n as [ | n IH ]; intros j st st' H S E; cbn in E.
  - injection E as <-. now replace (rank a) with j by lia.
  - destruct (add_one a st j) as [ s1 | | | ] eqn:E1; cbn in E; try discriminate.
    apply (IH (Datatypes.S j) s1 st'); [ lia | | exact E ]. apply (add_one_inv a done st j s1); auto. lia.
Qed.

Lemma add_array_inv g done a g' : wf a -> inv g done -> (done = [] -> g_names g = []) -> add_array g a = Ok g' -> inv g' (done ++ [a]).
Proof.
  intros W (D & Ll & Dn & Ar & Sh & Nm) E0 E. unfold add_array in E.
  destruct (ofold (add_one a) _ _) as [ [ g1 m ] | | | ] eqn:E1; cbn [obind] in E; try discriminate. injection E as <-.
  assert (S0 : step_inv a done (g, repeat None (List.length (g_lens g))) 0).
  { unfold step_inv. split; [ exact D | ]. split; [ exact Ll | ]. split; [ exact Dn | ]. split; [ exact Ar | ]. split; [ exact Sh | ]. split.
    - split; [ rewrite repeat_length; exact Ll | ]. split; [ | lia ]. intros i j H. exfalso.
      destruct (Nat.lt_ge_cases i (List.length (g_lens g))) as [ L | L ]; [ | rewrite nth_overflow in H by (rewrite repeat_length; exact L); discriminate ].
      rewrite nth_repeat in H. discriminate.
    - split; [ lia | ]. split; [ intro Q; rewrite (E0 Q); cbn; lia | ].
      intros i Hi. destruct (Nm i Hi) as (b & k & I & X). exists b, k. split; [ apply in_app_iff; now left | exact X ]. }
  assert (S1 := add_loop_inv a done W (rank a) 0 _ _ eq_refl S0 E1). cbn in S1.
  destruct S1 as (D' & Ll' & Dn' & Ar' & Sh' & Mo & Id & _ & Nm'). unfold inv. cbn.
  split; [ exact D' | ]. split; [ exact Ll' | ]. split; [ rewrite map_app, Dn'; reflexivity | ]. split.
  { intros am I. apply in_app_iff in I. destruct I as [ I | [ <- | [] ] ]; [ auto | exact Mo ]. }
  split.
  { intros am d I B. apply below_min in B. apply in_app_iff in I. destruct I as [ I | [ <- | [] ] ]; [ apply Sh'; tauto | ]. cbn. apply Id; tauto. }
  auto.
Qed.

Lemma make_group_inv l : (forall a, In a l -> wf a) -> forall g, make_group l = Ok g -> inv g l.
Proof.
  intros W g E. unfold make_group in E.
  assert (G : forall l done g0 g1, (forall a, In a l -> wf a) -> inv g0 done -> (done = [] -> g_names g0 = []) -> ofold add_array l g0 = Ok g1 -> inv g1 (done ++ l)).
  { clear. induction l as [ | a l IH ]; intros done g0 g1 W Iv E0 E; cbn in E; [ injection E as <-; now rewrite app_nil_r | ].
    destruct (add_array g0 a) as [ g2 | | | ] eqn:E1; cbn in E; try discriminate.
    assert (I2 := add_array_inv g0 done a g2 (W a (or_introl eq_refl)) Iv E0 E1).
    change (a :: l) with ([a] ++ l). rewrite app_assoc. apply (IH (done ++ [a]) g2 g1); [ intros; apply W; now right | exact I2 | | exact E ].
    intro Q. destruct done; discriminate. }
  apply (G l [] empty_group g W); [ | auto | exact E ].
  unfold inv, empty_group. cbn. split; [ constructor | ]. split; [ reflexivity | ]. split; [ reflexivity | ]. repeat split; try (intros; contradiction). intros i Hi. cbn in Hi. lia.
Qed.

Lemma shared_some l a g : make_group (a :: l) = Ok g -> exists n, g_shared g = Some n.
Proof.
  intro E. unfold make_group in E. cbn in E. destruct (add_array empty_group a) as [ g1 | | | ] eqn:E1; cbn in E; try discriminate.
  assert (S1 : forall g0 b g2, add_array g0 b = Ok g2 -> exists n, g_shared g2 = Some n).
  { clear. intros g0 b g2 E. unfold add_array in E. destruct (ofold _ _ _) as [ [ g1 m ] | | | ]; cbn [obind] in E; try discriminate. injection E as <-. cbn.
    unfold minimize. destruct (g_shared g1) as [ x | ]; [ destruct (_ <? x); eauto | eauto ]. }
  destruct (S1 _ _ _ E1) as (n & Hn). clear E1. revert g1 n Hn E. induction l as [ | b l IH ]; intros g1 n Hn E; cbn in E; [ injection E as <-; eauto | ].
  destruct (add_array g1 b) as [ g2 | | | ] eqn:E2; cbn in E; try discriminate. destruct (S1 _ _ _ E2) as (n2 & H2). apply (IH g2 n2 H2 E).
Qed.
