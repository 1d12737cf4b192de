(** C126: vectors and directions rotated by the processor. *)
From Coq Require Import Reals PeanoNat String List Bool Lia Lra.
From Verif Require Import Base VrotModel.
Import ListNotations.
Local Open Scope string_scope.
Local Open Scope list_scope.
Local Open Scope nat_scope.

Lemma put_same {A} k (a : A) f : put k a f k = Some a.
Proof. unfold put. now rewrite String.eqb_refl. Qed.
Lemma put_other {A} k (a : A) f x : x <> k -> put k a f x = f x.
Proof. intro N. unfold put. apply String.eqb_neq in N. now rewrite N. Qed.
(** a processor at the start: metadata, and nothing rotated *)
Definition start (std : fmap string) (vec : fmap (string * vdir)) : proc := mkProc std vec (fun _ => None) (fun _ => None) (fun _ => None) (fun _ => None).
Definition given {A} (l : list A) (i : nat) (old : option A) : option A := match nth_error l i with Some n => Some n | None => old end.

Section Pairs.
Variable system : fmap string.
Variable any : bool.
Lemma matrix_there id t f : with_matrix id t f id <> None.
Proof. unfold with_matrix. destruct (f id) eqn:E; [ congruence | rewrite put_same; discriminate ]. Qed.
Lemma matrix_stays id t f j b : f j = Some b -> with_matrix id t f j = Some b.
Proof. intro H. unfold with_matrix. destruct (f id) eqn:E; [ exact H | ]. rewrite put_other; [ exact H | ]. intros ->. congruence. Qed.
Lemma matrix_of id t (f : fmap bool) : (forall j b, f j = Some b -> b = t) -> forall j b, with_matrix id t f j = Some b -> b = t.
Proof. intros H j b. unfold with_matrix. destruct (f id) eqn:E; [ apply H | ]. unfold put. destruct (String.eqb j id); [ intro Q; now injection Q | apply H ]. Qed.

Lemma pairs_ok t : forall xs ys nxs nys s s', rotate_pairs system t xs ys nxs nys s = (s', true) -> length xs = length ys -> NoDup (xs ++ ys) ->
  (forall i x y, nth_error xs i = Some x -> nth_error ys i = Some y -> exists id, system x = Some id /\ system y = Some id /\
     p_x s' x = Some (y, id) /\ p_y s' y = Some (x, id) /\ p_vec s' x = Some (y, if t then VLon else VX) /\ p_vec s' y = Some (x, if t then VLat else VY) /\
     p_std s' x = given nxs i (p_std s x) /\ p_std s' y = given nys i (p_std s y) /\ p_mat s' id <> None) /\
  (forall v, ~ In v xs -> p_x s' v = p_x s v) /\ (forall v, ~ In v ys -> p_y s' v = p_y s v) /\ (forall v, ~ In v (xs ++ ys) -> p_vec s' v = p_vec s v /\ p_std s' v = p_std s v) /\
  p_dir s' = p_dir s /\ (forall j b, p_mat s j = Some b -> p_mat s' j = Some b) /\ ((forall j b, p_mat s j = Some b -> b = t) -> forall j b, p_mat s' j = Some b -> b = t).
Proof.
  induction xs as [ | x xs IH ]; intros [ | y ys ] nxs nys s s' E L N; cbn [length] in L; try discriminate L.
  - cbn in E. injection E as <-. split; [ intros [ | i ] a b H; discriminate H | ]. auto 10.
  - cbn [rotate_pairs] in E. destruct (rotate_pair system t x y (hd_error nxs) (hd_error nys) s) as [s1 ok] eqn:E1. destruct ok; [ | discriminate E ].
    unfold rotate_pair in E1. destruct (system x) as [a|] eqn:SX; [ | discriminate E1 ]. destruct (system y) as [b|] eqn:SY; [ | discriminate E1 ]. destruct (String.eqb_spec a b) as [<-|]; [ | discriminate E1 ]. injection E1 as <-.
    cbn [app] in N. inversion N as [ | ? ? NX N1 ]. subst. assert (NY := NoDup_remove_2 _ _ _ N1). assert (N2 := NoDup_remove_1 _ _ _ N1).
    assert (XY : x <> y) by (intros ->; apply NX, in_or_app; right; now left).
    destruct (IH ys (tl nxs) (tl nys) _ s' E ltac:(congruence) N2) as (H1 & H2 & H3 & H4 & H5 & H6 & H7). cbn [p_x p_y p_vec p_std p_dir p_mat] in *.
    assert (X1 : ~ In x xs /\ ~ In x ys) by (split; intro; apply NX, in_or_app; [ left | right; right ]; assumption).
    assert (Y1 : ~ In y xs /\ ~ In y ys) by (split; intro; apply NY, in_or_app; [ left | right ]; assumption).
    assert (NM : forall v (n : option string) f, named v n f v = match n with Some z => Some z | None => f v end) by (intros v [n|] f; cbn; [ apply put_same | reflexivity ]).
    assert (NO : forall v w (n : option string) f, w <> v -> named v n f w = f w) by (intros v w [n|] f NE; cbn; [ now apply put_other | reflexivity ]).
    split; [ | split; [ | split; [ | split; [ | split; [ exact H5 | split ] ] ] ] ].
    + intros [ | i ] u v U W.
      * cbn in U, W. injection U as <-. injection W as <-. exists a. split; [ exact SX | split; [ exact SY | ] ].
        destruct (H4 x) as (V1 & V2); [ intro Q; apply in_app_or in Q; tauto | ]. destruct (H4 y) as (V3 & V4); [ exact NY | ].
        rewrite (H2 x (proj1 X1)), (H3 y (proj2 Y1)), V1, V2, V3, V4, !put_same, (put_other y _ _ x XY), put_same. repeat split.
        -- rewrite (NO y x _ _ XY), NM. unfold given. destruct nxs; reflexivity.
        -- rewrite NM, (NO x y) by congruence. unfold given. destruct nys; reflexivity.
        -- assert (M := matrix_there a t (p_mat s)). destruct (with_matrix a t (p_mat s) a) as [b|] eqn:Q; [ rewrite (H6 a b Q); discriminate | congruence ].
      * cbn [nth_error] in U, W. destruct (H1 i u v U W) as (id & K1 & K2 & K3 & K4 & K5 & K6 & K7 & K8 & K9). exists id. repeat (split; [ assumption | ]).
        assert (IU : In u (xs ++ ys)) by (apply in_or_app; left; eapply nth_error_In; exact U). assert (IV : In v (xs ++ ys)) by (apply in_or_app; right; eapply nth_error_In; exact W).
        assert (D : forall w, In w (xs ++ ys) -> w <> x /\ w <> y). { intros w I. split; intros ->; [ apply NX; apply in_app_or in I; apply in_or_app; cbn [In]; tauto | contradiction ]. }
        destruct (D u IU), (D v IV). rewrite K7, K8. rewrite !NO by assumption. unfold given. destruct nxs, nys; cbn [tl nth_error]; rewrite ?nth_error_nil; destruct i; cbn [nth_error]; repeat split; assumption.
    + intros v NV. rewrite H2 by (intro; apply NV; now right). apply put_other. intros ->. apply NV. now left.
    + intros v NV. rewrite H3 by (intro; apply NV; now right). apply put_other. intros ->. apply NV. now left.
    + intros v NV. assert (VV : v <> x /\ v <> y /\ ~ In v (xs ++ ys)). { split; [ intros ->; apply NV; now left | ]. split; [ intros ->; apply NV; right; apply in_or_app; right; now left | ]. intro Q. apply NV. right. apply in_app_or in Q. apply in_or_app. cbn [In]. tauto. }
      destruct VV as (V1 & V2 & V3). destruct (H4 v V3) as (-> & ->). rewrite !put_other, !NO by assumption. now split.
    + intros j b Q. apply H6. now apply matrix_stays.
    + intros Q. apply H7. now apply matrix_of.
Qed.

(** the request succeeds if and only if all pairs are on a system each *)
Theorem C126_accepted t xs ys nxs nys s :
  snd (rotate_vectors system any t xs ys nxs nys s) = true <->
  length xs = length ys /\ (xs = [] \/ (any = true /\ forall i x y, nth_error xs i = Some x -> nth_error ys i = Some y -> exists id, system x = Some id /\ system y = Some id)).
Proof.
  unfold rotate_vectors. destruct (Nat.eqb_spec (length xs) (length ys)) as [L|L]; cbn [negb]; [ | split; [ discriminate | tauto ] ].
  destruct (Nat.eqb_spec (length xs) 0) as [Z|Z]; [ cbn; destruct xs; [ tauto | discriminate Z ] | ].
  assert (NE : xs <> []) by (intros ->; now apply Z). destruct any; cbn [negb]; [ | split; [ discriminate | intros (_ & [Q|[Q _]]); [ contradiction | discriminate ] ] ].
  assert (G : snd (rotate_pairs system t xs ys nxs nys s) = true <-> forall i x y, nth_error xs i = Some x -> nth_error ys i = Some y -> exists id, system x = Some id /\ system y = Some id).
  { clear NE Z. revert ys nxs nys s L. induction xs as [ | x xs IH ]; intros [ | y ys ] nxs nys s L; cbn [length] in L; try discriminate L.
    - cbn. split; [ intros _ [ | i ] a b H; discriminate H | reflexivity ].
    - cbn [rotate_pairs]. unfold rotate_pair. destruct (system x) as [a|] eqn:SX; [ destruct (system y) as [b|] eqn:SY; [ destruct (String.eqb_spec a b) as [<-|N] | ] | ].
      + rewrite IH by congruence. split.
        * intros H [ | i ] u v U W; [ cbn in U, W; injection U as <-; injection W as <-; eauto | exact (H i u v U W) ].
        * intros H i u v U W. exact (H (S i) u v U W).
      + cbn. split; [ discriminate | ]. intro H. destruct (H 0 x y eq_refl eq_refl) as (id & Q1 & Q2). congruence.
      + cbn. split; [ discriminate | ]. intro H. destruct (H 0 x y eq_refl eq_refl) as (id & Q1 & Q2). congruence.
      + cbn. split; [ discriminate | ]. intro H. destruct (H 0 x y eq_refl eq_refl) as (id & Q1 & Q2). congruence. }
  rewrite G. tauto.
Qed.

(** a request of pairs of different variables: names, marks and what is rotated *)
Theorem C126_vectors t xs ys nxs nys s s' : rotate_vectors system any t xs ys nxs nys s = (s', true) -> NoDup (xs ++ ys) ->
  (forall i x y, nth_error xs i = Some x -> nth_error ys i = Some y ->
     p_vec s' x = Some (y, if t then VLon else VX) /\ p_vec s' y = Some (x, if t then VLat else VY) /\ p_std s' x = given nxs i (p_std s x) /\ p_std s' y = given nys i (p_std s y)) /\
  (forall v, ~ In v (xs ++ ys) -> p_vec s' v = p_vec s v /\ p_std s' v = p_std s v /\ p_x s' v = p_x s v /\ p_y s' v = p_y s v) /\ p_dir s' = p_dir s.
Proof.
  intros E N. assert (A : snd (rotate_vectors system any t xs ys nxs nys s) = true) by now rewrite E. apply C126_accepted in A. destruct A as [L _].
  assert (K : rotate_pairs system t xs ys nxs nys s = (s', true)).
  { unfold rotate_vectors in E. destruct (negb (length xs =? length ys)); [ discriminate | ]. destruct (length xs =? 0) eqn:Z; [ apply Nat.eqb_eq in Z; destruct xs; [ injection E as <-; destruct ys; reflexivity | discriminate Z ] | ]. destruct (negb any); [ discriminate | exact E ]. }
  destruct (pairs_ok t _ _ _ _ _ _ K L N) as (H1 & H2 & H3 & H4 & H5 & _). split; [ | split; [ | exact H5 ] ].
  - intros i x y U W. destruct (H1 i x y U W) as (id & _ & _ & _ & _ & Q). tauto.
  - intros v NV. destruct (H4 v NV) as (-> & ->). rewrite H2, H3; auto; intro; apply NV, in_or_app; auto.
Qed.

Section Data.
Variable rdr : string -> nat -> record.
Variable turn : string -> bool -> record -> record -> record * record.
Variable turn_directions : string -> bool -> record -> record.
Variable packing : string -> R * R.
Variable cast : string -> option R -> option R.
Notation slice := (get_slice rdr turn turn_directions packing cast).

(** the data after the first request: both components of a pair from both components of the reader *)
Theorem C126_data std vec t xs ys nxs nys s' : rotate_vectors system any t xs ys nxs nys (start std vec) = (s', true) -> NoDup (xs ++ ys) -> forall pos,
  (forall i x y, nth_error xs i = Some x -> nth_error ys i = Some y -> exists id, system x = Some id /\ system y = Some id /\
     (length (rdr x pos) = length (rdr y pos) ->
        slice s' x pos = Ok (map (cast x) (fst (turn id t (rdr x pos) (rdr y pos)))) /\ slice s' y pos = Ok (map (cast y) (snd (turn id t (rdr x pos) (rdr y pos))))) /\
     (length (rdr x pos) <> length (rdr y pos) -> slice s' x pos = Throw /\ slice s' y pos = Throw)) /\
  (forall v, ~ In v (xs ++ ys) -> slice s' v pos = Ok (rdr v pos)).
Proof.
  intros E N pos. assert (A : snd (rotate_vectors system any t xs ys nxs nys (start std vec)) = true) by now rewrite E. apply C126_accepted in A. destruct A as [L _].
  assert (K : rotate_pairs system t xs ys nxs nys (start std vec) = (s', true)).
  { unfold rotate_vectors in E. destruct (negb (length xs =? length ys)); [ discriminate | ]. destruct (length xs =? 0) eqn:Z; [ apply Nat.eqb_eq in Z; destruct xs; [ injection E as <-; destruct ys; reflexivity | discriminate Z ] | ]. destruct (negb any); [ discriminate | exact E ]. }
  destruct (pairs_ok t _ _ _ _ _ _ K L N) as (H1 & H2 & H3 & _ & H5 & _ & H7). cbn [start p_dir p_x p_y p_mat] in *. split.
  - intros i x y U W. destruct (H1 i x y U W) as (id & S1 & S2 & P1 & P2 & _ & _ & _ & _ & M). exists id. split; [ exact S1 | split; [ exact S2 | ] ].
    assert (PY : p_x s' y = None). { rewrite H2; [ reflexivity | ]. intro Q. clear - N Q W. apply nth_error_In in W. revert N. induction xs as [ | a l IH ]; [ destruct Q | ]. cbn [app]. intro N. inversion N. subst. destruct Q as [<-|Q]; [ apply H1, in_or_app; now right | auto ]. }
    destruct (p_mat s' id) as [b|] eqn:B; [ | congruence ]. assert (b = t) by (apply (H7 ltac:(discriminate) id b B)). subst b.
    unfold get_slice. rewrite P1, PY, P2, H5. unfold turned, matrix. rewrite B. split; intro LL.
    + apply Nat.eqb_eq in LL. rewrite LL. cbn [negb obind]. now split.
    + apply Nat.eqb_neq in LL. rewrite LL. cbn [negb obind]. now split.
  - intros v NV. unfold get_slice. rewrite H2, H3, H5 by (intro; apply NV, in_or_app; auto). reflexivity.
Qed.

Lemma pairs_matrix t : forall xs ys nxs nys s s' j, rotate_pairs system t xs ys nxs nys s = (s', true) ->
  p_mat s' j = p_mat s j \/ (p_mat s j = None /\ p_mat s' j = Some t).
Proof.
  induction xs as [ | x xs IH ]; intros [ | y ys ] nxs nys s s' j E; try (cbn in E; injection E as <-; now left).
  cbn [rotate_pairs] in E. unfold rotate_pair in E. destruct (system x) as [a|]; [ | discriminate ]. destruct (system y) as [b|]; [ | discriminate ]. destruct (String.eqb a b); [ | discriminate ].
  assert (W : with_matrix a t (p_mat s) j = p_mat s j \/ (p_mat s j = None /\ with_matrix a t (p_mat s) j = Some t)).
  { unfold with_matrix. destruct (p_mat s a) eqn:A; [ now left | ]. unfold put. destruct (String.eqb_spec j a) as [->|]; [ right; now split | now left ]. }
  destruct (IH _ _ _ _ _ j E) as [Q|[Q1 Q2]]; cbn [p_mat] in *; [ rewrite Q; exact W | ]. destruct W as [W|[W1 W2]]; [ rewrite W in Q1; right; now split | congruence ].
Qed.
(** the data after any request, whatever was asked for before: the direction is the one of the first request for the system *)
Theorem C126_data_later t xs ys nxs nys s s' i x y pos : rotate_vectors system any t xs ys nxs nys s = (s', true) -> NoDup (xs ++ ys) ->
  nth_error xs i = Some x -> nth_error ys i = Some y -> p_dir s x = None -> p_dir s y = None -> p_x s y = None -> length (rdr x pos) = length (rdr y pos) ->
  exists id, system x = Some id /\ let b := match p_mat s id with Some c => c | None => t end in
    slice s' x pos = Ok (map (cast x) (fst (turn id b (rdr x pos) (rdr y pos)))) /\ slice s' y pos = Ok (map (cast y) (snd (turn id b (rdr x pos) (rdr y pos)))).
Proof.
  intros E N U W DX DY PY LL. assert (A : snd (rotate_vectors system any t xs ys nxs nys s) = true) by now rewrite E. apply C126_accepted in A. destruct A as [L _].
  assert (K : rotate_pairs system t xs ys nxs nys s = (s', true)).
  { unfold rotate_vectors in E. destruct (negb (length xs =? length ys)); [ discriminate | ]. destruct (length xs =? 0) eqn:Z; [ apply Nat.eqb_eq in Z; destruct xs; [ injection E as <-; destruct ys; reflexivity | discriminate Z ] | ]. destruct (negb any); [ discriminate | exact E ]. }
  destruct (pairs_ok t _ _ _ _ _ _ K L N) as (H1 & H2 & H3 & _ & H5 & _ & _). destruct (H1 i x y U W) as (id & S1 & S2 & P1 & P2 & _ & _ & _ & _ & M). exists id. split; [ exact S1 | ]. cbv zeta.
  assert (B : p_mat s' id = Some (match p_mat s id with Some c => c | None => t end)).
  { destruct (pairs_matrix t _ _ _ _ _ _ id K) as [Q|[Q1 Q2]]; [ rewrite Q in M |- *; destruct (p_mat s id); [ reflexivity | congruence ] | now rewrite Q1 ]. }
  assert (PY' : p_x s' y = None). { rewrite H2; [ exact PY | ]. intro Q. clear - N Q W. apply nth_error_In in W. revert N. induction xs as [ | a l IH ]; [ destruct Q | ]. cbn [app]. intro N. inversion N. subst. destruct Q as [<-|Q]; [ apply H1, in_or_app; now right | auto ]. }
  apply Nat.eqb_eq in LL. unfold get_slice. rewrite P1, PY', P2, H5, DX, DY. unfold turned, matrix. rewrite B, LL. now split.
Qed.
(** a variable rotated both as a component of a vector and as a direction: the direction is rotated last, from the component *)
Theorem C126_component_and_direction s v id b pos : p_dir s v = Some id -> p_mat s id = Some b ->
  slice s v pos = (do d <- slice (mkProc (p_std s) (p_vec s) (p_x s) (p_y s) (fun _ => None) (p_mat s)) v pos;
                   Ok (map (fun x => cast v (unscaled (packing v) x)) (turn_directions id b (map (scaled (packing v)) d)))).
Proof.
  intros D B. unfold get_slice at 1. rewrite D. unfold matrix at 1. rewrite B. unfold get_slice. cbn [p_x p_y p_dir].
  destruct (p_x s v) as [[y i]|].
  - unfold turned, matrix. cbn [p_mat]. destruct (negb (length (rdr v pos) =? length (rdr y pos))); [ reflexivity | ]. destruct (p_mat s i); reflexivity.
  - destruct (p_y s v) as [[x i]|]; [ | reflexivity ]. unfold turned, matrix. cbn [p_mat]. destruct (negb (length (rdr x pos) =? length (rdr v pos))); [ reflexivity | ]. destruct (p_mat s i); reflexivity.
Qed.

(** directions: turned as angles, with scale factor and offset *)
Theorem C126_directions std vec t vs s' : rotate_directions system any t vs (start std vec) = (s', true) -> forall pos,
  (forall v, In v vs -> exists id, system v = Some id /\ exists d, slice s' v pos = Ok d /\
     (fst (packing v) <> 0%R -> (forall x, cast v x = x) -> map (scaled (packing v)) d = turn_directions id t (map (scaled (packing v)) (rdr v pos)))) /\
  (forall v, ~ In v vs -> slice s' v pos = Ok (rdr v pos)) /\ p_std s' = std /\ p_vec s' = vec.
Proof.
  intros E pos. unfold rotate_directions in E.
  assert (K : rotate_each system t vs (start std vec) = (s', true)) by (destruct vs; [ exact E | destruct any; [ exact E | discriminate ] ]).
  assert (G : forall vs s s', rotate_each system t vs s = (s', true) -> (forall v, In v vs -> exists id, system v = Some id /\ p_dir s' v = Some id /\ p_mat s' id <> None) /\
    (forall v, ~ In v vs -> p_dir s' v = p_dir s v) /\ p_std s' = p_std s /\ p_vec s' = p_vec s /\ p_x s' = p_x s /\ p_y s' = p_y s /\ (forall j b, p_mat s j = Some b -> p_mat s' j = Some b) /\
    ((forall j b, p_mat s j = Some b -> b = t) -> forall j b, p_mat s' j = Some b -> b = t)).
  { clear. induction vs as [ | v vs IH ]; intros s s' E; cbn [rotate_each] in E; [ injection E as <-; split; [ intros v [] | auto 10 ] | ].
    destruct (system v) as [a|] eqn:S; [ | discriminate ]. destruct (IH _ _ E) as (H1 & H2 & H3 & H4 & H5 & H6 & H7 & H8). cbn [p_std p_vec p_x p_y p_dir p_mat] in *.
    split; [ | split; [ | split; [ exact H3 | split; [ exact H4 | split; [ exact H5 | split; [ exact H6 | split ] ] ] ] ] ].
    - intros w [<-|I]; [ | exact (H1 w I) ]. destruct (in_dec string_dec v vs) as [I|I]; [ exact (H1 v I) | ]. exists a. split; [ exact S | ]. rewrite (H2 v I), put_same. split; [ reflexivity | ].
      assert (M := matrix_there a t (p_mat s)). destruct (with_matrix a t (p_mat s) a) as [b|] eqn:Q; [ rewrite (H7 a b Q); discriminate | congruence ].
    - intros w NW. rewrite H2 by (intro; apply NW; now right). apply put_other. intros ->. apply NW. now left.
    - intros j b Q. apply H7. now apply matrix_stays.
    - intro Q. apply H8. now apply matrix_of. }
  destruct (G _ _ _ K) as (H1 & H2 & H3 & H4 & H5 & H6 & _ & H8). cbn [start p_std p_vec p_x p_y p_dir p_mat] in *. split; [ | split; [ | now split ] ].
  - intros v I. destruct (H1 v I) as (id & S & D & M). exists id. split; [ exact S | ]. destruct (p_mat s' id) as [b|] eqn:B; [ | congruence ]. assert (b = t) by (apply (H8 ltac:(discriminate) id b B)). subst b.
    unfold get_slice. rewrite H5, H6, D. unfold matrix. rewrite B. cbn [obind]. eexists. split; [ reflexivity | ]. intros NZ C. rewrite map_map. rewrite <- map_id. apply map_ext. intros [r|]; rewrite C; [ | reflexivity ]. unfold scaled, unscaled. cbn [option_map]. f_equal. field. exact NZ.
  - intros v NV. unfold get_slice. rewrite H5, H6, (H2 v NV). reflexivity.
Qed.

(** ** Any sequence of requests, failing ones included *)
Lemma ask_inv (Q : proc -> Prop) : (forall s x y nx ny t, Q s -> Q (fst (rotate_pair system t x y nx ny s))) ->
  (forall s v a t, Q s -> system v = Some a -> Q (mkProc (p_std s) (p_vec s) (p_x s) (p_y s) (put v a (p_dir s)) (with_matrix a t (p_mat s)))) ->
  forall rs s, Q s -> Q (asked system any rs s).
Proof.
  intros HP HD. assert (A : forall t xs ys nxs nys s, Q s -> Q (fst (rotate_vectors system any t xs ys nxs nys s))).
  { intros t xs ys nxs nys s H. unfold rotate_vectors. destruct (negb (length xs =? length ys)); [ exact H | ]. destruct (length xs =? 0); [ exact H | ]. destruct (negb any); [ exact H | ].
    revert ys nxs nys s H. induction xs as [ | x xs IH ]; intros [ | y ys ] nxs nys s H; try exact H. cbn [rotate_pairs]. assert (K := HP s x y (hd_error nxs) (hd_error nys) t H). destruct (rotate_pair system t x y (hd_error nxs) (hd_error nys) s) as [s1 ok]. cbn [fst] in K. destruct ok; [ apply IH, K | exact K ]. }
  assert (B : forall t vs s, Q s -> Q (fst (rotate_directions system any t vs s))).
  { intros t vs s H. unfold rotate_directions. destruct vs as [ | v0 vs0 ]; [ exact H | ]. destruct any; [ | exact H ]. generalize (v0 :: vs0). clear v0 vs0. intro vs. revert s H. induction vs as [ | v vs IH ]; intros s H; [ exact H | ]. cbn [rotate_each]. destruct (system v) as [a|] eqn:S; [ | exact H ]. apply IH. now apply HD. }
  induction rs as [ | r rs IH ]; intros s H; [ exact H | ]. change (asked system any (r :: rs) s) with (asked system any rs (ask system any s r)). apply IH. unfold ask. destruct r; [ apply A, H | unfold rotate_all; apply A, H | apply B, H ].
Qed.
(** no null pointer is used *)
Theorem C126_no_null std vec rs v pos : slice (asked system any rs (start std vec)) v pos <> UB.
Proof.
  assert (K : let s := asked system any rs (start std vec) in forall w, (forall o id, p_x s w = Some (o, id) -> p_mat s id <> None) /\ (forall o id, p_y s w = Some (o, id) -> p_mat s id <> None) /\ (forall id, p_dir s w = Some id -> p_mat s id <> None)).
  { cbv zeta. apply ask_inv; [ | | intro w; repeat split; intros; discriminate ].
    - intros s x y nx ny t H. unfold rotate_pair. destruct (system x) as [a|]; [ | exact H ]. destruct (system y) as [b|]; [ | exact H ]. destruct (String.eqb_spec a b) as [<-|]; [ | exact H ].
      cbn [fst p_x p_y p_dir p_mat]. intro w. destruct (H w) as (H1 & H2 & H3).
      assert (M : forall id, p_mat s id <> None -> with_matrix a t (p_mat s) id <> None). { intros id Q. destruct (p_mat s id) as [z|] eqn:E; [ rewrite (matrix_stays _ _ _ _ _ E); discriminate | congruence ]. }
      unfold put. repeat split.
      + intros o id. destruct (String.eqb w x); [ intro Q; injection Q as <- <-; apply matrix_there | intro Q; eauto ].
      + intros o id. destruct (String.eqb w y); [ intro Q; injection Q as <- <-; apply matrix_there | intro Q; eauto ].
      + intros id Q. eauto.
    - intros s v0 a t H S w. destruct (H w) as (H1 & H2 & H3). cbn [p_x p_y p_dir p_mat].
      assert (M : forall id, p_mat s id <> None -> with_matrix a t (p_mat s) id <> None). { intros id Q. destruct (p_mat s id) as [z|] eqn:E; [ rewrite (matrix_stays _ _ _ _ _ E); discriminate | congruence ]. }
      repeat split; [ intros; eauto | intros; eauto | ]. intros id. unfold put. destruct (String.eqb w v0); [ intro Q; injection Q as <-; apply matrix_there | intro Q; eauto ]. }
  cbv zeta in K. set (s := asked system any rs (start std vec)) in *. destruct (K v) as (K1 & K2 & K3). unfold get_slice, turned, matrix.
  assert (T : forall (A : Type) (o : outcome A) (f : A -> outcome record), o <> UB -> (forall a, f a <> UB) -> obind o f <> UB) by (intros A [a| | |] f H1 H2; cbn; try congruence; apply H2).
  apply T.
  - destruct (p_x s v) as [[y id]|] eqn:EX.
    + destruct (negb (length (rdr v pos) =? length (rdr y pos))); [ discriminate | ]. specialize (K1 y id eq_refl). destruct (p_mat s id); [ discriminate | congruence ].
    + destruct (p_y s v) as [[x id]|] eqn:EY; [ | discriminate ]. destruct (negb (length (rdr x pos) =? length (rdr v pos))); [ discriminate | ]. specialize (K2 x id eq_refl). destruct (p_mat s id); [ discriminate | congruence ].
  - intro d. destruct (p_dir s v) as [id|] eqn:ED; [ | discriminate ]. specialize (K3 id eq_refl). destruct (p_mat s id); [ discriminate | congruence ].
Qed.
(** Finding: the matrix of a system stays the one of the first request, also for requests of the other direction *)
Theorem C126_first_direction_refuted rs s id b : p_mat s id = Some b -> p_mat (asked system any rs s) id = Some b.
Proof.
  apply (ask_inv (fun s => p_mat s id = Some b)).
  - intros s0 x y nx ny t H. unfold rotate_pair. destruct (system x) as [a|]; [ | exact H ]. destruct (system y) as [c|]; [ | exact H ]. destruct (String.eqb a c); [ | exact H ]. cbn [fst p_mat]. now apply matrix_stays.
  - intros s0 v a t H _. cbn [p_mat]. now apply matrix_stays.
Qed.
(** Finding: scale factors and offsets have no effect on vectors: packed values are turned *)
Theorem C126_packing_refuted (packing2 : string -> R * R) s v pos : p_dir s v = None -> slice s v pos = get_slice rdr turn turn_directions packing2 cast s v pos.
Proof. intro H. unfold get_slice. now rewrite H. Qed.
End Data.

(** all vectors of a file whose vectors are pairs: every one is renamed, marked and rotated, nothing else is changed *)
Theorem C126_all (t : bool) (vars : list string) (s s' : proc) : let kx := if t then VX else VLon in let ky := if t then VY else VLat in
  NoDup vars -> (forall v o, In v vars -> p_vec s v = Some (o, kx) -> p_vec s o = Some (v, ky)) -> rotate_all system any t vars s = (s', true) ->
  (forall v o, In v vars -> p_vec s v = Some (o, kx) ->
     let new w := ((if t then "LATLON_ROTATED_" else "GRID_ROTATED_") ++ match p_std s w with Some n => n | None => w end)%string in
     p_vec s' v = Some (o, if t then VLon else VX) /\ p_vec s' o = Some (v, if t then VLat else VY) /\ p_std s' v = Some (new v) /\ p_std s' o = Some (new o) /\
     exists id, system v = Some id /\ system o = Some id /\ p_x s' v = Some (o, id) /\ p_y s' o = Some (v, id)) /\
  (forall w, (In w vars -> forall o, p_vec s w <> Some (o, kx)) -> (forall v, In v vars -> p_vec s v <> Some (w, kx)) ->
     p_vec s' w = p_vec s w /\ p_std s' w = p_std s w /\ p_x s' w = p_x s w /\ p_y s' w = p_y s w).
Proof.
  cbv zeta. set (kx := if t then VX else VLon). set (ky := if t then VY else VLat). intros N SY E. unfold rotate_all in E. cbv zeta in E. fold kx in E.
  set (found := flat_map _ vars) in E.
  assert (IN : forall v o, In (v, o) found <-> In v vars /\ p_vec s v = Some (o, kx)).
  { intros v o. unfold found. rewrite in_flat_map. split.
    - intros (w & I & Q). destruct (p_vec s w) as [[o1 d]|] eqn:V; [ | destruct Q ]. destruct (vdir_eqb d kx) eqn:D; [ | destruct Q ]. destruct Q as [Q|[]]. injection Q as <- <-. split; [ exact I | ]. rewrite V. destruct d, kx; try discriminate D; reflexivity.
    - intros (I & V). exists v. split; [ exact I | ]. rewrite V. assert (D : vdir_eqb kx kx = true) by (destruct kx; reflexivity). rewrite D. now left. }
  assert (KK : kx <> ky) by (unfold kx, ky; destruct t; discriminate).
  assert (N1 : NoDup (map fst found)).
  { unfold found. clear - N. induction vars as [ | v l IH ]; [ constructor | ]. inversion N as [ | ? ? NI N' ]. subst. cbn [flat_map]. rewrite map_app.
    assert (SUB : forall w, In w (map fst (flat_map (fun v0 => match p_vec s v0 with Some (o, d) => if vdir_eqb d kx then [(v0, o)] else [] | None => [] end) l)) -> In w l).
    { intros w Q. apply in_map_iff in Q. destruct Q as ([a b] & <- & Q). apply in_flat_map in Q. destruct Q as (z & Z & Q). destruct (p_vec s z) as [[o d]|]; [ | destruct Q ]. destruct (vdir_eqb d kx); [ | destruct Q ]. destruct Q as [Q|[]]. injection Q as <- <-. exact Z. }
    destruct (p_vec s v) as [[o d]|]; [ | exact (IH N') ]. destruct (vdir_eqb d kx); [ | exact (IH N') ]. cbn [map fst app]. constructor; [ intro Q; apply NI, SUB, Q | exact (IH N') ]. }
  assert (N2 : NoDup (map fst found ++ map snd found)).
  { assert (G : forall l, (forall p, In p l -> In p found) -> NoDup (map fst l) -> NoDup (map snd l)).
    { induction l as [ | [v o] l IH ]; intros H ND; [ constructor | ]. cbn [map fst snd] in *. inversion ND as [ | ? ? NI ND' ]. subst. constructor; [ | apply IH; [ intros; apply H; now right | exact ND' ] ].
      intro Q. apply in_map_iff in Q. destruct Q as ([v2 o2] & Q1 & Q2). cbn [snd] in Q1. subst o2. destruct (proj1 (IN v o) (H _ (or_introl eq_refl))) as (A1 & A2). destruct (proj1 (IN v2 o) (H _ (or_intror Q2))) as (B1 & B2).
      apply SY in A2; [ | exact A1 ]. apply SY in B2; [ | exact B1 ]. assert (v2 = v) by congruence. subst v2. apply NI. apply in_map_iff. exists (v, o). now split. }
    assert (D : forall w, In w (map fst found) -> ~ In w (map snd found)).
    { intros w A B. apply in_map_iff in A, B. destruct A as ([a1 a2] & A1 & A2), B as ([b1 b2] & B1 & B2). cbn [fst snd] in A1, B1. subst a1 b2. apply IN in A2, B2. destruct A2 as (_ & A2), B2 as (B2 & B3). apply SY in B3; [ | exact B2 ]. congruence. }
    assert (N3 := G found (fun p H => H) N1). revert D N1 N3. generalize (map fst found) (map snd found). clear. intros a b D A B. induction a as [ | x a IH ]; [ exact B | ]. inversion A as [ | ? ? NI A' ]. subst. cbn [app]. constructor; [ | apply IH; [ intros; apply D; now right | exact A' ] ].
    intro Q. apply in_app_or in Q. destruct Q as [Q|Q]; [ exact (NI Q) | exact (D x (or_introl eq_refl) Q) ]. }
  destruct (C126_vectors _ _ _ _ _ _ _ E N2) as (H1 & H2 & _).
  assert (P : exists n1 n2, n1 = map (fun p : string * string => ((if t then "LATLON_ROTATED_" else "GRID_ROTATED_") ++ match p_std s (fst p) with Some n => n | None => fst p end)%string) found /\ n2 = map (fun p : string * string => ((if t then "LATLON_ROTATED_" else "GRID_ROTATED_") ++ match p_std s (snd p) with Some n => n | None => snd p end)%string) found /\ rotate_pairs system t (map fst found) (map snd found) n1 n2 s = (s', true)).
  { eexists. eexists. split; [ reflexivity | split; [ reflexivity | ] ]. unfold rotate_vectors in E. rewrite !map_length, Nat.eqb_refl in E. cbn [negb] in E. destruct (length found =? 0) eqn:Z; [ apply Nat.eqb_eq in Z; destruct found; [ injection E as <-; reflexivity | discriminate Z ] | ]. destruct (negb any); [ discriminate | exact E ]. }
  destruct P as (n1 & n2 & -> & -> & P). destruct (pairs_ok t _ _ _ _ _ _ P ltac:(now rewrite !map_length) N2) as (H3 & _).
  split.
  - intros v o I V. assert (F := proj2 (IN v o) (conj I V)). apply In_nth_error in F. destruct F as (i & F).
    assert (X : nth_error (map fst found) i = Some v) by now rewrite nth_error_map, F. assert (Y : nth_error (map snd found) i = Some o) by now rewrite nth_error_map, F.
    destruct (H3 i v o X Y) as (id & S1 & S2 & P1 & P2 & P3 & P4 & P5 & P6 & _). unfold given in P5, P6. rewrite nth_error_map, F in P5, P6. cbn [option_map fst snd] in P5, P6.
    repeat (split; [ assumption | ]). exists id. auto.
  - intros w A B. apply H2. intro Q. apply in_app_or in Q. destruct Q as [Q|Q]; apply in_map_iff in Q; destruct Q as ([a b] & Q1 & Q2); cbn [fst snd] in Q1; subst; apply IN in Q2; destruct Q2 as (Q2 & Q3); [ exact (A Q2 _ Q3) | exact (B _ Q2 Q3) ].
Qed.
(** all vectors: rotating twice to longitude and latitude is rotating once *)
Theorem C126_all_twice vars s s' : rotate_all system any true vars s = (s', true) -> rotate_all system any true vars s' = (s', true).
Proof.
  intro E. unfold rotate_all in E.
  set (found := flat_map _ vars) in E. cbv zeta in E. match type of E with rotate_vectors _ _ _ _ _ ?n1 ?n2 _ = _ => set (nn1 := n1) in E; set (nn2 := n2) in E end.
  assert (K : forall xs ys nxs nys s0 s1, rotate_pairs system true xs ys nxs nys s0 = (s1, true) -> length xs = length ys ->
    forall v, (In v xs -> forall o, p_vec s1 v <> Some (o, VX)) /\ ((forall o, p_vec s0 v <> Some (o, VX)) -> forall o, p_vec s1 v <> Some (o, VX))).
  { clear. induction xs as [ | x xs IH ]; intros [ | y ys ] nxs nys s0 s1 E L v; cbn [length] in L; try discriminate L; [ cbn in E; injection E as <-; split; [ intros [] | auto ] | ].
    cbn [rotate_pairs] in E. unfold rotate_pair in E. destruct (system x) as [a|]; [ | discriminate ]. destruct (system y) as [b|]; [ | discriminate ]. destruct (String.eqb a b); [ | discriminate ].
    destruct (IH _ _ _ _ _ E ltac:(congruence) v) as (H1 & H2). cbn [p_vec] in H2. split.
    - intros [<-|I]; [ | auto ]. apply H2. intro o. unfold put. rewrite String.eqb_refl. destruct (String.eqb x y); discriminate.
    - intro H. apply H2. intro o. unfold put. destruct (String.eqb v y); [ discriminate | ]. destruct (String.eqb v x); [ discriminate | apply H ]. }
  assert (P : rotate_pairs system true (map fst found) (map snd found) nn1 nn2 s = (s', true)).
  { unfold rotate_vectors in E. rewrite !map_length, Nat.eqb_refl in E. cbn [negb] in E. destruct (length found =? 0) eqn:Z; [ apply Nat.eqb_eq in Z; destruct found; [ injection E as <-; reflexivity | discriminate Z ] | ]. destruct (negb any); [ discriminate | exact E ]. }
  assert (Z : flat_map (fun v => match p_vec s' v with Some (o, d) => if vdir_eqb d VX then [(v, o)] else [] | None => [] end) vars = []).
  { assert (G : forall v, In v vars -> forall o, p_vec s' v <> Some (o, VX)).
    { intros v I o. destruct (K _ _ _ _ _ _ P ltac:(now rewrite !map_length) v) as (K1 & K2).
      destruct (p_vec s v) as [[o1 d]|] eqn:V; [ destruct d | ]; try (apply K2; intro; congruence).
      apply K1. apply in_map_iff. exists (v, o1). split; [ reflexivity | ]. unfold found. apply in_flat_map. exists v. split; [ exact I | ]. rewrite V. now left. }
    induction vars as [ | v l IH ]; [ reflexivity | ]. clear - G. assert (H : forall l, (forall v, In v l -> forall o, p_vec s' v <> Some (o, VX)) -> flat_map (fun v => match p_vec s' v with Some (o, d) => if vdir_eqb d VX then [(v, o)] else [] | None => [] end) l = []).
    { induction l0 as [ | w l0 IH ]; intro H; [ reflexivity | ]. cbn [flat_map]. rewrite IH by (intros; apply H; now right). rewrite app_nil_r. assert (W := H w (or_introl eq_refl)). destruct (p_vec s' w) as [[o d]|]; [ | reflexivity ]. destruct d; try reflexivity. now specialize (W o). }
    apply H. exact G. }
  unfold rotate_all. cbv zeta. rewrite Z. reflexivity.
Qed.
End Pairs.

(** ** Cases *)
Definition uv_std : fmap string := fun v => if String.eqb v "u" then Some "x_wind" else if String.eqb v "v" then Some "y_wind" else None.
Definition uv_vec : fmap (string * vdir) := fun v => if String.eqb v "u" then Some ("v", VX) else if String.eqb v "v" then Some ("u", VY) else None.
Definition uv_system : fmap string := fun v => if String.eqb v "u" || String.eqb v "v" || String.eqb v "dd" then Some "x,y" else if String.eqb v "w" then Some "xw,y" else None.
(** a quarter turn *)
Definition quarter (_ : string) (_ : bool) (xs ys : record) : record * record := (map (option_map Ropp) ys, xs).
Example C126_nonvacuous :
  (exists s', rotate_all uv_system true true ["t"; "u"; "v"; "dd"] (start uv_std uv_vec) = (s', true) /\ p_vec s' "u" = Some ("v", VLon) /\ p_std s' "v" = Some "LATLON_ROTATED_y_wind" /\
     get_slice (fun v _ => if String.eqb v "u" then [Some 1%R; None] else [Some 2%R; None]) quarter (fun _ _ r => r) (fun _ => (1, 0)%R) (fun _ x => x) s' "u" 0 = Ok [Some (-(2))%R; None]) /\
  (exists s', rotate_directions uv_system true true ["dd"] (start uv_std uv_vec) = (s', true)) /\
  snd (rotate_vectors uv_system true true ["u"] ["w"] [] [] (start uv_std uv_vec)) = false /\ NoDup (["u"] ++ ["v"]).
Proof.
  split; [ eexists; repeat split; reflexivity | ]. split; [ eexists; reflexivity | ]. split; [ reflexivity | ]. repeat constructor; cbn; intuition discriminate.
Qed.
(** a second request of the other direction, and a component that is also rotated as a direction *)
Example C126_later_nonvacuous :
  (let s := asked uv_system true [All true ["u"; "v"]] (start uv_std uv_vec) in
   snd (rotate_vectors uv_system true false ["u"] ["v"] [] [] s) = true /\ p_dir s "u" = None /\ p_dir s "v" = None /\ p_x s "v" = None /\ p_mat s "x,y" = Some true) /\
  (let s := asked uv_system true [All true ["u"; "v"]; Directions true ["u"]] (start uv_std uv_vec) in
   p_dir s "u" = Some "x,y" /\ p_mat s "x,y" = Some true /\ p_x s "u" = Some ("v", "x,y")) /\
  NoDup ["t"; "u"; "v"; "dd"] /\ (forall v o, uv_vec v = Some (o, VX) -> uv_vec o = Some (v, VY)).
Proof.
  split; [ repeat split | split; [ repeat split | split; [ repeat constructor; cbn; intuition discriminate | ] ] ].
  intros v o. unfold uv_vec. destruct (String.eqb_spec v "u") as [->|]; [ intro Q; now injection Q as <- | ]. destruct (String.eqb v "v"); discriminate.
Qed.
(** Finding: vectors rotated to longitude and latitude and then back to the grid are described as vectors of the grid, but
    hold the components along longitude and latitude: the first rotation is made, the second is not *)
Theorem C126_back_refuted rdr turn td packing cast pos : length (rdr "u" pos) = length (rdr "v" pos) ->
  let s := asked uv_system true [All true ["u"; "v"]; All false ["u"; "v"]] (start uv_std uv_vec) in
  p_vec s "u" = Some ("v", VX) /\ p_vec s "v" = Some ("u", VY) /\ p_std s "u" = Some "GRID_ROTATED_LATLON_ROTATED_x_wind" /\
  get_slice rdr turn td packing cast s "u" pos = Ok (map (cast "u") (fst (turn "x,y" true (rdr "u" pos) (rdr "v" pos)))).
Proof. intro L. cbv zeta. split; [ reflexivity | split; [ reflexivity | split; [ reflexivity | ] ] ]. unfold get_slice. cbn. unfold turned. rewrite L, Nat.eqb_refl. reflexivity. Qed.
(** Finding: a vector whose x component has an offset of 10: (11, 0) becomes (10, 1) by a quarter turn instead of (0, 11) *)
Theorem C126_offset_refuted : let packing := fun v => if String.eqb v "u" then (1, 10)%R else (1, 0)%R in
  let rdr := fun v (_ : nat) => if String.eqb v "u" then [Some 1%R] else [Some 0%R] in
  let s := asked uv_system true [All true ["u"; "v"]] (start uv_std uv_vec) in
  exists x y, get_slice rdr quarter (fun _ _ r => r) packing (fun _ z => z) s "u" 0 = Ok x /\ get_slice rdr quarter (fun _ _ r => r) packing (fun _ z => z) s "v" 0 = Ok y /\
    map (scaled (packing "u")) x = [Some 10%R] /\ map (scaled (packing "v")) y = [Some 1%R] /\
    quarter "" true (map (scaled (packing "u")) (rdr "u" 0)) (map (scaled (packing "v")) (rdr "v" 0)) = ([Some 0%R], [Some 11%R]).
Proof.
  cbv zeta. eexists. eexists. split; [ reflexivity | split; [ reflexivity | ] ]. cbn. unfold quarter. cbn. repeat split; repeat f_equal; ring.
Qed.
(** Finding: two variables on different systems are refused, but their standard names and marks as a vector have been changed *)
Theorem C126_exception_refuted : let r := rotate_vectors uv_system true true ["u"] ["w"] ["a"] ["b"] (start uv_std uv_vec) in
  snd r = false /\ p_std (fst r) "u" = Some "a" /\ p_vec (fst r) "u" = Some ("w", VLon) /\ p_x (fst r) "u" = None.
Proof. repeat split. Qed.

Print Assumptions C126_accepted.
Print Assumptions C126_vectors.
Print Assumptions C126_data.
Print Assumptions C126_data_later.
Print Assumptions C126_component_and_direction.
Print Assumptions C126_directions.
Print Assumptions C126_no_null.
Print Assumptions C126_first_direction_refuted.
Print Assumptions C126_packing_refuted.
Print Assumptions C126_all.
Print Assumptions C126_all_twice.
Print Assumptions C126_back_refuted.
Print Assumptions C126_offset_refuted.
Print Assumptions C126_exception_refuted.
