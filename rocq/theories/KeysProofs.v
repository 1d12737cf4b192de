(** Lemmas for KeysModel: lexicographic combination of strict weak orders *)
From Coq Require Import NArith ZArith QArith Qround Qabs String List Bool Lia Lqa.
From Verif Require Import Base StdMap Rounding SearchModel SearchProofs KeysModel.
Import ListNotations.

Definition lex {A} (l1 l2 : A -> A -> bool) (a b : A) : bool :=
  if l1 a b then true else if l1 b a then false else l2 a b.

(** asymmetric and negatively transitive *)
Definition swo {A} (lt : A -> A -> bool) : Prop :=
  (forall a b, lt a b = true -> lt b a = false) /\
  (forall a b c, lt a b = false -> lt b c = false -> lt a c = false).

Lemma swo_lex {A} (l1 l2 : A -> A -> bool) : swo l1 -> swo l2 -> swo (lex l1 l2).
Proof.
  intros [ A1 N1 ] [ A2 N2 ]. split.
  - intros a b. unfold lex. destruct (l1 a b) eqn:E1.
    + rewrite (A1 _ _ E1). reflexivity.
    + destruct (l1 b a) eqn:E2; [ discriminate | ]. apply A2.
  - intros a b c. unfold lex.
    destruct (l1 a b) eqn:E1; [ discriminate | ]. destruct (l1 b c) eqn:E2; [ intros _; discriminate | ].
    rewrite (N1 _ _ _ E1 E2).
    destruct (l1 c a) eqn:E3; [ reflexivity | ].
    destruct (l1 b a) eqn:E4.
    { rewrite (N1 b c a E2 E3) in E4. discriminate. }
    destruct (l1 c b) eqn:E5.
    { rewrite (N1 c a b E3 E1) in E5. discriminate. }
    apply N2.
Qed.

Lemma swo_q {A} (f : A -> Q) : swo (fun a b => qltb (f a) (f b)).
Proof.
  split.
  - intros a b H. apply qltb_spec in H. apply qltb_false. lra.
  - intros a b c H1 H2. apply qltb_false in H1, H2. apply qltb_false. lra.
Qed.
Lemma swo_n {A} (f : A -> N) : swo (fun a b => (f a <? f b)%N).
Proof.
  split.
  - intros a b H. apply N.ltb_lt in H. apply N.ltb_ge. lia.
  - intros a b c H1 H2. apply N.ltb_ge in H1, H2. apply N.ltb_ge. lia.
Qed.
Lemma swo_s {A} (f : A -> string) : swo (fun a b => str_lt (f a) (f b)).
Proof.
  assert (T : forall a b, str_lt a b = true <-> slt a b).
  { intros. unfold str_lt, slt. destruct (String.compare a b); intuition congruence. }
  split.
  - intros a b H. apply T in H. apply not_true_is_false. intro H'. apply T in H'.
    exact (slt_irrefl _ (slt_trans _ _ _ H H')).
  - intros a b c H1 H2. apply not_true_is_false. intro H3. apply T in H3.
    apply not_true_iff_false in H1, H2. rewrite T in H1, H2.
    destruct (String.compare (f b) (f c)) eqn:E.
    + apply compare_eq in E. rewrite E in *. contradiction.
    + now apply H2.
    + rewrite String.compare_antisym in E. destruct (String.compare (f c) (f b)) eqn:E2; try discriminate.
      apply H1. exact (slt_trans _ _ _ H3 E2).
Qed.
