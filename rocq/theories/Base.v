(** Shared vocabulary: outcomes of C++ code, 64-bit unsigned arithmetic, small list lemmas. *)
From Coq Require Import ZArith NArith List Lia Bool Arith.
From Coq Require Import ZifyBool ZifyNat ZifyN.
Import ListNotations.

#[global] Arguments Nat.ltb : simpl never.

(** Outcome of running a piece of C++ code.
    [Ok a]    normal return;
    [Throw]   an exception leaves the function;
    [UB]      undefined behaviour: a read or write outside an allocated block, an iterator
              dereferenced past the end, an index past the end of a vector;
    [Hang]    the fuel given to the model of a loop ran out (used only to model loops
              that need not terminate). *)
Inductive outcome (A : Type) : Type :=
| Ok (a : A)
| Throw
| UB
| Hang.
Arguments Ok {A} a.
Arguments Throw {A}.
Arguments UB {A}.
Arguments Hang {A}.

Definition obind {A B} (o : outcome A) (f : A -> outcome B) : outcome B :=
  match o with
  | Ok a => f a
  | Throw => Throw
  | UB => UB
  | Hang => Hang
  end.

Notation "'do' x <- o ; f" := (obind o (fun x => f))
  (at level 200, x pattern, o at level 100, f at level 200, right associativity).

Definition omap {A B} (f : A -> B) (o : outcome A) : outcome B := obind o (fun a => Ok (f a)).

(** Run [f] over a list of inputs in order, stop at the first abnormal outcome. *)
Fixpoint ofold {A S} (f : S -> A -> outcome S) (l : list A) (s : S) : outcome S :=
  match l with
  | [] => Ok s
  | a :: l' => do s' <- f s a; ofold f l' s'
  end.

(** [for (i = 0; i < n; ++i) s = f(s)] *)
Fixpoint oiter {S} (n : nat) (f : S -> outcome S) (s : S) : outcome S :=
  match n with
  | O => Ok s
  | Datatypes.S n' => do s' <- f s; oiter n' f s'
  end.

Fixpoint omapM {A B} (f : A -> outcome B) (l : list A) : outcome (list B) :=
  match l with
  | [] => Ok []
  | a :: l' => do b <- f a; do bs <- omapM f l'; Ok (b :: bs)
  end.

(** [of_option]: reading a cell that does not exist is undefined behaviour. *)
Definition rd {A} (o : option A) : outcome A :=
  match o with Some a => Ok a | None => UB end.

(** ** 64-bit unsigned arithmetic ([size_t]) *)
Definition M64 : N := (2 ^ 64)%N.
Definition w64 (x : N) : N := (x mod M64)%N.
Definition add64 (a b : N) : N := w64 (a + b).
Definition sub64 (a b : N) : N := w64 (a + (M64 - w64 b)).
Definition mul64 (a b : N) : N := w64 (a * b).

Lemma M64_pos : (0 < M64)%N.
Proof. reflexivity. Qed.

Lemma w64_small x : (x < M64)%N -> w64 x = x.
Proof. intro H. unfold w64. apply N.mod_small; exact H. Qed.

Lemma w64_lt x : (w64 x < M64)%N.
Proof. unfold w64. apply N.mod_lt. discriminate. Qed.

Lemma add64_small a b : (a + b < M64)%N -> add64 a b = (a + b)%N.
Proof. apply w64_small. Qed.

Lemma mul64_small a b : (a * b < M64)%N -> mul64 a b = (a * b)%N.
Proof. apply w64_small. Qed.

Lemma sub64_small a b : (b <= a)%N -> (a < M64)%N -> sub64 a b = (a - b)%N.
Proof.
  intros H1 H2. unfold sub64. rewrite (w64_small b) by lia.
  unfold w64.
  replace (a + (M64 - b))%N with ((a - b) + 1 * M64)%N by lia.
  rewrite N.mod_add by discriminate. apply N.mod_small. lia.
Qed.

Lemma sub64_neg a b : (a < b)%N -> (b < M64)%N -> sub64 a b = (M64 - (b - a))%N.
Proof.
  intros H1 H2. unfold sub64. rewrite (w64_small b) by lia.
  rewrite w64_small by lia. lia.
Qed.

Lemma N2Z_M64 : (Z.of_N M64 = 2^64)%Z.
Proof. reflexivity. Qed.

(** ** Lists *)

Lemma nth_error_ext {A} (l1 l2 : list A) :
  (forall i, nth_error l1 i = nth_error l2 i) -> l1 = l2.
Proof.
  revert l2; induction l1 as [|a l1 IH]; intros [|b l2] H; auto.
  - specialize (H 0%nat); discriminate.
  - specialize (H 0%nat); discriminate.
  - f_equal.
    + specialize (H 0%nat); cbn in H; congruence.
    + apply IH. intro i. exact (H (S i)).
Qed.

Lemma nth_error_seq n s i :
  nth_error (seq s n) i = if i <? n then Some (s + i) else None.
Proof.
  revert s i; induction n as [|n IH]; intros s [|i]; auto.
  - unfold Nat.ltb; cbn. f_equal; lia.
  - cbn [seq nth_error]. rewrite IH. change (S i <? S n) with (i <? n).
    destruct (i <? n); auto. f_equal; lia.
Qed.

Lemma nth_error_skipn {A} (l : list A) n i :
  nth_error (skipn n l) i = nth_error l (n + i).
Proof.
  revert l; induction n as [|n IH]; intros [|a l]; cbn; auto.
  destruct i; reflexivity.
Qed.

Lemma nth_error_firstn {A} (l : list A) n i :
  nth_error (firstn n l) i = if i <? n then nth_error l i else None.
Proof.
  revert l i; induction n as [|n IH]; intros l i.
  - cbn. destruct i; reflexivity.
  - destruct l as [|a l]; cbn [firstn].
    + replace (nth_error (@nil A) i) with (@None A) by (destruct i; reflexivity).
      destruct (_ <? _); reflexivity.
    + destruct i; cbn [nth_error]; auto.
      change (S i <? S n) with (i <? n). apply IH.
Qed.

Lemma nth_error_repeat {A} (x : A) n i :
  nth_error (repeat x n) i = if i <? n then Some x else None.
Proof.
  revert i; induction n as [|n IH]; intros [|i]; cbn; auto.
  change (S i <? S n) with (i <? n). apply IH.
Qed.

Lemma nth_error_None_ge {A} (l : list A) i : length l <= i -> nth_error l i = None.
Proof. apply nth_error_None. Qed.

Lemma Forall2_length {A B} (R : A -> B -> Prop) l1 l2 :
  Forall2 R l1 l2 -> length l1 = length l2.
Proof. induction 1; cbn; auto. Qed.

(** Replace cell [i]; used for single-cell writes. *)
Fixpoint upd {A} (l : list A) (i : nat) (x : A) : list A :=
  match l, i with
  | [], _ => []
  | _ :: l', O => x :: l'
  | a :: l', S i' => a :: upd l' i' x
  end.

Lemma length_upd {A} (l : list A) i x : length (upd l i x) = length l.
Proof. revert i; induction l; intros [|i]; cbn; auto. Qed.

Lemma nth_error_upd {A} (l : list A) i x j :
  nth_error (upd l i x) j =
  if (i =? j) && (j <? length l) then Some x else nth_error l j.
Proof.
  revert i j; induction l as [|a l IH]; intros [|i] [|j]; cbn; auto.
  - rewrite andb_false_r. reflexivity.
  - rewrite IH. reflexivity.
Qed.

Lemma nth_error_upd_same {A} (l : list A) i x :
  i < length l -> nth_error (upd l i x) i = Some x.
Proof.
  intro H. rewrite nth_error_upd, Nat.eqb_refl.
  apply Nat.ltb_lt in H; rewrite H; reflexivity.
Qed.

Lemma nth_error_upd_other {A} (l : list A) i x j :
  i <> j -> nth_error (upd l i x) j = nth_error l j.
Proof.
  intro H. rewrite nth_error_upd. apply Nat.eqb_neq in H; rewrite H; reflexivity.
Qed.

(** A write that is undefined behaviour when outside the block. *)
Definition wr {A} (l : list A) (i : nat) (x : A) : outcome (list A) :=
  if i <? length l then Ok (upd l i x) else UB.
