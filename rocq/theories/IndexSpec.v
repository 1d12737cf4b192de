(** Specification vocabulary for multi-dimensional arrays, first dimension fastest.
    Nothing here is taken from the code: it is the meaning of "cell at position (j0,j1,...)". *)
From Coq Require Import List Arith Lia Bool Permutation.
From Verif Require Import Base.
Import ListNotations.

(** Number of cells of a shape. *)
Fixpoint cells (dims : list nat) : nat :=
  match dims with
  | [] => 1
  | d :: ds => d * cells ds
  end.

(** Linear index of a position: j0 + d0*(j1 + d1*(j2 + ...)). *)
Fixpoint lin (dims idx : list nat) : nat :=
  match dims, idx with
  | d :: ds, i :: is => i + d * lin ds is
  | _, _ => 0
  end.

(** The position lies inside the shape. *)
Definition inside (dims idx : list nat) : Prop := Forall2 (fun d i => i < d) dims idx.

(** Position inside the box [start, start+size) of a larger shape. *)
Fixpoint shift (start idx : list nat) : list nat :=
  match start, idx with
  | s :: ss, i :: is => (s + i) :: shift ss is
  | _, _ => []
  end.

(** All positions of a shape in storage order. *)
Fixpoint positions (dims : list nat) : list (list nat) :=
  match dims with
  | [] => [[]]
  | d :: ds => flat_map (fun is => map (fun i => i :: is) (seq 0 d)) (positions ds)
  end.

(** Position with a given linear index. *)
Fixpoint unlin (dims : list nat) (k : nat) : list nat :=
  match dims with
  | [] => []
  | d :: ds => (k mod d) :: unlin ds (k / d)
  end.

Lemma lin_lt dims idx : inside dims idx -> lin dims idx < cells dims.
Proof.
  induction 1 as [|d i ds is Hlt Hin IH]; cbn; [lia|nia].
Qed.

Lemma lin_inj dims i1 i2 :
  inside dims i1 -> inside dims i2 -> lin dims i1 = lin dims i2 -> i1 = i2.
Proof.
  intros H1; revert i2; induction H1 as [|d i ds is Hlt Hin IH]; intros i2 H2 E.
  - inversion H2; reflexivity.
  - inversion H2 as [|d' i' ds' is' Hlt' Hin']; subst. cbn in E.
    assert (i = i' /\ lin ds is = lin ds is') as [-> E'].
    { pose proof (Nat.mod_unique (i + d * lin ds is) d (lin ds is) i Hlt ltac:(lia)).
      pose proof (Nat.mod_unique (i' + d * lin ds is') d (lin ds is') i' Hlt' ltac:(lia)).
      assert (i = i') by congruence. subst. split; auto. nia. }
    f_equal. apply IH; auto.
Qed.

Lemma unlin_inside dims k : k < cells dims -> inside dims (unlin dims k).
Proof.
  revert k; induction dims as [|d ds IH]; cbn; intros k H; constructor.
  - apply Nat.mod_upper_bound. nia.
  - apply IH. apply Nat.div_lt_upper_bound; nia.
Qed.

Lemma lin_unlin dims k : k < cells dims -> lin dims (unlin dims k) = k.
Proof.
  revert k; induction dims as [|d ds IH]; cbn; intros k H; [lia|].
  rewrite IH by (apply Nat.div_lt_upper_bound; nia).
  pose proof (Nat.div_mod k d ltac:(nia)). lia.
Qed.

Lemma unlin_lin dims idx : inside dims idx -> unlin dims (lin dims idx) = idx.
Proof.
  intro H. apply (lin_inj dims); auto.
  - apply unlin_inside, lin_lt; auto.
  - apply lin_unlin, lin_lt; auto.
Qed.

Lemma positions_inside dims idx : In idx (positions dims) <-> inside dims idx.
Proof.
  revert idx; induction dims as [|d ds IH]; intros idx; cbn.
  - split.
    + intros [<-|[]]. constructor.
    + intro H; inversion H; auto.
  - rewrite in_flat_map. split.
    + intros (is & His & Hin). apply in_map_iff in Hin as (i & <- & Hi).
      apply in_seq in Hi. constructor; [lia|]. apply IH; auto.
    + intro H; inversion H as [|? i ? is Hlt Hin]; subst.
      exists is. split; [apply IH; auto|].
      apply in_map_iff. exists i. split; auto. apply in_seq; lia.
Qed.

Lemma positions_length dims : length (positions dims) = cells dims.
Proof.
  induction dims as [|d ds IH]; cbn; auto.
  rewrite <- IH. generalize (positions ds); intro L.
  induction L as [|x L IHL]; cbn; [lia|].
  rewrite app_length, map_length, seq_length, IHL. nia.
Qed.

Lemma flat_map_seq_block {A} (f : A -> list nat) d L s :
  (forall k x, nth_error L k = Some x -> f x = seq (s + d * k) d) ->
  flat_map f L = seq s (length L * d).
Proof.
  revert s; induction L as [|x L IH]; intros s H; cbn; auto.
  rewrite (H 0 x eq_refl), seq_app, Nat.mul_0_r, Nat.add_0_r. f_equal.
  apply IH. intros k y Hk. rewrite (H (S k) y Hk). f_equal. lia.
Qed.

Lemma positions_lin dims : map (lin dims) (positions dims) = seq 0 (cells dims).
Proof.
  induction dims as [|d ds IH]; cbn; auto.
  rewrite flat_map_concat_map, concat_map, map_map, <- flat_map_concat_map.
  rewrite (flat_map_seq_block _ d _ 0).
  - rewrite positions_length. f_equal. lia.
  - intros k x Hk. rewrite map_map.
    assert (lin ds x = k) as E.
    { assert (nth_error (map (lin ds) (positions ds)) k = Some (lin ds x)) as H
        by (rewrite nth_error_map, Hk; reflexivity).
      rewrite IH, nth_error_seq in H. destruct (k <? cells ds); [|discriminate]. injection H as H; cbn in H; congruence. }
    cbn. rewrite E.
    apply nth_error_ext; intro i.
    rewrite nth_error_map, !nth_error_seq. destruct (i <? d); cbn; auto.
    f_equal; lia.
Qed.

Lemma positions_nth dims k :
  nth_error (positions dims) k = if k <? cells dims then Some (unlin dims k) else None.
Proof.
  destruct (Nat.ltb_spec k (cells dims)) as [H|H].
  - destruct (nth_error (positions dims) k) as [x|] eqn:E.
    + f_equal. assert (inside dims x) as Hx by (apply positions_inside; eapply nth_error_In; eauto).
      assert (nth_error (map (lin dims) (positions dims)) k = Some (lin dims x)) as H2
          by (rewrite nth_error_map, E; reflexivity).
      rewrite positions_lin, nth_error_seq in H2.
      destruct (k <? cells dims); [|discriminate]. injection H2 as H2; cbn in H2.
      apply (lin_inj dims); auto using unlin_inside. rewrite lin_unlin; auto.
    + apply nth_error_None in E. rewrite positions_length in E. lia.
  - apply nth_error_None. rewrite positions_length; auto.
Qed.

Lemma positions_NoDup dims : NoDup (positions dims).
Proof.
  apply NoDup_map_inv with (f := lin dims). rewrite positions_lin. apply seq_NoDup.
Qed.

Lemma inside_length dims idx : inside dims idx -> length dims = length idx.
Proof. apply Forall2_length. Qed.

Lemma cells_app a b : cells (a ++ b) = cells a * cells b.
Proof. induction a; cbn; [lia|]. rewrite IHa. lia. Qed.

Lemma lin_app d1 d2 i1 i2 :
  length d1 = length i1 -> lin (d1 ++ d2) (i1 ++ i2) = lin d1 i1 + cells d1 * lin d2 i2.
Proof.
  revert i1; induction d1 as [|d d1 IH]; intros [|i i1] H; try discriminate; cbn; [lia|].
  rewrite IH by (cbn in H; lia). lia.
Qed.

Lemma inside_app d1 d2 i1 i2 :
  length d1 = length i1 -> (inside (d1 ++ d2) (i1 ++ i2) <-> inside d1 i1 /\ inside d2 i2).
Proof.
  intro H. split.
  - intro F. apply Forall2_app_inv_l in F as (x & y & H1 & H2 & E).
    apply Forall2_length in H1 as L1.
    assert (i1 = x /\ i2 = y) as [-> ->]; auto.
    { clear - E H L1. assert (length i1 = length x) as L by congruence. clear H L1.
      revert x L E; induction i1; intros [|b x] L E; cbn in *; try discriminate; auto.
      injection E as -> E. destruct (IHi1 x ltac:(lia) E). subst; auto. }
  - intros [A B]. apply Forall2_app; auto.
Qed.

(** The box [start, start+size) fits into the shape. *)
Definition fits (dims start size : list nat) : Prop :=
  length dims = length start /\ length dims = length size /\
  forall k d s z, nth_error dims k = Some d -> nth_error start k = Some s ->
                  nth_error size k = Some z -> s + z <= d.

Lemma fits_cons d ds s ss z zs :
  fits (d :: ds) (s :: ss) (z :: zs) <-> s + z <= d /\ fits ds ss zs.
Proof.
  unfold fits. split.
  - intros (L1 & L2 & H). cbn in *. repeat split; try lia.
    + apply (H 0); reflexivity.
    + intros k d' s' z' H1 H2 H3. apply (H (S k)); auto.
  - intros (H0 & L1 & L2 & H). cbn. repeat split; try lia.
    intros [|k] d' s' z'; cbn; intros H1 H2 H3.
    + congruence.
    + eapply H; eauto.
Qed.

Lemma shift_inside dims start size idx :
  fits dims start size -> inside size idx -> inside dims (shift start idx).
Proof.
  revert start size idx; induction dims as [|d ds IH]; intros [|s ss] [|z zs] idx F I;
    try (destruct F as (L1 & L2 & _); cbn in *; lia).
  - inversion I. constructor.
  - apply fits_cons in F as [H F]. inversion I as [|? i ? is Hi His]; subst. cbn.
    constructor; [lia|]. eapply IH; eauto.
Qed.
