(** C78: shapes and slice requests of vertical converters. *)
From Coq Require Import NArith ZArith String List Bool Lia Arith Sorted.
From Coq Require Import ZifyBool ZifyNat ZifyN.
From Verif Require Import Base StdMap SliceModel SliceBuilderProofs SliceProps ShapeModel.
Import ListNotations.
Local Open Scope list_scope.
Local Open Scope nat_scope.

(** ** statements *)

(** every axis variable that is there has a dimension *)
Definition axis_ok (a : option (list string)) : Prop := match a with Some [] => False | _ => True end.
Definition axes_ok (ax : axes4) : Prop := axis_ok (ax_x ax) /\ axis_ok (ax_y ax) /\ axis_ok (ax_z ax) /\ axis_ok (ax_t ax).
(** [d] is the (first) dimension of the axis *)
Definition along (a : option (list string)) (d : string) : Prop := exists l, a = Some (d :: l).
Definition distinct (ax : axes4) : Prop := forall d,
  (along (ax_x ax) d -> ~ along (ax_y ax) d /\ ~ along (ax_z ax) d /\ ~ along (ax_t ax) d) /\
  (along (ax_y ax) d -> ~ along (ax_z ax) d /\ ~ along (ax_t ax) d) /\
  (along (ax_z ax) d -> ~ along (ax_t ax) d).
(** x before y before z before others before time *)
Definition before (ax : axes4) (a b : string) : Prop :=
  ~ along (ax_x ax) b /\
  (along (ax_y ax) b -> along (ax_x ax) a) /\
  (along (ax_z ax) b -> along (ax_x ax) a \/ along (ax_y ax) a) /\
  ~ along (ax_t ax) a.
Definition ordered (ax : axes4) (s : list string) : Prop := StronglySorted (before ax) s.

(** the elements of [s] in the same order within [t] *)
Inductive subseq : list string -> list string -> Prop :=
| sub_nil : subseq [] []
| sub_keep d s t : subseq s t -> subseq (d :: s) (d :: t)
| sub_skip d s t : subseq s t -> subseq s (d :: t).

(** dimension [d] of the shape merged in counts *)
Definition counts (dim_len : string -> option N) (skip1 : bool) (d : string) : Prop := skip1 = true -> dim_len d <> Some 1%N.

(** ** proofs *)
Lemma subseq_refl s : subseq s s.
Proof. induction s; constructor; assumption. Qed.
Lemma subseq_insert i d s : subseq s (insert_at i d s).
Proof.
  unfold insert_at. revert s. induction i as [|i IH]; intro s; [constructor; apply subseq_refl|].
  destruct s as [|x s]; cbn; [repeat constructor|]. constructor. apply IH.
Qed.
Lemma subseq_trans a b c : subseq a b -> subseq b c -> subseq a c.
Proof.
  intros H K. revert a H. induction K as [|d b c K IH|d b c K IH]; intros a H.
  - inversion H; constructor.
  - inversion H; subst; constructor; now apply IH.
  - constructor. now apply IH.
Qed.
Lemma in_insert i d s x : In x (insert_at i d s) <-> x = d \/ In x s.
Proof.
  unfold insert_at. rewrite in_app_iff. cbn. rewrite <- (firstn_skipn i s) at 3. rewrite in_app_iff. intuition auto.
Qed.
Lemma nodup_insert i d s : NoDup s -> ~ In d s -> NoDup (insert_at i d s).
Proof.
  intros N I. unfold insert_at. apply (NoDup_Add (a := d) (l := firstn i s ++ skipn i s)); [apply Add_app|].
  now rewrite firstn_skipn.
Qed.
Lemma insert_0 d s : d :: s = insert_at 0 d s.
Proof. reflexivity. Qed.
Lemma insert_end d s : s ++ [d] = insert_at (length s) d s.
Proof. unfold insert_at. now rewrite firstn_all, skipn_all. Qed.

Lemma equals_axis_ok d a : axis_ok a -> exists b, equals_axis d a = Ok b /\ (b = true <-> along a d).
Proof.
  intro O. destruct a as [[|x l]|]; cbn in *; [contradiction| |].
  - exists (String.eqb d x). split; [reflexivity|]. rewrite String.eqb_eq. split.
    + intros ->. now exists l.
    + intros (l' & E). congruence.
  - exists false. split; [reflexivity|]. split; [discriminate|]. intros (l & E). discriminate.
Qed.
Lemma index_of_spec d l : match index_of d l with
  | Some i => i < length l /\ nth_error l i = Some d /\ (forall j, j < i -> nth_error l j <> Some d)
  | None => ~ In d l
  end.
Proof.
  induction l as [|x l IH]; cbn; [tauto|]. destruct (String.eqb_spec x d) as [->|N].
  - split; [lia|]. split; [reflexivity|]. intros j J. lia.
  - destruct (index_of d l) as [i|]; cbn.
    + destruct IH as (A & B & C). split; [lia|]. split; [exact B|]. intros [|j] J; cbn; [congruence|]. apply C. lia.
    + intros [E|I]; [congruence|contradiction].
Qed.
Lemma find_axis_ok s a : axis_ok a -> exists r, find_axis s a = Ok r /\
  match r with
  | Some i => exists d, along a d /\ i < length s /\ nth_error s i = Some d
  | None => forall d, along a d -> ~ In d s
  end.
Proof.
  intro O. destruct a as [[|x l]|]; cbn in *; [contradiction| |].
  - exists (index_of x s). split; [reflexivity|]. assert (H := index_of_spec x s). destruct (index_of x s) as [i|].
    + destruct H as (A & B & _). exists x. split; [now exists l|]. now split.
    + intros d (l' & E). injection E as -> ->. exact H.
  - exists None. split; [reflexivity|]. intros d (l & E). discriminate.
Qed.

Lemma along_unique a d d' : along a d -> along a d' -> d = d'.
Proof. intros (l & E) (l' & E'). congruence. Qed.

(** inserting into an ordered list *)
Lemma sorted_insert (R : string -> string -> Prop) i d s :
  StronglySorted R s -> (forall x, In x (firstn i s) -> R x d) -> (forall x, In x (skipn i s) -> R d x) ->
  StronglySorted R (insert_at i d s).
Proof.
  unfold insert_at. revert s. induction i as [|i IH]; intros s S A B; cbn in *.
  - constructor; [exact S|]. now apply Forall_forall.
  - destruct s as [|x s]; cbn in *; [repeat constructor|].
    inversion S as [|? ? S1 S2]; subst. constructor.
    + apply IH; [exact S1| |exact B]. intros y Y. apply A. now right.
    + rewrite Forall_forall in *. intros y Y. apply in_app_or in Y. destruct Y as [Y|[<-|Y]].
      * apply S2. rewrite <- (firstn_skipn i s). apply in_or_app. now left.
      * apply A. now left.
      * apply S2. rewrite <- (firstn_skipn i s). apply in_or_app. now right.
Qed.
Lemma sorted_parts (R : string -> string -> Prop) s i m : StronglySorted R s -> nth_error s i = Some m ->
  (forall x, In x (firstn i s) -> R x m) /\ (forall x, In x (skipn (S i) s) -> R m x) /\
  (forall x, In x (firstn (i + 1) s) -> x = m \/ In x (firstn i s)) /\ (forall x, In x (skipn i s) -> x = m \/ In x (skipn (S i) s)).
Proof.
  revert i. induction s as [|y s IH]; intros i S H; [destruct i; discriminate|].
  inversion S as [|? ? S1 S2]; subst. destruct i as [|i]; cbn in H.
  - injection H as ->. rewrite Forall_forall in S2. cbn. split; [tauto|]. split; [exact S2|]. split.
    + intros x [->|[]]. now left.
    + intros x [->|X]; tauto.
  - destruct (IH i S1 H) as (A & B & C & D). split; [|split; [|split]].
    + cbn. intros x [->|X]; [|now apply A]. rewrite Forall_forall in S2. apply S2. eapply nth_error_In; eauto.
    + exact B.
    + cbn. intros x [->|X]; [tauto|]. destruct (C x X); tauto.
    + exact D.
Qed.
Lemma firstn_In (s : list string) i x : In x (firstn i s) -> In x s.
Proof. intro H. rewrite <- (firstn_skipn i s). apply in_or_app. now left. Qed.
Lemma skipn_In (s : list string) i x : In x (skipn i s) -> In x s.
Proof. intro H. rewrite <- (firstn_skipn i s). apply in_or_app. now right. Qed.
Lemma nodup_parts (s : list string) i m : NoDup s -> nth_error s i = Some m -> ~ In m (firstn i s) /\ ~ In m (skipn (S i) s).
Proof.
  revert i. induction s as [|y s IH]; intros i N H; [destruct i; discriminate|]. inversion N as [|? ? N1 N2]; subst.
  destruct i as [|i]; cbn in H.
  - injection H as ->. cbn. split; [tauto|exact N1].
  - destruct (IH i N2 H) as [A B]. split; [|exact B]. cbn. intros [->|X]; [|contradiction]. apply N1. eapply nth_error_In; eauto.
Qed.

Section Merging.
  Variable dim_len : string -> option N.
  Variable ax : axes4.
  Hypothesis AOK : axes_ok ax.

  (** one dimension: it is inserted somewhere, or the shape stays *)
  Lemma merge_dim_spec skip1 s d : (skip1 = true -> dim_len d <> None) ->
    exists s', merge_dim dim_len ax skip1 s d = Ok s' /\
      ((s' = s /\ (In d s \/ ~ counts dim_len skip1 d)) \/
       (~ In d s /\ counts dim_len skip1 d /\ exists i, s' = insert_at i d s)).
  Proof.
    intro K. destruct AOK as (OX & OY & OZ & OT). unfold merge_dim.
    assert (L : exists b, (if skip1 then match dim_len d with None => Throw | Some n => Ok (N.eqb n 1) end else Ok false) = Ok b /\
      (b = true <-> ~ counts dim_len skip1 d)).
    { unfold counts. destruct skip1.
      - destruct (dim_len d) as [n|]; [|now elim K]. exists (N.eqb n 1). split; [reflexivity|]. rewrite N.eqb_eq. split.
        + intros -> H. now elim H.
        + intro H. destruct (N.eq_dec n 1); [assumption|]. elim H. intros _. congruence.
      - exists false. split; [reflexivity|]. split; [discriminate|]. intro H. elim H. discriminate. }
    destruct L as (b & -> & B). cbn [obind]. destruct b.
    { exists s. split; [reflexivity|]. left. split; [reflexivity|]. right. now apply B. }
    assert (CT : counts dim_len skip1 d).
    { unfold counts. intros -> E. assert (X : false = true); [|discriminate]. apply B. unfold counts. intro H. now apply H. }
    destruct (existsb (String.eqb d) s) eqn:E.
    { exists s. split; [reflexivity|]. left. split; [reflexivity|]. left. apply existsb_exists in E. destruct E as (x & I & E).
      apply String.eqb_eq in E. now subst. }
    assert (NI : ~ In d s).
    { intro I. assert (X : existsb (String.eqb d) s = true) by (apply existsb_exists; exists d; split; [exact I|apply String.eqb_refl]). congruence. }
    assert (INS : forall i, exists s', Ok (insert_at i d s) = Ok s' /\
      ((s' = s /\ (In d s \/ ~ counts dim_len skip1 d)) \/ (~ In d s /\ counts dim_len skip1 d /\ exists i, s' = insert_at i d s))).
    { intro i. eexists. split; [reflexivity|]. right. split; [exact NI|]. split; [exact CT|]. now exists i. }
    destruct (equals_axis_ok d _ OX) as (bx & -> & BX). cbn [obind]. destruct bx; [apply (INS 0)|].
    destruct (equals_axis_ok d _ OY) as (by_ & -> & BY). cbn [obind]. destruct by_.
    { destruct (find_axis_ok s _ OX) as ([i|] & -> & FX); cbn [obind]; [apply INS|].
      destruct (find_axis_ok s _ OZ) as ([i|] & -> & FZ); cbn [obind]; [apply INS|apply (INS 0)]. }
    destruct (equals_axis_ok d _ OZ) as (bz & -> & BZ). cbn [obind]. destruct bz.
    { destruct (find_axis_ok s _ OY) as ([i|] & -> & FX); cbn [obind]; [apply INS|].
      destruct (find_axis_ok s _ OX) as ([i|] & -> & FZ); cbn [obind]; [apply INS|apply (INS 0)]. }
    destruct (equals_axis_ok d _ OT) as (bt & -> & BT). cbn [obind]. destruct bt; [rewrite insert_end; apply INS|].
    destruct (find_axis_ok s _ OT) as ([i|] & -> & FT); cbn [obind]; [apply INS|rewrite insert_end; apply INS].
  Qed.

  Lemma merge_dim_ordered skip1 s d s' : distinct ax -> NoDup s -> ordered ax s ->
    merge_dim dim_len ax skip1 s d = Ok s' -> ordered ax s'.
  Proof.
    intros DI ND SO H. destruct AOK as (OX & OY & OZ & OT). unfold merge_dim in H.
    destruct (if skip1 then match dim_len d with None => Throw | Some n => Ok (N.eqb n 1) end else Ok false) as [b| | |]; cbn [obind] in H; try discriminate.
    destruct b; [injection H as <-; exact SO|].
    destruct (existsb (String.eqb d) s) eqn:E; [injection H as <-; exact SO|].
    assert (NI : ~ In d s).
    { intro I. assert (X : existsb (String.eqb d) s = true) by (apply existsb_exists; exists d; split; [exact I|apply String.eqb_refl]). congruence. }
    (* an element along an axis that [d] is along is [d] *)
    assert (AL : forall a x, In x s -> along a d -> ~ along a x).
    { intros a x I A A'. rewrite (along_unique a d x A A') in NI. contradiction. }
    destruct (equals_axis_ok d _ OX) as (bx & EX & BX). rewrite EX in H. cbn [obind] in H. destruct bx.
    { (* x first *)
      assert (DX : along (ax_x ax) d) by now apply BX. injection H as <-. rewrite insert_0. apply sorted_insert; [exact SO|intros x []|].
      cbn. intros x I. destruct (DI d) as (D1 & _). destruct (D1 DX) as (_ & _ & D4). repeat split.
      - now apply AL.
      - now intros _.
      - now left.
      - exact D4. }
    assert (NX : ~ along (ax_x ax) d) by (intro A; apply BX in A; discriminate).
    destruct (equals_axis_ok d _ OY) as (by_ & EY & BY). rewrite EY in H. cbn [obind] in H. destruct by_.
    { assert (DY : along (ax_y ax) d) by now apply BY. destruct (DI d) as (_ & D2 & _). destruct (D2 DY) as (NZ & NT).
      destruct (find_axis_ok s _ OX) as ([i|] & EFX & FX); rewrite EFX in H; cbn [obind] in H.
      - (* y after x *)
        injection H as <-. destruct FX as (m & MX & LT & NE). destruct (sorted_parts _ s i m SO NE) as (P1 & P2 & P3 & P4).
        destruct (nodup_parts s i m ND NE) as (Q1 & Q2). destruct (DI m) as (M1 & _). destruct (M1 MX) as (MY & MZ & MT).
        apply sorted_insert; [exact SO| |].
        + intros x I. destruct (P3 x I) as [->|I'].
          * repeat split; try assumption; intros; [tauto|]. now left.
          * exfalso. destruct (P1 x I') as (X1 & _). contradiction.
        + intros x I. rewrite Nat.add_1_r in I. assert (IS := skipn_In s (S i) x I).
          assert (XM : x <> m) by (intros ->; contradiction). repeat split; try assumption.
          * intro A. apply XM. now apply (along_unique (ax_x ax)).
          * intro A. elim (AL (ax_y ax) x IS DY A).
          * intro A. now right.
      - destruct (find_axis_ok s _ OZ) as ([i|] & EFZ & FZ); rewrite EFZ in H; cbn [obind] in H.
        + (* y before z *)
          injection H as <-. destruct FZ as (m & MZ & LT & NE). destruct (sorted_parts _ s i m SO NE) as (P1 & P2 & P3 & P4).
          destruct (nodup_parts s i m ND NE) as (Q1 & Q2).
          apply sorted_insert; [exact SO| |].
          * intros x I. exfalso. destruct (P1 x I) as (_ & _ & X3 & _). assert (IS := firstn_In s i x I). destruct (X3 MZ) as [A|A].
            -- now elim (FX x A).
            -- elim (AL (ax_y ax) x IS DY A).
          * intros x I. assert (IS := skipn_In s i x I). repeat split; try assumption.
            -- intro A. now elim (FX x A).
            -- intro A. elim (AL (ax_y ax) x IS DY A).
            -- intro A. now right.
        + (* y first *)
          injection H as <-. rewrite insert_0. apply sorted_insert; [exact SO|intros x []|]. cbn. intros x I. repeat split; try assumption.
          * intro A. now elim (FX x A).
          * intro A. elim (AL (ax_y ax) x I DY A).
          * intro A. now right. }
    assert (NY : ~ along (ax_y ax) d) by (intro A; apply BY in A; discriminate).
    destruct (equals_axis_ok d _ OZ) as (bz & EZ & BZ). rewrite EZ in H. cbn [obind] in H. destruct bz.
    { assert (DZ : along (ax_z ax) d) by now apply BZ. destruct (DI d) as (_ & _ & D3). assert (NT := D3 DZ).
      destruct (find_axis_ok s _ OY) as ([i|] & EFY & FY); rewrite EFY in H; cbn [obind] in H.
      - (* z after y *)
        injection H as <-. destruct FY as (m & MY & LT & NE). destruct (sorted_parts _ s i m SO NE) as (P1 & P2 & P3 & P4).
        destruct (nodup_parts s i m ND NE) as (Q1 & Q2). destruct (DI m) as (_ & M2 & _). destruct (M2 MY) as (MZ & MT).
        apply sorted_insert; [exact SO| |].
        + intros x I. destruct (P3 x I) as [->|I'].
          * repeat split; try assumption; intros; [contradiction|]. now right.
          * destruct (P1 x I') as (X1 & X2 & X3 & X4). assert (AX := X2 MY). repeat split; try assumption; intros; [contradiction|]. now left.
        + intros x I. rewrite Nat.add_1_r in I. assert (IS := skipn_In s (S i) x I).
          assert (XM : x <> m) by (intros ->; contradiction). destruct (P2 x I) as (X1 & X2 & X3 & X4). repeat split; try assumption.
          * intro A. elim XM. now apply (along_unique (ax_y ax)).
          * intro A. elim (AL (ax_z ax) x IS DZ A).
      - destruct (find_axis_ok s _ OX) as ([i|] & EFX & FX); rewrite EFX in H; cbn [obind] in H.
        + (* z after x *)
          injection H as <-. destruct FX as (m & MX & LT & NE). destruct (sorted_parts _ s i m SO NE) as (P1 & P2 & P3 & P4).
          destruct (nodup_parts s i m ND NE) as (Q1 & Q2). destruct (DI m) as (M1 & _). destruct (M1 MX) as (MY & MZ & MT).
          apply sorted_insert; [exact SO| |].
          * intros x I. destruct (P3 x I) as [->|I'].
            -- repeat split; try assumption; intros; [contradiction|]. now left.
            -- exfalso. destruct (P1 x I') as (X1 & _). contradiction.
          * intros x I. rewrite Nat.add_1_r in I. assert (IS := skipn_In s (S i) x I).
            assert (XM : x <> m) by (intros ->; contradiction). repeat split; try assumption.
            -- intro A. apply XM. now apply (along_unique (ax_x ax)).
            -- intro A. now elim (FY x A).
            -- intro A. elim (AL (ax_z ax) x IS DZ A).
        + (* z first *)
          injection H as <-. rewrite insert_0. apply sorted_insert; [exact SO|intros x []|]. cbn. intros x I. repeat split; try assumption.
          * intro A. now elim (FX x A).
          * intro A. now elim (FY x A).
          * intro A. elim (AL (ax_z ax) x I DZ A). }
    assert (NZ : ~ along (ax_z ax) d) by (intro A; apply BZ in A; discriminate).
    destruct (equals_axis_ok d _ OT) as (bt & ET & BT). rewrite ET in H. cbn [obind] in H. destruct bt.
    { (* time last *)
      assert (DT : along (ax_t ax) d) by now apply BT. injection H as <-. rewrite insert_end. apply sorted_insert; [exact SO| |].
      - rewrite firstn_all. intros x I. repeat split; try assumption; try contradiction. now apply AL.
      - rewrite skipn_all. intros x []. }
    assert (NT : ~ along (ax_t ax) d) by (intro A; apply BT in A; discriminate).
    destruct (find_axis_ok s _ OT) as ([i|] & EFT & FT); rewrite EFT in H; cbn [obind] in H.
    - (* before time *)
      injection H as <-. destruct FT as (m & MT & LT & NE). destruct (sorted_parts _ s i m SO NE) as (P1 & P2 & P3 & P4).
      destruct (nodup_parts s i m ND NE) as (Q1 & Q2). apply sorted_insert; [exact SO| |].
      + intros x I. destruct (P1 x I) as (X1 & X2 & X3 & X4). repeat split; try assumption; contradiction.
      + intros x I. destruct (DI m) as (MX & MY & MZ). destruct (P4 x I) as [->|I'].
        * repeat split; try assumption; intro A; exfalso.
          -- now apply (proj2 (proj2 (MX A))).
          -- now apply (proj2 (MY A)).
          -- now apply (MZ A).
        * exfalso. destruct (P2 x I') as (X1 & X2 & X3 & X4). contradiction.
    - injection H as <-. rewrite insert_end. apply sorted_insert; [exact SO| |].
      + rewrite firstn_all. intros x I. repeat split; try assumption; try contradiction. intro A. now elim (FT x A).
      + rewrite skipn_all. intros x [].
  Qed.

  Lemma merge_spec skip1 append : forall s, NoDup s -> (skip1 = true -> forall d, In d append -> dim_len d <> None) ->
    exists s', merge dim_len ax skip1 s append = Ok s' /\ NoDup s' /\ subseq s s' /\
      (forall d, In d s' <-> In d s \/ In d append /\ counts dim_len skip1 d) /\
      (distinct ax -> ordered ax s -> ordered ax s').
  Proof.
    unfold merge. induction append as [|d l IH]; intros s ND K; cbn [ofold].
    - exists s. split; [reflexivity|]. split; [exact ND|]. split; [apply subseq_refl|]. split; [|tauto]. intro d. cbn. tauto.
    - destruct (merge_dim_spec skip1 s d) as (s1 & E1 & C1); [intro Q; apply K; [exact Q|now left]|].
      rewrite E1. cbn [obind].
      assert (F : NoDup s1 /\ subseq s s1 /\ (forall x, In x s1 <-> In x s \/ x = d /\ counts dim_len skip1 d)).
      { destruct C1 as [(-> & [I|N])|(NI & CT & i & ->)].
        - split; [exact ND|]. split; [apply subseq_refl|]. intro x. split; [tauto|]. intros [?|[-> _]]; assumption.
        - split; [exact ND|]. split; [apply subseq_refl|]. intro x. split; [tauto|]. intros [?|[-> ?]]; [assumption|contradiction].
        - split; [now apply nodup_insert|]. split; [apply subseq_insert|]. intro x. rewrite in_insert. intuition auto. }
      destruct F as (N1 & S1 & I1). destruct (IH s1 N1) as (s2 & E2 & N2 & S2 & I2 & O2); [intros Q x X; apply K; [exact Q|now right]|].
      exists s2. split; [exact E2|]. split; [exact N2|]. split; [now apply (subseq_trans s s1)|]. split.
      + intro x. rewrite I2, I1. cbn. split; [intros [[A|[A B]]|[A B]]|intros [A|[[A|A] B]]]; subst; tauto.
      + intros DI SO. apply O2; [exact DI|]. now apply (merge_dim_ordered skip1 s d s1 DI ND SO).
  Qed.
End Merging.

(** Merging the shapes of the variables a converter needs gives every dimension once: exactly those of
    the shapes, except the dimensions of length 1 where these are to be skipped; in the order x, y, z,
    others, time, if the axes have different dimensions. *)
Theorem C78_merged : forall dim_len ax l,
  axes_ok ax -> (forall skip1 sh d, In (skip1, sh) l -> skip1 = true -> In d sh -> dim_len d <> None) ->
  exists s, merges dim_len ax l = Ok s /\ NoDup s /\
    (forall d, In d s <-> exists skip1 sh, In (skip1, sh) l /\ In d sh /\ counts dim_len skip1 d) /\
    (distinct ax -> ordered ax s).
Proof.
  intros dim_len ax l AOK K. unfold merges.
  assert (G : forall l s, (forall skip1 sh d, In (skip1, sh) l -> skip1 = true -> In d sh -> dim_len d <> None) -> NoDup s ->
    exists s', ofold (fun s m => merge dim_len ax (fst m) s (snd m)) l s = Ok s' /\ NoDup s' /\
      (forall d, In d s' <-> In d s \/ exists skip1 sh, In (skip1, sh) l /\ In d sh /\ counts dim_len skip1 d) /\
      (distinct ax -> ordered ax s -> ordered ax s')).
  { clear l K. induction l as [|[b sh] l IH]; intros s K ND; cbn [ofold].
    - exists s. split; [reflexivity|]. split; [exact ND|]. split; [|tauto]. intro d. split; [tauto|]. intros [?|(? & ? & [] & _)]; assumption.
    - destruct (merge_spec dim_len ax AOK b sh s ND) as (s1 & E1 & N1 & _ & I1 & O1).
      { intros B d D. now apply (K b sh d (or_introl eq_refl)). }
      cbn [fst snd]. rewrite E1. cbn [obind]. destruct (IH s1) as (s2 & E2 & N2 & I2 & O2); [|exact N1|].
      { intros b' sh' d I. apply (K b' sh' d). now right. }
      exists s2. split; [exact E2|]. split; [exact N2|]. split.
      + intro d. rewrite I2, I1. split.
        * intros [[A|[A B]]|(b' & sh' & I & A & B)]; [tauto| |]; right; [exists b, sh|exists b', sh']; cbn; tauto.
        * intros [A|(b' & sh' & [X|I] & A & B)]; [tauto| |].
          -- injection X as -> ->. tauto.
          -- right. now exists b', sh'.
      + intros DI SO. apply O2; [exact DI|]. now apply O1. }
  destruct (G l [] K (NoDup_nil _)) as (s & E & N & I & O). exists s. split; [exact E|]. split; [exact N|]. split.
  - intro d. rewrite I. cbn. tauto.
  - intro DI. apply O; [exact DI|]. constructor.
Qed.

(** Merging keeps the order of what is there. *)
Theorem C78_keeps : forall dim_len ax skip1 s append,
  axes_ok ax -> NoDup s -> (skip1 = true -> forall d, In d append -> dim_len d <> None) ->
  exists s', merge dim_len ax skip1 s append = Ok s' /\ subseq s s' /\ (incl append s -> s' = s).
Proof.
  intros dim_len ax skip1 s append AOK ND K.
  destruct (merge_spec dim_len ax AOK skip1 append s ND K) as (s' & E & _ & S & _). exists s'. split; [exact E|]. split; [exact S|].
  intro I. assert (X : merge dim_len ax skip1 s append = Ok s); [|congruence].
  clear E S s'. unfold merge. induction append as [|d l IH]; cbn [ofold]; [reflexivity|].
  destruct (merge_dim_spec dim_len ax AOK skip1 s d) as (s1 & E1 & [[-> _]|(NI & _)]).
  - intro B. apply K; [exact B|now left].
  - rewrite E1. cbn [obind]. apply IH; [intros B x X; apply K; [exact B|now right]|]. intros x X. apply I. now right.
  - exfalso. apply NI. apply I. now left.
Qed.

(** A dimension not known throws where dimensions of length 1 are skipped. *)
Theorem C78_unknown_throws : forall dim_len ax s d append, dim_len d = None -> merge dim_len ax true s (d :: append) = Throw.
Proof. intros dim_len ax s d append E. unfold merge. cbn [ofold]. unfold merge_dim. rewrite E. reflexivity. Qed.

Theorem C78_length1 : forall dim_len dims d,
  remove_length1 dim_len dims = filter (fun d => match dim_len d with Some n => negb (N.eqb n 1) | None => false end) dims /\
  (In d (remove_length1 dim_len dims) <-> In d dims /\ exists n, dim_len d = Some n /\ n <> 1%N).
Proof.
  intros dim_len dims d.
  assert (E : remove_length1 dim_len dims = filter (fun d => match dim_len d with Some n => negb (N.eqb n 1) | None => false end) dims).
  { induction dims as [|x l IH]; cbn; [reflexivity|]. destruct (dim_len x) as [n|]; [|exact IH]. destruct (N.eqb n 1); cbn; now rewrite IH. }
  split; [exact E|]. rewrite E, filter_In. destruct (dim_len d) as [n|].
  - destruct (N.eqb_spec n 1) as [->|X]; cbn; split.
    + intros [_ F]. discriminate.
    + intros [_ (m & M & Q)]. injection M as <-. congruence.
    + intros [A _]. split; [exact A|]. now exists n.
    + intros [A _]. now split.
  - split; [intros [_ F]; discriminate|]. intros [_ (m & M & _)]. discriminate.
Qed.

(** ** slice requests *)

(** the request [req d] of the other builder fits into the dimension *)
Definition fitting (m : N) (u : bool) (r : N * N) : Prop := u = true \/ (fst r + snd r <= m)%N.

Section Adapt.
  Variables (names : list string) (sizes : list N) (unlim : list bool) (sb0 : slice_builder).
  Hypothesis INIT : sb_init names sizes unlim = Ok sb0.
  Hypothesis ND : NoDup names.
  Hypothesis SIZES : Forall (fun m => (m < M64)%N) sizes.
  Variables (sb : slice_builder) (org : list string) (req : string -> N * N).
  Hypothesis GET : forall d, In d org -> sb_get sb d = Ok (req d).
  Hypothesis WRAP : forall d, In d org -> (fst (req d) + snd (req d) < M64)%N.

  Definition shared (d : string) : bool := existsb (String.eqb d) org.
  Definition to_op (d : string) : sb_op := SetStartAndSize d (fst (req d)) (snd (req d)).

  Lemma shared_in d : shared d = true <-> In d org.
  Proof.
    unfold shared. rewrite existsb_exists. split.
    - intros (x & I & E). apply String.eqb_eq in E. now subst.
    - intro I. exists d. split; [exact I|apply String.eqb_refl].
  Qed.

  Lemma nowrap_ops l : Forall no_wrap (map to_op (filter shared l)).
  Proof.
    apply Forall_forall. intros op I. apply in_map_iff in I. destruct I as (d & <- & I). apply filter_In in I. destruct I as [_ I].
    cbn. apply WRAP. now apply shared_in.
  Qed.

  Lemma copy_step ops d p m u : Forall no_wrap ops -> nth_error names p = Some d -> nth_error sizes p = Some m -> nth_error unlim p = Some u ->
    copy_request sb org (sb_run sb0 ops) d =
    if shared d then if acceptable d m u (to_op d) then Ok (sb_run sb0 (ops ++ [to_op d])) else Throw
    else Ok (sb_run sb0 ops).
  Proof.
    intros NW Hp Hm Hu. unfold copy_request. fold (shared d). destruct (shared d) eqn:S.
    - assert (I : In d org) by now apply shared_in. rewrite (GET d I). cbn [obind].
      assert (F := run_frame names sizes unlim sb0 INIT ND SIZES ops NW).
      assert (W : no_wrap (to_op d)) by (cbn; now apply WRAP).
      assert (X := step_in names sizes unlim ND SIZES (sb_run sb0 ops) (to_op d) d p m u F W Hp Hm Hu eq_refl).
      rewrite (run_snoc sb0 ops (to_op d)).
      assert (SS : sb_setStartAndSize (sb_run sb0 ops) d (fst (req d)) (snd (req d)) =
                   if acceptable d m u (to_op d) then Ok (sb_step (sb_run sb0 ops) (to_op d)) else Throw).
      { unfold sb_step, sb_apply, to_op. cbn [acceptable]. rewrite String.eqb_refl. cbn [andb].
        unfold sb_setStartAndSize. rewrite (getDimPos_in names sizes unlim ND (sb_run sb0 ops) d p F Hp). cbn [obind].
        destruct F as (F1 & F2 & F3 & _). unfold at_. rewrite F3, Hu, F2, Hm. cbn [obind].
        cbn in W. rewrite add64_small by exact W. destruct u; cbn [negb andb orb]; [reflexivity|].
        rewrite N.leb_antisym. destruct (m <? fst (req d) + snd (req d))%N; reflexivity. }
      exact SS.
    - assert (X := sb_refines names sizes unlim sb0 INIT ND SIZES ops d p m u NW Hp Hm Hu). rewrite X. reflexivity.
  Qed.

  Lemma copy_all todo : forall ops, Forall no_wrap ops -> incl todo names ->
    (forall d p m u, In d todo -> In d org -> nth_error names p = Some d -> nth_error sizes p = Some m -> nth_error unlim p = Some u -> fitting m u (req d)) ->
    ofold (copy_request sb org) todo (sb_run sb0 ops) = Ok (sb_run sb0 (ops ++ map to_op (filter shared todo))).
  Proof.
    induction todo as [|d l IH]; intros ops NW I FT; cbn [ofold].
    - cbn. now rewrite app_nil_r.
    - destruct (In_nth_error names d (I d (or_introl eq_refl))) as [p Hp]. destruct (nth_max names sizes unlim sb0 INIT SIZES p d Hp) as (m & u & Hm & Hu & _).
      rewrite (copy_step ops d p m u NW Hp Hm Hu). cbn [filter]. destruct (shared d) eqn:S.
      + assert (Id : In d org) by now apply shared_in.
        assert (A : acceptable d m u (to_op d) = true).
        { cbn. rewrite String.eqb_refl. cbn [andb]. destruct (FT d p m u (or_introl eq_refl) Id Hp Hm Hu) as [->|F]; [reflexivity|].
          apply N.leb_le in F. rewrite F. apply orb_true_r. }
        rewrite A. cbn [obind]. rewrite IH.
        * cbn [map]. now rewrite <- app_assoc.
        * apply Forall_app. split; [exact NW|]. repeat constructor. cbn. now apply WRAP.
        * intros x X. apply I. now right.
        * intros x. intros q m' u' X. apply FT. now right.
      + cbn [obind]. apply IH; [exact NW|intros x X; apply I; now right|]. intros x q m' u' X. apply FT. now right.
  Qed.

  Lemma copy_throws todo : forall ops, Forall no_wrap ops -> incl todo names ->
    (exists d p m u, In d todo /\ In d org /\ nth_error names p = Some d /\ nth_error sizes p = Some m /\ nth_error unlim p = Some u /\ ~ fitting m u (req d)) ->
    ofold (copy_request sb org) todo (sb_run sb0 ops) = Throw.
  Proof.
    induction todo as [|d l IH]; intros ops NW I (d0 & p0 & m0 & u0 & I0 & R); [destruct I0|]. cbn [ofold].
    destruct (In_nth_error names d (I d (or_introl eq_refl))) as [p Hp]. destruct (nth_max names sizes unlim sb0 INIT SIZES p d Hp) as (m & u & Hm & Hu & _).
    rewrite (copy_step ops d p m u NW Hp Hm Hu).
    destruct (shared d) eqn:S; [|].
    - destruct (acceptable d m u (to_op d)) eqn:A; [|reflexivity]. cbn [obind]. apply IH.
      + apply Forall_app. split; [exact NW|]. repeat constructor. cbn. apply WRAP. now apply shared_in.
      + intros x X. apply I. now right.
      + exists d0, p0, m0, u0. split; [|exact R]. destruct I0 as [<-|I0]; [|exact I0]. exfalso.
        destruct R as (_ & Hp0 & Hm0 & Hu0 & NF). assert (p0 = p) as ->.
        { eapply NoDup_nth_error; eauto; [apply nth_error_Some|]; congruence. }
        assert (m0 = m) as -> by congruence. assert (u0 = u) as -> by congruence. apply NF. unfold fitting.
        cbn in A. rewrite String.eqb_refl in A. cbn in A. apply orb_true_iff in A. destruct A as [A|A]; [now left|right]. now apply N.leb_le.
    - cbn [obind]. apply IH; [exact NW|intros x X; apply I; now right|]. exists d0, p0, m0, u0. split; [|exact R].
      destruct I0 as [<-|I0]; [|exact I0]. destruct R as (X & _). apply shared_in in X. congruence.
  Qed.
End Adapt.

(** Adapting a request to another variable or converter: the dimensions both have get the request,
    the others their whole extent; if a request does not fit an exception is thrown. *)
Theorem C78_adapted : forall names sizes unlim sbVar sb org req,
  sb_init names sizes unlim = Ok sbVar -> NoDup names -> Forall (fun m => (m < M64)%N) sizes ->
  sb_getDimensionNames sb = Ok org -> (forall d, In d org -> sb_get sb d = Ok (req d)) ->
  (forall d, In d org -> (fst (req d) + snd (req d) < M64)%N) ->
  ((forall d p m u, In d org -> nth_error names p = Some d -> nth_error sizes p = Some m -> nth_error unlim p = Some u -> fitting m u (req d)) ->
   exists sb', adapt_builder sbVar sb = Ok sb' /\ sb_getDimensionNames sb' = Ok names /\
     forall d p m, nth_error names p = Some d -> nth_error sizes p = Some m ->
       (In d org -> sb_get sb' d = Ok (req d)) /\ (~ In d org -> sb_get sb' d = Ok (0%N, m))) /\
  ((exists d p m u, In d org /\ nth_error names p = Some d /\ nth_error sizes p = Some m /\ nth_error unlim p = Some u /\ ~ fitting m u (req d)) ->
   adapt_builder sbVar sb = Throw).
Proof.
  intros names sizes unlim sbVar sb org req INIT ND SIZES ORG GET WRAP.
  assert (NM : sb_getDimensionNames sbVar = Ok names) by exact (C02_dimension_names_stable names sizes unlim sbVar INIT ND SIZES [] (Forall_nil _)).
  unfold adapt_builder. rewrite NM, ORG. cbn [obind]. split.
  - intro FT. change sbVar with (sb_run sbVar []) at 1.
    rewrite (copy_all names sizes unlim sbVar INIT ND SIZES sb org req GET WRAP names [] (Forall_nil _) (incl_refl _)).
    2: { intros d p m u _ I. now apply FT. }
    eexists. split; [reflexivity|]. cbn [app]. set (ops := map (to_op req) (filter (shared org) names)).
    assert (NW : Forall no_wrap ops) by exact (nowrap_ops org req WRAP names). split.
    + exact (C02_dimension_names_stable names sizes unlim sbVar INIT ND SIZES ops NW).
    + intros d p m Hp Hm. destruct (nth_max names sizes unlim sbVar INIT SIZES p d Hp) as (m' & u & Hm' & Hu & _).
      assert (m' = m) as -> by congruence.
      rewrite (C02_request_is_last_acceptable names sizes unlim sbVar INIT ND SIZES ops d p m u NW Hp Hm Hu).
      (* the only operation naming d *)
      assert (FL : forall l, NoDup l -> filter (acceptable d m u) (map (to_op req) (filter (shared org) l)) =
        if shared org d && existsb (String.eqb d) l && acceptable d m u (to_op req d) then [to_op req d] else []).
      { induction l as [|x l IH]; intro N; cbn [filter map existsb]; [now rewrite andb_false_r|]. inversion N as [|? ? N1 N2]; subst.
        specialize (IH N2). destruct (String.eqb_spec d x) as [->|X].
        - assert (EX : existsb (String.eqb x) l = false).
          { destruct (existsb (String.eqb x) l) eqn:E; [|reflexivity]. apply existsb_exists in E. destruct E as (y & Y & E).
            apply String.eqb_eq in E. subst y. contradiction. }
          rewrite EX, andb_false_r in IH. cbn [orb andb]. rewrite andb_true_r. destruct (shared org x) eqn:S; cbn [map filter andb]; rewrite IH; reflexivity.
        - cbn [orb]. destruct (shared org x) eqn:S; cbn [map filter]; rewrite IH; [|reflexivity].
          assert (AO : acceptable d m u (to_op req x) = false) by (cbn; destruct (String.eqb_spec x d); [congruence|reflexivity]).
          now rewrite AO. }
      unfold last_request, ops. rewrite (FL names ND). split.
      * intro I. assert (S : shared org d = true) by now apply shared_in. rewrite S.
        assert (E : existsb (String.eqb d) names = true) by (apply existsb_exists; exists d; split; [eapply nth_error_In; eauto|apply String.eqb_refl]).
        rewrite E. assert (A : acceptable d m u (to_op req d) = true).
        { cbn. rewrite String.eqb_refl. cbn [andb]. destruct (FT d p m u I Hp Hm Hu) as [->|F]; [reflexivity|]. apply N.leb_le in F. rewrite F. apply orb_true_r. }
        rewrite A. cbn. now destruct (req d).
      * intro I. assert (S : shared org d = false) by (destruct (shared org d) eqn:S; [apply shared_in in S; contradiction|reflexivity]).
        rewrite S. reflexivity.
  - intros (d & p & m & u & I & Hp & Hm & Hu & NF). change sbVar with (sb_run sbVar []) at 1.
    apply (copy_throws names sizes unlim sbVar INIT ND SIZES sb org req GET WRAP names [] (Forall_nil _) (incl_refl _)).
    exists d, p, m, u. split; [eapply nth_error_In; eauto|]. now repeat split.
Qed.

(** The builder for a converter: every dimension whole (length 1 if it is not known); with the position
    in the unlimited dimension chosen, one record of it, an exception beyond its end. *)
Theorem C78_record : forall dim_len names unlim pos,
  NoDup names -> (forall d n, dim_len d = Some n -> (n < M64)%N) -> (pos + 1 < M64)%N ->
  let len := fun d => match dim_len d with Some n => n | None => 1%N end in
  exists sb, create_builder dim_len names = Ok sb /\
    (forall d, In d names -> sb_get sb d = Ok (0%N, len d)) /\
    match unlim with
    | None => set_record unlim pos sb = Ok sb
    | Some u =>
      (~ In u names -> set_record unlim pos sb = Ok sb) /\
      (In u names -> (len u <= pos)%N -> set_record unlim pos sb = Throw) /\
      (In u names -> (pos < len u)%N -> exists sb', set_record unlim pos sb = Ok sb' /\
         forall d, In d names -> sb_get sb' d = Ok (if String.eqb d u then (pos, 1%N) else (0%N, len d)))
    end.
Proof.
  intros dim_len names unlim pos ND LT PW len. unfold create_builder.
  assert (INIT : exists sb, sb_init names (dim_sizes dim_len names) (map (fun _ => false) names) = Ok sb).
  { unfold sb_init, dim_sizes. rewrite !map_length, Nat.eqb_refl. eexists. reflexivity. }
  destruct INIT as [sb INIT]. exists sb. split; [exact INIT|].
  assert (SZ : Forall (fun m => (m < M64)%N) (dim_sizes dim_len names)).
  { apply Forall_forall. intros m I. unfold dim_sizes in I. apply in_map_iff in I. destruct I as (d & <- & _).
    destruct (dim_len d) as [n|] eqn:E; [now apply (LT d)|reflexivity]. }
  assert (POS : forall d, In d names -> exists p, nth_error names p = Some d /\ nth_error (dim_sizes dim_len names) p = Some (len d) /\
    nth_error (map (fun _ : string => false) names) p = Some false).
  { intros d I. apply In_nth_error in I. destruct I as [p Hp]. exists p. split; [exact Hp|]. unfold dim_sizes. rewrite !nth_error_map, Hp. now split. }
  assert (REQ : forall ops d, Forall no_wrap ops -> In d names -> sb_get (sb_run sb ops) d = Ok (last_request d (len d) false ops)).
  { intros ops d NW I. destruct (POS d I) as (p & Hp & Hm & Hu).
    exact (C02_request_is_last_acceptable _ _ _ sb INIT ND SZ ops d p (len d) false NW Hp Hm Hu). }
  split; [intros d I; exact (REQ [] d (Forall_nil _) I)|].
  destruct unlim as [u|]; [|reflexivity].
  assert (NM : sb_getDimensionNames sb = Ok names) by exact (C02_dimension_names_stable _ _ _ sb INIT ND SZ [] (Forall_nil _)).
  unfold set_record. rewrite NM. cbn [obind].
  assert (MEM : existsb (String.eqb u) names = true <-> In u names).
  { rewrite existsb_exists. split; [intros (x & I & E); apply String.eqb_eq in E; now subst|]. intro I. exists u. split; [exact I|apply String.eqb_refl]. }
  assert (ST : In u names -> sb_setStartAndSize sb u pos 1 = if (pos + 1 <=? len u)%N then Ok (sb_run sb [SetStartAndSize u pos 1]) else Throw).
  { intro I. destruct (POS u I) as (p & Hp & Hm & Hu). cbn. unfold sb_step, sb_apply. unfold sb_setStartAndSize.
    assert (F := frame0 names (dim_sizes dim_len names) (map (fun _ : string => false) names) sb INIT).
    rewrite (getDimPos_in names (dim_sizes dim_len names) (map (fun _ : string => false) names) ND sb u p F Hp). cbn [obind]. destruct F as (F1 & F2 & F3 & _). unfold at_. rewrite F3, Hu, F2, Hm. cbn [obind].
    rewrite add64_small by exact PW. cbn [negb andb]. rewrite N.leb_antisym. destruct (len u <? pos + 1)%N; reflexivity. }
  split; [|split].
  - intro I. assert (E : existsb (String.eqb u) names = false) by (apply not_true_is_false; intro E; apply MEM in E; contradiction). now rewrite E.
  - intros I L. apply MEM in I as E. rewrite E, (ST I). destruct (N.leb_spec (pos + 1) (len u)); [lia|reflexivity].
  - intros I L. apply MEM in I as E. rewrite E, (ST I). destruct (N.leb_spec (pos + 1) (len u)) as [LE|LE]; [|lia].
    eexists. split; [reflexivity|]. intros d Id. rewrite (REQ [SetStartAndSize u pos 1] d); [|repeat constructor; exact PW|exact Id].
    unfold last_request. cbn [filter map acceptable]. rewrite (String.eqb_sym u d). destruct (String.eqb_spec d u) as [->|N]; cbn [andb orb].
    + apply N.leb_le in LE. rewrite LE. reflexivity.
    + reflexivity.
Qed.

(** ** findings *)
Local Open Scope string_scope.

(** Finding: with two-dimensional longitudes and latitudes both axes start with the same dimension; the
    second horizontal dimension is then treated as "other" and comes after the levels. *)
Theorem C78_curvilinear_refuted :
  merges (fun _ => Some 5%N) (mkAxes (Some ["i"; "j"]) (Some ["i"; "j"]) (Some ["k"]) None) [(false, ["i"; "j"]); (false, ["k"])]
  = Ok ["i"; "k"; "j"].
Proof. reflexivity. Qed.

(** Finding: an axis without dimension (a scalar time or level) is read past its end. *)
Theorem C78_scalar_axis_refuted :
  merges (fun _ => Some 5%N) (mkAxes (Some ["x"]) (Some ["y"]) (Some []) (Some ["time"])) [(false, ["x"; "y"; "time"])] = UB.
Proof. reflexivity. Qed.

(** ** the hypotheses can be met *)
Definition ex_axes : axes4 := mkAxes (Some ["x"]) (Some ["y"]) (Some ["k"]) (Some ["time"]).
Example C78_nonvacuous :
  axes_ok ex_axes /\ distinct ex_axes /\
  merges (fun d => if String.eqb d "p0" then Some 1%N else Some 5%N) ex_axes
    [(false, ["k"]); (true, ["p0"]); (false, ["time"; "ens"]); (false, ["x"; "y"; "time"])] = Ok ["x"; "y"; "k"; "ens"; "time"] /\
  before ex_axes "k" "ens".
Proof.
  split; [unfold axes_ok, axis_ok, ex_axes; cbn; tauto|]. split.
  { intro d. unfold along. cbn. repeat split; intros; repeat match goal with H : exists _, _ |- _ => destruct H as [? H] | |- ~ _ => intro end; repeat match goal with H : exists _, _ |- _ => destruct H as [? H] end; congruence. }
  split; [reflexivity|]. unfold before, along. cbn. repeat split; intros; repeat match goal with H : exists _, _ |- _ => destruct H as [? H] | |- ~ _ => intro end; congruence.
Qed.
Example C78_adapted_nonvacuous :
  exists sbv sb, sb_init ["x"; "k"; "time"] [4; 3; 6]%N [false; false; false] = Ok sbv /\
    sb = sb_run (match sb_init ["x"; "time"] [4; 6]%N [false; false] with Ok b => b | _ => sbv end) [SetStartAndSize "x" 1 2; SetStartAndSize "time" 5 1] /\
    exists sb', adapt_builder sbv sb = Ok sb' /\ sb_get sb' "x" = Ok (1, 2)%N /\ sb_get sb' "k" = Ok (0, 3)%N /\ sb_get sb' "time" = Ok (5, 1)%N.
Proof. eexists. eexists. split; [reflexivity|]. split; [reflexivity|]. eexists. split; [vm_compute; reflexivity|]. repeat split. Qed.
Print Assumptions C78_merged.
Print Assumptions C78_keeps.
Print Assumptions C78_unknown_throws.
Print Assumptions C78_length1.
Print Assumptions C78_adapted.
Print Assumptions C78_record.
Print Assumptions C78_curvilinear_refuted.
Print Assumptions C78_scalar_axis_refuted.
