(** Lemmas for AxesModel *)
From Coq Require Import NArith ZArith String List Bool Lia.
From Coq Require Import ZifyBool ZifyNat ZifyN.
From Verif Require Import Base StdMap AxesModel.
Import ListNotations.

Lemma type_eqb_spec : forall a b, type_eqb a b = true <-> a = b.
Proof. intros. unfold type_eqb. destruct (axis_type_eq_dec a b); intuition congruence. Qed.

Definition names (l : list axis) : list string := map a_name l.

Lemma in_remove : forall n l a, In a (remove_axis n l) <-> In a l /\ a_name a <> n.
Proof.
  intros. unfold remove_axis. rewrite filter_In, negb_true_iff, String.eqb_neq. tauto.
Qed.

Lemma names_remove : forall n l x, In x (names (remove_axis n l)) <-> In x (names l) /\ x <> n.
Proof.
  intros. unfold names. rewrite !in_map_iff. split.
  - intros (a & <- & I). apply in_remove in I. destruct I. split; [ now exists a | assumption ].
  - intros [ (a & <- & I) N ]. exists a. split; [ reflexivity | ]. now apply in_remove.
Qed.

Lemma nodup_remove : forall n l, NoDup (names l) -> NoDup (names (remove_axis n l)).
Proof.
  intros n l. unfold names, remove_axis. induction l as [ | a l IH ]; intro H; cbn; [ constructor | ].
  inversion H; subst. destruct (String.eqb (a_name a) n); cbn; [ now apply IH | ].
  constructor; [ | now apply IH ]. intro I. apply H2. apply in_map_iff in I. destruct I as (b & E & I).
  apply filter_In in I. rewrite <- E. now apply in_map.
Qed.

Lemma find_type_some : forall t l a, find_type t l = Some a -> In a l /\ a_type a = t.
Proof.
  intros t l a H. unfold find_type in H. apply find_some in H. destruct H as [ I E ].
  apply type_eqb_spec in E. auto.
Qed.
Lemma find_type_none : forall t l, find_type t l = None <-> forall a, In a l -> a_type a <> t.
Proof.
  intros t l. split.
  - intros H a I E. unfold find_type in H. apply (find_none _ _ H) in I.
    assert (X : type_eqb t (a_type a) = true) by (apply type_eqb_spec; now symmetry). congruence.
  - intro H. destruct (find_type t l) eqn:F; [ | reflexivity ]. apply find_type_some in F. destruct F as [ I E ].
    now apply H in I.
Qed.
Lemma has_type_spec : forall t l, has_type t l = true <-> exists a, In a l /\ a_type a = t.
Proof.
  intros t l. unfold has_type. destruct (find_type t l) as [ a | ] eqn:F.
  - apply find_type_some in F. split; [ intros _; now exists a | reflexivity ].
  - rewrite find_type_none in F. split; [ discriminate | ]. intros (a & I & E). now apply F in I.
Qed.

(** one axis per name over both lists, and one main axis per type *)
Definition good (cs : csys) : Prop :=
  NoDup (names (cs_main cs ++ cs_aux cs)) /\
  (forall a b, In a (cs_main cs) -> In b (cs_main cs) -> a_type a = a_type b -> a_type a <> Undefined -> a = b).

Lemma nodup_app_iff : forall {A} (l m : list A), NoDup (l ++ m) <-> NoDup l /\ NoDup m /\ (forall x, In x l -> ~ In x m).
Proof.
  intros A l m. induction l as [ | a l IH ]; cbn.
  - split; [ intro H; repeat split; [ constructor | exact H | intros x [] ] | tauto ].
  - split.
    + intro H. inversion H; subst. apply IH in H3. destruct H3 as (N1 & N2 & D). repeat split; auto.
      * constructor; auto. intro I. apply H2. apply in_or_app. now left.
      * intros x [ <- | I ]; [ intro I; apply H2; apply in_or_app; now right | now apply D ].
    + intros (N1 & N2 & D). inversion N1; subst. constructor.
      * intro I. apply in_app_or in I. destruct I as [ I | I ]; [ contradiction | now apply (D a) ; [ left | ] ].
      * apply IH. repeat split; auto.
Qed.

Lemma good_set_axis : forall cs a, good cs -> good (fst (set_axis cs a)).
Proof.
  intros [ m x ] a [ N T ]. unfold set_axis. cbn [cs_main cs_aux] in *.
  unfold names in N. rewrite map_app in N. apply nodup_app_iff in N. destruct N as (N1 & N2 & D).
  destruct (negb (type_eqb (a_type a) Undefined) && has_type (a_type a) (remove_axis (a_name a) m)) eqn:B; cbn [fst].
  - split; cbn [cs_main cs_aux].
    + unfold names. rewrite map_app. apply nodup_app_iff. repeat split; auto.
      * now apply nodup_remove.
      * intros y I. apply (names_remove (a_name a) m) in I. now apply D.
    + intros b c Ib Ic. apply in_remove in Ib, Ic. now apply T.
  - split; cbn [cs_main cs_aux].
    + unfold names. rewrite !map_app. cbn [map]. apply nodup_app_iff. repeat split.
      * apply nodup_app_iff. repeat split.
        -- now apply nodup_remove.
        -- constructor; [ intros [] | constructor ].
        -- intros y I [ <- | [] ]. apply (names_remove (a_name a) m) in I. now destruct I.
      * now apply nodup_remove.
      * intros y I J. apply (names_remove (a_name a) x) in J. destruct J as [ J NE ].
        apply in_app_or in I. destruct I as [ I | [ <- | [] ] ]; [ | congruence ].
        apply (names_remove (a_name a) m) in I. now apply (D y).
    + intros b c Ib Ic E U. apply in_app_or in Ib, Ic.
      assert (X : forall b, In b (remove_axis (a_name a) m) -> a_type b = a_type a -> a_type a <> Undefined -> False).
      { intros d I E' U'. apply andb_false_iff in B. destruct B as [ B | B ].
        - apply negb_false_iff, type_eqb_spec in B. contradiction.
        - apply not_true_iff_false in B. apply B. apply has_type_spec. now exists d. }
      destruct Ib as [ Ib | [ <- | [] ] ], Ic as [ Ic | [ <- | [] ] ].
      * apply in_remove in Ib, Ic. now apply T.
      * exfalso. apply (X b); auto. congruence.
      * exfalso. apply (X c); auto.
      * reflexivity.
Qed.

Lemma find_name_none : forall n l, find (fun b => String.eqb (a_name b) n) l = None -> ~ In n (names l).
Proof.
  intros n l H I. unfold names in I. apply in_map_iff in I. destruct I as (b & E & I).
  apply (find_none _ _ H) in I. apply String.eqb_neq in I. contradiction.
Qed.

Lemma good_set_aux : forall cs a, good cs -> good (set_aux cs a).
Proof.
  intros [ m x ] a G. unfold set_aux. cbn [cs_main cs_aux].
  destruct (find _ m) eqn:F; [ exact G | ].
  destruct (negb (type_eqb (a_type a) Undefined) && has_type (a_type a) m) eqn:B; [ exact G | ].
  destruct G as [ N T ]. cbn [cs_main cs_aux] in *. apply find_name_none in F.
  unfold names in N. rewrite map_app in N. apply nodup_app_iff in N. destruct N as (N1 & N2 & D).
  split; cbn [cs_main cs_aux]; [ | exact T ].
  unfold names. rewrite !map_app. cbn [map]. apply nodup_app_iff. repeat split; auto.
  - apply nodup_app_iff. repeat split.
    + now apply nodup_remove.
    + constructor; [ intros [] | constructor ].
    + intros y I [ <- | [] ]. apply (names_remove (a_name a) x) in I. now destruct I.
  - intros y I J. apply in_app_or in J. destruct J as [ J | [ <- | [] ] ]; [ | contradiction ].
    apply (names_remove (a_name a) x) in J. now apply (D y).
Qed.

Lemma good_run : forall l, good (cs_run l).
Proof.
  intro l. unfold cs_run. assert (G : good (mkCs [] [])) by (split; [ constructor | intros a b [] ]).
  revert G. generalize (mkCs [] []) as cs. induction l as [ | o l IH ]; intros cs G; cbn; [ exact G | ].
  apply IH. destruct o; cbn; [ now apply good_set_axis | now apply good_set_aux ].
Qed.

(** ** HTTP *)

Lemma callback_fits : forall c mem pos cap, (pos <= cap)%N -> (cap <= N.of_nat (length mem))%N ->
  (pos + N.of_nat (length c) < M64)%N ->
  write_callback c 1 (N.of_nat (length c)) (mkWb mem pos cap) =
  if (cap <? pos + N.of_nat (length c))%N then Ok (mkWb mem pos cap, 0%N)
  else Ok (mkWb (firstn (N.to_nat pos) mem ++ c ++ skipn (N.to_nat pos + length c) mem) (pos + N.of_nat (length c)) cap, N.of_nat (length c)).
Proof.
  intros c mem pos cap H1 H2 H3. unfold write_callback. cbn [wb_mem wb_pos wb_cap].
  replace (mul64 1 (N.of_nat (length c))) with (N.of_nat (length c)).
  2:{ unfold mul64. rewrite N.mul_1_l. symmetry. apply w64_small. lia. }
  rewrite add64_small by lia.
  destruct (N.ltb_spec cap (pos + N.of_nat (length c))) as [ L | L ]; [ reflexivity | ].
  unfold copy_bytes.
  destruct (N.ltb_spec (N.of_nat (length c)) (N.of_nat (length c))); [ lia | ].
  destruct (N.ltb_spec (N.of_nat (length mem)) (pos + N.of_nat (length c))); [ lia | ].
  cbn [orb obind]. rewrite Nnat.Nat2N.id, firstn_all.
  replace (N.to_nat (pos + N.of_nat (length c))) with (N.to_nat pos + length c) by lia.
  reflexivity.
Qed.
