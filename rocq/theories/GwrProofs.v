(** Facts about the model of the GRIB writer. *)
From Coq Require Import ZArith NArith String List Bool QArith Qcanon Lia.
From Verif Require Import Base GribModel GwrModel.
Import ListNotations.
Local Open Scope list_scope.
Local Open Scope nat_scope.
Local Open Scope act_scope.

(** ** Keys an action may change *)

Definition touches {A} (K : string -> Prop) (m : act A) : Prop :=
  forall s, w_out (fst (m s)) = w_out s /\
            forall k, ~ K k -> w_h (fst (m s)) k = w_h s k.

Lemma touches_ret {A} K (a : A) : touches K (ret a).
Proof. intros s. split; reflexivity. Qed.

Lemma touches_fail {A} K e : touches K (@fail A e).
Proof. intros s. split; reflexivity. Qed.

Lemma touches_lift {A} K (r : A + exc) : touches K (lift r).
Proof. destruct r; [apply touches_ret | apply touches_fail]. Qed.

Lemma touches_need {A} K (t : option (option A)) : touches K (need t).
Proof. destruct t as [[a|]|]; [apply touches_ret | apply touches_fail | apply touches_fail]. Qed.

Lemma touches_setk (K : string -> Prop) k v : K k -> touches K (setk k v).
Proof.
  intros Hk s. split; [reflexivity|]. intros k' Hn. cbn. unfold hset.
  destruct (String.eqb_spec k k') as [->|]; [contradiction | reflexivity].
Qed.

Lemma touches_bnd {A B} K (m : act A) (f : A -> act B) :
  touches K m -> (forall a, touches K (f a)) -> touches K (bnd m f).
Proof.
  intros Hm Hf s. unfold bnd. destruct (Hm s) as [Ho Hh].
  destruct (m s) as [s' [a|e]] eqn:E; cbn [fst] in *.
  - destruct (Hf a s') as [Ho' Hh']. split; [congruence|].
    intros k Hk. rewrite Hh' by assumption. auto.
  - split; assumption.
Qed.

Lemma touches_each {A} K (f : A -> act unit) l :
  (forall a, In a l -> touches K (f a)) -> touches K (each f l).
Proof.
  induction l as [|a l IH]; intros H; cbn [each]; [apply touches_ret|].
  apply touches_bnd; [apply H; left; reflexivity|]. intros _. apply IH.
  intros a' Ha. apply H. right. assumption.
Qed.

Lemma touches_weaken {A} (K K' : string -> Prop) (m : act A) :
  (forall k, K k -> K' k) -> touches K m -> touches K' m.
Proof.
  intros H Hm s. destruct (Hm s) as [Ho Hh]. split; [assumption|].
  intros k Hk. apply Hh. intros Hk'. apply Hk. auto.
Qed.

Lemma bnd_cases {A B} (m : act A) (f : A -> act B) s :
  (exists s' a, m s = (s', inl a) /\ bnd m f s = f a s')
  \/ (exists s' e, m s = (s', inr e) /\ bnd m f s = (s', inr e)).
Proof.
  unfold bnd. destruct (m s) as [s' [a|e]].
  - left. exists s', a. split; reflexivity.
  - right. exists s', e. split; reflexivity.
Qed.

Lemma hset_same h k v : hset h k v k = Some v.
Proof. unfold hset. now rewrite String.eqb_refl. Qed.

Lemma hset_other h k v k' : k <> k' -> hset h k v k' = h k'.
Proof. intros H. unfold hset. destruct (String.eqb_spec k k'); congruence. Qed.

(** ** Lists of settings *)

Definition attr_ok (a : string * aval) : Prop := exists v, snd a = ASet v.

(** settings that all succeed *)
Lemma each_attr_ok l : Forall attr_ok l -> forall s, exists s', each set_attr l s = (s', inl tt).
Proof.
  induction 1 as [|[n a] l [v Hv] Hl IH]; intros s; [exists s; reflexivity|].
  cbn in Hv. subst a. cbn [each]. unfold bnd, set_attr at 1, setk. cbn [snd fst].
  apply IH.
Qed.

Lemma each_attr_bad l : forall s s' e,
  each set_attr l s = (s', inr e) -> ~ Forall attr_ok l.
Proof.
  intros s s' e H F. destruct (each_attr_ok l F s) as [s2 H2]. congruence.
Qed.

Lemma each_attr_inl l : forall s s', each set_attr l s = (s', inl tt) -> Forall attr_ok l.
Proof.
  induction l as [|[n a] l IH]; intros s s' H; [constructor|].
  cbn [each] in H. unfold bnd, set_attr at 1 in H. cbn [snd fst] in H.
  destruct a as [v| |]; cbn in H.
  - constructor; [exists v; reflexivity|]. eapply IH; eassumption.
  - discriminate.
  - discriminate.
Qed.

Lemma each_attr_other l : forall s k,
  ~ In k (map fst l) -> w_h (fst (each set_attr l s)) k = w_h s k.
Proof.
  intros s k H. apply (touches_each (fun k => In k (map fst l)) set_attr l); [|assumption].
  intros [n a] Ha. unfold set_attr. cbn [snd fst]. destruct a.
  - apply touches_setk. apply in_map_iff. exists (n, ASet v). split; [reflexivity | assumption].
  - apply touches_fail.
  - apply touches_fail.
Qed.

Lemma each_attr_val l : forall s s', each set_attr l s = (s', inl tt) ->
  NoDup (map fst l) -> forall n v, In (n, ASet v) l -> w_h s' n = Some v.
Proof.
  induction l as [|[n0 a] l IH]; intros s s' H ND n v Hin; [contradiction|].
  inversion ND as [|? ? Hn ND']; subst. cbn [map fst] in Hn.
  cbn [each] in H. unfold bnd, set_attr at 1 in H. cbn [snd fst] in H.
  destruct Hin as [E|Hin].
  - inversion E; subst. cbn in H.
    pose proof (each_attr_other l (mkW (hset (w_h s) n v) (w_out s)) n Hn) as Ho.
    rewrite H in Ho. cbn in Ho. rewrite Ho. apply hset_same.
  - destruct a as [v0| |]; cbn in H; try discriminate. eapply IH; eassumption.
Qed.

Lemma each_set_run l : forall s,
  exists s', each (fun kv : string * kval => setk (fst kv) (snd kv)) l s = (s', inl tt) /\
             w_out s' = w_out s.
Proof.
  induction l as [|[n v] l IH]; intros s; [exists s; split; reflexivity|].
  cbn [each]. unfold bnd, setk at 1. cbn [fst snd].
  destruct (IH (mkW (hset (w_h s) n v) (w_out s))) as (s' & E & Ho). exists s'.
  split; [exact E | exact Ho].
Qed.

Lemma each_set_val l : forall s s',
  each (fun kv : string * kval => setk (fst kv) (snd kv)) l s = (s', inl tt) ->
  NoDup (map fst l) -> forall n v, In (n, v) l -> w_h s' n = Some v.
Proof.
  induction l as [|[n0 a] l IH]; intros s s' H ND n v Hin; [contradiction|].
  inversion ND as [|? ? Hn ND']; subst.
  cbn [each] in H. unfold bnd, setk at 1 in H. cbn [fst snd] in H.
  destruct Hin as [E|Hin].
  - inversion E; subst.
    assert (T : touches (fun k => In k (map fst l))
                  (each (fun kv : string * kval => setk (fst kv) (snd kv)) l)).
    { apply touches_each. intros kv Hkv. apply touches_setk. now apply in_map. }
    destruct (T (mkW (hset (w_h s) n v) (w_out s))) as [_ Ho].
    rewrite H in Ho. cbn in Ho. rewrite Ho by assumption. apply hset_same.
  - eapply IH; eassumption.
Qed.

(** ** Lists with exactly one element of a kind *)

Definition only {A} (P : A -> Prop) (l : list A) (a : A) : Prop :=
  exists l1 l2, l = l1 ++ a :: l2 /\ P a /\ forall b, In b (l1 ++ l2) -> ~ P b.

Lemma filter_nil_iff {A} (f : A -> bool) l :
  filter f l = [] <-> forall b, In b l -> f b = false.
Proof.
  induction l as [|a l IH]; cbn; [split; [intros _ b []|reflexivity]|].
  destruct (f a) eqn:E.
  - split; [discriminate|]. intros H. specialize (H a (or_introl eq_refl)). congruence.
  - rewrite IH. split.
    + intros H b [<-|Hb]; auto.
    + intros H b Hb. auto.
Qed.

Lemma filter_one {A} (f : A -> bool) (P : A -> Prop) l a :
  (forall b, In b l -> (f b = true <-> P b)) -> (filter f l = [a] <-> only P l a).
Proof.
  intros HfP. split.
  - induction l as [|b l IH]; cbn; [discriminate|].
    destruct (f b) eqn:E; intros H.
    + inversion H; subst. exists [], l. split; [reflexivity|].
      split; [apply HfP; [now left | assumption]|].
      cbn. intros c Hc Pc. apply HfP in Pc; [|now right].
      assert (F : f c = false) by (eapply (proj1 (filter_nil_iff f l)); eassumption). congruence.
    + destruct IH as (l1 & l2 & -> & Pa & Hn); [intros c Hc; apply HfP; now right | exact H |].
      exists (b :: l1), l2.
      split; [reflexivity|]. split; [assumption|]. cbn. intros c [<-|Hc] Pc.
      * apply HfP in Pc; [congruence | now left].
      * exact (Hn c Hc Pc).
  - intros (l1 & l2 & -> & Pa & Hn). rewrite filter_app. cbn.
    rewrite (proj2 (HfP a (in_elt a l1 l2)) Pa).
    assert (F1 : filter f l1 = []).
    { apply filter_nil_iff. intros b Hb. destruct (f b) eqn:E; [|reflexivity].
      exfalso. apply (Hn b); [apply in_or_app; now left|].
      apply HfP; [apply in_or_app; now left | assumption]. }
    assert (F2 : filter f l2 = []).
    { apply filter_nil_iff. intros b Hb. destruct (f b) eqn:E; [|reflexivity].
      exfalso. apply (Hn b); [apply in_or_app; now right|].
      apply HfP; [apply in_or_app; right; now right | assumption]. }
    now rewrite F1, F2.
Qed.

Lemma only_unique {A} (P : A -> Prop) l a b : only P l a -> only P l b -> a = b.
Proof.
  intros (l1 & l2 & E & Pa & Hn) (l3 & l4 & E' & Pb & _). subst l.
  assert (Hb : In b (l1 ++ a :: l2)) by (rewrite E'; apply in_or_app; right; now left).
  apply in_app_or in Hb. destruct Hb as [Hb|[Hb|Hb]].
  - exfalso. apply (Hn b); [apply in_or_app; now left | assumption].
  - assumption.
  - exfalso. apply (Hn b); [apply in_or_app; now right | assumption].
Qed.

Lemma oseqb_spec a b : oseqb a b = true <-> a = Some b.
Proof.
  destruct a as [x|]; cbn.
  - destruct (String.eqb_spec x b); split; intros; try congruence.
  - split; discriminate.
Qed.
