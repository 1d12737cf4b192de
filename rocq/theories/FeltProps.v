(** C54: the Felt index keeps one field per time and level and returns it. *)
From Coq Require Import ZArith List Bool Lia Sorting.Sorted.
From Coq Require Import ZifyBool ZifyNat.
From Verif Require Import Base FeltModel.
Import ListNotations.
Local Open Scope Z_scope.

(** ** Ordered maps *)
Section OMapFacts.
Context {K V : Type} (cmp : K -> K -> comparison).
Hypothesis cmp_eq : forall a b, cmp a b = Eq <-> a = b.
Hypothesis cmp_trans : forall a b c, cmp a b = Lt -> cmp b c = Lt -> cmp a c = Lt.
Hypothesis cmp_anti : forall a b, cmp b a = CompOpp (cmp a b).

Definition klt (a b : K) : Prop := cmp a b = Lt.
Definition ksorted (m : list (K * V)) : Prop := StronglySorted klt (map fst m).

Lemma ofind_oput_same k v (m : list (K * V)) : ofind cmp k (oput cmp k v m) = Some v.
Proof.
  assert (E : forall x, cmp x x = Eq) by (intro; apply cmp_eq; reflexivity).
  induction m as [|[k' v'] m IH]; cbn; [now rewrite E|].
  destruct (cmp k k') eqn:C; cbn; rewrite ?E, ?C; auto.
Qed.

Lemma ofind_oput_other k k0 v (m : list (K * V)) : k0 <> k -> ofind cmp k0 (oput cmp k v m) = ofind cmp k0 m.
Proof.
  intro N. assert (NE : cmp k0 k <> Eq) by (rewrite cmp_eq; exact N).
  induction m as [|[k' v'] m IH]; cbn.
  - destruct (cmp k0 k); congruence.
  - destruct (cmp k k') eqn:C; cbn.
    + apply cmp_eq in C as ->. destruct (cmp k0 k'); congruence.
    + destruct (cmp k0 k); congruence.
    + rewrite IH. reflexivity.
Qed.

Lemma oput_keys k v (m : list (K * V)) x : In x (map fst (oput cmp k v m)) <-> x = k \/ In x (map fst m).
Proof.
  induction m as [|[k' v'] m IH]; cbn; [intuition|].
  destruct (cmp k k') eqn:C; cbn.
  - apply cmp_eq in C as ->. intuition.
  - intuition.
  - rewrite IH. intuition.
Qed.

Lemma oput_sorted k v (m : list (K * V)) : ksorted m -> ksorted (oput cmp k v m).
Proof.
  unfold ksorted. induction m as [|[k' v'] m IH]; cbn; intro S.
  - repeat constructor.
  - inversion S as [|? ? S1 F]; subst. destruct (cmp k k') eqn:C; cbn.
    + apply cmp_eq in C as ->. exact S.
    + constructor; [exact S|]. constructor; [exact C|].
      eapply Forall_impl; [|exact F]. intros a Ha. eapply cmp_trans; eassumption.
    + constructor; [apply IH; exact S1|]. apply Forall_forall. intros x Hx.
      apply oput_keys in Hx as [->|Hx].
      * unfold klt. rewrite cmp_anti, C. reflexivity.
      * revert Hx. apply Forall_forall. exact F.
Qed.

Lemma ofind_in k (m : list (K * V)) : In k (map fst m) <-> ofind cmp k m <> None.
Proof.
  induction m as [|[k' v'] m IH]; cbn; [intuition|].
  destruct (cmp k k') eqn:C.
  - apply cmp_eq in C as ->. intuition discriminate.
  - rewrite <- IH. assert (k' <> k) by (intros ->; assert (cmp k k = Eq) by (apply cmp_eq; auto); congruence). intuition.
  - rewrite <- IH. assert (k' <> k) by (intros ->; assert (cmp k k = Eq) by (apply cmp_eq; auto); congruence). intuition.
Qed.

Lemma ofind_entry k v (m : list (K * V)) : ksorted m -> (In (k, v) m <-> ofind cmp k m = Some v).
Proof.
  unfold ksorted. induction m as [|[k' v'] m IH]; cbn; intro S; [intuition discriminate|].
  inversion S as [|? ? S1 F]; subst. destruct (cmp k k') eqn:C.
  - apply cmp_eq in C as ->. split.
    + intros [E|E]; [injection E as ->; reflexivity|]. exfalso.
      apply (in_map fst) in E. apply (proj1 (Forall_forall _ _) F) in E. cbn in E. unfold klt in E.
      assert (cmp k' k' = Eq) by (apply cmp_eq; reflexivity). congruence.
    + intros [= ->]. left; reflexivity.
  - rewrite <- (IH S1). split; [intros [E|E]; [|exact E]|auto].
    injection E as -> ->. assert (cmp k k = Eq) by (apply cmp_eq; reflexivity). congruence.
  - rewrite <- (IH S1). split; [intros [E|E]; [|exact E]|auto].
    injection E as -> ->. assert (cmp k k = Eq) by (apply cmp_eq; reflexivity). congruence.
Qed.
End OMapFacts.

Lemma oins_all {K} (cmp : K -> K -> comparison)
  (cmp_eq : forall a b, cmp a b = Eq <-> a = b)
  (cmp_trans : forall a b c, cmp a b = Lt -> cmp b c = Lt -> cmp a c = Lt)
  (cmp_anti : forall a b, cmp b a = CompOpp (cmp a b)) l :
  forall m, ksorted cmp m ->
    ksorted cmp (fold_left (oins cmp) l m) /\
    forall x, In x (map fst (fold_left (oins cmp) l m)) <-> In x l \/ In x (map fst m).
Proof.
  induction l as [|a l IH]; intros m S; cbn [fold_left]; [split; [exact S|intro; cbn; intuition]|].
  destruct (IH (oins cmp m a)) as [S' I']; [apply oput_sorted; assumption|].
  split; [exact S'|]. intro x. rewrite I'. unfold oins. rewrite oput_keys by assumption. cbn. intuition.
Qed.

Lemma zcmp_eq a b : (a ?= b) = Eq <-> a = b.
Proof. apply Z.compare_eq_iff. Qed.
Lemma zcmp_trans a b c : (a ?= b) = Lt -> (b ?= c) = Lt -> (a ?= c) = Lt.
Proof. rewrite !Z.compare_lt_iff. lia. Qed.
Lemma zcmp_anti a b : (b ?= a) = CompOpp (a ?= b).
Proof. apply Z.compare_antisym. Qed.

Lemma lcmp_lt a b : lcmp a b = Lt <-> fst a < fst b \/ fst a = fst b /\ snd a < snd b.
Proof. unfold lcmp. destruct (fst a =? fst b) eqn:E; rewrite Z.compare_lt_iff; lia. Qed.
Lemma lcmp_eq a b : lcmp a b = Eq <-> a = b.
Proof.
  destruct a as [x1 x2], b as [y1 y2]. unfold lcmp; cbn [fst snd].
  destruct (x1 =? y1) eqn:E; rewrite Z.compare_eq_iff; (split; [intro|intros [= -> ->]]).
  - f_equal; lia.
  - reflexivity.
  - lia.
  - lia.
Qed.
Lemma lcmp_trans a b c : lcmp a b = Lt -> lcmp b c = Lt -> lcmp a c = Lt.
Proof. rewrite !lcmp_lt. lia. Qed.
Lemma lcmp_anti a b : lcmp b a = CompOpp (lcmp a b).
Proof.
  unfold lcmp. rewrite (Z.eqb_sym (fst b)). destruct (fst a =? fst b); apply Z.compare_antisym.
Qed.

Definition level_dec (a b : level) : {a = b} + {a <> b}.
Proof. decide equality; apply Z.eq_dec. Defined.

Section Felt.
Context {A : Type}.
Notation field := (field A).
Notation farray := (farray A).

(** ** What the index should hold, stated for one time and level only *)

(** a field belongs at time [t], level [l] *)
Definition at_key (t : Z) (l : level) (f : field) : Prop :=
  f_time f = t /\ f_level1 f = fst l /\ f_word13 f = snd l.

Definition at_key_dec t l f : {at_key t l f} + {~ at_key t l f}.
Proof.
  unfold at_key. destruct (Z.eq_dec (f_time f) t), (Z.eq_dec (f_level1 f) (fst l)), (Z.eq_dec (f_word13 f) (snd l)); intuition.
Defined.

(** a field that may be added to the array of [d] *)
Definition fits (d f : field) : Prop :=
  f_valid f = true /\ f_param f = f_param d /\ f_vcoord f = f_vcoord d.

Definition fits_dec d f : {fits d f} + {~ fits d f}.
Proof.
  unfold fits. destruct (f_valid f), (Z.eq_dec (f_param f) (f_param d)), (Z.eq_dec (f_vcoord f) (f_vcoord d)); intuition.
Defined.

(** the field held at one key: the first that fits, replaced by later ones of another data type *)
Definition offer (d : field) (t : Z) (l : level) (cur : option field) (f : field) : option field :=
  if fits_dec d f then
    if at_key_dec t l f then
      match cur with
      | None => Some f
      | Some g => if Z.eq_dec (f_dtype g) (f_dtype f) then cur else Some f
      end
    else cur
  else cur.

Definition held (d : field) (fs : list field) (t : Z) (l : level) : option field :=
  fold_left (offer d t l) fs (if at_key_dec t l d then Some d else None).

(** the array after its constructor and any attempts to add fields, some of which may throw *)
Definition attempt (a : farray) (f : field) : farray :=
  match add_info a f with Ok a' => a' | _ => a end.

Definition built (d : field) (fs : list field) (a : farray) : Prop :=
  exists a0, new_array d = Ok a0 /\ a = fold_left attempt fs a0.

(** ** Invariant *)
Definition find2 (m : list (Z * list (level * field))) (t : Z) (l : level) : option field :=
  match ofind Z.compare t m with Some lm => ofind lcmp l lm | None => None end.

Definition good (m : list (Z * list (level * field))) : Prop :=
  ksorted Z.compare m /\ forall t lm, In (t, lm) m -> ksorted lcmp lm /\ lm <> [].

Lemma f_level_key (f : field) : f_level f = (f_level1 f, f_word13 f).
Proof. unfold f_level, f_version, f_level2. destruct (f_eps f); reflexivity. Qed.

Lemma at_key_spec t l (f : field) : at_key t l f <-> t = f_time f /\ l = f_level f.
Proof.
  rewrite f_level_key. unfold at_key. destruct l as [a b]; cbn [fst snd]. split.
  - intros (-> & -> & ->). auto.
  - intros [-> [= -> ->]]. auto.
Qed.

Lemma oput_ne {K V} cmp k v (m : list (K * V)) : oput cmp k v m <> [].
Proof. destruct m as [|[k' v'] m]; cbn; [discriminate|destruct (cmp k k'); discriminate]. Qed.

Lemma add_at_good m f lm :
  good m -> ksorted lcmp lm -> good (oput Z.compare (f_time f) (oput lcmp (f_level f) f lm) m).
Proof.
  intros [S G] Sl. split; [apply (oput_sorted _ zcmp_eq zcmp_trans zcmp_anti); exact S|].
  intros t x Hx.
  apply (ofind_entry Z.compare zcmp_eq) in Hx.
  2: { apply (oput_sorted _ zcmp_eq zcmp_trans zcmp_anti); exact S. }
  destruct (Z.eq_dec t (f_time f)) as [->|N].
  - rewrite (ofind_oput_same _ zcmp_eq) in Hx. injection Hx as <-.
    split; [apply (oput_sorted _ lcmp_eq lcmp_trans lcmp_anti); exact Sl|apply oput_ne].
  - rewrite (ofind_oput_other _ zcmp_eq) in Hx by exact N. apply (ofind_entry _ zcmp_eq _ _ _ S) in Hx.
    exact (G _ _ Hx).
Qed.

Lemma find2_put m f lm t l :
  (forall l', ofind lcmp l' lm = find2 m (f_time f) l') ->
  find2 (oput Z.compare (f_time f) (oput lcmp (f_level f) f lm) m) t l =
  if at_key_dec t l f then Some f else find2 m t l.
Proof.
  intro H. unfold find2 at 1. destruct (at_key_dec t l f) as [K|K]; rewrite at_key_spec in K.
  - destruct K as [-> ->]. rewrite (ofind_oput_same _ zcmp_eq), (ofind_oput_same _ lcmp_eq). reflexivity.
  - destruct (Z.eq_dec t (f_time f)) as [->|N].
    + rewrite (ofind_oput_same _ zcmp_eq). rewrite (ofind_oput_other _ lcmp_eq) by intuition. apply H.
    + rewrite (ofind_oput_other _ zcmp_eq) by exact N. reflexivity.
Qed.

Lemma add_field_spec m f : good m ->
  match add_field m f with
  | Ok m' => good m' /\ (forall t l, find2 m' t l = if at_key_dec t l f then Some f else find2 m t l) /\
             (forall g, find2 m (f_time f) (f_level f) = Some g -> f_dtype g <> f_dtype f)
  | Throw => exists g, find2 m (f_time f) (f_level f) = Some g /\ f_dtype g = f_dtype f
  | _ => False
  end.
Proof.
  intros G. pose proof G as [S Gi]. unfold add_field.
  destruct (ofind Z.compare (f_time f) m) as [lm|] eqn:Et.
  - assert (Sl : ksorted lcmp lm) by (apply (ofind_entry _ zcmp_eq _ _ _ S) in Et; exact (proj1 (Gi _ _ Et))).
    assert (H : forall l', ofind lcmp l' lm = find2 m (f_time f) l') by (intro; unfold find2; rewrite Et; reflexivity).
    destruct (ofind lcmp (f_level f) lm) as [g|] eqn:El.
    + assert (Fg : find2 m (f_time f) (f_level f) = Some g) by (rewrite <- H; exact El).
      destruct (f_dtype g =? f_dtype f) eqn:D.
      * exists g. split; [exact Fg|lia].
      * split; [apply add_at_good; assumption|]. split; [intros; apply find2_put; exact H|].
        intros g' Hg'. rewrite Fg in Hg'. injection Hg' as <-. lia.
    + split; [apply add_at_good; assumption|]. split; [intros; apply find2_put; exact H|].
      intros g'. rewrite <- H, El. discriminate.
  - split; [apply add_at_good; [exact G|constructor]|].
    assert (H : forall l', ofind lcmp l' (@nil (level * field)) = find2 m (f_time f) l')
      by (intro; unfold find2; rewrite Et; reflexivity).
    split; [intros; apply find2_put; exact H|].
    intros g'. rewrite <- H. discriminate.
Qed.

Definition inv (d : field) (sofar : Z -> level -> option field) (a : farray) : Prop :=
  a_default a = d /\ good (a_fields a) /\ a_fields a <> [] /\ forall t l, find2 (a_fields a) t l = sofar t l.

Lemma attempt_inv d sofar a f : inv d sofar a ->
  inv d (fun t l => offer d t l (sofar t l) f) (attempt a f).
Proof.
  intros (D & G & NE & H). unfold attempt, add_info.
  destruct (f_valid f) eqn:V; cbn [negb].
  2: { split; [exact D|]. split; [exact G|]. split; [exact NE|]. intros t l. rewrite H. unfold offer.
       destruct (fits_dec d f) as [[? ?]|]; [congruence|reflexivity]. }
  rewrite D. destruct ((f_param d =? f_param f) && (f_vcoord d =? f_vcoord f)) eqn:P; cbn [negb].
  2: { split; [exact D|]. split; [exact G|]. split; [exact NE|]. intros t l. rewrite H. unfold offer.
       destruct (fits_dec d f) as [(? & ? & ?)|]; [lia|reflexivity]. }
  assert (F : fits d f) by (unfold fits; intuition lia).
  pose proof (add_field_spec (a_fields a) f G) as Sp.
  destruct (add_field (a_fields a) f) as [m| | |] eqn:E; try contradiction; cbn [obind].
  - destruct Sp as (G' & Hf & Hd). split; [reflexivity|]. split; [exact G'|].
    split.
    { cbn [a_fields]. intro Z0. rewrite Z0 in Hf. specialize (Hf (f_time f) (f_level f)).
      destruct (at_key_dec (f_time f) (f_level f) f) as [|n]; [discriminate|].
      apply n. apply at_key_spec. auto. }
    intros t l. cbn [a_fields]. rewrite Hf, H. unfold offer.
    destruct (fits_dec d f); [|contradiction]. destruct (at_key_dec t l f) as [K|K]; [|reflexivity].
    apply at_key_spec in K as [-> ->]. destruct (sofar (f_time f) (f_level f)) as [g|] eqn:Sg; [|reflexivity].
    destruct (Z.eq_dec (f_dtype g) (f_dtype f)) as [Q|]; [|reflexivity].
    exfalso. apply (Hd g); [rewrite H; exact Sg|exact Q].
  - destruct Sp as (g & Hg & Hd). split; [exact D|]. split; [exact G|]. split; [exact NE|].
    intros t l. rewrite H. unfold offer. destruct (fits_dec d f); [|reflexivity].
    destruct (at_key_dec t l f) as [K|K]; [|reflexivity].
    apply at_key_spec in K as [-> ->]. rewrite <- H, Hg. destruct (Z.eq_dec (f_dtype g) (f_dtype f)); [reflexivity|contradiction].
Qed.

Lemma attempts_inv d fs : forall sofar a, inv d sofar a ->
  inv d (fun t l => fold_left (offer d t l) fs (sofar t l)) (fold_left attempt fs a).
Proof.
  induction fs as [|f fs IH]; intros sofar a I; [exact I|].
  cbn [fold_left]. apply (IH (fun t l => offer d t l (sofar t l) f)). apply attempt_inv. exact I.
Qed.

Lemma built_inv d fs a : built d fs a -> inv d (held d fs) a.
Proof.
  intros (a0 & H0 & ->). apply (attempts_inv d fs (fun t l => if at_key_dec t l d then Some d else None)).
  unfold new_array in H0. cbn in H0. injection H0 as <-.
  split; [reflexivity|]. split.
  - split; [repeat constructor|]. intros t lm [[= <- <-]|[]]. split; [repeat constructor|discriminate].
  - split; [discriminate|]. intros t l.
    apply (find2_put [] d [] t l). intro; reflexivity.
Qed.

(** ** The theorems *)

(** constructing an array never fails *)
Theorem C54_always_built d fs : exists a, built d fs a.
Proof.
  unfold built, new_array. cbn.
  exists (fold_left attempt fs (FArray d [(f_time d, [(f_level d, d)])])).
  eexists. split; reflexivity.
Qed.

(** a field is rejected exactly if it is of another parameter or vertical coordinate, or if a field of
    the same data type is already held at its time and level; the array is then left as it was *)
Theorem C54_rejected d fs a f :
  built d fs a ->
  (add_info a f = Throw <->
   f_valid f = true /\
   ((f_param f <> f_param d \/ f_vcoord f <> f_vcoord d) \/
    exists g, held d fs (f_time f) (f_level1 f, f_word13 f) = Some g /\ f_dtype g = f_dtype f)) /\
  (add_info a f = Throw \/ exists a', add_info a f = Ok a').
Proof.
  intros B. destruct (built_inv _ _ _ B) as (D & G & NE & H). unfold add_info. rewrite D.
  destruct (f_valid f); cbn [negb].
  2: { split; [split; [discriminate|intros [[=] _]]|right; eauto]. }
  destruct ((f_param d =? f_param f) && (f_vcoord d =? f_vcoord f)) eqn:P; cbn [negb].
  2: { split; [|auto]. split; [intros _; split; [reflexivity|left; lia]|auto]. }
  rewrite <- f_level_key. pose proof (add_field_spec (a_fields a) f G) as Sp.
  destruct (add_field (a_fields a) f) as [m| | |]; try contradiction; cbn [obind].
  - destruct Sp as (_ & _ & Hd). split; [|right; eauto]. split; [discriminate|].
    intros [_ [N|(g & Hg & Q)]]; [lia|]. exfalso. apply (Hd g); [rewrite H; exact Hg|exact Q].
  - destruct Sp as (g & Hg & Q). split; [|auto]. split; [|auto]. intros _. split; [reflexivity|].
    right. exists g. rewrite <- H. auto.
Qed.

(** looking up a time and level gives the field held there *)
Theorem C54_get_field d fs a t l :
  built d fs a -> has_time a = true -> get_field a t l = held d fs t l.
Proof.
  intros B T. destruct (built_inv _ _ _ B) as (D & G & NE & H). unfold get_field. rewrite T. apply H.
Qed.

(** an array counts as timeless exactly if its first field has data type 4 and no field at another
    time is held; then the requested time does not matter *)
Theorem C54_timeless d fs a :
  built d fs a ->
  (has_time a = false <-> f_dtype d = 4 /\ forall t l, held d fs t l <> None -> t = f_time d) /\
  (has_time a = false -> get_times a = [] /\ forall t l, get_field a t l = held d fs (f_time d) l).
Proof.
  intros B. pose proof (built_inv _ _ _ B) as (D & G & NE & H).
  assert (Kd : exists g, held d fs (f_time d) (f_level d) = Some g).
  { unfold held. destruct (at_key_dec (f_time d) (f_level d) d) as [|n]; [|exfalso; apply n, at_key_spec; auto].
    generalize d at 4 as g. intro g. revert g. clear. induction fs as [|f fs IH]; intro g; cbn; eauto.
    unfold offer at 2. destruct (fits_dec d f); [|apply IH].
    destruct (at_key_dec (f_time d) (f_level d) f); [|apply IH].
    destruct (Z.eq_dec (f_dtype g) (f_dtype f)); apply IH. }
  assert (One : (length (a_fields a) = 1)%nat <-> forall t l, held d fs t l <> None -> t = f_time d).
  { split.
    - intros L t l Hn. rewrite <- H in Hn. destruct Kd as [g Kd]. rewrite <- H in Kd.
      destruct (a_fields a) as [|[t0 lm] [|? ?]]; try discriminate L. unfold find2 in Hn, Kd; cbn in Hn, Kd.
      destruct (t ?= t0) eqn:C; try congruence. destruct (f_time d ?= t0) eqn:C'; try discriminate.
      apply zcmp_eq in C, C'. congruence.
    - intros U. destruct (a_fields a) as [|[t0 lm0] [|[t1 lm1] r]] eqn:E; [congruence|reflexivity|exfalso].
      destruct G as [S Gi]. 
      assert (X : forall t lm, In (t, lm) ((t0, lm0) :: (t1, lm1) :: r) -> t = f_time d).
      { intros t lm I. pose proof (Gi _ _ I) as [Sl Nl]. destruct lm as [|[l0 f0] lm']; [congruence|].
        apply (U t l0). rewrite <- H. unfold find2. rewrite (proj1 (ofind_entry _ zcmp_eq _ _ _ S) I). cbn.
        rewrite (proj2 (lcmp_eq l0 l0) eq_refl). discriminate. }
      pose proof (X t0 lm0 (or_introl eq_refl)). pose proof (X t1 lm1 (or_intror (or_introl eq_refl))).
      inversion S as [|? ? _ F]; subst. inversion F as [|? ? F1 _]; subst. unfold klt in F1; cbn in F1.
      rewrite Z.compare_refl in F1. discriminate. }
  assert (HT : has_time a = false <-> (length (a_fields a) = 1)%nat /\ f_dtype d = 4).
  { unfold has_time. rewrite D, negb_false_iff, andb_true_iff, Nat.eqb_eq, Z.eqb_eq. reflexivity. }
  split; [rewrite HT, One; tauto|].
  intro T. split; [unfold get_times; rewrite T; reflexivity|].
  intros t l. unfold get_field. rewrite T, <- H. apply HT in T as [L _]. destruct Kd as [g Kd]. rewrite <- H in Kd.
  destruct (a_fields a) as [|[t0 lm] [|? ?]]; try discriminate L. unfold find2 in *; cbn in *.
  destruct (f_time d ?= t0); try discriminate. reflexivity.
Qed.

(** the times are those of the fields held, in increasing order without repetition *)
Theorem C54_times d fs a :
  built d fs a -> has_time a = true ->
  StronglySorted Z.lt (get_times a) /\
  forall t, In t (get_times a) <-> exists l g, held d fs t l = Some g.
Proof.
  intros B T. destruct (built_inv _ _ _ B) as (D & [S G] & NE & H). unfold get_times. rewrite T. split.
  - exact S.
  - intro t. split.
    + intro I. apply in_map_iff in I as ([t' lm] & <- & I). cbn [fst].
      pose proof (G _ _ I) as [Sl Nl]. destruct lm as [|[l0 f0] lm']; [congruence|].
      exists l0, f0. rewrite <- H. unfold find2. rewrite (proj1 (ofind_entry _ zcmp_eq _ _ _ S) I). cbn.
      rewrite (proj2 (lcmp_eq l0 l0) eq_refl). reflexivity.
    + intros (l & g & Hg). rewrite <- H in Hg. unfold find2 in Hg. apply (ofind_in _ zcmp_eq).
      destruct (ofind Z.compare t (a_fields a)); congruence.
Qed.

Lemma entries_spec d fs a l f :
  built d fs a -> (In (l, f) (entries a) <-> exists t, held d fs t l = Some f).
Proof.
  intros B. destruct (built_inv _ _ _ B) as (D & [S G] & NE & H). unfold entries. rewrite in_flat_map. split.
  - intros ([t lm] & I & I2). exists t. rewrite <- H. unfold find2.
    rewrite (proj1 (ofind_entry _ zcmp_eq _ _ _ S) I). apply ofind_entry; auto using lcmp_eq. exact (proj1 (G _ _ I)).
  - intros (t & Hh). rewrite <- H in Hh. unfold find2 in Hh.
    destruct (ofind Z.compare t (a_fields a)) as [lm|] eqn:E; [|discriminate].
    apply (ofind_entry _ zcmp_eq _ _ _ S) in E. exists (t, lm). split; [exact E|].
    cbn [snd]. apply (ofind_entry _ lcmp_eq) in Hh; [exact Hh|exact (proj1 (G _ _ E))].
Qed.

(** order of level pairs *)
Definition level_lt (a b : level) : Prop := fst a < fst b \/ fst a = fst b /\ snd a < snd b.

(** the levels are those of the fields held, sorted and without repetition; for an ensemble the
    second component is 0 and the members are listed separately *)
Theorem C54_levels_and_members d fs a :
  built d fs a ->
  StronglySorted level_lt (get_levels a) /\
  StronglySorted Z.lt (get_members a) /\
  (f_eps d = false ->
     (forall l, In l (get_levels a) <-> exists t g, held d fs t l = Some g) /\ get_members a = []) /\
  (f_eps d = true ->
     (forall l, In l (get_levels a) <-> snd l = 0 /\ exists m t g, held d fs t (fst l, m) = Some g) /\
     (forall m, In m (get_members a) <-> exists l1 t g, held d fs t (l1, m) = Some g)).
Proof.
  intros B. destruct (built_inv _ _ _ B) as (D & _).
  unfold get_levels, get_members. rewrite D.
  set (L := map _ (entries a)). set (M := map (fun e : level * field => snd (fst e)) (entries a)).
  destruct (oins_all lcmp lcmp_eq lcmp_trans lcmp_anti L []) as [SL IL]; [constructor|].
  destruct (oins_all Z.compare zcmp_eq zcmp_trans zcmp_anti M []) as [SM IM]; [constructor|].
  split.
  { unfold ksorted in SL. clear -SL. induction SL as [|x l S IH F]; constructor; auto.
    eapply Forall_impl; [|exact F]. intros y Hy. apply lcmp_lt. exact Hy. }
  split.
  { destruct (f_eps d); [|constructor]. exact SM. }
  split; intro E; rewrite E in *; subst L M.
  - split; [|reflexivity]. intro l. rewrite IL. cbn [map In]. rewrite in_map_iff. split.
    + intros [([l' f] & <- & I)|[]]. apply (entries_spec d fs a) in I; [|exact B]. destruct I as [t I]. cbn; rewrite ?E; eauto.
    + intros (t & g & Hg). left. exists (l, g). split; [rewrite E; reflexivity|]. apply (entries_spec d fs a); eauto.
  - split.
    + intro l. rewrite IL. cbn [map In]. rewrite in_map_iff. split.
      * intros [([[l1 m] f] & <- & I)|[]]. apply (entries_spec d fs a) in I; [|exact B]. destruct I as [t I]. cbn; rewrite ?E; eauto.
      * intros (Z0 & m & t & g & Hg). left. exists ((fst l, m), g). split; [rewrite E; destruct l; cbn in *; congruence|].
        apply (entries_spec d fs a); eauto.
    + intro m. rewrite IM. cbn [map In]. rewrite in_map_iff. split.
      * intros [([[l1 m'] f] & <- & I)|[]]. apply (entries_spec d fs a) in I; [|exact B]. destruct I as [t I]. cbn; rewrite ?E; eauto.
      * intros (l1 & t & g & Hg). left. exists ((l1, m), g). split; [reflexivity|].
        apply (entries_spec d fs a); eauto.
Qed.

(** ** Slices *)

(** the values that belong to one level and member of a slice *)
Definition layer (d : field) (fs : list field) (t : Z) (l : level) (xy : nat) (fill : A) : list A :=
  match held d fs t l with Some f => f_data f | None => repeat fill xy end.

(** the fields all live on the same grid *)
Definition same_grid (d : field) (fs : list field) (delta : list Z) (xy : nat) : Prop :=
  forall f, In f (d :: fs) ->
    grid_type f = grid_type d /\ params_ok (f_params f) (f_params d) delta = true /\ length (f_data f) = xy.

Lemma held_in d fs t l f : held d fs t l = Some f -> In f (d :: fs).
Proof.
  unfold held. assert (H : forall c, fold_left (offer d t l) fs c = Some f -> c = Some f \/ In f fs).
  { induction fs as [|g fs' IH]; intros c; cbn; auto. intro E. apply IH in E as [E|E]; [|auto].
    unfold offer in E. destruct (fits_dec d g); [|auto]. destruct (at_key_dec t l g); [|auto].
    destruct c as [g0|]; [destruct (Z.eq_dec (f_dtype g0) (f_dtype g)); [auto|]|]; injection E as ->; auto. }
  intro E. apply H in E as [E|E]; [|cbn; auto]. destruct (at_key_dec t l d); [injection E as ->; cbn; auto|discriminate].
Qed.

Lemma omapM_ok {X Y} (f : X -> outcome Y) g l : (forall x, In x l -> f x = Ok (g x)) -> omapM f l = Ok (map g l).
Proof.
  induction l as [|x l IH]; intro H; cbn; [reflexivity|].
  rewrite H by (left; reflexivity). cbn. rewrite IH by (intros; apply H; right; assumption). reflexivity.
Qed.

Lemma get_grid_ok d fs a t l delta xy fill :
  built d fs a -> has_time a = true -> same_grid d fs delta xy ->
  (do g <- get_grid a t l delta;
   match g with None => Ok (repeat fill xy) | Some x => if (length x =? xy)%nat then Ok x else UB end)
  = Ok (layer d fs t l xy fill).
Proof.
  intros B T SG. unfold get_grid, layer. rewrite (C54_get_field d fs a t l B T).
  pose proof (built_inv _ _ _ B) as (D & _). rewrite D.
  destruct (held d fs t l) as [f|] eqn:E; [|reflexivity].
  destruct (SG f (held_in _ _ _ _ _ E)) as (G1 & G2 & G3).
  rewrite G1, Z.eqb_refl, G2. cbn. rewrite G3, Nat.eqb_refl. reflexivity.
Qed.

(** the slice of a variable with a level dimension and, if asked for, an ensemble dimension consists
    of one block per level and member, members inside levels; each block has the values of the field
    held at that time, level and member, or fill values *)
Theorem C54_slice d fs a timeVec pos t layers members delta xy fill :
  built d fs a -> has_time a = true -> same_grid d fs delta xy ->
  nth_error timeVec pos = Some t -> In t (get_times a) ->
  get_slice a timeVec pos (Some layers) members delta xy fill =
  Ok (match members with
      | None => flat_map (fun l => layer d fs t l xy fill) layers
      | Some ms => flat_map (fun l => flat_map (fun m => layer d fs t (fst l, m) xy fill) ms) layers
      end).
Proof.
  intros B T SG Ht It. unfold get_slice.
  assert (Lp : (pos < length timeVec)%nat) by (apply nth_error_Some; congruence).
  replace (length timeVec <? pos)%nat with false by lia.
  destruct (get_times a) as [|x ts] eqn:Et; [destruct It|]. rewrite Ht. cbn [rd obind].
  assert (Ex : existsb (Z.eqb t) (x :: ts) = true) by (apply existsb_exists; exists t; split; [exact It|apply Z.eqb_refl]).
  rewrite Ex. cbn [negb]. unfold slice_pairs. cbn [obind].
  set (ps := match members with Some ms => _ | None => _ end).
  rewrite omapM_ok with (g := fun l => layer d fs t l xy fill).
  2: { intros l _. destruct timeVec as [|? ?]; [cbn in Lp; lia|]. cbn [obind].
       apply (get_grid_ok d fs a t l delta xy fill B T SG). }
  cbn [obind]. f_equal. subst ps. destruct members as [ms|].
  - rewrite <- flat_map_concat_map. induction layers as [|l r IH]; [reflexivity|].
    cbn [flat_map]. etransitivity; [apply flat_map_app|]. f_equal; [|exact IH].
    clear. induction ms as [|m ms IH]; [reflexivity|]. cbn. rewrite IH. reflexivity.
  - symmetry. apply flat_map_concat_map.
Qed.

(** a time of the file at which the parameter has no field gives an empty slice *)
Theorem C54_slice_other_time d fs a timeVec pos t layers members delta xy fill :
  built d fs a -> has_time a = true ->
  nth_error timeVec pos = Some t -> (forall l, held d fs t l = None) ->
  get_slice a timeVec pos layers members delta xy fill = Ok [].
Proof.
  intros B T Ht Hn. unfold get_slice.
  assert (Lp : (pos < length timeVec)%nat) by (apply nth_error_Some; congruence).
  replace (length timeVec <? pos)%nat with false by lia.
  destruct (C54_times d fs a B T) as [_ It].
  assert (NT : ~ In t (get_times a)) by (rewrite It; intros (l & g & Hg); rewrite Hn in Hg; discriminate).
  destruct (get_times a) as [|x ts] eqn:Et.
  { exfalso. unfold get_times in Et. rewrite T in Et. destruct (built_inv _ _ _ B) as (_ & _ & NE & _).
    destruct (a_fields a); [congruence|discriminate]. }
  rewrite Ht. cbn [rd obind].
  destruct (existsb (Z.eqb t) (x :: ts)) eqn:Ex; [|reflexivity].
  exfalso. apply existsb_exists in Ex as (y & Iy & Ey). apply Z.eqb_eq in Ey as <-. exact (NT Iy).
Qed.

(** Finding: the bounds check of FeltCDMReader2.cc:631 lets the position just after the last time
    through, and the time there is read anyway *)
Theorem C54_position_past_end d fs a timeVec layers members delta xy fill :
  built d fs a -> has_time a = true ->
  get_slice a timeVec (length timeVec) layers members delta xy fill = UB.
Proof.
  intros B T. unfold get_slice. rewrite Nat.ltb_irrefl.
  destruct (built_inv _ _ _ B) as (_ & _ & NE & _).
  unfold get_times. rewrite T. destruct (a_fields a) as [|e r] eqn:E; [congruence|]. cbn [map].
  replace (nth_error timeVec (length timeVec)) with (@None Z) by (symmetry; apply nth_error_None; lia).
  reflexivity.
Qed.

(** Finding: an ensemble parameter of which the file has exactly one member gets no ensemble dimension,
    its levels are listed with second component 0, and unless the member is number 0 every slice
    consists of fill values although the fields are there *)
Theorem C54_single_member d fs a timeVec pos t m l delta xy fill :
  built d fs a -> has_time a = true -> f_eps d = true ->
  (forall t' l' g, held d fs t' l' = Some g -> snd l' = m) -> m <> 0 ->
  nth_error timeVec pos = Some t -> In t (get_times a) -> In l (get_levels a) ->
  has_member_dim a = false /\
  (exists t' g, held d fs t' (fst l, m) = Some g) /\
  get_slice a timeVec pos (Some [l]) None delta xy fill = Ok (repeat fill xy).
Proof.
  intros B T E U Nm Ht It Il.
  destruct (C54_levels_and_members d fs a B) as (_ & SM & _ & HE). destruct (HE E) as [HL HM].
  apply HL in Il as (Z0 & m' & t' & g & Hg). pose proof (U _ _ _ Hg) as Q. cbn in Q. subst m'.
  split; [|split; [eauto|]].
  - unfold has_member_dim. assert (A1 : forall x, In x (get_members a) -> x = m).
    { intros x Ix. apply HM in Ix as (l1 & t1 & g1 & H1). exact (U _ _ _ H1). }
    destruct (get_members a) as [|x [|y r]]; try reflexivity. exfalso.
    pose proof (A1 x (or_introl eq_refl)). pose proof (A1 y (or_intror (or_introl eq_refl))).
    inversion SM as [|? ? _ F]; subst. inversion F; subst. lia.
  - unfold get_slice.
    assert (Lp : (pos < length timeVec)%nat) by (apply nth_error_Some; congruence).
    replace (length timeVec <? pos)%nat with false by lia.
    destruct (get_times a) as [|x ts] eqn:Et; [destruct It|]. rewrite Ht. cbn [rd obind].
    assert (Ex : existsb (Z.eqb t) (x :: ts) = true) by (apply existsb_exists; exists t; split; [exact It|apply Z.eqb_refl]).
    rewrite Ex. cbn [negb slice_pairs obind omapM].
    destruct timeVec as [|t0 tv]; [cbn in Lp; lia|]. cbn [obind]. unfold get_grid.
    rewrite (C54_get_field d fs a t l B T).
    destruct (held d fs t l) as [f|] eqn:Hf; [apply U in Hf; congruence|].
    cbn. rewrite app_nil_r. reflexivity.
Qed.

End Felt.

(** ** A concrete case: two times, two levels, one field replaced by another data type, one duplicate,
    one field of another parameter, one without data *)
Definition ex_field (t dt p l1 w : Z) (eps v : bool) (x : Z) : field Z :=
  Field t dt p 2 eps l1 w v 1 [10; 20; 30; 40; 50; 60] [x; x + 1].

Definition ex_d := ex_field 6 1 31 500 0 false true 100.
Definition ex_fs :=
  [ex_field 0 1 31 850 0 false true 200; ex_field 6 3 31 500 0 false true 300;
   ex_field 6 3 31 500 0 false true 400; ex_field 6 1 33 500 0 false true 500;
   ex_field 0 1 31 500 0 false false 600].

Example C54_nonvacuous : exists a,
  built ex_d ex_fs a /\ has_time a = true /\ same_grid ex_d ex_fs [0; 0; 0; 0; 0; 0] 2 /\
  get_times a = [0; 6] /\ get_levels a = [(500, 0); (850, 0)] /\
  get_slice a [0; 3; 6] 2 (Some [(500, 0); (850, 0)]) None [0; 0; 0; 0; 0; 0] 2 (-1) = Ok [300; 301; -1; -1] /\
  get_slice a [0; 3; 6] 1 (Some [(500, 0); (850, 0)]) None [0; 0; 0; 0; 0; 0] 2 (-1) = Ok [].
Proof.
  destruct (C54_always_built ex_d ex_fs) as [a Ba]. exists a. split; [exact Ba|].
  destruct Ba as (a0 & H0 & ->). unfold new_array in H0. vm_compute in H0. injection H0 as <-.
  split; [reflexivity|]. split.
  { intros f I. cbn in I. intuition (subst; vm_compute; auto). }
  vm_compute. auto.
Qed.

(** the ensemble case with two members *)
Definition ens_d := ex_field 6 1 31 500 3 true true 100.
Definition ens_fs := [ex_field 6 1 31 500 7 true true 200].

Example C54_nonvacuous_ensemble : exists a,
  built ens_d ens_fs a /\ has_time a = true /\ has_member_dim a = true /\ get_members a = [3; 7] /\
  get_levels a = [(500, 0)] /\
  get_slice a [6] 0 (Some [(500, 0)]) (Some [1; 3; 7]) [0; 0; 0; 0; 0; 0] 2 (-1) = Ok [-1; -1; 100; 101; 200; 201].
Proof.
  destruct (C54_always_built ens_d ens_fs) as [a Ba]. exists a. split; [exact Ba|].
  destruct Ba as (a0 & H0 & ->). unfold new_array in H0. vm_compute in H0. injection H0 as <-.
  vm_compute. auto.
Qed.

(** ... and the single member that cannot be read *)
Example C54_single_member_case : exists a,
  built ens_d [] a /\ get_levels a = [(500, 0)] /\
  get_slice a [6] 0 (Some [(500, 0)]) None [0; 0; 0; 0; 0; 0] 2 (-1) = Ok [-1; -1].
Proof.
  destruct (C54_always_built ens_d []) as [a Ba]. exists a. split; [exact Ba|].
  destruct Ba as (a0 & H0 & ->). unfold new_array in H0. vm_compute in H0. injection H0 as <-.
  vm_compute. auto.
Qed.

(** a field on another grid is refused: another type of grid, where a type of four or more digits is shortened by
    three digits, or a parameter that differs by more than the allowed difference *)
Definition short_type (g b : Z) : Prop := (g < 1000 /\ b = g) \/ (1000 <= g /\ 1000 * b <= g < 1000 * (b + 1)).
Definition grid_differs {A} (d f : @field A) (delta : list Z) : Prop :=
  (exists bd bf, short_type (f_gridtype d) bd /\ short_type (f_gridtype f) bf /\ bd <> bf) \/
  (exists i n p x, nth_error (f_params f) i = Some n /\ nth_error (f_params d) i = Some p /\ nth_error delta i = Some x /\
     n <> p /\ x < Z.abs (n - p)).
Lemma short_type_spec {A} (f : @field A) b : short_type (f_gridtype f) b <-> b = grid_type f.
Proof.
  unfold short_type, grid_type. destruct (Z.leb_spec 1000 (f_gridtype f)) as [H|H].
  - assert (D := Z.quot_rem' (f_gridtype f) 1000). assert (R := Z.rem_bound_pos (f_gridtype f) 1000 ltac:(lia) ltac:(lia)). lia.
  - lia.
Qed.
Lemma params_ok_spec new : forall def delta, params_ok new def delta = false <->
  exists i n p x, nth_error new i = Some n /\ nth_error def i = Some p /\ nth_error delta i = Some x /\ n <> p /\ x < Z.abs (n - p).
Proof.
  induction new as [|n new IH]; intros def delta.
  { split; [discriminate|]. intros ([|i] & n & p & x & H & _); discriminate. }
  destruct def as [|p def]. { split; [discriminate|]. intros ([|i] & n' & p & x & _ & H & _); discriminate. }
  destruct delta as [|x delta]. { split; [discriminate|]. intros ([|i] & n' & p' & x & _ & _ & H & _); discriminate. }
  cbn [params_ok]. rewrite andb_false_iff, IH. split.
  - intros [H|(i & n' & p' & x' & H)]; [exists 0%nat, n, p, x; cbn; repeat split; lia|exists (S i), n', p', x'; exact H].
  - intros ([|i] & n' & p' & x' & H); [left; cbn in H; destruct H as ([= ->] & [= ->] & [= ->] & H1 & H2); lia|right; exists i, n', p', x'; exact H].
Qed.
Theorem C54_other_grid (A : Type) (d : @field A) fs a t l delta :
  built d fs a -> has_time a = true ->
  (held d fs t l = None -> get_grid a t l delta = Ok None) /\
  forall f, held d fs t l = Some f ->
    (grid_differs d f delta -> get_grid a t l delta = Throw) /\ (~ grid_differs d f delta -> get_grid a t l delta = Ok (Some (f_data f))).
Proof.
  intros B T. unfold get_grid. rewrite (C54_get_field d fs a t l B T). pose proof (built_inv _ _ _ B) as (D & _). rewrite D.
  split; [intros ->; reflexivity|]. intros f ->. unfold grid_differs. split.
  - intros [(bd & bf & Hd & Hf & N)|H].
    + apply short_type_spec in Hd, Hf. subst bd bf. destruct (Z.eqb_spec (grid_type d) (grid_type f)); [congruence|reflexivity].
    + apply params_ok_spec in H. rewrite H. destruct (negb (grid_type d =? grid_type f)); reflexivity.
  - intro H. destruct (Z.eqb_spec (grid_type d) (grid_type f)) as [|N]; cbn [negb].
    + destruct (params_ok (f_params f) (f_params d) delta) eqn:P; [reflexivity|]. apply params_ok_spec in P. exfalso. apply H. now right.
    + exfalso. apply H. left. exists (grid_type d), (grid_type f). rewrite !short_type_spec. auto.
Qed.
Example C54_other_grid_nonvacuous :
  let f g ps := Field 0 1 31 2 false 500 0 true g ps [7] in
  exists a, built (f 2 [10; 20]) [] a /\ has_time a = true /\ held (f 2 [10; 20]) [] 0 (500, 0) = Some (f 2 [10; 20]) /\
    grid_differs (f 2 [10; 20]) (f 3 [10; 20]) [1; 1] /\ grid_differs (f 2 [10; 20]) (f 2 [10; 18]) [1; 1] /\
    ~ grid_differs (f 2 [10; 20]) (f 2001 [11; 20]) [1; 1].
Proof.
  cbv zeta. destruct (C54_always_built (Field 0 1 31 2 false 500 0 true 2 [10; 20] [7]) []) as [a Ba]. exists a. split; [exact Ba|].
  destruct Ba as (a0 & H0 & ->). unfold new_array in H0. vm_compute in H0. injection H0 as <-.
  split; [reflexivity|]. split; [vm_compute; reflexivity|]. split; [|split].
  - left. exists 2, 3. unfold short_type. cbn [f_gridtype]. lia.
  - right. exists 1%nat, 18, 20, 1. cbn. repeat split; lia.
  - intros [(bd & bf & Hd & Hf & N)|(i & n & p & x & H1 & H2 & H3 & H4 & H5)].
    + unfold short_type in Hd, Hf. cbn [f_gridtype] in Hd, Hf. lia.
    + destruct i as [|[|[|i]]]; cbn in H1, H2, H3; try discriminate; injection H1 as <-; injection H2 as <-; injection H3 as <-; cbn in H5; lia.
Qed.
Print Assumptions C54_always_built.
Print Assumptions C54_rejected.
Print Assumptions C54_get_field.
Print Assumptions C54_timeless.
Print Assumptions C54_times.
Print Assumptions C54_levels_and_members.
Print Assumptions C54_slice.
Print Assumptions C54_slice_other_time.
Print Assumptions C54_position_past_end.
Print Assumptions C54_single_member.
Print Assumptions C54_other_grid.
