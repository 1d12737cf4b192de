(** Lemmas about GindModel. *)
From Coq Require Import PeanoNat ZArith NArith String List Bool Lia QArith Qcanon Sorting.Sorted.
From Verif Require Import Base StdMap StringModel CdmModel CdmProps GribModel GribProps GindModel.
Import ListNotations.
Local Open Scope string_scope.
Local Open Scope list_scope.
Local Open Scope nat_scope.

(** ** Sorted sets *)
Lemma set_insert_in x l y : In y (set_insert x l) <-> y = x \/ In y l.
Proof.
  induction l as [ | z l IH ]; cbn; [ intuition | ]. destruct (N.ltb_spec x z); cbn; [ intuition | ].
  destruct (N.eqb_spec x z); cbn; [ subst; intuition | ]. rewrite IH. intuition.
Qed.
Lemma set_insert_sorted x l : StronglySorted N.lt l -> StronglySorted N.lt (set_insert x l).
Proof.
  induction 1 as [ | z l S IH F ]; cbn; [ repeat constructor | ]. destruct (N.ltb_spec x z).
  - constructor; [ constructor; auto | ]. constructor; auto. eapply Forall_impl; [ | exact F ]. cbn. intros; lia.
  - destruct (N.eqb_spec x z); [ constructor; auto | ]. constructor; auto. apply Forall_forall. intros y Hy.
    apply set_insert_in in Hy as [ -> | Hy ]; [ lia | ]. rewrite Forall_forall in F. auto.
Qed.
Lemma z_insert_in x l y : In y (z_insert x l) <-> y = x \/ In y l.
Proof.
  induction l as [ | z l IH ]; cbn; [ intuition | ]. destruct (Z.ltb_spec x z); cbn; [ intuition | ].
  destruct (Z.eqb_spec x z); cbn; [ subst; intuition | ]. rewrite IH. intuition.
Qed.
Lemma z_insert_sorted x l : StronglySorted Z.lt l -> StronglySorted Z.lt (z_insert x l).
Proof.
  induction 1 as [ | z l S IH F ]; cbn; [ repeat constructor | ]. destruct (Z.ltb_spec x z).
  - constructor; [ constructor; auto | ]. constructor; auto. eapply Forall_impl; [ | exact F ]. cbn. intros; lia.
  - destruct (Z.eqb_spec x z); [ constructor; auto | ]. constructor; auto. apply Forall_forall. intros y Hy.
    apply z_insert_in in Hy as [ -> | Hy ]; [ lia | ]. rewrite Forall_forall in F. auto.
Qed.
Lemma sorted_nodup {A} (R : A -> A -> Prop) l : (forall a, ~ R a a) -> StronglySorted R l -> NoDup l.
Proof.
  intros I. induction 1 as [ | a l S IH F ]; constructor; auto. intro X. rewrite Forall_forall in F. apply (I a). auto.
Qed.
(** two sorted lists with the same elements are the same *)
Lemma sorted_same : forall l k : list Z, StronglySorted Z.lt l -> StronglySorted Z.lt k -> (forall x, In x l <-> In x k) -> l = k.
Proof.
  induction l as [ | a l IH ]; intros k S1 S2 E.
  - destruct k as [ | b k ]; auto. destruct (proj2 (E b)). cbn; auto.
  - destruct k as [ | b k ]; [ destruct (proj1 (E a)); cbn; auto | ].
    inversion_clear S1 as [ | ? ? S1' F1 ]. inversion_clear S2 as [ | ? ? S2' F2 ]. rewrite Forall_forall in F1, F2.
    assert (a = b).
    { destruct (proj1 (E a)) as [ | H ]; [ cbn; auto | auto | ]. destruct (proj2 (E b)) as [ | H' ]; [ cbn; auto | auto | ].
      apply F2 in H. apply F1 in H'. lia. }
    subst b. f_equal. apply IH; auto. intro x. specialize (E x). cbn in E. split; intro H.
    + destruct (proj1 E (or_intror H)) as [ -> | ]; auto. apply F1 in H. lia.
    + destruct (proj2 E (or_intror H)) as [ -> | ]; auto. apply F2 in H. lia.
Qed.

Lemma ofold_app {A S} (g : S -> A -> outcome S) l1 : forall l2 s, ofold g (l1 ++ l2) s = obind (ofold g l1 s) (ofold g l2).
Proof. induction l1 as [ | a l1 IH ]; intros l2 s; cbn; auto. destruct (g s a); cbn; auto. Qed.

(** ** Names *)
Lemma add_dim_ok n d : ~ In n d -> add_dim n d = Ok (d ++ [n]).
Proof.
  unfold add_dim. intro H. replace (existsb (String.eqb n) d) with false; auto. symmetry.
  apply not_true_iff_false. intro E. apply existsb_exists in E as (x & Hx & E). apply String.eqb_eq in E. subst. auto.
Qed.
Lemma add_dim_inv n d d' : add_dim n d = Ok d' -> ~ In n d /\ d' = d ++ [n].
Proof.
  unfold add_dim. destruct (existsb (String.eqb n) d) eqn:E; [ discriminate | ]. intro H. injection H as <-. split; auto.
  intro I. apply not_true_iff_false in E. apply E. apply existsb_exists. exists n. split; auto. apply String.eqb_refl.
Qed.
Lemma add_dim_throw n d : In n d -> add_dim n d = Throw.
Proof.
  unfold add_dim. intro H. replace (existsb (String.eqb n) d) with true; auto. symmetry. apply existsb_exists. exists n. split; auto. apply String.eqb_refl.
Qed.
Lemma nodup_snoc {A} (l : list A) x : NoDup l -> ~ In x l -> NoDup (l ++ [x]).
Proof. intros N I. apply NoDup_rev in N. rewrite <- (rev_involutive (l ++ [x])). apply NoDup_rev. rewrite rev_app_distr. cbn. constructor; auto. rewrite <- in_rev. auto. Qed.

Lemma name_each_ok id many l : forall i d, NoDup d ->
  exists ns, name_each id many i l d = Ok (ns, d ++ ns) /\ length ns = length l /\ NoDup (d ++ ns).
Proof.
  induction l as [ | x l IH ]; intros i d N; cbn [name_each].
  - exists []. rewrite app_nil_r. auto.
  - set (base := (id ++ _)%string).
    destruct (count_up_ends d (fun n => existsb (String.eqb n) d) base) as (n & E).
    { intros n H. apply existsb_exists in H as (y & Hy & Q). apply String.eqb_eq in Q. subst. auto. }
    rewrite E. cbn [obind]. apply count_up_spec in E as (T & _).
    assert (~ In n d) as I.
    { intro I. apply not_true_iff_false in T. apply T. apply existsb_exists. exists n. split; auto. apply String.eqb_refl. }
    rewrite add_dim_ok by auto. cbn [obind].
    destruct (IH (S i) (d ++ [n])) as (ns & -> & L & N'); [ apply nodup_snoc; auto | ]. cbn [obind fst snd].
    exists (n :: ns). rewrite <- app_assoc in *. cbn [app] in *. cbn. rewrite L. auto.
Qed.
Lemma name_levels_ok cf m : forall d, NoDup d ->
  exists nm, name_levels cf m d = Ok (nm, d ++ concat (map snd nm)) /\
    map fst nm = map fst m /\ map (fun x => length (snd x)) nm = map (fun x => length (snd x)) m /\ NoDup (d ++ concat (map snd nm)).
Proof.
  induction m as [ | [t l] m IH ]; intros d N; cbn [name_levels].
  - exists []. cbn. rewrite app_nil_r. auto.
  - destruct (name_each_ok (level_id cf t) (1 <? length l) l 0 d N) as (ns & -> & L & N'). cbn [obind fst snd].
    destruct (IH _ N') as (nm & -> & K & LL & N''). cbn [obind fst snd].
    exists ((t, ns) :: nm). cbn. rewrite app_assoc, K, LL, L. auto.
Qed.

(** ** Level lists *)
Lemma type_compare_eq a b : type_compare a b = Eq <-> a = b.
Proof.
  unfold type_compare. destruct a as [a1 a2], b as [b1 b2]. cbn. destruct (Z.compare_spec a1 b1); try (split; [ discriminate | intro H'; injection H'; lia ]).
  rewrite Z.compare_eq_iff. subst. split; [ congruence | intro H'; injection H'; auto ].
Qed.
Lemma type_compare_refl a : type_compare a a = Eq.
Proof. apply type_compare_eq. auto. Qed.
Definition tlt (a b : Z * Z) : Prop := (fst a < fst b \/ fst a = fst b /\ snd a < snd b)%Z.
Lemma type_compare_lt a b : type_compare a b = Lt <-> tlt a b.
Proof.
  unfold type_compare, tlt. destruct (Z.compare_spec (fst a) (fst b)).
  - rewrite Z.compare_lt_iff. lia.
  - split; auto; lia.
  - split; [ discriminate | lia ].
Qed.
Lemma type_compare_gt a b : type_compare a b = Gt <-> tlt b a.
Proof.
  unfold type_compare, tlt. destruct (Z.compare_spec (fst a) (fst b)).
  - rewrite Z.compare_gt_iff. lia.
  - split; [ discriminate | lia ].
  - split; auto; lia.
Qed.

Lemma at_type_cons {A} (t k : Z * Z) (a : A) m : at_type t ((k, a) :: m) = match type_compare t k with Eq => Some a | _ => at_type t m end.
Proof.
  unfold at_type. cbn [find fst snd]. destruct (type_compare t k) eqn:E.
  - apply type_compare_eq in E. subst. rewrite !Z.eqb_refl. reflexivity.
  - replace ((fst k =? fst t)%Z && (snd k =? snd t)%Z) with false; auto. symmetry. apply not_true_iff_false.
    rewrite andb_true_iff, !Z.eqb_eq. apply type_compare_lt in E. unfold tlt in E. lia.
  - replace ((fst k =? fst t)%Z && (snd k =? snd t)%Z) with false; auto. symmetry. apply not_true_iff_false.
    rewrite andb_true_iff, !Z.eqb_eq. apply type_compare_gt in E. unfold tlt in E. lia.
Qed.
Lemma at_type_in {A} (t : Z * Z) (a : A) m : at_type t m = Some a -> In (t, a) m.
Proof.
  induction m as [ | [k x] m IH ]; [ discriminate | ]. rewrite at_type_cons. destruct (type_compare t k) eqn:E.
  - intro H. injection H as <-. apply type_compare_eq in E. subst. cbn; auto.
  - intro. right; auto.
  - intro. right; auto.
Qed.

Lemma zl_eqb_eq a b : zl_eqb a b = true <-> a = b.
Proof. unfold zl_eqb. destruct (list_eq_dec Z.eq_dec a b); split; intro; congruence. Qed.
Lemma place_some lv l p : place lv l = Some p -> exists pv, nth_error l p = Some (pv, lv).
Proof.
  revert p. induction l as [ | [pv x] l IH ]; intro p; cbn; [ discriminate | ]. destruct (zl_eqb x lv) eqn:E.
  - intro H. injection H as <-. apply zl_eqb_eq in E. subst. cbn. eauto.
  - destruct (place lv l) as [ q | ]; cbn; [ | discriminate ]. intro H. injection H as <-. apply IH. auto.
Qed.
Lemma place_none lv l : place lv l = None -> ~ In lv (map snd l).
Proof.
  induction l as [ | [pv x] l IH ]; cbn; [ auto | ]. destruct (zl_eqb x lv) eqn:E; [ discriminate | ].
  destruct (place lv l); cbn; [ discriminate | ]. intros _ [ -> | H ]; [ | apply IH; auto ].
  rewrite (proj2 (zl_eqb_eq lv lv) eq_refl) in E. discriminate.
Qed.

(** keys in order, no list of levels twice for a type *)
Definition lwf (m : lmap) : Prop := StronglySorted tlt (map fst m) /\ Forall (fun x => NoDup (map snd (snd x))) m.

Lemma add_levels_spec t pv lv m : lwf m -> let '(m', p) := add_levels t pv lv m in
  lwf m' /\ (exists pv', at_level t p m' = Some (pv', lv)) /\
  (forall t' p' x, at_level t' p' m = Some x -> at_level t' p' m' = Some x) /\
  (forall t' p' x, at_level t' p' m' = Some x -> at_level t' p' m = Some x \/ (t' = t /\ p' = p /\ x = (pv, lv))) /\
  (forall k, In k (map fst m') -> k = t \/ In k (map fst m)).
Proof.
  induction m as [ | [k l] m IH ]; intro W; cbn [add_levels].
  - repeat split; [ repeat constructor | repeat constructor; auto | | discriminate | | ].
    + exists pv. unfold at_level. rewrite at_type_cons, type_compare_refl. reflexivity.
    + intros t' p' x H. right. unfold at_level in H. rewrite at_type_cons in H. destruct (type_compare t' t) eqn:E; try discriminate.
      apply type_compare_eq in E. destruct p' as [ | p' ]; cbn in H; [ injection H as <-; auto | destruct p'; discriminate ].
    + cbn. intuition.
  - destruct W as [ S F ]. cbn in S. inversion_clear S as [ | ? ? S' FF ]. inversion_clear F as [ | ? ? F0 F' ]. cbn in F0.
    destruct (type_compare t k) eqn:E.
    + apply type_compare_eq in E. subst k. destruct (place lv l) as [ p | ] eqn:P.
      * split; [ split; cbn; constructor; auto | ]. split; [ | auto ].
        apply place_some in P as (pv' & P). exists pv'. unfold at_level. rewrite at_type_cons, type_compare_refl. auto.
      * pose proof (place_none _ _ P) as NI. split; [ | split; [ | split; [ | split ] ] ].
        -- split; cbn; constructor; auto. cbn. rewrite map_app. apply nodup_snoc; auto.
        -- exists pv. unfold at_level. rewrite at_type_cons, type_compare_refl, nth_error_app2, Nat.sub_diag by lia. reflexivity.
        -- intros t' p' x. unfold at_level. rewrite !at_type_cons. destruct (type_compare t' t); auto.
           intro H. rewrite nth_error_app1; auto. apply nth_error_Some. congruence.
        -- intros t' p' x. unfold at_level. rewrite !at_type_cons. destruct (type_compare t' t) eqn:E; auto.
           apply type_compare_eq in E. destruct (Nat.lt_ge_cases p' (length l)) as [ L | L ].
           ++ rewrite nth_error_app1 by auto. auto.
           ++ rewrite nth_error_app2 by auto. destruct (p' - length l) eqn:D; cbn; [ | destruct n; discriminate ].
              intro H. injection H as <-. right. repeat split; auto. lia.
        -- cbn. intuition.
    + apply type_compare_lt in E. split; [ | split; [ | split; [ | split ] ] ].
      * split; cbn.
        -- constructor; [ constructor; auto | ]. constructor; auto. eapply Forall_impl; [ | exact FF ]. unfold tlt in *. intros; cbn in *; lia.
        -- constructor; [ cbn; repeat constructor; auto | ]. constructor; auto.
      * exists pv. unfold at_level. rewrite at_type_cons, type_compare_refl. reflexivity.
      * intros t' p' x H. unfold at_level in *. rewrite (at_type_cons t' t). destruct (type_compare t' t) eqn:Q; auto.
        exfalso. apply type_compare_eq in Q. subst t'. destruct (at_type t ((k, l) :: m)) eqn:A; [ | discriminate ].
        apply at_type_in in A. apply (in_map fst) in A. cbn in A. rewrite Forall_forall in FF. unfold tlt in *.
        destruct A as [ <- | A ]; [ lia | ]. apply FF in A. lia.
      * intros t' p' x. unfold at_level. rewrite (at_type_cons t' t). destruct (type_compare t' t) eqn:Q; auto.
        apply type_compare_eq in Q. intro H. right. destruct p' as [ | p' ]; cbn in H; [ injection H as <-; auto | destruct p'; discriminate ].
      * cbn. intuition.
    + assert (lwf m) as W' by (split; auto). specialize (IH W'). destruct (add_levels t pv lv m) as [ r p ].
      destruct IH as (W2 & (pv' & A) & B & C & D). pose proof E as E'. apply type_compare_gt in E'.
      split; [ | split; [ | split; [ | split ] ] ].
      * destruct W2 as [ S2 F2 ]. split; cbn; constructor; auto. apply Forall_forall. intros y Hy. apply D in Hy as [ -> | Hy ]; auto.
        rewrite Forall_forall in FF. auto.
      * exists pv'. unfold at_level. rewrite at_type_cons, E. exact A.
      * intros t' p' x. unfold at_level. rewrite !at_type_cons. destruct (type_compare t' k); auto; apply B.
      * intros t' p' x. unfold at_level. rewrite !at_type_cons. destruct (type_compare t' k) eqn:Q; auto; apply C.
      * cbn. intros y [ <- | Hy ]; auto. destruct (D y Hy); auto.
Qed.
Lemma at_level_inj m t p q pv pv' lv : lwf m -> at_level t p m = Some (pv, lv) -> at_level t q m = Some (pv', lv) -> p = q.
Proof.
  intros [ _ F ]. unfold at_level. destruct (at_type t m) as [ r | ] eqn:E; [ | discriminate ]. intros A B.
  apply at_type_in in E. rewrite Forall_forall in F. apply F in E. cbn in E.
  apply (map_nth_error snd) in A. apply (map_nth_error snd) in B. cbn in A, B.
  apply (proj1 (NoDup_nth_error _) E); [ apply nth_error_Some; congruence | congruence ].
Qed.

(** names in parallel *)
Lemma names_parallel (nm : list ((Z * Z) * list string)) (m : lmap) t p :
  map fst nm = map fst m -> map (fun x => length (snd x)) nm = map (fun x => length (snd x)) m ->
  (at_level t p m <> None <-> at_level t p nm <> None).
Proof.
  unfold at_level. revert m. induction nm as [ | [k ns] nm IH ]; intros [ | [k' l] m ] K L; cbn in K, L; try discriminate; [ split; intro H; contradict H; reflexivity | ].
  injection K as -> K. injection L as L0 L. rewrite !at_type_cons. destruct (type_compare t k'); [ | apply IH; auto .. ].
  rewrite !nth_error_Some, L0. reflexivity.
Qed.
Lemma at_level_in {A} t p (x : A) nm : at_level t p nm = Some x -> In x (concat (map snd nm)).
Proof.
  unfold at_level. destruct (at_type t nm) as [ r | ] eqn:E; [ | discriminate ]. intro H. apply nth_error_In in H. apply at_type_in in E.
  apply in_concat. exists r. split; auto. apply (in_map snd) in E. exact E.
Qed.
Lemma names_inj (nm : list ((Z * Z) * list string)) t t' p p' n : NoDup (concat (map snd nm)) ->
  at_level t p nm = Some n -> at_level t' p' nm = Some n -> t = t' /\ p = p'.
Proof.
  induction nm as [ | [k ns] nm IH ]; intros N A B; [ discriminate | ]. cbn in N.
  assert (forall x, In x ns -> ~ In x (concat (map snd nm))) as DJ.
  { intros x H1 H2. clear - N H1 H2. induction ns as [ | y ns IH ]; [ contradiction | ]. cbn in N. inversion_clear N as [ | ? ? N0 N1 ].
    destruct H1 as [ -> | H1 ]; auto. apply N0. apply in_app_iff. auto. }
  assert (NoDup ns) as N1. { clear - N. induction ns as [ | y ns IH ]; constructor; cbn in N; inversion_clear N as [ | ? ? N0 N1 ]; auto. contradict N0. apply in_app_iff; auto. }
  assert (NoDup (concat (map snd nm))) as N2. { clear - N. induction ns as [ | y ns IH ]; auto. cbn in N; inversion_clear N; auto. }
  unfold at_level in A, B. rewrite at_type_cons in A, B.
  assert (forall s q, at_level s q nm = Some n -> In n (concat (map snd nm))) as IN by (intros s q; apply at_level_in).
  destruct (type_compare t k) eqn:E1, (type_compare t' k) eqn:E2;
    try (exfalso; apply nth_error_In in A; apply (DJ n A); exact (IN t' p' B));
    try (exfalso; apply nth_error_In in B; apply (DJ n B); exact (IN t p A));
    try (apply (IH N2 A B)).
  apply type_compare_eq in E1. apply type_compare_eq in E2. split; [ congruence | ].
  apply (proj1 (NoDup_nth_error ns) N1); [ apply nth_error_Some; congruence | congruence ].
Qed.

(** ** Loading *)
Section Load.
  Variable G : Type.
  Variable geqb : G -> G -> bool.
  Hypothesis GE : forall a b, geqb a b = true <-> a = b.
  Variable B : Type.
  Variable cf : gconf.
  Notation message := (message G B).
  Notation lstate := (lstate G B).

  (** a message that is not skipped; its variable, time, whether it is one of an ensemble *)
  Definition used (m : message) : bool := negb (gc_defined cf) || match find_config G B cf m with Some _ => true | None => false end.
  Definition name_of (m : message) : string := var_name G B m (find_config G B cf m).
  Definition time_of (m : message) : option N := valid_time G B m (find_config G B cf m).
  Definition timed (m : message) : bool := match time_of m with Some _ => true | None => false end.
  Definition ens (m : message) : bool := 1 <? m_total G B m.
  Definition ltype (m : message) : Z * Z := (m_edition G B m, m_ltype G B m).
  (** the messages of a variable, in order *)
  Definition of_var (n : string) (l : list message) : list message := filter (fun m => used m && String.eqb (name_of m) n) l.
  Definition entry (m : message) : gmsg B :=
    GribModel.mkG (match time_of m with Some t => t | None => 0%N end) (m_level G B m) (if ens m then m_pert G B m else 0) (m_ptr G B m).
  Definition agree (a b : message) : Prop :=
    timed a = timed b /\ ens a = ens b /\ ltype a = ltype b /\ m_grid G B a = m_grid G B b.

  Definition need (m : message) : nat := if ens m then Nat.max (m_total G B m) (m_pert G B m + 1) else 0.

  Definition suffix (k : nat) : string := match k with O => "" | k => number (N.of_nat k) end.
  Record inv (l : list message) (s : lstate) : Prop := {
    i_times : StronglySorted N.lt (s_times G B s) /\ forall t, In t (s_times G B s) <-> exists m, In m l /\ used m = true /\ time_of m = Some t;
    i_max : s_max G B s = fold_left Nat.max (map need (filter used l)) 0;
    i_sorted : ssorted (s_vars G B s);
    i_vars : forall n, match sfind n (s_vars G B s) with
             | None => of_var n l = []
             | Some v => exists m ms, of_var n l = m :: ms /\ h_ens G v = ens m /\ h_time G v = timed m /\ h_grid G v = m_grid G B m /\
                 h_ltype G v = ltype m /\ h_pv G v = m_pv G B m /\ h_conf G v = find_config G B cf m /\
                 StronglySorted Z.lt (h_levels G v) /\ (forall z, In z (h_levels G v) <-> exists q, In q (of_var n l) /\ m_level G B q = z) /\
                 (forall q, In q ms -> agree q m)
             end;
    i_box : s_box G B s = map (fun m => (name_of m, entry m)) (filter used l);
    i_grids : NoDup (map fst (s_grids G B s)) /\ (forall g, In g (map fst (s_grids G B s)) <-> exists m, In m l /\ used m = true /\ m_grid G B m = g);
    i_dims : s_dims G B s = flat_map (fun x => [fst (snd x); snd (snd x)]) (s_grids G B s) /\ NoDup (s_dims G B s);
    i_axes : forall k g x y, nth_error (s_grids G B s) k = Some (g, (x, y)) ->
             exists m a b, In m l /\ used m = true /\ m_grid G B m = g /\ gc_axes cf (m_gtype G B m) = Some (a, b) /\
               x = (a ++ suffix k)%string /\ y = (b ++ suffix k)%string }.

  Lemma members_need m old : members (m_total G B m) (m_pert G B m) old = Nat.max old (need m).
  Proof.
    unfold members, need, ens. destruct (Nat.ltb_spec 1 (m_total G B m)); [ | lia ].
    destruct (Nat.eqb_spec old 0); [ subst | ]; [ destruct (Nat.leb_spec (m_total G B m) (m_pert G B m)); lia | ].
    destruct (Nat.ltb_spec old (m_total G B m)); [ destruct (Nat.leb_spec (m_total G B m) (m_pert G B m)); lia | destruct (Nat.leb_spec old (m_pert G B m)); lia ].
  Qed.

  Lemma empty_inv : inv [] (empty G B).
  Proof.
    constructor; cbn; auto.
    - split; [ constructor | ]. intro t. split; [ contradiction | intros (m & [] & _) ].
    - constructor.
    - split; [ constructor | ]. intro t. split; [ contradiction | intros (m & [] & _) ].
    - split; auto; constructor.
    - intros [ | k ]; discriminate.
  Qed.

  Lemma of_var_app n l m : of_var n (l ++ [m]) = of_var n l ++ (if used m && String.eqb (name_of m) n then [m] else []).
  Proof. unfold of_var. rewrite filter_app. cbn. destruct (_ && _); auto. Qed.
  Lemma of_var_in n l m : In m (of_var n l) <-> In m l /\ used m = true /\ name_of m = n.
  Proof. unfold of_var. rewrite filter_In, andb_true_iff, String.eqb_eq. reflexivity. Qed.

  Lemma skipped l s m : used m = false -> inv l s -> inv (l ++ [m]) s.
  Proof.
    intros U [ I1 I2 I3 I4 I5 I6 I7 I8 ].
    assert (forall P : message -> Prop, (exists q, In q (l ++ [m]) /\ used q = true /\ P q) <-> exists q, In q l /\ used q = true /\ P q) as EX.
    { intro P. split; intros (q & H & Q & R); exists q; split; auto; rewrite in_app_iff in *; cbn in *; auto.
      destruct H as [ H | [ <- | [] ] ]; auto. congruence. }
    constructor; auto.
    - split; [ tauto | ]. intro t. rewrite EX. apply I1.
    - rewrite filter_app. cbn. rewrite U, app_nil_r. auto.
    - intro n. specialize (I4 n). rewrite of_var_app, U. cbn [andb]. rewrite app_nil_r. auto.
    - rewrite filter_app. cbn. rewrite U, app_nil_r. auto.
    - split; [ tauto | ]. intro g. rewrite EX. apply I6.
    - intros k g x y H. destruct (I8 k g x y H) as (q & a & b & Hq & R). exists q, a, b. split; [ apply in_app_iff; auto | auto ].
  Qed.

  

  (** what adding the grid of a new variable does *)
  Lemma grid_added l s m s' : inv l s -> used m = true -> add_grid G geqb B cf (m_grid G B m) (m_gtype G B m) s = Ok s' ->
    s_times G B s' = s_times G B s /\
    NoDup (map fst (s_grids G B s')) /\ (forall g, In g (map fst (s_grids G B s')) <-> exists q, In q (l ++ [m]) /\ used q = true /\ m_grid G B q = g) /\
    s_dims G B s' = flat_map (fun x => [fst (snd x); snd (snd x)]) (s_grids G B s') /\ NoDup (s_dims G B s') /\
    (forall k g x y, nth_error (s_grids G B s') k = Some (g, (x, y)) ->
             exists q a b, In q (l ++ [m]) /\ used q = true /\ m_grid G B q = g /\ gc_axes cf (m_gtype G B q) = Some (a, b) /\
               x = (a ++ suffix k)%string /\ y = (b ++ suffix k)%string).
  Proof.
    intros [ I1 I2 I3 I4 I5 I6 I7 I8 ] U. unfold add_grid. destruct (existsb _ _) eqn:E.
    - intro H. injection H as <-. apply existsb_exists in E as (x & Hx & E). apply GE in E.
      split; auto. split; [ tauto | ]. split; [ | split; [ tauto | split; [ tauto | ] ] ].
      + intro g. split.
        * intro H. apply I6 in H as (q & Hq & R). exists q. split; [ apply in_app_iff; auto | auto ].
        * intros (q & Hq & R & <-). apply in_app_iff in Hq as [ Hq | [ <- | [] ] ]; [ apply I6; eauto | ]. rewrite E. apply in_map. auto.
      + intros k g a b H. destruct (I8 k g a b H) as (q & u & v & Hq & R). exists q, u, v. split; [ apply in_app_iff; auto | exact R ].
    - destruct (gc_axes cf (m_gtype G B m)) as [ [ x y ] | ] eqn:AX; [ | discriminate ].
      assert (forall n, match n with O => "" | S k => number (N.of_nat (S k)) end = suffix n) as SX by (intros [ | n ]; reflexivity).
      cbv zeta. rewrite !SX.
      destruct (add_dim (x ++ suffix (length (s_grids G B s)))%string (s_dims G B s)) as [ d | | | ] eqn:D1; try discriminate. cbn [obind].
      destruct (add_dim (y ++ suffix (length (s_grids G B s)))%string d) as [ d' | | | ] eqn:D2; try discriminate. cbn [obind].
      intro H. injection H as <-. apply add_dim_inv in D1 as (N1 & ->). apply add_dim_inv in D2 as (N2 & ->). cbn.
      destruct I6 as [ ND I6 ]. destruct I7 as [ D DN ].
      assert (~ In (m_grid G B m) (map fst (s_grids G B s))) as NG.
      { intro Q. apply in_map_iff in Q as (z & Ez & Hz). apply not_true_iff_false in E. apply E. apply existsb_exists. exists z. split; auto. apply GE. auto. }
      split; auto. split; [ rewrite map_app; cbn; apply nodup_snoc; auto | ]. split; [ | split; [ | split ] ].
      + intro g. rewrite map_app, in_app_iff, I6. cbn. split.
        * intros [ (q & Hq & R) | [ <- | [] ] ]; [ exists q; split; [ apply in_app_iff; auto | auto ] | exists m; split; [ apply in_app_iff; cbn; auto | auto ] ].
        * intros (q & Hq & R & <-). apply in_app_iff in Hq as [ Hq | [ <- | [] ] ]; [ left; eauto | auto ].
      + rewrite flat_map_app. cbn. rewrite <- D, <- app_assoc. reflexivity.
      + apply nodup_snoc; auto. apply nodup_snoc; auto.
      + intros k g a b H. destruct (Nat.lt_ge_cases k (length (s_grids G B s))) as [ L | L ].
        * rewrite nth_error_app1 in H by auto. destruct (I8 k g a b H) as (q & u & v & Hq & R). exists q, u, v. split; [ apply in_app_iff; auto | exact R ].
        * rewrite nth_error_app2 in H by auto. destruct (k - length (s_grids G B s)) eqn:Dk; cbn in H; [ | destruct n; discriminate ].
          injection H as <- <- <-. assert (k = length (s_grids G B s)) as -> by lia. exists m, x, y. split; [ apply in_app_iff; cbn; auto | ]. auto.
  Qed.

  Lemma not_skipped m : used m = true -> gc_defined cf && match find_config G B cf m with None => true | _ => false end = false.
  Proof. unfold used. destruct (gc_defined cf); cbn; auto. destruct (find_config G B cf m); auto; discriminate. Qed.
  Lemma is_skipped m : used m = false -> gc_defined cf && match find_config G B cf m with None => true | _ => false end = true.
  Proof. unfold used. destruct (gc_defined cf); cbn; [ | discriminate ]. destruct (find_config G B cf m); auto; discriminate. Qed.

  Lemma times_step l s m : inv l s -> used m = true ->
    let times := match time_of m with Some t => set_insert t (s_times G B s) | None => s_times G B s end in
    StronglySorted N.lt times /\ forall t, In t times <-> exists q, In q (l ++ [m]) /\ used q = true /\ time_of q = Some t.
  Proof.
    intros [ [ S I1 ] _ _ _ _ _ _ _ ] U. cbv zeta.
    assert (forall t, (exists q, In q (l ++ [m]) /\ used q = true /\ time_of q = Some t) <-> time_of m = Some t \/ exists q, In q l /\ used q = true /\ time_of q = Some t) as EX.
    { intro t. split.
      - intros (q & Hq & R & Q). apply in_app_iff in Hq as [ Hq | [ <- | [] ] ]; eauto.
      - intros [ Q | (q & Hq & R) ]; [ exists m; split; [ apply in_app_iff; cbn; auto | auto ] | exists q; split; [ apply in_app_iff; auto | auto ] ]. }
    destruct (time_of m) as [ u | ] eqn:T.
    - split; [ apply set_insert_sorted; auto | ]. intro t. rewrite set_insert_in, EX, I1. split; intros [ H | H ]; auto; left; congruence.
    - split; auto. intro t. rewrite EX, I1. split; [ auto | intros [ H | H ]; [ discriminate | auto ] ].
  Qed.

  Lemma pair_eqb (a b : Z * Z) : ((fst a =? fst b)%Z && (snd a =? snd b)%Z) = true <-> a = b.
  Proof. rewrite andb_true_iff, !Z.eqb_eq. destruct a, b. cbn. split; [ intros [ -> -> ]; auto | intro H; injection H; auto ]. Qed.

  Lemma load_step l s m s' : inv l s -> load_one G geqb B cf s m = Ok s' -> inv (l ++ [m]) s'.
  Proof.
    intros I. destruct (used m) eqn:U.
    2: { unfold load_one. rewrite is_skipped by auto. intro H. injection H as <-. apply skipped; auto. }
    pose proof (times_step l s m I U) as TS. cbv zeta in TS.
    unfold load_one. rewrite not_skipped by auto. fold (name_of m) (time_of m). fold (timed m) (ens m) (ltype m).
    fold (entry m). rewrite !members_need.
    assert (fold_left Nat.max (map need (filter used (l ++ [m]))) 0 = Nat.max (s_max G B s) (need m)) as MX.
    { rewrite filter_app. cbn. rewrite U, map_app, fold_left_app, <- (i_max _ _ I). reflexivity. }
    assert (s_box G B s ++ [(name_of m, entry m)] = map (fun m => (name_of m, entry m)) (filter used (l ++ [m]))) as BX.
    { rewrite filter_app. cbn. rewrite U, map_app, <- (i_box _ _ I). reflexivity. }
    assert (forall n, n <> name_of m -> of_var n (l ++ [m]) = of_var n l) as OV.
    { intros n Hn. rewrite of_var_app, U. cbn. replace (String.eqb (name_of m) n) with false; [ apply app_nil_r | ]. symmetry. apply String.eqb_neq. auto. }
    assert (of_var (name_of m) (l ++ [m]) = of_var (name_of m) l ++ [m]) as OM.
    { rewrite of_var_app, U, String.eqb_refl. reflexivity. }
    pose proof (i_vars _ _ I) as IV. pose proof (IV (name_of m)) as IN.
    destruct (sfind (name_of m) (s_vars G B s)) as [ v | ] eqn:F.
    - destruct IN as (m0 & ms & OF & E1 & E2 & E3 & E4 & E5 & E6 & E7 & E8 & E9).
      destruct (negb (Bool.eqb (timed m) (h_time G v))) eqn:Q1; [ discriminate | ].
      destruct (negb (Bool.eqb (ens m) (h_ens G v))) eqn:Q2; [ discriminate | ].
      destruct (negb (_ && _)) eqn:Q3; [ discriminate | ]. destruct (negb (geqb _ _)) eqn:Q4; [ discriminate | ].
      apply negb_false_iff in Q1, Q2, Q3, Q4. apply eqb_prop in Q1, Q2. apply (proj1 (pair_eqb _ _)) in Q3. apply GE in Q4.
      intro H. injection H as <-. constructor; cbn; auto.
      + apply sput_sorted. apply (i_sorted _ _ I).
      + intro n. rewrite sfind_sput. destruct (String.eqb_spec n (name_of m)) as [ -> | Hn ].
        * rewrite OM, OF. exists m0, (ms ++ [m]). cbn. repeat (split; [ solve [ auto ] | ]). split; [ apply z_insert_sorted; auto | ]. split.
          -- intro z. rewrite z_insert_in, E8, OF. split.
             ++ intros [ -> | (q & Hq & R) ]; [ exists m | exists q ]; split; auto; [ right; apply in_app_iff; cbn; auto | ].
                destruct Hq as [ -> | Hq ]; [ left; auto | right; apply in_app_iff; auto ].
             ++ intros (q & [ <- | Hq ] & R); [ right; exists m0; cbn; auto | ]. apply in_app_iff in Hq as [ Hq | [ <- | [] ] ]; [ right; exists q; cbn; auto | auto ].
          -- intros q Hq. apply in_app_iff in Hq as [ Hq | [ <- | [] ] ]; auto. unfold agree. repeat split; congruence.
        * rewrite OV by auto. apply IV.
      + destruct (i_grids _ _ I) as [ ND IG ]. split; auto. intro g. rewrite IG. split.
        * intros (q & Hq & R). exists q. split; [ apply in_app_iff; auto | auto ].
        * intros (q & Hq & R & <-). apply in_app_iff in Hq as [ Hq | [ <- | [] ] ]; [ eauto | ]. exists m0.
          assert (In m0 (of_var (name_of m) l)) as H0 by (rewrite OF; cbn; auto). apply of_var_in in H0 as (? & ? & _). split; auto. split; auto. congruence.
      + apply (i_dims _ _ I).
      + intros k g x y H. destruct (i_axes _ _ I k g x y H) as (q & a & b & Hq & R). exists q, a, b. split; [ apply in_app_iff; auto | exact R ].
    - destruct (add_grid G geqb B cf (m_grid G B m) (m_gtype G B m) s) as [ s1 | | | ] eqn:AG; try discriminate. cbn [obind].
      intro H. injection H as <-. destruct (grid_added l s m s1 I U AG) as (T1 & T2 & T3 & T4 & T5 & T6). constructor; cbn; auto.
      + apply sput_sorted. apply (i_sorted _ _ I).
      + intro n. rewrite sfind_sput. destruct (String.eqb_spec n (name_of m)) as [ -> | Hn ].
        * rewrite OM, IN. exists m, []. cbn. repeat (split; [ solve [ auto ] | ]). split; [ repeat constructor | ]. split; [ | contradiction ].
          intro z. split; [ intros [ <- | [] ]; exists m; auto | intros (q & [ <- | [] ] & R); auto ].
        * rewrite OV by auto. apply IV.
  Qed.

  Lemma load_inv l s : load G geqb B cf l = Ok s -> inv l s.
  Proof.
    unfold load. revert s. induction l as [ | m l IH ] using rev_ind; intros s.
    - cbn. intro H. injection H as <-. apply empty_inv.
    - rewrite ofold_app. destruct (ofold _ l _) as [ s1 | | | ] eqn:E; try discriminate. cbn [obind ofold].
      destruct (load_one G geqb B cf s1 m) as [ s2 | | | ] eqn:E2; try discriminate. cbn. intro H. injection H as <-. eapply load_step; eauto.
  Qed.

  (** ** Success *)
  Definition distinct_axes : Prop := forall t t' x y x' y' j k,
    gc_axes cf t = Some (x, y) -> gc_axes cf t' = Some (x', y') ->
    (x ++ suffix j)%string <> (y' ++ suffix k)%string /\ ((x ++ suffix j)%string = (x' ++ suffix k)%string -> j = k) /\
    ((y ++ suffix j)%string = (y' ++ suffix k)%string -> j = k).

  Lemma dim_of_grid l s d : inv l s -> In d (s_dims G B s) -> exists k g x y, nth_error (s_grids G B s) k = Some (g, (x, y)) /\ (d = x \/ d = y).
  Proof.
    intros I H. destruct (i_dims _ _ I) as [ E _ ]. rewrite E in H. apply in_flat_map in H as ([ g [ x y ] ] & Hx & H).
    apply In_nth_error in Hx as (k & Hk). exists k, g, x, y. split; auto. cbn in H. intuition.
  Qed.
  Lemma grid_success l s m : inv l s -> distinct_axes -> gc_axes cf (m_gtype G B m) <> None ->
    exists s', add_grid G geqb B cf (m_grid G B m) (m_gtype G B m) s = Ok s'.
  Proof.
    intros I D A. unfold add_grid. destruct (existsb _ _); [ eauto | ]. destruct (gc_axes cf (m_gtype G B m)) as [ [ x y ] | ] eqn:AX; [ | congruence ].
    assert (forall n, match n with O => "" | S k => number (N.of_nat (S k)) end = suffix n) as SX by (intros [ | n ]; reflexivity).
    cbv zeta. rewrite !SX. set (n := length (s_grids G B s)).
    assert (forall d, In d (s_dims G B s) -> d <> (x ++ suffix n)%string /\ d <> (y ++ suffix n)%string) as FR.
    { intros d H. apply (dim_of_grid l s) in H as (k & g & u & v & Hk & HD); auto.
      assert (k < n) as L by (apply nth_error_Some; congruence).
      destruct (i_axes _ _ I k g u v Hk) as (q & a & b & _ & _ & _ & Q & -> & ->).
      destruct (D _ _ _ _ _ _ k n Q AX) as (D1 & D2 & D3). destruct (D _ _ _ _ _ _ n k AX Q) as (D4 & D5 & D6).
      destruct HD as [ -> | -> ]; split; intro E; auto; [ apply D2 in E; lia | apply D3 in E; lia ]. }
    rewrite add_dim_ok by (intro H; apply FR in H; tauto). cbn [obind]. rewrite add_dim_ok; [ cbn [obind]; eauto | ].
    intro H. apply in_app_iff in H as [ H | [ H | [] ] ]; [ apply FR in H; tauto | ].
    destruct (D _ _ _ _ _ _ n n AX AX) as (D1 & _). auto.
  Qed.

  Lemma load_success l : distinct_axes -> (forall m, In m l -> used m = true -> gc_axes cf (m_gtype G B m) <> None) ->
    (forall a b, In a l -> In b l -> used a = true -> used b = true -> name_of a = name_of b -> agree a b) ->
    exists s, load G geqb B cf l = Ok s.
  Proof.
    intros D. induction l as [ | m l IH ] using rev_ind; intros A AG; [ cbn; eauto | ].
    destruct IH as (s & E).
    { intros q Hq. apply A. apply in_app_iff; auto. }
    { intros a b Ha Hb. apply AG; apply in_app_iff; auto. }
    unfold load. rewrite ofold_app. unfold load in E. rewrite E. cbn [obind ofold].
    assert (exists s', load_one G geqb B cf s m = Ok s') as (s' & ->); [ | cbn; eauto ].
    pose proof (load_inv l s E) as I. destruct (used m) eqn:U; [ | unfold load_one; rewrite is_skipped by auto; eauto ].
    unfold load_one. rewrite not_skipped by auto. fold (name_of m) (time_of m). fold (timed m) (ens m) (ltype m).
    pose proof (i_vars _ _ I (name_of m)) as IN. destruct (sfind (name_of m) (s_vars G B s)) as [ v | ].
    - destruct IN as (m0 & ms & OF & E1 & E2 & E3 & E4 & _).
      assert (In m0 (of_var (name_of m) l)) as H0 by (rewrite OF; cbn; auto). apply of_var_in in H0 as (H0 & U0 & N0).
      destruct (AG m m0) as (A1 & A2 & A3 & A4); auto; [ apply in_app_iff; cbn; auto | apply in_app_iff; auto | ].
      replace (negb (Bool.eqb (timed m) (h_time G v))) with false by (symmetry; apply negb_false_iff; rewrite E2, A1; apply eqb_reflx).
      replace (negb (Bool.eqb (ens m) (h_ens G v))) with false by (symmetry; apply negb_false_iff; rewrite E1, A2; apply eqb_reflx).
      replace (negb (_ && _)) with false by (symmetry; apply negb_false_iff; apply pair_eqb; congruence).
      replace (negb (geqb _ _)) with false by (symmetry; apply negb_false_iff; apply GE; congruence). eauto.
    - destruct (grid_success l s m I D) as (s' & ->); [ apply A; auto; apply in_app_iff; cbn; auto | ]. cbn [obind]. eauto.
  Qed.
  Lemma load_total l : (exists s, load G geqb B cf l = Ok s) \/ load G geqb B cf l = Throw.
  Proof.
    unfold load. induction l as [ | m l IH ] using rev_ind; [ cbn; eauto | ]. rewrite ofold_app.
    destruct IH as [ (s & ->) | -> ]; [ cbn [obind ofold] | auto ].
    assert ((exists s', load_one G geqb B cf s m = Ok s') \/ load_one G geqb B cf s m = Throw) as [ (s' & ->) | -> ]; cbn; eauto.
    unfold load_one. destruct (_ && _); [ eauto | ]. destruct (sfind _ _).
    - destruct (negb _); auto. destruct (negb _); auto. destruct (negb _); auto. destruct (negb _); eauto.
    - unfold add_grid, add_dim. destruct (existsb _ _); [ cbn; eauto | ]. destruct (gc_axes cf _) as [ [ x y ] | ]; [ | auto ].
      cbn [obind]. destruct (existsb _ _); [ auto | ]. cbn [obind]. destruct (existsb _ _); [ auto | ]. cbn. eauto.
  Qed.

  (** ** Building *)
  Lemma build_levels_spec (vars : smap (vhas G)) : forall m ps, lwf m -> 
    let r := fold_left (fun s v => let '(m, ps) := s in
                          let '(m', p) := add_levels (h_ltype G (snd v)) (h_pv G (snd v)) (h_levels G (snd v)) m in
                          (m', ps ++ [(fst v, p)])) vars (m, ps) in
    exists qs, snd r = ps ++ qs /\ lwf (fst r) /\ map fst qs = map fst vars /\
      (forall t p x, at_level t p m = Some x -> at_level t p (fst r) = Some x) /\
      (forall v p, In (v, p) (combine vars qs) -> fst p = fst v /\ exists pv, at_level (h_ltype G (snd v)) (snd p) (fst r) = Some (pv, h_levels G (snd v))) /\
      (forall t p x, at_level t p (fst r) = Some x -> at_level t p m = Some x \/ exists v, In v vars /\ h_ltype G (snd v) = t /\ x = (h_pv G (snd v), h_levels G (snd v))).
  Proof.
    induction vars as [ | v vars IH ]; intros m ps W; cbn [fold_left].
    - exists []. rewrite app_nil_r. cbn. repeat split; auto; try apply W; contradiction.
    - pose proof (add_levels_spec (h_ltype G (snd v)) (h_pv G (snd v)) (h_levels G (snd v)) m W) as S.
      destruct (add_levels _ _ _ m) as [ m' p ]. destruct S as (W' & (pv & A) & K & N & _).
      destruct (IH m' (ps ++ [(fst v, p)]) W') as (qs & E & W2 & F & K2 & C & D). exists ((fst v, p) :: qs).
      split; [ rewrite E, <- app_assoc; reflexivity | ]. split; auto. split; [ cbn; rewrite F; auto | ]. split; [ auto | ]. split.
      + cbn [combine]. intros u q [ H | H ]; [ injection H as <- <-; cbn; split; auto; exists pv; apply K2; auto | auto ].
      + intros t q x H. destruct (D t q x H) as [ H' | (u & Hu & R) ].
        * apply N in H' as [ H' | (-> & -> & ->) ]; auto. right. exists v. cbn. auto.
        * right. exists u. cbn. auto.
  Qed.

  Lemma pair_find {A} k v (m : smap A) : ssorted m -> In (k, v) m -> sfind k m = Some v.
  Proof.
    intro S. apply ssorted_NoDup in S. unfold skeys in S. induction m as [ | [ k' v' ] m IH ]; cbn in *; [ contradiction | ].
    inversion_clear S as [ | ? ? N S' ]. intros [ H | H ].
    - injection H as -> ->. rewrite String.eqb_refl. auto.
    - destruct (String.eqb_spec k k') as [ -> | ]; auto. exfalso. apply N. apply (in_map fst) in H. exact H.
  Qed.
  Lemma find_pair {A} k v (m : smap A) : sfind k m = Some v -> In (k, v) m.
  Proof.
    induction m as [ | [ k' v' ] m IH ]; cbn; [ discriminate | ]. destruct (String.eqb_spec k k') as [ -> | ]; auto. intro H. injection H as <-. auto.
  Qed.
  Lemma in_combine_both {X Y} (l : list X) : forall (k : list Y) x, length l = length k -> In x l -> exists y, In (x, y) (combine l k).
  Proof.
    induction l as [ | a l IH ]; intros [ | b k ] x L H; cbn in *; try discriminate; try contradiction.
    destruct H as [ -> | H ]; [ eauto | ]. destruct (IH k x) as (y & Hy); auto. eauto.
  Qed.
  Lemma omapM_forall2 {X Y} (f : X -> outcome Y) l : (forall a, In a l -> exists b, f a = Ok b) -> exists r, omapM f l = Ok r /\ Forall2 (fun a b => f a = Ok b) l r.
  Proof.
    induction l as [ | a l IH ]; intro H; cbn; [ eauto | ]. destruct (H a) as (b & E); [ cbn; auto | ]. rewrite E. cbn.
    destruct IH as (r & -> & F); [ intros; apply H; cbn; auto | ]. cbn. eauto.
  Qed.
  Lemma forall2_in {X Y} (R : X -> Y -> Prop) l r y : Forall2 R l r -> In y r -> exists x, In x l /\ R x y.
  Proof. induction 1 as [ | a b l r H F IH ]; cbn; [ contradiction | ]. intros [ <- | Q ]; [ eauto | ]. destruct (IH Q) as (x & ? & ?). eauto. Qed.
  Lemma forall2_in' {X Y} (R : X -> Y -> Prop) l r x : Forall2 R l r -> In x l -> exists y, In y r /\ R x y.
  Proof. induction 1 as [ | a b l r H F IH ]; cbn; [ contradiction | ]. intros [ <- | Q ]; [ eauto | ]. destruct (IH Q) as (y & ? & ?). eauto. Qed.

  Lemma box_of_var n l : map snd (filter (fun b : string * gmsg B => String.eqb (fst b) n) (map (fun m => (name_of m, entry m)) (filter used l))) = map entry (of_var n l).
  Proof.
    unfold of_var. induction l as [ | m l IH ]; auto. cbn [filter]. destruct (used m); cbn [andb map filter fst]; auto.
    destruct (String.eqb (name_of m) n); cbn [map snd]; rewrite IH; auto.
  Qed.
  Lemma fold_max l : forall a, a <= fold_left Nat.max l a /\ forall x, In x l -> x <= fold_left Nat.max l a.
  Proof.
    induction l as [ | y l IH ]; intro a; cbn; [ split; [ lia | contradiction ] | ]. destruct (IH (Nat.max a y)) as [ H1 H2 ]. split; [ lia | ].
    intros x [ <- | H ]; [ lia | auto ].
  Qed.
  Lemma need_le l s m : inv l s -> In m l -> used m = true -> need m <= s_max G B s.
  Proof. intros I H U. rewrite (i_max _ _ I). apply fold_max. apply in_map. apply filter_In. auto. Qed.

  Definition axes_of (s : lstate) (g : G) : string * string := match find (fun x => geqb g (fst x)) (s_grids G B s) with Some x => snd x | None => ("", "") end.
  Lemma axes_find l s g : inv l s -> (exists m, In m l /\ used m = true /\ m_grid G B m = g) ->
    find (fun x => geqb g (fst x)) (s_grids G B s) = Some (g, axes_of s g) /\ In (g, axes_of s g) (s_grids G B s).
  Proof.
    intros I H. apply (i_grids _ _ I) in H. unfold axes_of.
    destruct (find (fun x => geqb g (fst x)) (s_grids G B s)) as [ [ h x ] | ] eqn:F.
    - apply find_some in F as (F & E). apply GE in E. cbn in E. subst h. cbn. auto.
    - exfalso. apply in_map_iff in H as (x & <- & H). apply (find_none _ _ F) in H. cbn in H. assert (geqb (fst x) (fst x) = true) by (apply GE; auto). congruence.
  Qed.
  Lemma axes_dims l s g : inv l s -> (exists m, In m l /\ used m = true /\ m_grid G B m = g) ->
    In (fst (axes_of s g)) (s_dims G B s) /\ In (snd (axes_of s g)) (s_dims G B s).
  Proof.
    intros I H. destruct (axes_find l s g I H) as [ _ H' ]. destruct (i_dims _ _ I) as [ -> _ ]. split; apply in_flat_map; eexists; split; eauto; cbn; auto.
  Qed.
  Lemma axes_inj l s g h : inv l s -> (exists m, In m l /\ used m = true /\ m_grid G B m = g) -> (exists m, In m l /\ used m = true /\ m_grid G B m = h) ->
    fst (axes_of s g) = fst (axes_of s h) \/ snd (axes_of s g) = snd (axes_of s h) -> g = h.
  Proof.
    intros I Hg Hh E. destruct (axes_find l s g I Hg) as [ _ Ig ]. destruct (axes_find l s h I Hh) as [ _ Ih ].
    destruct (i_dims _ _ I) as [ D N ]. rewrite D in N. clear - N Ig Ih E. revert N Ig Ih. generalize (s_grids G B s) as gs. intros gs N Ig Ih.
    induction gs as [ | z gs IH ]; cbn in *; [ contradiction | ]. inversion_clear N as [ | ? ? N1 N2 ]. inversion_clear N2 as [ | ? ? N3 N4 ].
    destruct Ig as [ -> | Ig ], Ih as [ Ih | Ih ]; [ congruence | | | auto ].
    - exfalso. cbn in *. destruct E as [ E | E ].
      + apply N1. right. apply in_flat_map. exists (h, axes_of s h). split; auto. cbn. auto.
      + apply N3. apply in_flat_map. exists (h, axes_of s h). split; auto. cbn. auto.
    - exfalso. subst z. cbn in *. destruct E as [ E | E ].
      + apply N1. right. apply in_flat_map. exists (g, axes_of s g). split; auto. cbn. auto.
      + apply N3. apply in_flat_map. exists (g, axes_of s g). split; auto. cbn. auto.
  Qed.

  Definition level_name (lm : lmap) (nm : list ((Z * Z) * list string)) (t : Z * Z) (lv : list Z) : string :=
    match at_type t lm with
    | Some l => match place lv l with
                | Some p => match at_level t p nm with Some n => n | None => "" end
                | None => ""
                end
    | None => ""
    end.
  Lemma level_name_at lm nm t p pv lv n : lwf lm -> at_level t p lm = Some (pv, lv) -> at_level t p nm = Some n -> level_name lm nm t lv = n.
  Proof.
    intros W A Bn. unfold level_name. pose proof A as A'. unfold at_level in A'. destruct (at_type t lm) as [ l | ] eqn:E; [ | discriminate ].
    destruct (place lv l) as [ q | ] eqn:P.
    - apply place_some in P as (pv' & P). assert (p = q) as <-; [ | rewrite Bn; auto ].
      apply (at_level_inj lm t p q pv pv' lv); auto. unfold at_level. rewrite E. auto.
    - apply place_none in P. exfalso. apply P. apply nth_error_In in A'. apply (in_map snd) in A'. exact A'.
  Qed.
End Load.
