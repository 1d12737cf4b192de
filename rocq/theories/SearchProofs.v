(** Specification and lemmas for C13, C16, C17. *)
From Coq Require Import ZArith QArith Qabs Lqa List Bool Lia.
From Coq Require Import ZifyBool ZifyNat.
From Verif Require Import Base SearchModel.
Import ListNotations.
Local Open Scope nat_scope.

(** ** min_max_element *)

(** strict weak ordering *)
Definition strict_weak {A} (comp : A -> A -> bool) : Prop :=
  (forall a b, comp a b = true -> comp b a = false) /\
  (forall a b c, comp a b = false -> comp b c = false -> comp a c = false).

Section MM.
  Context {A : Type} (comp : A -> A -> bool) (SW : strict_weak comp).

  Definition least (l : list A) (k : nat) (m : A) : Prop :=
    nth_error l k = Some m /\ forall e, In e l -> comp e m = false.
  Definition greatest (l : list A) (k : nat) (m : A) : Prop :=
    nth_error l k = Some m /\ forall e, In e l -> comp m e = false.

  Lemma comp_irrefl a : comp a a = false.
  Proof using SW. destruct SW as [AS _]. destruct (comp a a) eqn:E; auto. apply AS in E as E2. congruence. Qed.

  Lemma mm_inv : forall l pre mini maxi,
    least pre (fst mini) (snd mini) -> greatest pre (fst maxi) (snd maxi) ->
    let r := mm_loop comp l (length pre) mini maxi in
    least (pre ++ l) (fst (fst r)) (snd (fst r)) /\ greatest (pre ++ l) (fst (snd r)) (snd (snd r)).
  Proof using SW.
    destruct SW as [AS NT].
    assert (forall (l pre : list A) k m, nth_error pre k = Some m -> nth_error (pre ++ l) k = Some m) as NA.
    { intros l pre k m E. rewrite nth_error_app1; auto. apply nth_error_Some. congruence. }
    intro l. remember (length l) as n eqn:EN. revert l EN.
    induction n as [n IHn] using (well_founded_induction lt_wf).
    intros l EN pre mini maxi [L1 L2] [G1 G2].
    destruct l as [|e1 [|e2 l]]; cbn [mm_loop]; cbv zeta; [clear IHn|clear IHn|].
    - rewrite app_nil_r. repeat split; auto.
    - cbn [fst snd]. split.
      + destruct (comp e1 (snd mini)) eqn:E; cbn [fst snd]; split; auto.
        * rewrite nth_error_app2, Nat.sub_diag by lia. reflexivity.
        * intros e I. apply in_app_or in I as [I|[<-|[]]]; [|apply comp_irrefl].
          apply (NT _ (snd mini)); auto.
        * intros e I. apply in_app_or in I as [I|[<-|[]]]; auto.
      + destruct (comp (snd maxi) e1) eqn:E; cbn [fst snd]; split; auto.
        * rewrite nth_error_app2, Nat.sub_diag by lia. reflexivity.
        * intros e I. apply in_app_or in I as [I|[<-|[]]]; [|apply comp_irrefl].
          apply (NT _ (snd maxi)); auto.
        * intros e I. apply in_app_or in I as [I|[<-|[]]]; auto.
    - replace (pre ++ e1 :: e2 :: l) with ((pre ++ [e1; e2]) ++ l) by (rewrite <- app_assoc; reflexivity).
      replace (S (S (length pre))) with (length (pre ++ [e1; e2])) by (rewrite app_length; cbn; lia).
      assert (nth_error (pre ++ [e1; e2]) (length pre) = Some e1) as N1
        by (rewrite nth_error_app2, Nat.sub_diag by lia; reflexivity).
      assert (nth_error (pre ++ [e1; e2]) (S (length pre)) = Some e2) as N2
        by (rewrite nth_error_app2 by lia; replace (S (length pre) - length pre) with 1 by lia; reflexivity).
      cbn [length] in EN. assert (length l < n) as LN by lia. specialize (IHn _ LN l eq_refl).
      destruct (comp e1 e2) eqn:E.
      + apply IHn.
        * destruct (comp e1 (snd mini)) eqn:E1; cbn [fst snd]; split; auto;
            intros e I; apply in_app_or in I as [I|[<-|[<-|[]]]]; auto; try apply comp_irrefl.
          -- apply (NT _ (snd mini)); auto.
          -- apply (NT _ e1); auto.
        * destruct (comp (snd maxi) e2) eqn:E1; cbn [fst snd]; split; auto;
            intros e I; apply in_app_or in I as [I|[<-|[<-|[]]]]; auto; try apply comp_irrefl.
          -- apply (NT _ (snd maxi)); auto.
          -- apply (NT _ e2); auto.
      + apply IHn.
        * destruct (comp e2 (snd mini)) eqn:E1; cbn [fst snd]; split; auto;
            intros e I; apply in_app_or in I as [I|[<-|[<-|[]]]]; auto; try apply comp_irrefl.
          -- apply (NT _ (snd mini)); auto.
          -- apply (NT _ e2); auto.
        * destruct (comp (snd maxi) e1) eqn:E1; cbn [fst snd]; split; auto;
            intros e I; apply in_app_or in I as [I|[<-|[<-|[]]]]; auto; try apply comp_irrefl.
          -- apply (NT _ (snd maxi)); auto.
          -- apply (NT _ e1); auto.
  Qed.

  Lemma min_max_spec a l :
    exists mi ma, least (a :: l) (fst (min_max_element comp (a :: l))) mi /\
                  greatest (a :: l) (snd (min_max_element comp (a :: l))) ma.
  Proof using SW.
    unfold min_max_element.
    pose proof (mm_inv l [a] (0, a) (0, a)) as H. cbn [length] in H.
    destruct (mm_loop comp l 1 (0, a) (0, a)) as [mi ma]. cbn [fst snd] in H.
    destruct H as [H1 H2].
    - split; [reflexivity|]. intros e [<-|[]]. apply comp_irrefl.
    - split; [reflexivity|]. intros e [<-|[]]. apply comp_irrefl.
    - exists (snd mi), (snd ma). auto.
  Qed.
  (** the largest element found is the first of the largest ones *)
  Lemma mm_first : forall l pre mini maxi,
    greatest pre (fst maxi) (snd maxi) ->
    (forall j e, j < fst maxi -> nth_error pre j = Some e -> comp e (snd maxi) = true) ->
    let r := mm_loop comp l (length pre) mini maxi in
    forall j e, j < fst (snd r) -> nth_error (pre ++ l) j = Some e -> comp e (snd (snd r)) = true.
  Proof using SW.
    destruct SW as [AS NT].
    assert (forall (pre l : list A) (maxi : nat * A), greatest pre (fst maxi) (snd maxi) ->
      (forall j e, j < fst maxi -> nth_error pre j = Some e -> comp e (snd maxi) = true) ->
      forall j e, j < fst maxi -> nth_error (pre ++ l) j = Some e -> comp e (snd maxi) = true) as KEEP.
    { intros pre l maxi [G1 _] F j e L E. apply (F j); auto. rewrite nth_error_app1 in E; auto.
      assert (fst maxi < length pre) by (apply nth_error_Some; congruence). lia. }
    assert (forall (pre : list A) (maxi : nat * A) c, greatest pre (fst maxi) (snd maxi) ->
      comp (snd maxi) c = true -> forall e, In e pre -> comp e c = true) as NEW.
    { intros pre maxi c [_ G2] C e I. destruct (comp e c) eqn:E; auto.
      specialize (NT (snd maxi) e c (G2 e I) E). congruence. }
    intro l. remember (length l) as n eqn:EN. revert l EN.
    induction n as [n IHn] using (well_founded_induction lt_wf).
    intros l EN pre mini maxi G F.
    destruct l as [|e1 [|e2 l]]; cbn [mm_loop]; cbv zeta; [clear IHn|clear IHn|].
    - rewrite app_nil_r. exact F.
    - cbn [fst snd]. destruct (comp (snd maxi) e1) eqn:E; cbn [fst snd]; [|apply KEEP; auto].
      intros j e L N. rewrite nth_error_app1 in N by lia. apply (NEW pre maxi); auto.
      apply nth_error_In in N; auto.
    - replace (pre ++ e1 :: e2 :: l) with ((pre ++ [e1; e2]) ++ l) by (rewrite <- app_assoc; reflexivity).
      replace (S (S (length pre))) with (length (pre ++ [e1; e2])) by (rewrite app_length; cbn; lia).
      cbn [length] in EN. assert (length l < n) as LN by lia. specialize (IHn _ LN l eq_refl). clear LN EN.
      assert (forall c i mini, (comp c e1 = false /\ comp c e2 = false) ->
        nth_error (pre ++ [e1; e2]) (length pre + i) = Some c -> (i = 0 \/ i = 1 /\ comp e1 e2 = true /\ c = e2) ->
        let maxi' := if comp (snd maxi) c then (length pre + i, c) else maxi in
        greatest (pre ++ [e1; e2]) (fst maxi') (snd maxi') ->
        let r := mm_loop comp l (length (pre ++ [e1; e2])) mini maxi' in
        forall j e, j < fst (snd r) -> nth_error ((pre ++ [e1; e2]) ++ l) j = Some e -> comp e (snd (snd r)) = true) as STEP.
      { intros c i mini' C N I maxi' G'. apply IHn; auto. unfold maxi'.
        destruct (comp (snd maxi) c) eqn:E; cbn [fst snd]; [|apply KEEP; auto].
        intros j e L NJ. destruct (Nat.ltb_spec j (length pre)) as [LJ|LJ].
        - rewrite nth_error_app1 in NJ by lia. apply (NEW pre maxi); auto. apply nth_error_In in NJ; auto.
        - destruct I as [->|(-> & C2 & ->)]; [lia|]. assert (j = length pre) as -> by lia.
          rewrite nth_error_app2, Nat.sub_diag in NJ by lia. cbn in NJ. injection NJ as <-. exact C2. }
      assert (forall c k, nth_error (pre ++ [e1; e2]) k = Some c -> (comp c e1 = false /\ comp c e2 = false) ->
        let maxi' := if comp (snd maxi) c then (k, c) else maxi in
        (comp (snd maxi) c = false -> comp (snd maxi) e1 = false /\ comp (snd maxi) e2 = false) ->
        greatest (pre ++ [e1; e2]) (fst maxi') (snd maxi')) as GR.
      { intros c k N [C1 C2] maxi' H. unfold maxi'. destruct G as [G1 G2].
        destruct (comp (snd maxi) c) eqn:E; cbn [fst snd]; split; auto.
        - intros e I. apply in_app_or in I as [I|[<-|[<-|[]]]]; auto.
          destruct (comp c e) eqn:E3; auto. apply AS in E3 as E4.
          specialize (NT (snd maxi) e c (G2 e I) E4). congruence.
        - rewrite nth_error_app1; auto. apply nth_error_Some. congruence.
        - intros e I. destruct (H eq_refl) as [H1 H2]. apply in_app_or in I as [I|[<-|[<-|[]]]]; auto. }
      assert (nth_error (pre ++ [e1; e2]) (length pre + 0) = Some e1) as N1
        by (rewrite nth_error_app2, Nat.add_0_r, Nat.sub_diag by lia; reflexivity).
      assert (nth_error (pre ++ [e1; e2]) (length pre + 1) = Some e2) as N2
        by (rewrite nth_error_app2 by lia; replace (length pre + 1 - length pre) with 1 by lia; reflexivity).
      destruct (comp e1 e2) eqn:E.
      + replace (S (length pre)) with (length pre + 1) by lia.
        assert (comp e2 e1 = false /\ comp e2 e2 = false) as CC by (split; [auto|apply comp_irrefl]).
        apply STEP; auto. apply (GR e2 (length pre + 1) N2 CC). intros H. split; auto.
        apply (NT _ e2); auto.
      + assert (comp e1 e1 = false /\ comp e1 e2 = false) as CC by (split; [apply comp_irrefl|auto]).
        assert ((if comp (snd maxi) e1 then (length pre, e1) else maxi)
                = if comp (snd maxi) e1 then (length pre + 0, e1) else maxi) as -> by (rewrite Nat.add_0_r; reflexivity).
        apply STEP; auto. apply (GR e1 (length pre + 0) N1 CC). intros H. split; auto.
        apply (NT _ e1); auto.
  Qed.

  Lemma max_first a l j e :
    j < snd (min_max_element comp (a :: l)) -> nth_error (a :: l) j = Some e ->
    forall m, nth_error (a :: l) (snd (min_max_element comp (a :: l))) = Some m -> comp e m = true.
  Proof using SW.
    unfold min_max_element. intros L N m NM.
    assert (greatest [a] (fst (0, a)) (snd (0, a))) as G.
    { split; [reflexivity|]. intros x [<-|[]]. apply comp_irrefl. }
    assert (least [a] (fst (0, a)) (snd (0, a))) as LE.
    { split; [reflexivity|]. intros x [<-|[]]. apply comp_irrefl. }
    pose proof (mm_inv l [a] (0, a) (0, a) LE G) as [_ [H1 H2]].
    pose proof (mm_first l [a] (0, a) (0, a) G) as H. cbn [length] in *.
    destruct (mm_loop comp l 1 (0, a) (0, a)) as [mi ma]. cbn [fst snd] in *.
    change ([a] ++ l) with (a :: l) in *. rewrite H1 in NM. injection NM as <-.
    apply (H ltac:(intros; lia) j); auto.
  Qed.
End MM.

(** ** Comparisons of rationals *)

Lemma qltb_spec a b : qltb a b = true <-> (a < b)%Q.
Proof.
  unfold qltb. rewrite negb_true_iff. split; intro H.
  - apply Qnot_le_lt. intro L. apply Qle_bool_iff in L. congruence.
  - destruct (Qle_bool b a) eqn:E; auto. apply Qle_bool_iff in E. lra.
Qed.
Lemma qltb_false a b : qltb a b = false <-> (b <= a)%Q.
Proof. unfold qltb. rewrite negb_false_iff. apply Qle_bool_iff. Qed.
Lemma qleb_false a b : Qle_bool a b = false <-> (b < a)%Q.
Proof. rewrite <- qltb_spec. unfold qltb. rewrite negb_true_iff. reflexivity. Qed.

Lemma qabs_spec q : (qabs q == Qabs q)%Q.
Proof.
  unfold qabs. destruct (qltb q 0) eqn:E.
  - apply qltb_spec in E. rewrite Qabs_neg by lra. reflexivity.
  - apply qltb_false in E. rewrite Qabs_pos by lra. reflexivity.
Qed.

Lemma qltb_strict_weak : strict_weak qltb.
Proof.
  split.
  - intros a b H. apply qltb_spec in H. apply qltb_false. lra.
  - intros a b c H1 H2. apply qltb_false in H1, H2. apply qltb_false. lra.
Qed.

(** ** Closest elements *)

Notation dist x v := (Qabs (x - v)).

(** processed prefix [pre]; before the first improvement over the first element *)
Definition cinv0 (x : Q) (v0 : Q) (pre : list Q) (s : cstate) : Prop :=
  c_ret1 s = 0 /\ c_v1 s = v0 /\ (c_d1 s == dist x v0)%Q /\ (c_d2 s == dist x v0)%Q /\
  (forall e, In e pre -> (dist x v0 <= dist x e)%Q) /\
  (c_ret2 s = 0 /\ (forall e, In e pre -> (dist x e == dist x v0)%Q -> (e == v0)%Q) \/
   exists v2, nth_error pre (c_ret2 s) = Some v2 /\ ~ (v2 == v0)%Q /\ (dist x v2 == dist x v0)%Q).

(** after it *)
Definition cinv1 (x v0 : Q) (pre : list Q) (s : cstate) : Prop :=
  (dist x (c_v1 s) < dist x v0)%Q /\
  nth_error pre (c_ret1 s) = Some (c_v1 s) /\ (c_d1 s == dist x (c_v1 s))%Q /\
  (forall e, In e pre -> (dist x (c_v1 s) <= dist x e)%Q) /\
  exists v2, nth_error pre (c_ret2 s) = Some v2 /\ (c_d2 s == dist x v2)%Q /\ ~ (v2 == c_v1 s)%Q /\
    forall e, In e pre -> ~ (e == c_v1 s)%Q -> (dist x v2 <= dist x e)%Q.

Lemma nth_error_snoc {A} (pre : list A) c k v : nth_error pre k = Some v -> nth_error (pre ++ [c]) k = Some v.
Proof. intro E. rewrite nth_error_app1; auto. apply nth_error_Some. congruence. Qed.
Lemma nth_error_last {A} (pre : list A) c : nth_error (pre ++ [c]) (length pre) = Some c.
Proof. rewrite nth_error_app2, Nat.sub_diag by lia. reflexivity. Qed.

Lemma dist_comp x a b : (a == b)%Q -> (dist x a == dist x b)%Q.
Proof. intro E. rewrite E. reflexivity. Qed.

Lemma closest_step0 x v0 pre s c :
  nth_error pre 0 = Some v0 -> cinv0 x v0 pre s ->
  let s' := closest_step x s (length pre) c in
  cinv0 x v0 (pre ++ [c]) s' /\ (dist x v0 <= dist x c)%Q \/ cinv1 x v0 (pre ++ [c]) s'.
Proof.
  intros N0 (R1 & V1 & D1 & D2 & M & S2). cbv zeta. unfold closest_step.
  pose proof (qabs_spec (x - c)) as QA. set (d := qabs (x - c)) in *.
  destruct (Qle_bool d (c_d2 s)) eqn:E1.
  - apply Qle_bool_iff in E1. destruct (qltb d (c_d1 s)) eqn:E2.
    + apply qltb_spec in E2. right. unfold cinv1. cbn [c_ret1 c_ret2 c_v1 c_d1 c_d2].
      split; [lra|]. split; [apply nth_error_last|]. split; [exact QA|]. split.
      * intros e I. apply in_app_or in I as [I|[<-|[]]]; [|lra]. specialize (M e I). lra.
      * exists v0. rewrite R1. split; [apply nth_error_snoc; auto|]. split; [lra|]. split.
        -- intro E. apply (dist_comp x) in E. lra.
        -- intros e I NE. apply in_app_or in I as [I|[<-|[]]]; [auto|]. exfalso. apply NE. reflexivity.
    + apply qltb_false in E2. left. split; [|lra].
      destruct (Qeq_bool c (c_v1 s)) eqn:E3; cbn [negb].
      * apply Qeq_bool_eq in E3. rewrite V1 in E3. split; auto. split; auto. split; auto. split; auto. split.
        -- intros e I. apply in_app_or in I as [I|[<-|[]]]; auto. lra.
        -- destruct S2 as [[R2 S2]|(v2 & N2 & S2)].
           ++ left. split; auto. intros e I. apply in_app_or in I as [I|[<-|[]]]; auto.
           ++ right. exists v2. split; auto. apply nth_error_snoc; auto.
      * apply Qeq_bool_neq in E3. rewrite V1 in E3.
        unfold cinv0. cbn [c_ret1 c_ret2 c_v1 c_d1 c_d2]. split; auto. split; auto. split; auto.
        split; [lra|]. split.
        -- intros e I. apply in_app_or in I as [I|[<-|[]]]; auto. lra.
        -- right. exists c. split; [apply nth_error_last|]. split; auto. lra.
  - apply qleb_false in E1. left. split; [|lra]. split; auto. split; auto. split; auto. split; auto. split.
    + intros e I. apply in_app_or in I as [I|[<-|[]]]; auto. lra.
    + destruct S2 as [[R2 S2]|(v2 & N2 & S2)].
      * left. split; auto. intros e I E. apply in_app_or in I as [I|[<-|[]]]; auto. lra.
      * right. exists v2. split; auto. apply nth_error_snoc; auto.
Qed.

Lemma closest_step1 x v0 pre s c :
  cinv1 x v0 pre s -> cinv1 x v0 (pre ++ [c]) (closest_step x s (length pre) c).
Proof.
  intros (LT & N1 & D1 & M & v2 & N2 & D2 & NE & M2). unfold closest_step.
  pose proof (qabs_spec (x - c)) as QA. set (d := qabs (x - c)) in *.
  assert (forall s1 : cstate, c_ret1 s1 = c_ret1 s -> c_v1 s1 = c_v1 s -> c_d1 s1 = c_d1 s ->
     (c_d1 s <= d)%Q ->
     (exists v2, nth_error (pre ++ [c]) (c_ret2 s1) = Some v2 /\ (c_d2 s1 == dist x v2)%Q /\ ~ (v2 == c_v1 s)%Q /\
      forall e, In e (pre ++ [c]) -> ~ (e == c_v1 s)%Q -> (dist x v2 <= dist x e)%Q) ->
     cinv1 x v0 (pre ++ [c]) s1) as K.
  { intros s1 A1 A2 A3 L H. unfold cinv1. rewrite A1, A2, A3. split; [exact LT|]. split; [apply nth_error_snoc; auto|].
    split; auto. split; auto.
    intros e I. apply in_app_or in I as [I|[<-|[]]]; auto. lra. }
  destruct (Qle_bool d (c_d2 s)) eqn:E1.
  - apply Qle_bool_iff in E1. destruct (qltb d (c_d1 s)) eqn:E2.
    + apply qltb_spec in E2. unfold cinv1. cbn [c_ret1 c_ret2 c_v1 c_d1 c_d2].
      split; [lra|]. split; [apply nth_error_last|]. split; [exact QA|]. split.
      * intros e I. apply in_app_or in I as [I|[<-|[]]]; [|lra]. specialize (M e I). lra.
      * exists (c_v1 s). split; [apply nth_error_snoc; auto|]. split; [lra|]. split.
        -- intro E. apply (dist_comp x) in E. lra.
        -- intros e I NE'. apply in_app_or in I as [I|[<-|[]]]; [auto|]. exfalso. apply NE'. reflexivity.
    + apply qltb_false in E2. destruct (Qeq_bool c (c_v1 s)) eqn:E3; cbn [negb].
      * apply Qeq_bool_eq in E3. apply K; auto.
        exists v2. split; [apply nth_error_snoc; auto|]. split; auto. split; auto.
        intros e I NE'. apply in_app_or in I as [I|[<-|[]]]; auto. contradiction.
      * apply Qeq_bool_neq in E3. apply K; auto. cbn [c_ret2 c_d2].
        exists c. split; [apply nth_error_last|]. split; [exact QA|]. split; auto.
        intros e I NE'. apply in_app_or in I as [I|[<-|[]]]; [|lra]. specialize (M2 e I NE'). lra.
  - apply qleb_false in E1. apply K; auto.
    + assert (dist x (c_v1 s) <= dist x v2)%Q by (apply M; eapply nth_error_In; eauto). lra.
    + exists v2. split; [apply nth_error_snoc; auto|]. split; auto. split; auto.
      intros e I NE'. apply in_app_or in I as [I|[<-|[]]]; auto. lra.
Qed.

Lemma closest_loop1 x v0 : forall l pre s,
  cinv1 x v0 pre s -> cinv1 x v0 (pre ++ l) (closest_loop x l (length pre) s).
Proof.
  induction l as [|c l IH]; intros pre s H; cbn [closest_loop].
  - rewrite app_nil_r. exact H.
  - apply closest_step1 with (c := c) in H. apply IH in H.
    rewrite app_length in H. cbn [length] in H. rewrite Nat.add_1_r, <- app_assoc in H. exact H.
Qed.

Lemma closest_loop0 x v0 : forall l pre s,
  nth_error pre 0 = Some v0 -> cinv0 x v0 pre s ->
  let s' := closest_loop x l (length pre) s in
  cinv0 x v0 (pre ++ l) s' /\ (forall e, In e l -> (dist x v0 <= dist x e)%Q) \/ cinv1 x v0 (pre ++ l) s'.
Proof.
  induction l as [|c l IH]; intros pre s N H; cbn [closest_loop]; cbv zeta.
  - rewrite app_nil_r. left. split; auto. intros e [].
  - assert (length (pre ++ [c]) = S (length pre)) as L by (rewrite app_length; cbn; lia).
    replace (pre ++ c :: l) with ((pre ++ [c]) ++ l) by (rewrite <- app_assoc; reflexivity).
    destruct (closest_step0 x v0 pre s c N H) as [[H1 M]|H1].
    + destruct (IH (pre ++ [c]) _ (nth_error_snoc _ _ _ _ N) H1) as [[H2 M2]|H2]; rewrite L in *.
      * left. split; auto. intros e [<-|I]; auto.
      * right. exact H2.
    + right. apply closest_loop1 with (l := l) in H1. rewrite L in H1. exact H1.
Qed.

(** result of find_closest_distinct_elements *)
Lemma closest_spec v0 l x :
  let L := v0 :: l in
  let r := find_closest_distinct L x in
  (* the first element is closest *)
  (fst r = 0 /\ (forall e, In e L -> (dist x v0 <= dist x e)%Q) /\
   ((snd r = 0 /\ (forall e, In e L -> (dist x e == dist x v0)%Q -> (e == v0)%Q)) \/
    exists v2, nth_error L (snd r) = Some v2 /\ ~ (v2 == v0)%Q /\ (dist x v2 == dist x v0)%Q)) \/
  (* it is not *)
  (exists v1 v2, nth_error L (fst r) = Some v1 /\ nth_error L (snd r) = Some v2 /\ ~ (v2 == v1)%Q /\
     (dist x v1 < dist x v0)%Q /\
     (forall e, In e L -> (dist x v1 <= dist x e)%Q) /\
     (forall e, In e L -> ~ (e == v1)%Q -> (dist x v2 <= dist x e)%Q)).
Proof.
  cbv zeta. unfold find_closest_distinct.
  set (s0 := mkC 0 0 v0 _ _).
  (* the first round meets the element itself and changes nothing *)
  assert (closest_loop x (v0 :: l) 0 s0 = closest_loop x l (length [v0]) s0) as ->.
  { cbn [closest_loop length]. f_equal. unfold closest_step, s0. cbn [c_d1 c_d2 c_v1].
    assert (Qle_bool (qabs (x - v0)) (qabs (x - v0)) = true) as -> by (apply Qle_bool_iff; lra).
    assert (qltb (qabs (x - v0)) (qabs (x - v0)) = false) as -> by (apply qltb_false; lra).
    assert (Qeq_bool v0 v0 = true) as -> by (apply Qeq_eq_bool; reflexivity). reflexivity. }
  assert (cinv0 x v0 [v0] s0) as H0.
  { pose proof (qabs_spec (x - v0)). unfold cinv0, s0. cbn [c_ret1 c_ret2 c_v1 c_d1 c_d2].
    split; auto. split; auto. split; auto. split; auto. split.
    - intros e [<-|[]]. lra.
    - left. split; auto. intros e [<-|[]] _. reflexivity. }
  cbn [fst snd].
  destruct (closest_loop0 x v0 l [v0] s0 eq_refl H0) as [[H M]|H]; cbn [app] in *.
  - left. destruct H as (R1 & V1 & D1 & D2 & MM & S2). auto.
  - right. destruct H as (LT & N1 & D1 & M & v2 & N2 & D2 & NE & M2).
    eexists _, v2. split; [exact N1|]. split; [exact N2|]. auto.
Qed.

(** ** Bracketing neighbours *)

Definition low_inv (x : Q) (pre : list Q) (k : nat) (d : diff) : Prop :=
  match d with
  | None => forall e, In e pre -> (x < e)%Q
  | Some d => exists a, nth_error pre k = Some a /\ (d == x - a)%Q /\ (a <= x)%Q /\
                        forall e, In e pre -> (e <= x)%Q -> (e <= a)%Q
  end.
Definition high_inv (x : Q) (pre : list Q) (k : nat) (d : diff) : Prop :=
  match d with
  | None => forall e, In e pre -> (e <= x)%Q
  | Some d => exists b, nth_error pre k = Some b /\ (d == b - x)%Q /\ (x < b)%Q /\
                        forall e, In e pre -> (x < e)%Q -> (b <= e)%Q
  end.

Lemma low_skip x pre k d c : low_inv x pre k d ->
  (match d with None => (x < c)%Q | Some d => (c <= x)%Q -> (d <= x - c)%Q end) ->
  low_inv x (pre ++ [c]) k d.
Proof.
  destruct d as [d|]; cbn.
  - intros (a & N & E & L & M) H. exists a. split; [apply nth_error_snoc; auto|]. split; auto. split; auto.
    intros e I LE. apply in_app_or in I as [I|[<-|[]]]; auto. specialize (H LE). lra.
  - intros H1 H2 e I. apply in_app_or in I as [I|[<-|[]]]; auto.
Qed.
Lemma high_skip x pre k d c : high_inv x pre k d ->
  (match d with None => (c <= x)%Q | Some d => (x < c)%Q -> (d <= c - x)%Q end) ->
  high_inv x (pre ++ [c]) k d.
Proof.
  destruct d as [d|]; cbn.
  - intros (a & N & E & L & M) H. exists a. split; [apply nth_error_snoc; auto|]. split; auto. split; auto.
    intros e I LE. apply in_app_or in I as [I|[<-|[]]]; auto. specialize (H LE). lra.
  - intros H1 H2 e I. apply in_app_or in I as [I|[<-|[]]]; auto.
Qed.

Lemma neighbor_inv x : forall l pre s,
  low_inv x pre (n_low s) (n_lowD s) -> high_inv x pre (n_high s) (n_highD s) ->
  let s' := neighbor_loop x l (length pre) s in
  low_inv x (pre ++ l) (n_low s') (n_lowD s') /\ high_inv x (pre ++ l) (n_high s') (n_highD s').
Proof.
  induction l as [|c l IH]; intros pre s HL HH; cbn [neighbor_loop]; cbv zeta.
  - rewrite app_nil_r. auto.
  - replace (pre ++ c :: l) with ((pre ++ [c]) ++ l) by (rewrite <- app_assoc; reflexivity).
    replace (S (length pre)) with (length (pre ++ [c])) by (rewrite app_length; cbn; lia).
    apply IH; clear IH; unfold neighbor_step.
    + destruct (Qle_bool 0 (x - c)) eqn:E.
      * apply Qle_bool_iff in E. destruct (less_diff (x - c) (n_lowD s)) eqn:E2; cbn [n_low n_lowD].
        -- exists c. split; [apply nth_error_last|]. split; [reflexivity|]. split; [lra|].
           intros e I LE. apply in_app_or in I as [I|[<-|[]]]; [|lra].
           destruct (n_lowD s) as [d|]; cbn in HL, E2.
           ++ apply qltb_spec in E2. destruct HL as (a & N & ED & L & M). specialize (M e I LE). lra.
           ++ specialize (HL e I). lra.
        -- apply low_skip; auto. destruct (n_lowD s) as [d|]; cbn in E2; [|discriminate].
           apply qltb_false in E2. auto.
      * apply qleb_false in E. destruct (less_diff (- (x - c)) (n_highD s)); cbn [n_low n_lowD];
          apply low_skip; auto; (destruct (n_lowD s); [intro|]); lra.
    + destruct (Qle_bool 0 (x - c)) eqn:E.
      * apply Qle_bool_iff in E. destruct (less_diff (x - c) (n_lowD s)); cbn [n_high n_highD];
          apply high_skip; auto; (destruct (n_highD s); [intro|]); lra.
      * apply qleb_false in E. destruct (less_diff (- (x - c)) (n_highD s)) eqn:E2; cbn [n_high n_highD].
        -- exists c. split; [apply nth_error_last|]. split; [lra|]. split; [lra|].
           intros e I LE. apply in_app_or in I as [I|[<-|[]]]; [|lra].
           destruct (n_highD s) as [d|]; cbn in HH, E2.
           ++ apply qltb_spec in E2. destruct HH as (a & N & ED & L & M). specialize (M e I LE). lra.
           ++ specialize (HH e I). lra.
        -- apply high_skip; auto. destruct (n_highD s) as [d|]; cbn in E2; [|discriminate].
           apply qltb_false in E2. intro. lra.
Qed.

Lemma neighbor_bracket v0 l x lo hi :
  ~ (v0 == x)%Q -> In lo (v0 :: l) -> (lo <= x)%Q -> In hi (v0 :: l) -> (x < hi)%Q ->
  let r := find_closest_neighbor (v0 :: l) x in
  exists a b, nth_error (v0 :: l) (fst r) = Some a /\ nth_error (v0 :: l) (snd r) = Some b /\
    (a <= x < b)%Q /\
    (forall e, In e (v0 :: l) -> (e <= x)%Q -> (e <= a)%Q) /\
    (forall e, In e (v0 :: l) -> (x < e)%Q -> (b <= e)%Q).
Proof.
  intros NE IL LE IH HE. cbv zeta. unfold find_closest_neighbor.
  set (s0 := mkNS 0 _ 0 _).
  pose proof (neighbor_inv x l [v0] s0) as H. cbv zeta in H. cbn [length app] in H.
  destruct H as [H1 H2].
  - unfold s0. cbn [n_low n_lowD]. destruct (qltb (x - v0) 0) eqn:E.
    + apply qltb_spec in E. intros e [<-|[]]. lra.
    + apply qltb_false in E. exists v0. split; auto. split; [reflexivity|]. split; [lra|].
      intros e [<-|[]]. lra.
  - unfold s0. cbn [n_high n_highD]. destruct (qltb (- (x - v0)) 0) eqn:E.
    + apply qltb_spec in E. intros e [<-|[]]. lra.
    + apply qltb_false in E. exists v0. split; auto. split; [lra|]. split.
      * apply Qle_lteq in E as [E|E]; [lra|]. exfalso. apply NE. lra.
      * intros e [<-|[]]. lra.
  - destruct (n_lowD _) as [dl|]; [|exfalso; specialize (H1 lo IL); lra].
    destruct (n_highD _) as [dh|]; [|exfalso; specialize (H2 hi IH); lra].
    cbn [fst snd]. destruct H1 as (a & N1 & _ & L1 & M1). destruct H2 as (b & N2 & _ & L2 & M2).
    exists a, b. auto.
Qed.

Lemma neighbor_fallback v0 l x :
  ~ (v0 == x)%Q ->
  (forall e, In e (v0 :: l) -> (x < e)%Q) \/ (forall e, In e (v0 :: l) -> (e <= x)%Q) ->
  find_closest_neighbor (v0 :: l) x = find_closest_distinct (v0 :: l) x.
Proof.
  intros NE HO. unfold find_closest_neighbor at 1.
  set (s0 := mkNS 0 _ 0 _).
  pose proof (neighbor_inv x l [v0] s0) as H. cbv zeta in H. cbn [length app] in H.
  destruct H as [H1 H2].
  - unfold s0. cbn [n_low n_lowD]. destruct (qltb (x - v0) 0) eqn:E.
    + apply qltb_spec in E. intros e [<-|[]]. lra.
    + apply qltb_false in E. exists v0. split; auto. split; [reflexivity|]. split; [lra|].
      intros e [<-|[]]. lra.
  - unfold s0. cbn [n_high n_highD]. destruct (qltb (- (x - v0)) 0) eqn:E.
    + apply qltb_spec in E. intros e [<-|[]]. lra.
    + apply qltb_false in E. exists v0. split; auto. split; [lra|]. split.
      * apply Qle_lteq in E as [E|E]; [lra|]. exfalso. apply NE. lra.
      * intros e [<-|[]]. lra.
  - destruct (n_lowD _) as [dl|]; auto. destruct (n_highD _) as [dh|]; auto. exfalso.
    destruct H1 as (a & N1 & _ & L1 & M1). destruct H2 as (b & N2 & _ & L2 & M2).
    apply nth_error_In in N1, N2. destruct HO as [HO|HO].
    + specialize (HO a N1). lra.
    + specialize (HO b N2). lra.
Qed.

Lemma neighbor_first_match v0 l x : (v0 == x)%Q -> find_closest_neighbor (v0 :: l) x = (0, 0).
Proof.
  intro E. unfold find_closest_neighbor.
  assert (qltb (x - v0) 0 = false) as -> by (apply qltb_false; lra).
  assert (qltb (- (x - v0)) 0 = false) as -> by (apply qltb_false; lra).
  set (s0 := mkNS 0 _ 0 _).
  assert (forall l i, neighbor_loop x l i s0 = s0) as H.
  { clear - E. induction l as [|c l IH]; intro i; cbn [neighbor_loop]; auto.
    assert (neighbor_step x s0 i c = s0) as ->; auto. unfold neighbor_step, s0. cbn [n_low n_lowD n_high n_highD less_diff].
    destruct (Qle_bool 0 (x - c)) eqn:E1.
    - apply Qle_bool_iff in E1.
      assert (qltb (x - c) (x - v0) = false) as -> by (apply qltb_false; lra). reflexivity.
    - apply qleb_false in E1.
      assert (qltb (- (x - c)) (- (x - v0)) = false) as -> by (apply qltb_false; lra). reflexivity. }
  rewrite H. reflexivity.
Qed.

(** ** Binary search *)

(** order of the axis: [up] = true increasing, false decreasing *)
Definition before (up : bool) (a b : Q) : Prop := if up then (a < b)%Q else (b < a)%Q.
Definition cmp_of (up : bool) : Q -> Q -> Z := if up then ascending else descending.
Definition monotonic (up : bool) (axis : list Q) : Prop :=
  forall i j a b, i < j -> nth_error axis i = Some a -> nth_error axis j = Some b -> before up a b.

Lemma cmp_spec up a b :
  (cmp_of up a b = 0%Z /\ (a == b)%Q) \/ (cmp_of up a b = 1%Z /\ before up b a) \/
  (cmp_of up a b = (-1)%Z /\ before up a b).
Proof.
  destruct up; unfold cmp_of, descending, ascending, before; destruct (Qeq_bool a b) eqn:E1.
  1,3: apply Qeq_bool_eq in E1; auto.
  all: apply Qeq_bool_neq in E1; destruct (qltb b a) eqn:E2;
    [apply qltb_spec in E2; auto|apply qltb_false in E2].
  all: apply Qle_lteq in E2 as [E2|E2]; [auto|exfalso; apply E1; auto].
Qed.

Lemma before_trans up a b c : before up a b -> before up b c -> before up a c.
Proof. destruct up; cbn; intros; lra. Qed.
Lemma before_comp up a a' b b' : (a == a')%Q -> (b == b')%Q -> before up a b -> before up a' b'.
Proof. destruct up; cbn; intros; lra. Qed.
Lemma before_irrefl up a b : (a == b)%Q -> ~ before up a b.
Proof. destruct up; cbn; intros; lra. Qed.
Lemma before_asym up a b : before up a b -> ~ before up b a.
Proof. destruct up; cbn; intros; lra. Qed.

Definition insertion (up : bool) (axis : list Q) (key : Q) (ins : Z) : Prop :=
  (0 <= ins <= Z.of_nat (length axis))%Z /\
  (forall i a, nth_error axis i = Some a -> (Z.of_nat i < ins)%Z -> before up a key) /\
  (forall i a, nth_error axis i = Some a -> (ins <= Z.of_nat i)%Z -> before up key a).

Lemma at_z_nat axis i : at_z axis (Z.of_nat i) = rd (nth_error axis i).
Proof. unfold at_z. destruct (Z.ltb_spec (Z.of_nat i) 0); [lia|]. rewrite Nat2Z.id. reflexivity. Qed.

Lemma bs_loop_spec up axis key : monotonic up axis -> forall fuel first last pos comp,
  (last - first + 1 < Z.of_nat fuel)%Z -> (0 <= first)%Z -> (last < Z.of_nat (length axis))%Z ->
  (first <= last + 1)%Z ->
  (forall i a, nth_error axis i = Some a -> (Z.of_nat i < first)%Z -> before up a key) ->
  (forall i a, nth_error axis i = Some a -> (last < Z.of_nat i)%Z -> before up key a) ->
  ((first <= last)%Z \/ (comp = 1%Z /\ pos + 1 = first)%Z \/ (comp = (-1)%Z /\ pos = last + 1)%Z) ->
  exists pos' comp', bs_loop fuel (cmp_of up) key axis first last pos comp = Ok (pos', comp') /\
   ((comp' = 0%Z /\ exists i a, pos' = Z.of_nat i /\ nth_error axis i = Some a /\ (key == a)%Q) \/
    (comp' = 1%Z /\ insertion up axis key (pos' + 1)) \/
    (comp' = (-1)%Z /\ insertion up axis key pos')).
Proof.
  intro MO. induction fuel as [|fuel IH]; intros first last pos comp F0 F1 F2 F3 LO HI LK; [lia|].
  cbn [bs_loop]. destruct (Z.leb_spec first last) as [LE|GT].
  - set (p := ((first + last) / 2)%Z).
    assert (first <= p <= last)%Z as PB.
    { unfold p. split; [apply Z.div_le_lower_bound; lia|apply Z.div_le_upper_bound; lia]. }
    assert (exists i, p = Z.of_nat i) as [i EI] by (exists (Z.to_nat p); lia).
    rewrite EI, at_z_nat. destruct (nth_error axis i) as [a|] eqn:EA.
    2:{ apply nth_error_None in EA. lia. }
    cbn [rd obind].
    destruct (cmp_spec up key a) as [[-> C]|[[-> C]|[-> C]]]; cbn [Z.eqb Z.ltb].
    + exists (Z.of_nat i), 0%Z. split; auto. left. split; auto. exists i, a. auto.
    + change (0 <? 1)%Z with true. cbv iota. apply IH; try lia.
      * intros j b EB L. destruct (Z.eq_dec (Z.of_nat j) (Z.of_nat i)) as [E|NE].
        -- assert (j = i) by lia. subst j. congruence.
        -- apply before_trans with a; auto. apply (MO j i); auto. lia.
      * exact HI.
    + change (0 <? -1)%Z with false. cbv iota. apply IH; try lia.
      * exact LO.
      * intros j b EB L. destruct (Z.eq_dec (Z.of_nat j) (Z.of_nat i)) as [E|NE].
        -- assert (j = i) by lia. subst j. congruence.
        -- apply before_trans with a; auto. apply (MO i j); auto. lia.
  - exists pos, comp. split; auto. right.
    assert (insertion up axis key first) as INS.
    { split; [lia|]. split; [exact LO|]. intros i a EA L. apply (HI i a EA). lia. }
    destruct LK as [LK|[[-> LK]|[-> LK]]]; [lia| |].
    + left. split; auto. rewrite LK. exact INS.
    + right. split; auto. replace pos with first by lia. exact INS.
Qed.

(** result of bsearchDoubleIndex on a non-empty monotonic axis *)
Lemma bsearch_spec up axis key : monotonic up axis -> axis <> [] ->
  exists r, bsearch (cmp_of up) key axis = Ok r /\
   ((exists i a, r = Z.of_nat i /\ nth_error axis i = Some a /\ (key == a)%Q) \/
    exists ins, r = (-1 - ins)%Z /\ insertion up axis key ins).
Proof.
  intros MO NE. unfold bsearch.
  assert (0 < length axis) as LP by (destruct axis; [congruence|cbn; lia]).
  destruct (bs_loop_spec up axis key MO (S (length axis)) 0 (Z.of_nat (length axis) - 1) 0 0)
    as (pos & comp & -> & H); try lia.
  { intros i a EA L. assert (i < length axis) by (apply nth_error_Some; congruence). lia. }
  cbn [obind].
  destruct H as [[-> H]|[[-> H]|[-> H]]]; cbn [Z.eqb].
  - exists pos. auto.
  - change (0 <? 1)%Z with true. eexists. split; [reflexivity|]. right. exists (pos + 1)%Z. split; [lia|auto].
  - change (0 <? -1)%Z with false. eexists. split; [reflexivity|]. right. exists pos. split; [lia|auto].
Qed.

(** ** Axis positions *)

(** fraction of the way from lo to hi *)
Definition frac (v lo hi : Q) : Q := ((v - lo) / (hi - lo))%Q.

Lemma frac_lin v lo hi : ~ (lo == hi)%Q -> (frac v lo hi * (hi - lo) == v - lo)%Q.
Proof. intro NE. unfold frac. field. intro E. apply NE. lra. Qed.

Lemma frac_mono up v w lo hi : before up lo hi -> before up v w -> (frac v lo hi < frac w lo hi)%Q.
Proof.
  intros B1 B2. assert (~ (lo == hi)%Q) as NE by (intro E; apply (before_irrefl up lo hi E B1)).
  pose proof (frac_lin v lo hi NE) as H1. pose proof (frac_lin w lo hi NE) as H2.
  destruct up; cbn in B1, B2.
  - apply (Qmult_lt_r _ _ (hi - lo)); lra.
  - apply (Qmult_lt_r _ _ (lo - hi)); lra.
Qed.
Lemma frac_comp v w lo hi : (v == w)%Q -> (frac v lo hi == frac w lo hi)%Q.
Proof. intro E. unfold frac. rewrite E. reflexivity. Qed.
Lemma frac_lo lo hi : (frac lo lo hi == 0)%Q.
Proof. unfold frac. unfold Qdiv. setoid_replace (lo - lo)%Q with 0%Q by lra. apply Qmult_0_l. Qed.
Lemma frac_hi lo hi : ~ (lo == hi)%Q -> (frac hi lo hi == 1)%Q.
Proof. intro NE. unfold frac. field. intro E. apply NE. lra. Qed.

(** [v] has position [p] on the axis: [p] is linear in the segment that contains [v], or in the
    outermost segment when [v] lies outside *)
Definition axis_position (up : bool) (axis : list Q) (v p : Q) : Prop :=
  exists i lo hi, nth_error axis i = Some lo /\ nth_error axis (S i) = Some hi /\
    (i = 0 \/ ~ before up v lo) /\ (S (S i) = length axis \/ ~ before up hi v) /\
    (p == inject_Z (Z.of_nat i) + frac v lo hi)%Q.

Lemma segment_pos v lo hi n : ~ (lo == hi)%Q ->
  ((v - (hi - (hi - lo) * inject_Z (n + 1))) / (hi - lo) == inject_Z n + frac v lo hi)%Q.
Proof.
  intro NE. unfold frac. rewrite inject_Z_plus. change (inject_Z 1) with 1%Q. field.
  intro E. apply NE. lra.
Qed.

(** wrap-around of circular longitudes, src/interpolation.c:212-217 *)
Definition wrap (circular : bool) (num ap : Q) : Q :=
  let ap := if circular && Qle_bool ap (-1#2) then (ap + num)%Q else ap in
  if circular && qltb (num - (1#2)) ap then (ap - num)%Q else ap.

Lemma point_pos_spec up axis circular v : monotonic up axis -> 2 <= length axis ->
  exists q p, point_pos axis (cmp_of up) circular v = Ok q /\
    axis_position up axis v p /\
    ((q == p)%Q /\ (exists i a, nth_error axis i = Some a /\ (a == v)%Q) \/
     q = wrap circular (inject_Z (Z.of_nat (length axis))) p).
Proof.
  intros MO L2. unfold point_pos.
  destruct (bsearch_spec up axis v MO) as (r & -> & H); [destruct axis; cbn in L2; [lia|discriminate]|].
  cbn [obind].
  assert (forall i, i < length axis -> exists a, nth_error axis i = Some a) as EX.
  { intros i LI. destruct (nth_error axis i) eqn:E; eauto. apply nth_error_None in E. lia. }
  destruct H as [(i & a & -> & EA & EV)|(ins & -> & (IB & ILO & IHI))].
  - destruct (Z.leb_spec 0 (Z.of_nat i)); [|lia].
    assert (i < length axis) as LI by (apply nth_error_Some; congruence).
    exists (inject_Z (Z.of_nat i)). destruct (Nat.eq_dec (S i) (length axis)) as [E|NE].
    + destruct i as [|i]; [lia|]. destruct (EX i ltac:(lia)) as [lo EL].
      exists (inject_Z (Z.of_nat (S i))). split; auto. split.
      * exists i, lo, a. split; auto. split; auto.
        assert (before up lo a) as B by (apply (MO i (S i)); auto).
        split; [right|split; [left; auto|]].
        -- intro C. apply (before_asym up lo a B). apply (before_comp up v a lo lo) in C; auto. reflexivity.
        -- rewrite (frac_comp _ _ lo a EV), frac_hi by (intro E2; apply (before_irrefl up lo a E2 B)).
           rewrite Nat2Z.inj_succ, <- Z.add_1_r, inject_Z_plus. reflexivity.
      * left. split; [reflexivity|]. exists (S i), a. split; auto. lra.
    + destruct (EX (S i) ltac:(lia)) as [hi EH].
      exists (inject_Z (Z.of_nat i)). split; auto. split.
      * exists i, a, hi. split; auto. split; auto.
        assert (before up a hi) as B by (apply (MO i (S i)); auto).
        split; [right|split; [right|]].
        -- apply before_irrefl; auto.
        -- intro C. apply (before_asym up a hi B). apply (before_comp up hi hi v a) in C; auto. reflexivity.
        -- rewrite (frac_comp _ _ a hi EV), frac_lo. lra.
      * left. split; [reflexivity|]. exists i, a. split; auto. lra.
  - destruct (Z.leb_spec 0 (-1 - ins)); [lia|].
    replace (-1 * (-1 - ins + 1))%Z with ins by lia.
    set (n := if (ins =? Z.of_nat (length axis))%Z then (ins - 1)%Z else if (ins =? 0)%Z then (ins + 1)%Z else ins).
    assert (exists i, n = Z.of_nat (S i) /\ S i < length axis /\ (i = 0 \/ (Z.of_nat i < ins)%Z) /\
              (S (S i) = length axis \/ (ins <= Z.of_nat (S i))%Z)) as (i & EN & LI & C1 & C2).
    { exists (Z.to_nat (n - 1)). unfold n.
      destruct (Z.eqb_spec ins (Z.of_nat (length axis))), (Z.eqb_spec ins 0); repeat split; lia. }
    clearbody n. subst n. rewrite at_z_nat.
    replace (Z.of_nat (S i) - 1)%Z with (Z.of_nat i) by lia. rewrite at_z_nat.
    destruct (EX (S i) LI) as [hi EH]. destruct (EX i ltac:(lia)) as [lo EL].
    rewrite EH, EL. cbn [rd obind].
    assert (before up lo hi) as B by (apply (MO i (S i)); auto).
    set (p := ((v - (hi - (hi - lo) * inject_Z (Z.of_nat (S i)))) / (hi - lo))%Q).
    exists (wrap circular (inject_Z (Z.of_nat (length axis))) p), p. split; [reflexivity|]. split; [|auto].
    exists i, lo, hi. split; auto. split; auto. split; [|split].
    + destruct C1 as [C1|C1]; auto. right. apply before_asym. apply (ILO i); auto.
    + destruct C2 as [C2|C2]; auto. right. apply before_asym. apply (IHI (S i)); auto.
    + unfold p. rewrite Nat2Z.inj_succ, <- Z.add_1_r. apply segment_pos.
      intro E. apply (before_irrefl up lo hi E B).
Qed.

Lemma axis_position_value up axis i a : monotonic up axis -> 2 <= length axis ->
  nth_error axis i = Some a -> forall p, axis_position up axis a p -> (p == inject_Z (Z.of_nat i))%Q.
Proof.
  intros MO L2 EA p (j & lo & hi & EL & EH & C1 & C2 & ->).
  assert (S j < length axis) by (apply nth_error_Some; congruence).
  assert (i < length axis) by (apply nth_error_Some; congruence).
  assert (before up lo hi) as B by (apply (MO j (S j)); auto).
  assert (~ (lo == hi)%Q) as NE by (intro E; apply (before_irrefl up lo hi E B)).
  destruct (lt_eq_lt_dec i j) as [[L|E]|G].
  - exfalso. destruct C1 as [C1|C1]; [lia|]. apply C1. apply (MO i j); auto.
  - subst j. replace lo with a by congruence. rewrite frac_lo. lra.
  - destruct (Nat.eq_dec i (S j)) as [->|NE2].
    + replace hi with a in * by congruence. rewrite frac_hi by auto.
      rewrite Nat2Z.inj_succ, <- Z.add_1_r, inject_Z_plus. reflexivity.
    + exfalso. destruct C2 as [C2|C2]; [lia|]. apply C2. apply (MO (S j) i); auto. lia.
Qed.

Lemma frac_le1 up v lo hi : before up lo hi -> ~ before up hi v -> (frac v lo hi <= 1)%Q.
Proof.
  intros B N. assert (~ (lo == hi)%Q) as NE by (intro E; apply (before_irrefl up lo hi E B)).
  rewrite <- (frac_hi lo hi NE).
  destruct (Q_dec v hi) as [[L|L]|E].
  - destruct up; cbn in N; [|lra]. apply Qlt_le_weak, (frac_mono true); auto.
  - destruct up; cbn in N; [lra|]. apply Qlt_le_weak, (frac_mono false); auto.
  - rewrite (frac_comp _ _ lo hi E). lra.
Qed.
Lemma frac_ge0 up v lo hi : before up lo hi -> ~ before up v lo -> (0 <= frac v lo hi)%Q.
Proof.
  intros B N. rewrite <- (frac_lo lo hi).
  destruct (Q_dec v lo) as [[L|L]|E].
  - destruct up; cbn in N; [lra|]. apply Qlt_le_weak, (frac_mono false); auto.
  - destruct up; cbn in N; [|lra]. apply Qlt_le_weak, (frac_mono true); auto.
  - rewrite (frac_comp _ _ lo hi E). lra.
Qed.

Lemma axis_position_mono up axis v w p q : monotonic up axis ->
  axis_position up axis v p -> axis_position up axis w q -> before up v w -> (p < q)%Q.
Proof.
  intros MO (i & lo & hi & EL & EH & C1 & C2 & EP) (j & lo' & hi' & EL' & EH' & D1 & D2 & EQ) B.
  rewrite EP, EQ. clear p q EP EQ.
  assert (S i < length axis) by (apply nth_error_Some; congruence).
  assert (S j < length axis) by (apply nth_error_Some; congruence).
  assert (before up lo hi) as B1 by (apply (MO i (S i)); auto).
  assert (before up lo' hi') as B2 by (apply (MO j (S j)); auto).
  assert (~ (lo == hi)%Q) as NE1 by (intro E; apply (before_irrefl up lo hi E B1)).
  destruct (lt_eq_lt_dec i j) as [[L|E]|G].
  - destruct C2 as [C2|C2]; [lia|]. destruct D1 as [D1|D1]; [lia|].
    pose proof (frac_le1 up v lo hi B1 C2) as F1. pose proof (frac_ge0 up w lo' hi' B2 D1) as F2.
    assert (inject_Z (Z.of_nat i) + 1 <= inject_Z (Z.of_nat j))%Q as IJ.
    { change 1%Q with (inject_Z 1). rewrite <- inject_Z_plus, <- Zle_Qle. lia. }
    destruct (Nat.eq_dec (S i) j) as [<-|NE].
    + (* neighbouring segments: not both on the common point *)
      assert (hi = lo') by congruence. subst lo'.
      destruct (Q_dec v hi) as [[LV|LV]|EV].
      * destruct up; cbn in C2, D1, B; [|lra].
        assert (frac v lo hi < frac hi lo hi)%Q as F3 by (apply (frac_mono true); auto).
        rewrite frac_hi in F3 by auto. lra.
      * destruct up; cbn in C2, D1, B; [lra|].
        assert (frac v lo hi < frac hi lo hi)%Q as F3 by (apply (frac_mono false); auto).
        rewrite frac_hi in F3 by auto. lra.
      * assert (frac hi hi hi' < frac w hi hi')%Q as F3
          by (apply (frac_mono up); auto; apply (before_comp up v hi w w); auto; reflexivity).
        rewrite frac_lo in F3. lra.
    + assert (inject_Z (Z.of_nat i) + 2 <= inject_Z (Z.of_nat j))%Q as IJ2.
      { change 2%Q with (inject_Z 2). rewrite <- inject_Z_plus, <- Zle_Qle. lia. }
      lra.
  - subst j. replace lo' with lo by congruence. replace hi' with hi by congruence.
    pose proof (frac_mono up v w lo hi B1 B). lra.
  - exfalso. destruct C1 as [C1|C1]; [lia|]. destruct D2 as [D2|D2]; [lia|].
    assert (~ before up lo hi') as NB.
    { destruct (Nat.eq_dec (S j) i) as [E|NE].
      - subst i. replace hi' with lo by congruence. apply before_irrefl. reflexivity.
      - apply before_asym. apply (MO (S j) i); auto. lia. }
    destruct up; cbn in *; lra.
Qed.

Lemma wrap_spec num ap : (0 < num)%Q -> (- (1#2) - num < ap)%Q -> (ap <= 2 * num - (1#2))%Q ->
  (- (1#2) < wrap true num ap <= num - (1#2))%Q /\
  (wrap true num ap == ap \/ wrap true num ap == ap + num \/ wrap true num ap == ap - num)%Q.
Proof.
  intros P L H. unfold wrap. cbn [andb].
  destruct (Qle_bool ap (-1 # 2)) eqn:E.
  - apply Qle_bool_iff in E. destruct (qltb (num - (1 # 2)) (ap + num)) eqn:E2.
    + apply qltb_spec in E2. lra.
    + apply qltb_false in E2. split; [|right; left; reflexivity]. lra.
  - apply qleb_false in E. destruct (qltb (num - (1 # 2)) ap) eqn:E2.
    + apply qltb_spec in E2. split; [|right; right; reflexivity]. lra.
    + apply qltb_false in E2. split; [|left; reflexivity]. lra.
Qed.

Lemma lon_shift_spec neg p : (-180 <= p)%Q -> (p < 360)%Q ->
  (lon_shift neg p == p \/ lon_shift neg p == p + 360 \/ lon_shift neg p == p - 360)%Q /\
  (if neg then (-180 <= lon_shift neg p <= 180)%Q else (0 <= lon_shift neg p < 360)%Q).
Proof.
  intros L H. destruct neg; unfold lon_shift.
  - destruct (qltb 180 p) eqn:E; [apply qltb_spec in E|apply qltb_false in E].
    + split; [right; right; reflexivity|]. lra.
    + split; [left; reflexivity|]. lra.
  - destruct (qltb p 0) eqn:E; [apply qltb_spec in E|apply qltb_false in E].
    + split; [right; left; reflexivity|]. lra.
    + split; [left; reflexivity|]. lra.
Qed.
