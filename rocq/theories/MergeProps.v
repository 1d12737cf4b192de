(** C53: the axis that results from merging an inner and an outer grid;
    C70: which variables count as compatible. *)
From Coq Require Import QArith Qabs Qround ZArith List Bool Lia Lqa Arith.
From Coq Require Import ZifyBool ZifyNat ZifyN.
From Verif Require Import Base MergeModel.
Import ListNotations.
Local Open Scope nat_scope.

Lemma qlt_iff a b : qlt a b = true <-> (a < b)%Q.
Proof.
  unfold qlt. rewrite negb_true_iff. split; intro H.
  - apply Qnot_le_lt. intro L. apply Qle_bool_iff in L. congruence.
  - destruct (Qle_bool b a) eqn:E; auto. apply Qle_bool_iff in E. lra.
Qed.
Lemma qlt_niff a b : qlt a b = false <-> (b <= a)%Q.
Proof.
  unfold qlt. rewrite negb_false_iff. apply Qle_bool_iff.
Qed.

Lemma bind_ok {A B} (o : outcome A) (f : A -> outcome B) b :
  obind o f = Ok b -> exists a, o = Ok a /\ f a = Ok b.
Proof. destruct o; cbn; intro H; try discriminate. eauto. Qed.

(** ** vocabulary *)
Definition tol : Q := 1 # 1000000.
(** all differences of neighbours are [tol]-near to [step] *)
Fixpoint regular (step : Q) (l : list Q) : Prop :=
  match l with
  | a :: ((b :: _) as r) => (Qabs (b - a - step) < tol)%Q /\ regular step r
  | _ => True
  end.
Definition in_range (lo hi x : Q) : Prop := (lo <= x <= hi)%Q.
Definition nq (n : nat) : Q := inject_Z (Z.of_nat n).

Lemma close_spec a b : close a b = true <-> (Qabs (a - b) < tol)%Q.
Proof. apply qlt_iff. Qed.

Lemma const_step_spec step : forall l, const_step step l = true <-> regular step l.
Proof.
  induction l as [|a l IH]; cbn [const_step regular]; [tauto|].
  destruct l as [|b l]; [tauto|]. rewrite andb_true_iff, IH. rewrite close_spec. tauto.
Qed.

Lemma abs_lt x t : (Qabs x < t <-> - t < x < t)%Q.
Proof. rewrite Qabs_Qlt_condition. tauto. Qed.

(** [grow]: an arithmetic progression inside the range that cannot be prolonged *)
Lemma nq_S n : (nq (S n) == nq n + 1)%Q.
Proof. unfold nq. rewrite Nat2Z.inj_succ. unfold Z.succ. rewrite inject_Z_plus. reflexivity. Qed.

Lemma grow_spec lo hi step : forall fuel x r, grow fuel lo hi step x = Ok r ->
  (forall k y, nth_error r k = Some y -> (y == x + nq k * step)%Q /\ in_range lo hi y) /\
  ~ in_range lo hi (x + nq (length r) * step).
Proof.
  induction fuel as [|f IH]; intros x r H; cbn [grow] in H; [discriminate|].
  destruct (Qle_bool lo x && Qle_bool x hi) eqn:C.
  - apply bind_ok in H. destruct H as (r' & H & [= <-]). destruct (IH _ _ H) as (A & B).
    apply andb_true_iff in C. destruct C as (C1 & C2). apply Qle_bool_iff in C1, C2. split.
    + intros [|k] y Hk; cbn in Hk.
      * injection Hk as <-. split; [change (nq 0) with 0%Q; ring|split; auto].
      * destruct (A k y Hk) as (E & R). split; auto. rewrite E, nq_S. ring.
    + cbn [length]. intro Q. apply B. destruct Q as (Q1 & Q2). rewrite nq_S in Q1, Q2.
      split; [eapply Qle_trans; [exact Q1|]|eapply Qle_trans; [|exact Q2]]; apply Qle_lteq; right; ring.
  - injection H as <-. split; [intros [|k] y Hk; discriminate|]. intros (Q1 & Q2). change (nq (length (@nil Q))) with 0%Q in Q1, Q2.
    assert (lo <= x)%Q as L1 by lra. assert (x <= hi)%Q as L2 by lra.
    apply Qle_bool_iff in L1, L2. rewrite L1, L2 in C. discriminate.
Qed.

Lemma grow_regular lo hi step : forall fuel x r, grow fuel lo hi step x = Ok r ->
  match r with [] => True | y :: _ => y = x end /\ regular step r.
Proof.
  induction fuel as [|f IH]; intros x r H; cbn [grow] in H; [discriminate|].
  destruct (Qle_bool lo x && Qle_bool x hi) eqn:C; [|injection H as <-; split; exact I].
  apply bind_ok in H. destruct H as (r' & H & [= <-]). split; auto. destruct (IH _ _ H) as (A & B).
  destruct r' as [|y r']; [exact I|]. subst y. split; auto. apply abs_lt. unfold tol. lra.
Qed.

(** with a step that is not zero some fuel suffices *)
Lemma grow_terminates_up lo hi step : (0 < step)%Q -> forall n x, (hi < x + nq n * step)%Q ->
  forall fuel, n < fuel -> exists r, grow fuel lo hi step x = Ok r.
Proof.
  intro P. induction n as [|n IH]; intros x H fuel F; (destruct fuel as [|f]; [lia|]); cbn [grow].
  - destruct (Qle_bool lo x && Qle_bool x hi) eqn:C; [|eauto].
    apply andb_true_iff in C. destruct C as (_ & C2). apply Qle_bool_iff in C2. change (nq 0) with 0%Q in H. lra.
  - destruct (Qle_bool lo x && Qle_bool x hi) eqn:C; [|eauto].
    destruct (IH (x + step)%Q) with (fuel := f) as (r & ->); [rewrite nq_S in H; lra|lia|cbn; eauto].
Qed.
Lemma grow_terminates_down lo hi step : (step < 0)%Q -> forall n x, (x + nq n * step < lo)%Q ->
  forall fuel, n < fuel -> exists r, grow fuel lo hi step x = Ok r.
Proof.
  intro P. induction n as [|n IH]; intros x H fuel F; (destruct fuel as [|f]; [lia|]); cbn [grow].
  - destruct (Qle_bool lo x && Qle_bool x hi) eqn:C; [|eauto].
    apply andb_true_iff in C. destruct C as (C1 & _). apply Qle_bool_iff in C1. change (nq 0) with 0%Q in H. lra.
  - destruct (Qle_bool lo x && Qle_bool x hi) eqn:C; [|eauto].
    destruct (IH (x + step)%Q) with (fuel := f) as (r & ->); [rewrite nq_S in H; lra|lia|cbn; eauto].
Qed.

Lemma archimedes (s d : Q) : (0 < s)%Q -> exists n, (d < nq n * s)%Q.
Proof.
  intro P. exists (Z.to_nat (Qfloor (d / s) + 1)).
  assert (L := Qlt_floor (d / s)).
  assert (inject_Z (Qfloor (d / s) + 1) <= nq (Z.to_nat (Qfloor (d / s) + 1)))%Q as G.
  { unfold nq. rewrite <- Zle_Qle. lia. }
  assert (d / s < nq (Z.to_nat (Qfloor (d / s) + 1)))%Q as K by lra.
  apply (Qmult_lt_r _ _ s P) in K. assert (d / s * s == d)%Q as E by (field; lra). rewrite E in K. exact K.
Qed.

Lemma grow_terminates lo hi step x : ~ (step == 0)%Q ->
  exists n, forall fuel, n <= fuel -> exists r, grow fuel lo hi step x = Ok r.
Proof.
  intro N. destruct (Q_dec step 0) as [[L|G]|E]; [| |contradiction].
  - destruct (archimedes (- step) (x - lo) ltac:(lra)) as (n & H). exists (S n). intros fuel F.
    apply (grow_terminates_down lo hi step L n x); [lra|lia].
  - destruct (archimedes step (hi - x) ltac:(lra)) as (n & H). exists (S n). intros fuel F.
    apply (grow_terminates_up lo hi step G n x); [lra|lia].
Qed.

(** ** inversion of a successful call *)
Definition lo_of (v : list Q) : Q :=
  match v with a :: ((b :: _) as r) => if qlt 0 (b - a) then a else last r a | _ => 0 end.
Definition hi_of (v : list Q) : Q :=
  match v with a :: ((b :: _) as r) => if qlt (b - a) 0 then a else last r a | _ => 0 end.
Definition step_of (v : list Q) : Q := match v with a :: b :: _ => (b - a)%Q | _ => 0%Q end.

Lemma extend_inv fuel ui uo vi vo r : extend_axis fuel ui uo vi vo = Ok r ->
  ui = uo /\ 2 <= length vi /\ 2 <= length vo /\ regular (step_of vi) vi /\ regular (step_of vo) vo /\
  (lo_of vo <= lo_of vi)%Q /\ (hi_of vi <= hi_of vo)%Q /\
  exists below above, r = rev below ++ vi ++ above /\
    grow fuel (lo_of vo) (hi_of vo) (- step_of vi) (hd 0%Q vi - step_of vi) = Ok below /\
    grow fuel (lo_of vo) (hi_of vo) (step_of vi) (last vi 0%Q + step_of vi) = Ok above.
Proof.
  unfold extend_axis. destruct (Bool.eqb ui uo) eqn:U; cbn [negb]; [|discriminate]. apply eqb_prop in U.
  destruct vi as [|i0 [|i1 ri]]; try discriminate. destruct vo as [|o0 [|o1 ro]]; try discriminate.
  destruct (const_step (i1 - i0) (i1 :: ri)) eqn:CI; cbn [negb]; [|discriminate].
  destruct (const_step (o1 - o0) (o1 :: ro)) eqn:CO; cbn [negb]; [|discriminate].
  destruct (_ || _) eqn:R; [discriminate|]. intro H.
  apply bind_ok in H. destruct H as (below & Hb & H). apply bind_ok in H. destruct H as (above & Ha & [= <-]).
  apply orb_false_iff in R. destruct R as (R1 & R2). apply qlt_niff in R1, R2.
  apply const_step_spec in CI, CO.
  split; [exact U|]. split; [cbn; lia|]. split; [cbn; lia|].
  split; [split; [apply abs_lt; unfold tol, step_of; lra|exact CI]|].
  split; [split; [apply abs_lt; unfold tol, step_of; lra|exact CO]|].
  split; [exact R1|]. split; [exact R2|].
  exists below, above. split; [reflexivity|]. split; [exact Hb|].
  assert (forall (l : list Q) b a, last (b :: l) a = last l b) as LC.
  { clear. induction l as [|c l IH]; intros b a; auto. change (last (c :: l) a = last (c :: l) b). rewrite !IH. reflexivity. }
  assert (last (i0 :: i1 :: ri) 0%Q = last (i1 :: ri) i0) as -> by apply LC. exact Ha.
Qed.

(** ** C53 *)

(** The inner axis is contained unchanged and in one piece; the values before and after it continue it with
    its first step, all inside the range of the outer axis; no further such value fits into the range. *)
Theorem C53_contains : forall fuel ui uo vi vo r, extend_axis fuel ui uo vi vo = Ok r ->
  exists before after, r = before ++ vi ++ after /\
    (forall k y, nth_error (rev before) k = Some y ->
       (y == hd 0%Q vi - nq (S k) * step_of vi)%Q /\ in_range (lo_of vo) (hi_of vo) y) /\
    (forall k y, nth_error after k = Some y ->
       (y == last vi 0%Q + nq (S k) * step_of vi)%Q /\ in_range (lo_of vo) (hi_of vo) y) /\
    ~ in_range (lo_of vo) (hi_of vo) (hd 0%Q vi - nq (S (length before)) * step_of vi) /\
    ~ in_range (lo_of vo) (hi_of vo) (last vi 0%Q + nq (S (length after)) * step_of vi).
Proof.
  intros fuel ui uo vi vo r H. destruct (extend_inv _ _ _ _ _ _ H) as (_ & _ & _ & _ & _ & _ & _ & below & above & -> & Hb & Ha).
  exists (rev below), above. rewrite rev_involutive, rev_length.
  destruct (grow_spec _ _ _ _ _ _ Hb) as (B1 & B2). destruct (grow_spec _ _ _ _ _ _ Ha) as (A1 & A2).
  split; [reflexivity|]. split; [|split; [|split]].
  - intros k y Hk. destruct (B1 k y Hk) as (E & R). split; [rewrite E, nq_S; ring|exact R].
  - intros k y Hk. destruct (A1 k y Hk) as (E & R). split; [rewrite E, nq_S; ring|exact R].
  - intros (Q1 & Q2). apply B2. rewrite nq_S in Q1, Q2.
    split; [eapply Qle_trans; [exact Q1|]|eapply Qle_trans; [|exact Q2]]; apply Qle_lteq; right; ring.
  - intros (Q1 & Q2). apply A2. rewrite nq_S in Q1, Q2.
    split; [eapply Qle_trans; [exact Q1|]|eapply Qle_trans; [|exact Q2]]; apply Qle_lteq; right; ring.
Qed.

Lemma regular_app step : forall a b x, regular step (a ++ [x]) -> regular step (x :: b) -> regular step (a ++ x :: b).
Proof.
  induction a as [|y a IH]; intros b x H G; [exact G|]. cbn [app]. destruct a as [|z a].
  - cbn in *. tauto.
  - cbn [app] in *. destruct H as (H1 & H2). split; [exact H1|]. apply (IH b x H2 G).
Qed.

Lemma regular_rev_grow lo hi s : forall fuel x r i0, grow fuel lo hi (- s) x = Ok r -> (x == i0 - s)%Q ->
  regular s (rev r ++ [i0]).
Proof.
  intros fuel x r i0 H. revert fuel x i0 H. induction r as [|y r IH]; intros fuel x i0 H E; [exact I|].
  destruct fuel as [|f]; [discriminate|]. cbn [grow] in H. destruct (_ && _); [|discriminate].
  apply bind_ok in H. destruct H as (r' & H & [= <- ->]). cbn [rev]. rewrite <- app_assoc. cbn [app].
  apply regular_app; [|split; [apply abs_lt; unfold tol; lra|exact I]].
  apply (IH f (x + - s)%Q x H). ring.
Qed.

(** The result is as regular as the inner axis: all steps within 1e-6 of its first step. *)
Theorem C53_regular : forall fuel ui uo vi vo r, extend_axis fuel ui uo vi vo = Ok r ->
  forall k a b, nth_error r k = Some a -> nth_error r (S k) = Some b ->
  (Qabs (b - a - step_of vi) < tol)%Q.
Proof.
  intros fuel ui uo vi vo r H.
  assert (regular (step_of vi) r) as R.
  { destruct (extend_inv _ _ _ _ _ _ H) as (_ & Li & _ & RI & _ & _ & _ & below & above & -> & Hb & Ha).
    destruct vi as [|i0 vi]; [cbn in Li; lia|]. cbn [app]. apply regular_app.
    - apply (regular_rev_grow _ _ _ _ _ _ i0 Hb). cbn [hd]. reflexivity.
    - destruct (@exists_last _ (i0 :: vi)) as (l & x & E); [discriminate|].
      rewrite app_comm_cons. set (st := step_of (i0 :: vi)) in *. rewrite E in *. rewrite <- app_assoc. cbn [app].
      apply regular_app; [exact RI|]. destruct (grow_regular _ _ _ _ _ _ Ha) as (A1 & A2).
      destruct above as [|y above]; [exact I|]. split; [|exact A2]. subst y.
      assert (last (l ++ [x]) 0%Q = x) as ->. { clear. induction l as [|c l IH]; auto. cbn. destruct (l ++ [x]) eqn:Q; [destruct l; discriminate|exact IH]. }
      apply abs_lt. unfold tol. lra. }
  clear H. induction r as [|x r IH]; intros k a b Ha Hb; [destruct k; discriminate|].
  destruct k as [|k]; cbn in Ha, Hb.
  - injection Ha as <-. destruct r as [|y r]; [discriminate|]. cbn in Hb. injection Hb as <-. apply R.
  - destruct r as [|y r]; [destruct k; discriminate|]. apply (IH (proj2 R) k); auto.
Qed.

(** monotone inner axis *)
Lemma regular_up step : (tol <= step)%Q -> forall l a, regular step (a :: l) ->
  (forall x, In x l -> a <= x)%Q /\ (a <= last l a)%Q /\ (forall x, In x (a :: l) -> x <= last l a)%Q.
Proof.
  intro T. induction l as [|b l IH]; intros a R.
  - cbn. repeat split; try tauto; [lra|]. intros x [<-|[]]; lra.
  - destruct R as (R1 & R2). apply abs_lt in R1. destruct (IH b R2) as (I1 & I2 & I3).
    assert (last (b :: l) a = last l b) as E.
    { clear. revert b a. induction l as [|c l IH]; intros; auto. change (last (c :: l) a = last (c :: l) b). rewrite !IH. reflexivity. }
    rewrite E. split; [|split].
    + intros x [<-|Hx]; [lra|]. specialize (I1 x Hx). lra.
    + lra.
    + intros x [<-|Hx]; [lra|apply I3, Hx].
Qed.
Lemma regular_down step : (step <= - tol)%Q -> forall l a, regular step (a :: l) ->
  (forall x, In x l -> x <= a)%Q /\ (last l a <= a)%Q /\ (forall x, In x (a :: l) -> last l a <= x)%Q.
Proof.
  intro T. induction l as [|b l IH]; intros a R.
  - cbn. repeat split; try tauto; [lra|]. intros x [<-|[]]; lra.
  - destruct R as (R1 & R2). apply abs_lt in R1. destruct (IH b R2) as (I1 & I2 & I3).
    assert (last (b :: l) a = last l b) as E.
    { clear. revert b a. induction l as [|c l IH]; intros; auto. change (last (c :: l) a = last (c :: l) b). rewrite !IH. reflexivity. }
    rewrite E. split; [|split].
    + intros x [<-|Hx]; [lra|]. specialize (I1 x Hx). lra.
    + lra.
    + intros x [<-|Hx]; [lra|apply I3, Hx].
Qed.

(** lo_of and hi_of are the smallest and largest value of an axis *)
Lemma lo_hi v : 2 <= length v -> regular (step_of v) v -> (tol <= Qabs (step_of v))%Q ->
  In (lo_of v) v /\ In (hi_of v) v /\ forall x, In x v -> in_range (lo_of v) (hi_of v) x.
Proof.
  intros L R T. destruct v as [|a [|b v]]; try (cbn in L; lia).
  assert (forall l (d : Q), In (last l d) (d :: l)) as LI.
  { clear. induction l as [|c l IH]; intro d; [left; reflexivity|].
    assert (last (c :: l) d = last l c) as -> .
    { clear. revert c d. induction l as [|e l IH]; intros; auto. change (last (e :: l) d = last (e :: l) c). rewrite !IH. reflexivity. }
    right. apply IH. }
  set (st := step_of (a :: b :: v)) in *. unfold lo_of, hi_of. change (b - a)%Q with st.
  assert (tol <= st \/ st <= - tol)%Q as [P|P].
  { destruct (Qlt_le_dec st 0); [right|left].
    - rewrite Qabs_neg in T by lra. lra.
    - rewrite Qabs_pos in T by lra. lra. }
  - assert (0 < tol)%Q by reflexivity.
    assert (qlt 0 st = true) as -> by (apply qlt_iff; lra). assert (qlt st 0 = false) as -> by (apply qlt_niff; lra).
    destruct (regular_up st P (b :: v) a R) as (R1 & R2 & R3).
    split; [left; reflexivity|]. split; [apply LI|]. intros x Hx. split; [|apply R3, Hx].
    destruct Hx as [<-|Hx]; [lra|apply R1, Hx].
  - assert (0 < tol)%Q by reflexivity.
    assert (qlt 0 st = false) as -> by (apply qlt_niff; lra). assert (qlt st 0 = true) as -> by (apply qlt_iff; lra).
    destruct (regular_down st P (b :: v) a R) as (R1 & R2 & R3).
    split; [apply LI|]. split; [left; reflexivity|]. intros x Hx. split; [apply R3, Hx|].
    destruct Hx as [<-|Hx]; [lra|apply R1, Hx].
Qed.

(** With steps of at least 1e-6 the result lies within the outer axis and covers its range up to less than
    one step on each side. *)
Theorem C53_covers : forall fuel ui uo vi vo r, extend_axis fuel ui uo vi vo = Ok r ->
  (tol <= Qabs (step_of vi))%Q -> (tol <= Qabs (step_of vo))%Q ->
  exists lo hi, In lo vo /\ In hi vo /\ (forall x, In x vo -> in_range lo hi x) /\
    (forall x, In x r -> in_range lo hi x) /\
    exists y z, In y r /\ In z r /\ (y - lo < Qabs (step_of vi))%Q /\ (hi - z < Qabs (step_of vi))%Q.
Proof.
  intros fuel ui uo vi vo r H Ti To.
  destruct (extend_inv _ _ _ _ _ _ H) as (_ & Li & Lo & Ri & Ro & R1 & R2 & _).
  destruct (C53_contains _ _ _ _ _ _ H) as (bf & af & -> & B & A & NB & NA).
  exists (lo_of vo), (hi_of vo). destruct (lo_hi vo Lo Ro To) as (O1 & O2 & O3).
  destruct (lo_hi vi Li Ri Ti) as (I1 & I2 & I3).
  assert (forall x, In x vi -> in_range (lo_of vo) (hi_of vo) x) as IV.
  { intros x Hx. destruct (I3 x Hx). split; lra. }
  repeat split; auto; try (apply O3; assumption).
  1,2: apply in_app_or in H0; destruct H0 as [H0|H0]; [apply in_rev in H0; apply In_nth_error in H0; destruct H0 as (k & Hk); apply (B k x Hk)|];
     apply in_app_or in H0; destruct H0 as [H0|H0]; [apply IV, H0|apply In_nth_error in H0; destruct H0 as (k & Hk); apply (A k x Hk)].
  (* the outermost values *)
  set (st := step_of vi) in *.
  assert (In (hd 0%Q vi) vi) as HI by (destruct vi; [cbn in Li; lia|left; reflexivity]).
  assert (In (last vi 0%Q) vi) as LI.
  { destruct (@exists_last _ vi) as (l & x & ->); [intro; subst; cbn in Li; lia|].
    assert (last (l ++ [x]) 0%Q = x) as -> . { clear. induction l as [|c l IH]; auto. cbn. destruct (l ++ [x]) eqn:Q; [destruct l; discriminate|exact IH]. }
    apply in_or_app. right. left. reflexivity. }
  assert (exists y, In y (bf ++ vi ++ af) /\ (y == hd 0%Q vi - nq (length bf) * st)%Q) as (y & Hy & Ey).
  { destruct bf as [|b bf].
    - exists (hd 0%Q vi). split; [apply in_or_app; right; apply in_or_app; left; exact HI|change (nq (length (@nil Q))) with 0%Q; ring].
    - exists b. split; [left; reflexivity|]. destruct (B (length bf) b) as (E & _); [|exact E].
      cbn [rev]. rewrite nth_error_app2 by (rewrite rev_length; lia). rewrite rev_length, Nat.sub_diag. reflexivity. }
  assert (exists z, In z (bf ++ vi ++ af) /\ (z == last vi 0%Q + nq (length af) * st)%Q) as (z & Hz & Ez).
  { assert (af = [] \/ af <> []) as [->|Hn] by (destruct af; [left; reflexivity|right; discriminate]).
    - exists (last vi 0%Q). split; [apply in_or_app; right; apply in_or_app; left; exact LI|change (nq (length (@nil Q))) with 0%Q; ring].
    - destruct (exists_last Hn) as (l & x & ->). exists x.
      split; [rewrite !in_app_iff; cbn; tauto|]. rewrite app_length. cbn [length]. replace (length l + 1) with (S (length l)) by lia.
      apply A. rewrite nth_error_app2, Nat.sub_diag by lia. reflexivity. }
  assert (forall x, In x (bf ++ vi ++ af) -> in_range (lo_of vo) (hi_of vo) x) as IR.
  { intros x H0. apply in_app_or in H0. destruct H0 as [H0|H0]; [apply in_rev in H0; apply In_nth_error in H0; destruct H0 as (k & Hk); apply (B k x Hk)|].
    apply in_app_or in H0; destruct H0 as [H0|H0]; [apply IV, H0|apply In_nth_error in H0; destruct H0 as (k & Hk); apply (A k x Hk)]. }
  assert (IY := IR y Hy). assert (IZ := IR z Hz).
  unfold in_range in NB, NA, IY, IZ.
  rewrite nq_S in NB. rewrite nq_S in NA.
  assert (tol <= st \/ st <= - tol)%Q as [P|P].
  { destruct (Qlt_le_dec st 0); [right|left].
    - rewrite Qabs_neg in Ti by lra. lra.
    - rewrite Qabs_pos in Ti by lra. lra. }
  - assert (0 < tol)%Q as TP by reflexivity. exists y, z. split; [exact Hy|]. split; [exact Hz|]. rewrite Qabs_pos by lra. split.
    + destruct (Qlt_le_dec (y - lo_of vo) st); auto. exfalso. apply NB. split; lra.
    + destruct (Qlt_le_dec (hi_of vo - z) st); auto. exfalso. apply NA. split; lra.
  - assert (0 < tol)%Q as TP by reflexivity. exists z, y. split; [exact Hz|]. split; [exact Hy|]. rewrite Qabs_neg by lra. split.
    + destruct (Qlt_le_dec (z - lo_of vo) (- st)); auto. exfalso. apply NA. split; lra.
    + destruct (Qlt_le_dec (hi_of vo - y) (- st)); auto. exfalso. apply NB. split; lra.
Qed.

(** The call fails exactly for axes of fewer than two values, of irregular steps, of which only one is
    unlimited, or of which the inner one reaches beyond the outer one. *)
Theorem C53_rejects : forall fuel ui uo vi vo,
  extend_axis fuel ui uo vi vo = Throw <->
  ~ (ui = uo /\ 2 <= length vi /\ 2 <= length vo /\ regular (step_of vi) vi /\ regular (step_of vo) vo /\
     (lo_of vo <= lo_of vi)%Q /\ (hi_of vi <= hi_of vo)%Q).
Proof.
  assert (forall fuel lo hi st x, grow fuel lo hi st x <> Throw) as NT.
  { induction fuel as [|f IH]; intros; cbn [grow]; [discriminate|]. destruct (_ && _); [|discriminate].
    specialize (IH lo hi st (x + st)%Q). destruct (grow f lo hi st (x + st)); cbn; congruence. }
  assert (forall st a b l, regular st (a :: b :: l) <-> (Qabs (b - a - st) < tol)%Q /\ regular st (b :: l)) as RC.
  { intros. reflexivity. }
  intros fuel ui uo vi vo. unfold extend_axis.
  destruct (Bool.eqb ui uo) eqn:U; cbn [negb].
  2: { split; auto. intros _ (-> & _). rewrite eqb_reflx in U. discriminate. }
  apply eqb_prop in U. subst uo.
  destruct vi as [|i0 [|i1 ri]]; [split; auto; intros _ (_ & L & _); cbn in L; lia..|].
  destruct vo as [|o0 [|o1 ro]]; [split; auto; intros _ (_ & _ & L & _); cbn in L; lia..|].
  destruct (const_step (i1 - i0) (i1 :: ri)) eqn:CI; cbn [negb].
  2: { split; auto. intros _ (_ & _ & _ & R & _). apply RC in R. destruct R as (_ & R). apply const_step_spec in R.
       unfold step_of in R. congruence. }
  destruct (const_step (o1 - o0) (o1 :: ro)) eqn:CO; cbn [negb].
  2: { split; auto. intros _ (_ & _ & _ & _ & R & _). apply RC in R. destruct R as (_ & R). apply const_step_spec in R.
       unfold step_of in R. congruence. }
  apply const_step_spec in CI, CO.
  destruct (_ || _) eqn:R.
  - split; auto. intros _ (_ & _ & _ & _ & _ & R1 & R2).
    apply orb_true_iff in R. destruct R as [R|R]; apply qlt_iff in R; unfold lo_of, hi_of in R1, R2; lra.
  - apply orb_false_iff in R. destruct R as (R1 & R2). apply qlt_niff in R1, R2.
    split.
    + intro H. exfalso. revert H.
      match goal with |- obind ?g _ = _ -> _ => destruct g eqn:G end; cbn [obind]; try discriminate;
        [|exact (fun _ => NT _ _ _ _ _ G)].
      match goal with |- obind ?g _ = _ -> _ => destruct g eqn:G2 end; cbn [obind]; try discriminate.
      exact (fun _ => NT _ _ _ _ _ G2).
    + intro H. exfalso. apply H. split; [reflexivity|]. split; [cbn; lia|]. split; [cbn; lia|].
      split; [apply RC; split; [apply abs_lt; unfold tol, step_of; lra|exact CI]|].
      split; [apply RC; split; [apply abs_lt; unfold tol, step_of; lra|exact CO]|].
      split; [exact R1|exact R2].
Qed.

(** With a step that is not zero the loops end. *)
Theorem C53_terminates : forall ui uo vi vo, ~ (step_of vi == 0)%Q ->
  exists n, forall fuel, n <= fuel ->
    extend_axis fuel ui uo vi vo = Throw \/ exists r, extend_axis fuel ui uo vi vo = Ok r.
Proof.
  intros ui uo vi vo N. unfold extend_axis. destruct (negb _); [exists 0; auto|].
  destruct vi as [|i0 [|i1 ri]]; try (exists 0; auto; fail).
  destruct vo as [|o0 [|o1 ro]]; try (exists 0; auto; fail).
  destruct (negb _); [exists 0; auto|]. destruct (negb _); [exists 0; auto|]. destruct (_ || _); [exists 0; auto|].
  cbn [step_of] in N. change (~ (i1 - i0 == 0)%Q) in N.
  match goal with |- exists n, forall fuel, _ -> (obind (grow _ ?lo ?hi ?s ?x) (fun _ => obind (grow _ _ _ ?s2 ?y) _)) = _ \/ _ =>
    destruct (grow_terminates lo hi s x) as (n1 & H1); [lra|];
    destruct (grow_terminates lo hi s2 y) as (n2 & H2); [exact N|] end.
  exists (Nat.max n1 n2). intros fuel F. right.
  destruct (H1 fuel ltac:(lia)) as (b & ->). destruct (H2 fuel ltac:(lia)) as (a & ->). cbn. eauto.
Qed.

(** FINDING: an inner axis of equal values passes the checks and the loop never ends. *)
Theorem C53_zero_step : forall fuel c, (0 <= c <= 1)%Q -> extend_axis fuel false false [c; c] [0; 1]%Q = Hang.
Proof.
  intros fuel c (C1 & C2). unfold extend_axis. cbn [Bool.eqb negb const_step last].
  assert (qlt 0 (c - c) = false) as -> by (apply qlt_niff; lra).
  assert (qlt (c - c) 0 = false) as -> by (apply qlt_niff; lra).
  change (qlt 0 (1 - 0)) with true. change (qlt (1 - 0) 0) with false. cbn iota.
  assert (qlt c 0 = false) as -> by (apply qlt_niff; lra).
  assert (qlt 1 c = false) as -> by (apply qlt_niff; lra). cbn [orb].
  assert (forall f x, (x == c)%Q -> grow f 0 1 (- (c - c)) x = Hang) as G.
  { induction f as [|f IH]; intros x E; cbn [grow]; auto.
    assert (Qle_bool 0 x = true) as -> by (apply Qle_bool_iff; lra).
    assert (Qle_bool x 1 = true) as -> by (apply Qle_bool_iff; lra). cbn [andb].
    rewrite IH by lra. reflexivity. }
  rewrite G by lra. reflexivity.
Qed.

(** FINDING: the tolerance is absolute; an axis that goes forth and back by steps below 1e-6 counts as
    regular. *)
Theorem C53_absolute_tolerance :
  exists r, extend_axis 30 false false [0; 4#10000000; 1#10000000]%Q [0; 10#10000000]%Q = Ok r
            /\ ~ (forall k a b, nth_error r k = Some a -> nth_error r (S k) = Some b -> (a < b)%Q).
Proof.
  eexists. split; [vm_compute; reflexivity|]. intro H. specialize (H 1 _ _ eq_refl eq_refl). unfold Qlt in H. cbn in H. lia.
Qed.

(** FINDING: an inner axis in km is extended in m, but the result is declared in km: its values are a
    thousand times those of the inner axis. *)
Theorem C53_unit_mixup : exists r, target_axis 30 1000 [1; 2]%Q [0; 1000; 2000; 3000]%Q = Ok r
  /\ (forall k a b, nth_error r k = Some a -> nth_error [0; 1; 2; 3]%Q k = Some b -> (a == 1000 * b)%Q) /\ length r = 4.
Proof.
  eexists. split; [vm_compute; reflexivity|]. split; [|reflexivity].
  intros [|[|[|[|k]]]] a b Ha Hb; cbn in Ha, Hb; try (injection Ha as <-; injection Hb as <-; reflexivity).
  destruct k; discriminate.
Qed.

Example C53_nonvacuous : exists r, extend_axis 30 false false [3; 4; 5]%Q [0; (5#2); 5; (15#2)]%Q = Ok r
  /\ Forall2 Qeq r [0; 1; 2; 3; 4; 5; 6; 7]%Q.
Proof. eexists. split; [vm_compute; reflexivity|]. repeat constructor. Qed.
Example C53_nonvacuous_down : exists r, extend_axis 30 false false [5; 4]%Q [2; 6]%Q = Ok r
  /\ Forall2 Qeq r [6; 5; 4; 3; 2]%Q.
Proof. eexists. split; [vm_compute; reflexivity|]. repeat constructor. Qed.

(** ** C70 *)

(** One axis: both absent, or of the same length, or one absent and the other of length one. *)
Theorem C70_single_axis : forall b t, axis_compatible b t = true <->
  b = t \/ (b = None /\ t = Some 1) \/ (b = Some 1 /\ t = None).
Proof.
  intros b t.
  assert (forall n m : nat, Some n = Some m <-> n = m) as SE by (split; [intros [= ->]; auto|intros ->; auto]).
  assert (forall n : nat, None = Some n <-> False) as S1 by (split; [discriminate|tauto]).
  assert (forall n : nat, Some n = None <-> False) as S2 by (split; [discriminate|tauto]).
  assert (@None nat = None <-> True) as S3 by tauto.
  destruct b as [b|], t as [t|]; unfold axis_compatible, axis_length; rewrite ?SE, ?S1, ?S2, ?S3;
    repeat match goal with |- context[if ?c then _ else _] => destruct c eqn:? end;
    (split; [intro; try discriminate|intro; auto]); try tauto; lia.
Qed.

(** dimensions of length other than one *)
Definition real_dims (s : list sdim) : list sdim := filter (fun d => negb (s_len d =? 1)) s.

(** two dimensions correspond: same role, and same length unless horizontal *)
Definition matches (b t : sdim) : Prop :=
  s_isx b = s_isx t /\ s_isy b = s_isy t /\ (s_isx b = false -> s_isy b = false -> s_len b = s_len t).

Lemma hop_real : forall s, real_dims (hop s) = real_dims s.
Proof. induction s as [|d s IH]; auto. cbn. destruct (s_len d =? 1) eqn:E; cbn; auto. rewrite E. reflexivity. Qed.
Lemma hop_head : forall s d r, hop s = d :: r -> real_dims s = d :: real_dims r /\ length r < length s.
Proof.
  induction s as [|e s IH]; intros d r H; cbn in H; [discriminate|]. cbn.
  destruct (s_len e =? 1) eqn:E; cbn; [destruct (IH _ _ H); split; auto; lia|].
  injection H as -> ->. split; auto.
Qed.
Lemma hop_nil : forall s, hop s = [] -> real_dims s = [].
Proof. induction s as [|e s IH]; auto. cbn. destruct (s_len e =? 1); cbn; [auto|discriminate]. Qed.

Lemma matches_dec db dt : (if negb (Bool.eqb (s_isx db) (s_isx dt)) || negb (Bool.eqb (s_isy db) (s_isy dt)) then false
   else if negb (s_isx db || s_isy db) && negb (s_len db =? s_len dt) then false else true) = true <-> matches db dt.
Proof.
  unfold matches. destruct (s_isx db), (s_isx dt), (s_isy db), (s_isy dt); cbn;
    (split; [intro H; try discriminate; repeat split; intros; try discriminate; auto|intros (A & B & C); try discriminate; auto]).
  - destruct (Nat.eqb_spec (s_len db) (s_len dt)); cbn in *; [auto|discriminate].
  - destruct (Nat.eqb_spec (s_len db) (s_len dt)); cbn; [auto|]. exfalso. auto.
Qed.

Lemma shapes_loop_spec : forall fuel b t, length b <= fuel -> length (real_dims b) = length (real_dims t) ->
  (shapes_loop fuel b t = true <-> Forall2 matches (real_dims b) (real_dims t)).
Proof.
  induction fuel as [|f IH]; intros b t F L.
  - destruct b; [|cbn in F; lia]. change (real_dims []) with (@nil sdim) in *. destruct (real_dims t); [|discriminate L]. split; auto.
  - destruct b as [|b0 b]; [change (real_dims []) with (@nil sdim) in *; destruct (real_dims t); [|discriminate L]; split; auto|].
    destruct t as [|t0 t]; [change (real_dims []) with (@nil sdim) in *; destruct (real_dims (b0 :: b)) eqn:E; [|discriminate L]; split; auto|].
    cbn [shapes_loop]. set (B := b0 :: b) in *. set (T := t0 :: t) in *.
    destruct (hop B) as [|db rb] eqn:HB; destruct (hop T) as [|dt rt] eqn:HT.
    + rewrite (hop_nil _ HB), (hop_nil _ HT). split; auto.
    + destruct (hop_head _ _ _ HT) as (E & _). rewrite (hop_nil _ HB), E in L. discriminate.
    + destruct (hop_head _ _ _ HB) as (E & _). rewrite (hop_nil _ HT), E in L. discriminate.
    + destruct (hop_head _ _ _ HB) as (EB & LB). destruct (hop_head _ _ _ HT) as (ET & LT).
      rewrite EB, ET in *. cbn [length] in L. assert (M := matches_dec db dt).
      destruct (negb _ || negb _).
      { split; [discriminate|]. intro Q. inversion Q; subst. apply M in H2. discriminate. }
      destruct (negb _ && negb _).
      { split; [discriminate|]. intro Q. inversion Q; subst. apply M in H2. discriminate. }
      rewrite (IH rb rt) by lia. split; intro Q; [constructor; [apply M; reflexivity|exact Q]|inversion Q; auto].
Qed.

(** Variables with coordinate systems and with equally many dimensions of length other than one are
    compatible exactly if all axes are and the shapes have the same names, or correspond dimension by
    dimension apart from those of length one. *)
Theorem C70_compatible : forall axes b t, length (real_dims b) = length (real_dims t) ->
  (compatible true true true true axes b t = true <->
   (forall x y, In (x, y) axes -> x = y \/ (x = None /\ y = Some 1) \/ (x = Some 1 /\ y = None)) /\
   (map s_name b = map s_name t \/ Forall2 matches (real_dims b) (real_dims t))).
Proof.
  intros axes b t L. unfold compatible. cbn [andb negb Bool.eqb].
  assert (axes_compatible axes = true <-> (forall x y, In (x, y) axes -> x = y \/ (x = None /\ y = Some 1) \/ (x = Some 1 /\ y = None))) as A.
  { unfold axes_compatible. rewrite forallb_forall. split.
    - intros H x y I. apply C70_single_axis. exact (H (x, y) I).
    - intros H (x, y) I. apply C70_single_axis. exact (H x y I). }
  destruct (axes_compatible axes); cbn [negb].
  - unfold shapes_compatible, names_eq. destruct (list_eq_dec _ _ _) as [E|E].
    + split; auto. intros _. split; [apply A; reflexivity|auto].
    + rewrite (shapes_loop_spec (length b) b t (le_n _) L). split; [intro Q; split; [apply A; reflexivity|auto]|].
      intros (_ & [Q|Q]); [contradiction|exact Q].
  - split; [discriminate|]. intros (Q & _). apply A in Q. discriminate.
Qed.

(** The remaining cases: a variable missing on one side, or with a coordinate system on one side only, is
    never compatible; without coordinate systems it always is. *)
Theorem C70_other_cases : forall hb ht cb ct axes b t,
  (hb = false \/ ht = false -> compatible hb ht cb ct axes b t = false) /\
  (cb <> ct -> compatible hb ht cb ct axes b t = false) /\
  compatible true true false false axes b t = true.
Proof.
  intros. unfold compatible. split; [|split].
  - intros [->| ->]; [destruct ht|]; reflexivity.
  - intro N. destruct (negb _); auto. destruct cb, ct; try reflexivity; congruence.
  - reflexivity.
Qed.

(** FINDING: a further dimension of any length behind the end of the other shape is not noticed. *)
Definition dimx := {| s_name := 1; s_len := 5; s_isx := true; s_isy := false |}.
Definition dimy := {| s_name := 2; s_len := 6; s_isx := false; s_isy := true |}.
Theorem C70_extra_dimension : forall n len, n <> 1 ->
  let e := {| s_name := n; s_len := len; s_isx := false; s_isy := false |} in
  compatible true true true true [] [dimx; dimy] [dimx; dimy; e] = true /\
  compatible true true true true [] [dimx; dimy; e] [dimx; dimy] = true.
Proof.
  intros n len N e. split; unfold compatible, shapes_compatible, names_eq; cbn [axes_compatible forallb andb negb Bool.eqb];
    (destruct (list_eq_dec _ _ _) as [E|_]; reflexivity).
Qed.

Example C70_nonvacuous :
  let one := {| s_name := 3; s_len := 1; s_isx := false; s_isy := false |} in
  let z n := {| s_name := 4; s_len := n; s_isx := false; s_isy := false |} in
  compatible true true true true [(Some 4, Some 4); (None, Some 1)] [dimx; dimy; z 4] [dimx; one; dimy; z 4] = true /\
  compatible true true true true [(Some 4, Some 4); (None, Some 1)] [dimx; dimy; z 4] [dimx; one; dimy; z 3] = false.
Proof. split; reflexivity. Qed.

Print Assumptions C53_contains.
Print Assumptions C53_regular.
Print Assumptions C53_covers.
Print Assumptions C53_rejects.
Print Assumptions C53_terminates.
Print Assumptions C53_zero_step.
Print Assumptions C53_absolute_tolerance.
Print Assumptions C53_unit_mixup.
Print Assumptions C70_single_axis.
Print Assumptions C70_compatible.
Print Assumptions C70_other_cases.
Print Assumptions C70_extra_dimension.
