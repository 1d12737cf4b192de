(** Lemmas for FillModel *)
From Coq Require Import NArith ZArith QArith Qcanon List Bool Lia Lqa Psatz.
From Coq Require Import ZifyBool ZifyNat ZifyN.
From Verif Require Import Base RegridModel FillModel.
Import ListNotations.

(** ** Qc through Q *)
Lemma this_add (x y : Qc) : (this (x + y)%Qc == this x + this y)%Q.
Proof. apply Qred_correct. Qed.
Lemma this_mul (x y : Qc) : (this (x * y)%Qc == this x * this y)%Q.
Proof. apply Qred_correct. Qed.
Lemma this_opp (x : Qc) : (this (- x)%Qc == - this x)%Q.
Proof. apply Qred_correct. Qed.
Lemma this_sub (x y : Qc) : (this (x - y)%Qc == this x - this y)%Q.
Proof. unfold Qcminus. rewrite this_add, this_opp. reflexivity. Qed.
Lemma this_inv (x : Qc) : (this (/ x)%Qc == / this x)%Q.
Proof. apply Qred_correct. Qed.
Lemma this_div (x y : Qc) : (this (x / y)%Qc == this x / this y)%Q.
Proof. unfold Qcdiv. rewrite this_mul, this_inv. reflexivity. Qed.
Lemma this_qc (z : Z) : (this (qc z) == inject_Z z)%Q.
Proof. apply Qred_correct. Qed.
Lemma this_Q2Qc (q : Q) : (this (Q2Qc q) == q)%Q.
Proof. apply Qred_correct. Qed.

(** ** access *)
Lemma getz_ok {A} (l : list A) p : (0 <= p < Z.of_nat (length l))%Z ->
  exists a, getz l p = Ok a /\ nth_error l (Z.to_nat p) = Some a.
Proof.
  intro H. unfold getz. destruct (Z.ltb_spec p 0); [ lia | ].
  destruct (nth_error l (Z.to_nat p)) as [ a | ] eqn:E; [ now exists a | ].
  apply nth_error_None in E. lia.
Qed.
Lemma setz_ok {A} (l : list A) p a : (0 <= p < Z.of_nat (length l))%Z -> setz l p a = Ok (upd l (Z.to_nat p) a).
Proof.
  intro H. unfold setz. destruct (Z.ltb_spec p 0); [ lia | ]. unfold wr.
  destruct (Nat.ltb_spec (Z.to_nat p) (length l)); [ reflexivity | lia ].
Qed.

Lemma forall_upd {A} (P : A -> Prop) l i a : Forall P l -> P a -> Forall P (upd l i a).
Proof.
  intros F H. revert i. induction F as [ | x l X F IH ]; intros [ | i ]; cbn; auto.
Qed.
Lemma forall_nth {A} (P : A -> Prop) l i a : Forall P l -> nth_error l i = Some a -> P a.
Proof. intros F E. apply nth_error_In in E. rewrite Forall_forall in F. auto. Qed.

Lemma ofold_inv {A S} (P : S -> Prop) (Q : A -> Prop) (f : S -> A -> outcome S) l :
  (forall s a, P s -> Q a -> exists s', f s a = Ok s' /\ P s') ->
  (forall a, In a l -> Q a) -> forall s, P s -> exists s', ofold f l s = Ok s' /\ P s'.
Proof.
  intros H. induction l as [ | a l IH ]; intros HQ s HP; cbn.
  - now exists s.
  - destruct (H s a HP) as (s1 & E & P1); [ apply HQ; now left | ]. rewrite E. cbn [obind].
    apply IH; [ intros; apply HQ; now right | exact P1 ].
Qed.
Lemma oiter_inv {S} (P : S -> Prop) (f : S -> outcome S) n :
  (forall s, P s -> exists s', f s = Ok s' /\ P s') -> forall s, P s -> exists s', oiter n f s = Ok s' /\ P s'.
Proof.
  intro H. induction n as [ | n IH ]; intros s HP; cbn; [ now exists s | ].
  destruct (H s HP) as (s1 & E & P1). rewrite E. cbn [obind]. now apply IH.
Qed.

(** ** positions *)
Lemma inner_bounds nx ny p : In p (inner nx ny) ->
  (Z.of_nat nx <= p - 1 /\ p + Z.of_nat nx < Z.of_nat (nx * ny) /\ p + 1 < Z.of_nat (nx * ny))%Z.
Proof.
  unfold inner. rewrite in_flat_map. intros (y & Hy & I). apply in_map_iff in I. destruct I as (x & <- & Hx).
  apply in_seq in Hy. apply in_seq in Hx. nia.
Qed.

Lemma border_bounds nx ny t s : (1 <= nx)%nat -> (2 <= ny)%nat -> In (t, s) (border nx ny) ->
  (0 <= t < Z.of_nat (nx * ny) /\ 0 <= s < Z.of_nat (nx * ny))%Z.
Proof.
  intros X Y. unfold border. rewrite in_app_iff, !in_flat_map.
  intros [ (y & Hy & I) | (x & Hx & I) ].
  - apply in_seq in Hy. destruct I as [ E | [ E | [] ] ]; injection E as <- <-; nia.
  - apply in_seq in Hx. destruct I as [ E | [ E | [] ] ]; injection E as <- <-; nia.
Qed.

Lemma inner_nil nx ny : (nx <= 2)%nat \/ (ny <= 2)%nat -> inner nx ny = [].
Proof.
  intros [ H | H ]; unfold inner.
  - replace (nx - 2)%nat with 0%nat by lia. cbn [seq map]. induction (seq 1 (ny - 2)); auto.
  - replace (ny - 2)%nat with 0%nat by lia. reflexivity.
Qed.

(** ** invariants *)
Definition keeps (f0 f : list value) : Prop :=
  length f = length f0 /\ forall i v, nth_error f0 i = Some (Some v) -> nth_error f i = Some (Some v).
Definition full (I : Qc -> Prop) (f : list value) : Prop := Forall (fun v => exists q, v = Some q /\ I q) f.

Lemma full_nth I f i v : full I f -> nth_error f i = Some v -> exists q, v = Some q /\ I q.
Proof. intros F E. now apply (forall_nth _ _ _ _ F E). Qed.

Lemma keeps_upd f0 f i v x : keeps f0 f -> nth_error f i = Some x ->
  (forall q, nth_error f0 i = Some (Some q) -> v = Some q) -> keeps f0 (upd f i v).
Proof.
  intros [ L K ] E H. split; [ now rewrite length_upd | ]. intros j q D.
  destruct (Nat.eq_dec i j) as [ <- | N ].
  - rewrite nth_error_upd_same; [ f_equal; now apply H | ]. apply nth_error_Some. rewrite E. discriminate.
  - rewrite nth_error_upd_other by exact N. now apply K.
Qed.

Section Fill.
  Variables (f0 : list value) (nx ny : nat) (I : Qc -> Prop) (W : Qc -> Prop) (corrEff : Qc).
  Hypothesis X : (1 <= nx)%nat.
  Hypothesis Y : (2 <= ny)%nat.
  Hypothesis L0 : length f0 = (nx * ny)%nat.
  Hypothesis W0 : W 0%Qc.
  Hypothesis W1 : W 1%Qc.
  Hypothesis WM : forall w, W w -> W (w * corrEff)%Qc.
  Hypothesis C4 : forall a b c d x w, I a -> I b -> I c -> I d -> I x -> W w ->
    I (x + ((a + b + c + d) * Q2Qc (1 # 4) - x) * w)%Qc.
  Hypothesis C1 : forall a x w, I a -> I x -> W w -> I (x + (a - x) * w)%Qc.

  Definition fill_inv (s : fill_state) : Prop :=
    let '(f, w, e) := s in
    keeps f0 f /\ full I f /\ length w = length f0 /\ Forall W w /\ length e = length f0 /\
    (forall i v, nth_error f0 i = Some (Some v) -> nth_error w i = Some 0%Qc).

  Lemma relax_inv s p : fill_inv s -> In p (inner nx ny) -> exists s', relax nx s p = Ok s' /\ fill_inv s'.
  Proof.
    destruct s as [ [ f w ] e ]. intros (K & F & LW & FW & LE & Z) B. apply inner_bounds in B.
    assert (LF : length f = (nx * ny)%nat) by (rewrite (proj1 K); exact L0).
    unfold relax.
    destruct (getz_ok f (p + 1)) as (a & -> & Ea); [ lia | ].
    destruct (getz_ok f (p - 1)) as (b & -> & Eb); [ lia | ].
    destruct (getz_ok f (p + Z.of_nat nx)) as (c & -> & Ec); [ lia | ].
    destruct (getz_ok f (p - Z.of_nat nx)) as (d & -> & Ed); [ lia | ].
    destruct (getz_ok f p) as (x & -> & Ex); [ lia | ].
    cbn [obind]. rewrite setz_ok by lia. cbn [obind].
    destruct (getz_ok w p) as (wp & -> & Ew); [ lia | ].
    cbn [obind]. rewrite setz_ok by lia. cbn [obind]. eexists. split; [ reflexivity | ].
    destruct (full_nth I f _ _ F Ea) as (qa & -> & Ia). destruct (full_nth I f _ _ F Eb) as (qb & -> & Ib).
    destruct (full_nth I f _ _ F Ec) as (qc' & -> & Ic). destruct (full_nth I f _ _ F Ed) as (qd & -> & Id).
    destruct (full_nth I f _ _ F Ex) as (qx & -> & Ix).
    cbn [vadd vmul vsub]. unfold fill_inv. repeat split.
    - rewrite length_upd. apply K.
    - apply (keeps_upd f0 f _ _ _ K Ex). intros q D.
      assert (E0 := Z _ _ D). rewrite Ew in E0. injection E0 as ->.
      destruct K as [ _ K ]. rewrite (K _ _ D) in Ex. injection Ex as ->. f_equal. ring.
    - apply forall_upd; [ exact F | ]. eexists. split; [ reflexivity | ]. apply C4; auto. now apply (forall_nth W w _ _ FW Ew).
    - exact LW.
    - exact FW.
    - now rewrite length_upd.
    - exact Z.
  Qed.

  Lemma fill_border_inv s ts : fill_inv s -> In ts (border nx ny) -> exists s', fill_border s ts = Ok s' /\ fill_inv s'.
  Proof.
    destruct s as [ [ f w ] e ], ts as [ t src ]. intros (K & F & LW & FW & LE & Z) B. apply border_bounds in B; auto.
    assert (LF : length f = (nx * ny)%nat) by (rewrite (proj1 K); exact L0).
    unfold fill_border.
    destruct (getz_ok f src) as (a & -> & Ea); [ lia | ].
    destruct (getz_ok f t) as (x & -> & Ex); [ lia | ].
    destruct (getz_ok w t) as (wp & -> & Ew); [ lia | ].
    cbn [obind]. rewrite setz_ok by lia. cbn [obind]. eexists. split; [ reflexivity | ].
    destruct (full_nth I f _ _ F Ea) as (qa & -> & Ia).
    destruct (full_nth I f _ _ F Ex) as (qx & -> & Ix).
    cbn [vadd vmul vsub]. unfold fill_inv. repeat split.
    - rewrite length_upd. apply K.
    - apply (keeps_upd f0 f _ _ _ K Ex). intros q D.
      assert (E0 := Z _ _ D). rewrite Ew in E0. injection E0 as ->.
      destruct K as [ _ K ]. rewrite (K _ _ D) in Ex. injection Ex as ->. f_equal. ring.
    - apply forall_upd; [ exact F | ]. eexists. split; [ reflexivity | ]. apply C1; auto. now apply (forall_nth W w _ _ FW Ew).
    - exact LW.
    - exact FW.
    - exact LE.
    - exact Z.
  Qed.

  Lemma not_converged_ok crtest s : fill_inv s -> exists b, not_converged nx ny crtest s = Ok b.
  Proof.
    destruct s as [ [ f w ] e ]. intros (K & F & LW & FW & LE & Z). unfold not_converged.
    destruct (ofold_inv (fun _ : bool => True) (fun p => In p (inner nx ny))
      (fun bad p => do ep <- getz e p; do wp <- getz w p; Ok (bad || vlt crtest (vabs (vmul ep (Some wp))))) (inner nx ny))
      with (s := false) as (b & E & _); auto.
    2:{ now exists b. }
    intros s p _ B. apply inner_bounds in B.
    destruct (getz_ok e p) as (a & -> & _); [ lia | ]. destruct (getz_ok w p) as (x & -> & _); [ lia | ].
    cbn [obind]. eexists. split; [ reflexivity | auto ].
  Qed.

  Lemma fill_loop_inv k : forall n maxLoop crtest s, fill_inv s ->
    exists s', fill_loop k n maxLoop nx ny crtest s = Ok s' /\ fill_inv s'.
  Proof.
    induction k as [ | k IH ]; intros n maxLoop crtest s H; cbn [fill_loop]; [ now exists s | ].
    destruct (ofold_inv fill_inv (fun p => In p (inner nx ny)) (relax nx) (inner nx ny) relax_inv) with (s := s)
      as (s1 & -> & H1); auto.
    cbn [obind].
    assert (G : exists go, (if (n <? sub64 maxLoop 5)%N && (n mod 10 =? 0)%N then not_converged nx ny crtest s1 else Ok true) = Ok go).
    { destruct ((n <? sub64 maxLoop 5)%N && (n mod 10 =? 0)%N); [ now apply not_converged_ok | now exists true ]. }
    destruct G as (go & ->). cbn [obind]. destruct go; [ | now exists s1 ].
    destruct (ofold_inv fill_inv (fun p => In p (border nx ny)) fill_border (border nx ny) fill_border_inv) with (s := s1)
      as (s2 & -> & H2); auto.
    cbn [obind]. now apply IH.
  Qed.

  (** the weights *)
  Definition w_inv (w : list Qc) : Prop :=
    length w = length f0 /\ Forall W w /\ (forall i v, nth_error f0 i = Some (Some v) -> nth_error w i = Some 0%Qc).

  Lemma weights_inv w0 : w_inv w0 ->
    exists w, ofold (fun w p => do x <- getz w p; setz w p (x * corrEff)%Qc) (inner nx ny) w0 = Ok w /\ w_inv w.
  Proof.
    apply (ofold_inv w_inv (fun p => In p (inner nx ny))); auto.
    intros w p (L & F & Z) B. apply inner_bounds in B.
    destruct (getz_ok w p) as (x & -> & E); [ lia | ]. cbn [obind]. rewrite setz_ok by lia.
    eexists. split; [ reflexivity | ]. repeat split.
    - now rewrite length_upd.
    - apply forall_upd; [ exact F | ]. apply WM. now apply (forall_nth W w _ _ F E).
    - intros i v D. destruct (Nat.eq_dec (Z.to_nat p) i) as [ <- | N ].
      + rewrite nth_error_upd_same by lia. rewrite (Z _ _ D) in E. injection E as <-. f_equal. ring.
      + rewrite nth_error_upd_other by exact N. now apply (Z i v).
  Qed.
End Fill.

Section Creep.
  Variables (f0 : list value) (nx ny : nat) (I : Qc -> Prop) (rep : N).
  Hypothesis X : (1 <= nx)%nat.
  Hypothesis Y : (2 <= ny)%nat.
  Hypothesis L0 : length f0 = (nx * ny)%nat.
  Definition wok (z : Z) : Prop := (0 <= z <= 127)%Z.
  Hypothesis C4 : forall x a b c d w1 w2 w3 w4, I x -> I a -> I b -> I c -> I d -> wok w1 -> wok w2 -> wok w3 -> wok w4 ->
    I ((x + (qc w1 * a + qc w2 * b + qc w3 * c + qc w4 * d)) / qc (1 + (w1 + w2 + w3 + w4)))%Qc.
  Hypothesis C1 : forall x a w, I x -> I a -> wok w -> I ((x + a * qc w) / qc (1 + w))%Qc.

  Definition creep_inv (s : creep_state) : Prop :=
    let '(f, w, r, _) := s in
    keeps f0 f /\ full I f /\ length w = length f0 /\ Forall wok w /\ length r = length f0 /\
    (forall i v, nth_error f0 i = Some (Some v) -> nth_error r i = Some rep).

  Lemma creep_cell_inv s p : creep_inv s -> In p (inner nx ny) -> exists s', creep_cell nx rep s p = Ok s' /\ creep_inv s'.
  Proof.
    destruct s as [ [ [ f w ] r ] ch ]. intros H B. assert (H0 := H). destruct H as (K & F & LW & FW & LR & Z). apply inner_bounds in B.
    assert (LF : length f = (nx * ny)%nat) by (rewrite (proj1 K); exact L0).
    unfold creep_cell.
    destruct (getz_ok r p) as (rp & -> & Er); [ lia | ]. cbn [obind].
    destruct (N.ltb_spec rp rep) as [ R | R ]; [ | eexists; split; [ reflexivity | exact H0 ] ].
    destruct (getz_ok w (p + 1)) as (w1 & -> & E1); [ lia | ].
    destruct (getz_ok w (p - 1)) as (w2 & -> & E2); [ lia | ].
    destruct (getz_ok w (p + Z.of_nat nx)) as (w3 & -> & E3); [ lia | ].
    destruct (getz_ok w (p - Z.of_nat nx)) as (w4 & -> & E4); [ lia | ].
    cbn [obind].
    assert (V1 := forall_nth wok w _ _ FW E1). assert (V2 := forall_nth wok w _ _ FW E2).
    assert (V3 := forall_nth wok w _ _ FW E3). assert (V4 := forall_nth wok w _ _ FW E4).
    assert (S : to_size_t (w1 + w2 + w3 + w4) = (w1 + w2 + w3 + w4)%Z).
    { unfold to_size_t, wok in *. apply Z.mod_small. lia. }
    rewrite S. destruct (Z.eqb_spec (w1 + w2 + w3 + w4) 0); [ eexists; split; [ reflexivity | exact H0 ] | ].
    assert (S1 : to_size_t (1 + (w1 + w2 + w3 + w4)) = (1 + (w1 + w2 + w3 + w4))%Z).
    { unfold to_size_t, wok in *. apply Z.mod_small. lia. }
    rewrite S1.
    destruct (getz_ok f (p + 1)) as (a & -> & Ea); [ lia | ].
    destruct (getz_ok f (p - 1)) as (b & -> & Eb); [ lia | ].
    destruct (getz_ok f (p + Z.of_nat nx)) as (c & -> & Ec); [ lia | ].
    destruct (getz_ok f (p - Z.of_nat nx)) as (d & -> & Ed); [ lia | ].
    destruct (getz_ok f p) as (x & -> & Ex); [ lia | ].
    cbn [obind]. rewrite !setz_ok by lia. cbn [obind]. eexists. split; [ reflexivity | ].
    destruct (full_nth I f _ _ F Ea) as (qa & -> & Ia). destruct (full_nth I f _ _ F Eb) as (qb & -> & Ib).
    destruct (full_nth I f _ _ F Ec) as (qc' & -> & Ic). destruct (full_nth I f _ _ F Ed) as (qd & -> & Id).
    destruct (full_nth I f _ _ F Ex) as (qx & -> & Ix).
    cbn [vadd vmul]. unfold vdivz. destruct (Z.eqb_spec (1 + (w1 + w2 + w3 + w4)) 0); [ unfold wok in *; lia | ].
    unfold creep_inv. repeat split.
    - rewrite length_upd. apply K.
    - apply (keeps_upd f0 f _ _ _ K Ex). intros q D. rewrite (Z _ _ D) in Er. injection Er as <-. lia.
    - apply forall_upd; [ exact F | ]. eexists. split; [ reflexivity | ]. now apply C4.
    - now rewrite length_upd.
    - apply forall_upd; [ exact FW | ]. unfold wok. lia.
    - now rewrite length_upd.
    - intros i v D. destruct (Nat.eq_dec (Z.to_nat p) i) as [ <- | N ].
      + rewrite (Z _ _ D) in Er. injection Er as <-. lia.
      + rewrite nth_error_upd_other by exact N. now apply (Z i v).
  Qed.

  Lemma creep_border_inv s ts : creep_inv s -> In ts (border nx ny) -> exists s', creep_border rep s ts = Ok s' /\ creep_inv s'.
  Proof.
    destruct s as [ [ [ f w ] r ] ch ], ts as [ t src ]. intros H B. assert (H0 := H).
    destruct H as (K & F & LW & FW & LR & Z). apply border_bounds in B; auto.
    assert (LF : length f = (nx * ny)%nat) by (rewrite (proj1 K); exact L0).
    unfold creep_border.
    destruct (getz_ok r t) as (rp & -> & Er); [ lia | ]. cbn [obind].
    destruct (N.ltb_spec rp rep) as [ R | R ]; [ | eexists; split; [ reflexivity | exact H0 ] ].
    destruct (getz_ok f src) as (a & -> & Ea); [ lia | ].
    destruct (getz_ok w src) as (ws & -> & Ew); [ lia | ].
    destruct (getz_ok f t) as (x & -> & Ex); [ lia | ].
    cbn [obind]. rewrite !setz_ok by lia. cbn [obind]. eexists. split; [ reflexivity | ].
    destruct (full_nth I f _ _ F Ea) as (qa & -> & Ia).
    destruct (full_nth I f _ _ F Ex) as (qx & -> & Ix).
    assert (V := forall_nth wok w _ _ FW Ew).
    cbn [vadd vmul]. unfold vdivz. destruct (Z.eqb_spec (1 + ws) 0); [ unfold wok in *; lia | ].
    unfold creep_inv. repeat split.
    - rewrite length_upd. apply K.
    - apply (keeps_upd f0 f _ _ _ K Ex). intros q D. rewrite (Z _ _ D) in Er. injection Er as <-. lia.
    - apply forall_upd; [ exact F | ]. eexists. split; [ reflexivity | ]. now apply C1.
    - now rewrite length_upd.
    - apply forall_upd; [ exact FW | ]. unfold wok. lia.
    - exact LR.
    - exact Z.
  Qed.

  Lemma creep_loop_inv k : forall s, creep_inv s -> exists s', creep_loop k nx ny rep s = Ok s' /\ creep_inv s'.
  Proof.
    induction k as [ | k IH ]; intros s H; cbn [creep_loop]; [ now exists s | ].
    destruct s as [ [ [ f w ] r ] ch ]. destruct (ch =? 0)%N; [ eexists; split; [ reflexivity | exact H ] | ].
    destruct (ofold_inv creep_inv (fun p => In p (inner nx ny)) (creep_cell nx rep) (inner nx ny) creep_cell_inv)
      with (s := (f, w, r, 0%N)) as (s1 & -> & H1); auto.
    cbn [obind]. now apply IH.
  Qed.

  Lemma creep_borders_inv k s : creep_inv s ->
    exists s', oiter k (ofold (creep_border rep) (border nx ny)) s = Ok s' /\ creep_inv s'.
  Proof.
    apply oiter_inv. intros s0 H.
    apply (ofold_inv creep_inv (fun p => In p (border nx ny)) (creep_border rep) (border nx ny) creep_border_inv); auto.
  Qed.
End Creep.

(** ** convexity *)
Definition between (lo hi q : Qc) : Prop := (lo <= q)%Qc /\ (q <= hi)%Qc.

Lemma relax4_between lo hi a b c d x w : between lo hi a -> between lo hi b -> between lo hi c -> between lo hi d ->
  between lo hi x -> (0 <= w)%Qc /\ (w <= 1)%Qc -> between lo hi (x + ((a + b + c + d) * Q2Qc (1 # 4) - x) * w)%Qc.
Proof.
  unfold between, Qcle. intros. rewrite this_add, this_mul, this_sub, this_mul, !this_add, this_Q2Qc.
  change (this 0%Qc) with 0%Q in *. change (this 1%Qc) with 1%Q in *. split; nra.
Qed.
Lemma relax1_between lo hi a x w : between lo hi a -> between lo hi x -> (0 <= w)%Qc /\ (w <= 1)%Qc ->
  between lo hi (x + (a - x) * w)%Qc.
Proof.
  unfold between, Qcle. intros. rewrite this_add, this_mul, this_sub.
  change (this 0%Qc) with 0%Q in *. change (this 1%Qc) with 1%Q in *. split; nra.
Qed.
Lemma div_between lo hi s n : (0 < n)%Z -> (this lo * inject_Z n <= this s)%Q -> (this s <= this hi * inject_Z n)%Q ->
  between lo hi (s / qc n)%Qc.
Proof.
  intros N A B. unfold between, Qcle. rewrite this_div, this_qc.
  assert (P : (0 < inject_Z n)%Q) by (change 0%Q with (inject_Z 0); rewrite <- Zlt_Qlt; exact N).
  split; [ apply Qle_shift_div_l | apply Qle_shift_div_r ]; assumption.
Qed.
Lemma wok_Q w : wok w -> (0 <= inject_Z w)%Q.
Proof. intros [ H _ ]. change 0%Q with (inject_Z 0). rewrite <- Zle_Qle. exact H. Qed.

Lemma creep4_between lo hi x a b c d w1 w2 w3 w4 : between lo hi x -> between lo hi a -> between lo hi b ->
  between lo hi c -> between lo hi d -> wok w1 -> wok w2 -> wok w3 -> wok w4 ->
  between lo hi ((x + (qc w1 * a + qc w2 * b + qc w3 * c + qc w4 * d)) / qc (1 + (w1 + w2 + w3 + w4)))%Qc.
Proof.
  intros X A B C D W1 W2 W3 W4. assert (P1 := wok_Q _ W1). assert (P2 := wok_Q _ W2). assert (P3 := wok_Q _ W3). assert (P4 := wok_Q _ W4).
  unfold between, Qcle in X, A, B, C, D.
  apply div_between; [ unfold wok in *; lia | | ];
    rewrite !inject_Z_plus, !this_add, !this_mul, !this_qc; change (inject_Z 1) with 1%Q; nra.
Qed.
Lemma creep1_between lo hi x a w : between lo hi x -> between lo hi a -> wok w ->
  between lo hi ((x + a * qc w) / qc (1 + w))%Qc.
Proof.
  intros X A W. assert (P := wok_Q _ W). unfold between, Qcle in X, A.
  apply div_between; [ unfold wok in *; lia | | ];
    rewrite !inject_Z_plus, !this_add, !this_mul, !this_qc; change (inject_Z 1) with 1%Q; nra.
Qed.

(** the mean of the defined cells *)
Definition defined_between (lo hi : Qc) (l : list value) : Prop := forall q, In (Some q) l -> between lo hi q.

Lemma sum_bounds lo hi l : forall s n, defined_between lo hi l ->
  (this lo * inject_Z n <= this s)%Q -> (this s <= this hi * inject_Z n)%Q ->
  let s' := fold_left (fun s (v : value) => match v with Some x => (s + x)%Qc | None => s end) l s in
  let n' := (n + (Z.of_nat (length l) - Z.of_nat (length (filter undef l))))%Z in
  (this lo * inject_Z n' <= this s')%Q /\ (this s' <= this hi * inject_Z n')%Q.
Proof.
  induction l as [ | v l IH ]; intros s n D A B.
  - cbn [length filter fold_left]. replace (n + (Z.of_nat 0 - Z.of_nat 0))%Z with n by lia. cbv zeta. now split.
  - assert (D' : defined_between lo hi l) by (intros q I; apply D; now right).
    destruct v as [ q | ]; cbn [fold_left filter undef].
    + assert (Q : between lo hi q) by (apply D; now left). unfold between, Qcle in Q.
      specialize (IH (s + q)%Qc (n + 1)%Z D'). cbv zeta in *.
      change (length (Some q :: l)) with (S (length l)).
      replace (n + (Z.of_nat (S (length l)) - Z.of_nat (length (filter undef l))))%Z
        with (n + 1 + (Z.of_nat (length l) - Z.of_nat (length (filter undef l))))%Z by lia.
      apply IH; rewrite this_add, (inject_Z_plus n 1); change (inject_Z 1) with 1%Q; lra.
    + specialize (IH s n D' A B). cbv zeta in *.
      change (length (None :: l)) with (S (length l)).
      change (length (None :: filter undef l)) with (S (length (filter undef l))).
      replace (n + (Z.of_nat (S (length l)) - Z.of_nat (S (length (filter undef l)))))%Z
        with (n + (Z.of_nat (length l) - Z.of_nat (length (filter undef l))))%Z by lia.
      exact IH.
Qed.

Lemma mean_between lo hi l : defined_between lo hi l ->
  let n := (N.of_nat (length l) - count_undef l)%N in n <> 0%N ->
  between lo hi (sum_defined l / qc (Z.of_N n))%Qc.
Proof.
  intros D n N. assert (B := sum_bounds lo hi l 0%Qc 0%Z D). cbv zeta in B.
  assert (LE : (length (filter undef l) <= length l)%nat).
  { clear. induction l as [ | v l IH ]; cbn; [ lia | ]. destruct (undef v); cbn; lia. }
  assert (E : (0 + (Z.of_nat (length l) - Z.of_nat (length (filter undef l))))%Z = Z.of_N n).
  { unfold n, count_undef. lia. }
  rewrite E in B. destruct B as [ B1 B2 ].
  - change (this 0%Qc) with 0%Q. change (inject_Z 0) with 0%Q. lra.
  - change (this 0%Qc) with 0%Q. change (inject_Z 0) with 0%Q. lra.
  - apply div_between; [ lia | assumption | assumption ].
Qed.

Lemma count_undef_zero l : count_undef l = 0%N <-> ~ In None l.
Proof.
  unfold count_undef. split.
  - intros H I. assert (In None (filter undef l)) as J by (apply filter_In; now split).
    destruct (filter undef l); [ destruct J | cbn in H; lia ].
  - intro H. replace (filter undef l) with (@nil value); [ reflexivity | ].
    symmetry. induction l as [ | [ q | ] l IH ]; cbn; auto.
    + apply IH. intro I. apply H. now right.
    + exfalso. apply H. now left.
Qed.

Lemma count_defined_zero l : (N.of_nat (length l) - count_undef l)%N = 0%N <-> (forall q, ~ In (Some q) l).
Proof.
  unfold count_undef. induction l as [ | [ q | ] l IH ]; cbn [length filter undef].
  - cbn. split; [ intros _ q [] | lia ].
  - assert (LE : (length (filter undef l) <= length l)%nat).
    { clear. induction l as [ | v l IH ]; cbn; [ lia | ]. destruct (undef v); cbn; lia. }
    split; [ lia | ]. intro H. exfalso. apply (H q). now left.
  - cbn [length]. replace (N.of_nat (S (length l)) - N.of_nat (S (length (filter undef l))))%N
      with (N.of_nat (length l) - N.of_nat (length (filter undef l)))%N by lia.
    rewrite IH. split; intros H q; [ intros [ E | I ]; [ discriminate | now apply (H q) ] | intro I; apply (H q); now right ].
Qed.

Lemma first_guess_keeps l d : keeps l (map (fun v : value => match v with None => d | Some _ => v end) l).
Proof.
  split; [ apply map_length | ]. intros i v E. exact (map_nth_error (fun v : value => match v with None => d | Some _ => v end) i l E).
Qed.
Lemma first_guess_full (I : Qc -> Prop) l d : I d -> (forall q, In (Some q) l -> I q) ->
  full I (map (fun v : value => match v with None => Some d | Some _ => v end) l).
Proof.
  intros D H. unfold full. apply Forall_map, Forall_forall. intros [ q | ] E; [ exists q; auto | exists d; auto ].
Qed.
