(** C93: vectors found by standard names. *)
From Coq Require Import PeanoNat NArith Ascii String List Bool Lia.
From Verif Require Import Base StdMap StringModel FilesModel ConvertModel CdmModel CdmProofs NmlModel CfcsModel CfcsProofs CfvertProps VecModel.
Import ListNotations.
Local Open Scope string_scope.
Local Open Scope list_scope.
Local Open Scope nat_scope.

(** ** a sequence of pairs *)

Section Pairs.
Variable ok : string -> string -> dir -> dir -> Prop.
Hypothesis ok_apart : forall x y d e, ok x y d e -> x <> y /\ x <> "" /\ y <> "".

Inductive pairing : vectors -> vectors -> Prop :=
| p_nil : forall s, pairing s s
| p_cons : forall s s' x y d e, ok x y d e -> is_vector s x = false -> is_vector s y = false ->
    pairing (sput y (x, e) (sput x (y, d) s)) s' -> pairing s s'.

Lemma pairing_trans s1 s2 s3 : pairing s1 s2 -> pairing s2 s3 -> pairing s1 s3.
Proof. intro H. induction H; [ auto | ]. intro K. econstructor; eauto. Qed.
Lemma is_vector_put s x y d e n : x <> "" -> y <> "" ->
  is_vector (sput y (x, e) (sput x (y, d) s)) n = (String.eqb n x || String.eqb n y || is_vector s n)%bool.
Proof.
  intros X Y. unfold is_vector at 1, isempty. rewrite !sfind_sput. destruct (String.eqb_spec n y) as [->|Ny].
  - rewrite orb_true_r. cbn. destruct (String.eqb_spec x ""); [ contradiction | reflexivity ].
  - destruct (String.eqb_spec n x) as [->|Nx]; [ | reflexivity ]. cbn. destruct (String.eqb_spec y ""); [ contradiction | reflexivity ].
Qed.
Lemma pairing_old s s' : pairing s s' -> forall n, is_vector s n = true -> sfind n s' = sfind n s.
Proof.
  intro H. induction H as [ s | s s' x y d e O X Y H IH ]; intros n V; [ reflexivity | ]. destruct (ok_apart _ _ _ _ O) as (A & B & C).
  rewrite IH by (rewrite is_vector_put by assumption; now rewrite V, orb_true_r). rewrite !sfind_sput.
  destruct (String.eqb_spec n y) as [->|Ny]; [ congruence | ]. destruct (String.eqb_spec n x) as [->|Nx]; [ congruence | reflexivity ].
Qed.
Lemma pairing_mono s s' : pairing s s' -> forall n, is_vector s n = true -> is_vector s' n = true.
Proof. intros H n V. unfold is_vector in *. now rewrite (pairing_old s s' H n V). Qed.
Lemma pairing_new s s' : pairing s s' -> forall n, is_vector s n = false ->
  (is_vector s' n = false /\ sfind n s' = sfind n s) \/
  (exists m d e, sfind n s' = Some (m, d) /\ sfind m s' = Some (n, e) /\ is_vector s m = false /\ (ok n m d e \/ ok m n e d)).
Proof.
  intro H. induction H as [ s | s s' x y d e O X Y H IH ]; intros n V; [ now left | ]. destruct (ok_apart _ _ _ _ O) as (A & B & C).
  assert (VX : is_vector (sput y (x, e) (sput x (y, d) s)) x = true) by (rewrite is_vector_put by assumption; now rewrite String.eqb_refl).
  assert (VY : is_vector (sput y (x, e) (sput x (y, d) s)) y = true) by (rewrite is_vector_put by assumption; now rewrite String.eqb_refl, orb_true_r).
  assert (FX : sfind x s' = Some (y, d)).
  { rewrite (pairing_old _ _ H x VX), !sfind_sput. destruct (String.eqb_spec x y); [ contradiction | ]. now rewrite String.eqb_refl. }
  assert (FY : sfind y s' = Some (x, e)) by (rewrite (pairing_old _ _ H y VY), !sfind_sput; now rewrite String.eqb_refl).
  destruct (String.eqb_spec n x) as [->|Nx]; [ right; exists y, d, e; auto | ].
  destruct (String.eqb_spec n y) as [->|Ny]; [ right; exists x, e, d; auto | ].
  assert (V' : is_vector (sput y (x, e) (sput x (y, d) s)) n = false).
  { rewrite is_vector_put by assumption. rewrite V. destruct (String.eqb_spec n x); [ contradiction | ]. destruct (String.eqb_spec n y); [ contradiction | reflexivity ]. }
  destruct (IH n V') as [[K1 K2]|(m & d' & e' & K1 & K2 & K3 & K4)].
  - left. split; [ exact K1 | ]. rewrite K2, !sfind_sput. destruct (String.eqb_spec n y); [ contradiction | ]. destruct (String.eqb_spec n x); [ contradiction | reflexivity ].
  - right. exists m, d', e'. rewrite is_vector_put in K3 by assumption. apply orb_false_iff in K3. destruct K3 as [_ K3]. auto.
Qed.
End Pairs.
Lemma pairing_impl (p q : string -> string -> dir -> dir -> Prop) s s' : (forall x y d e, p x y d e -> q x y d e) -> pairing p s s' -> pairing q s s'.
Proof. intros I H. induction H; [ constructor | econstructor; eauto ]. Qed.

(** ** variables by standard name *)

Section Vec.
Variable c : cdm.
Hypothesis ND : NoDup (vnames c).
Hypothesis NE : ~ In "" (vnames c).

(** the variable exists and its standard name begins with [n]; the rest has no line end *)
Definition called (v n : string) : Prop :=
  In v (vnames c) /\ exists s r, att c v "standard_name" = Some s /\ s_ s = s_ n ++ r /\ Forall (fun x => is_newline x = false) r.
Definition alike (a b : string) : Prop :=
  exists v w, In v (vars c) /\ v_name v = a /\ In w (vars c) /\ v_name w = b /\ v_shape v = v_shape w.

Lemma named_spec n s : named n s = true <-> exists r, s_ s = s_ n ++ r /\ Forall (fun x => is_newline x = false) r.
Proof.
  unfold named. rewrite andb_true_iff, begins_spec. split.
  - intros [[r E] F]. exists r. split; [ exact E | ]. rewrite E, skipn_app, skipn_all, Nat.sub_diag in F. cbn [app skipn] in F. rewrite forallb_forall in F. apply Forall_forall. intros x I. apply negb_true_iff, F, I.
  - intros (r & E & F). split; [ eauto | ]. rewrite E, skipn_app, skipn_all, Nat.sub_diag. cbn [app skipn]. rewrite forallb_forall. rewrite Forall_forall in F. intros x I. apply negb_true_iff, F, I.
Qed.
Lemma candidates_spec n v : In v (candidates c n) <-> called v n.
Proof.
  unfold candidates, find_variables, called, vnames. rewrite !in_map_iff. split.
  - intros (w & <- & I). apply filter_In in I. destruct I as [I K]. cbn [forallb fst snd] in K. rewrite !andb_true_r in K. split; [ eauto | ]. unfold att.
    destruct (get_attr c (v_name w) "standard_name") as [a|]; [ | discriminate ]. apply named_spec in K. destruct K as (r & E & F). exists (CdmModel.a_text a), r. auto.
  - intros [(w & <- & I) (s & r & A & E & F)]. exists w. split; [ reflexivity | ]. apply filter_In. split; [ exact I | ]. cbn [forallb fst snd]. rewrite !andb_true_r. unfold att in A.
    destruct (get_attr c (v_name w) "standard_name") as [a|]; [ | discriminate ]. injection A as <-. apply named_spec. eauto.
Qed.
Lemma candidates_NoDup n : NoDup (candidates c n).
Proof.
  unfold candidates, find_variables. unfold vnames in ND. induction (vars c) as [ | v l IH ]; [ constructor | ]. cbn [filter map] in *. apply NoDup_cons_iff in ND. destruct ND as [N D].
  destruct (_ && _)%bool; [ | now apply IH ]. cbn [map]. constructor; [ | now apply IH ]. rewrite in_map_iff. intros (w & E & I). apply filter_In in I. apply N. rewrite <- E. apply in_map. tauto.
Qed.
Lemma fnd_var_In v : In v (vars c) -> find_var (v_name v) (vars c) = Some v.
Proof. intro I. now apply (fnd_unique v_name). Qed.
Lemma alike_spec a b : In a (vnames c) -> In b (vnames c) -> (same_shape c a b = true <-> alike a b).
Proof.
  unfold same_shape, shape_of, alike, vnames. intros A B. apply in_map_iff in A. destruct A as (v & EV & IV). apply in_map_iff in B. destruct B as (w & EW & IW).
  assert (FV : find_var a (vars c) = Some v) by (rewrite <- EV; now apply fnd_var_In). assert (FW : find_var b (vars c) = Some w) by (rewrite <- EW; now apply fnd_var_In).
  rewrite FV, FW. destruct (list_eq_dec _ _ _) as [E|E]; split; intro H; try discriminate; eauto 8.
  destruct H as (v' & w' & I1 & N1 & I2 & N2 & S). exfalso. apply E.
  assert (find_var a (vars c) = Some v') by (rewrite <- N1; now apply fnd_var_In). assert (find_var b (vars c) = Some w') by (rewrite <- N2; now apply fnd_var_In). congruence.
Qed.

(** ** one call *)

(** a pair by a row of the table *)
Definition by_row (r : row) (x y : string) (d e : dir) : Prop :=
  called x (r_x r) /\ called y (r_y r) /\ alike x y /\ d = r_xdir r /\ e = r_ydir r.
(** neither standard name of a row begins with the other *)
Definition apart (a b : string) : Prop := forall r1 r2, s_ a ++ r1 <> s_ b ++ r2.
Lemma called_apart a b x y : apart a b -> called x a -> called y b -> x <> y.
Proof. intros A (_ & s & r & E1 & E2 & _) (_ & s' & r' & E1' & E2' & _) <-. rewrite E1 in E1'. injection E1' as <-. apply (A r r'). congruence. Qed.
Lemma called_named x a : called x a -> x <> "".
Proof. intros [I _] ->. now apply NE. Qed.
Lemma by_row_apart r : apart (r_x r) (r_y r) -> forall x y d e, by_row r x y d e -> x <> y /\ x <> "" /\ y <> "".
Proof. intros A x y d e (H & K & _). split; [ eapply called_apart; eauto | split; eapply called_named; eauto ]. Qed.

Lemma step_pairing r s x : called x (r_x r) -> pairing (by_row r) s (pair_step c r (candidates c (r_y r)) s x).
Proof.
  intro X. unfold pair_step. destruct (is_vector s x) eqn:V; [ constructor | ]. destruct (find _ _) as [y|] eqn:F; [ | constructor ]. apply find_some in F. destruct F as [I B].
  apply andb_true_iff in B. destruct B as [B S]. apply negb_true_iff in B. apply candidates_spec in I. apply p_cons with (x := x) (y := y) (d := r_xdir r) (e := r_ydir r); [ | exact V | exact B | constructor ].
  split; [ exact X | ]. split; [ exact I | ]. split; [ | auto ]. apply (alike_spec x y); [ apply X | apply I | exact S ].
Qed.
Lemma fold_pairing r l : (forall x, In x l -> called x (r_x r)) -> forall s, pairing (by_row r) s (fold_left (pair_step c r (candidates c (r_y r))) l s).
Proof.
  induction l as [ | x l IH ]; intros H s; [ constructor | ]. cbn [fold_left]. eapply pairing_trans; [ apply step_pairing, H; now left | apply IH ]. intros z I. apply H. now right.
Qed.
Lemma enhance_pairing r s : pairing (by_row r) s (enhance c s r).
Proof. apply fold_pairing. intros x I. now apply candidates_spec in I. Qed.
(** afterwards no two free variables of the row are alike *)
Lemma enhance_full r s x y : apart (r_x r) (r_y r) -> called x (r_x r) -> called y (r_y r) -> alike x y ->
  is_vector (enhance c s r) x = true \/ is_vector (enhance c s r) y = true.
Proof.
  intros A X Y L. assert (I := proj2 (candidates_spec _ _) X). apply in_split in I. destruct I as (l1 & l2 & E). unfold enhance. 
  assert (Q : forall z, In z (candidates c (r_x r)) -> called z (r_x r)) by (intros z; apply candidates_spec). rewrite E in *. rewrite fold_left_app. cbn [fold_left]. 
  set (s1 := fold_left _ l1 s). set (s2 := pair_step _ _ _ s1 x).
  assert (M : forall n, is_vector s2 n = true -> is_vector (fold_left (pair_step c r (candidates c (r_y r))) l2 s2) n = true).
  { apply (pairing_mono (by_row r)); [ now apply by_row_apart | ]. apply fold_pairing. intros z I. apply Q. apply in_or_app. right. now right. }
  assert (W : is_vector s2 x = true \/ is_vector s2 y = true); [ | destruct W; auto ].
  unfold s2, pair_step. destruct (is_vector s1 x) eqn:V; [ auto | ]. destruct (find _ _) as [z|] eqn:F.
  - left. apply find_some in F. destruct F as [I _]. apply candidates_spec in I. rewrite is_vector_put; [ now rewrite String.eqb_refl | eapply called_named; eauto | eapply called_named; eauto ].
  - right. apply (find_none _ _) with (x := y) in F; [ | now apply candidates_spec ]. apply andb_false_iff in F. destruct F as [F|F]; [ now apply negb_false_iff | ].
    exfalso. apply (alike_spec x y) in L; [ congruence | apply X | apply Y ].
Qed.

(** ** the table *)

Definition free_rows : forallb (fun r => negb (begins (s_ (r_x r)) (s_ (r_y r))) && negb (begins (s_ (r_y r)) (s_ (r_x r)))) rows = true.
Proof. vm_compute. reflexivity. Qed.
Lemma prefixes (a b r1 r2 : str) : a ++ r1 = b ++ r2 -> begins a b = true \/ begins b a = true.
Proof.
  revert b. induction a as [ | x a IH ]; intros b E; [ now left | ]. destruct b as [ | y b ]; [ now right | ]. injection E as <- E. cbn [begins]. rewrite Ascii.eqb_refl. now apply IH.
Qed.
Lemma rows_apart r : In r rows -> apart (r_x r) (r_y r).
Proof.
  intros I r1 r2 E. assert (F := free_rows). rewrite forallb_forall in F. specialize (F r I). apply andb_true_iff in F. destruct F as [F1 F2]. apply negb_true_iff in F1. apply negb_true_iff in F2.
  destruct (prefixes _ _ _ _ E); congruence.
Qed.
(** a pair by the table *)
Definition by_table (x y : string) (d e : dir) : Prop := exists r, In r rows /\ by_row r x y d e.
Lemma by_table_apart x y d e : by_table x y d e -> x <> y /\ x <> "" /\ y <> "".
Proof. intros (r & I & B). revert B. apply by_row_apart, rows_apart, I. Qed.
Lemma rows_pairing l : incl l rows -> forall s, pairing by_table s (fold_left (enhance c) l s).
Proof.
  induction l as [ | r l IH ]; intros H s; [ constructor | ]. cbn [fold_left]. eapply pairing_trans; [ | apply IH; intros z I; apply H; now right ].
  eapply pairing_impl; [ | apply enhance_pairing ]. intros x y d e B. exists r. split; [ apply H; now left | exact B ].
Qed.
Lemma cf_pairing s : pairing by_table s (cf_vectors c s).
Proof. apply rows_pairing. intros z I. exact I. Qed.

(** vectors that are known already are kept *)
Theorem C93_kept : forall s n, is_vector s n = true -> sfind n (cf_vectors c s) = sfind n s.
Proof. intros s n V. exact (pairing_old by_table by_table_apart _ _ (cf_pairing s) n V). Qed.
(** a new vector has a counterpart that has it as its counterpart; the two have the same shape and their
    standard names begin with those of a row of the table, which gives the directions *)
Theorem C93_pairs : forall s n, is_vector s n = false -> is_vector (cf_vectors c s) n = true ->
  exists m d e, sfind n (cf_vectors c s) = Some (m, d) /\ sfind m (cf_vectors c s) = Some (n, e) /\ m <> n /\ is_vector s m = false /\ alike n m /\
    exists r, In r rows /\ ((called n (r_x r) /\ called m (r_y r) /\ d = r_xdir r /\ e = r_ydir r) \/ (called n (r_y r) /\ called m (r_x r) /\ d = r_ydir r /\ e = r_xdir r)).
Proof.
  intros s n V W. destruct (pairing_new by_table by_table_apart _ _ (cf_pairing s) n V) as [[K _]|(m & d & e & K1 & K2 & K3 & K4)]; [ congruence | ].
  exists m, d, e. split; [ exact K1 | ]. split; [ exact K2 | ].
  assert (AS : forall a b, alike a b -> alike b a) by (intros a b (v & w & A1 & A2 & A3 & A4 & A5); exists w, v; auto).
  destruct K4 as [K4|K4]; destruct (by_table_apart _ _ _ _ K4) as (N & _); destruct K4 as (r & I & X & Y & L & D & E).
  - split; [ congruence | ]. split; [ exact K3 | ]. split; [ exact L | ]. exists r. auto 8.
  - split; [ congruence | ]. split; [ exact K3 | ]. split; [ now apply AS | ]. exists r. auto 8.
Qed.
(** all others are as before *)
Theorem C93_others : forall s n, is_vector (cf_vectors c s) n = false -> sfind n (cf_vectors c s) = sfind n s.
Proof.
  intros s n W. destruct (is_vector s n) eqn:V; [ now apply C93_kept | ]. destruct (pairing_new by_table by_table_apart _ _ (cf_pairing s) n V) as [[_ K]|(m & d & e & K1 & _ & _ & K4)]; [ exact K | ].
  unfold is_vector in W. rewrite K1 in W. unfold isempty in W. destruct (String.eqb_spec m "") as [Em|Nm]; [ | discriminate ]. destruct K4 as [K4|K4]; destruct (by_table_apart _ _ _ _ K4) as (_ & N1 & N2); congruence.
Qed.
(** no two variables that could be a pair are left *)
Theorem C93_all : forall s r x y, In r rows -> called x (r_x r) -> called y (r_y r) -> alike x y ->
  is_vector (cf_vectors c s) x = true \/ is_vector (cf_vectors c s) y = true.
Proof.
  intros s r x y I X Y L. unfold cf_vectors. destruct (in_split _ _ I) as (l1 & l2 & E). assert (J : incl l2 rows) by (rewrite E; intros z K; apply in_or_app; right; now right).
  rewrite E. rewrite fold_left_app. cbn [fold_left]. assert (M := pairing_mono by_table by_table_apart _ _ (rows_pairing l2 J (enhance c (fold_left (enhance c) l1 s) r))).
  destruct (enhance_full r (fold_left (enhance c) l1 s) x y (rows_apart r I) X Y L); auto.
Qed.
(** finding vectors again changes nothing *)
Theorem C93_again : forall s, cf_vectors c (cf_vectors c s) = cf_vectors c s.
Proof.
  intro s. set (t := cf_vectors c s). assert (W : forall r x y, In r rows -> called x (r_x r) -> called y (r_y r) -> alike x y -> is_vector t x = true \/ is_vector t y = true) by (intros; eapply C93_all; eauto).
  unfold cf_vectors. assert (G : forall l, incl l rows -> fold_left (enhance c) l t = t); [ | apply G; intros z I; exact I ].
  induction l as [ | r l IH ]; intro H; [ reflexivity | ]. cbn [fold_left]. assert (E : enhance c t r = t); [ | rewrite E; apply IH; intros z I; apply H; now right ].
  unfold enhance. assert (Q : forall k, incl k (candidates c (r_x r)) -> fold_left (pair_step c r (candidates c (r_y r))) k t = t); [ | apply Q; intros z I; exact I ].
  induction k as [ | x k IHk ]; intro K; [ reflexivity | ]. cbn [fold_left]. assert (E : pair_step c r (candidates c (r_y r)) t x = t); [ | rewrite E; apply IHk; intros z I; apply K; now right ].
  unfold pair_step. destruct (is_vector t x) eqn:V; [ reflexivity | ]. destruct (find _ _) as [y|] eqn:F; [ exfalso | reflexivity ]. apply find_some in F. destruct F as [I B]. apply andb_true_iff in B. destruct B as [B S]. apply negb_true_iff in B.
  assert (X : called x (r_x r)) by (apply candidates_spec, K; now left). apply candidates_spec in I. apply (alike_spec x y) in S; [ | apply X | apply I ]. destruct (W r x y (H r (or_introl eq_refl)) X I S); congruence.
Qed.
(** rows with names that begin alike give the same direction *)
Definition same_dirs : forallb (fun r => forallb (fun q =>
  (negb (begins (s_ (r_x r)) (s_ (r_y q)) || begins (s_ (r_y q)) (s_ (r_x r)))) &&
  (negb (begins (s_ (r_x r)) (s_ (r_x q)) || begins (s_ (r_x q)) (s_ (r_x r))) || (match r_xdir r, r_xdir q with DX, DX => true | DLon, DLon => true | _, _ => false end)) &&
  (negb (begins (s_ (r_y r)) (s_ (r_y q)) || begins (s_ (r_y q)) (s_ (r_y r))) || (match r_ydir r, r_ydir q with DY, DY => true | DLat, DLat => true | _, _ => false end))) rows) rows = true.
Proof. vm_compute. reflexivity. Qed.
Lemma called_comparable n a b : called n a -> called n b -> begins (s_ a) (s_ b) || begins (s_ b) (s_ a) = true.
Proof.
  intros (_ & s & r & E1 & E2 & _) (_ & s' & r' & E1' & E2' & _). rewrite E1 in E1'. injection E1' as <-. rewrite E2 in E2'. apply orb_true_iff. eapply prefixes; eauto.
Qed.
Lemma table_dirs r q n : In r rows -> In q rows ->
  (called n (r_x r) -> ~ called n (r_y q)) /\ (called n (r_x r) -> called n (r_x q) -> r_xdir r = r_xdir q) /\ (called n (r_y r) -> called n (r_y q) -> r_ydir r = r_ydir q).
Proof.
  intros I J. assert (F := same_dirs). rewrite forallb_forall in F. specialize (F r I). rewrite forallb_forall in F. specialize (F q J). apply andb_true_iff in F. destruct F as [F F3]. apply andb_true_iff in F. destruct F as [F1 F2].
  apply negb_true_iff in F1. split; [ | split ].
  - intros A B. rewrite (called_comparable _ _ _ A B) in F1. discriminate.
  - intros A B. rewrite (called_comparable _ _ _ A B) in F2. cbn [negb orb] in F2. destruct (r_xdir r), (r_xdir q); congruence.
  - intros A B. rewrite (called_comparable _ _ _ A B) in F3. cbn [negb orb] in F3. destruct (r_ydir r), (r_ydir q); congruence.
Qed.
(** two variables of a row are a pair when no other variable with a standard name of the table has their
    shape *)
Theorem C93_only : forall s r x y, In r rows -> called x (r_x r) -> called y (r_y r) -> alike x y -> is_vector s x = false -> is_vector s y = false ->
  (forall z q, In q rows -> called z (r_x q) \/ called z (r_y q) -> alike x z -> z = x \/ z = y) ->
  sfind x (cf_vectors c s) = Some (y, r_xdir r) /\ sfind y (cf_vectors c s) = Some (x, r_ydir r).
Proof.
  intros s r x y I X Y L VX VY O.
  assert (AT : forall a b d, alike a b -> alike b d -> alike a d).
  { intros a b d (v & w & A1 & A2 & A3 & A4 & A5) (w' & u & B1 & B2 & B3 & B4 & B5). assert (w' = w).
    { assert (A6 := fnd_var_In w A3). assert (B6 := fnd_var_In w' B1). congruence. }
    subst w'. exists v, u. repeat split; auto. congruence. }
  assert (NX : x <> y) by (eapply called_apart; [ apply rows_apart, I | exact X | exact Y ]).
  destruct (C93_all s r x y I X Y L) as [V|V].
  - destruct (C93_pairs s x VX V) as (m & d & e & F1 & F2 & N & _ & A & q & J & [(Q1 & Q2 & -> & ->)|(Q1 & Q2 & _)]).
    + assert (m = y) by (destruct (O m q J (or_intror Q2) A); congruence). subst m. destruct (table_dirs r q x I J) as (_ & D1 & _). destruct (table_dirs r q y I J) as (_ & _ & D2). rewrite (D1 X Q1), (D2 Y Q2). auto.
    + exfalso. destruct (table_dirs r q x I J) as (D & _). now apply D.
  - destruct (C93_pairs s y VY V) as (m & d & e & F1 & F2 & N & _ & A & q & J & [(Q1 & Q2 & _)|(Q1 & Q2 & -> & ->)]).
    + exfalso. destruct (table_dirs q r y J I) as (D & _). now apply D.
    + assert (m = x) by (destruct (O m q J (or_introl Q2) (AT _ _ _ L A)); congruence). subst m. destruct (table_dirs r q x I J) as (_ & D1 & _). destruct (table_dirs r q y I J) as (_ & _ & D2). rewrite (D1 X Q2), (D2 Y Q1). auto.
Qed.

(** ** several candidates are paired in the order of the file *)

(** the free variables of a standard name and a shape, in the order of the file *)
Definition waiting (s : vectors) (n : string) (sh : list string) : list string :=
  map v_name (filter (fun v => (if list_eq_dec string_dec (v_shape v) sh then true else false) && negb (is_vector s (v_name v)) &&
    match att c (v_name v) "standard_name" with Some t => named n t | None => false end) (vars c)).
Definition free (s : vectors) (sh : list string) (n : string) : bool := (if list_eq_dec string_dec (shape_of c n) sh then true else false) && negb (is_vector s n).
Lemma waiting_free s n sh : waiting s n sh = filter (free s sh) (candidates c n).
Proof.
  unfold waiting, candidates, find_variables. assert (H : forall v, In v (vars c) -> shape_of c (v_name v) = v_shape v) by (intros v I; unfold shape_of; now rewrite (fnd_var_In v I)).
  revert H. induction (vars c) as [ | v l IH ]; intro H; [ reflexivity | ]. cbn [filter forallb fst snd]. rewrite !andb_true_r. unfold att. unfold att in IH.
  assert (IH' := IH (fun w I => H w (or_intror I))). clear IH. destruct (get_attr c (v_name v) "standard_name") as [a|]; cbn [option_map]; [ | rewrite andb_false_r; exact IH' ].
  destruct (named n (CdmModel.a_text a)); [ | rewrite andb_false_r; exact IH' ]. rewrite andb_true_r. cbn [map filter]. unfold free at 1. rewrite (H v (or_introl eq_refl)).
  destruct (_ && _)%bool; [ cbn [map]; f_equal; exact IH' | exact IH' ].
Qed.
Lemma find_filter {A} (p : A -> bool) l : find p l = hd_error (filter p l).
Proof. induction l as [ | x l IH ]; [ reflexivity | ]. cbn [find filter]. destruct (p x); [ reflexivity | exact IH ]. Qed.
Lemma filter_ext_In {A} (p q : A -> bool) l : (forall x, In x l -> p x = q x) -> filter p l = filter q l.
Proof. induction l as [ | x l IH ]; intro H; [ reflexivity | ]. cbn [filter]. rewrite (H x (or_introl eq_refl)), IH; [ reflexivity | ]. intros z I. apply H. now right. Qed.
Lemma filter_tail {A} (dec : forall x y : A, {x = y} + {x <> y}) (p q : A -> bool) x l t : NoDup l -> filter p l = x :: t -> (forall z, In z l -> q z = if dec z x then false else p z) -> filter q l = t.
Proof.
  revert x t. induction l as [ | y l IH ]; intros x t N E H; [ discriminate | ]. apply NoDup_cons_iff in N. destruct N as [N1 N2]. cbn [filter] in *. rewrite (H y (or_introl eq_refl)). destruct (p y) eqn:P.
  - injection E as -> E. destruct (dec x x) as [_|B]; [ | congruence ]. rewrite <- E. apply filter_ext_In. intros z I. rewrite (H z (or_intror I)). destruct (dec z x); congruence.
  - replace (if dec y x then false else false) with false by (now destruct (dec y x)). apply (IH x t N2 E). intros z I. apply H. now right.
Qed.
Section Order.
Variable r : row.
Hypothesis AP : apart (r_x r) (r_y r).
Let ys := candidates c (r_y r).
Lemma step_order s sh x xs' :
  called x (r_x r) -> ~ In x xs' -> (forall z, In z xs' -> called z (r_x r)) ->
  let s' := pair_step c r ys s x in
  filter (free s' sh) xs' = filter (free s sh) xs' /\
  match filter (free s sh) [x], filter (free s sh) ys with
  | [_], y :: t => sfind x s' = Some (y, r_xdir r) /\ sfind y s' = Some (x, r_ydir r) /\ filter (free s' sh) ys = t
  | _, l => filter (free s' sh) ys = l
  end.
Proof.
  intros X NX XS. cbv zeta. assert (XN : x <> "") by (eapply called_named; eauto).
  assert (YX : forall z, In z ys -> z <> x) by (intros z I; apply candidates_spec in I; intros ->; eapply called_apart; [ exact AP | exact X | exact I | reflexivity ]).
  assert (P : find (fun y => negb (is_vector s y) && same_shape c x y) ys = hd_error (filter (free s (shape_of c x)) ys)).
  { rewrite find_filter. f_equal. apply filter_ext_In. intros y _. unfold free, same_shape. rewrite andb_comm. f_equal. destruct (list_eq_dec _ _ _), (list_eq_dec _ _ _); congruence. }
  unfold pair_step. rewrite P. cbn [filter]. assert (FX : free s sh x = (if list_eq_dec string_dec (shape_of c x) sh then true else false) && negb (is_vector s x)) by reflexivity. destruct (is_vector s x) eqn:V.
  { rewrite FX, andb_false_r. split; reflexivity. }
  rewrite andb_true_r in FX. rewrite FX. destruct (filter (free s (shape_of c x)) ys) as [ | y t ] eqn:F; cbn [hd_error].
  { split; [ reflexivity | ]. destruct (list_eq_dec _ _ _) as [E|E]; [ | reflexivity ]. rewrite <- E, F. reflexivity. }
  assert (Fy : In y (filter (free s (shape_of c x)) ys)) by (rewrite F; now left). apply filter_In in Fy. destruct Fy as [Iy Fy]. unfold free in Fy. apply andb_true_iff in Fy. destruct Fy as [Sy Vy].
  destruct (list_eq_dec _ _ _) as [Sy'|] in Sy; [ clear Sy | discriminate ]. assert (Yc := proj1 (candidates_spec _ _) Iy). assert (YN : y <> "") by (eapply called_named; eauto).
  assert (FR : forall sh z, free (sput y (x, r_ydir r) (sput x (y, r_xdir r) s)) sh z = if string_dec z x then false else if string_dec z y then false else free s sh z).
  { intros sh' z. unfold free. rewrite is_vector_put by assumption. destruct (string_dec z x) as [->|N1]; [ rewrite String.eqb_refl; cbn; now rewrite andb_false_r | ]. destruct (string_dec z y) as [->|N2]; [ rewrite String.eqb_refl, orb_true_r; cbn; now rewrite andb_false_r | ].
    destruct (String.eqb_spec z x); [ contradiction | ]. destruct (String.eqb_spec z y); [ contradiction | ]. reflexivity. }
  split.
  - apply filter_ext_In. intros z I. rewrite FR. destruct (string_dec z x) as [->|_]; [ contradiction | ]. destruct (string_dec z y) as [E|_]; [ | reflexivity ].
    exfalso. subst z. eapply called_apart; [ exact AP | apply XS, I | exact Yc | reflexivity ].
  - destruct (list_eq_dec _ _ _) as [E|E].
    + rewrite <- E, F. split; [ | split ].
      * rewrite !sfind_sput. destruct (String.eqb_spec x y) as [->|_]; [ exfalso; eapply called_apart; [ exact AP | exact X | exact Yc | reflexivity ] | ]. now rewrite String.eqb_refl.
      * rewrite sfind_sput. now rewrite String.eqb_refl.
      * apply (filter_tail string_dec (free s (shape_of c x)) _ y ys t (candidates_NoDup _) F). intros z I. rewrite FR. destruct (string_dec z x) as [E'|_]; [ | reflexivity ]. exfalso. exact (YX z I E').
    + apply filter_ext_In. intros z I. rewrite FR. destruct (string_dec z x) as [E'|_]; [ exfalso; exact (YX z I E') | ]. destruct (string_dec z y) as [->|_]; [ | reflexivity ].
      unfold free. destruct (list_eq_dec _ _ _); [ congruence | reflexivity ].
Qed.
Lemma fold_order sh xs : NoDup xs -> (forall z, In z xs -> called z (r_x r)) -> forall s i x y,
  nth_error (filter (free s sh) xs) i = Some x -> nth_error (filter (free s sh) ys) i = Some y ->
  let s' := fold_left (pair_step c r ys) xs s in sfind x s' = Some (y, r_xdir r) /\ sfind y s' = Some (x, r_ydir r).
Proof.
  induction xs as [ | x0 xs IH ]; intros N H s i x y EX EY; cbv zeta; [ destruct i; discriminate | ]. apply NoDup_cons_iff in N. destruct N as [N1 N2]. cbn [fold_left].
  assert (H' : forall z, In z xs -> called z (r_x r)) by (intros z I; apply H; now right).
  destruct (step_order s sh x0 xs (H x0 (or_introl eq_refl)) N1 H') as [S1 S2]. set (s1 := pair_step c r ys s x0) in *.
  cbn [filter] in EX, S2. destruct (free s sh x0) eqn:F0.
  - destruct i as [ | i ].
    + cbn [nth_error] in EX. injection EX as <-. destruct (filter (free s sh) ys) as [ | y0 t ] eqn:FY; [ discriminate | ]. cbn [nth_error] in EY. injection EY as <-. destruct S2 as (S2 & S3 & _).
      assert (PO := pairing_old (by_row r) (by_row_apart r AP) _ _ (fold_pairing r xs H' s1)). fold ys in PO.
      assert (VX : x0 <> "") by (eapply called_named; apply H; now left).
      assert (W : is_vector s1 y0 = true) by (unfold is_vector, isempty; rewrite S3; destruct (String.eqb_spec x0 ""); [ contradiction | reflexivity ]).
      assert (Iy : In y0 (filter (free s sh) ys)) by (rewrite FY; now left). apply filter_In in Iy. destruct Iy as [Iy _]. apply candidates_spec in Iy. assert (VY : y0 <> "") by (eapply called_named; eauto).
      assert (W' : is_vector s1 x0 = true) by (unfold is_vector, isempty; rewrite S2; destruct (String.eqb_spec y0 ""); [ contradiction | reflexivity ]).
      rewrite (PO x0 W'), (PO y0 W). auto.
    + cbn [nth_error] in EX. destruct (filter (free s sh) ys) as [ | y0 t ] eqn:FY; [ discriminate | ]. cbn [nth_error] in EY. destruct S2 as (_ & _ & S2). apply (IH N2 H' s1 i x y); [ rewrite S1; exact EX | rewrite S2; exact EY ].
  - apply (IH N2 H' s1 i x y); [ rewrite S1; exact EX | ]. rewrite S2. exact EY.
Qed.
End Order.
(** the variables of a row that wait with the same shape are paired in the order of the file *)
Theorem C93_order : forall s r sh i x y, In r rows -> nth_error (waiting s (r_x r) sh) i = Some x -> nth_error (waiting s (r_y r) sh) i = Some y ->
  sfind x (enhance c s r) = Some (y, r_xdir r) /\ sfind y (enhance c s r) = Some (x, r_ydir r).
Proof.
  intros s r sh i x y I X Y. rewrite waiting_free in X, Y. apply (fold_order r (rows_apart r I) sh (candidates c (r_x r))) with (i := i); [ apply candidates_NoDup | intros z; apply candidates_spec | exact X | exact Y ].
Qed.

(** ** WRF files *)

(** U and V, UAH and VAH are pairs if they exist and are no vectors already; nothing else is changed *)
Definition uv : list (string * string) := [("U", "V"); ("UAH", "VAH")].
Lemma wrf_one s p n : fst p <> snd p -> fst p <> "" -> snd p <> "" ->
  sfind n (wrf_step c s p) = 
   if has_var c (fst p) && has_var c (snd p) && negb (is_vector s (fst p)) && negb (is_vector s (snd p)) then
     (if String.eqb n (snd p) then Some (fst p, DY) else if String.eqb n (fst p) then Some (snd p, DX) else sfind n s)
   else sfind n s.
Proof. intros A B D. unfold wrf_step. destruct (_ && _)%bool; [ | reflexivity ]. now rewrite !sfind_sput. Qed.
Theorem C93_wrf : forall s,
  (forall x y, In (x, y) uv -> has_var c x = true -> has_var c y = true -> is_vector s x = false -> is_vector s y = false ->
     sfind x (wrf_vectors c s) = Some (y, DX) /\ sfind y (wrf_vectors c s) = Some (x, DY)) /\
  (forall n, (forall x y, In (x, y) uv -> n = x \/ n = y -> has_var c x = false \/ has_var c y = false \/ is_vector s x = true \/ is_vector s y = true) ->
     sfind n (wrf_vectors c s) = sfind n s).
Proof.
  intro s. unfold wrf_vectors. cbn [fold_left]. set (s1 := wrf_step c s ("U", "V")).
  assert (E1 : forall n, sfind n s1 = _) by (intro n; apply wrf_one; discriminate). assert (E2 : forall n, sfind n (wrf_step c s1 ("UAH", "VAH")) = _) by (intro n; apply wrf_one; discriminate). cbn [fst snd] in E1, E2.
  assert (V : forall n, In n ["UAH"; "VAH"] -> is_vector s1 n = is_vector s n).
  { intros n I. unfold is_vector. rewrite E1. destruct I as [<-|[<-|[]]]; destruct (_ && _)%bool; reflexivity. }
  rewrite (V "UAH"), (V "VAH") in E2 by (cbn; auto). split.
  - intros x y I A B D E. destruct I as [I|[I|[]]]; injection I as <- <-.
    + rewrite !E2, !E1, A, B, D, E. cbn [negb andb String.eqb Ascii.eqb Bool.eqb]. match goal with |- context [if ?b then _ else _] => destruct b end; split; reflexivity.
    + rewrite !E2, A, B, D, E. split; reflexivity.
  - intros n H. rewrite E2, E1.
    assert (K : forall x y, In (x, y) uv -> n = x \/ n = y -> has_var c x && has_var c y && negb (is_vector s x) && negb (is_vector s y) = false).
    { intros x y I J. destruct (H x y I J) as [Q|[Q|[Q|Q]]]; rewrite Q; cbn; rewrite ?andb_false_r; reflexivity. }
    destruct (String.eqb_spec n "VAH") as [->|N1]; [ rewrite (K "UAH" "VAH") by (cbn; auto); match goal with |- context [if ?b then _ else _] => destruct b end; reflexivity | ].
    destruct (String.eqb_spec n "UAH") as [->|N2]; [ rewrite (K "UAH" "VAH") by (cbn; auto); match goal with |- context [if ?b then _ else _] => destruct b end; reflexivity | ].
    destruct (String.eqb_spec n "V") as [->|N3]; [ rewrite (K "U" "V") by (cbn; auto); match goal with |- context [if ?b then _ else _] => destruct b end; reflexivity | ].
    destruct (String.eqb_spec n "U") as [->|N4]; [ rewrite (K "U" "V") by (cbn; auto); match goal with |- context [if ?b then _ else _] => destruct b end; reflexivity | ].
    repeat match goal with |- context [if ?b then _ else _] => destruct b end; reflexivity.
Qed.

(** ** which convention *)

(** the text of the global attribute Conventions, or conventions, has CF-1., cf-1. or COARDS *)
Definition says_cf : Prop := exists t, (att c global_ns "Conventions" = Some t \/ (att c global_ns "Conventions" = None /\ att c global_ns "conventions" = Some t)) /\
  exists n a b, In n ["CF-1."; "cf-1."; "COARDS"] /\ s_ t = a ++ s_ n ++ b.
Definition says_wrf : Prop := has_dim c "south_north" = true /\ exists a, get_attr c global_ns "MAP_PROJ" = Some a.
Lemma holds_spec n s : holds n s = true <-> exists a b, s_ s = a ++ s_ n ++ b.
Proof. unfold holds. rewrite <- (find_sub_spec (s_ n) (s_ s) 0). destruct (find_sub _ _ 0); split; try discriminate; eauto. intros [j E]. discriminate. Qed.
Lemma cf_mine_spec : cf_mine c = true <-> says_cf.
Proof.
  unfold cf_mine, says_cf. rewrite !orb_true_iff, !holds_spec. unfold conventions.
  assert (G : forall t, (((exists a b, s_ t = a ++ s_ "CF-1." ++ b) \/ (exists a b, s_ t = a ++ s_ "cf-1." ++ b)) \/ (exists a b, s_ t = a ++ s_ "COARDS" ++ b)) <-> exists n a b, In n ["CF-1."; "cf-1."; "COARDS"] /\ s_ t = a ++ s_ n ++ b).
  { intro t. split.
    - intros [[(a & b & E)|(a & b & E)]|(a & b & E)]; eexists _, a, b; (split; [ | exact E ]); cbn; auto.
    - intros (n & a & b & [<-|[<-|[<-|[]]]] & E); eauto. }
  destruct (att c global_ns "Conventions") as [t|].
  - rewrite G. split; [ intro H; exists t; auto | intros (u & [E|[E _]] & H); [ injection E as <-; exact H | discriminate ] ].
  - destruct (att c global_ns "conventions") as [t|].
    + rewrite G. split; [ intro H; exists t; auto | intros (u & [E|[_ E]] & H); [ discriminate | injection E as <-; exact H ] ].
    + split; [ | intros (u & [E|[_ E]] & _); discriminate ]. intro H. apply G in H. destruct H as (n & a & b & I & E). destruct a; [ | discriminate ]. destruct I as [<-|[<-|[<-|[]]]]; discriminate.
Qed.
Lemma wrf_mine_spec : wrf_mine c = true <-> says_wrf.
Proof. unfold wrf_mine, says_wrf. rewrite andb_true_iff. destruct (get_attr c global_ns "MAP_PROJ") as [a|]; split; intros [A B]; split; eauto; [ discriminate | destruct B; discriminate ]. Qed.
Theorem C93_convention : forall s,
  (says_cf -> ~ says_wrf -> enhance_vectors c s = cf_vectors c s) /\
  (says_cf -> says_wrf -> enhance_vectors c s = wrf_vectors c (cf_vectors c s)) /\
  (~ says_cf -> says_wrf -> enhance_vectors c s = wrf_vectors c s) /\
  (~ says_cf -> ~ says_wrf -> enhance_vectors c s = cf_vectors c s).
Proof.
  intro s. rewrite <- cf_mine_spec, <- wrf_mine_spec. unfold enhance_vectors. destruct (cf_mine c), (wrf_mine c); cbn [orb];
    (split; [ | split; [ | split ] ]); intros A B; try reflexivity; try congruence; try (exfalso; now apply A); try (exfalso; now apply B).
Qed.
(** the same for the coordinate systems, but those for CF files are also listed when nothing is found *)
Theorem C93_systems : forall A (cf wrf : outcome (list A)),
  (says_cf -> ~ says_wrf -> all_systems c cf wrf = cf) /\
  (says_cf -> says_wrf -> forall l k, cf = Ok l -> wrf = Ok k -> all_systems c cf wrf = Ok (l ++ k)) /\
  (~ says_cf -> says_wrf -> forall k, wrf = Ok k -> k <> [] -> all_systems c cf wrf = Ok k) /\
  (~ says_cf -> says_wrf -> wrf = Ok [] -> all_systems c cf wrf = cf) /\
  (~ says_cf -> ~ says_wrf -> all_systems c cf wrf = cf).
Proof.
  intros A cf wrf. rewrite <- cf_mine_spec, <- wrf_mine_spec. unfold all_systems. destruct (cf_mine c), (wrf_mine c);
    (split; [ | split; [ | split; [ | split ] ] ]); intros H K; try congruence; try (exfalso; now apply H); try (exfalso; now apply K).
  - intros l k -> ->. cbn [obind]. destruct l as [ | x l ]; [ destruct k as [ | y k ]; reflexivity | reflexivity ].
  - destruct cf as [l| | |]; try reflexivity. cbn [obind]. rewrite app_nil_r. destruct l; reflexivity.
  - intros k -> N. cbn [obind app]. destruct k; [ congruence | reflexivity ].
  - intros ->. cbn [obind app]. reflexivity.
  - reflexivity.
Qed.
End Vec.

(** ** findings and a concrete case *)
Definition wv (n : string) (shape : list string) : cvar := mkVar n DFloat shape "" None.
Definition file (l : list (string * string * list string)) : cdm :=
  mkCdm (map (fun p => wv (fst (fst p)) (snd p)) l) [mkDim "t" 2 false; mkDim "y" 3 false; mkDim "x" 4 false; mkDim "z" 5 false]
        (map (fun p => (fst (fst p), [txt "standard_name" (snd (fst p))])) l).
(** Finding: wind at two heights is paired by the order of the variables *)
Theorem C93_heights_refuted :
  let c := file [("u10", "x_wind", ["t"; "y"; "x"]); ("u100", "x_wind", ["t"; "y"; "x"]); ("v100", "y_wind", ["t"; "y"; "x"]); ("v10", "y_wind", ["t"; "y"; "x"])] in
  cf_vectors c [] = [("u10", ("v100", DX)); ("u100", ("v10", DX)); ("v10", ("u100", DY)); ("v100", ("u10", DY))].
Proof. vm_compute. reflexivity. Qed.
(** Finding: the beginning of the standard name decides, so the shear of the wind is a vector with the wind *)
Theorem C93_prefix_refuted :
  let c := file [("du", "eastward_wind_shear", ["t"; "y"; "x"]); ("v", "northward_wind", ["t"; "y"; "x"])] in
  cf_vectors c [] = [("du", ("v", DLon)); ("v", ("du", DLat))].
Proof. vm_compute. reflexivity. Qed.
(** Finding: U and V of WRF files are on different dimensions *)
Theorem C93_shapes_refuted : let c := file [("U", "", ["t"; "y"; "x"]); ("V", "", ["z"])] in wrf_vectors c [] = [("U", ("V", DX)); ("V", ("U", DY))] /\ ~ alike c "U" "V".
Proof.
  split; [ vm_compute; reflexivity | ]. intros (v & w & I & E & J & F & S).
  destruct I as [<-|[<-|[]]]; [ | discriminate E ]. destruct J as [<-|[<-|[]]]; [ discriminate F | discriminate S ].
Qed.
Example C93_nonvacuous :
  let c := file [("u", "x_wind", ["t"; "z"; "y"; "x"]); ("v", "y_wind", ["t"; "z"; "y"; "x"]); ("us", "x_wind", ["t"; "y"; "x"]); ("vs", "y_wind", ["t"; "y"; "x"]); ("T", "air_temperature", ["t"; "z"; "y"; "x"])] in
  cf_vectors c [] = [("u", ("v", DX)); ("us", ("vs", DX)); ("v", ("u", DY)); ("vs", ("us", DY))] /\ NoDup (vnames c) /\ ~ In "" (vnames c) /\
  cf_vectors c [("u", ("w", DX))] = [("u", ("w", DX)); ("us", ("vs", DX)); ("vs", ("us", DY))] /\
  waiting c [] "x_wind" ["t"; "y"; "x"] = ["us"].
Proof.
  split; [ vm_compute; reflexivity | ]. split; [ | split; [ | split; [ vm_compute; reflexivity | vm_compute; reflexivity ] ] ].
  - vm_compute. repeat constructor; cbn; intuition discriminate.
  - vm_compute. intuition discriminate.
Qed.

(** The pairs of names: x and y, eastward and northward at one place, or at two. *)
Definition x_names : list (string * string) := [("", "_wind"); ("sea_water_", "_velocity"); ("", "_sea_water_velocity"); ("barotropic_sea_water_", "_velocity"); ("bolus_sea_water_", "_velocity"); ("surface_geostrophic_sea_water_", "_velocity"); ("barotropic_sea_water_", "_velocity"); ("sea_ice_", "_velocity"); ("sea_ice_", "_transport"); ("sea_ice_", "_displacement"); ("sea_surface_wave_stokes_drift_", "_velocity"); ("land_ice_", "_velocity"); ("land_ice_basal_", "_velocity"); ("land_ice_vertical_mean_", "_velocity"); ("ocean_heat_", "_transport"); ("ocean_salt_", "_transport"); ("ocean_volume_", "_transport")].
Definition east_names : list (string * string) := [("atmosphere_", "_stress_due_to_gravity_wave_drag"); ("baroclinic_", "_sea_water_velocity"); ("barotropic_", "_sea_water_velocity"); ("bolus_", "_sea_water_velocity"); ("downward_", "_momentum_flux_in_air"); ("downward_", "_momentum_flux_in_air_due_to_diffusion"); ("downward_", "_stress_at_sea_ice_base"); ("", "_atmosphere_dry_static_energy_transport_across_unit_distance"); ("", "_atmosphere_water_transport_across_unit_distance"); ("", "_atmosphere_water_vapor_transport_across_unit_distance"); ("", "_derivative_of_northward_sea_ice_velocity"); ("", "_mass_flux_of_air"); ("", "_momentum_flux_correction"); ("", "_sea_ice_displacement"); ("", "_sea_ice_velocity"); ("", "_sea_water_velocity"); ("", "_sea_water_velocity_assuming_no_tide"); ("", "_transformed_eulerian_mean_air_velocity"); ("", "_transformed_eulerian_mean_velocity"); ("", "_water_vapor_flux_in_air"); ("", "_water_vapor_flux"); ("", "_water_vapor_transport_across_unit_distance_in_atmosphere_layer"); ("", "_wind"); ("", "_wind_shear"); ("geostrophic_", "_wind"); ("product_of_", "_sea_water_velocity_and_salinity"); ("product_of_", "_sea_water_velocity_and_temperature"); ("product_of_", "_wind_and_air_temperature"); ("product_of_", "_wind_and_geopotential_height"); ("product_of_", "_wind_and_omega"); ("product_of_", "_wind_and_specific_humidity"); ("product_of_", "_wind_and_upward_air_velocity"); ("surface_downward_", "_stress"); ("surface_", "_sea_water_velocity"); ("surface_geostrophic_", "_sea_water_velocity"); ("surface_", "_geostrophic_sea_water_velocity"); ("surface_geostrophic_", "_sea_water_velocity_assuming_sea_level_for_geoid"); ("surface_", "_geostrophic_sea_water_velocity_assuming_sea_level_for_geoid"); ("tendency_of_", "_wind"); ("tendency_of_", "_wind_due_to_advection"); ("tendency_of_", "_wind_due_to_convection"); ("tendency_of_", "_wind_due_to_diffusion"); ("tendency_of_", "_wind_due_to_eliassen_palm_flux_divergence"); ("tendency_of_", "_wind_due_to_gravity_wave_drag"); ("tendency_of_", "_wind_due_to_nonorographic_gravity_wave_drag"); ("tendency_of_", "_wind_due_to_numerical_artefacts"); ("tendency_of_", "_wind_due_to_orographic_gravity_wave_drag"); ("upward_", "_momentum_flux_in_air_due_to_nonorographic_westward_gravity_waves"); ("upward_flux_of_", "_momentum_due_to_nonorographic_westward_gravity_waves"); ("upward_", "_momentum_flux_in_air_due_to_orographic_gravity_waves"); ("upward_flux_of_", "_momentum_due_to_orographic_gravity_waves"); ("upward_", "_stress_at_sea_ice_base")].
Theorem C93_table r : In r rows <->
  (exists a b, In (a, b) x_names /\ r = mkRow (a ++ "x" ++ b)%string (a ++ "y" ++ b)%string DX DY) \/
  r = mkRow "grid_eastward_wind" "grid_northward_wind" DX DY \/
  (exists a b, In (a, b) east_names /\ r = mkRow (a ++ "eastward" ++ b)%string (a ++ "northward" ++ b)%string DLon DLat) \/
  (exists a b c, In (a, b, c) [("upward_", "_momentum_flux_in_air_due_to_nonorographic_", "_gravity_waves"); ("upward_flux_of_", "_momentum_due_to_nonorographic_", "_gravity_waves")] /\
     r = mkRow (a ++ "eastward" ++ b ++ "eastward" ++ c)%string (a ++ "northward" ++ b ++ "northward" ++ c)%string DLon DLat).
Proof.
  set (L := map (fun p => mkRow (fst p ++ "x" ++ snd p)%string (fst p ++ "y" ++ snd p)%string DX DY) x_names ++ [mkRow "grid_eastward_wind" "grid_northward_wind" DX DY] ++
            map (fun p => mkRow (fst p ++ "eastward" ++ snd p)%string (fst p ++ "northward" ++ snd p)%string DLon DLat) east_names ++
            map (fun p => mkRow (fst (fst p) ++ "eastward" ++ snd (fst p) ++ "eastward" ++ snd p)%string (fst (fst p) ++ "northward" ++ snd (fst p) ++ "northward" ++ snd p)%string DLon DLat)
              [("upward_", "_momentum_flux_in_air_due_to_nonorographic_", "_gravity_waves"); ("upward_flux_of_", "_momentum_due_to_nonorographic_", "_gravity_waves")]).
  assert (Q : In r rows <-> In r L).
  { assert (A : forall l m : list row, forallb (fun r => existsb (fun q => String.eqb (r_x r) (r_x q) && String.eqb (r_y r) (r_y q) && match r_xdir r, r_xdir q with DX, DX => true | DLon, DLon => true | _, _ => false end && match r_ydir r, r_ydir q with DY, DY => true | DLat, DLat => true | _, _ => false end) m) l = true -> incl l m).
    { intros l m H q I. rewrite forallb_forall in H. apply H in I. apply existsb_exists in I as (p & I & E). apply andb_prop in E as (E & E4). apply andb_prop in E as (E & E3). apply andb_prop in E as (E1 & E2).
      apply String.eqb_eq in E1, E2. replace q with p; [exact I|]. clear L I. destruct p as [p1 p2 pd pe], q as [q1 q2 qd qe]; cbn [r_x r_y r_xdir r_ydir] in *. f_equal; [congruence|congruence| |]; [destruct pd, qd|destruct pe, qe]; first [reflexivity|discriminate]. }
    split; apply A; vm_compute; reflexivity. }
  rewrite Q. unfold L. rewrite !in_app_iff, !in_map_iff. clear.
  split.
  - intros [((a & b) & <- & I)|[[<-|[]]|[((a & b) & <- & I)|(((a & b) & c) & <- & I)]]];
      [left; exists a, b; split; [exact I|reflexivity]|right; left; reflexivity|right; right; left; exists a, b; split; [exact I|reflexivity]|right; right; right; exists a, b, c; split; [exact I|reflexivity]].
  - intros [(a & b & I & ->)|[->|[(a & b & I & ->)|(a & b & c & I & ->)]]];
      [left; exists (a, b); split; [reflexivity|exact I]|right; left; left; reflexivity|right; right; left; exists (a, b); split; [reflexivity|exact I]|right; right; right; exists (a, b, c); split; [reflexivity|exact I]].
Qed.
(** A variable with an empty counterpart is no vector yet. *)
Theorem C93_no_counterpart : let c := file [("u", "x_wind", ["y"; "x"]); ("v", "y_wind", ["y"; "x"])] in cf_vectors c [("u", ("", DX))] = [("u", ("v", DX)); ("v", ("u", DY))].
Proof. reflexivity. Qed.

Print Assumptions C93_kept.
Print Assumptions C93_pairs.
Print Assumptions C93_others.
Print Assumptions C93_all.
Print Assumptions C93_again.
Print Assumptions C93_only.
Print Assumptions C93_order.
Print Assumptions C93_wrf.
Print Assumptions C93_convention.
Print Assumptions C93_systems.
Print Assumptions C93_heights_refuted.
Print Assumptions C93_prefix_refuted.
Print Assumptions C93_shapes_refuted.
Print Assumptions C93_table.
Print Assumptions C93_no_counterpart.
