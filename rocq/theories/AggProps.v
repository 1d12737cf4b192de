(** C28: aggregation of files along an existing dimension, along a new dimension, and by union. *)
From Coq Require Import String List Arith ZArith Bool Lia.
From Coq Require Import ZifyBool ZifyNat.
From Verif Require Import Base StdMap AggModel AggProofs.
Import ListNotations.
Local Open Scope nat_scope.

(** what survives the addition of further files *)
Definition grows (un : string) (a a' : agg) : Prop :=
  (forall v s, get_shape (a_vars a) v = Some s -> get_shape (a_vars a') v = Some s) /\
  (forall v, mem v (a_join a) = true -> mem v (a_join a') = true) /\
  (forall n len, n <> un -> option_map d_len (get_dim (a_dims a) n) = Some len -> option_map d_len (get_dim (a_dims a') n) = Some len).

Lemma grows_refl un a : grows un a a.
Proof. repeat split; auto. Qed.
Lemma grows_trans un a b c : grows un a b -> grows un b c -> grows un a c.
Proof. intros (A & B & C) (A' & B' & C'). repeat split; eauto. Qed.
Lemma shape_app vs w v s : get_shape vs v = Some s -> get_shape (vs ++ [w]) v = Some s.
Proof.
  unfold get_shape. induction vs as [ | x vs IH ]; cbn; [ discriminate | ]. destruct (String.eqb v (fst x)); auto.
Qed.
Lemma mem_app v l w : mem v (l ++ [w]) = mem v l || String.eqb v w.
Proof. unfold mem. rewrite existsb_app. cbn. now rewrite orb_false_r. Qed.
Definition dims_grow (un : string) (ds ds' : list dim) : Prop :=
  forall n len, n <> un -> option_map d_len (get_dim ds n) = Some len -> option_map d_len (get_dim ds' n) = Some len.
Lemma dims_grow_app un ds d : dims_grow un ds (ds ++ [d]).
Proof. intros n len _ H. rewrite get_dim_app. destruct (get_dim ds n); [ exact H | discriminate ]. Qed.
Lemma ofold_rel {A T} (R : T -> T -> Prop) (f : T -> A -> outcome T) l :
  (forall s, R s s) -> (forall a b c, R a b -> R b c -> R a c) -> (forall s x s', f s x = Ok s' -> R s s') ->
  forall s s', ofold f l s = Ok s' -> R s s'.
Proof.
  intros Rf Tr St. induction l as [ | x l IH ]; intros s s' E; cbn in E; [ injection E as <-; apply Rf | ].
  destruct (f s x) as [ s1 | | | ] eqn:E1; cbn in E; try discriminate. eauto.
Qed.
Lemma join_dims_grow un f m l st st' : ofold (join_dims f m) l st = Ok st' -> dims_grow un (fst st) (fst st').
Proof.
  apply (ofold_rel (fun a b => dims_grow un (fst a) (fst b))).
  - intros s n len _ H. exact H.
  - intros a b c H1 H2 n len N H. apply H2; auto.
  - intros [ ds ok ] n s' E. unfold join_dims in E. destruct (String.eqb n m); [ injection E as <-; intros ? ? _ H; exact H | ].
    destruct (get_dim (f_dims f) n); [ | discriminate ]. destruct (get_dim ds n); [ injection E as <-; intros ? ? _ H; exact H | ].
    destruct (add_dim ds d) as [ ds' | | | ] eqn:Ed; cbn in E; try discriminate. injection E as <-. apply add_dim_ok in Ed.
    destruct Ed as (-> & _). apply dims_grow_app.
Qed.
Lemma union_dims_grow un f l st st' : ofold (union_dims f) l st = Ok st' -> dims_grow un (fst st) (fst st').
Proof.
  apply (ofold_rel (fun a b => dims_grow un (fst a) (fst b))).
  - intros s n len _ H. exact H.
  - intros a b c H1 H2 n len N H. apply H2; auto.
  - intros [ ds ok ] n s' E. unfold union_dims in E.
    destruct (get_dim (f_dims f) n) as [ rd | ]; [ | discriminate ]. destruct (get_dim ds n); [ injection E as <-; intros ? ? _ H; exact H | ].
    destruct (_ && _); [ injection E as <-; intros ? ? _ H; exact H | ].
    destruct (add_dim ds rd) as [ ds' | | | ] eqn:Ed; cbn in E; try discriminate. injection E as <-. apply add_dim_ok in Ed.
    destruct Ed as (-> & _). apply dims_grow_app.
Qed.
Lemma add_var_ok vs v vs' : add_var vs v = Ok vs' -> vs' = vs ++ [v].
Proof. unfold add_var. destruct (has_var vs (fst v)); [ discriminate | ]. congruence. Qed.
Lemma join_var_grow un f m a v a' : join_var f m a v = Ok a' -> grows un a a'.
Proof.
  unfold join_var. intro H. destruct (has_var (a_vars a) (fst v)); [ injection H as <-; apply grows_refl | ].
  destruct (has_unlim (f_dims f) (snd v)); [ | injection H as <-; apply grows_refl ].
  destruct (ofold _ _ _) as [ [ ds ok ] | | | ] eqn:E; cbn [obind] in H; try discriminate.
  apply (join_dims_grow un) in E. cbn in E. destruct ok.
  - destruct (add_var _ v) as [ vs | | | ] eqn:Ev; cbn [obind] in H; try discriminate. injection H as <-. apply add_var_ok in Ev. subst vs.
    split; [ | split ]; cbn [a_vars a_join a_dims with_join with_vars with_dims]; [ intros; now apply shape_app | intros w Hw; rewrite mem_app, Hw; reflexivity | exact E ].
  - injection H as <-. split; [ | split ]; cbn; auto.
Qed.
Lemma union_var_grow un f i a v a' : union_var f i a v = Ok a' -> grows un a a'.
Proof.
  unfold union_var. intro H. destruct (mem (fst v) (a_join a)); [ injection H as <-; apply grows_refl | ].
  destruct (smem _ _); [ injection H as <-; apply grows_refl | ].
  destruct (ofold _ _ _) as [ [ ds ok ] | | | ] eqn:E; cbn [obind] in H; try discriminate.
  apply (union_dims_grow un) in E. cbn in E. destruct ok.
  - destruct (add_var _ v) as [ vs | | | ] eqn:Ev; cbn [obind] in H; try discriminate. injection H as <-. apply add_var_ok in Ev. subst vs.
    split; [ | split ]; cbn; [ intros; now apply shape_app | auto | exact E ].
  - injection H as <-. split; [ | split ]; cbn; auto.
Qed.
Lemma set_len_grow un l ds : dims_grow un ds (set_len ds un l).
Proof.
  intros n len N. unfold get_dim, set_len. induction ds as [ | d ds IH ]; cbn; [ auto | ].
  destruct (String.eqb_spec un (d_name d)) as [ Eq | Ne ]; cbn.
  - destruct (String.eqb_spec n (d_name d)); [ congruence | exact IH ].
  - destruct (String.eqb_spec n (d_name d)); [ auto | exact IH ].
Qed.
Lemma extend_grow un len c a a' : uname (a_dims a) = Some un -> extend len c a = Ok a' -> grows un a a'.
Proof.
  intros U E. assert (E' := E). apply extend_ok in E'. destruct E' as (_ & _ & V & J & _).
  split; [ now rewrite V | ]. split; [ now rewrite J | ].
  unfold extend in E. unfold uname in U. destruct (unlim (a_dims a)) as [ u | ]; [ | discriminate ]. cbn in U. injection U as U.
  destruct c as [ l | ]; cbn [obind] in E; [ destruct (Nat.eqb _ _); cbn [obind] in E; [ | discriminate ] | ]; injection E as <-; cbn;
    rewrite U; apply set_len_grow.
Qed.
Lemma add_other_grow un a f c a' : uname (a_dims a) = Some un -> add_other JoinExisting a f c = Ok a' -> grows un a a'.
Proof.
  intros U E. unfold add_other in E. cbn [a_dims a_files] in E. set (b := {| a_dims := a_dims a |}) in E.
  assert (Gb : grows un a b) by (repeat split; auto).
  destruct (match unlim (f_dims f) with Some _ => _ | None => _ end) as [ a1 | | | ] eqn:E1; cbn [obind] in E; try discriminate.
  apply (grows_trans un a b a' Gb). apply (grows_trans un b a1 a').
  - unfold uname in U. destruct (unlim (a_dims a)) as [ au | ] eqn:Eu; [ | discriminate ]. cbn in U. injection U as U.
    assert (Ub : uname (a_dims b) = Some un) by (unfold uname; change (a_dims b) with (a_dims a); rewrite Eu; cbn [option_map]; congruence).
    destruct (unlim (f_dims f)) as [ ru | ]; [ | apply (extend_grow un _ _ _ _ Ub E1) ].
    destruct (String.eqb (d_name ru) (d_name au)); cbn [negb] in E1; [ | apply (extend_grow un _ _ _ _ Ub E1) ].
    destruct (ofold _ _ _) as [ a2 | | | ] eqn:E2; cbn [obind] in E1; try discriminate.
    destruct (join_vars_core f _ un _ b a2 Ub E2) as (U2 & _).
    apply (grows_trans un b a2 a1); [ | apply (extend_grow un _ _ _ _ U2 E1) ].
    revert E2. apply (ofold_rel (grows un)); [ apply grows_refl | apply grows_trans | ]. intros s x s'. apply join_var_grow.
  - revert E. apply (ofold_rel (grows un)); [ apply grows_refl | apply grows_trans | ]. intros s x s'. apply union_var_grow.
Qed.
Lemma aggregate_grow un others : (forall f c, In (f, c) others -> uname (f_dims f) = Some un) -> forall a a', uname (a_dims a) = Some un ->
  ofold (fun a fc => add_other JoinExisting a (fst fc) (snd fc)) others a = Ok a' -> grows un a a'.
Proof.
  induction others as [ | [ f c ] others IH ]; intros Hf a a' U E; cbn in E; [ injection E as <-; apply grows_refl | ].
  destruct (add_other JoinExisting a f c) as [ a1 | | | ] eqn:E1; cbn in E; try discriminate.
  assert (G := add_other_grow un _ _ _ _ U E1). apply add_other_existing in E1. destruct E1 as (_ & U1 & _).
  rewrite U in U1. unfold adds in U1. assert (Q := Hf f c (or_introl eq_refl)). unfold uname in Q.
  destruct (unlim (f_dims f)); [ | discriminate ]. cbn in Q. injection Q as Q. rewrite Q, String.eqb_refl in U1.
  apply (grows_trans un a a1 a' G). apply IH; auto. intros g e I. apply (Hf g e). now right.
Qed.

(** number of records of a file: the length of its unlimited dimension *)
Definition records (f : file) : nat := match unlim (f_dims f) with Some u => d_len u | None => 0 end.
Lemma contrib_records un fs : (forall f, In f fs -> uname (f_dims f) = Some un) -> contrib (Some un) fs = map records fs.
Proof.
  induction fs as [ | f fs IH ]; intro H; [ reflexivity | ]. cbn [contrib map].
  assert (Q := H f (or_introl eq_refl)). unfold uname in Q. unfold adds, records. destruct (unlim (f_dims f)); [ | discriminate ].
  cbn in Q. injection Q as ->. rewrite String.eqb_refl. cbn. f_equal. apply IH. intros; apply H; now right.
Qed.

(** ** positions *)
(** a join along an existing dimension: the file that holds a record, for files that have the dimension *)
Theorem C28_positions k un first c0 others a : k = JoinExisting ->
  uname (f_dims first) = Some un -> (forall f c, In (f, c) others -> uname (f_dims f) = Some un) ->
  aggregate k (first, c0) others = Ok a ->
  let files := first :: map fst others in
  a_files a = files /\ uname (a_dims a) = Some un /\
  (forall u i l, find_join (a_pos a) u = Some (i, l) <->
     exists f, nth_error files i = Some f /\ l < records f /\ u = sum (map records (firstn i files)) + l) /\
  (forall u, find_join (a_pos a) u = None <-> sum (map records files) <= u).
Proof.
  intros -> U0 Us E files. unfold aggregate in E. cbn [fst snd] in E.
  destruct (add_first JoinExisting first c0) as [ a0 | | | ] eqn:E0; cbn [obind] in E; try discriminate.
  apply add_first_existing in E0. destruct E0 as (P0 & N0 & F0).
  assert (A0 : adds None first = (records first, Some un)).
  { unfold adds, records. unfold uname in U0. destruct (unlim (f_dims first)); [ | discriminate ]. cbn in *. congruence. }
  rewrite A0 in *. cbn in P0, N0.
  destruct (positions_existing others a0 a [records first] (Some un) [first] P0 N0 F0 E) as (P & F & N).
  assert (Us' : forall f, In f (map fst others) -> uname (f_dims f) = Some un).
  { intros f I. apply in_map_iff in I. destruct I as ([ g c ] & <- & I). apply (Us g c I). }
  rewrite (contrib_records un) in P by exact Us'.
  assert (P' : a_pos a = cum 0 (map records files)) by exact P.
  split; [ exact F | ]. split.
  { rewrite N. clear - Us'. induction (map fst others) as [ | f fs IH ]; [ reflexivity | ]. cbn.
    assert (Q := Us' f (or_introl eq_refl)). unfold adds. unfold uname in Q. destruct (unlim (f_dims f)); [ | discriminate ].
    cbn in Q. injection Q as ->. rewrite String.eqb_refl. apply IH. intros; apply Us'; now right. }
  rewrite P'. split; [ | intro u; apply find_join_none ].
  intros u i l. rewrite find_join_some. rewrite map_length, firstn_map. split.
  - intros (Hi & Hl & Hu). destruct (nth_error files i) as [ f | ] eqn:Ef; [ | apply nth_error_None in Ef; lia ].
    exists f. split; [ reflexivity | ]. split; [ | exact Hu ].
    rewrite (nth_error_nth (map records files) i 0 (map_nth_error records i files Ef)) in Hl. exact Hl.
  - intros (f & Ef & Hl & Hu). assert (i < length files) by (apply nth_error_Some; rewrite Ef; discriminate).
    split; [ assumption | ]. split; [ | exact Hu ].
    rewrite (nth_error_nth (map records files) i 0 (map_nth_error records i files Ef)). exact Hl.
Qed.

(** every record index below the sum of lengths belongs to exactly one record of one file *)
Theorem C28_unique_record files u : u < sum (map records files) ->
  exists i l f, (nth_error files i = Some f /\ l < records f /\ u = sum (map records (firstn i files)) + l) /\
    forall i' l' f', nth_error files i' = Some f' /\ l' < records f' /\ u = sum (map records (firstn i' files)) + l' -> i' = i /\ l' = l /\ f' = f.
Proof.
  intro Hu. assert (Rev : forall i l f, nth_error files i = Some f /\ l < records f /\ u = sum (map records (firstn i files)) + l ->
    find_join (cum 0 (map records files)) u = Some (i, l)).
  { intros i l f (Ef & Hl & E). apply find_join_some. rewrite map_length, firstn_map.
    assert (i < length files) by (apply nth_error_Some; rewrite Ef; discriminate). split; [ assumption | ]. split; [ | exact E ].
    now rewrite (nth_error_nth (map records files) i 0 (map_nth_error records i files Ef)). }
  destruct (find_join (cum 0 (map records files)) u) as [ [ i l ] | ] eqn:E.
  - assert (E' := E). apply find_join_some in E'. rewrite map_length, firstn_map in E'. destruct E' as (Hi & Hl & Hs).
    destruct (nth_error files i) as [ f | ] eqn:Ef; [ | apply nth_error_None in Ef; lia ].
    rewrite (nth_error_nth (map records files) i 0 (map_nth_error records i files Ef)) in Hl.
    exists i, l, f. split; [ auto | ]. intros i' l' f' H. assert (R := Rev _ _ _ H).
    injection R as -> ->. destruct H as (H & _). rewrite Ef in H. injection H as ->. auto.
  - apply find_join_none in E. lia.
Qed.

(** ** data of a join along an existing dimension *)
(** the file has the variable with the shape, and lengths that agree with those of the first file *)
Definition fits (un : string) (first f : file) (v : string) (shape : list string) : Prop :=
  get_shape (f_vars f) v = Some shape /\
  forall n, In n shape -> n <> un -> exists len, option_map d_len (get_dim (f_dims first) n) = Some len /\
                                               option_map d_len (get_dim (f_dims f) n) = Some len.

Lemma list_eqb_refl l : list_eqb l l = true.
Proof. induction l; cbn; [ reflexivity | now rewrite String.eqb_refl ]. Qed.
Lemma same_lengths_ok ads rds skip shape :
  (forall n, In n shape -> skip n = true \/ exists len, option_map d_len (get_dim ads n) = Some len /\ option_map d_len (get_dim rds n) = Some len) ->
  same_lengths ads rds skip shape = Ok true.
Proof.
  induction shape as [ | n s IH ]; intro H; [ reflexivity | ]. cbn. destruct (H n (or_introl eq_refl)) as [ -> | (len & A & B) ].
  - apply IH. intros; apply H; now right.
  - destruct (skip n); [ apply IH; intros; apply H; now right | ].
    destruct (get_dim ads n) as [ x | ]; [ | discriminate ]. destruct (get_dim rds n) as [ y | ]; [ | discriminate ]. cbn in A, B.
    injection A as ->. injection B as ->. rewrite Nat.eqb_refl. apply IH. intros; apply H; now right.
Qed.

Section Existing.
  Variables (un : string) (first : file) (c0 : option (list string)) (others : list (file * option (list string))) (a : agg).
  Hypothesis U0 : uname (f_dims first) = Some un.
  Hypothesis Us : forall f c, In (f, c) others -> uname (f_dims f) = Some un.
  Hypothesis E : aggregate JoinExisting (first, c0) others = Ok a.
  Variables (v : string) (shape : list string).
  Hypothesis HV : get_shape (f_vars first) v = Some shape.
  Hypothesis HU : In un shape.
  Local Notation files := (first :: map fst others).

  Lemma first_grow : get_shape (a_vars a) v = Some shape /\ mem v (a_join a) = true /\
    forall n len, n <> un -> option_map d_len (get_dim (f_dims first) n) = Some len -> option_map d_len (get_dim (a_dims a) n) = Some len.
  Proof.
    unfold aggregate in E. cbn [fst snd] in E.
    destruct (add_first JoinExisting first c0) as [ a0 | | | ] eqn:E0; cbn [obind] in E; try discriminate.
    assert (U1 := add_first_existing _ _ _ E0). destruct U1 as (_ & U1 & _).
    assert (A0 : snd (adds None first) = Some un).
    { unfold adds. unfold uname in U0. destruct (unlim (f_dims first)); [ | discriminate ]. cbn in *. congruence. }
    rewrite A0 in U1. assert (G := aggregate_grow un others Us a0 a U1 E). destruct G as (G1 & G2 & G3).
    unfold add_first in E0. assert (Q := U0). unfold uname in Q. destruct (unlim (f_dims first)) as [ u | ] eqn:Eu; [ | discriminate ].
    cbn in Q. injection Q as Q.
    set (b := with_join _ _) in E0.
    destruct (extend (d_len u) c0 b) as [ a1 | | | ] eqn:E1; cbn [obind] in E0; try discriminate. injection E0 as <-.
    assert (Ub : uname (a_dims b) = Some un) by exact U0.
    destruct (extend_grow un _ _ _ _ Ub E1) as (X1 & X2 & X3).
    split; [ | split ].
    - apply G1. cbn. apply X1. exact HV.
    - apply G2. cbn. apply X2. cbn. unfold mem. apply existsb_exists. exists v. split; [ | apply String.eqb_refl ].
      unfold get_shape in HV. destruct (find _ (f_vars first)) as [ w | ] eqn:Ef; [ | discriminate ]. cbn in HV. injection HV as HV'.
      apply find_some in Ef. destruct Ef as (I & Eq). apply String.eqb_eq in Eq. apply in_map_iff. exists w. split; [ congruence | ].
      apply filter_In. split; [ exact I | ]. unfold has_unlim. rewrite Eu, HV', Q. unfold mem. apply existsb_exists. exists un.
      split; [ exact HU | apply String.eqb_refl ].
    - intros n len N H. apply G3; [ exact N | ]. cbn. apply X3; [ exact N | exact H ].
  Qed.

  Lemma fits_check f : In f files -> fits un first f v shape -> check_existing a f v = Ok true.
  Proof.
    intros I (S1 & S2). unfold check_existing. destruct first_grow as (V & _ & D). rewrite S1, V, list_eqb_refl.
    apply same_lengths_ok. intros n Hn. destruct (String.eqb_spec n un) as [ -> | N ].
    - left. assert (Q : uname (f_dims f) = Some un).
      { destruct I as [ <- | I ]; [ exact U0 | ]. apply in_map_iff in I. destruct I as ([ g c ] & <- & I). apply (Us g c I). }
      unfold uname in Q. destruct (unlim (f_dims f)); [ | discriminate ]. cbn in Q. injection Q as ->. apply String.eqb_refl.
    - right. destruct (S2 n Hn N) as (len & A & B). exists len. split; [ apply D; auto | exact B ].
  Qed.

  (** record [l] of file [i] is record (sum of the earlier lengths) + [l] *)
  Theorem C28_record fill i l f : nth_error files i = Some f -> l < records f -> fits un first f v shape ->
    get_slice JoinExisting fill a v (sum (map records (firstn i files)) + l) = Ok (Some (f_get f v l)).
  Proof.
    intros Ef Hl Ft. destruct (C28_positions JoinExisting un first c0 others a eq_refl U0 Us E) as (F & _ & P & _).
    unfold get_slice. destruct first_grow as (V & J & _). rewrite V, J.
    rewrite (proj2 (P _ i l)) by (exists f; auto). rewrite F, Ef.
    rewrite (fits_check f); [ reflexivity | now apply nth_error_In in Ef | exact Ft ].
  Qed.
  (** outside of all files there is no data *)
  Theorem C28_outside fill u : sum (map records files) <= u -> get_slice JoinExisting fill a v u = Ok None.
  Proof.
    intro H. destruct (C28_positions JoinExisting un first c0 others a eq_refl U0 Us E) as (_ & _ & _ & P).
    unfold get_slice. destruct first_grow as (V & J & _). rewrite V, J. rewrite (proj2 (P u)) by exact H. reflexivity.
  Qed.
  (** a record of a file in which the variable is missing or has another shape is filled; the size is
      that of one record *)
  Theorem C28_fill fill i l f : nth_error files i = Some f -> l < records f -> get_shape (f_vars f) v <> Some shape ->
    (forall n, In n shape -> n <> un -> get_dim (f_dims first) n <> None) ->
    exists n, get_slice JoinExisting fill a v (sum (map records (firstn i files)) + l) = Ok (Some (repeat fill n)) /\
      n = fold_right Nat.mul 1 (map (fun d => match get_dim (f_dims first) d with Some x => d_len x | None => 0 end)
                                  (filter (fun d => negb (String.eqb d un)) shape)).
  Proof.
    intros Ef Hl Ne Hd. destruct (C28_positions JoinExisting un first c0 others a eq_refl U0 Us E) as (F & Un & P & _).
    unfold get_slice. destruct first_grow as (V & J & D). rewrite V, J.
    rewrite (proj2 (P _ i l)) by (exists f; auto). rewrite F, Ef.
    assert (Ck : check_existing a f v = Ok false).
    { unfold check_existing. rewrite V. destruct (get_shape (f_vars f) v) as [ rs | ]; [ | reflexivity ].
      destruct (list_eqb rs shape) eqn:El; [ | reflexivity ]. exfalso. apply Ne. f_equal.
      clear - El. revert shape El. induction rs as [ | x rs IH ]; intros [ | y s ] El; cbn in El; try discriminate; [ reflexivity | ].
      apply andb_true_iff in El. destruct El as (A & B). apply String.eqb_eq in A. f_equal; auto. }
    rewrite Ck. cbn [obind].
    assert (Vol : volume (a_dims a) (is_udim (a_dims a)) shape =
      Ok (fold_right Nat.mul 1 (map (fun d => match get_dim (f_dims first) d with Some x => d_len x | None => 0 end)
                                  (filter (fun d => negb (String.eqb d un)) shape)))).
    { unfold uname in Un. unfold is_udim. destruct (unlim (a_dims a)) as [ u | ]; [ | discriminate ]. cbn in Un. injection Un as ->.
      clear - Hd D. induction shape as [ | n s IH ]; [ reflexivity | ]. cbn [volume filter]. rewrite IH by (intros; apply Hd; auto; now right).
      cbn [obind]. destruct (String.eqb_spec n un) as [ -> | N ]; [ reflexivity | ]. cbn [negb map fold_right].
      assert (G := Hd n (or_introl eq_refl) N). assert (D' := D n). destruct (get_dim (f_dims first) n) as [ x | ]; [ | congruence ].
      specialize (D' (d_len x) N eq_refl). destruct (get_dim (a_dims a) n) as [ y | ]; [ | discriminate ]. cbn in D'. now injection D' as ->. }
    rewrite Vol. cbn [obind]. eexists. split; reflexivity.
  Qed.

  (** the number of cells of a part without the unlimited dimension, and the part of that dimension *)
  Lemma part_fold p : forall n s, ~ In un (map fst p) ->
    fold_left (fun n e => if String.eqb (fst e) un then n else n * snd (snd e)) p n = n * fold_right Nat.mul 1 (map (fun e => snd (snd e)) p) /\
    fold_left (fun s (e : string * (nat * nat)) => if String.eqb (fst e) un then snd e else s) p s = s.
  Proof.
    induction p as [ | e p IH ]; intros n s H; cbn; [ split; [ lia | reflexivity ] | ].
    destruct (String.eqb_spec (fst e) un) as [ Q | Q ]; [ exfalso; apply H; now left | ].
    destruct (IH (n * snd (snd e)) s) as (A & B); [ intro; apply H; now right | ]. rewrite A, B. split; [ ring | reflexivity ].
  Qed.

  (** a request for a part, with the unlimited dimension last (= slowest) *)
  Theorem C28_parts fill p start size : ~ In un (map fst p) -> size > 0 -> fold_right Nat.mul 1 (map (fun e => snd (snd e)) p) > 0 ->
    start + size <= sum (map records files) ->
    (forall i f l, nth_error files i = Some f -> l < records f -> fits un first f v shape /\ f_part f v (p ++ [(un, (l, 1))]) <> []) ->
    exists bs, get_part JoinExisting fill a v (p ++ [(un, (start, size))]) = Ok (Some (concat bs)) /\ length bs = size /\
      forall j, j < size -> exists i f l, nth_error files i = Some f /\ l < records f /\
        start + j = sum (map records (firstn i files)) + l /\ nth_error bs j = Some (f_part f v (p ++ [(un, (l, 1))])).
  Proof.
    intros Hp Hs Hn Ht Hf. destruct (C28_positions JoinExisting un first c0 others a eq_refl U0 Us E) as (F & Un & P & _).
    unfold get_part. destruct first_grow as (V & J & _). rewrite V, J.
    unfold uname in Un. destruct (unlim (a_dims a)) as [ u | ] eqn:Eu; [ | discriminate ]. cbn in Un. injection Un as ->.
    destruct (part_fold p 1 (0, 0) Hp) as (A & B). rewrite !fold_left_app. rewrite A, B. cbn [fold_left fst snd]. rewrite String.eqb_refl.
    set (n := 1 * _). destruct (Nat.eqb_spec size 0); [ lia | ]. destruct (Nat.eqb_spec n 0); [ lia | ]. cbn [orb].
    assert (Blk : forall j, In j (seq 0 size) -> exists x, block JoinExisting fill a v (p ++ [(un, (start, size))]) un n (start + j) = Ok x /\
      exists i f l, nth_error files i = Some f /\ l < records f /\
        start + j = sum (map records (firstn i files)) + l /\ x = f_part f v (p ++ [(un, (l, 1))])).
    { intros j Hj. apply in_seq in Hj. destruct (C28_unique_record files (start + j)) as (i & l & f & H & _); [ lia | ].
      destruct H as (Ef & Hl & Hu). destruct (Hf i f l Ef Hl) as (Ft & Nn).
      exists (f_part f v (p ++ [(un, (l, 1))])). split; [ | exists i, f, l; auto ].
      unfold block. rewrite (proj2 (P _ i l)) by (exists f; auto). rewrite F, Ef. cbn [rd obind].
      rewrite (fits_check f); [ | now apply nth_error_In in Ef | exact Ft ]. cbn [obind].
      rewrite map_app. cbn [map fst]. rewrite String.eqb_refl.
      assert (M : map (fun e : string * (nat * nat) => if String.eqb (fst e) un then (fst e, (l, 1)) else e) p = p).
      { rewrite <- (map_id p) at 2. apply map_ext_in. intros e I. destruct (String.eqb_spec (fst e) un) as [ Q | Q ]; [ | reflexivity ].
        exfalso. apply Hp. rewrite <- Q. now apply in_map. }
      rewrite M. destruct (f_part f v (p ++ [(un, (l, 1))])) as [ | z zs ]; [ congruence | reflexivity ]. }
    assert (Bs : forall l, (forall j, In j l -> In j (seq 0 size)) -> exists bs, omapM (fun j => block JoinExisting fill a v (p ++ [(un, (start, size))]) un n (start + j)) l = Ok bs /\
      length bs = length l /\ forall k j, nth_error l k = Some j -> exists i f l, nth_error files i = Some f /\ l < records f /\
        start + j = sum (map records (firstn i files)) + l /\ nth_error bs k = Some (f_part f v (p ++ [(un, (l, 1))]))).
    { induction l as [ | j l IH ]; intro Hl; [ exists []; cbn; repeat split; intros [ | ]; discriminate | ].
      destruct IH as (bs & E1 & E2 & E3); [ intros; apply Hl; now right | ]. destruct (Blk j (Hl j (or_introl eq_refl))) as (x & Ex & i & f & m & X1 & X2 & X3 & X4).
      exists (x :: bs). cbn [omapM]. rewrite Ex. cbn [obind]. rewrite E1. cbn [obind]. split; [ reflexivity | ]. split; [ cbn; congruence | ].
      intros [ | k ] j' Hk; cbn in Hk; [ injection Hk as <-; exists i, f, m; repeat split; auto; cbn; congruence | apply E3; exact Hk ]. }
    destruct (Bs (seq 0 size)) as (bs & E1 & E2 & E3); [ auto | ]. rewrite E1. cbn [obind]. exists bs. split; [ reflexivity | ].
    rewrite seq_length in E2. split; [ exact E2 | ]. intros j Hj. apply (E3 j j).
    rewrite (nth_error_nth' (seq 0 size) 0) by now rewrite seq_length. now rewrite seq_nth.
  Qed.
End Existing.

(** ** coordinate values *)
(** with coordinate values for every file the aggregate has one value per record, in the order of the files *)
Theorem C28_coordinates un first l0 others a :
  uname (f_dims first) = Some un -> (forall f c, In (f, c) others -> uname (f_dims f) = Some un /\ c <> None) ->
  aggregate JoinExisting (first, Some l0) others = Ok a ->
  a_coords a = l0 ++ concat (map (fun fc => match snd fc with Some l => l | None => [] end) others) /\
  length (a_coords a) = sum (map records (first :: map fst others)).
Proof.
  intros U0 Us E. unfold aggregate in E. cbn [fst snd] in E.
  destruct (add_first JoinExisting first (Some l0)) as [ a0 | | | ] eqn:E0; cbn [obind] in E; try discriminate.
  assert (U1 := add_first_existing _ _ _ E0). destruct U1 as (_ & U1 & _).
  assert (C0 : a_coords a0 = l0 /\ length l0 = records first /\ uname (a_dims a0) = Some un).
  { rewrite U1. unfold add_first in E0. unfold uname in U0. unfold adds, records. destruct (unlim (f_dims first)) as [ u | ]; [ | discriminate ].
    destruct (extend _ _ _) as [ a1 | | | ] eqn:E1; cbn [obind] in E0; try discriminate. injection E0 as <-.
    apply extend_ok in E1. destruct E1 as (_ & _ & _ & _ & _ & _ & C & L). cbn in *. rewrite C, L. auto. }
  clear E0 U1. destruct C0 as (C0 & L0 & U1).
  cbn [map sum fold_right]. unfold sum in *. cbn [fold_right].
  revert a0 l0 C0 L0 U1 E. generalize (records first) as n0.
  induction others as [ | [ f c ] others IH ]; intros n0 a0 l0 C0 L0 U1 E; cbn in E.
  { injection E as <-. cbn. rewrite app_nil_r, C0. split; [ reflexivity | lia ]. }
  destruct (Us f c (or_introl eq_refl)) as (Uf & Hc). destruct c as [ l | ]; [ | congruence ].
  destruct (add_other JoinExisting a0 f (Some l)) as [ a1 | | | ] eqn:E1; cbn in E; try discriminate.
  assert (X : a_coords a1 = l0 ++ l /\ length l = records f /\ uname (a_dims a1) = Some un).
  { assert (E1' := E1). apply add_other_existing in E1'. destruct E1' as (_ & U2 & _). rewrite U1 in U2.
    unfold add_other in E1. cbn [a_dims a_files] in E1. set (b := {| a_dims := a_dims a0 |}) in E1.
    unfold adds in U2. unfold records. assert (Uf' := Uf). unfold uname in Uf. destruct (unlim (f_dims f)) as [ ru | ] eqn:Er; [ | discriminate ].
    cbn in Uf. injection Uf as Uf. rewrite Uf in *. rewrite String.eqb_refl in U2. cbn in U2.
    assert (Ub : uname (a_dims b) = Some un) by exact U1.
    unfold uname in U1. destruct (unlim (a_dims a0)) as [ au | ] eqn:Ea; [ | discriminate ]. cbn in U1. injection U1 as U1.
    rewrite U1, String.eqb_refl in E1. cbn [negb] in E1.
    destruct (ofold _ _ b) as [ a2 | | | ] eqn:E2; cbn [obind] in E1; try discriminate.
    destruct (join_vars_core f _ un _ b a2 Ub E2) as (_ & _ & _ & K2).
    destruct (extend (d_len ru) (Some l) a2) as [ a3 | | | ] eqn:E3; cbn [obind] in E1; try discriminate.
    apply extend_ok in E3. destruct E3 as (_ & U3 & _ & _ & _ & _ & K3 & L3).
    assert (N3 : uname (a_dims a3) <> None \/ unlim (f_dims f) = None)
      by (left; rewrite U3; destruct (join_vars_core f _ un _ b a2 Ub E2) as (-> & _); discriminate).
    destruct (union_vars_core f _ _ a3 a1 N3 E1) as (_ & _ & _ & K4).
    rewrite K4, K3, K2. cbn. rewrite C0. auto. }
  destruct X as (C1 & L1 & U2).
  destruct (IH (fun g d I => Us g d (or_intror I)) (n0 + records f) a1 (l0 ++ l) C1 ltac:(rewrite app_length; lia) U2 E) as (R1 & R2).
  cbn [map concat snd fst fold_right]. rewrite app_assoc. split; [ exact R1 | ]. rewrite R2. lia.
Qed.

(** ** join along a new dimension *)
Definition positions_of (a a' : agg) : Prop := a_pos a' = a_pos a /\ a_files a' = a_files a /\ a_join a' = a_join a.
Lemma union_var_positions f i a v a' : union_var f i a v = Ok a' -> positions_of a a'.
Proof.
  unfold union_var. intro H. destruct (mem _ _); [ injection H as <-; repeat split | ]. destruct (smem _ _); [ injection H as <-; repeat split | ].
  destruct (ofold _ _ _) as [ [ ds [ | ] ] | | | ]; cbn [obind] in H; try discriminate.
  - destruct (add_var _ _); cbn [obind] in H; try discriminate. injection H as <-. repeat split.
  - injection H as <-. repeat split.
Qed.
Lemma positions_trans a b c : positions_of a b -> positions_of b c -> positions_of a c.
Proof. unfold positions_of. intuition congruence. Qed.

Lemma add_other_new jd jv a f c a' : add_other (JoinNew jd jv) a f c = Ok a' ->
  a_pos a' = a_pos a ++ [last (a_pos a) 0 + 1] /\ a_files a' = a_files a ++ [f] /\ a_join a' = a_join a.
Proof.
  intro E. unfold add_other in E. cbn [a_files] in E. set (b := {| a_dims := a_dims a |}) in E.
  destruct (ofold _ (f_vars f) b) as [ a1 | | | ] eqn:E1; cbn [obind] in E; try discriminate.
  assert (P1 : positions_of b a1).
  { revert E1. apply (ofold_rel positions_of); [ repeat split | apply positions_trans | ]. intros s x s' H. cbn beta in H.
    destruct (_ && _); [ | injection H as <-; repeat split ]. destruct (add_var _ _); cbn [obind] in H; try discriminate. injection H as <-. repeat split. }
  destruct (extend 1 c a1) as [ a2 | | | ] eqn:E2; cbn [obind] in E; try discriminate.
  apply extend_ok in E2. destruct E2 as (Q & _ & _ & J & _ & F & _).
  assert (P2 : positions_of a2 a').
  { revert E. apply (ofold_rel positions_of); [ repeat split | apply positions_trans | ]. intros s x s'. apply union_var_positions. }
  unfold positions_of in *. cbn in P1. destruct P1 as (A1 & A2 & A3). destruct P2 as (B1 & B2 & B3).
  rewrite B1, B2, B3, Q, F, J, A1, A2, A3. auto.
Qed.

Theorem C28_new_positions jd jv first c0 others a : aggregate (JoinNew jd jv) (first, c0) others = Ok a ->
  let files := first :: map fst others in
  a_files a = files /\ a_join a = jv /\ forall u, find_join (a_pos a) u = if u <? length files then Some (u, 0) else None.
Proof.
  intros E files. unfold aggregate in E. cbn [fst snd] in E.
  destruct (add_first (JoinNew jd jv) first c0) as [ a0 | | | ] eqn:E0; cbn [obind] in E; try discriminate.
  assert (P0 : a_pos a0 = cum 0 [1] /\ a_files a0 = [first] /\ a_join a0 = jv).
  { unfold add_first in E0. destruct (add_dim _ _) as [ ds | | | ]; cbn [obind] in E0; try discriminate.
    destruct (extend 1 c0 _) as [ a1 | | | ] eqn:E1; cbn [obind] in E0; try discriminate. injection E0 as <-.
    apply extend_ok in E1. destruct E1 as (Q & _ & _ & J & _ & F & _). cbn in *. auto. }
  assert (R : a_pos a = cum 0 (repeat 1 (length files)) /\ a_files a = files /\ a_join a = jv).
  { subst files. change (first :: map fst others) with ([first] ++ map fst others).
    destruct P0 as (P0 & F0 & J0). clear E0. change [1] with (repeat 1 (length [first])) in P0. revert a0 P0 F0 J0 E. generalize [first] as fs0.
    induction others as [ | [ f c ] others IH ]; intros fs0 a0 P0 F0 J0 E; cbn in E.
    - injection E as <-. cbn. rewrite app_nil_r. auto.
    - destruct (add_other (JoinNew jd jv) a0 f c) as [ a1 | | | ] eqn:E1; cbn in E; try discriminate.
      apply add_other_new in E1. destruct E1 as (P1 & F1 & J1). rewrite P0, cum_snoc in P1.
      change [1] with (repeat 1 1) in P1. rewrite <- repeat_app in P1. rewrite F0 in F1. rewrite J0 in J1.
      assert (L : length fs0 + 1 = length (fs0 ++ [f])) by (rewrite app_length; reflexivity). rewrite L in P1.
      destruct (IH (fs0 ++ [f]) a1 P1 F1 J1 E) as (A & B & C). rewrite <- app_assoc in A, B. auto. }
  destruct R as (P & F & J). split; [ exact F | ]. split; [ exact J | ]. intro u. rewrite P.
  assert (S1 : forall n, sum (repeat 1 n) = n) by (induction n; cbn in *; congruence).
  assert (Fi : forall i n, i <= n -> sum (firstn i (repeat 1 n)) = i).
  { induction i as [ | i IH ]; intros [ | n ] H; cbn; auto; [ lia | ]. f_equal. apply IH. lia. }
  destruct (Nat.ltb_spec u (length files)) as [ H | H ].
  - apply find_join_some. rewrite repeat_length. split; [ exact H | ]. split; [ rewrite (nth_indep _ 0 1) by (rewrite repeat_length; exact H); rewrite nth_repeat; lia | ]. rewrite Fi by lia. lia.
  - apply find_join_none. rewrite S1. exact H.
Qed.

(** record [i] along the new dimension is all of the variable of file [i] *)
Theorem C28_new_record jd jv first c0 others a fill v s i f sf : aggregate (JoinNew jd jv) (first, c0) others = Ok a ->
  In v jv -> get_shape (a_vars a) v = Some s -> nth_error (first :: map fst others) i = Some f -> get_shape (f_vars f) v = Some sf ->
  check_new a f v = Ok true ->
  get_slice (JoinNew jd jv) fill a v i = Ok (Some (f_part f v (whole f sf))).
Proof.
  intros E Hv Hs Ef Hf Hc. destruct (C28_new_positions jd jv first c0 others a E) as (F & J & P).
  unfold get_slice. rewrite Hs, J. assert (M : mem v jv = true) by (unfold mem; apply existsb_exists; exists v; split; [ exact Hv | apply String.eqb_refl ]).
  rewrite M, P. assert (L : i < length (first :: map fst others)) by (apply nth_error_Some; rewrite Ef; discriminate).
  apply Nat.ltb_lt in L. rewrite L, F, Ef, Hc. cbn [obind]. now rewrite Hf.
Qed.
Theorem C28_new_outside jd jv first c0 others a fill v s u : aggregate (JoinNew jd jv) (first, c0) others = Ok a ->
  In v jv -> get_shape (a_vars a) v = Some s -> length (first :: map fst others) <= u -> get_slice (JoinNew jd jv) fill a v u = Ok None.
Proof.
  intros E Hv Hs L. destruct (C28_new_positions jd jv first c0 others a E) as (F & J & P).
  unfold get_slice. rewrite Hs, J. assert (M : mem v jv = true) by (unfold mem; apply existsb_exists; exists v; split; [ exact Hv | apply String.eqb_refl ]).
  rewrite M, P. apply Nat.ltb_ge in L. now rewrite L.
Qed.

(** ** union *)
(** every variable comes from the first file that has it, with that file's data *)
Theorem C28_union first c0 others : compatible (first :: map fst others) ->
  exists a, aggregate Union (first, c0) others = Ok a /\
    (forall v, match sfind v (a_union a) with
       | Some i => (exists f, nth_error (first :: map fst others) i = Some f /\ has_var (f_vars f) v = true /\
                      forall fill u, get_slice Union fill a v u = Ok (Some (f_get f v u)) /\
                      forall p, get_part Union fill a v p = Ok (Some (f_part f v p))) /\
                   forall j f, j < i -> nth_error (first :: map fst others) j = Some f -> has_var (f_vars f) v = false
       | None => (forall f, In f (first :: map fst others) -> has_var (f_vars f) v = false) /\
                 forall fill u, get_slice Union fill a v u = Throw
       end).
Proof.
  intro C. unfold aggregate. cbn [fst snd]. unfold add_first. cbn [obind a_vars a_join with_union].
  set (a0 := with_union _ _).
  assert (S0 : forall v, sfind v (a_union a0) = if has_var (f_vars first) v then Some 0 else None) by (intro v; cbn [a0 with_union a_union a_join a_vars]; rewrite init_union; destruct (has_var (f_vars first) v); reflexivity).
  destruct (union_files_ok (first :: map fst others) C others a0) as (a & E & (D & J & V) & F & Fw).
  { intros fc I. right. now apply in_map. }
  { split; [ | split ].
    - split; [ intros n d H; exists first; split; [ now left | exact H ] | intros d H; exists first; split; [ now left | exact H ] ].
    - reflexivity.
    - intro v. unfold smem. rewrite S0. cbn. destruct (has_var (f_vars first) v); reflexivity. }
  exists a. split; [ exact E | ]. intro v.
  assert (W : sfind v (a_union a) = first_with v (first :: map fst others) 0).
  { rewrite Fw, S0. cbn [first_with a0 with_union a_files length]. destruct (has_var (f_vars first) v); reflexivity. }
  assert (W' := W). assert (Fs : a_files a = first :: map fst others) by exact F.
  assert (Sp := first_with_spec v (first :: map fst others) 0).
  rewrite W. destruct (first_with v (first :: map fst others) 0) as [ i | ].
  - destruct Sp as (_ & (f & Ef & Hf) & R). rewrite Nat.sub_0_r in Ef, R.
    split; [ | intros j g Hj Ej; apply (R j g Hj Ej) ].
    exists f. split; [ exact Ef | ]. split; [ exact Hf | ].
    assert (H := V v). unfold smem in H. rewrite W' in H. unfold has_var in H. 
    intros fill u. unfold get_slice, get_part. destruct (get_shape (a_vars a) v) as [ s | ]; [ | discriminate ].
    rewrite J. cbn [mem existsb]. rewrite W', Fs, Ef. split; reflexivity.
  - split; [ exact Sp | ]. intros fill u. assert (H := V v). unfold smem in H. rewrite W' in H. unfold has_var in H. unfold get_slice.
    destruct (get_shape (a_vars a) v); [ discriminate | reflexivity ].
Qed.

(** ** findings *)
Definition mkfile ds vs : file := {| f_dims := ds; f_vars := vs; f_get := fun _ u => [Z.of_nat u]; f_part := fun _ p => [0%Z] |}.
Definition dm n l u := {| d_name := n; d_len := l; d_unlim := u |}.
Local Open Scope string_scope.

(** a join along a new dimension: a record of a file without the variable is larger than the record by
    the number of files *)
Theorem C28_new_fill_refuted : exists first other a fill,
  aggregate (JoinNew "t" ["v"]) (first, None) [(other, None)] = Ok a /\
  get_shape (a_vars a) "v" = Some ["x"; "t"] /\ get_dim (a_dims a) "x" = Some (dm "x" 3 false) /\
  get_slice (JoinNew "t" ["v"]) fill a "v" 1 = Ok (Some (repeat fill (3 * 2))).
Proof.
  exists (mkfile [dm "x" 3 false] [("v", ["x"])]), (mkfile [] []). eexists. exists 9%Z.
  split; [ vm_compute; reflexivity | ]. repeat split; vm_compute; reflexivity.
Qed.
(** a joined variable first met in a later file: its dimensions are missing in the aggregate *)
Theorem C28_new_dimension_refuted : exists first other a,
  aggregate (JoinNew "t" ["v"]) (first, None) [(other, None)] = Ok a /\
  get_shape (a_vars a) "v" = Some ["x"; "t"] /\ get_dim (a_dims a) "x" = None /\
  forall fill, get_slice (JoinNew "t" ["v"]) fill a "v" 1 = Throw.
Proof.
  exists (mkfile [] []), (mkfile [dm "x" 3 false] [("v", ["x"])]). eexists.
  split; [ vm_compute; reflexivity | ]. repeat split; vm_compute; reflexivity.
Qed.
(** coordinate values for some of the files only: fewer coordinate values than records *)
Theorem C28_coordinates_refuted : exists first other a,
  aggregate JoinExisting (first, Some ["0"; "6"]) [(other, None)] = Ok a /\
  get_dim (a_dims a) "t" = Some (dm "t" 5 true) /\ length (a_coords a) = 2.
Proof.
  exists (mkfile [dm "t" 2 true] [("t", ["t"])]), (mkfile [dm "t" 3 true] [("t", ["t"])]). eexists.
  split; [ vm_compute; reflexivity | ]. split; vm_compute; reflexivity.
Qed.

Example C28_nonvacuous :
  let f n := mkfile [dm "x" 2 false; dm "t" n true] [("v", ["x"; "t"]); ("t", ["t"])] in
  let g := mkfile [dm "t" 2 true] [("t", ["t"])] in
  exists a, aggregate JoinExisting (f 2, None) [(f 0, None); (f 3, None); (g, None)] = Ok a /\
    a_pos a = [2; 2; 5; 7] /\ fits "t" (f 2) (f 3) "v" ["x"; "t"] /\
    get_slice JoinExisting 9 a "v" 3 = Ok (Some [1%Z]) /\ get_slice JoinExisting 9 a "v" 5 = Ok (Some [9%Z; 9%Z]) /\
    get_slice JoinExisting 9 a "v" 7 = Ok None /\ get_slice JoinExisting 9 a "t" 6 = Ok (Some [1%Z]).
Proof.
  cbv zeta. eexists. split; [ vm_compute; reflexivity | ]. repeat split; try (vm_compute; reflexivity).
  cbn. intros n [ <- | [ <- | [] ] ] H; [ | congruence ]. exists 2. split; reflexivity.
Qed.
Example C28_union_nonvacuous :
  compatible [mkfile [dm "x" 2 false] [("v", ["x"])]; mkfile [dm "x" 2 false; dm "t" 1 true] [("v", ["x"; "t"]); ("w", ["x"; "t"])]].
Proof.
  split; [ | split ].
  - intros f g n d e [ <- | [ <- | [] ] ] [ <- | [ <- | [] ] ]; cbn; unfold get_dim; cbn;
      repeat (destruct (String.eqb n _); [ intros [= <-] [= <-]; auto | ]); discriminate.
  - intros f g d e [ <- | [ <- | [] ] ] [ <- | [ <- | [] ] ]; cbn; intuition (subst; cbn in *; congruence).
  - intros f v n [ <- | [ <- | [] ] ]; cbn; intuition (subst; cbn in *; intuition (subst; discriminate)).
Qed.

(** a variable with another length than the aggregation in some dimension is not joined *)
Lemma join_dims_false f uname l : forall ds r, ofold (join_dims f uname) l (ds, false) = Ok r -> snd r = false.
Proof.
  induction l as [ | n l IH ]; intros ds r H; cbn [ofold] in H; [ now injection H as <- | ].
  destruct (join_dims f uname (ds, false) n) as [ (ds1, ok1) | | | ] eqn:E; try discriminate. cbn [obind] in H.
  assert (ok1 = false); [ | subst; now apply IH in H ].
  unfold join_dims in E. destruct (String.eqb n uname); [ now injection E as _ <- | ]. destruct (get_dim (f_dims f) n); [ | discriminate ].
  destruct (get_dim ds n); [ now injection E as _ <- | ]. destruct (add_dim ds d); cbn [obind] in E; try discriminate. now injection E as _ <-.
Qed.
Lemma join_dims_differ f uname n ad rd : n <> uname -> get_dim (f_dims f) n = Some rd -> d_len ad <> d_len rd -> forall l ds ok r,
  In n l -> get_dim ds n = Some ad -> ofold (join_dims f uname) l (ds, ok) = Ok r -> snd r = false.
Proof.
  intros Nu Er Ne. induction l as [ | m l IH ]; intros ds ok r I G H; [ destruct I | ]. cbn [ofold] in H.
  destruct (join_dims f uname (ds, ok) m) as [ (ds1, ok1) | | | ] eqn:E; try discriminate. cbn [obind] in H.
  unfold join_dims in E. destruct I as [ <- | I ].
  - apply String.eqb_neq in Nu. rewrite Nu, Er, G in E. injection E as <- <-. apply Nat.eqb_neq in Ne. rewrite Ne, andb_false_r in H.
    now apply join_dims_false in H.
  - apply (IH ds1 ok1 r I); [ | exact H ]. destruct (String.eqb m uname); [ now injection E as <- _ | ].
    destruct (get_dim (f_dims f) m) as [ d | ]; [ | discriminate ]. destruct (get_dim ds m); [ now injection E as <- _ | ].
    destruct (add_dim ds d) as [ ds' | | | ] eqn:A; cbn [obind] in E; try discriminate. injection E as <- _.
    apply add_dim_ok in A. destruct A as (-> & _). rewrite get_dim_app, G. reflexivity.
Qed.
Theorem C28_join_other_length : forall f uname a v n ad rd a',
  In n (snd v) -> n <> uname -> get_dim (a_dims a) n = Some ad -> get_dim (f_dims f) n = Some rd -> d_len ad <> d_len rd ->
  join_var f uname a v = Ok a' -> a_vars a' = a_vars a /\ a_join a' = a_join a.
Proof.
  intros f uname a v n ad rd a' I Nu Ga Gr Ne H. unfold join_var in H.
  destruct (has_var (a_vars a) (fst v)); [ injection H as <-; auto | ]. destruct (has_unlim (f_dims f) (snd v)); [ | injection H as <-; auto ].
  destruct (ofold (join_dims f uname) (snd v) (a_dims a, true)) as [ (ds, ok) | | | ] eqn:E; cbn [obind] in H; try discriminate.
  apply (join_dims_differ f uname n ad rd Nu Gr Ne _ _ _ _ I Ga) in E. cbn [snd] in E. subst ok. injection H as <-. now destruct a.
Qed.
Example C28_join_other_length_nonvacuous :
  let f n := mkfile [dm "x" n false; dm "t" 2 true] [("t", ["t"])] in
  let g := mkfile [dm "x" 3 false; dm "t" 2 true] [("t", ["t"]); ("w", ["x"; "t"])] in
  (exists a, aggregate JoinExisting (f 3, None) [(g, None)] = Ok a /\ a_join a = ["t"; "w"]) /\
  (exists a, aggregate JoinExisting (f 2, None) [(g, None)] = Ok a /\ a_join a = ["t"] /\ has_var (a_vars a) "w" = false).
Proof. cbv zeta. split; eexists; (split; [ vm_compute; reflexivity | ]); [ | split ]; reflexivity. Qed.
Print Assumptions C28_positions.
Print Assumptions C28_unique_record.
Print Assumptions C28_record.
Print Assumptions C28_outside.
Print Assumptions C28_fill.
Print Assumptions C28_parts.
Print Assumptions C28_coordinates.
Print Assumptions C28_new_positions.
Print Assumptions C28_new_record.
Print Assumptions C28_new_outside.
Print Assumptions C28_union.
Print Assumptions C28_new_fill_refuted.
Print Assumptions C28_new_dimension_refuted.
Print Assumptions C28_coordinates_refuted.
Print Assumptions C28_join_other_length.
