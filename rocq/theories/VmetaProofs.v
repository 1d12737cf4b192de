(** Lemmas about the metadata of vertical interpolation. *)
From Coq Require Import NArith ZArith Ascii String List Bool Lia Arith.
From Verif Require Import Base StdMap RegridModel TextModel ConvertModel CdmModel CdmProofs FilesModel VmetaModel.
Import ListNotations.
Local Open Scope string_scope.
Local Open Scope list_scope.
Local Open Scope nat_scope.

(** ** removing a word *)
Definition all_word (l : list ascii) : Prop := forallb is_word l = true.
Definition no_word (l : list ascii) : Prop := existsb is_word l = false.

Lemma strip_spec : forall n t r, strip n t = Some r <-> t = n ++ r.
Proof.
  induction n as [ | a n IH ]; intros t r; cbn.
  - split; [ intros [= ->]; reflexivity | intros ->; reflexivity ].
  - destruct t as [ | b t ]; [ split; discriminate | ]. destruct (Ascii.eqb_spec a b) as [ -> | N ].
    + rewrite IH. split; [ intros -> | intros [= ->] ]; reflexivity.
    + split; [ discriminate | intros [= -> _]; congruence ].
Qed.

Lemma last_opt_app : forall l o c, last_opt o (l ++ [c]) = Some c.
Proof. intros. unfold last_opt. now rewrite fold_left_app. Qed.
Lemma last_opt_word : forall l o, all_word l -> l <> [] -> word_opt (last_opt o l) = true.
Proof.
  intros l o A N. destruct (exists_last N) as (l' & c & ->). rewrite last_opt_app. cbn.
  unfold all_word in A. rewrite forallb_app in A. apply andb_true_iff in A. destruct A as [_ A]. cbn in A. now rewrite andb_true_r in A.
Qed.
Lemma last_opt_nonword : forall l o, no_word l -> word_opt o = false -> word_opt (last_opt o l) = false.
Proof.
  induction l as [ | c l IH ]; intros o N O; [ exact O | ]. cbn. apply IH; unfold no_word in *; cbn in N; apply orb_false_iff in N; [ apply N | cbn; apply N ].
Qed.

Section Drop.
  Variable name : list ascii.
  Hypothesis NW : all_word name.
  Hypothesis NE : name <> [].

  Lemma name_head : word_opt (head_opt name) = true.
  Proof.
    destruct name as [ | c n ] eqn:E; [ congruence | ]. unfold all_word in NW. cbn in *. now apply andb_true_iff in NW.
  Qed.

  (** inside a word nothing matches; characters outside words never start a match *)
  Lemma here_in_word : forall prev t, word_opt prev = true -> word_here name prev t = false.
  Proof.
    intros prev t P. unfold word_here. destruct (strip name t) as [ r | ] eqn:S; [ | reflexivity ].
    apply strip_spec in S. subst t. unfold at_boundary. rewrite P.
    replace (word_opt (head_opt (name ++ r))) with true; [ reflexivity | ].
    assert (H := name_head). now destruct name.
  Qed.
  Lemma here_nonword : forall prev c t, is_word c = false -> word_here name prev (c :: t) = false.
  Proof.
    intros prev c t W. unfold word_here. destruct (strip name (c :: t)) as [ r | ] eqn:S; [ | reflexivity ].
    apply strip_spec in S. assert (H := name_head). destruct name as [ | a n ]; [ congruence | ].
    injection S as -> _. cbn in H. congruence.
  Qed.
  Lemma drop_inside : forall w prev t, all_word w -> word_opt prev = true ->
    drop_word name prev 0 (w ++ t) = w ++ drop_word name (last_opt prev w) 0 t.
  Proof.
    induction w as [ | c w IH ]; intros prev t A P; [ reflexivity | ].
    unfold all_word in A. cbn in A. apply andb_true_iff in A. destruct A as [A1 A2].
    cbn [app drop_word]. rewrite (here_in_word prev _ P). cbn [andb]. f_equal. apply IH; assumption.
  Qed.
  Lemma drop_outside : forall s prev t, no_word s ->
    drop_word name prev 0 (s ++ t) = s ++ drop_word name (last_opt prev s) 0 t.
  Proof.
    induction s as [ | c s IH ]; intros prev t A; [ reflexivity | ].
    unfold no_word in A. cbn in A. apply orb_false_iff in A. destruct A as [A1 A2].
    cbn [app drop_word]. rewrite (here_nonword prev c _ A1). cbn [andb]. f_equal. now apply IH.
  Qed.
  Lemma drop_skip : forall w prev t, drop_word name prev (List.length w) (w ++ t) = drop_word name (last_opt prev w) 0 t.
  Proof.
    induction w as [ | c w IH ]; intros prev t; [ reflexivity | ]. cbn [List.length app drop_word]. apply IH.
  Qed.
  (** a whole word goes if it is the name and stays otherwise *)
  Lemma strip_word : forall w t r, all_word w -> word_opt (head_opt t) = false -> strip name (w ++ t) = Some r ->
    word_opt (head_opt r) = false -> w = name.
  Proof.
    intros w t r W T S R. apply strip_spec in S. revert W T R S. revert w. revert NW. clear NE.
    generalize name as n. intro n. induction n as [ | a n IH ]; intros NN w W T R S.
    - destruct w as [ | c w ]; [ reflexivity | ]. cbn in S. subst r. cbn in R. unfold all_word in W. cbn in W.
      apply andb_true_iff in W. destruct W. congruence.
    - unfold all_word in NN. cbn in NN. apply andb_true_iff in NN. destruct NN as [N1 N2].
      destruct w as [ | c w ].
      + cbn in S. subst t. cbn in T. congruence.
      + injection S as -> S. f_equal. unfold all_word in W. cbn in W. apply andb_true_iff in W. destruct W as [W1 W2]. now apply IH.
  Qed.
  Lemma drop_whole : forall w prev t, all_word w -> w <> [] -> word_opt prev = false -> word_opt (head_opt t) = false ->
    drop_word name prev 0 (w ++ t) =
    (if list_eq_dec ascii_dec w name then [] else w) ++ drop_word name (last_opt prev w) 0 t.
  Proof.
    intros w prev t W E P T. destruct (list_eq_dec ascii_dec w name) as [ -> | D ].
    - assert (H : word_here name prev (name ++ t) = true).
      { unfold word_here. assert (S : strip name (name ++ t) = Some t) by now apply strip_spec. rewrite S.
        unfold at_boundary. rewrite P, (last_opt_word name prev NW NE), T.
        replace (head_opt (name ++ t)) with (head_opt name) by now destruct name. now rewrite name_head. }
      assert (X : exists c n, name = c :: n) by (destruct name as [ | c n ]; [ congruence | now exists c, n ]).
      destruct X as (c & n & X).
      assert (U : forall k, drop_word k prev 0 (c :: n ++ t) =
        if word_here k prev (c :: n ++ t) && negb (Nat.eqb (List.length k) 0)
        then drop_word k (Some c) (List.length k - 1) (n ++ t) else c :: drop_word k (Some c) 0 (n ++ t)) by reflexivity.
      transitivity (drop_word name prev 0 (c :: n ++ t)); [ now rewrite X at 2 | ].
      rewrite U. change (c :: n ++ t) with ((c :: n) ++ t). rewrite <- X, H. rewrite X at 1. cbn [List.length Nat.eqb negb andb].
      replace (List.length name - 1) with (List.length n) by (rewrite X; cbn; lia).
      rewrite drop_skip. rewrite X at 3. reflexivity.
    - destruct w as [ | c w ]; [ congruence | ].
      assert (H : word_here name prev ((c :: w) ++ t) = false).
      { unfold word_here. destruct (strip name ((c :: w) ++ t)) as [ r | ] eqn:S; [ | reflexivity ].
        destruct (word_opt (head_opt r)) eqn:R.
        - unfold at_boundary at 2. rewrite (last_opt_word name prev NW NE), R. apply andb_false_r.
        - exfalso. apply D. now apply (strip_word (c :: w) t r). }
      cbn [app drop_word]. change (c :: w ++ t) with ((c :: w) ++ t). rewrite H. cbn [andb].
      unfold all_word in W. cbn in W. apply andb_true_iff in W. destruct W as [W1 W2].
      rewrite (drop_inside w (Some c) t W2 W1). reflexivity.
  Qed.
End Drop.

(** ** one variable *)
Lemma find_var_set_shape : forall n s m l, find_var m (set_shape n s l) =
  if String.eqb m n then match find_var n l with None => None | Some v => Some (mkVar (v_name v) (v_type v) s (v_counterpart v) (v_data v)) end
  else find_var m l.
Proof.
  intros n s m l. induction l as [ | v l IH ]; cbn; [ now destruct (String.eqb m n) | ].
  destruct (String.eqb_spec n (v_name v)) as [ -> | N ]; cbn.
  - now destruct (String.eqb m (v_name v)).
  - destruct (String.eqb_spec m (v_name v)) as [ -> | M ].
    + destruct (String.eqb_spec (v_name v) n); [ congruence | reflexivity ].
    + exact IH.
Qed.
Lemma vnames_set_shape : forall n s l, map v_name (set_shape n s l) = map v_name l.
Proof. intros n s l. induction l as [ | v l IH ]; cbn; [ reflexivity | ]. destruct (String.eqb n (v_name v)); cbn; now rewrite ?IH. Qed.

Lemma replace_first_some : forall o n s, In o s -> exists s', replace_first o n s = Some s'.
Proof.
  intros o n s. induction s as [ | d s IH ]; intro I; [ destruct I | ]. cbn.
  destruct (String.eqb_spec d o) as [ -> | N ]; [ eauto | ].
  destruct I as [ E | I ]; [ congruence | ]. destruct (IH I) as [s' ->]. eauto.
Qed.
Lemma replace_first_spec : forall o n s s', replace_first o n s = Some s' ->
  exists a b, s = a ++ o :: b /\ ~ In o a /\ s' = a ++ n :: b.
Proof.
  intros o n s. induction s as [ | d s IH ]; intros s' H; [ discriminate | ]. cbn in H.
  destruct (String.eqb_spec d o) as [ -> | N ].
  - injection H as <-. exists [], s. now repeat split.
  - destruct (replace_first o n s) as [ s1 | ]; [ | discriminate ]. injection H as <-.
    destruct (IH s1 eq_refl) as (a & b & -> & A & ->). exists (d :: a), b. repeat split.
    intros [ E | I ]; [ congruence | now apply A ].
Qed.
Lemma replace_first_none : forall o n s, replace_first o n s = None <-> ~ In o s.
Proof.
  intros o n s. split.
  - intros H I. destruct (replace_first_some o n s I) as [s' E]. congruence.
  - intro H. destruct (replace_first o n s) as [ s' | ] eqn:E; [ | reflexivity ].
    apply replace_first_spec in E. destruct E as (a & b & -> & _). exfalso. apply H. apply in_or_app. right. now left.
Qed.

(** the attributes of a variable after the name [z] was removed from its coordinates *)
Definition coords_without (z : string) (l : list cattr) : list cattr :=
  match find_attr "coordinates" l with
  | None => l
  | Some a => filter (fun x => negb (String.eqb "coordinates" (a_name x))) l ++ [sattr "coordinates" (without_word z (a_text a))]
  end.
(** the variable with [old] replaced by [new] in its shape *)
Definition reshaped (old new : string) (v : cvar) : cvar :=
  match replace_first old new (v_shape v) with
  | None => v
  | Some s => mkVar (v_name v) (v_type v) s (v_counterpart v) (v_data v)
  end.

Lemma get_attr_of : forall c n a, get_attr c n a = find_attr a (attrs_of c n).
Proof. intros. unfold get_attr, attrs_of. now destruct (sfind n (attrs c)). Qed.

Lemma consistent_set_shape : forall c n s, consistent c -> consistent (mkCdm (set_shape n s (vars c)) (dims c) (attrs c)).
Proof.
  intros c n s C. destruct C as [A B E D F]. constructor; unfold vnames, dnames, attrs_of in *; cbn [vars dims attrs] in *;
    rewrite ?vnames_set_shape; assumption.
Qed.

Lemma replace_z_spec : forall c cs n new z z0 v,
  consistent c -> c_z cs = Some z -> z_shape z = [z0] -> c_for cs n = true ->
  find_var n (vars c) = Some v -> In z0 (v_shape v) ->
  exists c', replace_z c cs n new = Ok c' /\ consistent c' /\ dims c' = dims c /\ vnames c' = vnames c /\
    (forall m, find_var m (vars c') = if String.eqb m n then Some (reshaped z0 new v) else find_var m (vars c)) /\
    forall m, attrs_of c' m = if String.eqb m n then coords_without (z_name z) (attrs_of c n) else attrs_of c m.
Proof.
  intros c cs n new z z0 v C Z S F V I. unfold replace_z. rewrite F, Z, S, V. cbn [negb].
  destruct (replace_first_some z0 new _ I) as [s R]. rewrite R. cbv zeta.
  set (c1 := mkCdm (set_shape n s (vars c)) (dims c) (attrs c)).
  assert (C1 : consistent c1) by now apply consistent_set_shape.
  assert (N1 : vnames c1 = vnames c) by apply vnames_set_shape.
  assert (V1 : forall m, find_var m (vars c1) = if String.eqb m n then Some (reshaped z0 new v) else find_var m (vars c)).
  { intro m. unfold c1. cbn [vars]. rewrite find_var_set_shape. destruct (String.eqb m n); [ | reflexivity ].
    rewrite V. unfold reshaped. now rewrite R. }
  assert (A1 : forall m, attrs_of c1 m = attrs_of c m) by reflexivity.
  rewrite get_attr_of, A1. unfold coords_without. destruct (find_attr "coordinates" (attrs_of c n)) as [ a | ] eqn:G.
  - assert (IN : In n (vnames c1)).
    { rewrite N1. apply has_var_in. unfold has_var. now rewrite V. }
    set (c2 := remove_attr c1 n "coordinates").
    assert (VD : vars c2 = vars c1 /\ dims c2 = dims c1) by (unfold c2, remove_attr; now destruct (sfind n (attrs c1))).
    destruct VD as [V2 D2].
    assert (N2 : vnames c2 = vnames c1) by (unfold vnames; now rewrite V2).
    assert (A2 : forall m, attrs_of c2 m = if String.eqb m n then filter (fun x => negb (String.eqb "coordinates" (a_name x))) (attrs_of c n)
                                            else attrs_of c m) by (intro m; exact (attrs_of_remove_attr c1 n "coordinates" m)).
    assert (AD : add_attr c2 n (sattr "coordinates" (without_word (z_name z) (a_text a))) =
                 Some (mkCdm (vars c2) (dims c2) (sput n (attrs_of c2 n ++ [sattr "coordinates" (without_word (z_name z) (a_text a))]) (attrs c2)))).
    { apply add_attr_ok; [ right; now rewrite N2 | ]. rewrite A2, String.eqb_refl. cbn [a_name sattr].
      rewrite (names_filter a_name), filter_In, String.eqb_refl. intros [_ X]. discriminate. }
    rewrite AD. eexists. split; [ reflexivity | ]. split.
    { apply (consistent_add_attr c2 n (sattr "coordinates" (without_word (z_name z) (a_text a)))); [ now apply consistent_remove_attr | exact AD ]. }
    cbn [vars dims]. split; [ now rewrite D2 | ]. split; [ unfold vnames at 1; cbn [vars]; rewrite V2; exact N1 | ].
    split; [ intro m; rewrite V2; apply V1 | ].
    intro m. rewrite attrs_of_put. rewrite !A2. rewrite String.eqb_refl. destruct (String.eqb m n); reflexivity.
  - exists c1. split; [ reflexivity | ]. split; [ exact C1 | ]. split; [ reflexivity | ]. split; [ exact N1 | ].
    split; [ exact V1 | ]. intro m. rewrite A1. destruct (String.eqb_spec m n) as [ -> | ]; reflexivity.
Qed.

(** ** all variables of a coordinate system *)
Lemma replace_all : forall names c cs new z z0,
  NoDup names -> consistent c -> c_z cs = Some z -> z_shape z = [z0] ->
  (forall n, In n names -> c_for cs n = true -> exists v, find_var n (vars c) = Some v /\ In z0 (v_shape v)) ->
  exists c', ofold (fun c n => replace_z c cs n new) names c = Ok c' /\ consistent c' /\ dims c' = dims c /\ vnames c' = vnames c /\
    (forall m, find_var m (vars c') = if existsb (String.eqb m) names && c_for cs m
       then option_map (reshaped z0 new) (find_var m (vars c)) else find_var m (vars c)) /\
    forall m, attrs_of c' m = if existsb (String.eqb m) names && c_for cs m
       then coords_without (z_name z) (attrs_of c m) else attrs_of c m.
Proof.
  induction names as [ | n names IH ]; intros c cs new z z0 ND C Z S H.
  - exists c. split; [ reflexivity | ]. split; [ exact C | ]. repeat split.
  - inversion ND as [ | ? ? ND1 ND2 ]; subst.
    assert (EX : existsb (String.eqb n) names = false).
    { destruct (existsb (String.eqb n) names) eqn:E; [ | reflexivity ]. apply existsb_exists in E. destruct E as (x & X & E).
      apply String.eqb_eq in E. subst x. now elim ND1. }
    cbn [ofold existsb]. destruct (c_for cs n) eqn:F.
    + destruct (H n (or_introl eq_refl) F) as (v & V & I).
      destruct (replace_z_spec c cs n new z z0 v C Z S F V I) as (c1 & E & C1 & D1 & N1 & V1 & A1).
      rewrite E. cbn [obind].
      destruct (IH c1 cs new z z0 ND2 C1 Z S) as (c2 & E2 & C2 & D2 & N2 & V2 & A2).
      { intros m M Fm. rewrite V1. destruct (String.eqb_spec m n) as [ -> | X ]; [ contradiction | ]. apply H; [ now right | exact Fm ]. }
      exists c2. split; [ exact E2 | ]. split; [ exact C2 | ]. split; [ congruence | ]. split; [ congruence | ]. split.
      * intro m. rewrite V2, !V1. destruct (String.eqb_spec m n) as [ -> | X ]; cbn [orb]; [ | reflexivity ].
        rewrite EX, F, V. reflexivity.
      * intro m. rewrite A2, !A1. destruct (String.eqb_spec m n) as [ -> | X ]; cbn [orb]; [ | reflexivity ].
        now rewrite EX, F.
    + assert (E : replace_z c cs n new = Ok c) by (unfold replace_z; now rewrite F).
      rewrite E. cbn [obind].
      destruct (IH c cs new z z0 ND2 C Z S) as (c2 & E2 & C2 & D2 & N2 & V2 & A2).
      { intros m M Fm. apply H; [ now right | exact Fm ]. }
      exists c2. split; [ exact E2 | ]. split; [ exact C2 | ]. split; [ exact D2 | ]. split; [ exact N2 | ]. split.
      * intro m. rewrite V2. destruct (String.eqb_spec m n) as [ -> | X ]; cbn [orb]; [ | reflexivity ]. now rewrite EX, F.
      * intro m. rewrite A2. destruct (String.eqb_spec m n) as [ -> | X ]; cbn [orb]; [ | reflexivity ]. now rewrite EX, F.
Qed.

(** ** all coordinate systems *)
Lemma simple_shape : forall c cs, simple_z c cs = true -> exists z z0, c_z cs = Some z /\ z_shape z = [z0].
Proof.
  intros c cs H. unfold simple_z in H. destruct (c_z cs) as [ z | ]; [ | discriminate ].
  apply andb_true_iff in H. destruct H as [_ H]. destruct (z_shape z) as [ | z0 [ | ] ] eqn:E; try discriminate.
  exists z, z0. now split.
Qed.
Lemma simple_dims : forall c c' cs, dims c = dims c' -> simple_z c cs = simple_z c' cs.
Proof. intros c c' cs E. unfold simple_z. now rewrite E. Qed.

(** the variable is reshaped by the first chosen coordinate system complete for it *)
Definition chosen_for (pick : csys -> bool) (css : list csys) (n : string) : option csys :=
  find (fun cs => pick cs && c_for cs n) css.
(** the vertical axes of the chosen coordinate systems *)
Definition old_axis (pick : csys -> bool) (css : list csys) (n : string) : bool :=
  existsb (fun cs => pick cs && match c_z cs with Some z => String.eqb n (z_name z) | None => false end) css.
Definition zdim (cs : csys) : string := match c_z cs with Some z => hd "" (z_shape z) | None => "" end.
Definition zname (cs : csys) : string := match c_z cs with Some z => z_name z | None => "" end.

Lemma change_all_spec : forall rm skip names new css c done pick,
  NoDup names -> consistent c ->
  (forall cs, pick cs = negb (skip cs) && simple_z c cs) ->
  (* no variable is complete in two chosen coordinate systems *)
  (forall n, In n names -> List.length (filter (fun cs => pick cs && c_for cs n) css) <= 1) ->
  (forall cs n, In cs css -> pick cs = true -> In n names -> c_for cs n = true ->
     (exists v, find_var n (vars c) = Some v /\ In (zdim cs) (v_shape v)) /\ (rm = true -> old_axis pick css n = false)) ->
  exists c', change_all rm skip names new css (c, done) = Ok (c', done ++ filter pick css) /\
    consistent c' /\ dims c' = dims c /\
    (forall n, In n names ->
      find_var n (vars c') = (if rm && old_axis pick css n then None else
        match chosen_for pick css n with
        | Some cs => option_map (reshaped (zdim cs) new) (find_var n (vars c))
        | None => find_var n (vars c)
        end) /\
      attrs_of c' n = (if rm && old_axis pick css n then [] else
        match chosen_for pick css n with
        | Some cs => coords_without (zname cs) (attrs_of c n)
        | None => attrs_of c n
        end)) /\
    (forall n, ~ In n names ->
      find_var n (vars c') = (if rm && old_axis pick css n then None else find_var n (vars c)) /\
      attrs_of c' n = (if rm && old_axis pick css n then [] else attrs_of c n)).
Proof.
  intros rm skip names new css. unfold change_all. induction css as [ | cs css IH ]; intros c done pick ND C P U H.
  - exists c. cbn. rewrite app_nil_r, andb_false_r. split; [ reflexivity | ]. split; [ exact C | ]. repeat split.
  - cbn [ofold]. cbn [fst snd]. rewrite <- P. destruct (pick cs) eqn:K.
    + assert (SZ : simple_z c cs = true) by (rewrite P in K; now apply andb_true_iff in K).
      destruct (simple_shape c cs SZ) as (z & z0 & Z & S).
      assert (ZD : zdim cs = z0) by (unfold zdim; now rewrite Z, S).
      assert (ZN : zname cs = z_name z) by (unfold zname; now rewrite Z).
      destruct (replace_all names c cs new z z0 ND C Z S) as (c1 & E1 & C1 & D1 & N1 & V1 & A1).
      { intros n I F. destruct (H cs n (or_introl eq_refl) K I F) as [X _]. now rewrite ZD in X. }
      assert (ONE : change_one rm names new c cs = Ok (if rm then remove_var c1 (z_name z) else c1))
        by (unfold change_one; rewrite E1; cbn [obind]; now rewrite Z).
      rewrite ONE. cbn [obind].
      set (c2 := if rm then remove_var c1 (z_name z) else c1).
      assert (C2 : consistent c2) by (unfold c2; destruct rm; [ now apply consistent_removed | exact C1 ]).
      assert (D2 : dims c2 = dims c) by (unfold c2; destruct rm; exact D1).
      assert (V2 : forall n, find_var n (vars c2) = if rm && String.eqb n (z_name z) then None else find_var n (vars c1)).
      { intro n. unfold c2. destruct rm; cbn [andb]; [ apply find_var_removed | reflexivity ]. }
      assert (A2 : forall n, attrs_of c2 n = if rm && String.eqb n (z_name z) then [] else attrs_of c1 n).
      { intro n. unfold c2. destruct rm; cbn [andb]; [ apply attrs_of_removed | reflexivity ]. }
      (* another chosen coordinate system complete for n excludes this one *)
      assert (OTHER : forall cs' n, In cs' css -> pick cs' = true -> In n names -> c_for cs' n = true -> c_for cs n = false).
      { intros cs' n I' K' In' F'. specialize (U n In'). cbn [filter] in U. destruct (c_for cs n) eqn:F; [ | reflexivity ].
        rewrite K in U. cbn [andb List.length] in U.
        assert (X : In cs' (filter (fun cs => pick cs && c_for cs n) css)) by (apply filter_In; rewrite K', F'; now split).
        destruct (filter (fun cs => pick cs && c_for cs n) css); [ destruct X | cbn in U; lia ]. }
      destruct (IH c2 (done ++ [cs]) pick ND C2) as (c3 & E3 & C3 & D3 & T3 & W3).
      * intro x. rewrite (simple_dims c2 c x D2). apply P.
      * intros n I. specialize (U n I). cbn [filter] in U. destruct (pick cs && c_for cs n); cbn in U; lia.
      * intros cs' n I' K' In' F'. destruct (H cs' n (or_intror I') K' In' F') as [(v & V & Sh) R].
        assert (F := OTHER cs' n I' K' In' F'). split.
        { exists v. split; [ | exact Sh ]. rewrite V2, V1, F, andb_false_r.
          destruct rm; cbn [andb]; [ | exact V ]. specialize (R eq_refl). cbn [old_axis existsb] in R.
          rewrite K, Z in R. cbn [andb] in R. apply orb_false_iff in R. destruct R as [R _]. rewrite R. exact V. }
        { intro X. specialize (R X). cbn [old_axis existsb] in R. apply orb_false_iff in R. apply R. }
      * exists c3. split; [ rewrite E3; cbn [filter]; rewrite K; now rewrite <- app_assoc | ].
        split; [ exact C3 | ]. split; [ congruence | ].
        assert (OA : forall n, old_axis pick (cs :: css) n = String.eqb n (z_name z) || old_axis pick css n).
        { intro n. unfold old_axis. cbn [existsb]. now rewrite K, Z. }
        split.
        { intros n I. destruct (T3 n I) as [Tv Ta]. rewrite Tv, Ta, V2, A2, V1, A1, OA.
          assert (EX : existsb (String.eqb n) names = true) by (apply existsb_exists; exists n; split; [ exact I | apply String.eqb_refl ]).
          rewrite EX. cbn [andb]. unfold chosen_for. cbn [find]. rewrite K. cbn [andb].
          destruct (c_for cs n) eqn:F.
          - (* this one: no other *)
            assert (G : find (fun cs => pick cs && c_for cs n) css = None).
            { destruct (find (fun cs => pick cs && c_for cs n) css) as [ cs' | ] eqn:G; [ | reflexivity ].
              apply find_some in G. destruct G as [I' G]. apply andb_true_iff in G. destruct G as [K' F'].
              rewrite (OTHER cs' n I' K' I F') in F. discriminate. }
            rewrite G, ZD, ZN. destruct rm; cbn [andb].
            + destruct (old_axis pick css n); [ rewrite orb_true_r | rewrite orb_false_r ]; split; try reflexivity.
            + split; reflexivity.
          - destruct rm; cbn [andb]; [ | split; reflexivity ].
            destruct (old_axis pick css n) eqn:O; [ rewrite orb_true_r; split; reflexivity | rewrite orb_false_r ].
            destruct (String.eqb n (z_name z)) eqn:Q; [ | split; reflexivity ].
            destruct (find (fun cs => pick cs && c_for cs n) css) as [ cs' | ] eqn:G; [ | split; reflexivity ].
            apply find_some in G. destruct G as [I' G]. apply andb_true_iff in G. destruct G as [K' F'].
            destruct (H cs' n (or_intror I') K' I F') as [_ R]. specialize (R eq_refl). rewrite OA, Q in R. discriminate. }
        { intros n I. destruct (W3 n I) as [Wv Wa]. rewrite Wv, Wa, V2, A2, V1, A1, OA.
          assert (EX : existsb (String.eqb n) names = false).
          { destruct (existsb (String.eqb n) names) eqn:E; [ | reflexivity ]. apply existsb_exists in E. destruct E as (x & X & E).
            apply String.eqb_eq in E. subst x. now elim I. }
          rewrite EX. cbn [andb]. destruct rm; cbn [andb]; [ | split; reflexivity ].
          destruct (String.eqb n (z_name z)), (old_axis pick css n); cbn [orb]; split; reflexivity. }
    + cbn [obind]. destruct (IH c done pick ND C P) as (c3 & E3 & C3 & D3 & T3 & W3).
      * intros n I. specialize (U n I). cbn [filter] in U. now rewrite K in U.
      * intros cs' n I' K' In' F'. destruct (H cs' n (or_intror I') K' In' F') as [X R]. split; [ exact X | ].
        intro Y. specialize (R Y). cbn [old_axis existsb] in R. now rewrite K in R.
      * assert (OA : forall n, old_axis pick (cs :: css) n = old_axis pick css n) by (intro n; unfold old_axis; cbn [existsb]; now rewrite K).
        assert (CF : forall n, chosen_for pick (cs :: css) n = chosen_for pick css n) by (intro n; unfold chosen_for; cbn [find]; now rewrite K).
        exists c3. cbn [filter]. rewrite K. split; [ exact E3 | ]. split; [ exact C3 | ]. split; [ exact D3 | ].
        split; intros n I; rewrite OA, ?CF; [ exact (T3 n I) | exact (W3 n I) ].
Qed.
