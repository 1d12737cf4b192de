(** Lemmas about the metadata model. *)
From Coq Require Import NArith ZArith Ascii String List Bool Lia.
From Verif Require Import Base StdMap RegridModel StringModel TextModel TextProofs ConvertModel CdmModel.
Import ListNotations.
Local Open Scope string_scope.
Local Open Scope list_scope.

Definition vnames (c : cdm) : list string := map v_name (vars c).
Definition dnames (c : cdm) : list string := map d_name (dims c).

(** names are unique, and attributes belong to a variable or to the global namespace *)
Record consistent (c : cdm) : Prop := mkConsistent {
  c_vars : NoDup (vnames c);
  c_dims : NoDup (dnames c);
  c_sorted : ssorted (attrs c);
  c_owner : forall n, In n (skeys (attrs c)) -> n = global_ns \/ In n (vnames c);
  c_attrs : forall n, NoDup (map a_name (attrs_of c n)) }.

(** ** find *)
Section Find.
  Context {A : Type} (name : A -> string).
  Local Notation fnd n l := (find (fun x => String.eqb n (name x)) l).

  Lemma fnd_in : forall n l, is_some (fnd n l) = true <-> In n (map name l).
  Proof.
    intros n l. induction l as [ | x l IH ]; cbn; [ split; [ discriminate | tauto ] | ].
    destruct (String.eqb_spec n (name x)) as [ -> | N ]; cbn; [ tauto | ].
    rewrite IH. split; [ tauto | ]. intros [ E | I ]; [ congruence | assumption ].
  Qed.
  Lemma fnd_none : forall n l, fnd n l = None <-> ~ In n (map name l).
  Proof.
    intros n l. rewrite <- fnd_in. destruct (fnd n l); cbn; split; intro H; try congruence; exfalso; now apply H.
  Qed.
  Lemma fnd_some : forall n l x, fnd n l = Some x -> In x l /\ name x = n.
  Proof. intros n l x E. apply find_some in E. destruct E as [I E]. apply String.eqb_eq in E. now split. Qed.
  Lemma fnd_unique : forall l x, NoDup (map name l) -> In x l -> fnd (name x) l = Some x.
  Proof.
    intros l x. induction l as [ | y l IH ]; cbn; [ tauto | ]. intros N [ -> | I ].
    - now rewrite String.eqb_refl.
    - inversion N as [ | ? ? N1 N2 ]; subst. destruct (String.eqb_spec (name x) (name y)) as [ E | E ].
      + exfalso. apply N1. rewrite <- E. now apply in_map.
      + now apply IH.
  Qed.
  Lemma fnd_app : forall n l1 l2, fnd n (l1 ++ l2) = match fnd n l1 with Some x => Some x | None => fnd n l2 end.
  Proof. intros n l1 l2. induction l1 as [ | x l1 IH ]; cbn; [ reflexivity | ]. now destruct (String.eqb n (name x)). Qed.
  Lemma fnd_filter : forall m n l,
    fnd m (filter (fun x => negb (String.eqb n (name x))) l) = if String.eqb m n then None else fnd m l.
  Proof.
    intros m n l. induction l as [ | x l IH ]; cbn; [ now destruct (String.eqb m n) | ].
    destruct (String.eqb_spec n (name x)) as [ -> | N ]; cbn.
    - rewrite IH. now destruct (String.eqb m (name x)).
    - destruct (String.eqb_spec m (name x)) as [ -> | M ].
      + destruct (String.eqb_spec (name x) n); [ congruence | reflexivity ].
      + exact IH.
  Qed.
  Lemma names_filter : forall n l, map name (filter (fun x => negb (String.eqb n (name x))) l) =
    filter (fun m => negb (String.eqb n m)) (map name l).
  Proof. intros n l. induction l as [ | x l IH ]; cbn; [ reflexivity | ]. destruct (String.eqb n (name x)); cbn; now rewrite IH. Qed.
  Lemma nodup_filter : forall n l, NoDup (map name l) -> NoDup (map name (filter (fun x => negb (String.eqb n (name x))) l)).
  Proof. intros n l H. rewrite names_filter. now apply NoDup_filter. Qed.
  Lemma filter_absent : forall n l, ~ In n (map name l) -> filter (fun x => negb (String.eqb n (name x))) l = l.
  Proof.
    intros n l. induction l as [ | x l IH ]; cbn; [ reflexivity | ]. intro H.
    destruct (String.eqb_spec n (name x)) as [ -> | N ]; [ tauto | ]. cbn. f_equal. apply IH. tauto.
  Qed.
  Lemma nodup_app : forall l x, NoDup (map name l) -> ~ In (name x) (map name l) -> NoDup (map name (l ++ [x])).
  Proof.
    intros l x N H. rewrite map_app. cbn. apply (NoDup_Add (a := name x) (l := map name l)).
    - rewrite <- (app_nil_r (map name l)) at 1. apply Add_app.
    - now split.
  Qed.
End Find.

Lemma has_var_in : forall c n, has_var c n = true <-> In n (vnames c).
Proof. intros. apply (fnd_in v_name). Qed.
Lemma has_dim_in : forall c n, has_dim c n = true <-> In n (dnames c).
Proof. intros. apply (fnd_in d_name). Qed.
Lemma has_var_false : forall c n, has_var c n = false <-> ~ In n (vnames c).
Proof. intros c n. rewrite <- has_var_in. destruct (has_var c n); split; congruence. Qed.
Lemma has_dim_false : forall c n, has_dim c n = false <-> ~ In n (dnames c).
Proof. intros c n. rewrite <- has_dim_in. destruct (has_dim c n); split; congruence. Qed.

(** ** removing a variable *)
Lemma find_var_removed : forall c n m, find_var m (vars (remove_var c n)) = if String.eqb m n then None else find_var m (vars c).
Proof. intros. apply (fnd_filter v_name). Qed.
Lemma attrs_of_removed : forall c n m, attrs_of (remove_var c n) m = if String.eqb m n then [] else attrs_of c m.
Proof. intros c n m. unfold attrs_of. cbn [remove_var attrs]. rewrite sfind_serase. now destruct (String.eqb m n). Qed.
Lemma skeys_serase : forall A k (m : smap A) k', In k' (skeys (serase k m)) <-> k' <> k /\ In k' (skeys m).
Proof.
  intros A k m k'. rewrite !sfind_In, sfind_serase. destruct (String.eqb_spec k' k) as [ -> | N ].
  - split; [ intros [v V]; discriminate | intros [X _]; congruence ].
  - tauto.
Qed.
Lemma vnames_removed : forall c n m, In m (vnames (remove_var c n)) <-> m <> n /\ In m (vnames c).
Proof.
  intros c n m. unfold vnames. cbn [remove_var vars]. rewrite names_filter, filter_In.
  destruct (String.eqb_spec n m) as [ -> | N ]; cbn; intuition congruence.
Qed.
Lemma consistent_removed : forall c n, consistent c -> consistent (remove_var c n).
Proof.
  intros c n [A B C D E]. constructor.
  - now apply nodup_filter.
  - exact B.
  - now apply serase_sorted.
  - intros m M. apply skeys_serase in M. destruct M as [M1 M2]. rewrite vnames_removed.
    destruct (D m M2); [ now left | right; now split ].
  - intro m. rewrite attrs_of_removed. destruct (String.eqb m n); [ constructor | apply E ].
Qed.

(** ** attributes *)
Lemma attrs_of_put : forall c n l m, attrs_of (mkCdm (vars c) (dims c) (sput n l (attrs c))) m = if String.eqb m n then l else attrs_of c m.
Proof. intros c n l m. unfold attrs_of. cbn [attrs]. rewrite sfind_sput. now destruct (String.eqb m n). Qed.
Lemma consistent_put : forall c n l, consistent c -> n = global_ns \/ In n (vnames c) -> NoDup (map a_name l) ->
  consistent (mkCdm (vars c) (dims c) (sput n l (attrs c))).
Proof.
  intros c n l [A B C D E] O N. constructor; try assumption.
  - now apply sput_sorted.
  - intros m M. apply In_sput in M. destruct M as [ -> | M ]; [ assumption | now apply D ].
  - intro m. rewrite attrs_of_put. destruct (String.eqb m n); [ assumption | apply E ].
Qed.

Lemma add_attr_some : forall c n a c', add_attr c n a = Some c' ->
  (n = global_ns \/ In n (vnames c)) /\ ~ In (a_name a) (map a_name (attrs_of c n)) /\
  c' = mkCdm (vars c) (dims c) (sput n (attrs_of c n ++ [a]) (attrs c)).
Proof.
  intros c n a c' H. unfold add_attr in H.
  destruct (negb (String.eqb n global_ns) && negb (has_var c n)) eqn:E; [ discriminate | ].
  destruct (is_some (find_attr (a_name a) (attrs_of c n))) eqn:F; [ discriminate | ]. injection H as <-.
  split; [ | split; [ | reflexivity ] ].
  - apply andb_false_iff in E. destruct E as [ E | E ]; apply negb_false_iff in E.
    + left. now apply String.eqb_eq.
    + right. now apply has_var_in.
  - intro I. apply (fnd_in a_name) in I. unfold find_attr in F. congruence.
Qed.
Lemma add_attr_ok : forall c n a, n = global_ns \/ In n (vnames c) -> ~ In (a_name a) (map a_name (attrs_of c n)) ->
  add_attr c n a = Some (mkCdm (vars c) (dims c) (sput n (attrs_of c n ++ [a]) (attrs c))).
Proof.
  intros c n a O N. unfold add_attr.
  assert (negb (String.eqb n global_ns) && negb (has_var c n) = false) as ->.
  { apply andb_false_iff. destruct O as [ -> | I ]; [ left | right ]; apply negb_false_iff; [ apply String.eqb_refl | now apply has_var_in ]. }
  destruct (is_some (find_attr (a_name a) (attrs_of c n))) eqn:F; [ | reflexivity ].
  exfalso. apply N. now apply (fnd_in a_name).
Qed.
Lemma consistent_add_attr : forall c n a c', consistent c -> add_attr c n a = Some c' -> consistent c'.
Proof.
  intros c n a c' C H. apply add_attr_some in H. destruct H as (O & N & ->). apply consistent_put; try assumption.
  apply nodup_app; [ apply (c_attrs c C) | assumption ].
Qed.

Lemma attrs_of_none : forall c n, attrs_of c n = [] \/ sfind n (attrs c) = Some (attrs_of c n).
Proof. intros c n. unfold attrs_of. destruct (sfind n (attrs c)); [ now right | now left ]. Qed.

Lemma add_attrs_spec : forall l c n, consistent c -> n = global_ns \/ In n (vnames c) ->
  NoDup (map a_name (attrs_of c n ++ l)) ->
  exists c', add_attrs c n l = (c', true) /\ consistent c' /\ vars c' = vars c /\ dims c' = dims c /\
    forall m, attrs_of c' m = if String.eqb m n then attrs_of c n ++ l else attrs_of c m.
Proof.
  induction l as [ | a l IH ]; intros c n C O N; cbn [add_attrs].
  - exists c. repeat split; try apply C. intro m. destruct (String.eqb_spec m n) as [ -> | ]; [ now rewrite app_nil_r | reflexivity ].
  - assert (NI : ~ In (a_name a) (map a_name (attrs_of c n))).
    { rewrite map_app in N. cbn in N. apply NoDup_remove_2 in N. intro I. apply N. apply in_or_app. now left. }
    rewrite add_attr_ok by assumption.
    set (c1 := mkCdm (vars c) (dims c) (sput n (attrs_of c n ++ [a]) (attrs c))).
    assert (C1 : consistent c1) by (apply (consistent_add_attr c n a); [ assumption | now apply add_attr_ok ]).
    assert (A1 : forall m, attrs_of c1 m = if String.eqb m n then attrs_of c n ++ [a] else attrs_of c m)
      by (intro m; apply attrs_of_put).
    destruct (IH c1 n C1) as (c' & E & C' & V & D & A).
    + exact O.
    + rewrite A1, String.eqb_refl, <- app_assoc. exact N.
    + exists c'. split; [ exact E | ]. split; [ exact C' | ]. split; [ exact V | ]. split; [ exact D | ].
      intro m. rewrite A, !A1, String.eqb_refl. destruct (String.eqb m n); [ now rewrite <- app_assoc | reflexivity ].
Qed.

(** ** renaming a variable *)
Definition renamed (n : string) (v : cvar) : cvar := mkVar n (v_type v) (v_shape v) (v_counterpart v) (v_data v).

Lemma set_name_map : forall o n l, NoDup (map v_name l) ->
  set_name o n l = map (fun v => if String.eqb o (v_name v) then renamed n v else v) l.
Proof.
  intros o n l. induction l as [ | v l IH ]; cbn; [ reflexivity | ]. intro N. inversion N as [ | ? ? N1 N2 ]; subst.
  destruct (String.eqb_spec o (v_name v)) as [ -> | D ].
  - f_equal. rewrite <- (map_id l) at 1. apply map_ext_in. intros x X.
    destruct (String.eqb_spec (v_name v) (v_name x)) as [ E | E ]; [ | reflexivity ].
    exfalso. apply N1. rewrite E. now apply in_map.
  - f_equal. now apply IH.
Qed.

Lemma nodup_rename_gen : forall A (name : A -> string) (ren : string -> A -> A) o n l,
  (forall x, name (ren n x) = n) -> ~ In n (map name l) -> NoDup (map name l) ->
  NoDup (map name (map (fun v => if String.eqb o (name v) then ren n v else v) l)).
Proof.
  intros A name ren o n l R NI N. induction l as [ | v l IH ]; cbn; [ constructor | ].
  cbn in NI, N. inversion N as [ | ? ? N1 N2 ]; subst. constructor; [ | apply IH; tauto ].
  intro I. rewrite map_map in I. apply in_map_iff in I. destruct I as (x & E & X).
  destruct (String.eqb_spec o (name v)) as [ Ev | D1 ]; destruct (String.eqb_spec o (name x)) as [ Ex | D2 ].
  - apply N1. rewrite <- Ev, Ex. now apply in_map.
  - rewrite R in E. apply NI. right. rewrite <- E. now apply in_map.
  - rewrite R in E. apply NI. left. congruence.
  - apply N1. rewrite <- E. now apply in_map.
Qed.

Lemma find_renamed_gen : forall A (name : A -> string) (ren : string -> A -> A) o n l m,
  (forall x, name (ren n x) = n) -> o <> n -> ~ In n (map name l) ->
  find (fun x => String.eqb m (name x)) (map (fun v => if String.eqb o (name v) then ren n v else v) l) =
  if String.eqb m o then None
  else if String.eqb m n then option_map (ren n) (find (fun x => String.eqb o (name x)) l)
  else find (fun x => String.eqb m (name x)) l.
Proof.
  intros A name ren o n l m R D NI. induction l as [ | v l IH ]; cbn [map find].
  - destruct (String.eqb m o), (String.eqb m n); reflexivity.
  - cbn in NI. rewrite IH by tauto. clear IH.
    destruct (String.eqb_spec o (name v)) as [ -> | D1 ].
    + rewrite R. destruct (String.eqb_spec m n) as [ -> | M ].
      * destruct (String.eqb_spec n (name v)); [ exfalso; apply NI; now left | reflexivity ].
      * now destruct (String.eqb m (name v)).
    + destruct (String.eqb_spec m (name v)) as [ -> | M ].
      * destruct (String.eqb_spec (name v) o); [ congruence | ].
        destruct (String.eqb_spec (name v) n); [ exfalso; apply NI; now left | reflexivity ].
      * reflexivity.
Qed.

Theorem rename_var_ok : forall c o n, consistent c -> o <> n -> has_var c o = true ->
  exists c', rename_var c o n = (c', true) /\ consistent c' /\
    vars c' = map (fun v => if String.eqb o (v_name v) then renamed n v else v)
                  (filter (fun v => negb (String.eqb n (v_name v))) (vars c)) /\
    dims c' = dims c /\
    forall m, attrs_of c' m = if String.eqb m o then [] else if String.eqb m n then attrs_of c o else attrs_of c m.
Proof.
  intros c o n C D H. unfold rename_var.
  assert (C1 := consistent_removed c n C). set (c1 := remove_var c n) in *.
  assert (H1 : has_var c1 o = true).
  { apply has_var_in. unfold c1. apply vnames_removed. split; [ assumption | now apply has_var_in ]. }
  assert (NI : ~ In n (map v_name (vars c1))) by (intro I; apply vnames_removed in I; tauto).
  rewrite H1. rewrite set_name_map by apply C1.
  set (f := fun v => if String.eqb o (v_name v) then renamed n v else v).
  set (c2 := mkCdm (map f (vars c1)) (dims c1) (attrs c1)).
  assert (V2 : forall m, In m (vnames c2) <-> m = n \/ (m <> o /\ In m (vnames c1))).
  { intro m. unfold vnames. rewrite <- !(fnd_in v_name). unfold c2. cbn [vars]. unfold f.
    rewrite (find_renamed_gen cvar v_name renamed) by (try assumption; reflexivity).
    destruct (String.eqb_spec m o) as [ E1 | M1 ]; destruct (String.eqb_spec m n) as [ E2 | M2 ]; cbn [is_some].
    - congruence.
    - split; [ discriminate | intuition congruence ].
    - split; [ tauto | ]. intros _. unfold has_var, find_var in H1. destruct (find _ (vars c1)); [ reflexivity | discriminate ].
    - intuition. }
  (* before the attributes are copied, those of o have no owner *)
  assert (W2 : NoDup (vnames c2)).
  { unfold vnames, c2. cbn [vars]. unfold f. apply (nodup_rename_gen cvar v_name renamed); [ reflexivity | assumption | apply C1 ]. }
  assert (N0 : attrs_of c2 n = []).
  { change (attrs_of c2 n) with (attrs_of c1 n). unfold c1. rewrite attrs_of_removed, String.eqb_refl. reflexivity. }
  (* consistency of c2 fails for o only: add_attrs does not look at it *)
  assert (G : forall l k, NoDup (map a_name (attrs_of k n ++ l)) -> In n (vnames k) ->
     exists k', add_attrs k n l = (k', true) /\ vars k' = vars k /\ dims k' = dims k /\
       (ssorted (attrs k) -> ssorted (attrs k')) /\
       (forall m, In m (skeys (attrs k')) -> m = n \/ In m (skeys (attrs k))) /\
       forall m, attrs_of k' m = if String.eqb m n then attrs_of k n ++ l else attrs_of k m).
  { clear. induction l as [ | a l IH ]; intros k N I; cbn [add_attrs].
    - exists k. repeat split; auto. intro m. destruct (String.eqb_spec m n) as [ -> | ]; [ now rewrite app_nil_r | reflexivity ].
    - assert (NI : ~ In (a_name a) (map a_name (attrs_of k n))).
      { rewrite map_app in N. cbn in N. apply NoDup_remove_2 in N. intro X. apply N. apply in_or_app. now left. }
      rewrite add_attr_ok by auto.
      set (k1 := mkCdm (vars k) (dims k) (sput n (attrs_of k n ++ [a]) (attrs k))).
      assert (A1 : forall m, attrs_of k1 m = if String.eqb m n then attrs_of k n ++ [a] else attrs_of k m)
        by (intro m; apply attrs_of_put).
      destruct (IH k1) as (k' & E & V & DD & S & O & A).
      + rewrite A1, String.eqb_refl, <- app_assoc. exact N.
      + exact I.
      + exists k'. split; [ exact E | ]. split; [ exact V | ]. split; [ exact DD | ]. split; [ | split ].
        * intro X. apply S. now apply sput_sorted.
        * intros m M. apply O in M. destruct M as [ M | M ]; [ now left | ]. apply In_sput in M. tauto.
        * intro m. rewrite A, !A1, String.eqb_refl. destruct (String.eqb m n); [ now rewrite <- app_assoc | reflexivity ]. }
  destruct (G (attrs_of c2 o) c2) as (c3 & E & V3 & D3 & S3 & O3 & A3).
  { rewrite N0. apply (c_attrs c1 C1). }
  { apply V2. now left. }
  rewrite E. eexists. split; [ reflexivity | ].
  assert (VV : vars (remove_var c3 o) = map f (vars c1)).
  { cbn [remove_var vars]. rewrite V3. apply filter_absent. intro I.
    apply (proj1 (V2 o)) in I. destruct I as [ I | [I _] ]; congruence. }
  assert (AA : forall m, attrs_of (remove_var c3 o) m =
                 if String.eqb m o then [] else if String.eqb m n then attrs_of c o else attrs_of c m).
  { intro m. rewrite attrs_of_removed. destruct (String.eqb m o); [ reflexivity | ].
    rewrite A3, N0. cbn [app].
    change (attrs_of c2) with (attrs_of c1). unfold c1. rewrite !attrs_of_removed.
    destruct (String.eqb_spec o n); [ congruence | ]. now destruct (String.eqb m n). }
  split; [ | split; [ exact VV | split; [ exact D3 | exact AA ] ] ].
  constructor.
  - unfold vnames. rewrite VV. exact W2.
  - unfold dnames. change (dims (remove_var c3 o)) with (dims c3). rewrite D3. apply C1.
  - cbn [remove_var attrs]. apply serase_sorted. apply S3. apply C1.
  - intros m M. cbn [remove_var attrs] in M. apply skeys_serase in M. destruct M as [M1 M2]. apply O3 in M2.
    assert (X : In m (vnames (remove_var c3 o)) <-> In m (vnames c2)) by (unfold vnames; rewrite VV; reflexivity).
    rewrite X. rewrite V2. destruct M2 as [ -> | M2 ]; [ right; now left | ].
    destruct (c_owner c1 C1 m M2); [ now left | right; right; now split ].
  - intro m. rewrite AA. destruct (String.eqb m o); [ constructor | ].
    destruct (String.eqb m n); apply (c_attrs c C).
Qed.

Theorem rename_var_fails : forall c o n, o = n \/ has_var c o = false -> rename_var c o n = (remove_var c n, false).
Proof.
  intros c o n H. unfold rename_var.
  assert (has_var (remove_var c n) o = false) as ->; [ | reflexivity ].
  apply has_var_false. rewrite vnames_removed. destruct H as [ -> | H ]; [ tauto | ]. apply has_var_false in H. tauto.
Qed.

(** ** dimensions *)
Definition drenamed (n : string) (d : cdim) : cdim := mkDim n (d_len d) (d_unlim d).
Lemma set_dname_map : forall o n l, NoDup (map d_name l) ->
  set_dname o n l = map (fun d => if String.eqb o (d_name d) then drenamed n d else d) l.
Proof.
  intros o n l. induction l as [ | v l IH ]; cbn; [ reflexivity | ]. intro N. inversion N as [ | ? ? N1 N2 ]; subst.
  destruct (String.eqb_spec o (d_name v)) as [ -> | D ].
  - f_equal. rewrite <- (map_id l) at 1. apply map_ext_in. intros x X.
    destruct (String.eqb_spec (d_name v) (d_name x)) as [ E | E ]; [ | reflexivity ].
    exfalso. apply N1. rewrite E. now apply in_map.
  - f_equal. now apply IH.
Qed.

Lemma consistent_shape : forall c f ds, (forall v, v_name (f v) = v_name v) -> consistent c -> NoDup (map d_name ds) ->
  consistent (mkCdm (map f (vars c)) ds (attrs c)).
Proof.
  intros c f ds F [A B C D E] N.
  assert (V : map v_name (map f (vars c)) = vnames c).
  { rewrite map_map. unfold vnames. apply map_ext. exact F. }
  constructor; cbn [vars dims attrs vnames dnames].
  - unfold vnames. cbn [vars]. rewrite V. exact A.
  - exact N.
  - exact C.
  - intros n I. unfold vnames. cbn [vars]. rewrite V. now apply D.
  - exact E.
Qed.
Lemma consistent_dims : forall c ds, consistent c -> NoDup (map d_name ds) -> consistent (mkCdm (vars c) ds (attrs c)).
Proof. intros c ds [A B C D E] N. constructor; assumption. Qed.

Theorem rename_dim_ok : forall c o n ig, consistent c -> o <> n -> has_dim c o = true ->
  (ig = true \/ dim_in_use c n = false) ->
  rename_dim c o n ig =
  (mkCdm (map (rename_shape o n) (vars c))
         (map (fun d => if String.eqb o (d_name d) then drenamed n d else d)
              (filter (fun d => negb (String.eqb n (d_name d))) (dims c))) (attrs c), Done true).
Proof.
  intros c o n ig C D H U. unfold rename_dim. rewrite H. cbn [negb].
  assert (UU : negb ig && dim_in_use c n = false) by (destruct U as [ -> | -> ]; [ reflexivity | now rewrite andb_false_r ]).
  assert (F : filter (fun d => negb (String.eqb n (d_name d))) (dims c) = dims c \/ has_dim c n = true).
  { destruct (has_dim c n) eqn:Hn; [ now right | left ]. apply filter_absent. now apply has_dim_false. }
  assert (G : forall c1, c1 = mkCdm (vars c) (filter (fun d => negb (String.eqb n (d_name d))) (dims c)) (attrs c) ->
    (if has_dim c1 o then (mkCdm (map (rename_shape o n) (vars c1)) (set_dname o n (dims c1)) (attrs c1), Done true) else (c1, Threw))
    = (mkCdm (map (rename_shape o n) (vars c))
         (map (fun d => if String.eqb o (d_name d) then drenamed n d else d)
              (filter (fun d => negb (String.eqb n (d_name d))) (dims c))) (attrs c), Done true)).
  { intros c1 ->. assert (has_dim (mkCdm (vars c) (filter (fun d => negb (String.eqb n (d_name d))) (dims c)) (attrs c)) o = true) as ->.
    { unfold has_dim, find_dim. cbn [dims]. rewrite (fnd_filter d_name). destruct (String.eqb_spec o n); [ congruence | exact H ]. }
    cbn [vars dims attrs]. rewrite set_dname_map; [ reflexivity | ]. apply nodup_filter. apply C. }
  destruct (has_dim c n) eqn:Hn.
  - rewrite UU. unfold remove_dim. rewrite UU. now apply G.
  - apply G. destruct F as [ F | F ]; [ | discriminate ]. rewrite F. now destruct c.
Qed.

Lemma consistent_remove_dim : forall c n ig, consistent c -> consistent (fst (remove_dim c n ig)).
Proof.
  intros c n ig C. unfold remove_dim. destruct (negb ig && dim_in_use c n); [ exact C | ].
  apply consistent_dims; [ exact C | ]. apply nodup_filter. apply C.
Qed.

Lemma consistent_rename_dim : forall c o n ig, consistent c -> consistent (fst (rename_dim c o n ig)).
Proof.
  intros c o n ig C. destruct (has_dim c o) eqn:H.
  2:{ unfold rename_dim. rewrite H. exact C. }
  destruct (string_dec o n) as [ -> | D ].
  - unfold rename_dim. rewrite H. cbn [negb]. destruct (negb ig && dim_in_use c n) eqn:U; [ exact C | ].
    unfold remove_dim. rewrite U.
    assert (has_dim (mkCdm (vars c) (filter (fun d => negb (String.eqb n (d_name d))) (dims c)) (attrs c)) n = false) as ->.
    { unfold has_dim, find_dim. cbn [dims]. rewrite (fnd_filter d_name). now rewrite String.eqb_refl. }
    apply consistent_dims; [ exact C | ]. apply nodup_filter. apply C.
  - destruct (negb ig && dim_in_use c n) eqn:U.
    + unfold rename_dim. rewrite H. cbn [negb].
      assert (has_dim c n = true) as ->.
      { apply andb_true_iff in U. destruct U as [_ U]. unfold dim_in_use in U. now apply andb_true_iff in U. }
      rewrite U. exact C.
    + rewrite rename_dim_ok; try assumption.
      2:{ apply andb_false_iff in U. destruct U as [ U | U ]; [ left; now apply negb_false_iff | now right ]. }
      apply consistent_shape; [ reflexivity | exact C | ].
      apply (nodup_rename_gen cdim d_name drenamed); [ reflexivity | | apply nodup_filter; apply C ].
      rewrite (names_filter d_name). intro I. apply filter_In in I. rewrite String.eqb_refl in I. now destruct I.
Qed.

Lemma consistent_remove_attr : forall c n a, consistent c -> consistent (remove_attr c n a).
Proof.
  intros c n a C. unfold remove_attr. destruct (sfind n (attrs c)) as [ l | ] eqn:E; [ | exact C ].
  apply consistent_put; [ exact C | | ].
  - apply (c_owner c C). apply sfind_In. eauto.
  - apply nodup_filter. assert (X := c_attrs c C n). unfold attrs_of in X. now rewrite E in X.
Qed.

Lemma attrs_of_remove_attr : forall c n a m, attrs_of (remove_attr c n a) m =
  if String.eqb m n then filter (fun x => negb (String.eqb a (a_name x))) (attrs_of c n) else attrs_of c m.
Proof.
  intros c n a m. unfold remove_attr. destruct (sfind n (attrs c)) as [ l | ] eqn:E.
  - rewrite attrs_of_put. unfold attrs_of. now rewrite E.
  - destruct (String.eqb_spec m n) as [ -> | ]; [ | reflexivity ]. unfold attrs_of. now rewrite E.
Qed.

Lemma replace_attr_some : forall c n a c', replace_attr c n a = Some c' ->
  (n = global_ns \/ In n (vnames c)) /\ vars c' = vars c /\ dims c' = dims c /\
  (consistent c -> consistent c') /\
  forall m, attrs_of c' m = if String.eqb m n then filter (fun x => negb (String.eqb (a_name a) (a_name x))) (attrs_of c n) ++ [a]
                            else attrs_of c m.
Proof.
  intros c n a c' H. unfold replace_attr in H.
  destruct (negb (String.eqb n global_ns) && negb (has_var c n)) eqn:E; [ discriminate | ]. injection H as <-.
  assert (O : n = global_ns \/ In n (vnames c)).
  { apply andb_false_iff in E. destruct E as [ E | E ]; apply negb_false_iff in E.
    + left. now apply String.eqb_eq.
    + right. now apply has_var_in. }
  assert (VD : vars (remove_attr c n (a_name a)) = vars c /\ dims (remove_attr c n (a_name a)) = dims c).
  { unfold remove_attr. now destruct (sfind n (attrs c)). }
  destruct VD as [V D]. split; [ exact O | ]. split; [ exact V | ]. split; [ exact D | ].
  assert (A : attrs_of (remove_attr c n (a_name a)) n = filter (fun x => negb (String.eqb (a_name a) (a_name x))) (attrs_of c n)).
  { now rewrite attrs_of_remove_attr, String.eqb_refl. }
  split.
  - intro C. apply consistent_put.
    + now apply consistent_remove_attr.
    + unfold vnames. now rewrite V.
    + rewrite A. apply nodup_app; [ apply nodup_filter; apply C | ].
      rewrite (names_filter a_name). intro I. apply filter_In in I. rewrite String.eqb_refl in I. now destruct I.
  - intro m. rewrite attrs_of_put, A. destruct (String.eqb_spec m n) as [ -> | N ]; [ reflexivity | ].
    rewrite attrs_of_remove_attr. destruct (String.eqb_spec m n); [ congruence | reflexivity ].
Qed.

(** ** sizes *)
Lemma size_of_dims : forall c n, NoDup (dnames c) ->
  size_of (dim_sizes c) n = match find_dim n (dims c) with Some d => d_len d | None => 0%N end.
Proof.
  intros c n. unfold dim_sizes, dnames, size_of, find_dim.
  assert (G : forall l m, NoDup (map d_name l) ->
    match sfind n (fold_left (fun m d => sput (d_name d) (d_len d) m) l m) with Some k => k | None => 0%N end =
    match find (fun d => String.eqb n (d_name d)) l with
    | Some d => d_len d
    | None => match sfind n m with Some k => k | None => 0%N end
    end).
  { induction l as [ | d l IH ]; intros m N; cbn [fold_left find]; [ reflexivity | ].
    cbn in N. inversion N as [ | ? ? N1 N2 ]; subst. rewrite IH by assumption. rewrite sfind_sput.
    destruct (String.eqb_spec n (d_name d)) as [ -> | D ]; [ | reflexivity ].
    destruct (find _ l) as [ x | ] eqn:F; [ | reflexivity ]. exfalso. apply N1.
    apply (fnd_in d_name). now rewrite F. }
  intro N. rewrite G by assumption. reflexivity.
Qed.

(** ** numbers *)
Lemma number_inj : forall i j, number i = number j -> i = j.
Proof.
  intros i j E. unfold number in E.
  assert (A : dec i = dec j).
  { rewrite <- (list_ascii_of_string_of_list_ascii (dec i)), <- (list_ascii_of_string_of_list_ascii (dec j)). now rewrite E. }
  assert (B := undec_dec i). rewrite A, undec_dec in B. congruence.
Qed.
Lemma append_inj : forall a b c : string, (a ++ b)%string = (a ++ c)%string -> b = c.
Proof. induction a as [ | x a IH ]; cbn; intros b c E; [ assumption | ]. injection E as E. now apply IH. Qed.
