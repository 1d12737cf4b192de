(** Lemmas on the operations used by changeCDM, as updates of what is found under a name. *)
From Coq Require Import NArith Ascii String List Bool Lia.
From Verif Require Import Base StdMap RegridModel StringModel NmlModel ConvertModel CdmModel CdmProofs CdmProps AxesModel CfcsModel BestModel ProjModel InterpModel.
Import ListNotations.
Local Open Scope string_scope.
Local Open Scope list_scope.
Local Open Scope nat_scope.

Notation aname := CdmModel.a_name.
(** what is found under a name *)
Record sem (c : cdm) (V : string -> option cvar) (D : string -> option cdim) (A : string -> list cattr) : Prop := mkSem {
  s_c : consistent c;
  s_v : forall n, find_var n (vars c) = V n;
  s_d : forall n, find_dim n (dims c) = D n;
  s_a : forall n, attrs_of c n = A n }.
Definition at_ {B} (n : string) (b : B) (f : string -> B) : string -> B := fun m => if String.eqb m n then b else f m.
Definition without (a : string) : list cattr -> list cattr := filter (fun x => negb (String.eqb a (aname x))).

Lemma sem_ext c V D A V' D' A' : sem c V D A -> (forall n, V n = V' n) -> (forall n, D n = D' n) -> (forall n, A n = A' n) -> sem c V' D' A'.
Proof. intros [a b d e] X Y Z. constructor; [ exact a | intro; now rewrite b | intro; now rewrite d | intro; now rewrite e ]. Qed.
Lemma sem_self c : consistent c -> sem c (fun n => find_var n (vars c)) (fun n => find_dim n (dims c)) (attrs_of c).
Proof. intro C. constructor; auto. Qed.
Lemma sem_has c V D A n : sem c V D A -> has_var c n = is_some (V n).
Proof. intro S. unfold has_var. now rewrite (s_v _ _ _ _ S). Qed.
Lemma sem_names c V D A n : sem c V D A -> In n (vnames c) <-> V n <> None.
Proof. intro S. rewrite <- has_var_in, (sem_has c V D A n S). destruct (V n); cbn; split; congruence. Qed.
Lemma sem_hasd c V D A n : sem c V D A -> has_dim c n = is_some (D n).
Proof. intro S. unfold has_dim. now rewrite (s_d _ _ _ _ S). Qed.
Lemma sem_var c V D A n v : sem c V D A -> V n = Some v -> In v (vars c) /\ v_name v = n.
Proof. intros S E. rewrite <- (s_v _ _ _ _ S) in E. apply find_some in E. destruct E as [E F]. apply String.eqb_eq in F. now split. Qed.
Lemma sem_in c V D A v : sem c V D A -> In v (vars c) -> V (v_name v) = Some v.
Proof.
  intros S I. rewrite <- (s_v _ _ _ _ S). assert (N := c_vars c (s_c _ _ _ _ S)). unfold vnames in N. unfold find_var. clear S. induction (vars c) as [ | w l IH ]; [ destruct I | ].
  cbn [find]. inversion N as [ | ? ? N1 N2 ]. subst. destruct I as [->|I]; [ now rewrite String.eqb_refl | ].
  destruct (String.eqb_spec (v_name v) (v_name w)) as [E|_]; [ | now apply IH ]. exfalso. apply N1. rewrite <- E. now apply in_map.
Qed.
Lemma sem_none c V D A n : sem c V D A -> V n = None -> n <> global_ns -> A n = [].
Proof.
  intros S E G. rewrite <- (s_a _ _ _ _ S). unfold attrs_of. destruct (sfind n (attrs c)) as [l|] eqn:F; [ | reflexivity ]. exfalso.
  destruct (c_owner c (s_c _ _ _ _ S) n) as [X|X]; [ apply sfind_In; eauto | contradiction | ]. now apply (sem_names c V D A n S) in X.
Qed.

Lemma sem_remove c V D A n : sem c V D A -> sem (remove_var c n) (at_ n None V) D (at_ n [] A).
Proof.
  intro S. constructor.
  - apply consistent_removed, S.
  - intro m. rewrite find_var_removed. unfold at_. now rewrite (s_v _ _ _ _ S).
  - intro m. apply S.
  - intro m. rewrite attrs_of_removed. unfold at_. now rewrite (s_a _ _ _ _ S).
Qed.
Lemma find_edit n f l m : (forall v, v_name (f v) = v_name v) -> NoDup (map v_name l) ->
  find_var m (map (fun v => if String.eqb n (v_name v) then f v else v) l) = if String.eqb m n then option_map f (find_var n l) else find_var m l.
Proof.
  intros F. unfold find_var. induction l as [ | w l IH ]; intro N; [ now destruct (String.eqb m n) | ]. inversion N as [ | ? ? N1 N2 ]. subst. cbn [map find]. rewrite (IH N2).
  destruct (String.eqb_spec n (v_name w)) as [->|N3].
  - rewrite F. destruct (String.eqb_spec m (v_name w)) as [->|M]; [ reflexivity | ]. reflexivity.
  - destruct (String.eqb_spec m (v_name w)) as [->|M].
    + destruct (String.eqb_spec (v_name w) n) as [Q|_]; [ congruence | reflexivity ].
    + destruct (String.eqb m n); reflexivity.
Qed.
Lemma sem_edit c V D A n f v : sem c V D A -> (forall v, v_name (f v) = v_name v) -> V n = Some v ->
  exists c', edit_var n f c = Ok c' /\ sem c' (at_ n (Some (f v)) V) D A.
Proof.
  intros S F E. unfold edit_var. rewrite (sem_has _ _ _ _ n S), E. cbn [is_some]. eexists. split; [ reflexivity | ]. assert (C := s_c _ _ _ _ S).
  assert (NM : map v_name (map (fun v => if String.eqb n (v_name v) then f v else v) (vars c)) = map v_name (vars c)).
  { rewrite map_map. apply map_ext. intro w. destruct (String.eqb n (v_name w)); [ apply F | reflexivity ]. }
  constructor.
  - destruct C as [C1 C2 C3 C4 C5]. constructor; try assumption; unfold vnames in *; cbn [vars]; now rewrite ?NM.
  - intro m. cbn [vars]. rewrite (find_edit n f _ m F); [ | apply C ]. unfold at_. rewrite !(s_v _ _ _ _ S), E. reflexivity.
  - intro m. cbn [dims]. apply S.
  - intro m. apply (s_a _ _ _ _ S).
Qed.
Lemma sem_add c V D A v : sem c V D A -> V (v_name v) = None -> exists c', add_var v c = Ok c' /\ sem c' (at_ (v_name v) (Some v) V) D A.
Proof.
  intros S E. unfold add_var. rewrite (sem_has _ _ _ _ _ S), E. cbn [is_some]. eexists. split; [ reflexivity | ].
  assert (NI : ~ In (v_name v) (vnames c)) by (intro I; now apply (sem_names _ _ _ _ _ S) in I).
  constructor.
  - destruct (s_c _ _ _ _ S) as [C1 C2 C3 C4 C5]. constructor; try assumption.
    + unfold vnames in *. cbn [vars]. now apply nodup_app.
    + intros m M. destruct (C4 m M) as [M1|M1]; [ now left | right ]. unfold vnames in *. cbn [vars]. rewrite map_app. apply in_or_app. now left.
  - intro m. cbn [vars]. unfold at_. rewrite <- (s_v _ _ _ _ S). unfold find_var. clear E.
    assert (X : forall l, ~ In (v_name v) (map v_name l) -> find (fun w => String.eqb m (v_name w)) (l ++ [v]) = if String.eqb m (v_name v) then Some v else find (fun w => String.eqb m (v_name w)) l).
    { induction l as [ | w l IH ]; cbn [app find map]; intro N; [ now destruct (String.eqb m (v_name v)) | ].
      destruct (String.eqb_spec m (v_name w)) as [->|M]; [ | apply IH; intro I; apply N; now right ]. destruct (String.eqb_spec (v_name w) (v_name v)) as [Q|_]; [ | reflexivity ]. exfalso. apply N. now left. }
    now apply X.
  - intro m. apply S.
  - intro m. apply (s_a _ _ _ _ S).
Qed.
Lemma sem_remove_attr c V D A n a : sem c V D A -> sem (remove_attr c n a) V D (at_ n (without a (A n)) A).
Proof.
  intro S. assert (VD : vars (remove_attr c n a) = vars c /\ dims (remove_attr c n a) = dims c) by (unfold remove_attr; now destruct (sfind n (attrs c))). destruct VD as [X Y].
  constructor; [ apply consistent_remove_attr, S | intro; rewrite X; apply S | intro; rewrite Y; apply S | ]. intro m. rewrite attrs_of_remove_attr. unfold at_, without. now rewrite !(s_a _ _ _ _ S).
Qed.
Lemma sem_replace_attr c V D A n a : sem c V D A -> n = global_ns \/ V n <> None -> exists c', replace_attr c n a = Some c' /\ sem c' V D (at_ n (without (aname a) (A n) ++ [a]) A).
Proof.
  intros S O. destruct (replace_attr c n a) as [c'|] eqn:E.
  - exists c'. split; [ reflexivity | ]. destruct (replace_attr_some _ _ _ _ E) as (_ & X & Y & Z & W).
    constructor; [ apply Z, S | intro; rewrite X; apply S | intro; rewrite Y; apply S | ]. intro m. rewrite W. unfold at_, without. now rewrite !(s_a _ _ _ _ S).
  - exfalso. unfold replace_attr in E. destruct O as [->|O].
    + rewrite String.eqb_refl in E. discriminate.
    + rewrite (sem_has _ _ _ _ _ S) in E. destruct (V n); [ | congruence ]. cbn [is_some negb] in E. rewrite andb_false_r in E. discriminate.
Qed.
Lemma sem_repl c V D A n l : sem c V D A -> n = global_ns \/ V n <> None ->
  exists c', repl_attrs n l c = Ok c' /\ sem c' V D (at_ n (fold_left (fun x a => without (aname a) x ++ [a]) l (A n)) A).
Proof.
  intros S O. unfold repl_attrs. revert c A S. induction l as [ | a l IH ]; intros c A S; cbn [ofold fold_left].
  - exists c. split; [ reflexivity | ]. apply (sem_ext _ _ _ _ _ _ _ S); try reflexivity. intro m. unfold at_. now destruct (String.eqb_spec m n) as [->|].
  - destruct (sem_replace_attr c V D A n a S O) as (c1 & -> & S1). cbn [from_option obind]. destruct (IH c1 _ S1) as (c2 & E & S2). exists c2. split; [ exact E | ].
    apply (sem_ext _ _ _ _ _ _ _ S2); try reflexivity. intro m. unfold at_. rewrite String.eqb_refl. now destruct (String.eqb m n).
Qed.
Lemma sem_put c V D A n l : sem c V D A -> n = global_ns \/ V n <> None -> NoDup (map aname (A n ++ l)) ->
  exists c', put_attrs n l c = Ok c' /\ sem c' V D (at_ n (A n ++ l) A).
Proof.
  intros S O. unfold put_attrs. revert c A S. induction l as [ | a l IH ]; intros c A S ND; cbn [ofold].
  - exists c. split; [ reflexivity | ]. apply (sem_ext _ _ _ _ _ _ _ S); try reflexivity. intro m. unfold at_. rewrite app_nil_r. now destruct (String.eqb_spec m n) as [->|].
  - assert (OW : n = global_ns \/ In n (vnames c)) by (destruct O as [O|O]; [ now left | right; now apply (sem_names _ _ _ _ n S) ]).
    assert (NA : ~ In (aname a) (map aname (attrs_of c n))).
    { rewrite (s_a _ _ _ _ S). rewrite map_app in ND. cbn [map] in ND. apply NoDup_remove_2 in ND. intro I. apply ND, in_or_app. now left. }
    destruct (add_attr c n a) as [c1|] eqn:E.
    2:{ exfalso. rewrite (add_attr_ok c n a OW NA) in E. discriminate. }
    cbn [from_option obind]. destruct (add_attr_some _ _ _ _ E) as (_ & _ & X).
    assert (S1 : sem c1 V D (at_ n (A n ++ [a]) A)).
    { constructor; [ apply (consistent_add_attr c n a); [ apply S | exact E ] | subst c1; intro; apply S | subst c1; intro; apply S | ]. intro m. subst c1. rewrite attrs_of_put. unfold at_. now rewrite !(s_a _ _ _ _ S). }
    destruct (IH c1 _ S1) as (c2 & E2 & S2).
    + unfold at_. rewrite String.eqb_refl, <- app_assoc. exact ND.
    + exists c2. split; [ exact E2 | ]. apply (sem_ext _ _ _ _ _ _ _ S2); try reflexivity. intro m. unfold at_. rewrite String.eqb_refl, <- app_assoc. cbn [app]. now destruct (String.eqb m n).
Qed.
Lemma find_edit_dim n len l m : NoDup (map d_name l) ->
  find_dim m (map (fun d => if String.eqb n (d_name d) then mkDim n len (d_unlim d) else d) l) = if String.eqb m n then option_map (fun d => mkDim n len (d_unlim d)) (find_dim n l) else find_dim m l.
Proof.
  unfold find_dim. induction l as [ | w l IH ]; intro N; [ now destruct (String.eqb m n) | ]. inversion N as [ | ? ? N1 N2 ]. subst. cbn [map find]. rewrite (IH N2).
  destruct (String.eqb_spec n (d_name w)) as [->|N3].
  - cbn [d_name]. destruct (String.eqb m (d_name w)); reflexivity.
  - destruct (String.eqb_spec m (d_name w)) as [->|M].
    + destruct (String.eqb_spec (d_name w) n) as [Q|_]; [ congruence | reflexivity ].
    + destruct (String.eqb m n); reflexivity.
Qed.
Lemma sem_length c V D A n len d : sem c V D A -> D n = Some d -> exists c', set_length n len c = Ok c' /\ sem c' V (at_ n (Some (mkDim n len (d_unlim d))) D) A.
Proof.
  intros S E. unfold set_length. rewrite (sem_hasd _ _ _ _ n S), E. cbn [is_some]. eexists. split; [ reflexivity | ]. assert (C := s_c _ _ _ _ S).
  assert (NM : map d_name (map (fun d => if String.eqb n (d_name d) then mkDim n len (d_unlim d) else d) (dims c)) = map d_name (dims c)).
  { rewrite map_map. apply map_ext. intro w. destruct (String.eqb_spec n (d_name w)) as [->|]; reflexivity. }
  constructor.
  - destruct C as [C1 C2 C3 C4 C5]. constructor; try assumption. unfold dnames in *. cbn [dims]. now rewrite NM.
  - intro m. apply S.
  - intro m. cbn [dims]. rewrite (find_edit_dim n len); [ | apply C ]. unfold at_. rewrite !(s_d _ _ _ _ S), E. reflexivity.
  - intro m. apply (s_a _ _ _ _ S).
Qed.
Lemma sem_drop_dim c V D A n : sem c V D A -> (forall m v, V m = Some v -> ~ In n (v_shape v)) -> exists c', drop_dim n c = Ok c' /\ sem c' V (at_ n None D) A.
Proof.
  intros S U. unfold drop_dim, remove_dim. assert (F : dim_in_use c n = false).
  { unfold dim_in_use. destruct (has_dim c n); [ | reflexivity ]. cbn [andb]. destruct (existsb (check_dim n) (vars c)) eqn:E; [ | reflexivity ]. exfalso. apply existsb_exists in E. destruct E as (v & I & K).
    unfold check_dim in K. apply existsb_exists in K. destruct K as (d & K & Q). apply String.eqb_eq in Q. subst d. now apply (U _ v (sem_in _ _ _ _ v S I)). }
  rewrite F. cbn [negb andb]. eexists. split; [ reflexivity | ]. constructor.
  - apply (consistent_dims c); [ apply S | apply nodup_filter; apply (c_dims c), S ].
  - intro; apply S.
  - intro m. cbn [dims]. unfold at_. rewrite <- (s_d _ _ _ _ S m). apply (fnd_filter d_name).
  - intro m. apply (s_a _ _ _ _ S).
Qed.

(** the axis variable *)
Lemma sem_axis c V D A n t : sem c V D A -> exists c', axis_var n t c = Ok c' /\
  sem c' (at_ n (Some (match V n with Some v => with_type t v | None => mkVar n t [n] "" None end)) V) D A.
Proof.
  intro S. unfold axis_var. rewrite (sem_has _ _ _ _ n S). destruct (V n) as [v|] eqn:E; cbn [is_some].
  - apply (sem_edit c V D A n (with_type t) v S); [ reflexivity | exact E ].
  - apply (sem_add c V D A (mkVar n t [n] "" None) S). exact E.
Qed.

Lemma ofold_ext_fun {T B} (g h : T -> B -> outcome T) l : (forall s b, g s b = h s b) -> forall s, ofold g l s = ofold h l s.
Proof. intro E. induction l as [ | b l IH ]; intro s; cbn [ofold]; [ reflexivity | ]. rewrite E. destruct (h s b); cbn [obind]; auto. Qed.

(** ** the loop over the systems *)
Lemma one_of_in n l : one_of n l = true <-> In n l.
Proof. unfold one_of. rewrite existsb_exists. split; [ intros (x & I & E); apply String.eqb_eq in E; now subst | intro I; exists n; split; [ exact I | apply String.eqb_refl ] ]. Qed.

Section Loop.
Variable P : Type.
Variable c : cdm.
Variable pv : smap string.
Implicit Types rem gone : string -> bool.
Implicit Types ren : string -> string.

Definition Vof rem ren (n : string) : option cvar :=
  if rem n then None else option_map (fun v => if smem n pv then with_shape (map ren) v else v) (find_var n (vars c)).
Record inv rem ren gone (c' : cdm) (pv' : smap string) : Prop := mkInv {
  i_sem : sem c' (Vof rem ren) (fun n => if gone n then None else find_dim n (dims c)) (fun n => if rem n then [] else attrs_of c n);
  i_sorted : ssorted pv';
  i_pv : forall n, sfind n pv' = if rem n then None else sfind n pv }.
Lemma inv_ext rem ren gone c' pv' rem' ren' gone' : inv rem ren gone c' pv' -> (forall n, rem n = rem' n) -> (forall n, ren n = ren' n) -> (forall n, gone n = gone' n) -> inv rem' ren' gone' c' pv'.
Proof.
  intros [S O Q] A B C. constructor; [ | exact O | intro n; now rewrite Q, A ]. apply (sem_ext _ _ _ _ _ _ _ S).
  - intro n. unfold Vof. rewrite A. destruct (rem' n); [ reflexivity | ]. destruct (find_var n (vars c)) as [v|]; [ | reflexivity ]. cbn [option_map]. destruct (smem n pv); [ | reflexivity ]. f_equal. unfold with_shape. f_equal. now apply map_ext.
  - intro n. now rewrite C.
  - intro n. now rewrite A.
Qed.
Lemma inv_drops l : forall rem ren gone c' pv', inv rem ren gone c' pv' -> inv (fun n => rem n || one_of n l) ren gone (fst (drops l (c', pv'))) (snd (drops l (c', pv'))).
Proof.
  induction l as [ | a l IH ]; intros rem ren gone c' pv' I.
  - apply (inv_ext _ _ _ _ _ _ _ _ I); auto. intro n. cbn. now rewrite orb_false_r.
  - cbn [drops fold_left drop fst snd]. assert (X := IH (fun n => rem n || String.eqb n a) ren gone (remove_var c' a) (serase a pv')). unfold drops in X. refine (inv_ext _ _ _ _ _ _ _ _ (X _) _ _ _); auto.
    + destruct I as [S O Q]. constructor.
      * apply (sem_ext _ _ _ _ _ _ _ (sem_remove _ _ _ _ a S)); auto.
        -- intro n. unfold at_, Vof. destruct (String.eqb n a); [ now rewrite orb_true_r | now rewrite orb_false_r ].
        -- intro n. unfold at_. destruct (String.eqb n a); [ now rewrite orb_true_r | now rewrite orb_false_r ].
      * now apply serase_sorted.
      * intro n. rewrite sfind_serase, Q. destruct (String.eqb n a); [ now rewrite orb_true_r | now rewrite orb_false_r ].
    + intro n. unfold one_of. cbn [existsb]. now rewrite orb_assoc.
Qed.
Lemma smem_find {B} n (m : smap B) : smem n m = match sfind n m with Some _ => true | None => false end.
Proof. reflexivity. Qed.
Lemma smem_In {B} n (m : smap B) : smem n m = true <-> In n (skeys m).
Proof. rewrite sfind_In, smem_find. destruct (sfind n m); split; [ eauto | reflexivity | discriminate | intros [? ?]; discriminate ]. Qed.
Lemma inv_shape (f : string -> string) rem ren gone c' pv' : inv rem ren gone c' pv' -> (forall n, In n (skeys pv) -> In n (vnames c)) ->
  exists c2, ofold (fun c v => edit_var v (with_shape (map f)) c) (skeys pv') c' = Ok c2 /\ inv rem (fun d => f (ren d)) gone c2 pv'.
Proof.
  intros [S O Q] E.
  assert (K : forall l c1 V, NoDup l -> sem c1 V (fun n => if gone n then None else find_dim n (dims c)) (fun n => if rem n then [] else attrs_of c n) -> (forall n, In n l -> V n <> None) ->
    exists c2, ofold (fun c v => edit_var v (with_shape (map f)) c) l c1 = Ok c2 /\
      sem c2 (fun n => if one_of n l then option_map (with_shape (map f)) (V n) else V n) (fun n => if gone n then None else find_dim n (dims c)) (fun n => if rem n then [] else attrs_of c n)).
  { clear. induction l as [ | a l IH ]; intros c1 V ND S W; cbn [ofold].
    - exists c1. split; [ reflexivity | ]. exact S.
    - inversion ND as [ | ? ? N1 N2 ]. subst. destruct (V a) as [v|] eqn:VA; [ | exfalso; apply (W a (or_introl eq_refl) VA) ].
      destruct (sem_edit c1 V _ _ a (with_shape (map f)) v S (fun _ => eq_refl) VA) as (c2 & -> & S2). cbn [obind].
      destruct (IH c2 _ N2 S2) as (c3 & E3 & S3).
      { intros n I. unfold at_. destruct (String.eqb n a); [ discriminate | apply W; now right ]. }
      exists c3. split; [ exact E3 | ]. apply (sem_ext _ _ _ _ _ _ _ S3); auto. intro n. unfold one_of, at_. cbn [existsb]. fold (one_of n l).
      destruct (String.eqb_spec n a) as [->|N]; [ | reflexivity ]. cbn [orb]. destruct (one_of a l) eqn:OA; [ apply one_of_in in OA; contradiction | ]. now rewrite VA. }
  destruct (K (skeys pv') c' _ (ssorted_NoDup _ O) S) as (c2 & E2 & S2).
  - intros n I. apply sfind_In in I. destruct I as [x X]. rewrite Q in X. unfold Vof. destruct (rem n); [ discriminate | ]. destruct (find_var n (vars c)) eqn:F; [ discriminate | ]. exfalso.
    assert (J : In n (vnames c)) by (apply E, sfind_In; eauto). apply has_var_in in J. unfold has_var in J. rewrite F in J. discriminate.
  - exists c2. split; [ exact E2 | ]. constructor; [ | exact O | exact Q ]. apply (sem_ext _ _ _ _ _ _ _ S2); auto. intro n. unfold Vof.
    assert (M : one_of n (skeys pv') = if rem n then false else smem n pv).
    { assert (B : one_of n (skeys pv') = smem n pv') by (apply eq_true_iff_eq; rewrite one_of_in, smem_In; tauto). rewrite B, !smem_find, Q. now destruct (rem n). }
    rewrite M. destruct (rem n); [ reflexivity | ]. destruct (find_var n (vars c)) as [v|]; [ | now destruct (smem n pv) ]. cbn [option_map]. destruct (smem n pv); [ | reflexivity ]. unfold with_shape. cbn [v_name v_type v_shape v_counterpart v_data]. now rewrite map_map.
Qed.
Lemma inv_drop_dim n rem ren gone c' pv' : inv rem ren gone c' pv' -> (forall m v, Vof rem ren m = Some v -> ~ In n (v_shape v)) ->
  exists c2, drop_dim n c' = Ok c2 /\ inv rem ren (fun d => gone d || String.eqb d n) c2 pv'.
Proof.
  intros [S O Q] U. destruct (sem_drop_dim c' _ _ _ n S U) as (c2 & E & S2). exists c2. split; [ exact E | ]. constructor; auto. apply (sem_ext _ _ _ _ _ _ _ S2); auto. intro m. unfold at_.
  destruct (String.eqb m n); [ now rewrite orb_true_r | now rewrite orb_false_r ].
Qed.

(** the variables describing a projection *)
Definition gm (n : string) : bool := has_var c n && is_some (find_attr "grid_mapping_name" (attrs_of c n)).
Lemma inv_gm rem ren gone c' pv' n : inv rem ren gone c' pv' -> rem n || one_of n (find_variables c' [("grid_mapping_name", fun _ => true)] []) = rem n || gm n.
Proof.
  intros [S _ _]. destruct (rem n) eqn:R; [ reflexivity | ]. cbn [orb]. apply eq_true_iff_eq. rewrite one_of_in. unfold find_variables, gm. rewrite in_map_iff.
  assert (GA : forall m, get_attr c' m "grid_mapping_name" = find_attr "grid_mapping_name" (attrs_of c' m)) by (intro m; unfold get_attr, attrs_of; now destruct (sfind m (attrs c'))).
  cbn [forallb fst snd]. split.
  - intros (v & <- & I). apply filter_In in I. destruct I as [I F]. rewrite GA, (s_a _ _ _ _ S), R in F. apply (sem_in _ _ _ _ v S) in I. unfold Vof in I. rewrite R in I.
    destruct (find_attr "grid_mapping_name" (attrs_of c (v_name v))); [ | discriminate ]. unfold has_var. destruct (find_var (v_name v) (vars c)); [ reflexivity | discriminate ].
  - intro H. apply andb_true_iff in H. destruct H as [H1 H2]. unfold has_var in H1. destruct (find_var n (vars c)) as [v|] eqn:F; [ | discriminate ].
    assert (V : Vof rem ren n = Some (if smem n pv then with_shape (map ren) v else v)) by (unfold Vof; now rewrite R, F). destruct (sem_var _ _ _ _ _ _ S V) as [I N].
    eexists. split; [ exact N | ]. apply filter_In. split; [ exact I | ]. rewrite N, GA, (s_a _ _ _ _ S), R. destruct (find_attr "grid_mapping_name" (attrs_of c n)); [ reflexivity | discriminate ].
Qed.

(** a system with the names of its horizontal axes: with a two-dimensional longitude for x axis the
    dimensions of the longitude *)
Definition stands_on (m : mini P) (x y : string) : Prop := exists a b, geo_x (m_cs m) = Some a /\ geo_y (m_cs m) = Some b /\
  ((exists lon v, find_axis (m_cs m) Lon = Some lon /\ ax_name lon = ax_name a /\ find_var (ax_name a) (vars c) = Some v /\ v_shape v = [x; y]) \/
   (x = ax_name a /\ y = ax_name b /\ forall lon, find_axis (m_cs m) Lon = Some lon -> ax_name lon = ax_name a -> exists v, find_var (ax_name a) (vars c) = Some v /\ length (v_shape v) <> 2)).
(** its names *)
Definition names_of (m : mini P) (xy : string * string) : list string := fst xy :: snd xy :: map ax_name (get_axes (m_cs m)).
(** the old longitudes and latitudes *)
Definition lonlat_of (m : mini P) : list string := match find_axis (m_cs m) Lat, find_axis (m_cs m) Lon with Some a, Some b => [ax_name a; ax_name b] | _, _ => [] end.
Definition has_projection (m : mini P) : bool := match m_proj m with Some _ => true | None => false end.

Lemma find_axis_in cs t z : find_axis cs t = Some z -> In z (get_axes cs).
Proof.
  unfold find_axis, get_axes, find_type. intro H. apply in_or_app. destruct (find (fun a => type_eqb t (AxesModel.a_type a)) (cs_main cs)) eqn:E; [ injection H as <-; left; now apply find_some in E | right; now apply find_some in H ].
Qed.
Lemma old_axes_ok m x y rem ren gone c' pv' : inv rem ren gone c' pv' -> stands_on m x y -> (forall n, In n (names_of m (x, y)) -> rem n = false) -> ren x = x -> ren y = y -> old_axes c' (m_cs m) = Ok (x, y).
Proof.
  intros [S _ _] (a & b & GX & GY & H) RF RX RY. unfold old_axes. rewrite GX, GY.
  assert (IA : In (ax_name a) (names_of m (x, y))).
  { right. right. apply in_map. clear - GX. unfold geo_x in GX. cbn [find_axis_any] in GX. destruct (find_axis (m_cs m) GeoX) as [z|] eqn:E; [ injection GX as <-; exact (find_axis_in _ _ _ E) | ].
    destruct (find_axis (m_cs m) Lon) as [z|] eqn:E2; [ injection GX as <-; exact (find_axis_in _ _ _ E2) | discriminate ]. }
  assert (FA : forall v, find_var (ax_name a) (vars c) = Some v -> find_var (ax_name a) (vars c') = Some (if smem (ax_name a) pv then with_shape (map ren) v else v)).
  { intros v E. rewrite (s_v _ _ _ _ S). unfold Vof. now rewrite (RF _ IA), E. }
  destruct H as [(lon & v & L & N & E & SH)|(-> & -> & H)].
  - rewrite L. rewrite N, String.eqb_refl, (FA v E). cbn [from_option obind]. destruct (smem (ax_name a) pv); cbn [with_shape v_shape]; rewrite SH; cbn [map]; now rewrite ?RX, ?RY.
  - destruct (find_axis (m_cs m) Lon) as [lon|]; [ | reflexivity ]. destruct (String.eqb_spec (ax_name a) (ax_name lon)) as [N|_]; [ | reflexivity ].
    destruct (H lon eq_refl (eq_sym N)) as (v & E & LE). rewrite (FA v E). cbn [from_option obind].
    assert (LL : length (v_shape (if smem (ax_name a) pv then with_shape (map ren) v else v)) <> 2) by (destruct (smem (ax_name a) pv); cbn [with_shape v_shape]; rewrite ?map_length; exact LE).
    destruct (v_shape (if smem (ax_name a) pv then with_shape (map ren) v else v)) as [ | p [ | q [ | r k ] ] ]; cbn in LL; try reflexivity. congruence.
Qed.

(** what the systems do: [f] is the first one, [r] are the others *)
Notation placed := (mini P * (string * string))%type.
Definition xs_of (p : placed) : list string := [fst (snd p); snd (snd p)].
Definition rem_of (f : placed) (r : list placed) (n : string) : bool :=
  existsb (fun p => has_projection (fst p)) (f :: r) && gm n || one_of n (flat_map (fun p => lonlat_of (fst p)) (f :: r)) || one_of n (flat_map xs_of r).
Definition ren_of (f : placed) (r : list placed) (d : string) : string :=
  if one_of d (map (fun p => fst (snd p)) r) then fst (snd f) else if one_of d (map (fun p => snd (snd p)) r) then snd (snd f) else d.
Definition gone_of (r : list placed) (d : string) : bool := one_of d (flat_map xs_of r).
Definition all_names (p : placed) : list string := names_of (fst p) (snd p).

Record apart (L : list placed) : Prop := mkApart {
  p_on : forall p, In p L -> stands_on (fst p) (fst (snd p)) (snd (snd p)) /\ fst (snd p) <> snd (snd p);
  p_apart : forall l1 p l2 q l3, L = l1 ++ p :: l2 ++ q :: l3 -> forall n, In n (all_names p) -> ~ In n (all_names q);
  p_clean : forall p n, In p L -> In n (all_names p) -> gm n = false;
  p_used : forall f p l1 l2, L = f :: l1 ++ p :: l2 -> forall n v d, find_var n (vars c) = Some v -> In d (v_shape v) -> In d (xs_of p) -> In n (skeys pv) \/ In n (xs_of p) \/ In n (lonlat_of (fst p)) }.

Lemma lonlat_names p n : In n (lonlat_of (fst p)) -> In n (all_names p).
Proof.
  unfold lonlat_of, all_names, names_of. destruct (find_axis (m_cs (fst p)) Lat) as [a|] eqn:A; [ | intros [] ]. destruct (find_axis (m_cs (fst p)) Lon) as [b|] eqn:B; [ | intros [] ].
  intro I. right. right. destruct I as [<-|[<-|[]]]; apply in_map; eapply find_axis_in; eassumption.
Qed.
Lemma xs_names p n : In n (xs_of p) -> In n (all_names p).
Proof. intro I. destruct I as [<-|[<-|[]]]; [ left | right; left ]; reflexivity. Qed.
Lemma one_of_app n a b : one_of n (a ++ b) = one_of n a || one_of n b.
Proof. unfold one_of. apply existsb_app. Qed.

Lemma one_of_one n a : one_of n [a] = String.eqb n a.
Proof. unfold one_of. cbn. apply orb_false_r. Qed.

Section Systems.
Variable f : placed.
Variable L : list placed.
Hypothesis AP : apart (f :: L).
Hypothesis PV : forall n, In n (skeys pv) -> In n (vnames c).
Local Notation X := (fst (snd f)).
Local Notation Y := (snd (snd f)).

(** the names of a system that comes later *)
Lemma not_yet r p todo : L = r ++ p :: todo -> forall n, In n (all_names p) -> rem_of f r n = false.
Proof.
  intros E n I. unfold rem_of. rewrite (p_clean _ AP p n); [ | right; rewrite E; apply in_or_app; right; now left | exact I ]. rewrite andb_false_r. cbn [orb].
  assert (D : forall q, In q (f :: r) -> ~ In n (all_names q)).
  { intros q J K. destruct J as [<-|J].
    - exact (p_apart _ AP [] f r p todo ltac:(now rewrite E) n K I).
    - apply in_split in J. destruct J as (l1 & l2 & ->). apply (p_apart _ AP (f :: l1) q l2 p todo) with (n := n); auto. rewrite E. cbn. now rewrite <- app_assoc. }
  assert (Z1 : one_of n (flat_map (fun p => lonlat_of (fst p)) (f :: r)) = false).
  { destruct (one_of n _) eqn:O; [ | reflexivity ]. exfalso. apply one_of_in, in_flat_map in O. destruct O as (q & J & K). exact (D q J (lonlat_names q n K)). }
  assert (Z2 : one_of n (flat_map xs_of r) = false).
  { destruct (one_of n (flat_map xs_of r)) eqn:O; [ | reflexivity ]. exfalso. apply one_of_in, in_flat_map in O. destruct O as (q & J & K). exact (D q (or_intror J) (xs_names q n K)). }
  now rewrite Z1, Z2.
Qed.
Lemma ren_same r p todo : L = r ++ p :: todo -> forall n, In n (all_names p) -> ren_of f r n = n.
Proof.
  intros E n I. unfold ren_of. assert (N := not_yet r p todo E n I). unfold rem_of in N. apply orb_false_iff in N. destruct N as [_ N].
  assert (Z : forall g, (forall q, In (g q) (xs_of q)) -> one_of n (map g r) = false).
  { intros g G. destruct (one_of n (map g r)) eqn:O; [ | reflexivity ]. exfalso. apply one_of_in, in_map_iff in O. destruct O as (q & <- & J). assert (K : one_of (g q) (flat_map xs_of r) = true) by (apply one_of_in, in_flat_map; exists q; auto). congruence. }
  rewrite (Z (fun p => fst (snd p))), (Z (fun p => snd (snd p))); [ reflexivity | | ]; intro q; unfold xs_of; cbn; auto.
Qed.

Lemma pass_ok r p todo c' pv' : L = r ++ p :: todo -> inv (rem_of f r) (ren_of f r) (gone_of r) c' pv' ->
  exists c2 pv2, pass P (c', pv', Some (X, Y)) (fst p) = Ok (c2, pv2, Some (X, Y)) /\ inv (rem_of f (r ++ [p])) (ren_of f (r ++ [p])) (gone_of (r ++ [p])) c2 pv2.
Proof.
  intros E I. set (x := fst (snd p)) in *. set (y := snd (snd p)) in *.
  assert (IP : In p (f :: L)) by (right; rewrite E; apply in_or_app; right; now left).
  destruct (p_on _ AP p IP) as [ON XY]. fold x y in ON, XY.
  assert (NE : forall n, In n (all_names p) -> ~ In n (all_names f)) by (intros n J K; exact (p_apart _ AP [] f r p todo ltac:(now rewrite E) n K J)).
  assert (XP : In x (all_names p)) by now left. assert (YP : In y (all_names p)) by (right; now left).
  assert (xX : x <> X) by (intro Q; apply (NE x XP); rewrite Q; now left). assert (xY : x <> Y) by (intro Q; apply (NE x XP); rewrite Q; right; now left).
  assert (yX : y <> X) by (intro Q; apply (NE y YP); rewrite Q; now left). assert (yY : y <> Y) by (intro Q; apply (NE y YP); rewrite Q; right; now left).
  unfold pass.
  (* the projections *)
  set (s1 := match m_proj (fst p) with Some _ => drops (find_variables c' [("grid_mapping_name", fun _ => true)] []) (c', pv') | None => (c', pv') end).
  set (rem1 := fun n => rem_of f r n || has_projection (fst p) && gm n).
  assert (I1 : inv rem1 (ren_of f r) (gone_of r) (fst s1) (snd s1)).
  { unfold s1, rem1, has_projection. destruct (m_proj (fst p)).
    - apply (inv_ext _ _ _ _ _ _ _ _ (inv_drops (find_variables c' [("grid_mapping_name", fun _ => true)] []) _ _ _ _ _ I)); auto. intro n. rewrite (inv_gm _ _ _ _ _ n I). reflexivity.
    - apply (inv_ext _ _ _ _ _ _ _ _ I); auto. intro n. cbn. now rewrite orb_false_r. }
  destruct s1 as [c1 pv1]. cbn [fst snd] in I1.
  rewrite (old_axes_ok (fst p) x y _ _ _ _ _ I1 ON).
  2:{ intros n J. unfold rem1. rewrite (not_yet r p todo E n), (p_clean _ AP p n IP); [ now rewrite andb_false_r | | ]; unfold all_names; destruct p as [m [? ?]]; exact J. }
  2:{ exact (ren_same r p todo E x XP). }
  2:{ exact (ren_same r p todo E y YP). }
  cbn [obind].
  set (g := fun d => let d' := if String.eqb d x then X else d in if String.eqb d' y then Y else d').
  destruct (inv_shape g _ _ _ _ _ I1 PV) as (c2 & E2 & I2).
  assert (E2' : ofold (fun c v => edit_var v (with_shape (fun l => swap y Y (swap x X l))) c) (skeys pv1) c1 = Ok c2).
  { rewrite <- E2. apply ofold_ext_fun. intros c0 v. unfold edit_var, with_shape, swap. destruct (has_var c0 v); [ | reflexivity ]. f_equal. f_equal. apply map_ext. intro w. destruct (String.eqb v (v_name w)); [ | reflexivity ]. now rewrite map_map. }
  rewrite E2'. cbn [obind].
  assert (I3 := inv_drops [x; y] _ _ _ _ _ I2). destruct (drops [x; y] (c2, pv1)) as [c3 pv3]. cbn [fst snd] in I3.
  set (s4 := match find_axis (m_cs (fst p)) Lat with Some lat => match find_axis (m_cs (fst p)) Lon with Some lon => drops [ax_name lat; ax_name lon] (c3, pv3) | None => (c3, pv3) end | None => (c3, pv3) end).
  assert (I4 : inv (fun n => (rem1 n || one_of n [x; y]) || one_of n (lonlat_of (fst p))) (fun d => g (ren_of f r d)) (gone_of r) (fst s4) (snd s4)).
  { unfold s4, lonlat_of. destruct (find_axis (m_cs (fst p)) Lat) as [la|]; [ destruct (find_axis (m_cs (fst p)) Lon) as [lo|] | ].
    - apply (inv_drops [ax_name la; ax_name lo] _ _ _ _ _ I3).
    - apply (inv_ext _ _ _ _ _ _ _ _ I3); auto. intro n. cbn [fst]. now rewrite orb_false_r.
    - apply (inv_ext _ _ _ _ _ _ _ _ I3); auto. intro n. now rewrite orb_false_r. }
  destruct s4 as [c4 pv4]. cbn [fst snd] in I4.
  assert (U : forall d, In d [x; y] -> forall m v, Vof (fun n => (rem1 n || one_of n [x; y]) || one_of n (lonlat_of (fst p))) (fun d => g (ren_of f r d)) m = Some v -> ~ In d (v_shape v)).
  { intros d D m v. unfold Vof. destruct ((rem1 m || one_of m [x; y]) || one_of m (lonlat_of (fst p))) eqn:R; [ discriminate | ]. destruct (find_var m (vars c)) as [w|] eqn:W; [ | discriminate ]. cbn [option_map]. intro Q. injection Q as <-.
    destruct (smem m pv) eqn:SM.
    - cbn [with_shape v_shape]. intro J. apply in_map_iff in J. destruct J as (e & G & _). unfold g in G. cbv zeta in G.
      destruct (String.eqb_spec (ren_of f r e) x) as [Q|Q].
      + destruct (String.eqb_spec X y) as [Q2|_]; [ congruence | ]. destruct D as [<-|[<-|[]]]; congruence.
      + destruct (String.eqb_spec (ren_of f r e) y) as [Q2|Q2]; destruct D as [<-|[<-|[]]]; congruence.
    - intro J. assert (EQ : f :: L = f :: r ++ p :: todo) by now rewrite E.
      apply orb_false_iff in R. destruct R as [R R3]. apply orb_false_iff in R. destruct R as [_ R2].
      destruct (p_used _ AP f p r todo EQ m w d W J D) as [K|[K|K]].
      + apply smem_In in K. congruence.
      + apply one_of_in in K. unfold xs_of in K. fold x y in K. congruence.
      + apply one_of_in in K. congruence. }
  destruct (String.eqb_spec x X) as [Q|_]; [ contradiction | ].
  destruct (inv_drop_dim x _ _ _ _ _ I4 (U x (or_introl eq_refl))) as (c5 & -> & I5). cbn [obind].
  destruct (inv_drop_dim y _ _ _ _ _ I5 (U y (or_intror (or_introl eq_refl)))) as (c6 & -> & I6). cbn [obind].
  exists c6, pv4. split; [ reflexivity | ]. apply (inv_ext _ _ _ _ _ _ _ _ I6).
  - intro n. unfold rem1, rem_of. rewrite !flat_map_app, !one_of_app. cbn [existsb flat_map]. rewrite existsb_app. cbn [existsb]. rewrite !app_nil_r, !one_of_app, flat_map_app, one_of_app. cbn [flat_map]. rewrite app_nil_r. change (xs_of p) with [x; y].
    destruct (gm n), (has_projection (fst f)), (existsb (fun p0 => has_projection (fst p0)) r), (has_projection (fst p)), (one_of n (lonlat_of (fst f))), (one_of n (flat_map (fun p0 => lonlat_of (fst p0)) r)), (one_of n (flat_map xs_of r)), (one_of n [x; y]), (one_of n (lonlat_of (fst p))); reflexivity.
  - intro d. unfold g, ren_of. cbv zeta. rewrite !map_app, !one_of_app. cbn [map]. fold x y. rewrite !one_of_one.
    destruct (one_of d (map (fun q => fst (snd q)) r)) eqn:O1; cbn [orb].
    { destruct (String.eqb_spec X x) as [Q|_]; [ congruence | ]. destruct (String.eqb_spec X y) as [Q|_]; [ congruence | reflexivity ]. }
    destruct (one_of d (map (fun q => snd (snd q)) r)) eqn:O2; cbn [orb].
    { destruct (String.eqb_spec Y x) as [Q|_]; [ congruence | ]. destruct (String.eqb_spec Y y) as [Q|_]; [ congruence | ]. destruct (String.eqb_spec d x) as [->|_]; [ | reflexivity ].
      exfalso. assert (K := not_yet r p todo E x XP). unfold rem_of in K. apply orb_false_iff in K. destruct K as [_ K]. apply one_of_in, in_map_iff in O2. destruct O2 as (q & Q & J).
      assert (K' : one_of x (flat_map xs_of r) = true) by (apply one_of_in, in_flat_map; exists q; split; [ exact J | right; left; exact Q ]). congruence. }
    destruct (String.eqb_spec d x) as [->|_]; [ | reflexivity ]. destruct (String.eqb_spec X y) as [Q|_]; [ congruence | reflexivity ].
  - intro d. unfold gone_of. rewrite flat_map_app, one_of_app. cbn [flat_map]. rewrite app_nil_r. change (xs_of p) with [x; y]. unfold one_of at 3. cbn [existsb]. now rewrite orb_false_r, orb_assoc.
Qed.
Lemma passes_ok todo : forall r c' pv', L = r ++ todo -> inv (rem_of f r) (ren_of f r) (gone_of r) c' pv' ->
  exists c2 pv2, ofold (pass P) (map fst todo) (c', pv', Some (X, Y)) = Ok (c2, pv2, Some (X, Y)) /\ inv (rem_of f L) (ren_of f L) (gone_of L) c2 pv2.
Proof.
  induction todo as [ | p todo IH ]; intros r c' pv' E I; cbn [map ofold].
  - exists c', pv'. split; [ reflexivity | ]. rewrite E, app_nil_r. exact I.
  - destruct (pass_ok r p todo c' pv' E I) as (c2 & pv2 & -> & I2). cbn [obind]. apply (IH (r ++ [p])); [ now rewrite E, <- app_assoc | exact I2 ].
Qed.
Lemma loop_ok : consistent c -> ssorted pv ->
  exists c2 pv2, ofold (pass P) (map fst (f :: L)) (c, pv, None) = Ok (c2, pv2, Some (X, Y)) /\ inv (rem_of f L) (ren_of f L) (gone_of L) c2 pv2.
Proof.
  intros C O. cbn [map ofold]. destruct (p_on _ AP f (or_introl eq_refl)) as [ON XY].
  assert (I0 : inv (fun _ => false) (fun d => d) (fun _ => false) c pv).
  { constructor; [ | exact O | reflexivity ]. apply (sem_ext _ _ _ _ _ _ _ (sem_self c C)); auto. intro n. unfold Vof. destruct (find_var n (vars c)) as [v|]; [ | reflexivity ]. cbn [option_map]. destruct (smem n pv); [ | reflexivity ]. destruct v. unfold with_shape. cbn. now rewrite map_id. }
  unfold pass.
  set (s1 := match m_proj (fst f) with Some _ => drops (find_variables c [("grid_mapping_name", fun _ => true)] []) (c, pv) | None => (c, pv) end).
  assert (I1 : inv (fun n => has_projection (fst f) && gm n) (fun d => d) (fun _ => false) (fst s1) (snd s1)).
  { unfold s1, has_projection. destruct (m_proj (fst f)).
    - apply (inv_ext _ _ _ _ _ _ _ _ (inv_drops (find_variables c [("grid_mapping_name", fun _ => true)] []) _ _ _ _ _ I0)); auto. intro n. exact (inv_gm _ _ _ _ _ n I0).
    - exact I0. }
  destruct s1 as [c1 pv1]. cbn [fst snd] in I1.
  rewrite (old_axes_ok (fst f) X Y _ _ _ _ _ I1 ON).
  2:{ intros n J. rewrite (p_clean _ AP f n (or_introl eq_refl)); [ now rewrite andb_false_r | ]. unfold all_names. destruct f as [m [? ?]]; exact J. }
  2:{ reflexivity. } 2:{ reflexivity. }
  cbn [obind].
  set (s4 := match find_axis (m_cs (fst f)) Lat with Some lat => match find_axis (m_cs (fst f)) Lon with Some lon => drops [ax_name lat; ax_name lon] (c1, pv1) | None => (c1, pv1) end | None => (c1, pv1) end).
  assert (I4 : inv (rem_of f []) (ren_of f []) (gone_of []) (fst s4) (snd s4)).
  { assert (K : inv (fun n => has_projection (fst f) && gm n || one_of n (lonlat_of (fst f))) (fun d => d) (fun _ => false) (fst s4) (snd s4)).
    { unfold s4, lonlat_of. destruct (find_axis (m_cs (fst f)) Lat) as [la|]; [ destruct (find_axis (m_cs (fst f)) Lon) as [lo|] | ].
      - apply (inv_drops [ax_name la; ax_name lo] _ _ _ _ _ I1).
      - apply (inv_ext _ _ _ _ _ _ _ _ I1); auto. intro n. cbn [fst]. now rewrite orb_false_r.
      - apply (inv_ext _ _ _ _ _ _ _ _ I1); auto. intro n. now rewrite orb_false_r. }
    apply (inv_ext _ _ _ _ _ _ _ _ K); auto. intro n. unfold rem_of. cbn [existsb flat_map]. rewrite app_nil_r. unfold one_of at 3. cbn [existsb]. now rewrite !orb_false_r. }
  destruct s4 as [c4 pv4]. cbn [fst snd] in I4. rewrite String.eqb_refl. cbn [obind]. apply (passes_ok L []); [ reflexivity | exact I4 ].
Qed.
End Systems.
End Loop.
