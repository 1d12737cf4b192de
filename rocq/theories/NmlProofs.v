(** Lemmas on the changes an NcML document makes (NmlModel). *)
From Coq Require Import NArith ZArith QArith Qcanon Ascii String List Bool Lia.
From Verif Require Import Base StdMap SliceModel RegridModel StringModel TextModel ConvertModel CdmModel CdmProofs NmlModel.
Import ListNotations.
Local Open Scope string_scope.
Local Open Scope list_scope.
Local Open Scope nat_scope.

Lemma bok {A B} (o : outcome A) (f : A -> outcome B) b : obind o f = Ok b -> exists a, o = Ok a /\ f a = Ok b.
Proof. destruct o; cbn; try discriminate. eauto. Qed.
Ltac ob H := let a := fresh "a" in let E := fresh "E" in apply bok in H; destruct H as (a & E & H).

Lemma oapp {T B} (f : T -> B -> outcome T) l1 l2 s : ofold f (l1 ++ l2) s = (do s' <- ofold f l1 s; ofold f l2 s').
Proof. revert s. induction l1 as [ | x l1 IH ]; intro s; cbn; [ reflexivity | ]. destruct (f s x); cbn; auto. Qed.
(** an invariant of a successful loop *)
Lemma okeep {T B} (P : T -> Prop) (f : T -> B -> outcome T) l :
  (forall s a s', In a l -> P s -> f s a = Ok s' -> P s') -> forall s s', P s -> ofold f l s = Ok s' -> P s'.
Proof.
  induction l as [ | a l IH ]; intros H s s' Ps E; cbn in E; [ now injection E as <- | ].
  ob E. eapply IH; [ | | exact E ]; [ intros; eapply H; eauto; now right | ]. eapply H; eauto. now left.
Qed.

(** what is known of a variable: itself and its attributes *)
Definition view (c : cdm) (x : string) : option cvar * list cattr := (find_var x (vars c), attrs_of c x).

Lemma view_remove_var c n x : x <> n -> view (remove_var c n) x = view c x.
Proof.
  intro D. unfold view. rewrite find_var_removed, attrs_of_removed. apply String.eqb_neq in D. now rewrite D.
Qed.
Lemma view_remove_attr c n a x : view (remove_attr c n a) x =
  (find_var x (vars c), if String.eqb x n then filter (fun y => negb (String.eqb a (a_name y))) (attrs_of c n) else attrs_of c x).
Proof.
  unfold view. rewrite attrs_of_remove_attr. f_equal. unfold remove_attr. now destruct (sfind n (attrs c)).
Qed.
Lemma remove_attr_vars c n a : vars (remove_attr c n a) = vars c.
Proof. unfold remove_attr. now destruct (sfind n (attrs c)). Qed.
Lemma remove_attr_dims c n a : dims (remove_attr c n a) = dims c.
Proof. unfold remove_attr. now destruct (sfind n (attrs c)). Qed.
Lemma remove_dim_spec c n c' b : remove_dim c n false = (c', Done b) ->
  vars c' = vars c /\ attrs c' = attrs c /\ dims c' = filter (fun d => negb (String.eqb n (d_name d))) (dims c) /\ dim_in_use c n = false.
Proof.
  unfold remove_dim. destruct (negb false && dim_in_use c n) eqn:E; [ discriminate | ]. intro H. injection H as <- _. cbn in *. auto.
Qed.

Lemma upd_var_names n f l : (forall v, v_name (f v) = v_name v) -> map v_name (upd_var n f l) = map v_name l.
Proof.
  intro F. induction l as [ | v l IH ]; cbn; [ reflexivity | ].
  destruct (String.eqb n (v_name v)); cbn; [ now rewrite F | now rewrite IH ].
Qed.
Lemma find_upd_var x n f l : (forall v, v_name (f v) = v_name v) ->
  find_var x (upd_var n f l) = if String.eqb x n then option_map f (find_var x l) else find_var x l.
Proof.
  intro F. unfold find_var. induction l as [ | v l IH ]; cbn; [ now destruct (String.eqb x n) | ].
  destruct (String.eqb_spec n (v_name v)) as [ -> | D ]; cbn.
  - rewrite F. destruct (String.eqb_spec x (v_name v)); [ reflexivity | now destruct (String.eqb x (v_name v)) ].
  - rewrite IH. destruct (String.eqb_spec x (v_name v)) as [ -> | D2 ]; [ | reflexivity ].
    destruct (String.eqb_spec (v_name v) n); congruence.
Qed.
Lemma view_change_var c n f x : (forall v, v_name (f v) = v_name v) ->
  view (change_var c n f) x = if String.eqb x n then (option_map f (find_var x (vars c)), attrs_of c x) else view c x.
Proof.
  intro F. unfold view, change_var. cbn [vars attrs]. rewrite find_upd_var by assumption.
  unfold attrs_of; cbn [attrs]. now destruct (String.eqb x n).
Qed.
Lemma consistent_change c n f : (forall v, v_name (f v) = v_name v) -> consistent c -> consistent (change_var c n f).
Proof.
  intros F [A B C D E]. assert (V : vnames (change_var c n f) = vnames c) by (apply upd_var_names; exact F).
  constructor; cbn [change_var dims attrs]; try assumption; rewrite ?V; try assumption.
Qed.

Lemma find_map_keep x (f : cvar -> cvar) l : (forall v, v_name (f v) = v_name v) -> find_var x (map f l) = option_map f (find_var x l).
Proof.
  intro F. unfold find_var. induction l as [ | v l IH ]; cbn; [ reflexivity | ]. rewrite F.
  destruct (String.eqb x (v_name v)); [ reflexivity | exact IH ].
Qed.

(** *** dimensions *)
Lemma set_len_names n len l : map d_name (set_len n len l) = map d_name l.
Proof. induction l as [ | d l IH ]; cbn; [ reflexivity | ]. destruct (String.eqb n (d_name d)); cbn; congruence. Qed.
Lemma set_unlim_names n b l : map d_name (set_unlim n b l) = map d_name l.
Proof. induction l as [ | d l IH ]; cbn; [ reflexivity | ]. destruct (String.eqb n (d_name d)); cbn; congruence. Qed.
Lemma find_set_len x n len l : find_dim x (set_len n len l) =
  if String.eqb x n then option_map (fun d => mkDim (d_name d) len (d_unlim d)) (find_dim x l) else find_dim x l.
Proof.
  unfold find_dim. induction l as [ | v l IH ]; cbn; [ now destruct (String.eqb x n) | ].
  destruct (String.eqb_spec n (v.(d_name))) as [ -> | D ]; cbn.
  - destruct (String.eqb_spec x (d_name v)); [ reflexivity | now destruct (String.eqb x (d_name v)) ].
  - rewrite IH. destruct (String.eqb_spec x (d_name v)) as [ -> | D2 ]; [ | reflexivity ].
    destruct (String.eqb_spec (d_name v) n); congruence.
Qed.
Lemma find_set_unlim x n b l : find_dim x (set_unlim n b l) =
  if String.eqb x n then option_map (fun d => mkDim (d_name d) (d_len d) b) (find_dim x l) else find_dim x l.
Proof.
  unfold find_dim. induction l as [ | v l IH ]; cbn; [ now destruct (String.eqb x n) | ].
  destruct (String.eqb_spec n (v.(d_name))) as [ -> | D ]; cbn.
  - destruct (String.eqb_spec x (d_name v)); [ reflexivity | now destruct (String.eqb x (d_name v)) ].
  - rewrite IH. destruct (String.eqb_spec x (d_name v)) as [ -> | D2 ]; [ | reflexivity ].
    destruct (String.eqb_spec (d_name v) n); congruence.
Qed.
Lemma find_dim_app x l d : find_dim x (l ++ [d]) = match find_dim x l with Some y => Some y | None => if String.eqb x (d_name d) then Some d else None end.
Proof. unfold find_dim. induction l as [ | y l IH ]; cbn; [ reflexivity | ]. destruct (String.eqb x (d_name y)); [ reflexivity | exact IH ]. Qed.
Lemma find_var_app x l d : find_var x (l ++ [d]) = match find_var x l with Some y => Some y | None => if String.eqb x (v_name d) then Some d else None end.
Proof. unfold find_var. induction l as [ | y l IH ]; cbn; [ reflexivity | ]. destruct (String.eqb x (v_name y)); [ reflexivity | exact IH ]. Qed.
Lemma has_dim_find c n : has_dim c n = match find_dim n (dims c) with Some _ => true | None => false end.
Proof. reflexivity. Qed.

(** renaming one dimension: other exceptions and failures aside *)
Lemma rename_dim_spec c o n ig c' b : consistent c -> has_dim c o = true -> o <> n -> rename_dim c o n ig = (c', Done b) ->
  vars c' = map (rename_shape o n) (vars c) /\ attrs c' = attrs c /\ consistent c' /\
  (forall x, find_dim x (dims c') = if String.eqb x o then None else if String.eqb x n then option_map (drenamed n) (find_dim o (dims c)) else find_dim x (dims c)).
Proof.
  intros C H D E.
  assert (C' : consistent c') by (pose proof (consistent_rename_dim c o n ig C) as X; rewrite E in X; exact X).
  destruct (negb ig && dim_in_use c n) eqn:U.
  - unfold rename_dim in E. rewrite H in E. cbn [negb] in E.
    destruct (has_dim c n) eqn:Hn; [ rewrite U in E; discriminate | ].
    apply andb_true_iff in U. destruct U as [_ U]. unfold dim_in_use in U. rewrite Hn in U. discriminate.
  - rewrite rename_dim_ok in E; try assumption.
    2:{ apply andb_false_iff in U. destruct U as [U | U]; [ left; now destruct ig | now right ]. }
    injection E as <- <-. cbn [vars attrs dims]. split; [ reflexivity | split; [ reflexivity | split; [ exact C' | ] ] ].
    intro x. unfold find_dim. rewrite (find_renamed_gen _ d_name drenamed); try assumption.
    + destruct (String.eqb_spec x o) as [ -> | Dx ]; [ reflexivity | ].
      destruct (String.eqb_spec x n) as [ -> | Dn ].
      * f_equal. rewrite (fnd_filter d_name). destruct (String.eqb_spec o n); [ contradiction | reflexivity ].
      * rewrite (fnd_filter d_name). apply String.eqb_neq in Dn. now rewrite Dn.
    + reflexivity.
    + rewrite names_filter, filter_In. intros [_ X]. now rewrite String.eqb_refl in X.
Qed.
Lemma rename_dim_same c n ig c' b : consistent c -> has_dim c n = true -> rename_dim c n n ig = (c', Done b) -> False.
Proof.
  intros C H E. unfold rename_dim in E. rewrite H in E. cbn [negb] in E.
  destruct (negb ig && dim_in_use c n) eqn:U; [ discriminate | ]. unfold remove_dim in E. rewrite U in E.
  assert (X : has_dim (mkCdm (vars c) (filter (fun d => negb (String.eqb n (d_name d))) (dims c)) (attrs c)) n = false).
  { apply has_dim_false. unfold dnames. cbn [dims]. rewrite names_filter, filter_In. intros [_ Y]. now rewrite String.eqb_refl in Y. }
  rewrite X in E. discriminate.
Qed.

(** *** which elements speak of a variable *)
Definition mentions (e : varel) (x : string) : Prop := prop (xe_name e) = x \/ xe_org e = Some x.
Lemma target_mentions e x : target e = x -> mentions e x.
Proof.
  unfold target, mentions. destruct (xe_org e) as [o|]; cbn [prop]; [ | left; exact H ].
  destruct (isempty o); intro H; [ now left | right; now rewrite H ].
Qed.

(** *** phase 1: remove *)
Definition rm_atts (l : list varel) (x : string) : list string :=
  flat_map (fun e => if String.eqb (target e) x then map rm_name (xe_removes e) else []) l.
Definition without (names : list string) (l : list cattr) : list cattr :=
  filter (fun y => negb (existsb (String.eqb (a_name y)) names)) l.
Lemma filter_and {A} (f g : A -> bool) l : filter f (filter g l) = filter (fun x => g x && f x) l.
Proof. induction l as [ | a l IH ]; cbn; [ reflexivity | ]. destruct (g a); cbn; rewrite IH; reflexivity. Qed.
Lemma without_app n1 n2 l : without n2 (without n1 l) = without (n1 ++ n2) l.
Proof.
  unfold without. rewrite filter_and. apply filter_ext. intro a. rewrite existsb_app. now rewrite negb_orb.
Qed.
Lemma without_nil l : without [] l = l.
Proof. unfold without. cbn. induction l as [ | a l IH ]; cbn; congruence. Qed.
Lemma without_one a l : filter (fun y => negb (String.eqb a (a_name y))) l = without [a] l.
Proof. unfold without. apply filter_ext. intro y. cbn. rewrite orb_false_r. now rewrite String.eqb_sym. Qed.

Lemma remove_one_view c r c' x : remove_one c r = Ok c' -> x <> global_ns ->
  ~ (rm_type r = "variable" /\ rm_name r = x) -> view c' x = view c x.
Proof.
  unfold remove_one. destruct (isempty (rm_name r)); [ discriminate | ]. destruct (isempty (rm_type r)); [ discriminate | ].
  destruct (String.eqb_spec (rm_type r) "variable") as [ Ev | _ ].
  { intros H G N. injection H as <-. apply view_remove_var. intro X. apply N. auto. }
  destruct (String.eqb (rm_type r) "dimension").
  { destruct (remove_dim c (rm_name r) false) as [c2 [b|]] eqn:E; [ | discriminate ]. intros H _ _. injection H as <-.
    apply remove_dim_spec in E. destruct E as (V & A & _). unfold view, attrs_of. now rewrite V, A. }
  destruct (String.eqb (rm_type r) "attribute").
  { intros H G _. injection H as <-. rewrite view_remove_attr. apply String.eqb_neq in G. now rewrite G. }
  destruct (String.eqb (rm_type r) "group"); [ | discriminate ]. intros H _ _. now injection H as <-.
Qed.
Lemma remove_one_consistent c r c' : remove_one c r = Ok c' -> consistent c -> consistent c'.
Proof.
  unfold remove_one. destruct (isempty (rm_name r)); [ discriminate | ]. destruct (isempty (rm_type r)); [ discriminate | ].
  destruct (String.eqb (rm_type r) "variable"). { intros H C. injection H as <-. now apply consistent_removed. }
  destruct (String.eqb (rm_type r) "dimension").
  { pose proof (consistent_remove_dim c (rm_name r) false) as K.
    destruct (remove_dim c (rm_name r) false) as [c2 [b|]] eqn:E; [ | discriminate ]. intros H C. injection H as <-. auto. }
  destruct (String.eqb (rm_type r) "attribute"). { intros H C. injection H as <-. now apply consistent_remove_attr. }
  destruct (String.eqb (rm_type r) "group"); [ | discriminate ]. intros H C. now injection H as <-.
Qed.
Lemma remove_att_spec c er c' : remove_att c er = Ok c' -> c' = remove_attr c (target (fst er)) (rm_name (snd er)).
Proof.
  destruct er as [e r]. unfold remove_att. destruct (isempty (rm_name r)); [ discriminate | ].
  destruct (negb (String.eqb (rm_type r) "attribute")); [ discriminate | ]. destruct (isempty (target e)); [ discriminate | ].
  cbn. congruence.
Qed.
Lemma remove_atts_spec l : forall c c', ofold remove_att (flat_map (fun e => map (pair e) (xe_removes e)) l) c = Ok c' ->
  vars c' = vars c /\ dims c' = dims c /\ (consistent c -> consistent c') /\
  forall x, attrs_of c' x = without (rm_atts l x) (attrs_of c x).
Proof.
  induction l as [ | e l IH ]; intros c c' H; cbn [flat_map] in H.
  { injection H as <-. do 3 (split; [ auto | ]). intro x. now rewrite without_nil. }
  rewrite oapp in H. ob H. apply IH in H. destruct H as (V2 & D2 & C2 & A2).
  assert (K : vars a = vars c /\ dims a = dims c /\ (consistent c -> consistent a) /\
    forall x, attrs_of a x = without (if String.eqb (target e) x then map rm_name (xe_removes e) else []) (attrs_of c x)).
  { clear - E. revert c E. induction (xe_removes e) as [ | r rs IH ]; intros c E; cbn [map ofold] in E.
    - injection E as <-. do 3 (split; [ auto | ]). intro x. cbn. destruct (String.eqb (target e) x); now rewrite without_nil.
    - ob E. apply remove_att_spec in E0. cbn [fst snd] in E0. subst a0. apply IH in E. destruct E as (V & D & C & A).
      rewrite remove_attr_vars in V. rewrite remove_attr_dims in D.
      do 2 (split; [ auto | ]). split. { intro X. apply C. now apply consistent_remove_attr. }
      intro x. rewrite A, attrs_of_remove_attr. rewrite (String.eqb_sym x). destruct (String.eqb_spec (target e) x) as [ <- | N ].
      + rewrite without_one, without_app. reflexivity.
      + reflexivity. }
  destruct K as (V1 & D1 & C1 & A1). do 2 (split; [ congruence | ]). split; [ auto | ].
  intro x. rewrite A2, A1. rewrite without_app. reflexivity.
Qed.
Lemma init_remove_view d c c' x : init_remove d c = Ok c' -> x <> global_ns ->
  (forall r, In r (removes d) -> rm_type r = "variable" -> rm_name r <> x) ->
  view c' x = (find_var x (vars c), without (rm_atts (varels d) x) (attrs_of c x)).
Proof.
  unfold init_remove. intros H G N. ob H. apply remove_atts_spec in H. destruct H as (V & _ & _ & A).
  assert (K : view a x = view c x).
  { apply (okeep (fun s => view s x = view c x) remove_one (removes d)) with (s := c); auto.
    intros s r s' I P F. rewrite <- P. apply (remove_one_view s r s' x F G). intros [X Y]. exact (N r I X Y). }
  unfold view in K |- *. injection K as K1 K2. rewrite V, A, K1, K2. reflexivity.
Qed.
Lemma init_remove_consistent d c c' : init_remove d c = Ok c' -> consistent c -> consistent c'.
Proof.
  unfold init_remove. intros H C. ob H. apply remove_atts_spec in H. destruct H as (_ & _ & K & _). apply K.
  revert E. apply okeep; auto. intros s r s' _ P F. eapply remove_one_consistent; eauto.
Qed.

(** *** phase 2: renaming dimensions *)
Definition orgs (l : list dimel) : list string := flat_map (fun e => match de_org e with Some o => [o] | None => [] end) l.
Definition news (l : list dimel) : list string := flat_map (fun e => match de_org e with Some _ => [de_name e] | None => [] end) l.
(** no dimension is renamed twice, and none to a name that is itself renamed *)
Definition plain (l : list dimel) : Prop := NoDup (orgs l) /\ forall x, In x (orgs l) -> ~ In x (news l).
Definition renames_to (l : list dimel) (x : string) : option string :=
  option_map de_name (find (fun e => match de_org e with Some o => String.eqb o x | None => false end) l).
(** the new name of a dimension of [c] *)
Definition rn (l : list dimel) (c : cdm) (x : string) : string :=
  match renames_to l x with Some n => if has_dim c x then n else x | None => x end.
Definition reshape (f : string -> string) (v : cvar) : cvar := with_shape (map f (v_shape v)) v.

Lemma renames_none l x : ~ In x (orgs l) -> renames_to l x = None.
Proof.
  unfold renames_to. induction l as [ | e l IH ]; cbn; [ reflexivity | ]. intro N.
  destruct (de_org e) as [o|]; [ | apply IH; auto ].
  destruct (String.eqb_spec o x) as [ -> | D ]; [ exfalso; apply N; now left | ]. apply IH. intro X. apply N. now right.
Qed.
Lemma plain_cons e l : plain (e :: l) -> plain l /\
  forall o, de_org e = Some o -> ~ In o (orgs l) /\ o <> de_name e /\ ~ In (de_name e) (orgs l) /\ ~ In o (news l).
Proof.
  intros [N P]. unfold orgs, news in *. cbn [flat_map] in *. destruct (de_org e) as [o|] eqn:E; cbn [app] in *.
  - inversion N as [ | ? ? N1 N2 ]; subst. split.
    + split; [ exact N2 | ]. intros x X Y. apply (P x); [ now right | now right ].
    + intros o' Eo. injection Eo as <-. repeat split.
      * exact N1.
      * intro X. apply (P o); [ now left | left; now symmetry ].
      * intro X. apply (P (de_name e)); [ now right | now left ].
      * intro X. apply (P o); [ now left | now right ].
  - split; [ split; assumption | discriminate ].
Qed.
Lemma rename_dimel_spec s e s' : rename_dimel s e = Ok s' -> consistent (n_cdm s) ->
  (match de_org e with Some o => has_dim (n_cdm s) o = false | None => True end /\ s' = s) \/
  (exists o, de_org e = Some o /\ has_dim (n_cdm s) o = true /\ o <> de_name e /\ de_name e <> "" /\
     consistent (n_cdm s') /\ vars (n_cdm s') = map (rename_shape o (de_name e)) (vars (n_cdm s)) /\ attrs (n_cdm s') = attrs (n_cdm s) /\
     (forall x, find_dim x (dims (n_cdm s')) = if String.eqb x o then None else if String.eqb x (de_name e)
        then option_map (drenamed (de_name e)) (find_dim o (dims (n_cdm s))) else find_dim x (dims (n_cdm s))) /\
     n_vmap s' = n_vmap s /\ n_tmap s' = n_tmap s /\ n_dmap s' = sput o (de_name e) (n_dmap s)).
Proof.
  unfold rename_dimel. intros H C. destruct (de_org e) as [o|]; [ | left; now injection H as <- ].
  destruct (has_dim (n_cdm s) o) eqn:Ho; [ | left; now injection H as <- ].
  destruct (isempty (de_name e)) eqn:En; [ discriminate | ].
  destruct (rename_dim (n_cdm s) o (de_name e) (String.eqb (de_over e) "true")) as [c' [b|]] eqn:E; [ | discriminate ].
  injection H as <-. right. exists o. cbn [n_cdm n_vmap n_tmap n_dmap].
  assert (D : o <> de_name e) by (intro X; rewrite <- X in E; exact (rename_dim_same _ _ _ _ _ C Ho E)).
  apply rename_dim_spec in E; auto. destruct E as (V & A & C' & F).
  unfold isempty in En. apply String.eqb_neq in En. repeat (split; [ assumption || reflexivity | ]). reflexivity.
Qed.
Lemma reshape_id v : reshape (fun x => x) v = v.
Proof. unfold reshape, with_shape. rewrite map_id. now destruct v. Qed.
Lemma map_ext_in' {A B} (f g : A -> B) l : (forall a, In a l -> f a = g a) -> map f l = map g l.
Proof. exact (map_ext_in f g l). Qed.

Lemma rename_dims_spec l : forall s s', plain l -> consistent (n_cdm s) -> ofold rename_dimel l s = Ok s' ->
  consistent (n_cdm s') /\ vars (n_cdm s') = map (reshape (rn l (n_cdm s))) (vars (n_cdm s)) /\ attrs (n_cdm s') = attrs (n_cdm s) /\
  n_vmap s' = n_vmap s /\ n_tmap s' = n_tmap s /\
  (forall x, ~ In x (orgs l) -> ~ In x (news l) -> find_dim x (dims (n_cdm s')) = find_dim x (dims (n_cdm s))) /\
  (forall x, In x (orgs l) -> has_dim (n_cdm s) x = true -> find_dim x (dims (n_cdm s')) = None) /\
  (forall x, In x (orgs l) -> has_dim (n_cdm s) x = true -> renames_to l x <> Some "") /\
  (NoDup (news l) -> forall x n, renames_to l x = Some n -> has_dim (n_cdm s) x = true ->
     find_dim n (dims (n_cdm s')) = option_map (drenamed n) (find_dim x (dims (n_cdm s)))) /\
  (forall x, sfind x (n_dmap s') = match renames_to l x with
     | Some n => if has_dim (n_cdm s) x then Some n else sfind x (n_dmap s)
     | None => sfind x (n_dmap s) end).
Proof.
  induction l as [ | e l IH ]; intros s s' P C H; cbn [ofold] in H.
  { injection H as <-. split; [ exact C | ]. split.
    { rewrite (map_ext _ (fun v => v)); [ now rewrite map_id | intro v; exact (reshape_id v) ]. }
    do 3 (split; [ reflexivity | ]). split; [ intros; reflexivity | ]. split; [ contradiction | ]. split; [ contradiction | ]. split.
    { intros _ x n X. discriminate X. }
    reflexivity. }
  ob H. pose proof (plain_cons e l P) as [P2 Pe].
  destruct (rename_dimel_spec s e a E C) as [[Ho ->] | (o & Eo & Ho & D & Ne & C1 & V1 & A1 & F1 & M1 & M2 & M3)].
  - destruct (IH s s' P2 C H) as (C2 & V2 & A2 & B1 & B2 & G1 & G2 & G3 & G4 & G5).
    assert (R : forall x, match renames_to (e :: l) x with Some n => if has_dim (n_cdm s) x then Some n else None | None => None end =
                          match renames_to l x with Some n => if has_dim (n_cdm s) x then Some n else None | None => None end).
    { intro x. unfold renames_to. cbn [find]. destruct (de_org e) as [o|] eqn:Eo; [ | reflexivity ].
      destruct (String.eqb_spec o x) as [ -> | D ]; [ | reflexivity ]. cbn. rewrite Ho.
      destruct (option_map _ _); reflexivity. }
    assert (RN : forall x, rn (e :: l) (n_cdm s) x = rn l (n_cdm s) x).
    { intro x. specialize (R x). unfold rn. destruct (renames_to (e :: l) x), (renames_to l x), (has_dim (n_cdm s) x); congruence. }
    split; [ exact C2 | ]. split. { rewrite V2. apply map_ext. intro v. unfold reshape. now rewrite (map_ext _ _ RN). }
    split; [ exact A2 | ]. split; [ exact B1 | ]. split; [ exact B2 | ].
    assert (I : forall x, In x (orgs (e :: l)) -> has_dim (n_cdm s) x = true -> In x (orgs l)).
    { intros x X Y. unfold orgs in X. cbn [flat_map] in X. apply in_app_or in X. destruct X as [X | X]; [ | exact X ].
      destruct (de_org e) as [o|]; [ destruct X as [ <- | [] ]; congruence | destruct X ]. }
    split. { intros x X Y. apply G1; [ intro Z; apply X | intro Z; apply Y ]; unfold orgs, news; cbn [flat_map]; apply in_or_app; now right. }
    split; [ eauto | ].
    split. { intros x X Y. specialize (G3 x (I x X Y) Y). specialize (R x). rewrite Y in R. destruct (renames_to (e :: l) x), (renames_to l x); congruence. }
    split. { intros N x n X Y. apply G4.
      - unfold news in N. cbn [flat_map] in N. destruct (de_org e); [ now inversion N | exact N ].
      - specialize (R x). rewrite X, Y in R. destruct (renames_to l x); congruence.
      - exact Y. }
    intro x. rewrite G5. specialize (R x). destruct (renames_to (e :: l) x), (renames_to l x), (has_dim (n_cdm s) x); congruence.
  - destruct (Pe o Eo) as (No & _ & Nn & Nno). destruct (IH a s' P2 C1 H) as (C2 & V2 & A2 & B1 & B2 & G1 & G2 & G3 & G4 & G5).
    set (n := de_name e) in *.
    assert (R1 : forall x, renames_to (e :: l) x = if String.eqb x o then Some n else renames_to l x).
    { intro x. unfold renames_to. cbn [find]. rewrite Eo, (String.eqb_sym o x). now destruct (String.eqb x o). }
    assert (HD : forall x, x <> o -> x <> n -> has_dim (n_cdm a) x = has_dim (n_cdm s) x).
    { intros x X Y. unfold has_dim. rewrite F1. apply String.eqb_neq in X, Y. now rewrite X, Y. }
    assert (IO : forall x, In x (orgs (e :: l)) <-> x = o \/ In x (orgs l)).
    { intro x. unfold orgs. cbn [flat_map]. rewrite Eo. cbn. intuition. }
    assert (IN : forall x, In x (news (e :: l)) <-> x = n \/ In x (news l)).
    { intro x. unfold news. cbn [flat_map]. rewrite Eo. cbn. intuition. }
    assert (RL : forall x m, renames_to l x = Some m -> In x (orgs l)).
    { intros x m X. destruct (in_dec string_dec x (orgs l)) as [Y | Y]; [ exact Y | ]. rewrite renames_none in X by exact Y. discriminate. }
    assert (RN : forall x, rn (e :: l) (n_cdm s) x = rn l (n_cdm a) (if String.eqb x o then n else x)).
    { intro x. unfold rn. rewrite R1. destruct (String.eqb_spec x o) as [ -> | Dx ].
      - rewrite Ho. now rewrite (renames_none l n Nn).
      - destruct (renames_to l x) as [m|] eqn:Er; [ | reflexivity ]. rewrite HD; [ reflexivity | exact Dx | ].
        intros ->. apply Nn. eapply RL; eauto. }
    split; [ exact C2 | ]. split.
    { rewrite V2, V1, map_map. apply map_ext. intro v. unfold reshape, rename_shape, with_shape. cbn. f_equal. rewrite map_map.
      apply map_ext. intro x. symmetry. apply RN. }
    split; [ congruence | ]. split; [ congruence | ]. split; [ congruence | ].
    split. { intros x X Y. rewrite IO in X. rewrite IN in Y. rewrite G1 by tauto. rewrite F1.
      destruct (String.eqb_spec x o); [ tauto | ]. destruct (String.eqb_spec x n); [ tauto | reflexivity ]. }
    split. { intros x X Y. rewrite IO in X. destruct X as [ -> | X ].
      - rewrite G1 by assumption. rewrite F1. now rewrite String.eqb_refl.
      - apply G2; [ exact X | ]. rewrite HD; [ exact Y | intros ->; tauto | intros ->; tauto ]. }
    split. { intros x X Y. rewrite IO in X. rewrite R1. destruct (String.eqb_spec x o) as [ -> | Dx ]; [ congruence | ].
      destruct X as [X | X]; [ contradiction | ]. apply G3; [ exact X | ]. rewrite HD; [ exact Y | exact Dx | intros ->; tauto ]. }
    split. { intros N x m X Y. rewrite R1 in X.
      assert (N2 : ~ In n (news l) /\ NoDup (news l)).
      { unfold news in N |- *. cbn [flat_map] in N. rewrite Eo in N. inversion N; subst. split; assumption. }
      destruct (String.eqb_spec x o) as [ -> | Dx ].
      - injection X as <-. rewrite G1 by tauto. rewrite F1. destruct (String.eqb_spec n o); [ congruence | ]. now rewrite String.eqb_refl.
      - assert (Ix := RL _ _ X). rewrite (G4 (proj2 N2) x m X).
        + rewrite F1. apply String.eqb_neq in Dx. rewrite Dx. destruct (String.eqb_spec x n); [ subst; tauto | reflexivity ].
        + rewrite HD; [ exact Y | exact Dx | intros ->; tauto ]. }
    intro x. rewrite G5, M3, sfind_sput, R1. destruct (String.eqb_spec x o) as [ -> | Dx ].
    + rewrite (renames_none l o No). now rewrite Ho.
    + destruct (renames_to l x) as [m|] eqn:Er; [ | reflexivity ]. rewrite HD; [ reflexivity | exact Dx | intros ->; apply Nn; eapply RL; eauto ].
Qed.

(** *** phase 3: lengths of dimensions *)
Lemma length_dimel_spec c e c' : length_dimel c e = Ok c' ->
  vars c' = vars c /\ attrs c' = attrs c /\ (consistent c -> consistent c') /\
  forall x, find_dim x (dims c') =
    match de_len e with
    | Some t => if String.eqb x (de_name e)
                then match length_of_text t with
                     | Ok len => Some (mkDim x len (match find_dim x (dims c) with Some d => d_unlim d | None => false end))
                     | _ => None
                     end
                else find_dim x (dims c)
    | None => find_dim x (dims c)
    end.
Proof.
  unfold length_dimel. destruct (de_len e) as [t|]; [ | intro H; injection H as <-; auto ].
  intro H. ob H. rewrite E. injection H as <-. unfold has_dim. destruct (find_dim (de_name e) (dims c)) as [d|] eqn:F; cbn [is_some].
  - do 2 (split; [ reflexivity | ]). split.
    + intro C. apply consistent_dims; [ exact C | ]. rewrite set_len_names. apply C.
    + intro x. cbn [dims]. rewrite find_set_len. destruct (String.eqb_spec x (de_name e)) as [ -> | D ]; [ | reflexivity ].
      rewrite F. cbn. f_equal. f_equal. pose proof (fnd_some d_name _ _ _ F) as [_ K]. exact K.
  - do 2 (split; [ reflexivity | ]). split.
    + intro C. apply consistent_dims; [ exact C | ]. 
      apply (nodup_app d_name _ (mkDim (de_name e) a false)); [ apply C | ].
      cbn [d_name]. apply (has_dim_false c). unfold has_dim. now rewrite F.
    + intro x. cbn [dims]. rewrite find_dim_app. cbn [d_name].
      destruct (String.eqb_spec x (de_name e)) as [ -> | D ]; [ now rewrite F | ]. now destruct (find_dim x (dims c)).
Qed.
Lemma lengths_spec l c c' : ofold length_dimel l c = Ok c' ->
  vars c' = vars c /\ attrs c' = attrs c /\ (consistent c -> consistent c') /\
  forall x, (forall e, In e l -> de_name e = x -> de_len e = None) -> find_dim x (dims c') = find_dim x (dims c).
Proof.
  revert c. induction l as [ | e l IH ]; intros c H; cbn [ofold] in H; [ injection H as <-; auto | ].
  ob H. apply length_dimel_spec in E. destruct E as (V & A & C & F). apply IH in H. destruct H as (V2 & A2 & C2 & F2).
  do 2 (split; [ congruence | ]). split; [ auto | ]. intros x X. rewrite F2 by (intros e' I; apply X; now right). rewrite F.
  destruct (de_len e) as [t|] eqn:Et; [ | reflexivity ].
  destruct (String.eqb_spec x (de_name e)) as [ -> | D ]; [ | reflexivity ]. rewrite (X e) in Et; [ discriminate | now left | reflexivity ].
Qed.
Lemma lengths_set l1 e l2 t c c' : ofold length_dimel (l1 ++ e :: l2) c = Ok c' -> de_len e = Some t ->
  (forall e', In e' l1 \/ In e' l2 -> de_name e' = de_name e -> de_len e' = None) ->
  exists len, length_of_text t = Ok len /\
    find_dim (de_name e) (dims c') = Some (mkDim (de_name e) len (match find_dim (de_name e) (dims c) with Some d => d_unlim d | None => false end)).
Proof.
  intros H Et N. rewrite oapp in H. ob H. cbn [ofold] in H. ob H.
  apply lengths_spec in E. destruct E as (_ & _ & _ & F1). apply lengths_spec in H. destruct H as (_ & _ & _ & F2).
  assert (L : exists len, length_of_text t = Ok len).
  { unfold length_dimel in E0. rewrite Et in E0. apply bok in E0. destruct E0 as (x & X & _). eauto. }
  destruct L as [len L]. exists len. split; [ exact L | ].
  apply length_dimel_spec in E0. destruct E0 as (_ & _ & _ & F). rewrite Et, L in F.
  rewrite F2, F, String.eqb_refl, F1; auto.
Qed.

(** *** phase 4: unlimited dimensions *)
Lemma unlim_dimel_spec sd c e c' : unlim_dimel sd c e = Ok c' ->
  attrs c' = attrs c /\ vnames c' = vnames c /\ (consistent c -> consistent c') /\
  (forall x, (de_name e = x -> de_unlim e = None) -> find_var x (vars c') = find_var x (vars c)) /\
  (forall x, find_dim x (dims c') =
    match de_unlim e with
    | Some u => if String.eqb x (de_name e)
                then option_map (fun d => mkDim (d_name d) (d_len d) (String.eqb u "true")) (find_dim x (dims c))
                else find_dim x (dims c)
    | None => find_dim x (dims c)
    end) /\
  (forall u, de_unlim e = Some u -> has_dim c (de_name e) = true -> u = "true" \/ u = "false").
Proof.
  unfold unlim_dimel. destruct (de_unlim e) as [u|].
  2:{ intro H; injection H as <-. do 5 (split; [ auto | ]). discriminate. }
  destruct (find_dim (de_name e) (dims c)) as [d|] eqn:F.
  2:{ intro H; injection H as <-. do 4 (split; [ auto | ]). split.
      - intro x. destruct (String.eqb_spec x (de_name e)) as [ -> | D ]; [ now rewrite F | reflexivity ].
      - intros u' _ X. unfold has_dim in X. now rewrite F in X. }
  assert (DS : forall b vs, consistent c -> map v_name vs = vnames c -> consistent (mkCdm vs (set_unlim (de_name e) b (dims c)) (attrs c))).
  { intros b vs [A B C D E] M. constructor; unfold vnames, dnames; cbn [vars dims attrs]; rewrite ?M, ?set_unlim_names; assumption. }
  assert (FD : forall b x, find_dim x (set_unlim (de_name e) b (dims c)) = if String.eqb x (de_name e)
                then option_map (fun d => mkDim (d_name d) (d_len d) b) (find_dim x (dims c)) else find_dim x (dims c)).
  { intros. apply find_set_unlim. }
  destruct (String.eqb_spec u "true") as [ -> | Du ].
  - destruct (d_unlim d) eqn:U.
    + intro H; injection H as <-. do 4 (split; [ auto | ]). split; [ | intros u' Eu _; injection Eu as <-; now left ].
      intro x. destruct (String.eqb_spec x (de_name e)) as [ -> | D ]; [ | reflexivity ]. rewrite F. cbn. destruct d; cbn in *. now subst.
    + cbn [vars dims attrs]. destruct (find_var (de_name e) (vars c)) as [v|] eqn:Fv; [ destruct (v_data v) | ]; intro H.
      * injection H as <-. cbn [vars attrs dims]. do 2 (split; [ reflexivity | ]). split; [ intro C; apply DS; auto | ].
        split; [ auto | ]. split; [ exact (FD true) | intros u' Eu _; injection Eu as <-; now left ].
      * ob H. injection H as <-. unfold change_var. cbn [vars attrs dims]. split; [ reflexivity | ].
        assert (M : forall w, map v_name (upd_var (de_name e) (with_data w) (vars c)) = vnames c).
        { intro w. apply upd_var_names. reflexivity. }
        split; [ apply M | ]. split; [ intro C; apply DS; auto | ].
        split. { intros x X. rewrite find_upd_var by reflexivity. destruct (String.eqb_spec x (de_name e)) as [ Y | D ]; [ | reflexivity ].
          exfalso. specialize (X (eq_sym Y)). discriminate X. }
        split; [ exact (FD true) | intros u' Eu _; injection Eu as <-; now left ].
      * injection H as <-. cbn [vars attrs dims]. do 2 (split; [ reflexivity | ]). split; [ intro C; apply DS; auto | ].
        split; [ auto | ]. split; [ exact (FD true) | intros u' Eu _; injection Eu as <-; now left ].
  - destruct (String.eqb_spec u "false") as [ -> | Df ]; [ | discriminate ]. intro H. injection H as <-. cbn [vars attrs dims].
    do 2 (split; [ reflexivity | ]). split; [ intro C; apply DS; auto | ].
    split; [ auto | ]. split; [ exact (FD false) | intros u' Eu _; injection Eu as <-; now right ].
Qed.
Lemma unlims_spec sd l : forall c c', ofold (unlim_dimel sd) l c = Ok c' ->
  attrs c' = attrs c /\ vnames c' = vnames c /\ (consistent c -> consistent c') /\
  (forall x, (forall e, In e l -> de_name e = x -> de_unlim e = None) ->
     find_var x (vars c') = find_var x (vars c) /\ find_dim x (dims c') = find_dim x (dims c)).
Proof.
  induction l as [ | e l IH ]; intros c c' H; cbn [ofold] in H; [ injection H as <-; auto | ].
  ob H. apply unlim_dimel_spec in E. destruct E as (A & V & C & F & G & _). apply IH in H. destruct H as (A2 & V2 & C2 & F2).
  do 2 (split; [ congruence | ]). split; [ auto | ]. intros x X.
  destruct (F2 x) as [F3 G3]; [ intros e' I; apply X; now right | ]. rewrite F3, G3, G. split.
  - apply F. apply X. now left.
  - destruct (de_unlim e) as [u|] eqn:Eu; [ | reflexivity ].
    destruct (String.eqb_spec x (de_name e)) as [ -> | D ]; [ | reflexivity ]. rewrite (X e) in Eu; [ discriminate | now left | reflexivity ].
Qed.
Lemma unlims_set sd l1 e l2 u c c' : ofold (unlim_dimel sd) (l1 ++ e :: l2) c = Ok c' -> de_unlim e = Some u ->
  (forall e', In e' l1 \/ In e' l2 -> de_name e' = de_name e -> de_unlim e' = None) ->
  find_dim (de_name e) (dims c') = option_map (fun d => mkDim (d_name d) (d_len d) (String.eqb u "true")) (find_dim (de_name e) (dims c)) /\
  (has_dim c (de_name e) = true -> u = "true" \/ u = "false").
Proof.
  intros H Eu N. rewrite oapp in H. ob H. cbn [ofold] in H. ob H.
  apply unlims_spec in E. destruct E as (_ & _ & _ & F1). apply unlims_spec in H. destruct H as (_ & _ & _ & F2).
  apply unlim_dimel_spec in E0. destruct E0 as (_ & _ & _ & _ & G & B). rewrite Eu in G.
  destruct (F2 (de_name e)) as [_ F3]; [ auto | ]. destruct (F1 (de_name e)) as [_ F4]; [ auto | ].
  rewrite F3, G, String.eqb_refl, F4. split; [ reflexivity | ].
  intro X. apply (B u Eu). unfold has_dim. now rewrite F4.
Qed.

(** *** phase 5: shapes *)
Lemma shape_varel_spec c e c' : shape_varel c e = Ok c' -> dims c' = dims c /\ (consistent c -> consistent c') /\
  forall x, view c' x =
    match xe_shape e with
    | Some t => if String.eqb x (target e)
                then match shape_of_text t with Ok s => (option_map (with_shape s) (find_var x (vars c)), attrs_of c x) | _ => view c x end
                else view c x
    | None => view c x
    end.
Proof.
  unfold shape_varel. destruct (xe_shape e) as [t|]; [ | intro H; injection H as <-; auto ].
  destruct (isempty (target e)); [ discriminate | ]. destruct (has_var c (target e)) eqn:Hv.
  - intro H. ob H. injection H as <-. split; [ reflexivity | ]. split; [ apply consistent_change; reflexivity | ].
    intro x. rewrite view_change_var by reflexivity. now rewrite E.
  - intro H. injection H as <-. split; [ reflexivity | ]. split; [ auto | ]. intro x.
    destruct (String.eqb_spec x (target e)) as [ -> | D ]; [ | reflexivity ].
    unfold view. unfold has_var in Hv. destruct (find_var (target e) (vars c)); [ discriminate | ].
    destruct (shape_of_text t); reflexivity.
Qed.
Lemma shapes_spec l : forall c c', ofold shape_varel l c = Ok c' -> dims c' = dims c /\ (consistent c -> consistent c') /\
  forall x, (forall e, In e l -> target e <> x) -> view c' x = view c x.
Proof.
  induction l as [ | e l IH ]; intros c c' H; cbn [ofold] in H; [ injection H as <-; auto | ].
  ob H. apply shape_varel_spec in E. destruct E as (D & C & F). apply IH in H. destruct H as (D2 & C2 & F2).
  split; [ congruence | ]. split; [ auto | ]. intros x X. rewrite F2 by (intros e' I; apply X; now right). rewrite F.
  destruct (xe_shape e); [ | reflexivity ]. destruct (String.eqb_spec x (target e)) as [ Y | _ ]; [ | reflexivity ].
  exfalso. apply (X e); [ now left | now symmetry ].
Qed.

(** *** phase 6: renaming variables *)
Lemma rename_varel_spec s e s' : rename_varel s e = Ok s' -> consistent (n_cdm s) ->
  dims (n_cdm s') = dims (n_cdm s) /\ consistent (n_cdm s') /\ n_dmap s' = n_dmap s /\ n_tmap s' = n_tmap s /\
  (forall x, ~ mentions e x -> view (n_cdm s') x = view (n_cdm s) x /\ sfind x (n_vmap s') = sfind x (n_vmap s)) /\
  (forall o, xe_org e = Some o -> has_var (n_cdm s) o = true ->
     sfind (prop (xe_name e)) (n_vmap s') = Some o /\
     (o <> prop (xe_name e) -> view (n_cdm s') o = (None, []) /\
        view (n_cdm s') (prop (xe_name e)) = (option_map (renamed (prop (xe_name e))) (find_var o (vars (n_cdm s))), attrs_of (n_cdm s) o))) /\
  (forall o, xe_org e = Some o -> has_var (n_cdm s) o = false -> s' = s).
Proof.
  unfold rename_varel. intros H C. destruct (xe_org e) as [o|] eqn:Eo.
  2:{ injection H as <-. do 4 (split; [ auto | ]). split; [ auto | ]. split; intros; discriminate. }
  destruct (has_var (n_cdm s) o) eqn:Ho.
  2:{ injection H as <-. do 4 (split; [ auto | ]). split; [ auto | ]. split; [ | auto ]. intros o' X Y. injection X as <-. congruence. }
  destruct (isempty (prop (xe_name e))); [ discriminate | ]. injection H as <-. cbn [n_cdm n_vmap n_dmap n_tmap].
  set (n := prop (xe_name e)).
  destruct (string_dec o n) as [ -> | D ].
  - rewrite rename_var_fails by (now left). cbn [fst]. split; [ reflexivity | ]. split; [ now apply consistent_removed | ].
    do 2 (split; [ reflexivity | ]). split.
    { intros x X. unfold mentions in X. rewrite Eo in X. fold n in X. split; [ apply view_remove_var; intro Y; apply X; left; congruence | ].
      rewrite sfind_sput. destruct (String.eqb_spec x n); [ exfalso; apply X; left; congruence | reflexivity ]. }
    split; [ | intros o' X Y; injection X as <-; congruence ].
    intros o' X _. injection X as <-. rewrite sfind_sput, String.eqb_refl. split; [ reflexivity | congruence ].
  - destruct (rename_var_ok _ o n C D Ho) as (c' & E & C' & V & Dd & A). rewrite E. cbn [fst].
    split; [ exact Dd | ]. split; [ exact C' | ]. do 2 (split; [ reflexivity | ]).
    assert (FV : forall x, find_var x (vars c') = if String.eqb x o then None else if String.eqb x n
       then option_map (renamed n) (find_var o (vars (n_cdm s))) else find_var x (vars (n_cdm s))).
    { intro x. rewrite V. unfold find_var. rewrite (find_renamed_gen _ v_name renamed); try assumption.
      - destruct (String.eqb_spec x o) as [ -> | Dx ]; [ reflexivity | ].
        destruct (String.eqb_spec x n) as [ -> | Dn ].
        + f_equal. rewrite (fnd_filter v_name). destruct (String.eqb_spec o n); [ contradiction | reflexivity ].
        + rewrite (fnd_filter v_name). apply String.eqb_neq in Dn. now rewrite Dn.
      - reflexivity.
      - rewrite names_filter, filter_In. intros [_ X]. now rewrite String.eqb_refl in X. }
    split.
    { intros x X. unfold mentions in X. rewrite Eo in X. fold n in X. unfold view. rewrite FV, A, sfind_sput.
      destruct (String.eqb_spec x o) as [ Y | Dx ]; [ exfalso; apply X; right; congruence | ].
      destruct (String.eqb_spec x n) as [ Y | Dn ]; [ exfalso; apply X; left; congruence | ]. auto. }
    split; [ | intros o' X Y; injection X as <-; congruence ].
    intros o' X _. injection X as <-. rewrite sfind_sput, String.eqb_refl. split; [ reflexivity | ]. intros _. unfold view. rewrite !FV, !A, !String.eqb_refl.
    split; [ reflexivity | ]. destruct (String.eqb_spec n o); [ congruence | reflexivity ].
Qed.
Lemma renames_spec l : forall s s', ofold rename_varel l s = Ok s' -> consistent (n_cdm s) ->
  dims (n_cdm s') = dims (n_cdm s) /\ consistent (n_cdm s') /\ n_dmap s' = n_dmap s /\ n_tmap s' = n_tmap s /\
  (forall x, (forall e, In e l -> ~ mentions e x) -> view (n_cdm s') x = view (n_cdm s) x /\ sfind x (n_vmap s') = sfind x (n_vmap s)).
Proof.
  induction l as [ | e l IH ]; intros s s' H C; cbn [ofold] in H; [ injection H as <-; auto 10 | ].
  ob H. destruct (rename_varel_spec s e a E C) as (D & C1 & M1 & M2 & F & _).
  destruct (IH a s' H C1) as (D2 & C2 & N1 & N2 & F2).
  split; [ congruence | ]. split; [ exact C2 | ]. do 2 (split; [ congruence | ]). intros x X.
  destruct (F2 x) as [P1 P2]; [ intros e' I; apply X; now right | ]. destruct (F x) as [Q1 Q2]; [ apply X; now left | ].
  split; congruence.
Qed.

(** *** phase 7: new variables *)
Lemma add_varel_spec c e c' : add_varel c e = Ok c' -> dims c' = dims c /\ attrs c' = attrs c /\
  forall x, find_var x (vars c') =
    match find_var x (vars c) with
    | Some v => Some v
    | None => if negb (is_some (xe_org e)) && negb (isempty (prop (xe_type e))) && String.eqb x (prop (xe_name e))
              then match string2datatype (s_ (prop (xe_type e))), shape_of_text (prop (xe_shape e)) with
                   | Ok ty, Ok sh => Some (mkVar x ty sh "" (Some []))
                   | _, _ => None
                   end
              else None
    end.
Proof.
  unfold add_varel. destruct (xe_org e) as [o|]; cbn [is_some negb andb].
  { intro H. injection H as <-. do 2 (split; [ reflexivity | ]). intro x. now destruct (find_var x (vars c)). }
  destruct (negb (isempty (prop (xe_type e)))) eqn:Et; cbn [andb].
  2:{ intro H. injection H as <-. do 2 (split; [ reflexivity | ]). intro x. now destruct (find_var x (vars c)). }
  destruct (has_var c (prop (xe_name e))) eqn:Hv; cbn [negb].
  { intro H. injection H as <-. do 2 (split; [ reflexivity | ]). intro x. destruct (find_var x (vars c)) eqn:F; [ reflexivity | ].
    destruct (String.eqb_spec x (prop (xe_name e))) as [ -> | _ ]; [ | reflexivity ]. unfold has_var in Hv. now rewrite F in Hv. }
  intro H. ob H. ob H. rewrite E, E0. injection H as <-. cbn [dims attrs vars]. do 2 (split; [ reflexivity | ]).
  intro x. rewrite find_var_app. cbn [v_name]. destruct (find_var x (vars c)); [ reflexivity | ].
  destruct (String.eqb_spec x (prop (xe_name e))) as [ -> | _ ]; reflexivity.
Qed.
Lemma adds_spec l : forall c c', ofold add_varel l c = Ok c' -> dims c' = dims c /\ attrs c' = attrs c /\
  (forall x, has_var c x = true \/ (forall e, In e l -> prop (xe_name e) <> x) -> find_var x (vars c') = find_var x (vars c)).
Proof.
  induction l as [ | e l IH ]; intros c c' H; cbn [ofold] in H; [ injection H as <-; auto | ].
  ob H. apply add_varel_spec in E. destruct E as (D & A & F). apply IH in H. destruct H as (D2 & A2 & F2).
  do 2 (split; [ congruence | ]). intros x X. rewrite F2.
  - rewrite F. destruct X as [X | X].
    + unfold has_var in X. now destruct (find_var x (vars c)).
    + destruct (find_var x (vars c)); [ reflexivity | ]. destruct (String.eqb_spec x (prop (xe_name e))) as [ Y | _ ].
      * exfalso. apply (X e); [ now left | now symmetry ].
      * now rewrite andb_false_r.
  - destruct X as [X | X]; [ left | right; intros e' I; apply X; now right ].
    unfold has_var in *. rewrite F. now destruct (find_var x (vars c)).
Qed.

(** *** phase 8: types *)
Lemma type_varel_spec s e s' : type_varel s e = Ok s' ->
  dims (n_cdm s') = dims (n_cdm s) /\ attrs (n_cdm s') = attrs (n_cdm s) /\ n_vmap s' = n_vmap s /\ n_dmap s' = n_dmap s /\
  (forall x, prop (xe_name e) <> x -> find_var x (vars (n_cdm s')) = find_var x (vars (n_cdm s)) /\ sfind x (n_tmap s') = sfind x (n_tmap s)) /\
  (xe_type e = None -> s' = s) /\
  (forall t v, xe_type e = Some t -> find_var (prop (xe_name e)) (vars (n_cdm s)) = Some v ->
     let ty := ncml_name2cdm (s_ t) false in
     ty <> DNat /\ find_var (prop (xe_name e)) (vars (n_cdm s')) = Some (with_type ty v) /\
     sfind (prop (xe_name e)) (n_tmap s') = if dtype_eqb ty (v_type v) then sfind (prop (xe_name e)) (n_tmap s) else Some ty).
Proof.
  unfold type_varel. destruct (xe_type e) as [t|].
  2:{ intro H. injection H as <-. do 5 (split; [ auto | ]). split; [ auto | ]. intros; discriminate. }
  destruct (isempty (prop (xe_name e))); [ discriminate | ].
  destruct (find_var (prop (xe_name e)) (vars (n_cdm s))) as [v|] eqn:F.
  2:{ intro H. injection H as <-. do 5 (split; [ auto | ]). split; [ discriminate | ]. intros t' v _ X. congruence. }
  destruct (dtype_eqb (ncml_name2cdm (s_ t) false) DNat) eqn:N; [ discriminate | ].
  assert (NN : ncml_name2cdm (s_ t) false <> DNat) by (intro X; rewrite X in N; discriminate).
  destruct (dtype_eqb (ncml_name2cdm (s_ t) false) (v_type v)) eqn:T; intro H; injection H as <-; cbn [n_cdm n_vmap n_dmap n_tmap].
  - do 5 (split; [ auto | ]). split; [ discriminate | ]. intros t' v' Et X. injection Et as <-. assert (v' = v) by congruence. subst v'.
    split; [ exact NN | ]. cbn zeta. rewrite T, F. split; [ | reflexivity ]. f_equal.
    assert (K : ncml_name2cdm (s_ t) false = v_type v) by (destruct (ncml_name2cdm (s_ t) false), (v_type v); (reflexivity || discriminate T)).
    rewrite K. now destruct v.
  - do 4 (split; [ reflexivity | ]). split.
    { intros x X. cbn [change_var vars]. rewrite find_upd_var by reflexivity. rewrite sfind_sput.
      destruct (String.eqb_spec x (prop (xe_name e))); [ congruence | auto ]. }
    split; [ discriminate | ]. intros t' v' Et X. injection Et as <-. assert (v' = v) by congruence. subst v'.
    split; [ exact NN | ]. cbn zeta. rewrite T, sfind_sput, String.eqb_refl. split; [ | reflexivity ].
    cbn [change_var vars]. rewrite find_upd_var by reflexivity. rewrite String.eqb_refl, F. reflexivity.
Qed.
Lemma types_spec l : forall s s', ofold type_varel l s = Ok s' ->
  dims (n_cdm s') = dims (n_cdm s) /\ attrs (n_cdm s') = attrs (n_cdm s) /\ n_vmap s' = n_vmap s /\ n_dmap s' = n_dmap s /\
  (forall x, (forall e, In e l -> prop (xe_name e) <> x) ->
     find_var x (vars (n_cdm s')) = find_var x (vars (n_cdm s)) /\ sfind x (n_tmap s') = sfind x (n_tmap s)).
Proof.
  induction l as [ | e l IH ]; intros s s' H; cbn [ofold] in H; [ injection H as <-; auto 10 | ].
  ob H. apply type_varel_spec in E. destruct E as (D & A & M1 & M2 & F & _). apply IH in H. destruct H as (D2 & A2 & M3 & M4 & F2).
  do 4 (split; [ congruence | ]). intros x X. destruct (F x) as [P1 P2]; [ apply X; now left | ].
  destruct (F2 x) as [Q1 Q2]; [ intros e' I; apply X; now right | ]. split; congruence.
Qed.

(** *** phase 9: data *)
Definition parse_ok (pr : dtype -> list string -> outcome (list value * string)) (t : dtype) (l : list string) (data : list value) (text : string) : Prop :=
  pr t l = Ok (data, text).
Lemma values_one_spec pr nu c e x c' : values_one pr nu c (e, x) = Ok c' ->
  dims c' = dims c /\ attrs c' = attrs c /\ vnames c' = vnames c /\
  (forall y, prop (xe_name e) <> y -> find_var y (vars c') = find_var y (vars c)) /\
  (forall v, find_var (prop (xe_name e)) (vars c) = Some v -> exists data, find_var (prop (xe_name e)) (vars c') = Some (with_data (Some data) v) /\
     exists size, data_size c (v_shape v) = Ok size /\
     ((ve_start x = "" /\ ve_inc x = "" /\ ve_content x <> "" /\
       exists l text, split_values (ve_content x) (ve_sep x) = Ok l /\ parse_ok pr (v_type v) l data text /\
         (v_shape v = [] -> length l <= 1) /\ (v_shape v <> [] -> N.of_nat (length l) = size)) \/
      (ve_start x <> "" /\ ve_inc x <> "" /\ ve_content x = "" /\ size <> 0%N /\
       exists a b, nu (ve_start x) = Ok a /\ nu (ve_inc x) = Ok b /\
         convert_values DDouble (v_type v) (progression a b (N.to_nat size)) = Ok data))).
Proof.
  unfold values_one, isempty. destruct (String.eqb (prop (xe_name e)) ""); [ discriminate | ].
  destruct (find_var (prop (xe_name e)) (vars c)) as [v|] eqn:F.
  2:{ intro H. injection H as <-. do 4 (split; [ auto | ]). discriminate. }
  intro H. ob H.
  assert (FIN : forall data c2, c2 = change_var c (prop (xe_name e)) (with_data (Some data)) ->
    dims c2 = dims c /\ attrs c2 = attrs c /\ vnames c2 = vnames c /\
    (forall y, prop (xe_name e) <> y -> find_var y (vars c2) = find_var y (vars c)) /\
    find_var (prop (xe_name e)) (vars c2) = Some (with_data (Some data) v)).
  { intros data c2 ->. cbn [change_var dims attrs vars]. do 2 (split; [ reflexivity | ]). split; [ apply upd_var_names; reflexivity | ].
    split.
    - intros y Y. rewrite find_upd_var by reflexivity. destruct (String.eqb_spec y (prop (xe_name e))); congruence.
    - rewrite find_upd_var by reflexivity. now rewrite String.eqb_refl, F. }
  destruct (String.eqb_spec (ve_start x) "") as [Es | Es]; destruct (String.eqb_spec (ve_inc x) "") as [Ei | Ei]; cbn in H; try discriminate H;
    destruct (String.eqb_spec (ve_content x) "") as [Ec | Ec]; cbn in H; try discriminate H.
  - ob H. destruct (match v_shape v with [] => 1 <? length a0 | _ :: _ => negb (N.of_nat (length a0) =? a)%N end) eqn:L; [ discriminate | ].
    ob H. injection H as <-. destruct (FIN (fst a1) _ eq_refl) as (H1 & H2 & H3 & H4 & H5). do 4 (split; [ assumption | ]).
    intros v' X. injection X as <-. exists (fst a1). split; [ exact H5 | ]. exists a. split; [ exact E | ]. left. do 3 (split; [ assumption | ]).
    exists a0, (snd a1). split; [ exact E0 | ]. split; [ unfold parse_ok; now rewrite <- surjective_pairing | ].
    destruct (v_shape v) as [ | d sh ].
    + apply Nat.ltb_ge in L. split; [ intros; lia | intro Y; now contradict Y ].
    + apply negb_false_iff, N.eqb_eq in L. split; [ discriminate | auto ].
  - ob H. destruct (N.eqb_spec a 0) as [Z | Z]; [ discriminate | ]. ob H. ob H. injection H as <-.
    destruct (FIN a2 _ eq_refl) as (H1 & H2 & H3 & H4 & H5). do 4 (split; [ assumption | ]).
    intros v' X. injection X as <-. exists a2. split; [ exact H5 | ]. exists a. split; [ exact E | ]. right. do 4 (split; [ assumption | ]). eauto.
Qed.
Lemma values_spec pr nu l : forall c c', ofold (values_one pr nu) l c = Ok c' ->
  dims c' = dims c /\ attrs c' = attrs c /\ vnames c' = vnames c /\
  (forall y, (forall e x, In (e, x) l -> prop (xe_name e) <> y) -> find_var y (vars c') = find_var y (vars c)) /\
  (forall y v, find_var y (vars c) = Some v -> exists data, find_var y (vars c') = Some (with_data data v)).
Proof.
  induction l as [ | [e x] l IH ]; intros c c' H; cbn [ofold] in H.
  { injection H as <-. do 4 (split; [ auto | ]). intros y v F. exists (v_data v). rewrite F. now destruct v. }
  ob H. apply values_one_spec in E. destruct E as (D & A & V & F & G). apply IH in H. destruct H as (D2 & A2 & V2 & F2 & G2).
  do 3 (split; [ congruence | ]). split.
  - intros y Y. rewrite F2, F; [ reflexivity | | ]; [ apply (Y e x); now left | intros; eapply Y; right; eauto ].
  - intros y v Fy. destruct (string_dec (prop (xe_name e)) y) as [ <- | N ].
    + destruct (G v Fy) as (data & P & _). destruct (G2 _ _ P) as (d2 & P2). exists d2. now rewrite P2.
    + apply G2. now rewrite F.
Qed.

(** *** phase 10: components of vectors *)
Lemma vectors_spec l : forall c c', ofold vector_one l c = Ok c' ->
  dims c' = dims c /\ attrs c' = attrs c /\ vnames c' = vnames c /\
  (forall y, (forall e x, In (e, x) l -> prop (xe_name e) <> y) -> find_var y (vars c') = find_var y (vars c)).
Proof.
  induction l as [ | [e x] l IH ]; intros c c' H; cbn [ofold] in H; [ injection H as <-; auto | ].
  ob H. unfold vector_one in E. destruct (isempty (prop (xe_name e))); [ discriminate | ]. injection E as <-.
  apply IH in H. destruct H as (D2 & A2 & V2 & F2). cbn [change_var dims attrs vars] in *.
  do 2 (split; [ assumption | ]). split; [ rewrite V2; apply upd_var_names; reflexivity | ].
  intros y Y. rewrite F2 by (intros; eapply Y; right; eauto). rewrite find_upd_var by reflexivity.
  destruct (String.eqb_spec y (prop (xe_name e))) as [ K | _ ]; [ | reflexivity ]. exfalso. apply (Y e x); [ now left | now symmetry ].
Qed.
Lemma vectors_own e xs : forall c c', ofold vector_one (map (pair e) xs) c = Ok c' ->
  find_var (prop (xe_name e)) (vars c') =
  match xs with [] => find_var (prop (xe_name e)) (vars c) | _ => option_map (with_counterpart (last xs "")) (find_var (prop (xe_name e)) (vars c)) end.
Proof.
  induction xs as [ | x xs IH ]; intros c c' H; cbn [map ofold] in H; [ now injection H as <- | ].
  ob H. unfold vector_one in E. destruct (isempty (prop (xe_name e))); [ discriminate | ]. injection E as <-.
  apply IH in H. cbn [change_var vars] in H. rewrite find_upd_var, String.eqb_refl in H by reflexivity. rewrite H.
  destruct xs as [ | y ys ]; [ reflexivity | ]. cbn [last]. destruct (find_var (prop (xe_name e)) (vars c)); reflexivity.
Qed.

(** *** phases 11 and 12: renaming attributes *)
Definition arename (n : string) (a : cattr) : cattr := mkAttr n (a_type a) (a_nums a) (a_text a).
Definition aorgs (l : list attel) : list string := flat_map (fun e => match ae_org e with Some o => [o] | None => [] end) l.
Definition anews (l : list attel) : list string := flat_map (fun e => match ae_org e with Some _ => [ae_name e] | None => [] end) l.
Definition arenames_to (l : list attel) (x : string) : option string :=
  option_map ae_name (find (fun e => match ae_org e with Some o => String.eqb o x | None => false end) l).
(** no attribute is renamed twice or to a name that is itself renamed, no two to the same name *)
Definition aplain (l : list attel) : Prop := NoDup (aorgs l) /\ NoDup (anews l) /\ forall x, In x (aorgs l) -> ~ In x (anews l).
Definition aren (l : list attel) (a : cattr) : cattr := match arenames_to l (a_name a) with Some n => arename n a | None => a end.

Lemma attr_pos_none n l : attr_pos n l = None <-> ~ In n (map a_name l).
Proof.
  induction l as [ | a l IH ]; cbn; [ tauto | ]. destruct (String.eqb_spec n (a_name a)) as [ -> | D ].
  - split; [ discriminate | tauto ].
  - destruct (attr_pos n l); cbn; split; intro H; try discriminate.
    + exfalso. destruct IH as [_ IH]. apply Bool.diff_true_false. assert (X : Some n0 = None) by (apply IH; tauto). discriminate.
    + intros [X | X]; [ congruence | ]. now apply IH in X.
    + reflexivity.
Qed.
Lemma set_nth_name_spec n l o i : NoDup (map a_name l) -> attr_pos o l = Some i ->
  set_nth_name i n l = Ok (map (fun a => if String.eqb o (a_name a) then arename n a else a) l).
Proof.
  revert i. induction l as [ | a l IH ]; intros i N H; [ discriminate | ]. cbn [attr_pos] in H. cbn [map] in N. inversion N as [ | ? ? N1 N2 ]; subst.
  cbn [map set_nth_name]. destruct (String.eqb_spec o (a_name a)) as [ -> | D ].
  - injection H as <-. cbn [set_nth_name]. f_equal. f_equal. rewrite <- (map_id l) at 1. apply map_ext_in. intros b B.
    destruct (String.eqb_spec (a_name a) (a_name b)) as [E | _]; [ | reflexivity ]. exfalso. apply N1. rewrite E. now apply in_map.
  - destruct (attr_pos o l) as [j|]; [ | discriminate ]. injection H as <-. cbn [set_nth_name]. rewrite (IH j N2 eq_refl). reflexivity.
Qed.
Lemma without_absent n l : ~ In n (map a_name l) -> filter (fun y => negb (String.eqb n (a_name y))) l = l.
Proof.
  induction l as [ | a l IH ]; cbn; [ reflexivity | ]. intro H. destruct (String.eqb_spec n (a_name a)) as [ -> | D ]; [ tauto | ].
  cbn. now rewrite IH by tauto.
Qed.
Lemma rename_att_frame c ns o n c' : rename_att c ns o n = Ok c' -> vars c' = vars c /\ dims c' = dims c /\
  forall x, x <> ns -> attrs_of c' x = attrs_of c x.
Proof.
  unfold rename_att. destruct (attr_pos o (attrs_of c ns)); [ | intro H; injection H as <-; auto ].
  intro H. ob H. injection H as <-. split; [ apply remove_attr_vars | ]. split; [ apply remove_attr_dims | ].
  intros x X. apply String.eqb_neq in X. rewrite attrs_of_put, X, attrs_of_remove_attr. now rewrite X.
Qed.
Lemma rename_att_own c ns o n c' : rename_att c ns o n = Ok c' -> NoDup (map a_name (attrs_of c ns)) -> ~ In n (map a_name (attrs_of c ns)) ->
  attrs_of c' ns = map (fun a => if String.eqb o (a_name a) then arename n a else a) (attrs_of c ns).
Proof.
  unfold rename_att. intros H ND NI. destruct (attr_pos o (attrs_of c ns)) as [i|] eqn:P.
  - rewrite attrs_of_remove_attr, String.eqb_refl, without_absent in H by assumption.
    rewrite (set_nth_name_spec n _ o i ND P) in H. cbn [obind] in H. injection H as <-. rewrite attrs_of_put. now rewrite String.eqb_refl.
  - injection H as <-. apply attr_pos_none in P. rewrite <- (map_id (attrs_of c ns)) at 1. apply map_ext_in. intros a A.
    destruct (String.eqb_spec o (a_name a)) as [ -> | _ ]; [ | reflexivity ]. exfalso. apply P. now apply in_map.
Qed.
Lemma rename_attel_frame ns c a c' : rename_attel ns c a = Ok c' -> vars c' = vars c /\ dims c' = dims c /\
  forall x, x <> ns -> attrs_of c' x = attrs_of c x.
Proof.
  unfold rename_attel. destruct (ae_org a); [ | intro H; injection H as <-; auto ].
  destruct (isempty (ae_name a)); [ discriminate | ]. apply rename_att_frame.
Qed.
Lemma rename_attels_frame ns l : forall c c', ofold (rename_attel ns) l c = Ok c' -> vars c' = vars c /\ dims c' = dims c /\
  forall x, x <> ns -> attrs_of c' x = attrs_of c x.
Proof.
  induction l as [ | a l IH ]; intros c c' H; cbn [ofold] in H; [ injection H as <-; auto | ].
  ob H. apply rename_attel_frame in E. destruct E as (V & D & F). apply IH in H. destruct H as (V2 & D2 & F2).
  do 2 (split; [ congruence | ]). intros x X. now rewrite F2, F.
Qed.
Lemma arenames_none l x : ~ In x (aorgs l) -> arenames_to l x = None.
Proof.
  unfold arenames_to. induction l as [ | e l IH ]; cbn; [ reflexivity | ]. intro N.
  destruct (ae_org e) as [o|]; [ | apply IH; auto ].
  destruct (String.eqb_spec o x) as [ -> | D ]; [ exfalso; apply N; now left | ]. apply IH. intro X. apply N. now right.
Qed.
Lemma rename_attels_own ns l : forall c c', ofold (rename_attel ns) l c = Ok c' -> aplain l ->
  NoDup (map a_name (attrs_of c ns)) -> (forall x, In x (anews l) -> ~ In x (map a_name (attrs_of c ns))) ->
  attrs_of c' ns = map (aren l) (attrs_of c ns).
Proof.
  induction l as [ | e l IH ]; intros c c' H P ND NI; cbn [ofold] in H.
  { injection H as <-. unfold aren. cbn. now rewrite map_id. }
  ob H. destruct P as (P1 & P2 & P3). unfold aorgs, anews in P1, P2, P3. cbn [flat_map] in P1, P2, P3.
  unfold rename_attel in E. destruct (ae_org e) as [o|] eqn:Eo; cbn [app] in *.
  - destruct (isempty (ae_name e)); [ discriminate | ]. inversion P1 as [ | ? ? P1a P1b ]; subst. inversion P2 as [ | ? ? P2a P2b ]; subst.
    assert (NIn : ~ In (ae_name e) (map a_name (attrs_of c ns))) by (apply NI; unfold anews; cbn [flat_map]; rewrite Eo; now left).
    pose proof (rename_att_own _ _ _ _ _ E ND NIn) as K.
    assert (NM : map a_name (attrs_of a ns) = map (fun x => if String.eqb o x then ae_name e else x) (map a_name (attrs_of c ns))).
    { rewrite K, !map_map. apply map_ext. intro b. now destruct (String.eqb o (a_name b)). }
    rewrite (IH a c' H); [ | | | ].
    + rewrite K, map_map. apply map_ext. intro b. unfold aren, arenames_to. cbn [find]. rewrite Eo.
      fold (arenames_to l (a_name b)). destruct (String.eqb_spec o (a_name b)) as [ Y | D ]; [ | reflexivity ].
      cbn [option_map a_name arename]. fold (arenames_to l (ae_name e)). rewrite arenames_none; [ reflexivity | ].
      intro X. apply (P3 (ae_name e)); [ now right | now left ].
    + split; [ exact P1b | split; [ exact P2b | ] ]. intros x X Y. apply (P3 x); now right.
    + rewrite K. apply (nodup_rename_gen _ a_name arename); [ reflexivity | exact NIn | exact ND ].
    + intros x X. rewrite NM, in_map_iff. intros (y & Y1 & Y2). destruct (String.eqb o y).
      * subst x. exact (P2a X).
      * subst y. revert Y2. apply NI. unfold anews. cbn [flat_map]. rewrite Eo. now right.
  - injection E as <-. rewrite (IH c c' H); [ | repeat split; assumption | exact ND | ].
    + apply map_ext. intro b. unfold aren, arenames_to. cbn [find]. now rewrite Eo.
    + intros x X. apply NI. unfold anews. cbn [flat_map]. now rewrite Eo.
Qed.
Lemma rename_vattels_spec l : forall c c', ofold rename_vattel l c = Ok c' -> vars c' = vars c /\ dims c' = dims c /\
  forall x, (forall ea, In ea l -> xe_name (fst ea) <> Some x) -> attrs_of c' x = attrs_of c x.
Proof.
  induction l as [ | [e a] l IH ]; intros c c' H; cbn [ofold] in H; [ injection H as <-; auto | ].
  ob H. apply IH in H. destruct H as (V2 & D2 & F2). unfold rename_vattel in E. cbn [fst snd] in E.
  destruct (xe_name e) as [v|] eqn:Ev.
  - apply rename_attel_frame in E. destruct E as (V & D & F). do 2 (split; [ congruence | ]). intros x X.
    rewrite F2 by (intros ea I; apply X; now right). apply F. intro Y. apply (X (e, a)); [ now left | cbn; congruence ].
  - injection E as <-. do 2 (split; [ assumption | ]). intros x X. apply F2. intros ea I. apply X. now right.
Qed.
Lemma rename_vattels_own e n as' : forall c c', ofold rename_vattel (map (pair e) as') c = Ok c' -> xe_name e = Some n ->
  ofold (rename_attel n) as' c = Ok c'.
Proof.
  intros c c' H En. rewrite <- H. clear H. revert c. induction as' as [ | a l IH ]; intro c; [ reflexivity | ]. cbn [map ofold].
  unfold rename_vattel at 1. cbn [fst snd]. rewrite En. destruct (rename_attel n c a); cbn; auto.
Qed.

(** *** phases 13 and 14: setting attributes *)
Definition gives (b : string) (a : attel) : bool := String.eqb (ae_name a) b && negb (isempty (att_value a)).
Definition last_given (l : list attel) (b : string) : option attel := find (gives b) (rev l).
Lemma set_attel_spec pr ns c a c' : set_attel pr ns c a = Ok c' ->
  vars c' = vars c /\ dims c' = dims c /\ (forall x, x <> ns -> attrs_of c' x = attrs_of c x) /\
  (att_value a = "" -> c' = c) /\
  (att_value a <> "" -> exists x, make_att pr a = Ok x /\ a_name x = ae_name a /\ attrs_of c' ns = without [ae_name a] (attrs_of c ns) ++ [x]).
Proof.
  unfold set_attel, isempty. destruct (String.eqb_spec (att_value a) "") as [E | E].
  { intro H. injection H as <-. do 4 (split; [ auto | ]). contradiction. }
  intro H. ob H.
  assert (N : a_name a0 = ae_name a).
  { unfold make_att in E0. destruct (dtype_eqb _ DNat); [ discriminate | ]. ob E0. ob E0. now injection E0 as <-. }
  destruct (add_attr (remove_attr c ns (a_name a0)) ns a0) as [c2|] eqn:A; [ | discriminate ]. injection H as <-.
  apply add_attr_some in A. destruct A as (_ & _ & ->). split; [ apply remove_attr_vars | ]. split; [ apply remove_attr_dims | ]. split.
  { intros x X. apply String.eqb_neq in X. rewrite attrs_of_put, X, attrs_of_remove_attr. now rewrite X. }
  split; [ contradiction | ]. intros _. exists a0. split; [ exact E0 | ]. split; [ exact N | ].
  rewrite attrs_of_put, String.eqb_refl. rewrite attrs_of_remove_attr, String.eqb_refl. now rewrite N, without_one.
Qed.
Lemma find_attr_app b l1 l2 : find_attr b (l1 ++ l2) = match find_attr b l1 with Some x => Some x | None => find_attr b l2 end.
Proof. unfold find_attr. induction l1 as [ | a l IH ]; cbn; [ reflexivity | ]. destruct (String.eqb b (a_name a)); auto. Qed.
Lemma find_attr_without b names l : find_attr b (without names l) = if existsb (String.eqb b) names then None else find_attr b l.
Proof.
  unfold find_attr, without. induction l as [ | a l IH ]; cbn; [ now destruct (existsb _ _) | ].
  destruct (existsb (String.eqb (a_name a)) names) eqn:X; cbn.
  - rewrite IH. destruct (String.eqb_spec b (a_name a)) as [ -> | D ]; [ now rewrite X | reflexivity ].
  - destruct (String.eqb_spec b (a_name a)) as [ -> | D ]; [ now rewrite X | exact IH ].
Qed.
Lemma find_snoc {A} (f : A -> bool) l a : find f (l ++ [a]) = match find f l with Some x => Some x | None => if f a then Some a else None end.
Proof. induction l as [ | x l IH ]; cbn; [ reflexivity | ]. destruct (f x); auto. Qed.
Lemma set_attels_spec pr ns l : forall c c', ofold (set_attel pr ns) l c = Ok c' ->
  vars c' = vars c /\ dims c' = dims c /\ (forall x, x <> ns -> attrs_of c' x = attrs_of c x) /\
  forall b, match last_given l b with
            | Some a => exists x, make_att pr a = Ok x /\ a_name x = b /\ find_attr b (attrs_of c' ns) = Some x
            | None => find_attr b (attrs_of c' ns) = find_attr b (attrs_of c ns)
            end.
Proof.
  induction l as [ | a l IH ]; intros c c' H; cbn [ofold] in H; [ injection H as <-; cbn; auto | ].
  ob H. apply set_attel_spec in E. destruct E as (V & D & F & G1 & G2). apply IH in H. destruct H as (V2 & D2 & F2 & G).
  do 2 (split; [ congruence | ]). split; [ intros x X; now rewrite F2, F | ].
  intro b. unfold last_given. cbn [rev]. rewrite find_snoc. specialize (G b). unfold last_given in G.
  destruct (find (gives b) (rev l)) as [a'|]; [ exact G | ]. unfold gives, isempty.
  destruct (String.eqb_spec (att_value a) "") as [Ev | Ev].
  - rewrite andb_false_r. rewrite G. now rewrite (G1 Ev).
  - cbn [negb]. rewrite andb_true_r. destruct (G2 Ev) as (x & X1 & X2 & X3).
    rewrite X3, find_attr_app, find_attr_without in G. cbn [existsb] in G. rewrite orb_false_r in G.
    destruct (String.eqb_spec (ae_name a) b) as [ <- | D3 ].
    + rewrite String.eqb_refl in G. exists x. split; [ exact X1 | split; [ exact X2 | ] ]. rewrite G. unfold find_attr. cbn. now rewrite X2, String.eqb_refl.
    + apply not_eq_sym, String.eqb_neq in D3. rewrite D3 in G. rewrite G. destruct (find_attr b (attrs_of c ns)); [ reflexivity | ].
      unfold find_attr. cbn. rewrite X2. now rewrite D3.
Qed.
Lemma set_vattels_spec pr l : forall c c', ofold (set_vattel pr) l c = Ok c' -> vars c' = vars c /\ dims c' = dims c /\
  forall x, (forall ea, In ea l -> prop (xe_name (fst ea)) <> x) -> attrs_of c' x = attrs_of c x.
Proof.
  induction l as [ | [e a] l IH ]; intros c c' H; cbn [ofold] in H; [ injection H as <-; auto | ].
  ob H. apply IH in H. destruct H as (V2 & D2 & F2). unfold set_vattel in E. cbn [fst snd] in E.
  apply set_attel_spec in E. destruct E as (V & D & F & _). do 2 (split; [ congruence | ]). intros x X.
  rewrite F2 by (intros ea I; apply X; now right). apply F. intro Y. apply (X (e, a)); [ now left | now symmetry ].
Qed.
Lemma set_vattels_own pr e as' c : ofold (set_vattel pr) (map (pair e) as') c = ofold (set_attel pr (prop (xe_name e))) as' c.
Proof.
  revert c. induction as' as [ | a l IH ]; intro c; [ reflexivity | ]. cbn [map ofold]. unfold set_vattel at 1. cbn [fst snd].
  destruct (set_attel pr (prop (xe_name e)) c a); cbn; auto.
Qed.

(** *** all phases *)
Section Init.
Variable src : cdm.
Variable src_data : string -> outcome (list value).
Variable parse : dtype -> list string -> outcome (list value * string).
Variable number_of : string -> outcome value.

Lemma on_cdm_ok f s s' : on_cdm f s = Ok s' -> exists c, f (n_cdm s) = Ok c /\ s' = mkN c (n_vmap s) (n_dmap s) (n_tmap s).
Proof. unfold on_cdm. intro H. ob H. injection H as <-. eauto. Qed.

Lemma init_stages d s : init src src_data parse number_of d = Ok s ->
  exists c0 s1 c2 c3 c4 s5 c6 s7 c8 c9 c10 c11 c12 c13,
    init_remove d src = Ok c0 /\
    ofold rename_dimel (dimels d) (mkN c0 [] [] []) = Ok s1 /\
    ofold length_dimel (dimels d) (n_cdm s1) = Ok c2 /\
    ofold (unlim_dimel src_data) (dimels d) c2 = Ok c3 /\
    ofold shape_varel (varels d) c3 = Ok c4 /\
    ofold rename_varel (varels d) (mkN c4 (n_vmap s1) (n_dmap s1) (n_tmap s1)) = Ok s5 /\
    ofold add_varel (varels d) (n_cdm s5) = Ok c6 /\
    ofold type_varel (varels d) (mkN c6 (n_vmap s5) (n_dmap s5) (n_tmap s5)) = Ok s7 /\
    ofold (values_one parse number_of) (flat_map (fun e => map (pair e) (xe_values e)) (varels d)) (n_cdm s7) = Ok c8 /\
    ofold vector_one (flat_map (fun e => map (pair e) (xe_vectors e)) (varels d)) c8 = Ok c9 /\
    ofold (rename_attel global_ns) (gatts d) c9 = Ok c10 /\
    ofold rename_vattel (vatts d) c10 = Ok c11 /\
    ofold (set_attel parse global_ns) (gatts d) c11 = Ok c12 /\
    ofold (set_vattel parse) (vatts d) c12 = Ok c13 /\
    s = mkN c13 (n_vmap s7) (n_dmap s7) (n_tmap s7).
Proof.
  unfold init. intro H. apply bok in H. destruct H as (c0 & E0 & H). apply bok in H. destruct H as (s1 & E1 & H).
  apply bok in H. destruct H as (s2 & E2 & H). apply bok in H. destruct H as (s3 & E3 & H). apply bok in H. destruct H as (s4 & E4 & H).
  apply bok in H. destruct H as (s5 & E5 & H). apply bok in H. destruct H as (s6 & E6 & H). apply bok in H. destruct H as (s7 & E7 & H).
  apply bok in H. destruct H as (s8 & E8 & H). apply bok in H. destruct H as (s9 & E9 & H). apply bok in H. destruct H as (s10 & E10 & H).
  apply bok in H. destruct H as (s11 & E11 & H). apply bok in H. destruct H as (s12 & E12 & H).
  apply on_cdm_ok in E2. destruct E2 as (c2 & E2 & ->). apply on_cdm_ok in E3. destruct E3 as (c3 & E3 & ->).
  apply on_cdm_ok in E4. destruct E4 as (c4 & E4 & ->). apply on_cdm_ok in E6. destruct E6 as (c6 & E6 & ->).
  apply on_cdm_ok in E8. destruct E8 as (c8 & E8 & ->). apply on_cdm_ok in E9. destruct E9 as (c9 & E9 & ->).
  apply on_cdm_ok in E10. destruct E10 as (c10 & E10 & ->). apply on_cdm_ok in E11. destruct E11 as (c11 & E11 & ->).
  apply on_cdm_ok in E12. destruct E12 as (c12 & E12 & ->). apply on_cdm_ok in H. destruct H as (c13 & E13 & ->).
  cbn [n_cdm n_vmap n_dmap n_tmap] in *.
  exists c0, s1, c2, c3, c4, s5, c6, s7, c8, c9, c10, c11, c12, c13. repeat (split; [ assumption | ]). reflexivity.
Qed.

(** removing leaves the dimensions in the shape of a variable that stays *)
Lemma remove_keeps_dims d c0 x v : init_remove d src = Ok c0 ->
  (forall r, In r (removes d) -> rm_type r = "variable" -> rm_name r <> x) -> find_var x (vars src) = Some v ->
  forall k, In k (v_shape v) -> has_dim c0 k = has_dim src k.
Proof.
  unfold init_remove. intros H NR Fv k K. ob H. apply remove_atts_spec in H. destruct H as (_ & D & _).
  assert (G : find_var x (vars a) = Some v /\ has_dim a k = has_dim src k).
  { refine (okeep (fun c => find_var x (vars c) = Some v /\ has_dim c k = has_dim src k) remove_one (removes d) _ src a _ E); [ | auto ].
    intros c r c' I [P1 P2] F. unfold remove_one in F.
    destruct (isempty (rm_name r)); [ discriminate | ]. destruct (isempty (rm_type r)); [ discriminate | ].
    destruct (String.eqb_spec (rm_type r) "variable") as [ Ev | _ ].
    { injection F as <-. split; [ | exact P2 ]. rewrite find_var_removed. specialize (NR r I Ev).
      destruct (String.eqb_spec x (rm_name r)); [ congruence | exact P1 ]. }
    destruct (String.eqb (rm_type r) "dimension").
    { destruct (remove_dim c (rm_name r) false) as [c2 [b|]] eqn:E'; [ | discriminate ]. injection F as <-.
      apply remove_dim_spec in E'. destruct E' as (V & _ & Dm & U). split; [ now rewrite V | ]. rewrite <- P2.
      unfold has_dim. rewrite Dm. unfold find_dim. rewrite (fnd_filter d_name).
      destruct (String.eqb_spec k (rm_name r)) as [ -> | Dk ]; [ | reflexivity ].
      unfold dim_in_use in U. apply andb_false_iff in U. destruct U as [U | U].
      - unfold has_dim, find_dim in U. now rewrite U.
      - exfalso. apply (fnd_some v_name) in P1. destruct P1 as [P1 _].
        rewrite <- not_true_iff_false in U. apply U. apply existsb_exists. exists v. split; [ exact P1 | ].
        unfold check_dim. apply existsb_exists. exists (rm_name r). split; [ exact K | apply String.eqb_refl ]. }
    destruct (String.eqb (rm_type r) "attribute").
    { injection F as <-. unfold has_dim. now rewrite remove_attr_vars, remove_attr_dims. }
    destruct (String.eqb (rm_type r) "group"); [ | discriminate ]. injection F as <-. auto. }
  destruct G as [_ G]. rewrite <- G. unfold has_dim. now rewrite D.
Qed.

(** the first five phases, for a variable *)
Lemma first_phases d s x v : consistent src -> plain (dimels d) -> init src src_data parse number_of d = Ok s -> x <> global_ns ->
  (forall r, In r (removes d) -> rm_type r = "variable" -> rm_name r <> x) ->
  (forall e, In e (dimels d) -> de_name e = x -> de_unlim e = None) -> find_var x (vars src) = Some v ->
  exists c0 s1 c2 c3, init_remove d src = Ok c0 /\ ofold rename_dimel (dimels d) (mkN c0 [] [] []) = Ok s1 /\
    ofold length_dimel (dimels d) (n_cdm s1) = Ok c2 /\ ofold (unlim_dimel src_data) (dimels d) c2 = Ok c3 /\
    view c3 x = (Some (reshape (rn (dimels d) src) v), without (rm_atts (varels d) x) (attrs_of src x)).
Proof.
  intros C P H G NR NU Fv. apply init_stages in H. destruct H as (c0 & s1 & c2 & c3 & _ & _ & _ & _ & _ & _ & _ & _ & _ & _ & E0 & E1 & E2 & E3 & _).
  exists c0, s1, c2, c3. do 4 (split; [ assumption | ]).
  pose proof (init_remove_consistent _ _ _ E0 C) as C0. pose proof (init_remove_view _ _ _ x E0 G NR) as V0.
  pose proof (remove_keeps_dims _ _ _ _ E0 NR Fv) as K.
  destruct (rename_dims_spec _ (mkN c0 [] [] []) _ P C0 E1) as (_ & V1 & A1 & _). cbn [n_cdm] in V1, A1.
  apply lengths_spec in E2. destruct E2 as (V2 & A2 & _). apply unlims_spec in E3. destruct E3 as (A3 & _ & _ & F3).
  destruct (F3 x NU) as [F3v _]. unfold view in V0 |- *. injection V0 as V0 A0. rewrite F3v, V2, V1.
  rewrite find_map_keep by reflexivity. rewrite V0, Fv. cbn [option_map].
  f_equal.
  - f_equal. unfold reshape. f_equal. apply map_ext_in. intros k I. unfold rn. now rewrite (K k I).
  - rewrite <- A0. unfold attrs_of. now rewrite A3, A2, A1.
Qed.

Lemma in_vatts d ea : In ea (vatts d) -> In (fst ea) (varels d).
Proof. unfold vatts. rewrite in_flat_map. intros (e & I & J). apply in_map_iff in J. destruct J as (a & <- & _). exact I. Qed.
Lemma in_fm {A} (f : varel -> list A) l e x : In (e, x) (flat_map (fun e => map (pair e) (f e)) l) -> In e l.
Proof. rewrite in_flat_map. intros (e' & I & J). apply in_map_iff in J. destruct J as (a & Q & _). now injection Q as -> _. Qed.

(** a variable nobody speaks of *)
Lemma untouched_gen d s x v : consistent src -> plain (dimels d) -> init src src_data parse number_of d = Ok s -> x <> global_ns ->
  (forall r, In r (removes d) -> rm_type r = "variable" -> rm_name r <> x) ->
  (forall e, In e (dimels d) -> de_name e = x -> de_unlim e = None) -> find_var x (vars src) = Some v ->
  (forall e, In e (varels d) -> ~ mentions e x) ->
  view (n_cdm s) x = (Some (reshape (rn (dimels d) src) v), attrs_of src x) /\ sfind x (n_vmap s) = None /\ sfind x (n_tmap s) = None.
Proof.
  intros C P H G NR NU Fv NM. destruct (first_phases d s x v C P H G NR NU Fv) as (c0 & s1 & c2 & c3 & E0 & E1 & E2 & E3 & W).
  apply init_stages in H. destruct H as (c0' & s1' & c2' & c3' & c4 & s5 & c6 & s7 & c8 & c9 & c10 & c11 & c12 & c13 & E0' & E1' & E2' & E3' & E4 & E5 & E6 & E7 & E8 & E9 & E10 & E11 & E12 & E13 & ->).
  assert (c0' = c0) by congruence. subst c0'. assert (s1' = s1) by congruence. subst s1'. assert (c2' = c2) by congruence. subst c2'. assert (c3' = c3) by congruence. subst c3'.
  pose proof (init_remove_consistent _ _ _ E0 C) as C0. destruct (rename_dims_spec _ (mkN c0 [] [] []) _ P C0 E1) as (C1 & _ & _ & MV & MT & _). cbn [n_vmap n_tmap] in MV, MT.
  apply lengths_spec in E2. destruct E2 as (_ & _ & C2 & _). apply unlims_spec in E3. destruct E3 as (_ & _ & C3 & _).
  assert (NN : forall e, In e (varels d) -> prop (xe_name e) <> x) by (intros e I Y; apply (NM e I); now left).
  apply shapes_spec in E4. destruct E4 as (_ & C4 & F4).
  destruct (renames_spec _ _ _ E5 (C4 (C3 (C2 C1)))) as (_ & _ & _ & MT5 & F5). cbn [n_cdm n_vmap n_tmap] in F5, MT5.
  destruct (F5 x NM) as [F5v M5]. apply adds_spec in E6. destruct E6 as (_ & A6 & F6).
  apply types_spec in E7. destruct E7 as (_ & A7 & MV7 & _ & F7). cbn [n_cdm n_vmap n_tmap] in *.
  destruct (F7 x NN) as [F7v T7]. apply values_spec in E8. destruct E8 as (_ & A8 & _ & F8 & _).
  apply vectors_spec in E9. destruct E9 as (_ & A9 & _ & F9). apply rename_attels_frame in E10. destruct E10 as (V10 & _ & A10).
  apply rename_vattels_spec in E11. destruct E11 as (V11 & _ & A11). apply set_attels_spec in E12. destruct E12 as (V12 & _ & A12 & _).
  apply set_vattels_spec in E13. destruct E13 as (V13 & _ & A13).
  assert (W5 : view (n_cdm s5) x = view c3 x).
  { rewrite F5v. apply F4. intros e I Y. apply (NM e I). now apply target_mentions. }
  unfold view in *. rewrite W in W5. injection W5 as W5v W5a.
  split; [ f_equal | ].
  - rewrite V13, V12, V11, V10, F9, F8, F7v.
    + rewrite F6; [ exact W5v | ]. left. unfold has_var. now rewrite W5v.
    + intros e y I. apply NN. eapply in_fm; eauto.
    + intros e y I. apply NN. eapply in_fm; eauto.
  - rewrite A13 by (intros ea I; apply NN; now apply in_vatts). rewrite A12 by exact G.
    rewrite A11. 2:{ intros ea I Y. apply (NN (fst ea)); [ now apply in_vatts | now rewrite Y ]. }
    rewrite A10 by exact G. unfold attrs_of at 1. rewrite A9, A8, A7, A6. change (attrs_of (n_cdm s5) x = attrs_of src x). rewrite W5a.
    assert (R : rm_atts (varels d) x = []).
    { unfold rm_atts. clear - NM. induction (varels d) as [ | e l IH ]; [ reflexivity | ]. cbn [flat_map].
      destruct (String.eqb_spec (target e) x) as [Y | _].
      - exfalso. apply (NM e); [ now left | now apply target_mentions ].
      - apply IH. intros e' I. apply NM. now right. }
    rewrite R. apply without_nil.
  - split; [ rewrite MV7, M5, MV; reflexivity | ]. rewrite T7, MT5, MT. reflexivity.
Qed.

Lemma ofold_mid {T A} (f : T -> A -> outcome T) l1 e l2 s s' : ofold f (l1 ++ e :: l2) s = Ok s' ->
  exists a b, ofold f l1 s = Ok a /\ f a e = Ok b /\ ofold f l2 b = Ok s'.
Proof. intro H. rewrite oapp in H. ob H. cbn [ofold] in H. ob H. eauto. Qed.
Lemma ofold_fm_mid {T A} (g : varel -> list A) (f : T -> varel * A -> outcome T) l1 e l2 s s' :
  ofold f (flat_map (fun e => map (pair e) (g e)) (l1 ++ e :: l2)) s = Ok s' ->
  exists a b, ofold f (flat_map (fun e => map (pair e) (g e)) l1) s = Ok a /\ ofold f (map (pair e) (g e)) a = Ok b /\
    ofold f (flat_map (fun e => map (pair e) (g e)) l2) b = Ok s'.
Proof. intro H. rewrite flat_map_app in H. cbn [flat_map] in H. rewrite oapp in H. ob H. rewrite oapp in H. ob H. eauto. Qed.

(** the phases after the renaming of variables, for a name no element bears *)
Lemma late_frame d s5 c6 s7 c8 c9 c10 c11 c12 c13 x : x <> global_ns -> (forall e, In e (varels d) -> prop (xe_name e) <> x) ->
  ofold add_varel (varels d) (n_cdm s5) = Ok c6 ->
  ofold type_varel (varels d) (mkN c6 (n_vmap s5) (n_dmap s5) (n_tmap s5)) = Ok s7 ->
  ofold (values_one parse number_of) (flat_map (fun e => map (pair e) (xe_values e)) (varels d)) (n_cdm s7) = Ok c8 ->
  ofold vector_one (flat_map (fun e => map (pair e) (xe_vectors e)) (varels d)) c8 = Ok c9 ->
  ofold (rename_attel global_ns) (gatts d) c9 = Ok c10 -> ofold rename_vattel (vatts d) c10 = Ok c11 ->
  ofold (set_attel parse global_ns) (gatts d) c11 = Ok c12 -> ofold (set_vattel parse) (vatts d) c12 = Ok c13 ->
  view c13 x = view (n_cdm s5) x.
Proof.
  intros G NN E6 E7 E8 E9 E10 E11 E12 E13.
  apply adds_spec in E6. destruct E6 as (_ & A6 & F6).
  apply types_spec in E7. destruct E7 as (_ & A7 & MV7 & _ & F7). cbn [n_cdm n_vmap n_tmap] in *.
  destruct (F7 x NN) as [F7v T7]. apply values_spec in E8. destruct E8 as (_ & A8 & _ & F8 & _).
  apply vectors_spec in E9. destruct E9 as (_ & A9 & _ & F9). apply rename_attels_frame in E10. destruct E10 as (V10 & _ & A10).
  apply rename_vattels_spec in E11. destruct E11 as (V11 & _ & A11). apply set_attels_spec in E12. destruct E12 as (V12 & _ & A12 & _).
  apply set_vattels_spec in E13. destruct E13 as (V13 & _ & A13). unfold view. f_equal.
  - rewrite V13, V12, V11, V10, F9, F8, F7v.
    + apply F6. right. exact NN.
    + intros e y I. apply NN. eapply in_fm; eauto.
    + intros e y I. apply NN. eapply in_fm; eauto.
  - rewrite A13 by (intros ea I; apply NN; now apply in_vatts). rewrite A12 by exact G.
    rewrite A11. 2:{ intros ea I Y. apply (NN (fst ea)); [ now apply in_vatts | now rewrite Y ]. }
    rewrite A10 by exact G. unfold attrs_of. now rewrite A9, A8, A7, A6.
Qed.

(** what one <values> element gives *)
Definition data_given (c : cdm) (v : cvar) (x : valel) : Prop :=
  exists data size, v_data v = Some data /\ data_size c (v_shape v) = Ok size /\
  ((ve_start x = "" /\ ve_inc x = "" /\ ve_content x <> "" /\
    exists l text, split_values (ve_content x) (ve_sep x) = Ok l /\ parse (v_type v) l = Ok (data, text) /\
      (v_shape v = [] -> length l <= 1) /\ (v_shape v <> [] -> N.of_nat (length l) = size)) \/
   (ve_start x <> "" /\ ve_inc x <> "" /\ ve_content x = "" /\ size <> 0%N /\
    exists a b, number_of (ve_start x) = Ok a /\ number_of (ve_inc x) = Ok b /\
      convert_values DDouble (v_type v) (progression a b (N.to_nat size)) = Ok data)).

(** from the renamed (or added) variable to the result *)
Lemma late_own d s5 c6 s7 c8 c9 c10 c11 c12 c13 l1 e l2 n v L : n <> global_ns -> varels d = l1 ++ e :: l2 -> xe_name e = Some n ->
  (forall e', In e' (l1 ++ l2) -> prop (xe_name e') <> n) ->
  (find_var n (vars c6) = Some v /\ attrs_of c6 n = L /\ sfind n (n_tmap s5) = None) ->
  ofold type_varel (varels d) (mkN c6 (n_vmap s5) (n_dmap s5) (n_tmap s5)) = Ok s7 ->
  ofold (values_one parse number_of) (flat_map (fun e => map (pair e) (xe_values e)) (varels d)) (n_cdm s7) = Ok c8 ->
  ofold vector_one (flat_map (fun e => map (pair e) (xe_vectors e)) (varels d)) c8 = Ok c9 ->
  ofold (rename_attel global_ns) (gatts d) c9 = Ok c10 -> ofold rename_vattel (vatts d) c10 = Ok c11 ->
  ofold (set_attel parse global_ns) (gatts d) c11 = Ok c12 -> ofold (set_vattel parse) (vatts d) c12 = Ok c13 ->
  exists v', find_var n (vars c13) = Some v' /\
    match xe_type e with
    | Some t => ncml_name2cdm (s_ t) false <> DNat /\ v_type v' = ncml_name2cdm (s_ t) false
    | None => v_type v' = v_type v end /\
    v_shape v' = v_shape v /\
    v_counterpart v' = match xe_vectors e with [] => v_counterpart v | _ => last (xe_vectors e) "" end /\
    (xe_values e = [] -> v_data v' = v_data v) /\ (forall x, xe_values e = [x] -> data_given c13 v' x) /\
    sfind n (n_tmap s7) = match xe_type e with
      | Some t => if dtype_eqb (ncml_name2cdm (s_ t) false) (v_type v) then None else Some (ncml_name2cdm (s_ t) false)
      | None => None end /\
    (aplain (xe_atts e) -> NoDup (map a_name L) -> (forall x, In x (anews (xe_atts e)) -> ~ In x (map a_name L)) ->
     forall b, match last_given (xe_atts e) b with
               | Some a => exists x, make_att parse a = Ok x /\ a_name x = b /\ find_attr b (attrs_of c13 n) = Some x
               | None => find_attr b (attrs_of c13 n) = find_attr b (map (aren (xe_atts e)) L)
               end).
Proof.
  intros G VE En NO (F6 & A6 & T5) E7 E8 E9 E10 E11 E12 E13. unfold vatts in *. rewrite VE in E7, E8, E9, E11, E13.
  assert (Pn : prop (xe_name e) = n) by (now rewrite En).
  assert (NO1 : forall e', In e' l1 -> prop (xe_name e') <> n) by (intros e' I; apply NO; apply in_or_app; now left).
  assert (NO2 : forall e', In e' l2 -> prop (xe_name e') <> n) by (intros e' I; apply NO; apply in_or_app; now right).
  assert (Q1 : forall (A : Type) (g : varel -> list A) e' x, In (e', x) (flat_map (fun e => map (pair e) (g e)) l1) -> prop (xe_name e') <> n).
  { intros A g e' x I. apply NO1. eapply in_fm; eauto. }
  assert (Q2 : forall (A : Type) (g : varel -> list A) e' x, In (e', x) (flat_map (fun e => map (pair e) (g e)) l2) -> prop (xe_name e') <> n).
  { intros A g e' x I. apply NO2. eapply in_fm; eauto. }
  (* types *)
  apply ofold_mid in E7. destruct E7 as (p & q & X1 & X2 & X3).
  apply types_spec in X1. destruct X1 as (D1 & B1 & _ & _ & Y1). destruct (Y1 n NO1) as [Y1v Y1t]. cbn [n_cdm n_tmap] in *.
  apply types_spec in X3. destruct X3 as (D3 & B3 & _ & _ & Y3). destruct (Y3 n NO2) as [Y3v Y3t].
  apply type_varel_spec in X2. destruct X2 as (D2 & B2 & _ & _ & _ & Z1 & Z2). rewrite Pn in *.
  set (v7 := match xe_type e with Some t => with_type (ncml_name2cdm (s_ t) false) v | None => v end).
  assert (F7 : find_var n (vars (n_cdm s7)) = Some v7 /\ sfind n (n_tmap s7) = match xe_type e with
      | Some t => if dtype_eqb (ncml_name2cdm (s_ t) false) (v_type v) then None else Some (ncml_name2cdm (s_ t) false)
      | None => None end /\ match xe_type e with Some t => ncml_name2cdm (s_ t) false <> DNat | None => True end).
  { rewrite Y3v, Y3t. unfold v7. destruct (xe_type e) as [t|].
    - rewrite Y1v in Z2. destruct (Z2 t v eq_refl F6) as (U1 & U2 & U3). rewrite U2, U3, Y1t, T5. auto.
    - rewrite (Z1 eq_refl), Y1v, Y1t, T5. auto. }
  destruct F7 as (F7 & T7 & NT).
  (* values *)
  apply ofold_fm_mid in E8. destruct E8 as (p8 & q8 & X1 & X2 & X3).
  apply values_spec in X1. destruct X1 as (D81 & B81 & _ & Y81 & _). apply values_spec in X3. destruct X3 as (D83 & B83 & _ & Y83 & _).
  specialize (Y81 n (Q1 _ xe_values)). specialize (Y83 n (Q2 _ xe_values)).
  pose proof X2 as X2'. apply values_spec in X2'. destruct X2' as (D82 & B82 & _ & _ & Y82). rewrite <- Y81 in F7.
  destruct (Y82 _ _ F7) as (data & Y82v).
  (* vectors *)
  apply ofold_fm_mid in E9. destruct E9 as (p9 & q9 & V1 & V2 & V3).
  apply vectors_spec in V1. destruct V1 as (D91 & B91 & _ & Y91). apply vectors_spec in V3. destruct V3 as (D93 & B93 & _ & Y93).
  specialize (Y91 n (Q1 _ xe_vectors)). specialize (Y93 n (Q2 _ xe_vectors)).
  pose proof V2 as V2'. apply vectors_spec in V2'. destruct V2' as (D92 & B92 & _). apply vectors_own in V2. rewrite Pn in V2.
  (* attributes *)
  apply rename_attels_frame in E10. destruct E10 as (V10 & D10 & A10).
  apply ofold_fm_mid in E11. destruct E11 as (p11 & q11 & R1 & R2 & R3).
  apply rename_vattels_spec in R1. destruct R1 as (V111 & D111 & A111). apply rename_vattels_spec in R3. destruct R3 as (V113 & D113 & A113).
  pose proof (rename_vattels_own e n _ _ _ R2 En) as R2'. pose proof R2' as R2''. apply rename_attels_frame in R2''. destruct R2'' as (V112 & D112 & _).
  apply set_attels_spec in E12. destruct E12 as (V12 & D12 & A12 & _).
  apply ofold_fm_mid in E13. destruct E13 as (p13 & q13 & S1 & S2 & S3).
  apply set_vattels_spec in S1. destruct S1 as (V131 & D131 & A131). apply set_vattels_spec in S3. destruct S3 as (V133 & D133 & A133).
  rewrite set_vattels_own, Pn in S2. apply set_attels_spec in S2. destruct S2 as (V132 & D132 & _ & A132).
  assert (FF : find_var n (vars c13) = find_var n (vars c9)) by congruence.
  set (v9 := match xe_vectors e with [] => with_data data v7 | _ => with_counterpart (last (xe_vectors e) "") (with_data data v7) end).
  assert (F9 : find_var n (vars c9) = Some v9).
  { rewrite Y93, V2, Y91, Y83, Y82v. unfold v9. now destruct (xe_vectors e). }
  exists v9. split; [ now rewrite FF | ].
  assert (T9 : v_type v9 = v_type v7 /\ v_shape v9 = v_shape v7 /\ v_data v9 = data) by (unfold v9; destruct (xe_vectors e); cbn; auto).
  destruct T9 as (T9 & S9 & DD9).
  assert (S7 : v_shape v7 = v_shape v) by (unfold v7; destruct (xe_type e); reflexivity).
  split. { rewrite T9. unfold v7. destruct (xe_type e); [ split; [ exact NT | reflexivity ] | reflexivity ]. }
  split; [ congruence | ].
  split. { unfold v9. destruct (xe_vectors e); cbn [with_data with_counterpart v_counterpart]; [ | reflexivity ]. unfold v7. now destruct (xe_type e). }
  split. { intro E. rewrite DD9. rewrite E in X2. cbn in X2. injection X2 as <-.
    assert (K : Some v7 = Some (with_data data v7)) by congruence. injection K as K. unfold v7 in K.
    destruct (xe_type e); cbn in K; [ now injection K | ]. now rewrite K. }
  split. { intros x E. rewrite E in X2. cbn [map ofold] in X2. ob X2. injection X2 as <-.
    apply values_one_spec in E0. destruct E0 as (Dv & _ & _ & _ & Gv). rewrite Pn in Gv. destruct (Gv _ F7) as (dt & K & sz & K2 & K3).
    assert (KD : data = Some dt). { assert (Z : Some (with_data data v7) = Some (with_data (Some dt) v7)) by congruence. injection Z as Z. exact Z. }
    exists dt, sz. rewrite DD9, S9, T9. split; [ exact KD | ]. split; [ | exact K3 ].
    unfold data_size in K2 |- *. assert (DQ : dims c13 = dims p8) by congruence. rewrite DQ. exact K2. }
  split; [ exact T7 | ].
  intros P ND NI b. specialize (A132 b).
  assert (AA : attrs_of p11 n = L).
  { rewrite A111. 2:{ intros ea I Y. destruct ea as [e' a']. apply (Q1 _ xe_atts e' a' I). cbn in Y. now rewrite Y. }
    rewrite A10 by exact G. rewrite <- A6. unfold attrs_of. now rewrite B93, B92, B91, B83, B82, B81, B3, B2, B1. }
  assert (AB : attrs_of q11 n = map (aren (xe_atts e)) L).
  { rewrite <- AA. apply (rename_attels_own n (xe_atts e) p11 q11 R2' P); rewrite AA; assumption. }
  assert (AC : attrs_of p13 n = map (aren (xe_atts e)) L).
  { rewrite A131. 2:{ intros ea I. destruct ea as [e' a']. exact (Q1 _ xe_atts e' a' I). }
    rewrite A12 by exact G. rewrite A113; [ exact AB | ].
    intros ea I Y. destruct ea as [e' a']. apply (Q2 _ xe_atts e' a' I). cbn in Y. now rewrite Y. }
  assert (AD : attrs_of c13 n = attrs_of q13 n).
  { apply A133. intros ea I. destruct ea as [e' a']. exact (Q2 _ xe_atts e' a' I). }
  rewrite AD, <- AC. exact A132.
Qed.

Lemma nodup_map_filter {A B} (f : A -> B) g l : NoDup (map f l) -> NoDup (map f (filter g l)).
Proof.
  induction l as [ | a l IH ]; cbn; [ auto | ]. intro N. inversion_clear N. destruct (g a); [ | auto ]. cbn. constructor; [ | auto ].
  intro I. apply H. apply in_map_iff in I. destruct I as (y & <- & I). apply in_map. now apply filter_In in I.
Qed.

Lemma rm_atts_mid l1 e l2 o : target e = o -> (forall e', In e' (l1 ++ l2) -> ~ mentions e' o) -> rm_atts (l1 ++ e :: l2) o = map rm_name (xe_removes e).
Proof.
  intros T N. unfold rm_atts. rewrite flat_map_app. cbn [flat_map]. rewrite T, String.eqb_refl.
  assert (K : forall l, (forall e', In e' l -> ~ mentions e' o) -> flat_map (fun e0 => if String.eqb (target e0) o then map rm_name (xe_removes e0) else []) l = []).
  { induction l as [ | a l IH ]; intro Q; [ reflexivity | ]. cbn [flat_map]. destruct (String.eqb_spec (target a) o) as [Y | _].
    - exfalso. apply (Q a); [ now left | now apply target_mentions ].
    - apply IH. intros e' I. apply Q. now right. }
  rewrite !K; [ cbn; apply app_nil_r | | ]; intros e' I; apply N; apply in_or_app; auto.
Qed.

Lemma edited_gen d s l1 e l2 o n v : consistent src -> plain (dimels d) -> init src src_data parse number_of d = Ok s ->
  varels d = l1 ++ e :: l2 -> xe_name e = Some n -> (xe_org e = None /\ o = n \/ xe_org e = Some o /\ o <> n) ->
  o <> "" -> o <> global_ns -> n <> global_ns ->
  (forall r, In r (removes d) -> rm_type r = "variable" -> rm_name r <> o) ->
  (forall k, In k (dimels d) -> de_name k = o -> de_unlim k = None) -> find_var o (vars src) = Some v ->
  (forall e', In e' (l1 ++ l2) -> ~ mentions e' o /\ ~ mentions e' n) ->
  let L := without (map rm_name (xe_removes e)) (attrs_of src o) in
  (o <> n -> view (n_cdm s) o = (None, [])) /\
  sfind n (n_vmap s) = (if String.eqb o n then None else Some o) /\
  exists v', find_var n (vars (n_cdm s)) = Some v' /\
    match xe_type e with
    | Some t => ncml_name2cdm (s_ t) false <> DNat /\ v_type v' = ncml_name2cdm (s_ t) false
    | None => v_type v' = v_type v end /\
    match xe_shape e with Some t => shape_of_text t = Ok (v_shape v') | None => v_shape v' = map (rn (dimels d) src) (v_shape v) end /\
    v_counterpart v' = match xe_vectors e with [] => v_counterpart v | _ => last (xe_vectors e) "" end /\
    (xe_values e = [] -> v_data v' = v_data v) /\ (forall x, xe_values e = [x] -> data_given (n_cdm s) v' x) /\
    sfind n (n_tmap s) = match xe_type e with
      | Some t => if dtype_eqb (ncml_name2cdm (s_ t) false) (v_type v) then None else Some (ncml_name2cdm (s_ t) false)
      | None => None end /\
    (aplain (xe_atts e) -> (forall x, In x (anews (xe_atts e)) -> ~ In x (map a_name L)) ->
     forall b, match last_given (xe_atts e) b with
               | Some a => exists x, make_att parse a = Ok x /\ a_name x = b /\ find_attr b (attrs_of (n_cdm s) n) = Some x
               | None => find_attr b (attrs_of (n_cdm s) n) = find_attr b (map (aren (xe_atts e)) L)
               end).
Proof.
  intros C P H VE En OO NE Go Gn NR NU Fv NM L.
  destruct (first_phases d s o v C P H Go NR NU Fv) as (c0 & s1 & c2 & c3 & E0 & E1 & E2 & E3 & W).
  apply init_stages in H. destruct H as (c0' & s1' & c2' & c3' & c4 & s5 & c6 & s7 & c8 & c9 & c10 & c11 & c12 & c13 & E0' & E1' & E2' & E3' & E4 & E5 & E6 & E7 & E8 & E9 & E10 & E11 & E12 & E13 & ->).
  assert (c0' = c0) by congruence. subst c0'. assert (s1' = s1) by congruence. subst s1'. assert (c2' = c2) by congruence. subst c2'. assert (c3' = c3) by congruence. subst c3'.
  pose proof (init_remove_consistent _ _ _ E0 C) as C0. destruct (rename_dims_spec _ (mkN c0 [] [] []) _ P C0 E1) as (C1 & _ & _ & MV & MT & _). cbn [n_vmap n_tmap] in MV, MT.
  apply lengths_spec in E2. destruct E2 as (_ & _ & C2 & _). apply unlims_spec in E3. destruct E3 as (_ & _ & C3 & _). specialize (C3 (C2 C1)).
  assert (Pn : prop (xe_name e) = n) by (now rewrite En).
  assert (To : target e = o).
  { unfold target, isempty. destruct OO as [[Eo ->] | [Eo _]]; rewrite Eo; cbn; [ exact Pn | ]. apply String.eqb_neq in NE. now rewrite NE. }
  rewrite VE, (rm_atts_mid l1 e l2 o To (fun e' I => proj1 (NM e' I))) in W.
  assert (I1 : forall e', In e' l1 -> In e' (l1 ++ l2)) by (intros; apply in_or_app; auto).
  assert (I2 : forall e', In e' l2 -> In e' (l1 ++ l2)) by (intros; apply in_or_app; auto).
  (* shapes *)
  rewrite VE in E4. apply ofold_mid in E4. destruct E4 as (p & q & X1 & X2 & X3).
  apply shapes_spec in X1. destruct X1 as (_ & C41 & Y1). apply shapes_spec in X3. destruct X3 as (_ & C43 & Y3).
  specialize (Y1 o (fun e' I Z => proj1 (NM e' (I1 e' I)) (target_mentions _ _ Z))).
  specialize (Y3 o (fun e' I Z => proj1 (NM e' (I2 e' I)) (target_mentions _ _ Z))).
  pose proof X2 as X2s. apply shape_varel_spec in X2. destruct X2 as (_ & C42 & Y2). specialize (Y2 o). rewrite To, String.eqb_refl in Y2.
  assert (W4 : exists v4, view c4 o = (Some v4, L) /\ v_type v4 = v_type v /\ v_counterpart v4 = v_counterpart v /\ v_data v4 = v_data v /\
     match xe_shape e with Some t => shape_of_text t = Ok (v_shape v4) | None => v_shape v4 = map (rn (dimels d) src) (v_shape v) end).
  { rewrite Y3, Y2. unfold shape_varel in X2s. rewrite To in X2s. rewrite W in Y1. destruct (xe_shape e) as [t|].
    - unfold view in Y1. injection Y1 as Y1v Y1a. destruct (isempty o); [ discriminate | ]. unfold has_var in X2s. rewrite Y1v in X2s. cbn in X2s.
      destruct (shape_of_text t) as [sh| | |]; try discriminate. rewrite Y1v, Y1a. cbn [option_map].
      eexists. split; [ reflexivity | ]. cbn. auto.
    - rewrite Y1. eexists. split; [ reflexivity | ]. cbn. auto. }
  destruct W4 as (v4 & W4 & T4 & K4 & D4 & S4).
  (* renaming *)
  assert (C4 : consistent c4) by auto.
  rewrite VE in E5. apply ofold_mid in E5. destruct E5 as (p5 & q5 & X51 & X52 & X53).
  destruct (renames_spec _ _ _ X51 C4) as (_ & C51 & _ & T51 & F51). cbn [n_cdm n_vmap n_tmap] in F51, T51.
  destruct (rename_varel_spec _ _ _ X52 C51) as (_ & C52 & _ & T52 & F52 & R52 & _).
  destruct (renames_spec _ _ _ X53 C52) as (_ & C53 & _ & T53 & F53).
  destruct (F51 o (fun e' I => proj1 (NM e' (I1 e' I)))) as [F51o _]. destruct (F51 n (fun e' I => proj2 (NM e' (I1 e' I)))) as [F51n M51n].
  destruct (F53 o (fun e' I => proj1 (NM e' (I2 e' I)))) as [F53o _]. destruct (F53 n (fun e' I => proj2 (NM e' (I2 e' I)))) as [F53n M53n].
  assert (W5 : view (n_cdm s5) n = (Some (renamed n v4), L) /\ sfind n (n_vmap s5) = (if String.eqb o n then None else Some o) /\
               (o <> n -> view (n_cdm s5) o = (None, []))).
  { destruct OO as [[Eo ->] | [Eo D]].
    - rewrite String.eqb_refl. assert (q5 = p5) by (unfold rename_varel in X52; rewrite Eo in X52; congruence). subst q5.
      rewrite F53n, F51n, W4, M53n, M51n, MV. split; [ | split; [ reflexivity | congruence ] ].
      f_equal. f_equal. unfold view in W4. injection W4 as W4 _. apply (fnd_some v_name) in W4. destruct W4 as [_ W4].
      unfold renamed. destruct v4; cbn in *; congruence.
    - assert (Ho : has_var (n_cdm p5) o = true).
      { unfold has_var. assert (Z : find_var o (vars (n_cdm p5)) = Some v4) by (unfold view in F51o, W4; congruence). now rewrite Z. }
      destruct (R52 o Eo Ho) as (M & R). rewrite Pn in *. destruct (R D) as (R1 & R2).
      rewrite F53n, F53o, M53n, R1, R2, M. apply String.eqb_neq in D. rewrite D.
      unfold view in F51o, W4. rewrite W4 in F51o. injection F51o as Q1 Q2. rewrite Q1, Q2. auto. }
  destruct W5 as (W5 & M5 & O5).
  assert (NN : forall e', In e' (l1 ++ l2) -> prop (xe_name e') <> n).
  { intros e' I Y. apply (proj2 (NM e' I)). now left. }
  assert (T5 : sfind n (n_tmap s5) = None) by (rewrite T53, T52, T51, MT; reflexivity).
  assert (W6 : find_var n (vars c6) = Some (renamed n v4) /\ attrs_of c6 n = L /\ sfind n (n_tmap s5) = None).
  { pose proof E6 as E6'. apply adds_spec in E6'. destruct E6' as (_ & A6 & F6). unfold view in W5. injection W5 as W5v W5a.
    split; [ rewrite F6; [ exact W5v | left; unfold has_var; now rewrite W5v ] | ]. split; [ | exact T5 ].
    rewrite <- W5a. unfold attrs_of. now rewrite A6. }
  split. { intro D. cbn [n_cdm]. rewrite (late_frame d s5 c6 s7 c8 c9 c10 c11 c12 c13 o); auto.
    intros e' I. rewrite VE in I. apply in_app_or in I. cbn in I. intro Y.
    destruct I as [I | [ <- | I ]]; [ | congruence | ].
    - apply (proj1 (NM e' (I1 e' I))). now left.
    - apply (proj1 (NM e' (I2 e' I))). now left. }
  split. { cbn [n_vmap]. apply types_spec in E7. destruct E7 as (_ & _ & MV7 & _). rewrite MV7. exact M5. }
  destruct (late_own d s5 c6 s7 c8 c9 c10 c11 c12 c13 l1 e l2 n (renamed n v4) L Gn VE En NN W6 E7 E8 E9 E10 E11 E12 E13)
    as (v' & U1 & U2 & U3 & U4 & U5 & U6 & U7 & U8).
  exists v'. cbn [n_cdm n_tmap]. cbn [renamed v_type v_shape v_counterpart v_data] in *. rewrite T4, K4, D4 in *.
  split; [ exact U1 | ]. split; [ exact U2 | ]. split; [ rewrite U3; exact S4 | ]. split; [ exact U4 | ]. split; [ exact U5 | ]. split; [ exact U6 | ].
  split; [ exact U7 | ]. intros Q1 Q2. apply U8; auto. unfold L, without.
  apply nodup_map_filter. apply (c_attrs src C).
Qed.

(** a new variable *)
Lemma added_gen d s l1 e l2 n t : consistent src -> plain (dimels d) -> init src src_data parse number_of d = Ok s ->
  varels d = l1 ++ e :: l2 -> xe_name e = Some n -> xe_org e = None -> xe_type e = Some t -> t <> "" -> n <> global_ns ->
  find_var n (vars src) = None -> (forall e', In e' (l1 ++ l2) -> ~ mentions e' n) ->
  exists v', find_var n (vars (n_cdm s)) = Some v' /\ ncml_name2cdm (s_ t) false <> DNat /\ v_type v' = ncml_name2cdm (s_ t) false /\
    shape_of_text (prop (xe_shape e)) = Ok (v_shape v') /\ v_counterpart v' = last (xe_vectors e) "" /\
    (xe_values e = [] -> v_data v' = Some []) /\ (forall x, xe_values e = [x] -> data_given (n_cdm s) v' x) /\
    (aplain (xe_atts e) ->
     forall b, match last_given (xe_atts e) b with
               | Some a => exists x, make_att parse a = Ok x /\ a_name x = b /\ find_attr b (attrs_of (n_cdm s) n) = Some x
               | None => find_attr b (attrs_of (n_cdm s) n) = None
               end).
Proof.
  intros C P H VE En Eo Et Nt Gn Fv NM.
  apply init_stages in H. destruct H as (c0 & s1 & c2 & c3 & c4 & s5 & c6 & s7 & c8 & c9 & c10 & c11 & c12 & c13 & E0 & E1 & E2 & E3 & E4 & E5 & E6 & E7 & E8 & E9 & E10 & E11 & E12 & E13 & ->).
  assert (Pn : prop (xe_name e) = n) by (now rewrite En).
  pose proof (init_remove_consistent _ _ _ E0 C) as C0. destruct (rename_dims_spec _ (mkN c0 [] [] []) _ P C0 E1) as (C1 & V1 & A1 & MV & MT & _). cbn [n_cdm n_vmap n_tmap] in MV, MT, V1, A1.
  assert (F0 : find_var n (vars c0) = None).
  { unfold init_remove in E0. ob E0. apply remove_atts_spec in E0. destruct E0 as (V0 & _). rewrite V0.
    refine (okeep (fun c => find_var n (vars c) = None) remove_one (removes d) _ src a Fv E).
    intros c r c' I Q F. unfold remove_one in F. destruct (isempty (rm_name r)); [ discriminate | ]. destruct (isempty (rm_type r)); [ discriminate | ].
    destruct (String.eqb (rm_type r) "variable"). { injection F as <-. rewrite find_var_removed. now destruct (String.eqb n (rm_name r)). }
    destruct (String.eqb (rm_type r) "dimension").
    { destruct (remove_dim c (rm_name r) false) as [c2' [b|]] eqn:E'; [ | discriminate ]. injection F as <-.
      apply remove_dim_spec in E'. destruct E' as (V & _). now rewrite V. }
    destruct (String.eqb (rm_type r) "attribute"). { injection F as <-. now rewrite remove_attr_vars. }
    destruct (String.eqb (rm_type r) "group"); [ | discriminate ]. now injection F as <-. }
  apply lengths_spec in E2. destruct E2 as (V2 & A2 & C2 & _). apply unlims_spec in E3. destruct E3 as (A3 & V3 & C3 & _). specialize (C3 (C2 C1)).
  assert (H3 : find_var n (vars c3) = None).
  { assert (Z : has_var c3 n = false). { apply has_var_false. rewrite V3. unfold vnames. rewrite V2, V1, map_map. intro I.
      assert (Y : ~ In n (vnames c0)) by (apply has_var_false; unfold has_var; now rewrite F0). apply Y. exact I. }
    unfold has_var in Z. now destruct (find_var n (vars c3)). }
  assert (I1 : forall e', In e' l1 -> In e' (l1 ++ l2)) by (intros; apply in_or_app; auto).
  assert (I2 : forall e', In e' l2 -> In e' (l1 ++ l2)) by (intros; apply in_or_app; auto).
  assert (NN : forall e', In e' (l1 ++ l2) -> prop (xe_name e') <> n).
  { intros e' I Y. apply (NM e' I). now left. }
  assert (H4 : find_var n (vars c4) = None /\ consistent c4).
  { rewrite VE in E4. apply ofold_mid in E4. destruct E4 as (p & q & X1 & X2 & X3).
    apply shapes_spec in X1. destruct X1 as (_ & K1 & Y1). apply shapes_spec in X3. destruct X3 as (_ & K3 & Y3).
    specialize (Y1 n (fun e' I Z => NM e' (I1 e' I) (target_mentions _ _ Z))).
    specialize (Y3 n (fun e' I Z => NM e' (I2 e' I) (target_mentions _ _ Z))).
    apply shape_varel_spec in X2. destruct X2 as (_ & K2 & Y2). specialize (Y2 n). split; [ | auto ].
    unfold view in *. injection Y1 as Y1 _. rewrite H3 in Y1. injection Y3 as Y3 _. rewrite Y3. rewrite Y1 in Y2. cbn [option_map] in Y2.
    destruct (xe_shape e); [ destruct (String.eqb n (target e)); [ destruct (shape_of_text s) | ] | ]; injection Y2 as Y2 _; exact Y2. }
  destruct H4 as [H4 C4].
  rewrite VE in E5. apply ofold_mid in E5. destruct E5 as (p5 & q5 & X51 & X52 & X53).
  destruct (renames_spec _ _ _ X51 C4) as (_ & C51 & _ & T51 & F51). cbn [n_cdm n_vmap n_tmap] in F51, T51.
  assert (q5 = p5) by (unfold rename_varel in X52; rewrite Eo in X52; congruence). subst q5.
  destruct (renames_spec _ _ _ X53 C51) as (_ & C53 & _ & T53 & F53).
  destruct (F51 n (fun e' I => NM e' (I1 e' I))) as [F51n _]. destruct (F53 n (fun e' I => NM e' (I2 e' I))) as [F53n _].
  assert (H5 : find_var n (vars (n_cdm s5)) = None) by (unfold view in *; congruence).
  assert (T5 : sfind n (n_tmap s5) = None) by (rewrite T53, T51, MT; reflexivity).
  assert (A5 : attrs_of (n_cdm s5) n = []).
  { unfold attrs_of. destruct (sfind n (attrs (n_cdm s5))) as [l|] eqn:S; [ | reflexivity ]. exfalso.
    destruct (c_owner _ C53 n) as [Z | Z]; [ apply sfind_In; eauto | contradiction | ].
    apply has_var_in in Z. unfold has_var in Z. now rewrite H5 in Z. }
  assert (W6 : exists ty sh, shape_of_text (prop (xe_shape e)) = Ok sh /\ find_var n (vars c6) = Some (mkVar n ty sh "" (Some [])) /\ attrs_of c6 n = []).
  { rewrite VE in E6. apply ofold_mid in E6. destruct E6 as (p & q & X1 & X2 & X3).
    apply adds_spec in X1. destruct X1 as (_ & A61 & Y1). apply adds_spec in X3. destruct X3 as (_ & A63 & Y3).
    rewrite (Y3 n (or_intror (fun e' I => NN e' (I2 e' I)))).
    specialize (Y1 n (or_intror (fun e' I => NN e' (I1 e' I)))).
    assert (Z : exists ty sh, string2datatype (s_ t) = Ok ty /\ shape_of_text (prop (xe_shape e)) = Ok sh).
    { unfold add_varel in X2. rewrite Eo, Et, Pn in X2. cbn [prop] in X2. unfold isempty in X2. apply String.eqb_neq in Nt. rewrite Nt in X2.
      unfold has_var in X2. rewrite Y1, H5 in X2. cbn in X2. ob X2. ob X2. eauto. }
    destruct Z as (ty & sh & Z1 & Z2). exists ty, sh. split; [ exact Z2 | ].
    apply add_varel_spec in X2. destruct X2 as (_ & A62 & Y2). rewrite Y2, Y1, H5, Eo, Et, Pn. cbn [prop is_some negb]. rewrite Z1, Z2.
    unfold isempty. apply String.eqb_neq in Nt. rewrite Nt, String.eqb_refl. cbn. split; [ reflexivity | ].
    unfold attrs_of in A5 |- *. now rewrite A63, A62, A61. }
  destruct W6 as (ty & sh & Z2 & W6 & A6).
  destruct (late_own d s5 c6 s7 c8 c9 c10 c11 c12 c13 l1 e l2 n _ [] Gn VE En NN (conj W6 (conj A6 T5)) E7 E8 E9 E10 E11 E12 E13)
    as (v' & U1 & U2 & U3 & U4 & U5 & U6 & U7 & U8).
  rewrite Et in *. destruct U2 as [U2a U2b]. exists v'. cbn [n_cdm]. cbn [v_type v_shape v_counterpart v_data] in *.
  split; [ exact U1 | ]. split; [ exact U2a | ]. split; [ exact U2b | ]. split; [ now rewrite U3 | ].
  split. { rewrite U4. now destruct (xe_vectors e). }
  split; [ exact U5 | ]. split; [ exact U6 | ].
  intro Q. specialize (U8 Q (NoDup_nil _) (fun x _ I => I)). exact U8.
Qed.

(** a removed variable *)
Lemma removed_gen d s r x : consistent src -> plain (dimels d) -> init src src_data parse number_of d = Ok s -> In r (removes d) ->
  rm_type r = "variable" -> rm_name r = x -> x <> global_ns -> (forall e, In e (varels d) -> ~ mentions e x) ->
  view (n_cdm s) x = (None, []).
Proof.
  intros C P H I Tr Nr G NM.
  apply init_stages in H. destruct H as (c0 & s1 & c2 & c3 & c4 & s5 & c6 & s7 & c8 & c9 & c10 & c11 & c12 & c13 & E0 & E1 & E2 & E3 & E4 & E5 & E6 & E7 & E8 & E9 & E10 & E11 & E12 & E13 & ->).
  pose proof (init_remove_consistent _ _ _ E0 C) as C0. destruct (rename_dims_spec _ (mkN c0 [] [] []) _ P C0 E1) as (C1 & V1 & A1 & MV & MT & _). cbn [n_cdm n_vmap n_tmap] in MV, MT, V1, A1.
  assert (F0 : find_var x (vars c0) = None /\ attrs_of c0 x = []).
  { unfold init_remove in E0. ob E0. apply remove_atts_spec in E0. destruct E0 as (V0 & _ & _ & A0). rewrite V0, A0.
    assert (K : view a x = (None, [])).
    { apply in_split in I. destruct I as (r1 & r2 & RE). rewrite RE in E. apply ofold_mid in E. destruct E as (p & q & X1 & X2 & X3).
      refine (okeep (fun c => view c x = (None, [])) remove_one r2 _ q a _ X3).
      - intros c r' c' _ Q F. unfold remove_one in F. destruct (isempty (rm_name r')); [ discriminate | ]. destruct (isempty (rm_type r')); [ discriminate | ].
        destruct (String.eqb (rm_type r') "variable").
        { injection F as <-. unfold view in *. injection Q as Q1 Q2. rewrite find_var_removed, attrs_of_removed, Q1, Q2. now destruct (String.eqb x (rm_name r')). }
        destruct (String.eqb (rm_type r') "dimension").
        { destruct (remove_dim c (rm_name r') false) as [c2' [b|]] eqn:E'; [ | discriminate ]. injection F as <-.
          apply remove_dim_spec in E'. destruct E' as (V & A & _). unfold view, attrs_of in *. now rewrite V, A. }
        destruct (String.eqb (rm_type r') "attribute").
        { injection F as <-. rewrite view_remove_attr. apply String.eqb_neq in G. rewrite G. exact Q. }
        destruct (String.eqb (rm_type r') "group"); [ | discriminate ]. now injection F as <-.
      - unfold remove_one in X2. rewrite Tr, Nr in X2. destruct (isempty x); [ discriminate | ]. cbn in X2. injection X2 as <-.
        unfold view. rewrite find_var_removed, attrs_of_removed. now rewrite String.eqb_refl. }
    unfold view in K. injection K as -> ->. auto. }
  destruct F0 as [F0 A0].
  assert (W3 : view c3 x = (None, [])).
  { apply lengths_spec in E2. destruct E2 as (V2 & A2 & _). apply unlims_spec in E3. destruct E3 as (A3 & V3 & _).
    unfold view. f_equal.
    - assert (Z : has_var c3 x = false). { apply has_var_false. rewrite V3. unfold vnames. rewrite V2, V1, map_map. intro J.
        assert (Y : ~ In x (vnames c0)) by (apply has_var_false; unfold has_var; now rewrite F0). apply Y. exact J. }
      unfold has_var in Z. now destruct (find_var x (vars c3)).
    - rewrite <- A0. unfold attrs_of. now rewrite A3, A2, A1. }
  assert (NN : forall e, In e (varels d) -> prop (xe_name e) <> x) by (intros e J Y; apply (NM e J); now left).
  apply lengths_spec in E2. destruct E2 as (_ & _ & C2 & _). apply unlims_spec in E3. destruct E3 as (_ & _ & C3 & _).
  apply shapes_spec in E4. destruct E4 as (_ & C4 & F4).
  destruct (renames_spec _ _ _ E5 (C4 (C3 (C2 C1)))) as (_ & _ & _ & _ & F5). cbn [n_cdm] in F5.
  destruct (F5 x NM) as [F5v _].
  cbn [n_cdm]. rewrite (late_frame d s5 c6 s7 c8 c9 c10 c11 c12 c13 x); auto.
  rewrite F5v, F4; [ exact W3 | ]. intros e J Y. apply (NM e J). now apply target_mentions.
Qed.

(** dimensions are not changed after the first four phases *)
Lemma dims_final d s : init src src_data parse number_of d = Ok s -> consistent src -> plain (dimels d) ->
  exists c0 s1 c2 c3, init_remove d src = Ok c0 /\ ofold rename_dimel (dimels d) (mkN c0 [] [] []) = Ok s1 /\
    ofold length_dimel (dimels d) (n_cdm s1) = Ok c2 /\ ofold (unlim_dimel src_data) (dimels d) c2 = Ok c3 /\
    dims (n_cdm s) = dims c3 /\ n_dmap s = n_dmap s1.
Proof.
  intros H C P.
  apply init_stages in H. destruct H as (c0 & s1 & c2 & c3 & c4 & s5 & c6 & s7 & c8 & c9 & c10 & c11 & c12 & c13 & E0 & E1 & E2 & E3 & E4 & E5 & E6 & E7 & E8 & E9 & E10 & E11 & E12 & E13 & ->).
  exists c0, s1, c2, c3. do 4 (split; [ assumption | ]). cbn [n_cdm n_dmap].
  pose proof (init_remove_consistent _ _ _ E0 C) as C0. destruct (rename_dims_spec _ (mkN c0 [] [] []) _ P C0 E1) as (C1 & _).
  apply lengths_spec in E2. destruct E2 as (_ & _ & C2 & _). apply unlims_spec in E3. destruct E3 as (_ & _ & C3 & _).
  apply shapes_spec in E4. destruct E4 as (D4 & C4 & _).
  destruct (renames_spec _ _ _ E5 (C4 (C3 (C2 C1)))) as (D5 & _ & M5 & _). cbn [n_cdm n_dmap] in D5, M5.
  apply adds_spec in E6. destruct E6 as (D6 & _). apply types_spec in E7. destruct E7 as (D7 & _ & _ & M7 & _). cbn [n_cdm n_dmap] in D7, M7.
  apply values_spec in E8. destruct E8 as (D8 & _). apply vectors_spec in E9. destruct E9 as (D9 & _).
  apply rename_attels_frame in E10. destruct E10 as (_ & D10 & _). apply rename_vattels_spec in E11. destruct E11 as (_ & D11 & _).
  apply set_attels_spec in E12. destruct E12 as (_ & D12 & _). apply set_vattels_spec in E13. destruct E13 as (_ & D13 & _).
  split; congruence.
Qed.
Lemma remove_dims_frame d c0 x : init_remove d src = Ok c0 ->
  (forall r, In r (removes d) -> rm_type r = "dimension" -> rm_name r <> x) -> find_dim x (dims c0) = find_dim x (dims src).
Proof.
  unfold init_remove. intros H N. ob H. apply remove_atts_spec in H. destruct H as (_ & D & _). rewrite D.
  refine (okeep (fun c => find_dim x (dims c) = find_dim x (dims src)) remove_one (removes d) _ src a eq_refl E).
  intros c r c' I Q F. rewrite <- Q. unfold remove_one in F. destruct (isempty (rm_name r)); [ discriminate | ]. destruct (isempty (rm_type r)); [ discriminate | ].
  destruct (String.eqb (rm_type r) "variable"). { now injection F as <-. }
  destruct (String.eqb_spec (rm_type r) "dimension") as [ Er | _ ].
  { destruct (remove_dim c (rm_name r) false) as [c2' [b|]] eqn:E'; [ | discriminate ]. injection F as <-.
    apply remove_dim_spec in E'. destruct E' as (_ & _ & Dm & _). rewrite Dm. unfold find_dim. rewrite (fnd_filter d_name).
    specialize (N r I Er). destruct (String.eqb_spec x (rm_name r)); [ congruence | reflexivity ]. }
  destruct (String.eqb (rm_type r) "attribute"). { injection F as <-. now rewrite remove_attr_dims. }
  destruct (String.eqb (rm_type r) "group"); [ | discriminate ]. now injection F as <-.
Qed.
End Init.
