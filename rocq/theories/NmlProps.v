(** C87: the metadata of a file changed by an NcML document.
    C88: the data read through it. *)
From Coq Require Import NArith ZArith QArith Qcanon Ascii String List Bool Lia.
From Verif Require Import Base StdMap SliceModel RegridModel StringModel TextModel ConvertModel ConvertProofs CdmModel CdmProofs NmlModel NmlProofs.
Import ListNotations.
Local Open Scope string_scope.
Local Open Scope list_scope.
Local Open Scope nat_scope.

(** ** what a list of <attribute> elements asks for, attribute by attribute *)

(** [a] is the last element of the name with a value *)
Definition is_given (els : list attel) (b : string) (a : attel) : Prop :=
  exists l1 l2, els = l1 ++ a :: l2 /\ ae_name a = b /\ att_value a <> "" /\ forall x, In x l2 -> ae_name x = b -> att_value x = "".
Definition not_given (els : list attel) (b : string) : Prop := forall x, In x els -> ae_name x = b -> att_value x = "".

(** the old attribute of the name, unless removed *)
Definition old_att (removed : list string) (old : list cattr) (b : string) (a : cattr) : Prop :=
  ~ In b removed /\ find_attr b old = Some a.
(** [b] is absent when it is removed, renamed away or was not there *)
Definition att_result (els : list attel) (removed : list string) (old : list cattr) (b : string) (res : option cattr) : Prop :=
  (forall e o, In e els -> ae_org e = Some o -> ae_name e = b ->
     (forall a, old_att removed old o a -> res = Some (mkAttr b (a_type a) (a_nums a) (a_text a))) /\
     ((forall a, ~ old_att removed old o a) -> res = None)) /\
  ((forall e o, In e els -> ae_org e = Some o -> ae_name e <> b) ->
     ((exists e, In e els /\ ae_org e = Some b) -> res = None) /\
     ((forall e, In e els -> ae_org e <> Some b) ->
        (forall a, old_att removed old b a -> res = Some a) /\ ((forall a, ~ old_att removed old b a) -> res = None))).

(** every attribute of an edited list of attributes *)
Definition atts_edited (parse : dtype -> list string -> outcome (list value * string)) (els : list attel) (removed : list string) (old : list cattr)
    (res : string -> option cattr) : Prop :=
  forall b, (forall a, is_given els b a -> exists x, make_att parse a = Ok x /\ a_name x = b /\ res b = Some x) /\
            (not_given els b -> att_result els removed old b (res b)).
(** the renamings do not depend on their order, and none is to the name of an attribute that is there:
    (otherwise see C87_rename_attribute_refuted) *)
Definition clean_renames (els : list attel) (removed : list string) (old : list cattr) : Prop :=
  aplain els /\ forall e o a, In e els -> ae_org e = Some o -> ~ old_att removed old (ae_name e) a.

Lemma in_anews els x : In x (anews els) <-> exists e o, In e els /\ ae_org e = Some o /\ ae_name e = x.
Proof.
  unfold anews. rewrite in_flat_map. split.
  - intros (e & I & J). destruct (ae_org e) as [o|] eqn:E; [ | destruct J ]. destruct J as [J | []]. exists e, o. auto.
  - intros (e & o & I & E & <-). exists e. rewrite E. split; [ exact I | now left ].
Qed.
Lemma in_aorgs els x : In x (aorgs els) <-> exists e, In e els /\ ae_org e = Some x.
Proof.
  unfold aorgs. rewrite in_flat_map. split.
  - intros (e & I & J). destruct (ae_org e) as [o|] eqn:E; [ | destruct J ]. destruct J as [ <- | []]. eauto.
  - intros (e & I & E). exists e. rewrite E. split; [ exact I | now left ].
Qed.
Lemma arenames_to_in els x n : arenames_to els x = Some n -> exists e, In e els /\ ae_org e = Some x /\ ae_name e = n.
Proof.
  unfold arenames_to. destruct (find _ els) as [e|] eqn:E; cbn; [ | discriminate ]. intro H. injection H as <-.
  apply find_some in E. destruct E as [I E]. exists e. destruct (ae_org e) as [o|]; [ | discriminate ]. apply String.eqb_eq in E. subst o. auto.
Qed.
Lemma arenames_to_none els x : ~ In x (aorgs els) -> arenames_to els x = None.
Proof. intro N. destruct (arenames_to els x) eqn:E; [ | reflexivity ]. apply arenames_to_in in E. exfalso. apply N, in_aorgs. destruct E as (e & I & O & _). eauto. Qed.
Lemma arenames_to_elem els e x : NoDup (aorgs els) -> In e els -> ae_org e = Some x -> arenames_to els x = Some (ae_name e).
Proof.
  unfold arenames_to. induction els as [ | a els IH ]; cbn; [ tauto | ]. intros N I O.
  destruct I as [ -> | I ].
  - rewrite O, String.eqb_refl. reflexivity.
  - destruct (ae_org a) as [o|] eqn:E.
    + cbn in N. inversion_clear N. destruct (String.eqb_spec o x) as [ -> | D ]; [ | apply IH; auto ].
      exfalso. apply H. apply in_aorgs. eauto.
    + apply IH; auto.
Qed.
Lemma find_attr_none_in b l : find_attr b l = None <-> ~ In b (map a_name l).
Proof. apply (fnd_none a_name). Qed.
Lemma find_attr_nodup l a : NoDup (map a_name l) -> In a l -> find_attr (a_name a) l = Some a.
Proof.
  induction l as [ | x l IH ]; cbn; [ tauto | ]. intros N [ -> | I ]; [ now rewrite String.eqb_refl | ]. inversion_clear N.
  destruct (String.eqb_spec (a_name a) (a_name x)) as [E|E]; [ | auto ]. exfalso. apply H. rewrite <- E. now apply in_map.
Qed.
Lemma aren_name els a : a_name (aren els a) = match arenames_to els (a_name a) with Some n => n | None => a_name a end.
Proof. unfold aren. now destruct (arenames_to els (a_name a)). Qed.

Lemma nodup_aren els L : aplain els -> NoDup (map a_name L) -> (forall x, In x (anews els) -> ~ In x (map a_name L)) -> NoDup (map a_name (map (aren els) L)).
Proof.
  intros (P1 & P2 & P3). induction L as [ | a L IH ]; cbn; [ constructor | ]. intros N Q. inversion_clear N. constructor.
  - intro I. rewrite map_map in I. apply in_map_iff in I. destruct I as (y & E & I). rewrite !aren_name in E.
    destruct (arenames_to els (a_name y)) as [n|] eqn:Ey; destruct (arenames_to els (a_name a)) as [m|] eqn:Ea.
    + subst m. apply arenames_to_in in Ey. apply arenames_to_in in Ea. destruct Ey as (e1 & I1 & O1 & N1). destruct Ea as (e2 & I2 & O2 & N2).
      assert (X : e1 = e2).
      { clear -P2 I1 I2 O1 O2 N1 N2. induction els as [ | z els IHe ]; [ destruct I1 | ]. cbn in P2.
        assert (K : forall e o, In e els -> ae_org e = Some o -> In (ae_name e) (anews els)).
        { intros e o Ie Oe. apply in_anews. eauto. }
        destruct I1 as [ -> | I1 ]; destruct I2 as [ -> | I2 ]; [ reflexivity | | | ].
        - exfalso. rewrite O1 in P2. cbn in P2. inversion_clear P2. apply H. rewrite N1, <- N2. eapply K; eauto.
        - exfalso. rewrite O2 in P2. cbn in P2. inversion_clear P2. apply H. rewrite N2, <- N1. eapply K; eauto.
        - apply IHe; auto. destruct (ae_org z); [ cbn in P2; now inversion_clear P2 | exact P2 ]. }
      subst e2. rewrite O1 in O2. injection O2 as O2. apply H. rewrite <- O2. now apply in_map.
    + apply (Q n); [ apply arenames_to_in in Ey; destruct Ey as (e & Ie & Oe & Ne); apply in_anews; eauto | left; now rewrite <- E ].
    + apply (Q m); [ apply arenames_to_in in Ea; destruct Ea as (e & Ie & Oe & Ne); apply in_anews; eauto | right; rewrite <- E; now apply in_map ].
    + apply H. rewrite <- E. now apply in_map.
  - apply IH; auto. intros x Ix Iy. apply (Q x Ix). now right.
Qed.
Lemma find_aren els L b : aplain els -> NoDup (map a_name L) -> (forall x, In x (anews els) -> ~ In x (map a_name L)) ->
  (forall e o, In e els -> ae_org e = Some o -> ae_name e = b -> find_attr b (map (aren els) L) = option_map (arename b) (find_attr o L)) /\
  (~ In b (anews els) -> In b (aorgs els) -> find_attr b (map (aren els) L) = None) /\
  (~ In b (anews els) -> ~ In b (aorgs els) -> find_attr b (map (aren els) L) = find_attr b L).
Proof.
  intros P N Q. pose proof (nodup_aren els L P N Q) as N'. destruct P as (P1 & P2 & P3).
  assert (In' : forall y, In y L -> find_attr (a_name (aren els y)) (map (aren els) L) = Some (aren els y)).
  { intros y I. apply find_attr_nodup; [ exact N' | now apply in_map ]. }
  split; [ | split ].
  - intros e o I O E. assert (Z : arenames_to els o = Some b) by (rewrite <- E; now apply arenames_to_elem).
    destruct (find_attr o L) as [a|] eqn:F; cbn.
    + destruct (fnd_some a_name _ _ _ F) as [Ia Na]. specialize (In' a Ia). rewrite aren_name, Na, Z in In'.
      rewrite In'. unfold aren. now rewrite Na, Z.
    + apply find_attr_none_in. rewrite map_map. intro J. apply in_map_iff in J. destruct J as (y & Ny & J). rewrite aren_name in Ny.
      destruct (arenames_to els (a_name y)) as [m|] eqn:Ey.
      * subst m. apply arenames_to_in in Ey. destruct Ey as (e2 & I2 & O2 & E2).
        assert (X : NoDup (map a_name (map (aren els) [mkAttr o DInt [] ""; y]))).
        { apply nodup_aren; [ repeat split; auto | | ].
          - cbn. constructor; [ | constructor; [ easy | constructor ] ]. intros [D | []]. apply find_attr_none_in in F. apply F. rewrite <- D. now apply in_map.
          - intros x Ix [ <- | [ <- | [] ] ]; [ | apply (Q _ Ix); now apply in_map ].
            apply (P3 o); [ apply in_aorgs; eauto | exact Ix ]. }
        cbn [map] in X. rewrite !aren_name in X. cbn [a_name] in X. rewrite Z in X. rewrite (arenames_to_elem els e2 (a_name y) P1 I2 O2), E2 in X.
        inversion_clear X. apply H. now left.
      * apply (Q b); [ apply in_anews; eauto | rewrite <- Ny; now apply in_map ].
  - intros Nn Io. apply find_attr_none_in. rewrite map_map. intro J. apply in_map_iff in J. destruct J as (y & Ny & J). rewrite aren_name in Ny.
    destruct (arenames_to els (a_name y)) as [m|] eqn:Ey.
    + subst m. apply Nn. apply arenames_to_in in Ey. destruct Ey as (e2 & I2 & O2 & E2). apply in_anews. eauto.
    + subst b. apply in_aorgs in Io. destruct Io as (e & Ie & Oe). rewrite (arenames_to_elem els e _ P1 Ie Oe) in Ey. discriminate.
  - intros Nn No. destruct (find_attr b L) as [a|] eqn:F.
    + destruct (fnd_some a_name _ _ _ F) as [Ia Na]. specialize (In' a Ia). unfold aren in In'. rewrite Na, (arenames_to_none _ _ No) in In'. now rewrite Na in In'.
    + apply find_attr_none_in. rewrite map_map. intro J. apply in_map_iff in J. destruct J as (y & Ny & J). rewrite aren_name in Ny.
      destruct (arenames_to els (a_name y)) as [m|] eqn:Ey.
      * subst m. apply Nn. apply arenames_to_in in Ey. destruct Ey as (e2 & I2 & O2 & E2). apply in_anews. eauto.
      * apply find_attr_none_in in F. apply F. rewrite <- Ny. now apply in_map.
Qed.

Lemma gives_true b a : gives b a = true <-> ae_name a = b /\ att_value a <> "".
Proof.
  unfold gives, isempty. rewrite andb_true_iff, negb_true_iff, String.eqb_neq, String.eqb_eq. tauto.
Qed.
Lemma last_given_some els b a : is_given els b a -> last_given els b = Some a.
Proof.
  intros (l1 & l2 & -> & N & V & R). unfold last_given. rewrite rev_app_distr. cbn [rev]. rewrite <- app_assoc. cbn [app].
  assert (K : forall l, (forall x, In x l -> gives b x = false) -> find (gives b) (l ++ a :: rev l1) = Some a).
  { induction l as [ | y l IH ]; intro Q; cbn.
    - assert (G : gives b a = true) by (now apply gives_true). now rewrite G.
    - rewrite (Q y (or_introl eq_refl)). apply IH. intros; apply Q; now right. }
  apply K. intros x I. apply in_rev in I. destruct (gives b x) eqn:G; [ | reflexivity ]. apply gives_true in G. destruct G as [G1 G2]. exfalso. apply G2. auto.
Qed.
Lemma last_given_none els b : not_given els b -> last_given els b = None.
Proof.
  intro N. unfold last_given. destruct (find (gives b) (rev els)) as [a|] eqn:F; [ | reflexivity ]. apply find_some in F. destruct F as [I G].
  apply gives_true in G. destruct G as [G1 G2]. exfalso. apply G2. apply N; [ now apply in_rev | exact G1 ].
Qed.

Lemma in_without x names l : In x (map a_name (without names l)) -> ~ In x names /\ In x (map a_name l).
Proof.
  unfold without. intro I. apply in_map_iff in I. destruct I as (a & <- & I). apply filter_In in I. destruct I as [I G].
  split; [ | now apply in_map ]. intro J. apply negb_true_iff in G. rewrite <- not_true_iff_false in G. apply G. apply existsb_exists. exists (a_name a). split; [ exact J | apply String.eqb_refl ].
Qed.
Lemma old_att_find removed old b : forall a, old_att removed old b a <-> find_attr b (without removed old) = Some a.
Proof.
  intro a. rewrite find_attr_without. unfold old_att. destruct (existsb (String.eqb b) removed) eqn:E.
  - apply existsb_exists in E. destruct E as (x & I & E). apply String.eqb_eq in E. subst x. split; [ tauto | discriminate ].
  - split; [ tauto | ]. intro F. split; [ | exact F ]. intro I. rewrite <- not_true_iff_false in E. apply E. apply existsb_exists. exists b. split; [ exact I | apply String.eqb_refl ].
Qed.
Lemma no_old_att removed old b : (forall a, ~ old_att removed old b a) <-> find_attr b (without removed old) = None.
Proof.
  split; intro H.
  - destruct (find_attr b (without removed old)) as [a|] eqn:F; [ | reflexivity ]. apply old_att_find in F. destruct (H a F).
  - intros a O. apply old_att_find in O. congruence.
Qed.
Lemma atts_edited_intro parse els removed old res : clean_renames els removed old -> NoDup (map a_name old) ->
  (aplain els -> (forall x, In x (anews els) -> ~ In x (map a_name (without removed old))) ->
   forall b, match last_given els b with
             | Some a => exists x, make_att parse a = Ok x /\ a_name x = b /\ res b = Some x
             | None => res b = find_attr b (map (aren els) (without removed old))
             end) ->
  atts_edited parse els removed old res.
Proof.
  intros (P & Q) N H.
  assert (Q' : forall x, In x (anews els) -> ~ In x (map a_name (without removed old))).
  { intros x I J. apply in_anews in I. destruct I as (e & o & I & O & <-). apply find_attr_none_in in J; [ exact J | ]. apply no_old_att. intro a. eapply Q; eauto. }
  specialize (H P Q'). intro b. specialize (H b). split.
  - intros a G. rewrite (last_given_some _ _ _ G) in H. exact H.
  - intro G. rewrite (last_given_none _ _ G) in H. rewrite H. clear H.
    pose proof (nodup_map_filter a_name (fun y => negb (existsb (String.eqb (a_name y)) removed)) old N) as N'. fold (without removed old) in N'.
    destruct (find_aren els _ b P N' Q') as (F1 & F2 & F3). split.
    + intros e o I O E. rewrite (F1 e o I O E). split.
      * intros a A. apply old_att_find in A. rewrite A. reflexivity.
      * intro A. apply no_old_att in A. rewrite A. reflexivity.
    + intro NN. assert (Nb : ~ In b (anews els)) by (intro I; apply in_anews in I; destruct I as (e & o & I & O & E); eapply NN; eauto).
      split.
      * intro B. apply F2; [ exact Nb | now apply in_aorgs ].
      * intro B. rewrite F3; [ | exact Nb | intro I; apply in_aorgs in I; destruct I as (e & I & O); eapply B; eauto ].
        split; [ intros a A; now apply old_att_find in A | intro A; now apply no_old_att in A ].
Qed.

(** ** C87 *)

(** no dimension is renamed twice or to a name that is itself renamed, and no two to the same name *)
Definition plain_dims (d : doc) : Prop := plain (dimels d) /\ NoDup (news (dimels d)).
(** the document does not remove the variable, nor set isUnlimited on a dimension of its name *)
Definition spared (d : doc) (x : string) : Prop :=
  (forall r, In r (removes d) -> rm_type r = "variable" -> rm_name r <> x) /\
  (forall k, In k (dimels d) -> de_name k = x -> de_unlim k = None).
(** the new name of a dimension of the original file *)
Definition new_name (d : doc) (src : cdm) (x y : string) : Prop :=
  (forall e, In e (dimels d) -> de_org e = Some x -> has_dim src x = true -> y = de_name e) /\
  ((has_dim src x = false \/ forall e, In e (dimels d) -> de_org e <> Some x) -> y = x).

Lemma renames_to_elem l e x : NoDup (orgs l) -> In e l -> de_org e = Some x -> renames_to l x = Some (de_name e).
Proof.
  unfold renames_to. induction l as [ | a l IH ]; cbn; [ tauto | ]. intros N I O.
  destruct I as [ -> | I ].
  - rewrite O, String.eqb_refl. reflexivity.
  - destruct (de_org a) as [o|] eqn:E.
    + cbn in N. inversion_clear N. destruct (String.eqb_spec o x) as [ -> | D ]; [ | apply IH; auto ].
      exfalso. apply H. unfold orgs. apply in_flat_map. exists e. rewrite O. split; [ exact I | now left ].
    + apply IH; auto.
Qed.
Lemma rn_new_name d src x : plain (dimels d) -> new_name d src x (rn (dimels d) src x).
Proof.
  intros (P & _). unfold rn. split.
  - intros e I O H. rewrite (renames_to_elem _ _ _ P I O), H. reflexivity.
  - intros [H | H].
    + rewrite H. now destruct (renames_to (dimels d) x).
    + rewrite renames_none; [ reflexivity | ]. intro I. unfold orgs in I. apply in_flat_map in I. destruct I as (e & I & J).
      destruct (de_org e) as [o|] eqn:E; [ | destruct J ]. destruct J as [ -> | [] ]. eapply H; eauto.
Qed.
Lemma rn_forall2 d src l : plain (dimels d) -> Forall2 (new_name d src) l (map (rn (dimels d) src) l).
Proof. intro P. induction l; cbn; constructor; auto. now apply rn_new_name. Qed.

(** a variable no element of the document mentions: only its dimensions get their new names *)
Theorem C87_untouched : forall src src_data parse number_of d s x v,
  consistent src -> plain_dims d -> init src src_data parse number_of d = Ok s -> x <> global_ns -> spared d x ->
  find_var x (vars src) = Some v -> (forall e, In e (varels d) -> prop (xe_name e) <> x /\ xe_org e <> Some x) ->
  exists v', find_var x (vars (n_cdm s)) = Some v' /\ v_name v' = x /\ v_type v' = v_type v /\ v_counterpart v' = v_counterpart v /\ v_data v' = v_data v /\
    Forall2 (new_name d src) (v_shape v) (v_shape v') /\ attrs_of (n_cdm s) x = attrs_of src x.
Proof.
  intros src src_data parse number_of d s x v C [P _] H G [S1 S2] F N.
  destruct (untouched_gen src src_data parse number_of d s x v C P H G S1 S2 F) as (W & _).
  { intros e I [M | M]; destruct (N e I); congruence. }
  unfold view in W. injection W as W1 W2. exists (reshape (rn (dimels d) src) v). split; [ exact W1 | ]. cbn.
  destruct (fnd_some v_name _ _ _ F) as [_ Nv]. do 4 (split; [ auto | ]). split; [ now apply rn_forall2 | exact W2 ].
Qed.

(** a variable with one <variable> element, under its old name or with orgName *)
Theorem C87_edited : forall src src_data parse number_of d s l1 e l2 o n v,
  consistent src -> plain_dims d -> init src src_data parse number_of d = Ok s ->
  varels d = l1 ++ e :: l2 -> xe_name e = Some n -> (xe_org e = None /\ o = n \/ xe_org e = Some o /\ o <> n) ->
  o <> "" -> o <> global_ns -> n <> global_ns -> spared d o -> find_var o (vars src) = Some v ->
  (forall e', In e' (l1 ++ l2) -> prop (xe_name e') <> o /\ xe_org e' <> Some o /\ prop (xe_name e') <> n /\ xe_org e' <> Some n) ->
  (o <> n -> find_var o (vars (n_cdm s)) = None /\ attrs_of (n_cdm s) o = []) /\
  exists v', find_var n (vars (n_cdm s)) = Some v' /\ v_name v' = n /\
    (forall t, xe_type e = Some t -> v_type v' = ncml_name2cdm (s_ t) false /\ v_type v' <> DNat) /\
    (xe_type e = None -> v_type v' = v_type v) /\
    (forall t, xe_shape e = Some t -> shape_of_text t = Ok (v_shape v')) /\
    (xe_shape e = None -> Forall2 (new_name d src) (v_shape v) (v_shape v')) /\
    v_counterpart v' = last (xe_vectors e) (v_counterpart v) /\
    (xe_values e = [] -> v_data v' = v_data v) /\
    (forall x, xe_values e = [x] -> data_given parse number_of (n_cdm s) v' x) /\
    (clean_renames (xe_atts e) (map rm_name (xe_removes e)) (attrs_of src o) ->
     atts_edited parse (xe_atts e) (map rm_name (xe_removes e)) (attrs_of src o) (fun b => find_attr b (attrs_of (n_cdm s) n))).
Proof.
  intros src src_data parse number_of d s l1 e l2 o n v C [P _] H VE En OO NE Go Gn [S1 S2] Fv NM.
  destruct (edited_gen src src_data parse number_of d s l1 e l2 o n v C P H VE En OO NE Go Gn S1 S2 Fv) as (A & _ & v' & B & D1 & D2 & D3 & D4 & D5 & _ & D7).
  { intros e' I. destruct (NM e' I) as (N1 & N2 & N3 & N4). split; intros [M | M]; congruence. }
  split. { intro D. specialize (A D). unfold view in A. injection A as A1 A2. auto. }
  exists v'. split; [ exact B | ]. split; [ now destruct (fnd_some v_name _ _ _ B) | ].
  split. { intros t Et. rewrite Et in D1. destruct D1 as [D1 ->]. auto. }
  split. { intro Et. now rewrite Et in D1. }
  split. { intros t Et. now rewrite Et in D2. }
  split. { intro Et. rewrite Et in D2. rewrite D2. now apply rn_forall2. }
  split. { rewrite D3. clear. destruct (xe_vectors e) as [ | y l ]; [ reflexivity | ]. generalize dependent y. induction l as [ | z l IH ]; intro y; [ reflexivity | ]. cbn in *. destruct l; [ reflexivity | apply (IH z) ]. }
  split; [ exact D4 | ]. split; [ exact D5 | ].
  intro K. apply atts_edited_intro; [ exact K | apply (c_attrs src C) | exact D7 ].
Qed.

(** a <variable> element with a type for a name not in the file *)
Theorem C87_added : forall src src_data parse number_of d s l1 e l2 n t,
  consistent src -> plain_dims d -> init src src_data parse number_of d = Ok s ->
  varels d = l1 ++ e :: l2 -> xe_name e = Some n -> xe_org e = None -> xe_type e = Some t -> t <> "" -> n <> global_ns ->
  find_var n (vars src) = None -> (forall e', In e' (l1 ++ l2) -> prop (xe_name e') <> n /\ xe_org e' <> Some n) ->
  exists v', find_var n (vars (n_cdm s)) = Some v' /\ v_name v' = n /\ v_type v' = ncml_name2cdm (s_ t) false /\ v_type v' <> DNat /\
    shape_of_text (prop (xe_shape e)) = Ok (v_shape v') /\ v_counterpart v' = last (xe_vectors e) "" /\
    (xe_values e = [] -> v_data v' = Some []) /\ (forall x, xe_values e = [x] -> data_given parse number_of (n_cdm s) v' x) /\
    (aplain (xe_atts e) -> atts_edited parse (xe_atts e) [] [] (fun b => find_attr b (attrs_of (n_cdm s) n))).
Proof.
  intros src src_data parse number_of d s l1 e l2 n t C [P _] H VE En Eo Et Nt Gn Fv NM.
  destruct (added_gen src src_data parse number_of d s l1 e l2 n t C P H VE En Eo Et Nt Gn Fv) as (v' & B & D1 & D2 & D3 & D4 & D5 & D6 & D7).
  { intros e' I. destruct (NM e' I) as (N1 & N2). intros [M | M]; congruence. }
  exists v'. split; [ exact B | ]. split; [ now destruct (fnd_some v_name _ _ _ B) | ]. split; [ exact D2 | ]. split; [ congruence | ].
  do 4 (split; [ assumption | ]). intro K. apply atts_edited_intro; [ | constructor | ].
  - split; [ exact K | ]. intros e' o a _ _ [_ F]. discriminate.
  - intros _ _ b. specialize (D7 K b). destruct (last_given (xe_atts e) b); [ exact D7 | ]. now rewrite D7.
Qed.

(** a removed variable is gone with its attributes *)
Theorem C87_removed : forall src src_data parse number_of d s r,
  consistent src -> plain_dims d -> init src src_data parse number_of d = Ok s -> In r (removes d) -> rm_type r = "variable" -> rm_name r <> global_ns ->
  (forall e, In e (varels d) -> prop (xe_name e) <> rm_name r /\ xe_org e <> Some (rm_name r)) ->
  find_var (rm_name r) (vars (n_cdm s)) = None /\ attrs_of (n_cdm s) (rm_name r) = [].
Proof.
  intros src src_data parse number_of d s r C [P _] H I T G N.
  pose proof (removed_gen src src_data parse number_of d s r (rm_name r) C P H I T eq_refl G) as W.
  unfold view in W. specialize (W (fun e J => ltac:(intros [M | M]; destruct (N e J); congruence))). injection W as W1 W2. auto.
Qed.

(** ** dimensions *)

(** a dimension of the file with one <dimension> element, under its old name or with orgName *)
Theorem C87_dimension : forall src src_data parse number_of d s l1 e l2 o x,
  consistent src -> plain_dims d -> init src src_data parse number_of d = Ok s ->
  dimels d = l1 ++ e :: l2 -> (de_org e = None /\ o = de_name e /\ ~ In o (orgs (dimels d)) /\ ~ In o (news (dimels d)) \/ de_org e = Some o) ->
  (forall r, In r (removes d) -> rm_type r = "dimension" -> rm_name r <> o) ->
  (forall e', In e' (l1 ++ l2) -> de_name e' <> de_name e) -> find_dim o (dims src) = Some x ->
  exists x', find_dim (de_name e) (dims (n_cdm s)) = Some x' /\ d_name x' = de_name e /\
    (forall t, de_len e = Some t -> length_of_text t = Ok (d_len x')) /\ (de_len e = None -> d_len x' = d_len x) /\
    (forall u, de_unlim e = Some u -> u = "true" /\ d_unlim x' = true \/ u = "false" /\ d_unlim x' = false) /\ (de_unlim e = None -> d_unlim x' = d_unlim x) /\
    (o <> de_name e -> (forall e', In e' (dimels d) -> de_name e' <> o) -> find_dim o (dims (n_cdm s)) = None).
Proof.
  intros src src_data parse number_of d s l1 e l2 o x C [P PN] H DE OO NR ND Fx.
  destruct (dims_final src src_data parse number_of d s H C P) as (c0 & s1 & c2 & c3 & E0 & E1 & E2 & E3 & Df & _).
  rewrite Df. pose proof (remove_dims_frame src d c0 o E0 NR) as F0. rewrite Fx in F0.
  pose proof (init_remove_consistent _ _ _ E0 C) as C0.
  destruct (rename_dims_spec _ (mkN c0 [] [] []) _ P C0 E1) as (_ & _ & _ & _ & _ & K & Gone & _ & R & _). cbn [n_cdm] in K, Gone, R.
  assert (H0 : has_dim c0 o = true) by (unfold has_dim; now rewrite F0).
  assert (W1 : find_dim (de_name e) (dims (n_cdm s1)) = Some (mkDim (de_name e) (d_len x) (d_unlim x))).
  { destruct OO as [(Eo & -> & No & Nn) | Eo].
    - rewrite K by assumption. rewrite F0. destruct (fnd_some d_name _ _ _ F0) as [_ <-]. now destruct x.
    - rewrite (R PN o (de_name e)); [ | | exact H0 ].
      + rewrite F0. reflexivity.
      + apply renames_to_elem; [ apply (proj1 P) | rewrite DE; apply in_or_app; right; now left | exact Eo ]. }
  assert (NE : forall e', In e' l1 \/ In e' l2 -> de_name e' <> de_name e) by (intros; apply ND; apply in_or_app; auto).
  assert (W2 : exists len, find_dim (de_name e) (dims c2) = Some (mkDim (de_name e) len (d_unlim x)) /\
    (forall t, de_len e = Some t -> length_of_text t = Ok len) /\ (de_len e = None -> len = d_len x)).
  { destruct (de_len e) as [t|] eqn:El.
    - rewrite DE in E2. apply (lengths_set l1 e l2 t _ _ E2) in El; [ | intros e' I Y; now apply NE in I ].
      destruct El as (len & L1 & L2). rewrite W1 in L2. exists len. split; [ exact L2 | ]. split; [ | discriminate ]. intros u U. injection U as <-. exact L1.
    - apply lengths_spec in E2. destruct E2 as (_ & _ & _ & L). exists (d_len x). rewrite L, W1; [ split; [ reflexivity | ]; split; [ discriminate | auto ] | ].
      intros e' I Y. rewrite DE in I. apply in_app_or in I. cbn in I. destruct I as [I | [ <- | I ]]; [ now apply (NE e' (or_introl I)) in Y | exact El | now apply (NE e' (or_intror I)) in Y ]. }
  destruct W2 as (len & W2 & L1 & L2).
  assert (W3 : exists u, find_dim (de_name e) (dims c3) = Some (mkDim (de_name e) len u) /\
    (forall t, de_unlim e = Some t -> t = "true" /\ u = true \/ t = "false" /\ u = false) /\ (de_unlim e = None -> u = d_unlim x)).
  { destruct (de_unlim e) as [t|] eqn:El.
    - rewrite DE in E3. apply (unlims_set src_data l1 e l2 t _ _ E3) in El; [ | intros e' I Y; now apply NE in I ].
      destruct El as (U1 & U2). rewrite W2 in U1. cbn in U1. exists (String.eqb t "true"). split; [ exact U1 | ]. split; [ | discriminate ].
      intros u U. injection U as <-. destruct U2 as [ -> | -> ]; [ unfold has_dim; now rewrite W2 | now left | now right ].
    - apply unlims_spec in E3. destruct E3 as (_ & _ & _ & L). exists (d_unlim x). destruct (L (de_name e)) as [_ L'].
      { intros e' I Y. rewrite DE in I. apply in_app_or in I. cbn in I. destruct I as [I | [ <- | I ]]; [ now apply (NE e' (or_introl I)) in Y | exact El | now apply (NE e' (or_intror I)) in Y ]. }
      rewrite L', W2. split; [ reflexivity | ]. split; [ discriminate | auto ]. }
  destruct W3 as (u & W3 & U1 & U2). exists (mkDim (de_name e) len u). split; [ exact W3 | ]. cbn. do 5 (split; [ auto | ]).
  intros D NN. destruct OO as [(_ & -> & _) | Eo]; [ congruence | ].
  assert (Io : In o (orgs (dimels d))). { unfold orgs. apply in_flat_map. exists e. rewrite Eo, DE. split; [ apply in_or_app; right; now left | now left ]. }
  specialize (Gone o Io H0). apply unlims_spec in E3. destruct E3 as (_ & _ & _ & L). destruct (L o) as [_ L']; [ intros e' I Y; destruct (NN e' I Y) | ]. rewrite L'.
  apply lengths_spec in E2. destruct E2 as (_ & _ & _ & L3). rewrite L3; [ exact Gone | intros e' I Y; destruct (NN e' I Y) ].
Qed.

(** a dimension without element keeps its length; one with a length and a new name is added *)
Theorem C87_dimension_kept : forall src src_data parse number_of d s x,
  consistent src -> plain_dims d -> init src src_data parse number_of d = Ok s ->
  (forall r, In r (removes d) -> rm_type r = "dimension" -> rm_name r <> x) -> (forall e, In e (dimels d) -> de_name e <> x /\ de_org e <> Some x) ->
  find_dim x (dims (n_cdm s)) = find_dim x (dims src).
Proof.
  intros src src_data parse number_of d s x C [P PN] H NR ND.
  destruct (dims_final src src_data parse number_of d s H C P) as (c0 & s1 & c2 & c3 & E0 & E1 & E2 & E3 & Df & _).
  rewrite Df, <- (remove_dims_frame src d c0 x E0 NR).
  pose proof (init_remove_consistent _ _ _ E0 C) as C0.
  destruct (rename_dims_spec _ (mkN c0 [] [] []) _ P C0 E1) as (_ & _ & _ & _ & _ & K & _). cbn [n_cdm] in K.
  apply unlims_spec in E3. destruct E3 as (_ & _ & _ & L). destruct (L x) as [_ L']; [ intros e' I Y; destruct (ND e' I); congruence | ]. rewrite L'.
  apply lengths_spec in E2. destruct E2 as (_ & _ & _ & L3). rewrite L3; [ | intros e' I Y; destruct (ND e' I); congruence ].
  apply K.
  - unfold orgs. intro I. apply in_flat_map in I. destruct I as (e & I & J). destruct (ND e I) as [_ N]. destruct (de_org e); [ | destruct J ]. destruct J as [ -> | [] ]. congruence.
  - unfold news. intro I. apply in_flat_map in I. destruct I as (e & I & J). destruct (ND e I) as [N _]. destruct (de_org e); [ | destruct J ]. destruct J as [ J | [] ]. congruence.
Qed.
Theorem C87_dimension_added : forall src src_data parse number_of d s l1 e l2 t,
  consistent src -> plain_dims d -> init src src_data parse number_of d = Ok s ->
  dimels d = l1 ++ e :: l2 -> de_org e = None -> de_len e = Some t -> (forall e', In e' (l1 ++ l2) -> de_name e' <> de_name e /\ de_org e' <> Some (de_name e)) ->
  (forall r, In r (removes d) -> rm_type r = "dimension" -> rm_name r <> de_name e) ->
  find_dim (de_name e) (dims src) = None ->
  exists x', find_dim (de_name e) (dims (n_cdm s)) = Some x' /\ length_of_text t = Ok (d_len x') /\
    (forall u, de_unlim e = Some u -> u = "true" /\ d_unlim x' = true \/ u = "false" /\ d_unlim x' = false) /\ (de_unlim e = None -> d_unlim x' = false).
Proof.
  intros src src_data parse number_of d s l1 e l2 t C [P PN] H DE Eo El ND NR Fx.
  destruct (dims_final src src_data parse number_of d s H C P) as (c0 & s1 & c2 & c3 & E0 & E1 & E2 & E3 & Df & _).
  rewrite Df. pose proof (remove_dims_frame src d c0 _ E0 NR) as F0. rewrite Fx in F0.
  pose proof (init_remove_consistent _ _ _ E0 C) as C0.
  destruct (rename_dims_spec _ (mkN c0 [] [] []) _ P C0 E1) as (_ & _ & _ & _ & _ & K & _). cbn [n_cdm] in K.
  assert (NE : forall e', In e' l1 \/ In e' l2 -> de_name e' <> de_name e) by (intros; apply ND; apply in_or_app; auto).
  assert (W1 : find_dim (de_name e) (dims (n_cdm s1)) = None).
  { rewrite K; [ exact F0 | | ].
    - unfold orgs. intro I. apply in_flat_map in I. destruct I as (e' & I & J). rewrite DE in I. apply in_app_or in I. cbn in I.
      destruct I as [I | [ <- | I ]]; [ | now rewrite Eo in J | ]; (destruct (ND e') as [_ N]; [ apply in_or_app; auto | ]); (destruct (de_org e'); [ destruct J as [ -> | [] ]; congruence | destruct J ]).
    - unfold news. intro I. apply in_flat_map in I. destruct I as (e' & I & J). rewrite DE in I. apply in_app_or in I. cbn in I.
      destruct I as [I | [ <- | I ]]; [ | now rewrite Eo in J | ]; (destruct (ND e') as [N _]; [ apply in_or_app; auto | ]); (destruct (de_org e'); [ destruct J as [ J | [] ]; congruence | destruct J ]). }
  rewrite DE in E2. apply (lengths_set l1 e l2 t _ _ E2) in El; [ | intros e' I Y; now apply NE in I ].
  destruct El as (len & L1 & L2). rewrite W1 in L2.
  destruct (de_unlim e) as [u|] eqn:Eu.
  - rewrite DE in E3. apply (unlims_set src_data l1 e l2 u _ _ E3) in Eu; [ | intros e' I Y; now apply NE in I ].
    destruct Eu as (U1 & U2). rewrite L2 in U1. cbn in U1. exists (mkDim (de_name e) len (String.eqb u "true")). split; [ exact U1 | ]. cbn. split; [ exact L1 | ]. split; [ | discriminate ].
    intros u' U. injection U as <-. destruct U2 as [ -> | -> ]; [ unfold has_dim; now rewrite L2 | now left | now right ].
  - apply unlims_spec in E3. destruct E3 as (_ & _ & _ & L). destruct (L (de_name e)) as [_ L'].
    { intros e' I Y. rewrite DE in I. apply in_app_or in I. cbn in I. destruct I as [I | [ <- | I ]]; [ now apply (NE e' (or_introl I)) in Y | exact Eu | now apply (NE e' (or_intror I)) in Y ]. }
    rewrite L', L2. exists (mkDim (de_name e) len false). split; [ reflexivity | ]. split; [ exact L1 | ]. split; [ discriminate | auto ].
Qed.

(** a dimension in use cannot be removed; one removed is gone *)
Theorem C87_dimension_in_use : forall src src_data parse number_of d r1 r r2 v,
  removes d = r1 ++ r :: r2 -> rm_type r = "dimension" -> In v (vars src) -> In (rm_name r) (v_shape v) -> has_dim src (rm_name r) = true ->
  (forall r', In r' r1 -> (rm_type r' = "variable" -> rm_name r' <> v_name v) /\ (rm_type r' = "dimension" -> rm_name r' <> rm_name r)) ->
  init src src_data parse number_of d = Throw.
Proof.
  intros src src_data parse number_of d r1 r r2 v RE T Iv Is Hd NR.
  assert (X : ofold remove_one (removes d) src = Throw).
  { rewrite RE, oapp. clear RE. revert NR. 
    assert (K : forall l c, In v (vars c) -> has_dim c (rm_name r) = true ->
      (forall r', In r' l -> (rm_type r' = "variable" -> rm_name r' <> v_name v) /\ (rm_type r' = "dimension" -> rm_name r' <> rm_name r)) ->
      (do s' <- ofold remove_one l c; ofold remove_one (r :: r2) s') = Throw).
    { induction l as [ | r' l IH ]; intros c Jv Jd N.
      - cbn. unfold remove_one at 1. rewrite T. destruct (isempty (rm_name r)); [ reflexivity | ]. cbn [isempty String.eqb Ascii.eqb Bool.eqb].
        unfold remove_dim, dim_in_use. rewrite Jd. replace (existsb (check_dim (rm_name r)) (vars c)) with true; [ reflexivity | ].
        symmetry. apply existsb_exists. exists v. split; [ exact Jv | ]. unfold check_dim. apply existsb_exists. exists (rm_name r). split; [ exact Is | apply String.eqb_refl ].
      - destruct (N r' (or_introl eq_refl)) as [N1 N2]. specialize (fun c J1 J2 => IH c J1 J2 (fun q I => N q (or_intror I))).
        cbn [ofold]. unfold remove_one at 1. destruct (isempty (rm_name r')); [ reflexivity | ]. destruct (isempty (rm_type r')); [ reflexivity | ].
        destruct (String.eqb_spec (rm_type r') "variable") as [E|_].
        { apply IH; [ | exact Jd ]. cbn. apply filter_In. split; [ exact Jv | ]. apply negb_true_iff, String.eqb_neq. auto. }
        destruct (String.eqb_spec (rm_type r') "dimension") as [E|_].
        { destruct (remove_dim c (rm_name r') false) as [c' [b|]] eqn:E'; [ | reflexivity ]. apply remove_dim_spec in E'. destruct E' as (V & _ & D & _).
          apply IH; [ now rewrite V | ]. unfold has_dim in *. rewrite D. unfold find_dim. rewrite (fnd_filter d_name).
          destruct (String.eqb_spec (rm_name r) (rm_name r')) as [Y|_]; [ specialize (N2 E); congruence | exact Jd ]. }
        destruct (String.eqb (rm_type r') "attribute").
        { apply IH; [ now rewrite remove_attr_vars | ]. unfold has_dim. now rewrite remove_attr_dims. }
        destruct (String.eqb (rm_type r') "group"); [ now apply IH | reflexivity ]. }
    intro NR. now apply K. }
  unfold init, init_remove. rewrite X. reflexivity.
Qed.
Theorem C87_dimension_removed : forall src src_data parse number_of d s r,
  consistent src -> plain_dims d -> init src src_data parse number_of d = Ok s -> In r (removes d) -> rm_type r = "dimension" ->
  (forall e, In e (dimels d) -> de_name e <> rm_name r /\ de_org e <> Some (rm_name r)) ->
  find_dim (rm_name r) (dims (n_cdm s)) = None.
Proof.
  intros src src_data parse number_of d s r C [P PN] H Ir T ND.
  destruct (dims_final src src_data parse number_of d s H C P) as (c0 & s1 & c2 & c3 & E0 & E1 & E2 & E3 & Df & _).
  rewrite Df. pose proof (init_remove_consistent _ _ _ E0 C) as C0.
  destruct (rename_dims_spec _ (mkN c0 [] [] []) _ P C0 E1) as (_ & _ & _ & _ & _ & K & _). cbn [n_cdm] in K.
  apply unlims_spec in E3. destruct E3 as (_ & _ & _ & L). destruct (L (rm_name r)) as [_ L']; [ intros e' I Y; destruct (ND e' I); congruence | ]. rewrite L'.
  apply lengths_spec in E2. destruct E2 as (_ & _ & _ & L3). rewrite L3; [ | intros e' I Y; destruct (ND e' I); congruence ].
  rewrite K.
  - unfold init_remove in E0. ob E0. apply remove_atts_spec in E0. destruct E0 as (_ & D & _). rewrite D.
    apply in_split in Ir. destruct Ir as (r1 & r2 & RE). rewrite RE in E. apply ofold_mid in E. destruct E as (p & q & _ & X2 & X3).
    refine (okeep (fun c => find_dim (rm_name r) (dims c) = None) remove_one r2 _ q a _ X3).
    + intros c r' c' _ Q F. unfold remove_one in F. destruct (isempty (rm_name r')); [ discriminate | ]. destruct (isempty (rm_type r')); [ discriminate | ].
      destruct (String.eqb (rm_type r') "variable"). { now injection F as <-. }
      destruct (String.eqb (rm_type r') "dimension").
      { destruct (remove_dim c (rm_name r') false) as [c2' [b|]] eqn:E'; [ | discriminate ]. injection F as <-. apply remove_dim_spec in E'. destruct E' as (_ & _ & Dm & _).
        rewrite Dm. unfold find_dim. rewrite (fnd_filter d_name). destruct (String.eqb (rm_name r) (rm_name r')); [ reflexivity | exact Q ]. }
      destruct (String.eqb (rm_type r') "attribute"). { injection F as <-. now rewrite remove_attr_dims. }
      destruct (String.eqb (rm_type r') "group"); [ | discriminate ]. now injection F as <-.
    + unfold remove_one in X2. rewrite T in X2. destruct (isempty (rm_name r)); [ discriminate | ]. cbn [isempty String.eqb Ascii.eqb Bool.eqb] in X2.
      destruct (remove_dim p (rm_name r) false) as [c2' [b|]] eqn:E'; [ | discriminate ]. injection X2 as <-. apply remove_dim_spec in E'. destruct E' as (_ & _ & Dm & _).
      rewrite Dm. unfold find_dim. rewrite (fnd_filter d_name). now rewrite String.eqb_refl.
  - unfold orgs. intro I. apply in_flat_map in I. destruct I as (e & I & J). destruct (ND e I) as [_ N]. destruct (de_org e); [ | destruct J ]. destruct J as [ -> | [] ]. congruence.
  - unfold news. intro I. apply in_flat_map in I. destruct I as (e & I & J). destruct (ND e I) as [N _]. destruct (de_org e); [ | destruct J ]. destruct J as [ J | [] ]. congruence.
Qed.

(** ** global attributes *)

Theorem C87_globals : forall src src_data parse number_of d s,
  consistent src -> plain_dims d -> init src src_data parse number_of d = Ok s ->
  (forall e, In e (varels d) -> prop (xe_name e) <> global_ns /\ xe_org e <> Some global_ns) ->
  (forall r, In r (removes d) -> rm_type r = "variable" -> rm_name r <> global_ns) ->
  let removed := map rm_name (filter (fun r => String.eqb (rm_type r) "attribute") (removes d)) in
  clean_renames (gatts d) removed (attrs_of src global_ns) ->
  atts_edited parse (gatts d) removed (attrs_of src global_ns) (fun b => find_attr b (attrs_of (n_cdm s) global_ns)).
Proof.
  intros src src_data parse number_of d s C [P _] H NM NV removed K. apply atts_edited_intro; [ exact K | apply (c_attrs src C) | ].
  intros PA PQ.
  assert (NM' : forall e, In e (varels d) -> ~ mentions e global_ns) by (intros e I [M | M]; destruct (NM e I); congruence).
  assert (NN : forall e, In e (varels d) -> prop (xe_name e) <> global_ns) by (intros e I; apply (NM e I)).
  apply init_stages in H. destruct H as (c0 & s1 & c2 & c3 & c4 & s5 & c6 & s7 & c8 & c9 & c10 & c11 & c12 & c13 & E0 & E1 & E2 & E3 & E4 & E5 & E6 & E7 & E8 & E9 & E10 & E11 & E12 & E13 & ->).
  pose proof (init_remove_consistent _ _ _ E0 C) as C0. destruct (rename_dims_spec _ (mkN c0 [] [] []) _ P C0 E1) as (C1 & _ & A1 & _). cbn [n_cdm] in A1.
  apply lengths_spec in E2. destruct E2 as (_ & A2 & C2 & _). apply unlims_spec in E3. destruct E3 as (A3 & _ & C3 & _).
  apply shapes_spec in E4. destruct E4 as (_ & C4 & F4).
  specialize (F4 global_ns (fun e I Y => NM' e I (target_mentions _ _ Y))).
  destruct (renames_spec _ _ _ E5 (C4 (C3 (C2 C1)))) as (_ & _ & _ & _ & F5). cbn [n_cdm] in F5. destruct (F5 global_ns NM') as [F5v _].
  apply adds_spec in E6. destruct E6 as (_ & A6 & _). apply types_spec in E7. destruct E7 as (_ & A7 & _). cbn [n_cdm] in A7.
  apply values_spec in E8. destruct E8 as (_ & A8 & _). apply vectors_spec in E9. destruct E9 as (_ & A9 & _).
  assert (W0 : attrs_of c0 global_ns = without removed (attrs_of src global_ns)).
  { unfold init_remove in E0. ob E0. apply remove_atts_spec in E0. destruct E0 as (_ & _ & _ & A). rewrite A.
    replace (rm_atts (varels d) global_ns) with (@nil string).
    2:{ unfold rm_atts. clear - NM'. induction (varels d) as [ | e l IH ]; [ reflexivity | ]. cbn [flat_map].
        destruct (String.eqb_spec (target e) global_ns) as [Y | _].
        - exfalso. apply (NM' e); [ now left | now apply target_mentions ].
        - apply IH. intros e' I. apply NM'. now right. }
    rewrite without_nil. clear - E NV. unfold removed. clear removed. revert src E. induction (removes d) as [ | r l IH ]; intros c E.
    - cbn in E. injection E as <-. symmetry. apply without_nil.
    - cbn [ofold] in E. ob E. specialize (IH (fun q I => NV q (or_intror I)) _ E). rewrite IH. clear IH E. cbn [filter].
      unfold remove_one in E0. destruct (isempty (rm_name r)); [ discriminate | ]. destruct (isempty (rm_type r)) eqn:Et; [ discriminate | ].
      destruct (String.eqb_spec (rm_type r) "variable") as [Ev | _].
      { injection E0 as <-. rewrite Ev. cbn [String.eqb Ascii.eqb Bool.eqb]. rewrite attrs_of_removed. specialize (NV r (or_introl eq_refl) Ev).
        destruct (String.eqb_spec global_ns (rm_name r)); [ congruence | reflexivity ]. }
      destruct (String.eqb_spec (rm_type r) "dimension") as [Ev | _].
      { rewrite Ev. cbn [String.eqb Ascii.eqb Bool.eqb]. destruct (remove_dim c (rm_name r) false) as [c2' [b|]] eqn:E'; [ | discriminate ]. injection E0 as <-.
        apply remove_dim_spec in E'. destruct E' as (_ & Aa & _). unfold attrs_of. now rewrite Aa. }
      destruct (String.eqb (rm_type r) "attribute").
      { injection E0 as <-. rewrite attrs_of_remove_attr, String.eqb_refl. cbn [map].
        change (filter (fun y => negb (String.eqb (rm_name r) (a_name y))) (attrs_of c global_ns)) with (filter (fun y => negb (String.eqb (rm_name r) (a_name y))) (attrs_of c global_ns)).
        unfold without. rewrite filter_and. apply filter_ext. intro y. cbn [existsb]. rewrite negb_orb, (String.eqb_sym (a_name y)). reflexivity. }
      destruct (String.eqb (rm_type r) "group"); [ now injection E0 as <- | discriminate ]. }
  assert (W9 : attrs_of c9 global_ns = without removed (attrs_of src global_ns)).
  { unfold view in *. injection F4 as _ F4. injection F5v as _ F5v. transitivity (attrs_of (n_cdm s5) global_ns); [ unfold attrs_of; now rewrite A9, A8, A7, A6 | ].
    rewrite F5v, F4. rewrite <- W0. unfold attrs_of. now rewrite A3, A2, A1. }
  apply rename_attels_own in E10; [ | exact PA | rewrite W9; apply nodup_map_filter; apply (c_attrs src C) | rewrite W9; exact PQ ]. rewrite W9 in E10.
  apply rename_vattels_spec in E11. destruct E11 as (_ & _ & A11). specialize (A11 global_ns).
  assert (V : forall ea, In ea (vatts d) -> prop (xe_name (fst ea)) <> global_ns) by (intros ea I; apply NN; now apply in_vatts).
  rewrite E10 in A11. specialize (A11 (fun ea I Y => V ea I (f_equal prop Y))).
  apply set_attels_spec in E12. destruct E12 as (_ & _ & _ & A12). apply set_vattels_spec in E13. destruct E13 as (_ & _ & A13).
  intro b. specialize (A12 b). cbn [n_cdm]. rewrite (A13 global_ns V). rewrite A11 in A12. exact A12.
Qed.

(** a document without elements changes nothing *)
Theorem C87_identity : forall src src_data parse number_of, init src src_data parse number_of (mkDoc [] [] [] []) = Ok (mkN src [] [] []).
Proof. reflexivity. Qed.

(** ** C88 *)

Lemma omapM_cons_ok {A B} (f : A -> outcome B) l r : omapM f l = Ok r <-> Forall2 (fun a b => f a = Ok b) l r.
Proof.
  revert r. induction l as [ | a l IH ]; intro r; cbn; split; intro H.
  - injection H as <-. constructor.
  - inversion H. reflexivity.
  - ob H. ob H. injection H as <-. constructor; [ exact E | now apply IH ].
  - inversion_clear H. rewrite H0. cbn. apply IH in H1. rewrite H1. reflexivity.
Qed.

(** the part [p] that is read of the dimension [k] of the original file, for the request [req] in terms of
    the new names: what is asked for, or the first position of a dimension that is not asked for *)
Definition part_of (d : doc) (src : cdm) (req : list (string * (N * N))) (k : string) (p : string * (N * N)) : Prop :=
  fst p = k /\ exists x y, find_dim k (dims src) = Some x /\ new_name d src k y /\
  ((sfind y req = Some (snd p) /\ (fst (snd p) + snd (snd p) <= d_len x)%N) \/
   (sfind y req = None /\ snd p = (0, 1)%N /\ (1 <= d_len x)%N)).
(** lengths and the sums of the code are 64-bit numbers *)
Definition fits (src : cdm) : Prop := Forall (fun x => (d_len x < M64)%N) (dims src).

Lemma new_name_unique d src x y : plain (dimels d) -> new_name d src x y -> y = rn (dimels d) src x.
Proof.
  intros P N. destruct N as [N1 N2]. unfold rn. destruct (renames_to (dimels d) x) as [n|] eqn:E.
  - destruct (has_dim src x) eqn:H; [ | auto ]. unfold renames_to in E. destruct (find _ (dimels d)) as [e|] eqn:F; [ | discriminate ]. cbn in E. injection E as <-.
    apply find_some in F. destruct F as [I F]. destruct (de_org e) as [o|] eqn:O; [ | discriminate ]. apply String.eqb_eq in F. subst o. now apply (N1 e).
  - apply N2. right. intros e I O. rewrite (renames_to_elem _ e x) in E; [ discriminate | apply P | exact I | exact O ].
Qed.

Section Data.
Variable src : cdm.
Variable src_data : string -> outcome (list value).
Variable src_slice : string -> list (string * (N * N)) -> outcome (list value).
Variable parse : dtype -> list string -> outcome (list value * string).
Variable number_of : string -> outcome value.

Lemma new_dim_gen d s o v k : consistent src -> plain (dimels d) -> init src src_data parse number_of d = Ok s ->
  (forall r, In r (removes d) -> rm_type r = "variable" -> rm_name r <> o) -> find_var o (vars src) = Some v -> In k (v_shape v) ->
  new_dim s k = rn (dimels d) src k.
Proof.
  intros C P H NR F I. destruct (dims_final src src_data parse number_of d s H C P) as (c0 & s1 & c2 & c3 & E0 & E1 & E2 & E3 & Df & Dm).
  pose proof (remove_keeps_dims src d c0 o v E0 NR F k I) as Hk.
  pose proof (init_remove_consistent _ _ _ E0 C) as C0. destruct (rename_dims_spec _ (mkN c0 [] [] []) _ P C0 E1) as (_ & _ & _ & _ & _ & _ & _ & _ & _ & M). cbn [n_cdm n_dmap] in M.
  unfold new_dim, rn. rewrite Dm, M, Hk. destruct (renames_to (dimels d) k); [ | reflexivity ]. now destruct (has_dim src k).
Qed.

Lemma read_gen d s n o v v' req parts : consistent src -> fits src -> plain (dimels d) -> init src src_data parse number_of d = Ok s ->
  (forall r, In r (removes d) -> rm_type r = "variable" -> rm_name r <> o) -> find_var o (vars src) = Some v ->
  find_var n (vars (n_cdm s)) = Some v' -> match sfind n (n_vmap s) with Some x => x | None => n end = o ->
  Forall2 (part_of d src req) (v_shape v) parts ->
  get_slice src src_slice s n req = do data <- src_slice o parts; retype src s n o (v_type v) data.
Proof.
  intros C FI P H NR F F' EO FP. unfold get_slice. rewrite F', EO, F.
  assert (W : exists w, whole src (v_shape v) = Ok w /\ existsb (too_far s req) w = false /\ omapM (org_part s req) w = Ok parts).
  { assert (KK : forall k, In k (v_shape v) -> new_dim s k = rn (dimels d) src k) by (intros k I; eapply new_dim_gen; eauto).
    clear F F' EO. unfold whole. revert parts FP KK. generalize (v_shape v) as sh. induction sh as [ | k sh IH ]; intros parts FP KK; inversion FP; subst; cbn [omapM].
    - exists []. auto.
    - destruct (IH l' H4) as (w & W1 & W2 & W3); [ intros q I; apply KK; now right | ].
      destruct H2 as (X1 & x & z & X2 & X3 & X4). rewrite X2. cbn [obind]. rewrite W1. cbn [obind]. eexists. split; [ reflexivity | ].
      apply new_name_unique in X3; [ | exact P ]. specialize (KK k (or_introl eq_refl)).
      assert (Lx : (d_len x < M64)%N) by (unfold fits in FI; rewrite Forall_forall in FI; apply FI; now destruct (fnd_some d_name _ _ _ X2)).
      unfold too_far, org_part, asked. cbn [existsb omapM fst snd]. rewrite KK, <- X3. destruct y as [ky [b kk]]. cbn [fst snd] in *. subst ky.
      destruct X4 as [[Y1 Y2] | [Y1 [Y2 Y3]]]; rewrite Y1.
      + rewrite add64_small by lia. split.
        * apply orb_false_iff. split; [ apply N.ltb_ge; lia | exact W2 ].
        * cbn [obind]. unfold org_part, asked in W3. rewrite W3. reflexivity.
      + split; [ exact W2 | ]. replace (d_len x <? 1)%N with false by (symmetry; apply N.ltb_ge; lia). cbn [obind]. unfold org_part, asked in W3. rewrite W3. now rewrite Y2. }
  destruct W as (w & -> & W2 & W3). cbn [obind]. rewrite W2, W3. reflexivity.
Qed.

(** data of a variable whose type is not changed: those of the original variable, at the same positions *)
Theorem C88_untouched : forall d s x v req parts,
  consistent src -> fits src -> plain_dims d -> init src src_data parse number_of d = Ok s -> x <> global_ns -> spared d x ->
  find_var x (vars src) = Some v -> (forall e, In e (varels d) -> prop (xe_name e) <> x /\ xe_org e <> Some x) ->
  Forall2 (part_of d src req) (v_shape v) parts ->
  get_slice src src_slice s x req = src_slice x parts.
Proof.
  intros d s x v req parts C FI [P _] H G [S1 S2] F N FP.
  destruct (untouched_gen src src_data parse number_of d s x v C P H G S1 S2 F) as (W & M & T).
  { intros e I [Q | Q]; destruct (N e I); congruence. }
  unfold view in W. injection W as W1 W2.
  rewrite (read_gen d s x x v _ req parts C FI P H S1 F W1) by (rewrite ?M; auto). unfold retype. rewrite T. destruct (src_slice x parts); reflexivity.
Qed.
Theorem C88_edited : forall d s l1 e l2 o n v req parts,
  consistent src -> fits src -> plain_dims d -> init src src_data parse number_of d = Ok s ->
  varels d = l1 ++ e :: l2 -> xe_name e = Some n -> (xe_org e = None /\ o = n \/ xe_org e = Some o /\ o <> n) ->
  o <> "" -> o <> global_ns -> n <> global_ns -> spared d o -> find_var o (vars src) = Some v ->
  (forall e', In e' (l1 ++ l2) -> prop (xe_name e') <> o /\ xe_org e' <> Some o /\ prop (xe_name e') <> n /\ xe_org e' <> Some n) ->
  Forall2 (part_of d src req) (v_shape v) parts ->
  ((forall t, xe_type e = Some t -> ncml_name2cdm (s_ t) false = v_type v) -> get_slice src src_slice s n req = src_slice o parts) /\
  (forall t f0 s0 o0 f1 s1 o1, xe_type e = Some t -> ncml_name2cdm (s_ t) false <> v_type v ->
     get_fill src o = Ok f0 -> get_scale src o = Ok (Some s0) -> get_offset src o = Ok (Some o0) ->
     get_fill (n_cdm s) n = Ok f1 -> get_scale (n_cdm s) n = Ok (Some s1) -> get_offset (n_cdm s) n = Ok (Some o1) ->
     get_slice src src_slice s n req =
     do data <- src_slice o parts; convert_data_type (v_type v) (ncml_name2cdm (s_ t) false) f0 s0 o0 f1 s1 o1 data).
Proof.
  intros d s l1 e l2 o n v req parts C FI [P _] H VE En OO NE Go Gn [S1 S2] Fv NM FP.
  destruct (edited_gen src src_data parse number_of d s l1 e l2 o n v C P H VE En OO NE Go Gn S1 S2 Fv) as (_ & M & v' & B & _ & _ & _ & _ & _ & T & _).
  { intros e' I. destruct (NM e' I) as (N1 & N2 & N3 & N4). split; intros [Q | Q]; congruence. }
  assert (EO : match sfind n (n_vmap s) with Some x => x | None => n end = o).
  { rewrite M. destruct (String.eqb_spec o n); congruence. }
  rewrite (read_gen d s n o v v' req parts C FI P H S1 Fv B EO FP). unfold retype. split.
  - intro Q. replace (sfind n (n_tmap s)) with (@None dtype); [ destruct (src_slice o parts); reflexivity | ].
    rewrite T. destruct (xe_type e) as [t|]; [ | reflexivity ]. rewrite (Q t eq_refl). replace (dtype_eqb (v_type v) (v_type v)) with true; [ reflexivity | now destruct (v_type v) ].
  - intros t f0 s0 o0 f1 s1 o1 Et D G1 G2 G3 G4 G5 G6. rewrite T, Et.
    replace (dtype_eqb (ncml_name2cdm (s_ t) false) (v_type v)) with false.
    2:{ symmetry. apply not_true_iff_false. intro Y. apply D. revert Y. generalize (ncml_name2cdm (s_ t) false) as a. generalize (v_type v) as b. intros b a. destruct a, b; cbn; congruence. }
    destruct (src_slice o parts); [ cbn [obind] | reflexivity | reflexivity | reflexivity ]. rewrite G1, G2, G3, G4, G5, G6. reflexivity.
Qed.

(** asking beyond the end of a dimension of the original file gives no data at all *)
Theorem C88_beyond : forall d s n o v v' req k x y b c,
  consistent src -> plain_dims d -> init src src_data parse number_of d = Ok s -> spared d o -> find_var o (vars src) = Some v ->
  find_var n (vars (n_cdm s)) = Some v' -> match sfind n (n_vmap s) with Some q => q | None => n end = o ->
  Forall (fun k => find_dim k (dims src) <> None) (v_shape v) ->
  In k (v_shape v) -> find_dim k (dims src) = Some x -> new_name d src k y -> sfind y req = Some (b, c) -> (d_len x < b + c < M64)%N ->
  get_slice src src_slice s n req = Ok [].
Proof.
  intros d s n o v v' req k x y b c C [P _] H [S1 S2] F F' EO FD I Fx NN Q L. unfold get_slice. rewrite F', EO, F.
  assert (W : exists w, whole src (v_shape v) = Ok w /\ In (k, (0%N, d_len x)) w).
  { unfold whole. revert FD I. generalize (v_shape v). induction l as [ | q l IH ]; cbn; [ tauto | ]. intros FD [ -> | I ].
    - inversion_clear FD. rewrite Fx. cbn. assert (Z : exists w, omapM (fun d0 => match find_dim d0 (dims src) with Some x0 => Ok (d0, (0%N, d_len x0)) | None => Throw end) l = Ok w).
      { clear - H1. induction l as [ | q l IH ]; [ now exists [] | ]. inversion_clear H1. destruct (IH H0) as (w & W). cbn. destruct (find_dim q (dims src)); [ | congruence ]. cbn. rewrite W. eexists. reflexivity. }
      destruct Z as (w & ->). eexists. split; [ reflexivity | now left ].
    - inversion_clear FD. destruct (find_dim q (dims src)) eqn:E; [ | congruence ]. cbn. destruct (IH H1 I) as (w & -> & J). eexists. split; [ reflexivity | now right ]. }
  destruct W as (w & -> & J). cbn [obind]. replace (existsb (too_far s req) w) with true; [ reflexivity | ]. symmetry. apply existsb_exists.
  exists (k, (0%N, d_len x)). split; [ exact J | ]. unfold too_far, asked. cbn [fst snd]. rewrite (new_dim_gen d s o v k C P H S1 F I).
  rewrite <- (new_name_unique d src k y P NN), Q. rewrite add64_small by lia. apply N.ltb_lt. lia.
Qed.
End Data.

(** a change to a floating-point type keeps the physical values: fill values stay fill values, and scale
    and offset of old and new variable are taken into account *)
Theorem C88_physical : forall tin tout f0 (s0 o0 : Qc) f1 (s1 o1 : Qc) data, tin <> tout -> numeric tout = true -> int_range tout = None ->
  has_type tin f0 -> s1 <> 0%Qc -> Forall (fun v => v <> None) data ->
  exists out, convert_data_type tin tout f0 s0 o0 f1 s1 o1 data = Ok out /\
    Forall2 (fun v w => (v = f0 -> w = f1) /\ (forall x, v = Some x -> v <> f0 -> exists y, w = Some y /\ (s1 * y + o1 = s0 * x + o0)%Qc)) data out.
Proof.
  intros tin tout f0 s0 o0 f1 s1 o1 data D N R HT NZ NN. unfold convert_data_type, convert_values.
  assert (Dt : dtype_eqb tin tout = false) by (destruct tin, tout; cbn; congruence).
  assert (DC : forall t v, data_cast t tout v = Ok v) by (intros t v; unfold data_cast; rewrite R; now destruct (int_range t)).
  destruct (veqb f0 f1 && Qc_eq_bool s0 s1 && Qc_eq_bool o0 o1) eqn:E.
  - rewrite Dt, N. exists data. split.
    + clear - DC. induction data as [ | v l IH ]; [ reflexivity | ]. cbn. rewrite DC, IH. reflexivity.
    + apply andb_true_iff in E. destruct E as [E E3]. apply andb_true_iff in E. destruct E as [E1 E2].
      apply veqb_eq in E1. destruct E1 as (q & -> & ->). apply Qc_eq_bool_correct in E2, E3. subst s1 o1.
      clear. induction data as [ | v l IH ]; constructor; [ | exact IH ]. split; [ auto | ]. intros x -> _. eauto.
  - rewrite N. unfold scale_array. rewrite (static_cast_id _ _ HT). cbn [obind]. assert (SC : static_cast tout f1 = Ok f1) by (unfold static_cast; now rewrite R).
    rewrite SC. cbn [obind]. rewrite (proj2 (Qc_eq_bool_false _ _) NZ). clear E SC. induction NN as [ | v l Nv _ IH ].
    + exists []. split; [ reflexivity | constructor ].
    + destruct IH as (out & I1 & I2). cbn [omapM]. rewrite I1. destruct v as [x|]; [ | congruence ].
      destruct (veqb (Some x) f0) eqn:V.
      * cbn [obind]. eexists. split; [ reflexivity | ]. constructor; [ | exact I2 ]. apply veqb_eq in V. destruct V as (q & Q1 & Q2). split; [ auto | ]. intros x' X' NX. congruence.
      * rewrite DC. cbn [obind]. eexists. split; [ reflexivity | ]. constructor; [ | exact I2 ]. split.
        { intro Y. exfalso. assert (Z : veqb (Some x) f0 = true) by (apply veqb_eq; exists x; auto). congruence. }
        intros x' X' _. injection X' as <-. eexists. split; [ reflexivity | ]. field. exact NZ.
Qed.

(** ** examples *)

(** numbers are integers here *)
Definition ex_number (t : string) : outcome value := do z <- string2intT (s_ t); Ok (Some (z2q z)).
Definition ex_parse (t : dtype) (l : list string) : outcome (list value * string) :=
  match t with
  | DString | DStrings => Ok ([], fold_right (fun a b => (a ++ b)%string) "" l)
  | _ => do v <- omapM ex_number l; Ok (v, "")
  end.
Definition num (z : Z) : value := Some (z2q z).
Definition ex_src : cdm :=
  mkCdm [ mkVar "t2m" DShort ["x"; "time"] "" None; mkVar "x" DDouble ["x"] "" (Some [num 10; num 20; num 30]); mkVar "drop" DInt ["z"] "" None; mkVar "rh" DFloat ["x"; "time"] "" None ]
        [ mkDim "x" 3 false; mkDim "time" 2 true; mkDim "z" 4 false ]
        [ ("_GLOBAL", [mkAttr "title" DString [] "old"; mkAttr "source" DString [] "model"]);
          ("rh", [mkAttr "units" DString [] "1"]);
          ("t2m", [mkAttr "units" DString [] "K"; mkAttr "long" DString [] "temperature"; mkAttr "scale_factor" DDouble [num 2] ""; mkAttr "note" DString [] "x"]) ].
(** the value at a position is its number, 100 added per row *)
Definition ex_slice (v : string) (parts : list (string * (N * N))) : outcome (list value) :=
  match parts with
  | [(_, (b0, c0)); (_, (b1, c1))] =>
      Ok (flat_map (fun j => map (fun i => num (Z.of_N (b1 + N.of_nat j) * 100 + Z.of_N (b0 + N.of_nat i))) (seq 0 (N.to_nat c0))) (seq 0 (N.to_nat c1)))
  | _ => Throw
  end.
Definition ex_data (v : string) : outcome (list value) := Ok [num 7; num 8; num 9].
Definition ex_t2m : varel :=
  mkXe (Some "temp") (Some "t2m") None (Some "float") [mkRm "note" "attribute"]
       [ mkAe "long_name" (Some "long") "" "" "" ""; mkAe "units" None "" "degC" "" ""; mkAe "levels" None "int" "2 3" "" ""; mkAe "scale_factor" None "double" "1" "" "" ] [] ["v10"].
Definition ex_new : varel := mkXe (Some "h") None (Some "lon") (Some "int") [] [mkAe "units" None "" "m" "" ""] [mkVe "5" "2" "" ""] [].
Definition ex_doc : doc :=
  mkDoc [ mkRm "drop" "variable"; mkRm "z" "dimension"; mkRm "source" "attribute" ]
        [ mkDe "lon" (Some "x") "" None None; mkDe "level" None "" (Some "5") None; mkDe "time" None "" None (Some "false") ]
        [ ex_t2m; ex_new ] [ mkAe "title" None "" "new" "" ""; mkAe "history" None "" "edited" "" "" ].
Definition ex_result : nml :=
  mkN (mkCdm [ mkVar "temp" DFloat ["lon"; "time"] "v10" None; mkVar "x" DDouble ["lon"] "" (Some [num 10; num 20; num 30]); mkVar "rh" DFloat ["lon"; "time"] "" None;
               mkVar "h" DInt ["lon"] "" (Some [num 5; num 7; num 9]) ]
             [ mkDim "lon" 3 false; mkDim "time" 2 false; mkDim "level" 5 false ]
             [ ("_GLOBAL", [mkAttr "title" DString [] "new"; mkAttr "history" DString [] "edited"]);
               ("h", [mkAttr "units" DString [] "m"]);
               ("rh", [mkAttr "units" DString [] "1"]);
               ("temp", [mkAttr "long_name" DString [] "temperature"; mkAttr "units" DString [] "degC"; mkAttr "levels" DInt [num 2; num 3] "";
                         mkAttr "scale_factor" DDouble [num 1] ""]) ])
      [("temp", "t2m")] [("x", "lon")] [("temp", DFloat)].

Lemma ex_consistent : consistent ex_src.
Proof.
  constructor.
  - cbn. repeat (constructor; [ cbn; intuition discriminate | ]). constructor.
  - cbn. repeat (constructor; [ cbn; intuition discriminate | ]). constructor.
  - vm_compute. repeat constructor.
  - cbn. intuition (subst; auto 10).
  - intro n. unfold attrs_of. cbn [attrs ex_src sfind fst snd]. 
    repeat match goal with |- context [if ?b then _ else _] => destruct b end; cbn; repeat (constructor; [ cbn; intuition discriminate | ]); constructor.
Qed.
Lemma ex_plain : plain_dims ex_doc.
Proof.
  repeat split; cbn; repeat (constructor; [ cbn; intuition discriminate | ]); try constructor.
  intros x [ <- | [] ] [ E | [] ]. discriminate.
Qed.

Example C87_nonvacuous :
  init ex_src ex_data ex_parse ex_number ex_doc = Ok ex_result /\ consistent ex_src /\ plain_dims ex_doc /\ spared ex_doc "t2m" /\ spared ex_doc "rh" /\
  clean_renames (xe_atts ex_t2m) (map rm_name (xe_removes ex_t2m)) (attrs_of ex_src "t2m") /\
  clean_renames (gatts ex_doc) ["source"] (attrs_of ex_src global_ns).
Proof.
  split; [ vm_compute; reflexivity | ]. split; [ exact ex_consistent | ]. split; [ exact ex_plain | ].
  split. { split; cbn; intros r I; intuition (subst; cbn in *; congruence). }
  split. { split; cbn; intros r I; intuition (subst; cbn in *; congruence). }
  split.
  - split.
    + repeat split; cbn; repeat (constructor; [ cbn; intuition discriminate | ]); try constructor. intros x [ <- | [] ] [ E | [] ]. discriminate.
    + intros e o a I O [_ F]. cbn in I. intuition (subst; cbn in *; congruence).
  - split.
    + repeat split; cbn; try constructor; auto.
    + intros e o a I O [_ F]. cbn in I. intuition (subst; cbn in *; congruence).
Qed.
Example C88_nonvacuous :
  let req := [("lon", (1, 2)%N); ("time", (0, 2)%N)] in
  get_slice ex_src ex_slice ex_result "temp" req = Ok [num 2; num 4; num 202; num 204] /\
  get_slice ex_src ex_slice ex_result "rh" req = Ok [num 1; num 2; num 101; num 102] /\
  get_slice ex_src ex_slice ex_result "rh" [("lon", (1, 3)%N); ("time", (0, 2)%N)] = Ok [] /\
  get_slice ex_src ex_slice ex_result "rh" [("lon", (1, 2)%N)] = Ok [num 1; num 2] /\
  Forall2 (part_of ex_doc ex_src req) ["x"; "time"] [("x", (1, 2)%N); ("time", (0, 2)%N)] /\ fits ex_src.
Proof.
  cbv zeta. do 4 (split; [ vm_compute; reflexivity | ]). split.
  - constructor; [ | constructor; [ | constructor ] ].
    + split; [ reflexivity | ]. exists (mkDim "x" 3 false), "lon". split; [ reflexivity | ]. split; [ | left; split; [ reflexivity | cbn; lia ] ].
      split; [ cbn; intros e I; intuition (subst; cbn in *; congruence) | ]. intros [H | H]; [ discriminate | ]. exfalso. apply (H (mkDe "lon" (Some "x") "" None None)); [ now left | reflexivity ].
    + split; [ reflexivity | ]. exists (mkDim "time" 2 true), "time". split; [ reflexivity | ]. split; [ | left; split; [ reflexivity | cbn; lia ] ].
      split; [ cbn; intros e I; intuition (subst; cbn in *; congruence) | reflexivity ].
  - unfold fits. repeat constructor.
Qed.

(** ** findings *)

Definition doc_v (l : list varel) : doc := mkDoc [] [] l [].
Definition doc_d (l : list dimel) : doc := mkDoc [] l [] [].
Definition bare (n : string) : varel := mkXe (Some n) None None None [] [] [] [].

(** Finding: the attribute _Unsigned of a variable is looked up at the root of the document and never
    found; an unsigned type is read as the signed one. *)
Theorem C87_unsigned_refuted : exists s v, 
  init ex_src ex_data ex_parse ex_number (doc_v [mkXe (Some "rh") None None (Some "byte") [] [mkAe "_Unsigned" None "" "true" "" ""] [] []]) = Ok s /\
  find_var "rh" (vars (n_cdm s)) = Some v /\ v_type v = DChar /\ ncml_name2cdm (s_ "byte") true = DUChar.
Proof. eexists. eexists. split; [ vm_compute; reflexivity | ]. split; [ vm_compute; reflexivity | ]. split; reflexivity. Qed.
(** Finding: giving a variable of the file the type "char" is refused whatever else the document says. *)
Theorem C87_char_refuted : forall src src_data parse number_of d s l1 e l2 o n v,
  consistent src -> plain_dims d -> varels d = l1 ++ e :: l2 -> xe_name e = Some n -> (xe_org e = None /\ o = n \/ xe_org e = Some o /\ o <> n) ->
  o <> "" -> o <> global_ns -> n <> global_ns -> spared d o -> find_var o (vars src) = Some v ->
  (forall e', In e' (l1 ++ l2) -> prop (xe_name e') <> o /\ xe_org e' <> Some o /\ prop (xe_name e') <> n /\ xe_org e' <> Some n) ->
  xe_type e = Some "char" -> init src src_data parse number_of d <> Ok s.
Proof.
  intros src src_data parse number_of d s l1 e l2 o n v C P VE En OO NE Go Gn Sp Fv NM Et H.
  destruct (C87_edited src src_data parse number_of d s l1 e l2 o n v C P H VE En OO NE Go Gn Sp Fv NM) as (_ & v' & _ & _ & T & _).
  destruct (T _ Et) as [T1 T2]. rewrite T1 in T2. apply T2. reflexivity.
Qed.
(** Finding: renaming an attribute to the name of one before it renames another attribute (or reads
    past the end): here "long" is to be called "units", but "scale_factor" is. *)
Theorem C87_rename_attribute_refuted :
  (exists s, init ex_src ex_data ex_parse ex_number (doc_v [mkXe (Some "t2m") None None None [] [mkAe "units" (Some "long") "" "" "" ""] [] []]) = Ok s /\
     attrs_of (n_cdm s) "t2m" = [mkAttr "long" DString [] "temperature"; mkAttr "units" DDouble [num 2] ""; mkAttr "note" DString [] "x"]) /\
  init ex_src ex_data ex_parse ex_number (doc_v [mkXe (Some "rh") None None None [] [mkAe "units" (Some "units") "" "" "" ""] [] []]) = UB.
Proof. split; [ | vm_compute; reflexivity ]. eexists. split; vm_compute; reflexivity. Qed.
(** Finding: naming a variable's own name as orgName removes the variable; for a dimension it is refused. *)
Theorem C87_rename_self_refuted :
  (exists s, init ex_src ex_data ex_parse ex_number (doc_v [mkXe (Some "rh") (Some "rh") None None [] [] [] []]) = Ok s /\ find_var "rh" (vars (n_cdm s)) = None) /\
  init ex_src ex_data ex_parse ex_number (doc_d [mkDe "x" (Some "x") "" None None]) = Throw.
Proof. split; [ | vm_compute; reflexivity ]. eexists. split; vm_compute; reflexivity. Qed.
(** Finding: a negative length is taken for a huge one. *)
Theorem C87_negative_length_refuted : exists s x,
  init ex_src ex_data ex_parse ex_number (doc_d [mkDe "z" None "" (Some "-1") None]) = Ok s /\ find_dim "z" (dims (n_cdm s)) = Some x /\ d_len x = 18446744073709551615%N.
Proof. eexists. eexists. split; [ vm_compute; reflexivity | ]. split; vm_compute; reflexivity. Qed.
(** Finding: start and increment for a variable with a dimension of length 0 write out of bounds. *)
Theorem C87_no_values_refuted :
  init ex_src ex_data ex_parse ex_number (mkDoc [] [mkDe "z" None "" (Some "0") None] [mkXe (Some "drop") None None None [] [] [mkVe "1" "1" "" ""] []] []) = UB.
Proof. vm_compute. reflexivity. Qed.
(** Finding: making a renamed dimension unlimited gives the variable of its new name the data of the
    variable of its old name. *)
Theorem C87_unlimited_refuted : exists s v,
  init ex_src (fun n => if String.eqb n "z" then Ok [num 1] else Throw) ex_parse ex_number (doc_d [mkDe "rh" (Some "z") "" None (Some "true")]) = Ok s /\
  find_var "rh" (vars (n_cdm s)) = Some v /\ v_data v = Some [num 1].
Proof. eexists. eexists. split; [ vm_compute; reflexivity | ]. split; vm_compute; reflexivity. Qed.
(** Finding: the data a variable holds in memory are not converted when its type is changed. *)
Theorem C87_data_in_memory_refuted : forall src src_data parse number_of d s l1 e l2 n t v data,
  consistent src -> plain_dims d -> init src src_data parse number_of d = Ok s -> varels d = l1 ++ e :: l2 -> xe_name e = Some n -> xe_org e = None ->
  n <> "" -> n <> global_ns -> spared d n -> find_var n (vars src) = Some v -> v_data v = Some data ->
  (forall e', In e' (l1 ++ l2) -> prop (xe_name e') <> n /\ xe_org e' <> Some n) -> xe_type e = Some t -> xe_values e = [] ->
  exists v', find_var n (vars (n_cdm s)) = Some v' /\ v_type v' = ncml_name2cdm (s_ t) false /\ v_data v' = Some data.
Proof.
  intros src src_data parse number_of d s l1 e l2 n t v data C P H VE En Eo NE Gn Sp Fv Dv NM Et EV.
  destruct (C87_edited src src_data parse number_of d s l1 e l2 n n v C P H VE En (or_introl (conj Eo eq_refl)) NE Gn Gn Sp Fv) as (_ & v' & B & _ & T & _ & _ & _ & _ & Q & _).
  { intros e' I. destruct (NM e' I). auto. }
  exists v'. split; [ exact B | ]. split; [ apply (T _ Et) | ]. now rewrite (Q EV).
Qed.
(** Finding: when variables are renamed in a chain, the second gets the description of the first and
    reads the data of the one that was overwritten. *)
Theorem C88_chain_refuted : forall sl, exists s v,
  init ex_src ex_data ex_parse ex_number (doc_v [mkXe (Some "rh") (Some "t2m") None None [] [] [] []; mkXe (Some "b") (Some "rh") None None [] [] [] []]) = Ok s /\
  find_var "b" (vars (n_cdm s)) = Some v /\ v_type v = DShort /\ attrs_of (n_cdm s) "b" = attrs_of ex_src "t2m" /\
  get_slice ex_src sl s "b" [("x", (0, 3)%N); ("time", (0, 2)%N)] = sl "rh" [("x", (0, 3)%N); ("time", (0, 2)%N)].
Proof.
  intro sl. eexists. eexists. split; [ vm_compute; reflexivity | ]. do 3 (split; [ vm_compute; reflexivity | ]).
  vm_compute. destruct (sl _ _); reflexivity.
Qed.
(** Finding: a changed shape changes the description only: with the dimensions exchanged, the data come in
    the old order; with a dimension added, there are too few of them. *)
Theorem C88_shape_refuted :
  (exists s v, init ex_src ex_data ex_parse ex_number (doc_v [mkXe (Some "rh") None (Some "x time") None [] [] [] []]) = Ok s /\
     find_var "rh" (vars (n_cdm s)) = Some v /\ v_shape v = ["time"; "x"] /\
     get_slice ex_src ex_slice s "rh" [("time", (0, 2)%N); ("x", (0, 3)%N)] = Ok [num 0; num 1; num 2; num 100; num 101; num 102]) /\
  (exists s v, init ex_src ex_data ex_parse ex_number (doc_v [mkXe (Some "rh") None (Some "z time x") None [] [] [] []]) = Ok s /\
     find_var "rh" (vars (n_cdm s)) = Some v /\ v_shape v = ["x"; "time"; "z"] /\
     get_slice ex_src ex_slice s "rh" [("x", (0, 3)%N); ("time", (0, 2)%N); ("z", (0, 4)%N)] = Ok [num 0; num 1; num 2; num 100; num 101; num 102]).
Proof.
  split; (eexists; eexists; split; [ vm_compute; reflexivity | ]; split; [ vm_compute; reflexivity | ]; split; [ reflexivity | ]; vm_compute; reflexivity).
Qed.

Print Assumptions C87_untouched.
Print Assumptions C87_edited.
Print Assumptions C87_added.
Print Assumptions C87_removed.
Print Assumptions C87_dimension.
Print Assumptions C87_dimension_kept.
Print Assumptions C87_dimension_added.
Print Assumptions C87_dimension_in_use.
Print Assumptions C87_dimension_removed.
Print Assumptions C87_globals.
Print Assumptions C87_identity.
Print Assumptions C88_untouched.
Print Assumptions C88_edited.
Print Assumptions C88_beyond.
Print Assumptions C88_physical.
Print Assumptions C87_unsigned_refuted.
Print Assumptions C87_char_refuted.
Print Assumptions C87_rename_attribute_refuted.
Print Assumptions C87_rename_self_refuted.
Print Assumptions C87_negative_length_refuted.
Print Assumptions C87_no_values_refuted.
Print Assumptions C87_unlimited_refuted.
Print Assumptions C87_data_in_memory_refuted.
Print Assumptions C88_chain_refuted.
Print Assumptions C88_shape_refuted.
