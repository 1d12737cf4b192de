(** Writing metadata to the messages of an index and reading them back. *)
From Coq Require Import ZArith NArith Ascii String List Bool Lia Sorting.Sorted.
From Verif Require Import Base StdMap RegridModel StringModel StringProps ConvertModel CdmModel PbufModel.
Import ListNotations.
Local Open Scope list_scope.

(** the table of [b'] continues the one of [b] *)
Definition ext (b b' : slb) : Prop := exists more, slb_strings b' = slb_strings b ++ more.

Lemma ext_refl : forall b, ext b b.
Proof. intros b. exists []. now rewrite app_nil_r. Qed.
Lemma ext_trans : forall a b c, ext a b -> ext b c -> ext a c.
Proof. intros a b c (m & M) (n & N). exists (m ++ n). now rewrite N, M, app_assoc. Qed.

(** what is read from any table continuing the one of the builder *)
Definition reads {X B} (b : slb) (r : list string -> X -> outcome B) (x : X) (v : B) : Prop :=
  forall more, r (slb_strings b ++ more) x = Ok v.

Lemma reads_ext : forall X B (r : list string -> X -> outcome B) b b' x v, ext b b' -> reads b r x v -> reads b' r x v.
Proof. intros X B r b b' x v (m & M) R more. rewrite M, <- app_assoc. apply R. Qed.

(** writing with [w] and reading with [r] gives [f] of what was written *)
Definition kept {A X B} (w : slb -> A -> outcome (slb * X)) (r : list string -> X -> outcome B) (f : A -> B) (P : A -> Prop) : Prop :=
  forall b a, P a -> slb_inv b ->
  exists b' x, w b a = Ok (b', x) /\ slb_inv b' /\ ext b b' /\ reads b' r x (f a).

Lemma add_kept : forall b s, slb_inv b ->
  let '(b', i) := slb_add b s in slb_inv b' /\ ext b b' /\ reads b' string_at i s.
Proof.
  intros b s I. pose proof (slb_add_inv b s I) as I'. pose proof (slb_add_prefix b s) as E.
  pose proof (slb_add_registers b s) as R. destruct (slb_add b s) as [b' i]. cbn [fst snd] in *.
  split; [ exact I' | ]. split; [ exact E | ]. intros more. unfold string_at.
  pose proof (I' _ _ R) as N. rewrite nth_error_app1; [ now rewrite N | ].
  apply nth_error_Some. now rewrite N.
Qed.

Lemma add_strings_kept : forall l b, slb_inv b ->
  let '(b', is) := add_strings b l in slb_inv b' /\ ext b b' /\ reads b' (fun t => omapM (string_at t)) is l /\ length is = length l.
Proof.
  induction l as [ | s l IH ]; intros b I; cbn [add_strings].
  - split; [ exact I | ]. split; [ apply ext_refl | ]. split; [ intros more; reflexivity | reflexivity ].
  - pose proof (add_kept b s I) as A. destruct (slb_add b s) as [b1 i]. destruct A as (I1 & E1 & R1).
    pose proof (IH b1 I1) as H. destruct (add_strings b1 l) as [b2 is]. destruct H as (I2 & E2 & R2 & L2).
    split; [ exact I2 | ]. split; [ eapply ext_trans; eassumption | ].
    split; [ | cbn [length]; now rewrite L2 ]. intros more. cbn [omapM].
    rewrite (reads_ext _ _ _ _ _ _ _ E2 R1 more). cbn [obind]. rewrite (R2 more). reflexivity.
Qed.

Lemma all_kept : forall A X B (w : slb -> A -> outcome (slb * X)) (r : list string -> X -> outcome B) f P,
  kept w r f P -> kept (write_all w) (fun t => omapM (r t)) (map f) (Forall P).
Proof.
  intros A X B w r f P K b l. revert b. induction l as [ | a l IH ]; intros b H I; cbn [write_all].
  - exists b, []. split; [ reflexivity | ]. split; [ exact I | ]. split; [ apply ext_refl | ]. intros more. reflexivity.
  - inversion H as [ | a' l' Ha Hl ]; subst. destruct (K b a Ha I) as (b1 & x & W & I1 & E1 & R1).
    destruct (IH b1 Hl I1) as (b2 & xs & W2 & I2 & E2 & R2). rewrite W. cbn [obind]. rewrite W2. cbn [obind].
    exists b2, (x :: xs). split; [ reflexivity | ]. split; [ exact I2 | ]. split; [ eapply ext_trans; eassumption | ].
    intros more. cbn [omapM map]. rewrite (reads_ext _ _ _ _ _ _ _ E2 R1 more). cbn [obind]. rewrite (R2 more). reflexivity.
Qed.

(** ** data *)

(** data an index can hold *)
Definition plain (d : data) : Prop :=
  match d_content d with
  | Ints l => l <> [] /\ exists lo hi, int_range (d_type d) = Some (lo, hi) /\ forall z, In z l -> (lo <= z <= hi)%Z
  | Reals l => l <> [] /\ (d_type d = DFloat \/ d_type d = DDouble)
  | Text _ => d_type d = DString
  | Texts _ | Nothing => False
  end.

Lemma from_ints_map : forall t (g : Z -> Z) l, l <> [] -> (forall z, In z l -> into t (g z) = z) ->
  from_ints t (map g l) = Some (mkData t (Ints l)).
Proof.
  intros t g l N H. destruct l as [ | z l ]; [ congruence | ].
  change (from_ints t (map g (z :: l))) with (Some (mkData t (Ints (map (into t) (map g (z :: l)))))).
  rewrite map_map. do 3 f_equal. transitivity (map (fun x => x) (z :: l)); [ | apply map_id ].
  apply map_ext_in. exact H.
Qed.

Lemma wrap_back : forall lo hi m z k, (0 < hi - lo + 1)%Z -> m = (k * (hi - lo + 1))%Z -> (0 < k)%Z -> (lo <= z <= hi)%Z ->
  wrap lo hi (z mod m) = z.
Proof.
  intros lo hi m z k D M K R. unfold wrap. set (n := (hi - lo + 1)%Z) in *.
  assert (E : ((z mod m - lo) mod n = (z - lo) mod n)%Z).
  { rewrite (Z.mod_eq z m) by (subst m; nia).
    replace (z - m * (z / m) - lo)%Z with ((z - lo) + (- (k * (z / m))) * n)%Z by (subst m; ring).
    apply Z.mod_add. lia. }
  rewrite E, Z.mod_small by (unfold n; lia). lia.
Qed.

Lemma data_kept : forall b d, slb_inv b -> plain d ->
  exists b' x, write_data b (d_type d) (Some d) = Ok (b', x) /\ x_type x = d_type d /\ slb_inv b' /\ ext b b' /\
               reads b' read_data x (Some d).
Proof.
  intros b [t c] I P. unfold plain in P. cbn [d_content d_type] in *.
  destruct c as [ l | l | s | l | ]; try contradiction.
  - destruct P as (N & lo & hi & R & L).
    destruct t; try discriminate; injection R as <- <-; cbn [write_data ints_of d_content obind];
      (eexists; eexists; split; [ reflexivity | ]; split; [ reflexivity | ]; split; [ exact I | ]; split; [ apply ext_refl | ];
       intros more; unfold read_data; cbn [x_type x_u8 x_u32 x_u64]; f_equal; apply from_ints_map; [ exact N | ];
       intros z Z; apply L in Z; unfold into, int_range, u8, u32, u64).
    + apply wrap_back with (k := 1%Z); lia.
    + apply wrap_back with (k := 65536%Z); lia.
    + apply wrap_back with (k := 1%Z); lia.
    + apply wrap_back with (k := 1%Z); lia.
    + apply wrap_back with (k := 65536%Z); lia.
    + apply wrap_back with (k := 1%Z); lia.
    + apply wrap_back with (k := 1%Z); lia.
    + apply wrap_back with (k := 1%Z); lia.
  - destruct P as (N & [ -> | -> ]); cbn [write_data reals_of d_content obind];
      (eexists; eexists; split; [ reflexivity | ]; split; [ reflexivity | ]; split; [ exact I | ]; split; [ apply ext_refl | ];
       intros more; unfold read_data; cbn [x_type x_f32 x_f64]; destruct l; [ congruence | reflexivity ]).
  - subst t. cbn [write_data text_of d_content obind]. pose proof (add_kept b s I) as A.
    destruct (slb_add b s) as [b' i]. destruct A as (I' & E & R).
    eexists; eexists; split; [ reflexivity | ]; split; [ reflexivity | ]; split; [ exact I' | ]; split; [ exact E | ].
    intros more. unfold read_data; cbn [x_type x_strings]. rewrite (R more). reflexivity.
Qed.

Lemma no_data_kept : forall b t,
  exists x, write_data b t None = Ok (b, x) /\ x_type x = t /\ reads b read_data x None.
Proof.
  intros b t. eexists. split; [ reflexivity | ]. split; [ reflexivity | ]. intros more. destruct t; reflexivity.
Qed.

(** ** attributes, dimensions, variables *)

Definition fine_attribute (a : attribute) : Prop := exists d, at_data a = Some d /\ plain d.
Definition fine_dimension (d : cdim) : Prop := (d_len d < 4294967296)%N.
Definition fine_variable (v : variable) : Prop :=
  match va_data v with None => True | Some d => plain d /\ d_type d = va_type v end.

Lemma attribute_kept : kept write_attribute read_attribute (fun a => a) fine_attribute.
Proof.
  intros b [n od] (d & D & P) I. cbn [at_data] in D. subst od. unfold write_attribute. cbn [at_name at_data].
  pose proof (add_kept b n I) as A. destruct (slb_add b n) as [b1 i]. destruct A as (I1 & E1 & R1).
  unfold attribute_type. cbn [at_data obind].
  destruct (data_kept b1 d I1 P) as (b2 & x & W & _ & I2 & E2 & R2). rewrite W. cbn [obind].
  exists b2, (mkMAtt i x). split; [ reflexivity | ]. split; [ exact I2 | ]. split; [ eapply ext_trans; eassumption | ].
  intros more. unfold read_attribute. cbn [xa_data xa_name]. rewrite (R2 more). cbn [obind].
  rewrite (reads_ext _ _ _ _ _ _ _ E2 R1 more). reflexivity.
Qed.

Lemma dimension_kept : kept write_dimension read_dimension (fun d => d) fine_dimension.
Proof.
  intros b [n len u] L I. unfold fine_dimension in L. cbn [d_len] in L. unfold write_dimension. cbn [d_name d_len d_unlim].
  pose proof (add_kept b n I) as A. destruct (slb_add b n) as [b1 i]. destruct A as (I1 & E1 & R1).
  rewrite N.mod_small by exact L.
  eexists; eexists; split; [ reflexivity | ]; split; [ exact I1 | ]; split; [ exact E1 | ].
  intros more. unfold read_dimension. cbn [xd_name xd_length xd_unlimited]. now rewrite (R1 more).
Qed.

(** a variable without the vector it belongs to *)
Definition no_vector (v : variable) : variable := mkVariable (va_name v) (va_type v) (va_shape v) (va_data v) None.

Definition read_both (t : list string) (x : mvar) : outcome (variable * list attribute) :=
  do v <- read_var t x; do l <- omapM (read_attribute t) (xv_atts x); Ok (v, l).

Lemma dtype_eqb_refl : forall t, dtype_eqb t t = true.
Proof. intros []; reflexivity. Qed.

Lemma variable_kept : forall m,
  kept (write_variable m) read_both (fun v => (no_vector v, atts_of m (va_name v)))
       (fun v => fine_variable v /\ Forall fine_attribute (atts_of m (va_name v))).
Proof.
  intros m b v (F & FA) I. unfold write_variable.
  pose proof (add_kept b (va_name v) I) as A. destruct (slb_add b (va_name v)) as [b1 i]. destruct A as (I1 & E1 & R1).
  destruct (all_kept _ _ _ _ _ _ _ attribute_kept b1 _ FA I1) as (b2 & xs & W2 & I2 & E2 & R2). rewrite W2. cbn [obind].
  assert (D : exists b3 x, write_data b2 (va_type v) (va_data v) = Ok (b3, x) /\ x_type x = va_type v /\ slb_inv b3 /\ ext b2 b3 /\
                           reads b3 read_data x (va_data v)).
  { unfold fine_variable in F. destruct (va_data v) as [ d | ].
    - destruct F as (P & <-). apply (data_kept b2 d I2 P).
    - destruct (no_data_kept b2 (va_type v)) as (x & W & T & R). exists b2, x. repeat split; try assumption. apply ext_refl. }
  destruct D as (b3 & x & W3 & T3 & I3 & E3 & R3). rewrite W3. cbn [obind].
  pose proof (add_strings_kept (va_shape v) b3 I3) as S4. destruct (add_strings b3 (va_shape v)) as [b4 sh].
  destruct S4 as (I4 & E4 & R4 & _).
  exists b4, (mkMVar i x sh xs). split; [ reflexivity | ]. split; [ exact I4 | ].
  split; [ eauto using ext_trans | ].
  intros more. unfold read_both, read_var. cbn [xv_shape xv_name xv_data xv_atts].
  rewrite (R4 more). cbn [obind].
  rewrite (reads_ext _ _ _ _ _ _ _ (ext_trans _ _ _ E2 (ext_trans _ _ _ E3 E4)) R1 more). cbn [obind].
  rewrite (reads_ext _ _ _ _ _ _ _ E4 R3 more). cbn [obind]. rewrite T3.
  assert (V : (match va_data v with
               | None => Ok (mkVariable (va_name v) (va_type v) (va_shape v) None None)
               | Some d => set_data (mkVariable (va_name v) (va_type v) (va_shape v) None None) d
               end) = Ok (no_vector v)).
  { unfold no_vector, fine_variable in *. destruct (va_data v) as [ d | ]; [ | reflexivity ].
    destruct F as (_ & <-). unfold set_data. cbn [va_type va_name va_shape va_vector]. now rewrite dtype_eqb_refl. }
  rewrite V. cbn [obind]. rewrite (reads_ext _ _ _ _ _ _ _ (ext_trans _ _ _ E3 E4) R2 more). cbn [obind].
  now rewrite map_id.
Qed.

(** ** adding what was read *)

Lemma ofold_read : forall X A B (r : X -> outcome A) (f : B -> A -> outcome B) xs l m,
  omapM r xs = Ok l -> ofold (fun c x => do a <- r x; f c a) xs m = ofold f l m.
Proof.
  intros X A B r f xs. induction xs as [ | x xs IH ]; intros l m H; cbn [omapM ofold] in *.
  - injection H as <-. reflexivity.
  - destruct (r x) as [ a | | | ]; try discriminate. cbn [obind] in *.
    destruct (omapM r xs) as [ as_ | | | ]; try discriminate. cbn [obind] in H. injection H as <-. cbn [ofold].
    destruct (f m a) as [ m' | | | ]; [ | reflexivity .. ]. cbn [obind]. now apply IH.
Qed.

Lemma existsb_name : forall A (f : A -> string) n l, existsb (fun x => String.eqb n (f x)) l = true <-> In n (map f l).
Proof.
  intros A f n l. rewrite existsb_exists, in_map_iff. split; intros (x & H & K).
  - exists x. apply String.eqb_eq in K. now split.
  - exists x. split; [ exact K | ]. apply String.eqb_eq. now symmetry.
Qed.

Lemma atts_put : forall m n l n', atts_of (mkMeta (m_dims m) (m_vars m) (sput n l (m_atts m))) n' = if String.eqb n' n then l else atts_of m n'.
Proof. intros m n l n'. unfold atts_of. cbn [m_atts]. rewrite sfind_sput. now destruct (String.eqb n' n). Qed.

Lemma add_all_attributes : forall n l m,
  n = global_ns \/ var_known m n = true ->
  NoDup (map at_name (atts_of m n ++ l)) ->
  exists r, ofold (add_attribute n) l m = Ok r /\ m_dims r = m_dims m /\ m_vars r = m_vars m /\
            forall n', atts_of r n' = if String.eqb n' n then atts_of m n ++ l else atts_of m n'.
Proof.
  intros n l. induction l as [ | a l IH ]; intros m K N; cbn [ofold].
  - exists m. split; [ reflexivity | ]. split; [ reflexivity | ]. split; [ reflexivity | ]. intros n'.
    destruct (String.eqb_spec n' n) as [ -> | ]; [ now rewrite app_nil_r | reflexivity ].
  - unfold add_attribute at 1.
    assert (G : negb (String.eqb n global_ns) && negb (var_known m n) = false).
    { destruct K as [ -> | -> ]; [ now rewrite String.eqb_refl | now rewrite andb_false_r ]. }
    rewrite G. clear G.
    destruct (existsb (fun b => String.eqb (at_name a) (at_name b)) (atts_of m n)) eqn:X.
    { exfalso. apply (existsb_name _ at_name) in X. rewrite map_app in N. cbn [map] in N.
      apply NoDup_remove_2 in N. apply N. apply in_or_app. now left. }
    cbn [obind].
    destruct (IH (mkMeta (m_dims m) (m_vars m) (sput n (atts_of m n ++ [a]) (m_atts m)))) as (r & R & D & V & A).
    + destruct K as [ K | K ]; [ now left | right ]. exact K.
    + rewrite atts_put, String.eqb_refl, <- app_assoc. exact N.
    + exists r. split; [ exact R | ]. split; [ exact D | ]. split; [ exact V | ]. intros n'. rewrite A.
      rewrite !atts_put, String.eqb_refl. destruct (String.eqb n' n); [ now rewrite <- app_assoc | reflexivity ].
Qed.

Lemma add_all_dimensions : forall l m, NoDup (map d_name (m_dims m ++ l)) ->
  ofold add_dimension l m = Ok (mkMeta (m_dims m ++ l) (m_vars m) (m_atts m)).
Proof.
  induction l as [ | d l IH ]; intros m N; cbn [ofold].
  - rewrite app_nil_r. now destruct m.
  - unfold add_dimension at 1. destruct (dim_known m (d_name d)) eqn:K.
    { exfalso. apply (existsb_name _ d_name) in K. rewrite map_app in N. cbn [map] in N.
      apply NoDup_remove_2 in N. apply N. apply in_or_app. now left. }
    cbn [obind]. rewrite IH; cbn [m_dims m_vars m_atts]; rewrite <- app_assoc; [ reflexivity | exact N ].
Qed.

(** reading the variables one after the other *)
Lemma read_variables : forall t xs l m,
  omapM (read_both t) xs = Ok l ->
  NoDup (map va_name (m_vars m ++ map fst l)) ->
  (forall v, In v (map fst l) -> va_name v <> global_ns /\ atts_of m (va_name v) = []) ->
  (forall e, In e l -> NoDup (map at_name (snd e))) ->
  exists r, ofold (read_variable t) xs m = Ok r /\ m_dims r = m_dims m /\ m_vars r = m_vars m ++ map fst l /\
            (forall e, In e l -> atts_of r (va_name (fst e)) = snd e) /\
            (forall n, ~ In n (map va_name (map fst l)) -> atts_of r n = atts_of m n).
Proof.
  intros t xs. induction xs as [ | x xs IH ]; intros l m R N G A.
  - cbn [omapM] in R. injection R as <-. exists m. cbn [ofold map]. rewrite app_nil_r.
    split; [ reflexivity | ]. split; [ reflexivity | ]. split; [ reflexivity | ]. split; [ intros e [] | reflexivity ].
  - cbn [omapM] in R. unfold read_both at 1 in R. cbn [ofold]. unfold read_variable at 1.
    destruct (read_var t x) as [ v | | | ]; try discriminate. cbn [obind] in *.
    destruct (omapM (read_attribute t) (xv_atts x)) as [ as_ | | | ] eqn:RA; try discriminate. cbn [obind] in R.
    destruct (omapM (read_both t) xs) as [ l' | | | ]; try discriminate. cbn [obind] in R. injection R as <-.
    cbn [map fst] in N, G.
    destruct (G v (or_introl eq_refl)) as (Gv & Av).
    unfold add_variable. destruct (var_known m (va_name v)) eqn:K.
    { exfalso. apply (existsb_name _ va_name) in K. rewrite map_app in N. cbn [map] in N.
      apply NoDup_remove_2 in N. apply N. apply in_or_app. now left. }
    cbn [obind]. set (m1 := mkMeta (m_dims m) (m_vars m ++ [v]) (m_atts m)).
    rewrite (ofold_read _ _ _ (read_attribute t) (add_attribute (va_name v)) _ _ m1 RA).
    destruct (add_all_attributes (va_name v) as_ m1) as (m2 & R2 & D2 & V2 & A2).
    { right. unfold var_known, m1. cbn [m_vars]. rewrite existsb_app. cbn [existsb]. rewrite String.eqb_refl.
      now rewrite orb_true_r. }
    { change (atts_of m1 (va_name v)) with (atts_of m (va_name v)). rewrite Av. cbn [app].
      apply (A (v, as_)). now left. }
    rewrite R2. cbn [obind].
    change (atts_of m1 (va_name v)) with (atts_of m (va_name v)) in A2. rewrite Av in A2. cbn [app] in A2.
    assert (N' := N). rewrite map_app in N'. cbn [map] in N'. apply NoDup_remove in N'. destruct N' as (N1 & N2).
    destruct (IH l' m2 eq_refl) as (r & R & D & V & A3 & A4).
    + rewrite V2. cbn [m1 m_vars]. rewrite <- app_assoc. exact N.
    + intros w W. destruct (G w (or_intror W)) as (G1 & G2). split; [ exact G1 | ]. rewrite A2.
      destruct (String.eqb_spec (va_name w) (va_name v)) as [ E | _ ]; [ | exact G2 ].
      exfalso. apply N2. apply in_or_app. right. rewrite <- E. now apply in_map.
    + intros e E. apply A. now right.
    + exists r. split; [ exact R | ]. split; [ now rewrite D, D2 | ].
      split; [ rewrite V, V2; cbn [m1 m_vars map fst]; now rewrite <- app_assoc | ]. split.
      * intros e [ <- | E ]; [ | now apply A3 ]. cbn [fst snd]. rewrite A4; [ | intros X; apply N2; apply in_or_app; now right ].
        rewrite A2. now rewrite String.eqb_refl.
      * intros n X. cbn [map fst] in X. rewrite A4; [ | intros Y; apply X; now right ]. rewrite A2.
        destruct (String.eqb_spec n (va_name v)) as [ -> | _ ]; [ exfalso; apply X; now left | reflexivity ].
Qed.
