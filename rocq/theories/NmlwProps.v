(** C89: metadata and data written as an NcML document and read back. *)
From Coq Require Import NArith ZArith QArith Qcanon Ascii String List Bool Lia.
From Verif Require Import Base StdMap SliceModel RegridModel StringModel StringProps TextModel TextProofs ConvertModel CdmModel CdmProofs NmlModel NmlProofs NmlwModel.
Import ListNotations.
Local Open Scope string_scope.
Local Open Scope list_scope.
Local Open Scope nat_scope.

(** ** texts *)

Lemma st_s s : st (s_ s) = s.
Proof. apply string_of_list_ascii_of_string. Qed.
Lemma s_st s : s_ (st s) = s.
Proof. apply list_ascii_of_string_of_list_ascii. Qed.
Lemma st_inj a b : st a = st b -> a = b.
Proof. intro H. rewrite <- (s_st a), <- (s_st b), H. reflexivity. Qed.
Lemma st_empty s : st s = "" <-> s = [].
Proof. split; intro H; [ apply st_inj; exact H | now rewrite H ]. Qed.

(** a parser reads an XML attribute: [att_reads t s] as [decodes] of C22, with white space replaced *)
Inductive att_reads : str -> str -> Prop :=
| ar_nil : att_reads [] []
| ar_char : forall c t s, ~ markup c -> att_reads t s -> att_reads (c :: t) (ws c :: s)
| ar_entity : forall e c t s, In (e, c) entities -> att_reads t s -> att_reads (e ++ t) (c :: s).
Lemma ws_entity c e : In (e, c) entities -> ws c = c.
Proof. cbn. intro H. decompose [or] H; try contradiction; match goal with X : (_, _) = (_, _) |- _ => injection X as _ <- end; reflexivity. Qed.

Theorem C89_escaped : forall s, att_reads (escape_xml_string (s_ s)) (s_ (xml s)).
Proof.
  intro s. unfold xml. rewrite s_st, escape_string_map. induction (s_ s) as [ | c l IH ]; cbn [flat_map map]; [ constructor | ].
  destruct (escape_char_cases c) as [ [M E] | I ].
  - rewrite E. now constructor.
  - rewrite (ws_entity _ _ I). now constructor.
Qed.
(** a text without tabs and line ends is read back unchanged *)
Definition plain_text (s : string) : Prop := forall c, In c (s_ s) -> c <> "009"%char /\ c <> "010"%char /\ c <> "013"%char.
Lemma xml_plain s : plain_text s -> xml s = s.
Proof.
  intro P. unfold xml. rewrite <- (st_s s) at 2. f_equal. rewrite <- (map_id (s_ s)) at 2. apply map_ext_in. intros c I. destruct (P c I) as (A & B & D).
  unfold ws. apply Ascii.eqb_neq in A, B, D. now rewrite A, B, D.
Qed.

Lemma length_read n : (n < 2 ^ 31)%N -> length_of_text (st (dec n)) = Ok n.
Proof.
  intro B. unfold length_of_text. rewrite s_st. unfold string2intT, string2int. pose proof (undec_dec n) as U. pose proof (dec_nonempty n) as NE.
  destruct (dec n) as [ | c l ] eqn:E; [ congruence | ].
  assert (D : Ascii.eqb c "-" = false).
  { apply Ascii.eqb_neq. intros ->. cbn in U. discriminate. }
  rewrite D, U. cbn [option_map obind]. replace ((- 2 ^ 31 <=? Z.of_N n) && (Z.of_N n <=? 2 ^ 31 - 1))%Z with true by lia.
  cbn [obind]. unfold to_unsigned. f_equal. rewrite Z.mod_small; [ apply N2Z.id | ].
  split; [ lia | ]. apply Z.lt_trans with (2 ^ 31)%Z; [ lia | reflexivity ].
Qed.

(** words: non-empty, without the characters that separate values *)
Definition word (seps : str) (t : string) : Prop := t <> "" /\ forall c, In c (s_ t) -> ~ In c seps.
Lemma toks_joined l seps : In " "%char (s_ seps) -> Forall (word (s_ seps)) l -> toks (joined l " ") seps = Ok l.
Proof.
  intros I F. unfold toks, joined. rewrite s_st. rewrite C18_tokenize_join.
  - cbn [obind]. rewrite map_map. f_equal. rewrite <- (map_id l) at 2. apply map_ext. apply st_s.
  - discriminate.
  - intros c [ <- | [] ]. exact I.
  - rewrite Forall_map. eapply Forall_impl; [ | exact F ]. intros t [A B]. split; [ | exact B ]. intro Z. apply A. rewrite <- (st_s t), Z. reflexivity.
Qed.
Lemma in_seps : In " "%char (s_ value_seps) /\ In " "%char (s_ (st [" "; "009"]%char)).
Proof. unfold value_seps. rewrite !s_st. cbn. auto. Qed.
Lemma join_loop_buffer : forall l x d b, join_loop x l d b = b ++ join_loop x l d [].
Proof. induction l as [ | y l IH ]; intros x d b; cbn [join_loop app]; [ reflexivity | ]. rewrite (IH y d (b ++ x ++ d)), (IH y d (x ++ d)). now rewrite !app_assoc. Qed.
Lemma join_cons x y l d : join (x :: y :: l) d = x ++ d ++ join (y :: l) d.
Proof. unfold join. cbn [join_loop]. rewrite join_loop_buffer. cbn [app]. now rewrite <- app_assoc. Qed.
Lemma join_app l1 l2 d : l1 <> [] -> l2 <> [] -> join (l1 ++ l2) d = join l1 d ++ d ++ join l2 d.
Proof.
  intros N1 N2. destruct l2 as [ | b l2 ]; [ congruence | ]. induction l1 as [ | x l1 IH ]; [ congruence | ]. destruct l1 as [ | y l1 ].
  - cbn [app]. rewrite join_cons. reflexivity.
  - cbn [app] in *. rewrite !join_cons. rewrite IH by discriminate. now rewrite <- !app_assoc.
Qed.
Lemma join_concat ls d : Forall (fun l => l <> []) ls -> join (map (fun l => join l d) ls) d = join (concat ls) d.
Proof.
  induction ls as [ | l ls IH ]; intro F; [ reflexivity | ]. inversion_clear F. cbn [map concat]. destruct ls as [ | l' ls ].
  - cbn. now rewrite app_nil_r.
  - rewrite join_app; [ | assumption | inversion_clear H0; cbn; destruct l'; [ congruence | discriminate ] ].
    rewrite <- (IH H0). cbn [map]. now rewrite join_cons.
Qed.
Lemma joined_concat ls : Forall (fun l => l <> []) ls -> joined (map (fun l => joined l " ") ls) " " = joined (concat ls) " ".
Proof.
  intro F. unfold joined. f_equal. rewrite map_map. erewrite map_ext; [ | intro; apply s_st ]. rewrite <- (map_map (map s_) (fun l => join l (s_ " "))).
  rewrite join_concat; [ now rewrite concat_map | ]. rewrite Forall_map. eapply Forall_impl; [ | exact F ]. intros [ | a l ]; cbn; congruence.
Qed.

(** ** reading what was written *)

(** the type in which values of type [t] are read: unsigned types lose their sign *)
Definition as_read (t : dtype) : dtype :=
  match t with DUChar => DChar | DUShort => DShort | DUInt => DInt | DUInt64 => DInt64 | _ => t end.
Definition is_unsigned (t : dtype) : bool := match t with DUChar | DUShort | DUInt | DUInt64 => true | _ => false end.
Lemma as_read_spec t : t <> DNat -> ncml_name2cdm (fst (cdm2ncml t)) false = as_read t /\ snd (cdm2ncml t) = is_unsigned t /\ fst (cdm2ncml t) <> [] /\
  exists u, string2datatype (fst (cdm2ncml t)) = Ok u.
Proof. intro N. destruct t; try congruence; (split; [ vm_compute; reflexivity | ]; split; [ reflexivity | ]; split; [ discriminate | ]; eexists; vm_compute; reflexivity). Qed.

Section Round.
Variable c : cdm.
Variable get_data : string -> outcome (list value).
Variable get_record : string -> N -> outcome (list value).
Variable show : dtype -> value -> string.
Variable src_data : string -> outcome (list value).
Variable parse : dtype -> list string -> outcome (list value * string).
Variable number_of : string -> outcome value.

(** the numbers [l] of type [t] are printed as words, read back as the numbers [l'] with the text [x] *)
Definition numbers (t : dtype) (l l' : list value) (x : string) : Prop :=
  Forall (word (s_ value_seps)) (map (show t) l) /\ parse (as_read t) (map (show t) l) = Ok (l', x).

(** attribute [a] is read as [a'] *)
Definition att_ok (a a' : cattr) : Prop :=
  plain_text (a_name a) /\ a_name a' = a_name a /\ a_type a' = as_read (a_type a) /\
  match a_type a with
  | DString => a_text a <> "" /\ plain_text (a_text a) /\ parse DString [a_text a] = Ok (a_nums a', a_text a')
  | DStrings | DNat => False
  | t => a_nums a <> [] /\ numbers t (a_nums a) (a_nums a') (a_text a')
  end.

Lemma joined_empty l : Forall (fun t => t <> "") l -> l <> [] -> joined l " " <> "".
Proof.
  intros F N. destruct l as [ | t l ]; [ congruence | ]. inversion_clear F. unfold joined. intro Z. apply st_empty in Z. apply H. destruct l as [ | u l ].
  - cbn in Z. rewrite <- (st_s t), Z. reflexivity.
  - cbn [map] in Z. rewrite join_cons in Z. apply app_eq_nil in Z. destruct Z as [Z _]. rewrite <- (st_s t), Z. reflexivity.
Qed.
Lemma joined_plain l : Forall (word (s_ value_seps)) l -> plain_text (joined l " ").
Proof.
  intros F ch I. unfold joined in I. rewrite s_st in I.
  assert (K : ch = " "%char \/ exists t, In t l /\ In ch (s_ t)).
  { induction l as [ | t l IH ]; [ destruct I | ]. inversion_clear F. destruct l as [ | u l ].
    - right. exists t. split; [ now left | exact I ].
    - cbn [map] in I. rewrite join_cons in I. apply in_app_or in I. destruct I as [I | I]; [ right; exists t; split; [ now left | exact I ] | ].
      apply in_app_or in I. destruct I as [[ <- | [] ] | I]; [ now left | ]. destruct (IH H0 I) as [K | (v & K1 & K2)]; [ now left | ]. right. exists v. split; [ now right | exact K2 ]. }
  destruct K as [ -> | (t & It & K) ]; [ repeat split; discriminate | ]. rewrite Forall_forall in F. destruct (F t It) as [_ W]. specialize (W ch K).
  unfold value_seps in W. rewrite s_st in W. cbn in W. repeat split; intros ->; apply W; auto 10.
Qed.

Lemma make_att_ok a a' : att_ok a a' -> att_value (att_el show a) <> "" /\ ae_name (att_el show a) = a_name a /\ make_att parse (att_el show a) = Ok a'.
Proof.
  intros (P & N & T & M). unfold att_el, make_att, att_value. cbn [ae_value ae_content ae_type ae_name ae_sep]. rewrite (xml_plain _ P).
  assert (NN : a_type a <> DNat) by (intro Z; rewrite Z in M; exact M).
  destruct (as_read_spec _ NN) as (R1 & R2 & R3 & _).
  assert (E0 : isempty (st (fst (cdm2ncml (a_type a)))) = false).
  { unfold isempty. apply String.eqb_neq. intro Z. apply st_empty in Z. contradiction. }
  rewrite E0, s_st, R1.
  assert (E1 : dtype_eqb (as_read (a_type a)) DNat = false) by (destruct (a_type a); try reflexivity; congruence).
  rewrite E1.
  assert (A : forall r, Ok (mkAttr (a_name a) (as_read (a_type a)) (a_nums a') (a_text a')) = r -> Ok a' = r).
  { intros r <-. destruct a'; cbn in *. congruence. }
  assert (K : forall t, t = a_type a -> t <> DString -> a_nums a <> [] -> numbers t (a_nums a) (a_nums a') (a_text a') ->
    (String.eqb (st (fst (cdm2ncml t))) "string" || String.eqb (st (fst (cdm2ncml t))) "String" = false) ->
    xml (att_text show a) = joined (map (show t) (a_nums a)) " " ->
    (if isempty (xml (att_text show a)) then "" else xml (att_text show a)) <> "" /\ a_name a = a_name a /\
    (do l <- (if String.eqb (st (fst (cdm2ncml t))) "string" || String.eqb (st (fst (cdm2ncml t))) "String" then Ok [if isempty (xml (att_text show a)) then "" else xml (att_text show a)]
              else split_values (if isempty (xml (att_text show a)) then "" else xml (att_text show a)) "");
     do r <- parse (as_read t) l; Ok (mkAttr (a_name a) (as_read t) (fst r) (snd r))) = Ok a').
  { intros t -> Ns Nn [W1 W2] S X. rewrite S, X.
    assert (J : joined (map (show (a_type a)) (a_nums a)) " " <> "").
    { apply joined_empty; [ | destruct (a_nums a); [ congruence | discriminate ] ]. eapply Forall_impl; [ | exact W1 ]. intros q [Q _]. exact Q. }
    unfold isempty. apply String.eqb_neq in J. rewrite J. split; [ now apply String.eqb_neq | ]. split; [ reflexivity | ].
    unfold split_values. change (isempty "") with true. cbv iota. rewrite (toks_joined _ _ (proj1 in_seps) W1). cbn [obind]. rewrite W2. cbn [obind fst snd].
    symmetry. apply A. reflexivity. }
  assert (X : a_type a <> DString -> Forall (word (s_ value_seps)) (map (show (a_type a)) (a_nums a)) -> xml (att_text show a) = joined (map (show (a_type a)) (a_nums a)) " ").
  { intros Ns W. unfold att_text. destruct (a_type a); try congruence; apply xml_plain; now apply joined_plain. }
  destruct (a_type a) eqn:Et; try (destruct M as [M1 M2]; apply K; [ reflexivity | discriminate | exact M1 | exact M2 | reflexivity | apply X; [ discriminate | apply M2 ] ]); try contradiction.
  destruct M as (M1 & M2 & M3). unfold att_text. rewrite Et, (xml_plain _ M2). unfold isempty. apply String.eqb_neq in M1. rewrite M1.
  split; [ now apply String.eqb_neq | ]. split; [ reflexivity | ]. change (String.eqb (st (fst (cdm2ncml DString))) "string") with true. cbn [orb obind as_read]. rewrite M3. cbn [obind fst snd]. symmetry. apply A. reflexivity.
Qed.

(** attributes *)
Lemma set_atts ns l l' : Forall2 att_ok l l' -> forall c0, ns = global_ns \/ In ns (vnames c0) ->
  NoDup (map a_name (attrs_of c0 ns ++ l)) ->
  exists c1, ofold (set_attel parse ns) (map (att_el show) l) c0 = Ok c1 /\ vars c1 = vars c0 /\ dims c1 = dims c0 /\
    attrs_of c1 ns = attrs_of c0 ns ++ l' /\ forall x, x <> ns -> attrs_of c1 x = attrs_of c0 x.
Proof.
  induction 1 as [ | a a' l l' A F IH ]; intros c0 O N.
  - exists c0. cbn. rewrite app_nil_r. auto.
  - destruct (make_att_ok a a' A) as (M1 & M2 & M3). destruct A as (_ & An & _).
    assert (N1 : ~ In (a_name a) (map a_name (attrs_of c0 ns))).
    { rewrite map_app in N. cbn [map] in N. apply NoDup_remove_2 in N. intro I. apply N. apply in_or_app. now left. }
    set (c1 := remove_attr c0 ns (a_name a')).
    assert (R : attrs_of c1 ns = attrs_of c0 ns).
    { unfold c1. rewrite attrs_of_remove_attr, String.eqb_refl, An. clear - N1. induction (attrs_of c0 ns) as [ | y t IHt ]; cbn in *; [ reflexivity | ].
      destruct (String.eqb_spec (a_name a) (a_name y)); [ exfalso; apply N1; now left | ]. cbn. f_equal. apply IHt. tauto. }
    assert (AA : add_attr c1 ns a' = Some (mkCdm (vars c1) (dims c1) (sput ns (attrs_of c1 ns ++ [a']) (attrs c1)))).
    { apply add_attr_ok; [ unfold vnames, c1; now rewrite remove_attr_vars | rewrite R, An; exact N1 ]. }
    set (c2 := mkCdm (vars c1) (dims c1) (sput ns (attrs_of c1 ns ++ [a']) (attrs c1))) in *.
    assert (A2 : attrs_of c2 ns = attrs_of c0 ns ++ [a']) by (unfold c2; now rewrite attrs_of_put, String.eqb_refl, R).
    destruct (IH c2) as (c3 & I1 & I2 & I3 & I4 & I5).
    + destruct O as [ -> | O ]; [ now left | right ]. unfold vnames, c2, c1. cbn [vars]. now rewrite remove_attr_vars.
    + rewrite A2, <- app_assoc. cbn [app]. rewrite !map_app in *. cbn [map] in *. now rewrite An.
    + exists c3. cbn [map ofold]. unfold set_attel at 1. unfold isempty. apply String.eqb_neq in M1. rewrite M1, M3. cbn [obind]. fold c1. rewrite AA. cbn [obind].
      split; [ exact I1 | ]. split; [ rewrite I2; apply remove_attr_vars | ]. split; [ rewrite I3; apply remove_attr_dims | ].
      split; [ rewrite I4, A2, <- app_assoc; reflexivity | ]. intros x X. rewrite (I5 x X). unfold c2. apply String.eqb_neq in X. rewrite attrs_of_put, X. unfold c1. now rewrite attrs_of_remove_attr, X.
Qed.

(** dimensions *)
Definition dim_ok (d : cdim) : Prop := plain_text (d_name d) /\ (1 <= d_len d < 2 ^ 31)%N.
Definition limited (d : cdim) : cdim := mkDim (d_name d) (d_len d) false.
Lemma lengths_written l : Forall dim_ok l -> forall vs as_ ds, NoDup (map d_name (ds ++ l)) ->
  ofold length_dimel (map dim_el l) (mkCdm vs ds as_) = Ok (mkCdm vs (ds ++ map limited l) as_).
Proof.
  induction 1 as [ | d l D F IH ]; intros vs as_ ds N; [ cbn; now rewrite app_nil_r | ].
  cbn [map ofold]. unfold length_dimel at 1. cbn [dim_el de_len de_name]. destruct D as [D1 D2]. rewrite (length_read _ (proj2 D2)), (xml_plain _ D1). cbn [obind].
  assert (Fd : has_dim (mkCdm vs ds as_) (d_name d) = false).
  { unfold has_dim. cbn [dims]. replace (find_dim (d_name d) ds) with (@None cdim); [ reflexivity | ]. symmetry. apply (fnd_none d_name).
    rewrite map_app in N. cbn [map] in N. apply NoDup_remove_2 in N. intro I. apply N. apply in_or_app. now left. }
  rewrite Fd. cbn [vars dims attrs]. rewrite IH; [ rewrite <- app_assoc; reflexivity | ].
  rewrite <- app_assoc. rewrite !map_app in *. cbn [map app d_name] in *. exact N.
Qed.
Lemma set_unlim_mid n b l1 d l2 : ~ In n (map d_name l1) -> d_name d = n -> set_unlim n b (l1 ++ d :: l2) = l1 ++ mkDim n (d_len d) b :: l2.
Proof.
  induction l1 as [ | x l1 IH ]; cbn; intros N E.
  - rewrite E, String.eqb_refl. reflexivity.
  - destruct (String.eqb_spec n (d_name x)); [ exfalso; apply N; now left | ]. rewrite IH; auto.
Qed.
Lemma find_dim_mid n l1 d l2 : ~ In n (map d_name l1) -> d_name d = n -> find_dim n (l1 ++ d :: l2) = Some d.
Proof.
  unfold find_dim. induction l1 as [ | x l1 IH ]; cbn; intros N E.
  - rewrite E, String.eqb_refl. reflexivity.
  - destruct (String.eqb_spec n (d_name x)); [ exfalso; apply N; now left | ]. apply IH; auto.
Qed.
Lemma unlims_written l : Forall dim_ok l -> forall ds as_, NoDup (map d_name (ds ++ l)) ->
  ofold (unlim_dimel src_data) (map dim_el l) (mkCdm [] (ds ++ map limited l) as_) = Ok (mkCdm [] (ds ++ l) as_).
Proof.
  induction 1 as [ | d l D F IH ]; intros ds as_ N; [ reflexivity | ].
  assert (Nd : ~ In (d_name d) (map d_name ds)).
  { rewrite map_app in N. cbn [map] in N. apply NoDup_remove_2 in N. intro I. apply N. apply in_or_app. now left. }
  assert (Z : mkCdm [] (ds ++ map limited (d :: l)) as_ = mkCdm [] ((ds ++ [limited d]) ++ map limited l) as_) by (rewrite <- app_assoc; reflexivity).
  cbn [map ofold]. unfold unlim_dimel at 1. cbn [dim_el de_unlim de_name]. destruct D as [D1 D2]. rewrite (xml_plain _ D1).
  assert (E : forall r, (do c1 <- Ok (mkCdm [] ((ds ++ [d]) ++ map limited l) as_); ofold (unlim_dimel src_data) (map dim_el l) c1) = r -> Ok (mkCdm [] (ds ++ d :: l) as_) = r).
  { intros r <-. cbn [obind]. rewrite IH; [ rewrite <- app_assoc; reflexivity | rewrite <- app_assoc; exact N ]. }
  symmetry. apply E. clear E. destruct (d_unlim d) eqn:U.
  - cbn [dims]. rewrite (find_dim_mid _ ds (limited d)); auto. change (String.eqb "true" "true") with true. cbv iota. cbn [limited d_unlim vars find_var]. 
    rewrite (set_unlim_mid _ _ ds (limited d)); auto. cbn [limited d_len obind]. f_equal. rewrite <- app_assoc. cbn [app]. destruct d; cbn in *; now subst.
  - cbn [obind]. rewrite <- app_assoc. cbn [app]. unfold limited at 1. destruct d; cbn in *; now subst.
Qed.

(** variables *)
Definition var_ok (v : cvar) : Prop :=
  plain_text (v_name v) /\ v_name v <> "" /\ v_name v <> global_ns /\ numeric (v_type v) = true /\
  Forall (fun n => word (s_ (st [" "; "009"]%char)) n /\ plain_text n) (v_shape v).
Lemma var_ok_nat v : var_ok v -> v_type v <> DNat.
Proof. intros (_ & _ & _ & T & _) Z. rewrite Z in T. discriminate. Qed.

Lemma shape_read sh : Forall (fun n => word (s_ (st [" "; "009"]%char)) n /\ plain_text n) sh ->
  shape_of_text (prop (match sh with [] => None | _ => Some (xml (joined (rev sh) " ")) end)) = Ok sh.
Proof.
  intro F. assert (K : shape_of_text (joined (rev sh) " ") = Ok sh).
  { unfold shape_of_text. rewrite toks_joined; [ cbn [obind]; now rewrite rev_involutive | apply in_seps | ]. apply Forall_rev. eapply Forall_impl; [ | exact F ]. intros n [W _]. exact W. }
  destruct sh as [ | n sh ]; [ exact K | ]. cbn [prop]. rewrite xml_plain; [ exact K | ].
  clear K. apply Forall_rev in F. revert F. generalize (rev (n :: sh)) as l. intros l F ch I. unfold joined in I. rewrite s_st in I.
  assert (K : ch = " "%char \/ exists t, In t l /\ In ch (s_ t)).
  { induction l as [ | t l IH ]; [ destruct I | ]. inversion_clear F. destruct l as [ | u l ].
    - right. exists t. split; [ now left | exact I ].
    - cbn [map] in I. rewrite join_cons in I. apply in_app_or in I. destruct I as [I | I]; [ right; exists t; split; [ now left | exact I ] | ].
      apply in_app_or in I. destruct I as [[ <- | [] ] | I]; [ now left | ]. destruct (IH H0 I) as [K | (v & K1 & K2)]; [ now left | ]. right. exists v. split; [ now right | exact K2 ]. }
  destruct K as [ -> | (t & It & K) ]; [ repeat split; discriminate | ]. rewrite Forall_forall in F. destruct (F t It) as [_ W]. exact (W ch K).
Qed.

(** [e] is the element of [v] up to its values *)
Definition el_of (v : cvar) (e : varel) : Prop := exists values, e = var_el c show v values.
Lemma el_of_fields v e : var_ok v -> el_of v e ->
  xe_name e = Some (v_name v) /\ xe_org e = None /\ prop (xe_shape e) = prop (match v_shape v with [] => None | _ => Some (xml (joined (rev (v_shape v)) " ")) end) /\
  xe_type e = Some (st (fst (cdm2ncml (v_type v)))) /\ xe_removes e = [] /\
  xe_atts e = (if is_unsigned (v_type v) then [unsigned_el] else []) ++ map (att_el show) (attrs_of c (v_name v)) /\ xe_vectors e = [].
Proof.
  intros V (values & ->). pose proof (var_ok_nat v V) as NN. destruct (as_read_spec _ NN) as (_ & R2 & R3 & _). unfold var_el.
  destruct (cdm2ncml (v_type v)) as [name u] eqn:E. cbn [fst snd] in *. subst u. cbn. destruct V as (P & _). rewrite (xml_plain _ P).
  do 3 (split; [ reflexivity | ]). split; [ now destruct name | ]. auto.
Qed.
(** the variable as added, before its type and values are set *)
Definition fresh (v : cvar) (t : dtype) : cvar := mkVar (v_name v) t (v_shape v) "" (Some []).

Lemma no_vars_shape es : (forall e, In e es -> exists n, xe_name e = Some n /\ n <> "" /\ xe_org e = None) -> forall c0, vars c0 = [] -> ofold shape_varel es c0 = Ok c0.
Proof.
  induction es as [ | e es IH ]; intros H c0 V; [ reflexivity | ]. cbn [ofold]. destruct (H e (or_introl eq_refl)) as (n & N1 & N2 & N3).
  assert (E : shape_varel c0 e = Ok c0).
  { unfold shape_varel. destruct (xe_shape e); [ | reflexivity ]. unfold target. rewrite N3, N1. cbn [prop]. change (isempty "") with true. cbv iota.
    unfold isempty. apply String.eqb_neq in N2. rewrite N2. unfold has_var. rewrite V. reflexivity. }
  rewrite E. cbn [obind]. apply IH; auto. intros; apply H; now right.
Qed.
Lemma no_renames es : (forall e, In e es -> xe_org e = None) -> forall s0, ofold rename_varel es s0 = Ok s0.
Proof.
  induction es as [ | e es IH ]; intros H s0; [ reflexivity | ]. cbn [ofold]. unfold rename_varel at 1. rewrite (H e (or_introl eq_refl)). cbn [obind]. apply IH. intros; apply H; now right.
Qed.
Lemma adds_written vs es : Forall2 el_of vs es -> Forall var_ok vs -> forall l0 ds as_, NoDup (map v_name (l0 ++ vs)) ->
  exists us, length us = length vs /\ ofold add_varel es (mkCdm l0 ds as_) = Ok (mkCdm (l0 ++ map (fun p => fresh (fst p) (snd p)) (combine vs us)) ds as_).
Proof.
  induction 1 as [ | v e vs es E F IH ]; intros V l0 ds as_ N.
  - exists []. cbn. rewrite app_nil_r. auto.
  - inversion_clear V. destruct (el_of_fields v e H E) as (E1 & E2 & E3 & E4 & _). destruct (as_read_spec _ (var_ok_nat v H)) as (_ & _ & R3 & u & R4).
    destruct (IH H0 (l0 ++ [fresh v u]) ds as_) as (us & U1 & U2).
    { rewrite <- app_assoc. rewrite !map_app in *. cbn [map app fresh v_name] in *. exact N. }
    exists (u :: us). split; [ cbn; now rewrite U1 | ]. cbn [ofold]. unfold add_varel at 1. rewrite E2, E1, E4, E3. cbn [prop].
    assert (X : isempty (st (fst (cdm2ncml (v_type v)))) = false) by (unfold isempty; apply String.eqb_neq; intro Z; apply st_empty in Z; contradiction).
    assert (Y : has_var (mkCdm l0 ds as_) (v_name v) = false).
    { unfold has_var. cbn [vars]. replace (find_var (v_name v) l0) with (@None cvar); [ reflexivity | ]. symmetry. apply (fnd_none v_name).
      rewrite map_app in N. cbn [map] in N. apply NoDup_remove_2 in N. intro I. apply N. apply in_or_app. now left. }
    rewrite X, Y. cbn [negb andb]. rewrite s_st, R4. cbn [obind]. destruct H as (_ & _ & _ & _ & SH). rewrite (shape_read _ SH). cbn [obind vars dims attrs].
    fold (fresh v u). rewrite U2. rewrite <- app_assoc. reflexivity.
Qed.
Lemma find_var_mid n l1 v l2 : ~ In n (map v_name l1) -> v_name v = n -> find_var n (l1 ++ v :: l2) = Some v.
Proof.
  unfold find_var. induction l1 as [ | x l1 IH ]; cbn; intros N E.
  - rewrite E, String.eqb_refl. reflexivity.
  - destruct (String.eqb_spec n (v_name x)); [ exfalso; apply N; now left | ]. apply IH; auto.
Qed.
Lemma upd_var_mid n f l1 v l2 : ~ In n (map v_name l1) -> v_name v = n -> upd_var n f (l1 ++ v :: l2) = l1 ++ f v :: l2.
Proof.
  induction l1 as [ | x l1 IH ]; cbn; intros N E.
  - rewrite E, String.eqb_refl. reflexivity.
  - destruct (String.eqb_spec n (v_name x)); [ exfalso; apply N; now left | ]. rewrite IH; auto.
Qed.
Lemma types_written vs es : Forall2 el_of vs es -> Forall var_ok vs -> forall us l0 ds as_ vm dm tm, length us = length vs -> NoDup (map v_name (l0 ++ vs)) ->
  exists tm', ofold type_varel es (mkN (mkCdm (l0 ++ map (fun p => fresh (fst p) (snd p)) (combine vs us)) ds as_) vm dm tm) =
    Ok (mkN (mkCdm (l0 ++ map (fun v => fresh v (as_read (v_type v))) vs) ds as_) vm dm tm').
Proof.
  induction 1 as [ | v e vs es E F IH ]; intros V us l0 ds as_ vm dm tm L N.
  - destruct us; [ | discriminate ]. exists tm. reflexivity.
  - destruct us as [ | u us ]; [ discriminate | ]. inversion_clear V. destruct (el_of_fields v e H E) as (E1 & _ & _ & E4 & _). destruct (as_read_spec _ (var_ok_nat v H)) as (R1 & _ & _ & _).
    assert (Nv : ~ In (v_name v) (map v_name l0)).
    { rewrite map_app in N. cbn [map] in N. apply NoDup_remove_2 in N. intro I. apply N. apply in_or_app. now left. }
    assert (N' : NoDup (map v_name ((l0 ++ [fresh v (as_read (v_type v))]) ++ vs))).
    { rewrite <- app_assoc. rewrite !map_app in *. cbn [map app fresh v_name] in *. exact N. }
    cbn [combine map fst snd ofold]. unfold type_varel at 1. rewrite E4, E1. cbn [prop n_cdm vars n_vmap n_dmap n_tmap].
    assert (X : isempty (v_name v) = false) by (unfold isempty; apply String.eqb_neq; apply H).
    rewrite X, (find_var_mid _ l0 (fresh v u)); [ | exact Nv | reflexivity ]. rewrite s_st, R1.
    assert (Y : dtype_eqb (as_read (v_type v)) DNat = false) by (pose proof (var_ok_nat v H); destruct (v_type v); try reflexivity; congruence).
    rewrite Y. cbn [fresh v_type]. cbn [length] in L. injection L as L. destruct (dtype_eqb (as_read (v_type v)) u) eqn:D.
    + assert (u = as_read (v_type v)) by (destruct (as_read (v_type v)), u; cbn in D; congruence). subst u. cbn [obind].
      destruct (IH H0 us (l0 ++ [fresh v (as_read (v_type v))]) ds as_ vm dm tm L N') as (tm' & T). exists tm'. rewrite <- !app_assoc in T. exact T.
    + cbn [obind]. unfold change_var. cbn [vars dims attrs]. rewrite (upd_var_mid _ _ l0 (fresh v u)); [ | exact Nv | reflexivity ].
      destruct (IH H0 us (l0 ++ [fresh v (as_read (v_type v))]) ds as_ vm dm (sput (v_name v) (as_read (v_type v)) tm) L N') as (tm' & T). exists tm'. rewrite <- !app_assoc in T. exact T.
Qed.

(** the values: [data_ok v v'] when the reader has them in full, prints them as words and reads them *)
Definition data_ok (v v' : cvar) : Prop :=
  v_name v' = v_name v /\ v_type v' = as_read (v_type v) /\ v_shape v' = v_shape v /\ v_counterpart v' = "" /\
  exists rs l x, records c get_data get_record v = Ok rs /\ Forall (fun r => r <> []) rs /\ concat rs <> [] /\
    data_size c (v_shape v) = Ok (N.of_nat (length (concat rs))) /\
    numbers (v_type v) (concat rs) l x /\ v_data v' = Some l.
Definition has_value (v : cvar) (e : varel) : Prop :=
  e = var_el c show v [mkVe "" "" (joined (map (fun r => joined (map (show (v_type v)) r) " ") (match records c get_data get_record v with Ok rs => rs | _ => [] end)) " ") ""].
Lemma values_read v v' : data_ok v v' -> exists rs l x, records c get_data get_record v = Ok rs /\
  joined (map (fun r => joined (map (show (v_type v)) r) " ") rs) " " = joined (map (show (v_type v)) (concat rs)) " " /\
  joined (map (show (v_type v)) (concat rs)) " " <> "" /\
  toks (joined (map (show (v_type v)) (concat rs)) " ") value_seps = Ok (map (show (v_type v)) (concat rs)) /\
  data_size c (v_shape v) = Ok (N.of_nat (length (concat rs))) /\
  parse (as_read (v_type v)) (map (show (v_type v)) (concat rs)) = Ok (l, x) /\ v' = mkVar (v_name v) (as_read (v_type v)) (v_shape v) "" (Some l).
Proof.
  intros (N & T & Sh & Cp & rs & l & x & R & Ne & Nc & Sz & [W P] & D). exists rs, l, x. split; [ exact R | ].
  split.
  { rewrite concat_map, <- joined_concat; [ now rewrite map_map | ]. rewrite Forall_map. eapply Forall_impl; [ | exact Ne ]. intros [ | a r ]; cbn; congruence. }
  split.
  { apply joined_empty; [ eapply Forall_impl; [ | exact W ]; intros q [Q _]; exact Q | ]. destruct (concat rs); [ congruence | discriminate ]. }
  split; [ apply toks_joined; [ apply in_seps | exact W ] | ]. split; [ exact Sz | ]. split; [ exact P | ]. destruct v'; cbn in *. congruence.
Qed.
Lemma data_size_dims c1 : dims c1 = dims c -> forall sh, data_size c1 sh = data_size c sh.
Proof. intros E sh. unfold data_size. now rewrite E. Qed.
Lemma values_written vs vs' : Forall2 data_ok vs vs' -> forall es, Forall2 has_value vs es -> Forall var_ok vs -> forall l0 as_, NoDup (map v_name (l0 ++ vs)) ->
  ofold (values_one parse number_of) (flat_map (fun e => map (pair e) (xe_values e)) es) (mkCdm (l0 ++ map (fun v => fresh v (as_read (v_type v))) vs) (dims c) as_) =
    Ok (mkCdm (l0 ++ vs') (dims c) as_).
Proof.
  induction 1 as [ | v v' vs vs' D F IH ]; intros es E V l0 as_ N; inversion E as [ | ? e ? es' E1 E2 ]; subst; [ reflexivity | ].
  inversion_clear V. destruct (values_read v v' D) as (rs & l & x & R & J & J0 & Tk & Sz & P & V').
  destruct (el_of_fields v e H) as (F1 & _); [ eexists; exact E1 | ].
  assert (Xv : xe_values e = [mkVe "" "" (joined (map (show (v_type v)) (concat rs)) " ") ""]).
  { rewrite E1. unfold var_el. destruct (cdm2ncml (v_type v)). cbn [xe_values]. now rewrite R, J. }
  cbn [flat_map]. rewrite Xv. cbn [map app ofold]. unfold values_one at 1. rewrite F1. cbn [prop vars dims attrs].
  assert (X : isempty (v_name v) = false) by (unfold isempty; apply String.eqb_neq; apply H).
  assert (Nv : ~ In (v_name v) (map v_name l0)).
  { rewrite map_app in N. cbn [map] in N. apply NoDup_remove_2 in N. intro I. apply N. apply in_or_app. now left. }
  rewrite X, (find_var_mid _ l0 (fresh v (as_read (v_type v)))); [ | exact Nv | reflexivity ]. cbn [fresh v_shape v_type].
  rewrite data_size_dims by reflexivity. rewrite Sz. cbn [obind ve_start ve_inc ve_content ve_sep]. change (isempty "") with true. cbn [Bool.eqb negb andb].
  assert (Y : isempty (joined (map (show (v_type v)) (concat rs)) " ") = false) by (unfold isempty; now apply String.eqb_neq).
  rewrite Y. cbn [negb Bool.eqb]. unfold split_values. change (isempty "") with true. cbv iota. rewrite Tk. cbn [obind]. rewrite map_length.
  assert (B : (match v_shape v with [] => 1 <? length (concat rs) | _ => negb (N.of_nat (length (concat rs)) =? N.of_nat (length (concat rs)))%N end) = false).
  { destruct (v_shape v); [ | now rewrite N.eqb_refl ]. cbn in Sz. injection Sz as Sz. apply Nat.ltb_ge. lia. }
  rewrite B, P. cbn [obind fst]. unfold change_var. cbn [vars dims attrs]. rewrite (upd_var_mid _ _ l0 (fresh v (as_read (v_type v)))); [ | exact Nv | reflexivity ].
  unfold NmlModel.with_data. cbn [fresh v_name v_type v_shape v_counterpart]. rewrite <- V'.
  replace (l0 ++ v' :: map (fun w => fresh w (as_read (v_type w))) vs) with ((l0 ++ [v']) ++ map (fun w => fresh w (as_read (v_type w))) vs) by (rewrite <- app_assoc; reflexivity).
  rewrite (IH es' E2 H0 (l0 ++ [v']) as_); [ rewrite <- app_assoc; reflexivity | ].
  rewrite <- app_assoc. rewrite !map_app in *. cbn [map app] in *. rewrite V'. exact N.
Qed.

(** the attributes of a variable: the mark of an unsigned type first *)
Definition mark (t : dtype) (m : cattr) : list cattr := if is_unsigned t then [m] else [].
Definition mark_ok (m : cattr) : Prop := a_name m = "_Unsigned" /\ a_type m = DString /\ parse DString ["true"] = Ok (a_nums m, a_text m).
Lemma set_mark m : mark_ok m -> forall ns c0, In ns (vnames c0) -> attrs_of c0 ns = [] ->
  exists c1, set_attel parse ns c0 unsigned_el = Ok c1 /\ vars c1 = vars c0 /\ dims c1 = dims c0 /\ attrs_of c1 ns = [m] /\ forall x, x <> ns -> attrs_of c1 x = attrs_of c0 x.
Proof.
  intros (M1 & M2 & M3) ns c0 O A. unfold set_attel, make_att, att_value, unsigned_el. cbn [ae_value ae_content ae_type ae_name ae_sep].
  change (isempty "true") with false. change (isempty "") with true. cbv iota. change (ncml_name2cdm (s_ "string") false) with DString. cbn [dtype_eqb].
  change (String.eqb "string" "string" || String.eqb "string" "String") with true. cbv iota. cbn [obind]. rewrite M3. cbn [obind fst snd a_name].
  replace (mkAttr "_Unsigned" DString (a_nums m) (a_text m)) with m by (destruct m; cbn in *; congruence).
  set (c1 := remove_attr c0 ns "_Unsigned").
  assert (R : attrs_of c1 ns = []) by (unfold c1; rewrite attrs_of_remove_attr, String.eqb_refl, A; reflexivity).
  assert (AA : add_attr c1 ns m = Some (mkCdm (vars c1) (dims c1) (sput ns (attrs_of c1 ns ++ [m]) (attrs c1)))).
  { apply add_attr_ok; [ right; unfold vnames, c1; now rewrite remove_attr_vars | rewrite R; auto ]. }
  rewrite AA. eexists. split; [ reflexivity | ]. cbn [vars dims]. split; [ apply remove_attr_vars | ]. split; [ apply remove_attr_dims | ].
  split; [ rewrite attrs_of_put, String.eqb_refl, R; reflexivity | ]. intros x X. apply String.eqb_neq in X. rewrite attrs_of_put, X. unfold c1. now rewrite attrs_of_remove_attr, X.
Qed.
Lemma set_vatts_one e n l : xe_name e = Some n -> forall c0, ofold (set_vattel parse) (map (pair e) l) c0 = ofold (set_attel parse n) l c0.
Proof.
  intro E. induction l as [ | a l IH ]; intro c0; [ reflexivity | ]. cbn [map ofold]. unfold set_vattel at 1. cbn [fst snd]. rewrite E. cbn [prop].
  destruct (set_attel parse n c0 a); cbn [obind]; auto.
Qed.
Lemma vatts_written m (as_ : string -> list cattr) : mark_ok m -> forall vs es, Forall2 el_of vs es -> Forall var_ok vs ->
  (forall v, In v vs -> Forall2 att_ok (attrs_of c (v_name v)) (as_ (v_name v)) /\ NoDup (map a_name (mark (v_type v) m ++ attrs_of c (v_name v)))) ->
  forall c0, NoDup (map v_name vs) -> (forall v, In v vs -> In (v_name v) (vnames c0) /\ attrs_of c0 (v_name v) = []) ->
  exists c1, ofold (set_vattel parse) (flat_map (fun e => map (pair e) (xe_atts e)) es) c0 = Ok c1 /\ vars c1 = vars c0 /\ dims c1 = dims c0 /\
    (forall v, In v vs -> attrs_of c1 (v_name v) = mark (v_type v) m ++ as_ (v_name v)) /\ forall x, ~ In x (map v_name vs) -> attrs_of c1 x = attrs_of c0 x.
Proof.
  intro M. induction 1 as [ | v e vs es E F IH ]; intros V A c0 N O.
  - exists c0. cbn. do 3 (split; [ reflexivity | ]). split; [ now intros | auto ].
  - inversion_clear V. destruct (el_of_fields v e H E) as (F1 & _ & _ & _ & _ & F6 & _). destruct (A v (or_introl eq_refl)) as [A1 A2]. destruct (O v (or_introl eq_refl)) as [O1 O2].
    inversion_clear N. cbn [flat_map]. rewrite oapp, (set_vatts_one e _ _ F1), F6, oapp.
    assert (K : exists c1, ofold (set_attel parse (v_name v)) (if is_unsigned (v_type v) then [unsigned_el] else []) c0 = Ok c1 /\ vars c1 = vars c0 /\ dims c1 = dims c0 /\
              attrs_of c1 (v_name v) = mark (v_type v) m /\ forall x, x <> v_name v -> attrs_of c1 x = attrs_of c0 x).
    { unfold mark. destruct (is_unsigned (v_type v)).
      - destruct (set_mark m M (v_name v) c0 O1 O2) as (c1 & K1 & K). exists c1. cbn [ofold]. rewrite K1. cbn [obind]. auto.
      - exists c0. cbn. auto. }
    destruct K as (c1 & K1 & K2 & K3 & K4 & K5). rewrite K1. cbn [obind].
    destruct (set_atts (v_name v) _ _ A1 c1) as (c2 & S1 & S2 & S3 & S4 & S5).
    { right. unfold vnames. now rewrite K2. } { rewrite K4. exact A2. }
    rewrite S1. cbn [obind].
    destruct (IH H0 (fun w I => A w (or_intror I)) c2 H2) as (c3 & I1 & I2 & I3 & I4 & I5).
    { intros w I. destruct (O w (or_intror I)) as [P1 P2]. assert (Nw : v_name w <> v_name v) by (intro Z; apply H1; rewrite <- Z; now apply in_map).
      split; [ unfold vnames in *; now rewrite S2, K2 | ]. rewrite (S5 _ Nw), (K5 _ Nw). exact P2. }
    exists c3. split; [ exact I1 | ]. split; [ congruence | ]. split; [ congruence | ]. split.
    + intros w [ <- | I ]; [ | now apply I4 ]. rewrite (I5 _ H1), S4, K4. reflexivity.
    + intros x X. cbn [map] in X. assert (x <> v_name v) by (intro Z; apply X; now left). rewrite I5, S5, K5; auto. intro Z. apply X. now right.
Qed.
Lemma no_att_renames ns l : (forall a, In a l -> ae_org a = None) -> forall c0, ofold (rename_attel ns) l c0 = Ok c0.
Proof.
  induction l as [ | a l IH ]; intros H c0; [ reflexivity | ]. cbn [ofold]. unfold rename_attel at 1. rewrite (H a (or_introl eq_refl)). cbn [obind]. apply IH. intros; apply H; now right.
Qed.
Lemma no_vatt_renames l : (forall p, In p l -> ae_org (snd p) = None) -> forall c0, ofold rename_vattel l c0 = Ok c0.
Proof.
  induction l as [ | a l IH ]; intros H c0; [ reflexivity | ]. cbn [ofold]. unfold rename_vattel at 1, rename_attel. rewrite (H a (or_introl eq_refl)).
  destruct (xe_name (fst a)); cbn [obind]; apply IH; intros; apply H; now right.
Qed.
Lemma att_el_org l a : In a (map (att_el show) l) -> ae_org a = None.
Proof. intro I. apply in_map_iff in I. destruct I as (x & <- & _). reflexivity. Qed.

Definition empty : cdm := mkCdm [] [] [].
Lemma no_dim_renames l s : ofold rename_dimel (map dim_el l) s = Ok s.
Proof. induction l as [ | d l IH ]; [ reflexivity | ]. cbn. exact IH. Qed.

Lemma on_step f s c1 : f (n_cdm s) = Ok c1 -> on_cdm f s = Ok (mkN c1 (n_vmap s) (n_dmap s) (n_tmap s)).
Proof. intro E. unfold on_cdm. now rewrite E. Qed.
(** the phases up to the values *)
Lemma structure es ga : Forall2 el_of (vars c) es -> Forall var_ok (vars c) -> Forall dim_ok (dims c) -> NoDup (map v_name (vars c)) -> NoDup (map d_name (dims c)) ->
  (forall a, In a ga -> ae_org a = None) -> forall c1 c2 c3,
  ofold (values_one parse number_of) (flat_map (fun e => map (pair e) (xe_values e)) es) (mkCdm (map (fun v => fresh v (as_read (v_type v))) (vars c)) (dims c) []) = Ok c1 ->
  ofold (set_attel parse global_ns) ga c1 = Ok c2 -> ofold (set_vattel parse) (flat_map (fun e => map (pair e) (xe_atts e)) es) c2 = Ok c3 ->
  exists s, init empty src_data parse number_of (mkDoc [] (map dim_el (dims c)) es ga) = Ok s /\ n_cdm s = c3.
Proof.
  intros E V D Nv Nd G c1 c2 c3 E1 E2 E3.
  assert (Fs : forall e, In e es -> exists v, In v (vars c) /\ el_of v e /\ var_ok v).
  { clear - E V. induction E as [ | v e vs es H F IH ]; intros x I; [ destruct I | ]. inversion_clear V. destruct I as [ <- | I ].
    - exists v. split; [ now left | auto ].
    - destruct (IH H1 x I) as (w & W1 & W2). exists w. split; [ now right | exact W2 ]. }
  destruct (adds_written _ _ E V [] (dims c) [] Nv) as (us & U1 & U2). cbn [app] in U2.
  destruct (types_written _ _ E V us [] (dims c) [] [] [] [] U1 Nv) as (tm & T). cbn [app] in T.
  assert (R : flat_map (fun e => map (pair e) (xe_removes e)) es = []).
  { clear - Fs. induction es as [ | e l IH ]; [ reflexivity | ]. cbn [flat_map]. destruct (Fs e (or_introl eq_refl)) as (v & _ & P1 & P2).
    destruct (el_of_fields v e P2 P1) as (_ & _ & _ & _ & F & _). rewrite F. cbn. apply IH. intros; apply Fs; now right. }
  assert (W : flat_map (fun e => map (pair e) (xe_vectors e)) es = []).
  { clear - Fs. induction es as [ | e l IH ]; [ reflexivity | ]. cbn [flat_map]. destruct (Fs e (or_introl eq_refl)) as (v & _ & P1 & P2).
    destruct (el_of_fields v e P2 P1) as (_ & _ & _ & _ & _ & _ & F). rewrite F. cbn. apply IH. intros; apply Fs; now right. }
  unfold init, init_remove. cbn [removes dimels varels gatts ofold obind]. rewrite R. cbn [ofold obind]. rewrite no_dim_renames. cbn [obind].
  erewrite on_step by exact (lengths_written _ D [] [] [] Nd). cbn [obind app n_cdm n_vmap n_dmap n_tmap].
  erewrite on_step by exact (unlims_written _ D [] [] Nd). cbn [obind app n_cdm n_vmap n_dmap n_tmap].
  erewrite on_step.
  2:{ apply no_vars_shape; [ | reflexivity ]. intros e I. destruct (Fs e I) as (v & _ & P1 & P2). destruct (el_of_fields v e P2 P1) as (F1 & F2 & _). exists (v_name v). destruct P2 as (_ & P2 & _). auto. }
  cbn [obind n_cdm n_vmap n_dmap n_tmap]. rewrite no_renames.
  2:{ intros e I. destruct (Fs e I) as (v & _ & P1 & P2). destruct (el_of_fields v e P2 P1) as (F1 & F2 & _). exact F2. }
  cbn [obind]. erewrite on_step by exact U2. cbn [obind n_cdm n_vmap n_dmap n_tmap]. rewrite T. cbn [obind].
  erewrite on_step by exact E1. cbn [obind n_cdm n_vmap n_dmap n_tmap]. rewrite W. 
  erewrite on_step by reflexivity. cbn [obind n_cdm n_vmap n_dmap n_tmap].
  erewrite on_step by (apply no_att_renames; exact G). cbn [obind n_cdm n_vmap n_dmap n_tmap].
  erewrite on_step.
  2:{ apply no_vatt_renames. intros [e a] I. unfold vatts in I. cbn [varels snd] in *. apply in_flat_map in I. destruct I as (e' & I1 & I2). apply in_map_iff in I2. destruct I2 as (a' & I2 & I3). injection I2 as -> ->.
      destruct (Fs e I1) as (v & _ & P1 & P2). destruct (el_of_fields v e P2 P1) as (_ & _ & _ & _ & _ & F & _). rewrite F in I3. apply in_app_or in I3. destruct I3 as [I3 | I3].
      - destruct (is_unsigned (v_type v)); [ | destruct I3 ]. destruct I3 as [ <- | [] ]. reflexivity.
      - eapply att_el_org; exact I3. }
  cbn [obind n_cdm n_vmap n_dmap n_tmap]. erewrite on_step by exact E2. cbn [obind n_cdm n_vmap n_dmap n_tmap].
  erewrite on_step by exact E3. eexists. split; [ reflexivity | reflexivity ].
Qed.

(** what the attributes of a variable must be, and what they are read as *)
Definition atts_ok (m : cattr) (as_ : string -> list cattr) : Prop := mark_ok m /\
  forall v, In v (vars c) -> Forall2 att_ok (attrs_of c (v_name v)) (as_ (v_name v)) /\ (is_unsigned (v_type v) = true -> ~ In "_Unsigned" (map a_name (attrs_of c (v_name v)))).
Lemma written_read es vs' ga m as_ : consistent c -> Forall2 el_of (vars c) es -> Forall var_ok (vars c) -> Forall dim_ok (dims c) ->
  ofold (values_one parse number_of) (flat_map (fun e => map (pair e) (xe_values e)) es) (mkCdm (map (fun v => fresh v (as_read (v_type v))) (vars c)) (dims c) []) = Ok (mkCdm vs' (dims c) []) ->
  map v_name vs' = map v_name (vars c) -> Forall2 att_ok (attrs_of c global_ns) ga -> atts_ok m as_ ->
  exists s, init empty src_data parse number_of (mkDoc [] (map dim_el (dims c)) es (map (att_el show) (attrs_of c global_ns))) = Ok s /\
    vars (n_cdm s) = vs' /\ dims (n_cdm s) = dims c /\ attrs_of (n_cdm s) global_ns = ga /\
    forall v, In v (vars c) -> attrs_of (n_cdm s) (v_name v) = mark (v_type v) m ++ as_ (v_name v).
Proof.
  intros C E V D W Nm G [M A]. set (c0 := mkCdm vs' (dims c) []) in *.
  destruct (set_atts global_ns _ _ G c0 (or_introl eq_refl)) as (c1 & G1 & G2 & G3 & G4 & G5).
  { change (attrs_of c0 global_ns) with (@nil cattr). apply (c_attrs _ C). }
  assert (Vg : forall v, In v (vars c) -> v_name v <> global_ns) by (intros v I; rewrite Forall_forall in V; destruct (V v I) as (_ & _ & K & _); exact K).
  destruct (vatts_written m as_ M (vars c) es E V) with (c0 := c1) as (c2 & B1 & B2 & B3 & B4 & B5).
  - intros v I. destruct (A v I) as [A1 A2]. split; [ exact A1 | ]. unfold mark. destruct (is_unsigned (v_type v)); [ | apply (c_attrs _ C) ].
    cbn [map app]. constructor; [ | apply (c_attrs _ C) ]. destruct M as (M1 & _). rewrite M1. now apply A2.
  - apply (c_vars _ C).
  - intros v I. split; [ unfold vnames; rewrite G2; unfold c0; cbn [vars]; rewrite Nm; now apply in_map | ]. rewrite (G5 _ (Vg v I)). reflexivity.
  - destruct (structure es (map (att_el show) (attrs_of c global_ns)) E V D (c_vars _ C) (c_dims _ C) (att_el_org _) _ _ _ W G1 B1) as (s & S1 & <-).
    exists s. split; [ exact S1 | ]. split; [ now rewrite B2, G2 | ]. split; [ now rewrite B3, G3 | ]. split; [ | exact B4 ].
    rewrite B5, G4; [ reflexivity | ]. intro I. apply in_map_iff in I. destruct I as (v & I1 & I2). exact (Vg v I2 I1).
Qed.

(** Metadata and data: the dimensions are read back unchanged, the variables with their names, shapes and
    values and the attributes in their order, with the types that the document's names of types have. *)
Theorem C89_with_data : forall vs' ga m as_, consistent c -> Forall dim_ok (dims c) -> Forall var_ok (vars c) ->
  Forall2 data_ok (vars c) vs' -> Forall2 att_ok (attrs_of c global_ns) ga -> atts_ok m as_ ->
  exists d s, write_doc c get_data get_record show true = Ok d /\ init empty src_data parse number_of d = Ok s /\
    vars (n_cdm s) = vs' /\ dims (n_cdm s) = dims c /\ attrs_of (n_cdm s) global_ns = ga /\
    forall v, In v (vars c) -> attrs_of (n_cdm s) (v_name v) = mark (v_type v) m ++ as_ (v_name v).
Proof.
  intros vs' ga m as_ C D V Da G A.
  assert (K : exists es, omapM (write_var c get_data get_record show true) (vars c) = Ok es /\ Forall2 has_value (vars c) es).
  { clear - Da V. induction Da as [ | v v' vs vs' H F IH ]; [ exists []; split; constructor | ]. inversion_clear V. destruct (IH H1) as (es & K1 & K2).
    pose proof (var_ok_nat v H0) as NN. destruct (values_read v v' H) as (rs & _ & _ & R & _).
    eexists (_ :: es). split; [ | constructor; [ reflexivity | exact K2 ] ]. cbn [omapM]. unfold write_var at 1.
    replace (dtype_eqb (v_type v) DNat) with false by (destruct (v_type v); try reflexivity; congruence). cbn [negb andb]. unfold values_text. rewrite R. cbn [obind]. rewrite K1. reflexivity. }
  destruct K as (es & K1 & K2).
  assert (E : Forall2 el_of (vars c) es) by (clear - K2; induction K2; constructor; [ eexists; exact H | assumption ]).
  assert (Nm : map v_name vs' = map v_name (vars c)) by (clear - Da; induction Da as [ | v v' vs vs' H F IH ]; [ reflexivity | ]; cbn [map]; destruct H as (H & _); congruence).
  destruct (written_read es vs' ga m as_ C E V D) as (s & S); auto.
  { exact (values_written _ _ Da es K2 V [] [] (c_vars _ C)). }
  exists (mkDoc [] (map dim_el (dims c)) es (map (att_el show) (attrs_of c global_ns))), s. split; [ | exact S ]. unfold write_doc. now rewrite K1.
Qed.
(** Metadata alone, whatever the reader answers: the same, and the variables have no values. *)
Theorem C89_without_data : forall ga m as_, consistent c -> Forall dim_ok (dims c) -> Forall var_ok (vars c) ->
  Forall2 att_ok (attrs_of c global_ns) ga -> atts_ok m as_ ->
  exists d s, write_doc c get_data get_record show false = Ok d /\ init empty src_data parse number_of d = Ok s /\
    vars (n_cdm s) = map (fun v => mkVar (v_name v) (as_read (v_type v)) (v_shape v) "" (Some [])) (vars c) /\ dims (n_cdm s) = dims c /\ attrs_of (n_cdm s) global_ns = ga /\
    forall v, In v (vars c) -> attrs_of (n_cdm s) (v_name v) = mark (v_type v) m ++ as_ (v_name v).
Proof.
  intros ga m as_ C D V G A.
  assert (K : omapM (write_var c get_data get_record show false) (vars c) = Ok (map (fun v => var_el c show v []) (vars c))).
  { induction (vars c) as [ | v vs IH ]; [ reflexivity | ]. inversion_clear V. cbn [omapM map]. unfold write_var at 1. cbn [andb obind]. now rewrite (IH H0). }
  assert (E : Forall2 el_of (vars c) (map (fun v => var_el c show v []) (vars c))) by (clear; induction (vars c); cbn; constructor; [ eexists; reflexivity | assumption ]).
  destruct (written_read _ (map (fun v => fresh v (as_read (v_type v))) (vars c)) ga m as_ C E V D) as (s & S); auto.
  { replace (flat_map (fun e => map (pair e) (xe_values e)) (map (fun v => var_el c show v []) (vars c))) with (@nil (varel * valel)); [ reflexivity | ].
    clear. induction (vars c) as [ | v vs IH ]; [ reflexivity | ]. cbn [map flat_map]. rewrite <- IH. unfold var_el. now destruct (cdm2ncml (v_type v)). }
  { now rewrite map_map. }
  eexists _, s. split; [ unfold write_doc; rewrite K; reflexivity | exact S ].
Qed.
(** Without unsigned types and with numbers that are read as they were: nothing changes. *)
Theorem C89_unchanged : forall vs' m, consistent c -> Forall dim_ok (dims c) -> Forall var_ok (vars c) ->
  (forall v, In v (vars c) -> is_unsigned (v_type v) = false) -> mark_ok m ->
  (forall ns a, ns = global_ns \/ In ns (map v_name (vars c)) -> In a (attrs_of c ns) -> att_ok a a) ->
  Forall2 (fun v v' => v' = mkVar (v_name v) (v_type v) (v_shape v) "" (v_data v') /\ data_ok v v') (vars c) vs' ->
  exists d s, write_doc c get_data get_record show true = Ok d /\ init empty src_data parse number_of d = Ok s /\
    vars (n_cdm s) = vs' /\ dims (n_cdm s) = dims c /\
    forall ns, ns = global_ns \/ In ns (map v_name (vars c)) -> attrs_of (n_cdm s) ns = attrs_of c ns.
Proof.
  intros vs' m C D V U M A Da.
  assert (R : forall ns, ns = global_ns \/ In ns (map v_name (vars c)) -> Forall2 att_ok (attrs_of c ns) (attrs_of c ns)).
  { intros ns I. specialize (A ns). induction (attrs_of c ns) as [ | a l IH ]; constructor; [ apply A; [ exact I | now left ] | apply IH; intros b J K; apply A; [ exact J | now right ] ]. }
  destruct (C89_with_data vs' (attrs_of c global_ns) m (attrs_of c) C D V) as (d & s & S1 & S2 & S3 & S4 & S5 & S6).
  - clear - Da. induction Da as [ | v v' l l' [_ H] F IH ]; constructor; assumption.
  - apply R. now left.
  - split; [ exact M | ]. intros v I. split; [ apply R; right; now apply in_map | ]. rewrite (U v I). discriminate.
  - exists d, s. do 4 (split; [ assumption | ]). intros ns [ -> | I ]; [ exact S5 | ]. apply in_map_iff in I. destruct I as (v & <- & I). rewrite (S6 v I). unfold mark. now rewrite (U v I).
Qed.
End Round.

(** ** lists of strings *)

Lemma begins_app m s : begins m (m ++ s) = true.
Proof. induction m as [ | c m IH ]; [ reflexivity | ]. cbn. now rewrite Ascii.eqb_refl. Qed.
Lemma find_sub_none c m s : ~ In c s -> forall i, find_sub (c :: m) s i = None.
Proof.
  induction s as [ | x s IH ]; intros N i; [ reflexivity | ]. cbn [find_sub begins].
  destruct (Ascii.eqb_spec c x); [ exfalso; apply N; now left | ]. cbn [andb]. apply IH. intro I. apply N. now right.
Qed.
Lemma find_sub_first c m a s : ~ In c a -> forall i, find_sub (c :: m) (a ++ (c :: m) ++ s) i = Some (i + length a).
Proof.
  induction a as [ | x a IH ]; intros N i.
  - cbn [app length]. rewrite Nat.add_0_r. pose proof (begins_app (c :: m) s) as B. cbn [app] in B. cbn [find_sub]. now rewrite B.
  - cbn [app find_sub begins length]. destruct (Ascii.eqb_spec c x); [ exfalso; apply N; now left | ]. cbn [andb].
    assert (Na : ~ In c a) by (intro I; apply N; now right). specialize (IH Na (S i)). cbn [app] in IH. rewrite IH. f_equal. lia.
Qed.
Lemma skipn_len {A} (a b : list A) : skipn (length a) (a ++ b) = b.
Proof. induction a; cbn; auto. Qed.
Lemma firstn_len {A} (a b : list A) : firstn (length a) (a ++ b) = a.
Proof. induction a; cbn; congruence. Qed.
Lemma loop_joined c m l : Forall (fun t => ~ In c t) l -> l <> [] -> forall pre fuel, length l <= S fuel ->
  marker_loop fuel (c :: m) (pre ++ join l (c :: m)) (length pre) = Ok l.
Proof.
  induction l as [ | t l IH ]; intros F N pre fuel L; [ congruence | ]. inversion_clear F. destruct l as [ | u l ].
  - unfold join. cbn [join_loop app]. destruct fuel as [ | fuel ]; cbn [marker_loop]; rewrite skipn_len, find_sub_none by assumption; unfold substr; rewrite app_length;
    replace (length pre + length t <? length pre) with false by (symmetry; apply Nat.ltb_ge; lia); rewrite skipn_len; reflexivity.
  - destruct fuel as [ | fuel ]; [ cbn in L; lia | ]. rewrite join_cons. cbn [marker_loop]. rewrite skipn_len, find_sub_first by assumption. unfold substr. rewrite app_length.
    replace (length pre + _ <? length pre) with false by (symmetry; apply Nat.ltb_ge; lia). rewrite skipn_len.
    replace (length pre + length t - length pre) with (length t) by lia. rewrite firstn_len. cbn [obind].
    replace (length pre + length t + length (c :: m)) with (length (pre ++ t ++ c :: m)) by (rewrite !app_length; lia).
    pose proof (IH H0 ltac:(discriminate) (pre ++ t ++ c :: m) fuel ltac:(cbn in L |- *; lia)) as K. rewrite <- !app_assoc in K.
    match goal with |- (do r <- ?X; _) = _ => replace X with (Ok (u :: l)) by (symmetry; exact K) end. reflexivity.
Qed.
Lemma join_length l c m : length l <= S (length (join l (c :: m))).
Proof.
  induction l as [ | t l IH ]; [ cbn; lia | ]. destruct l as [ | u l ]; [ cbn; lia | ]. rewrite join_cons, !app_length. cbn [length] in *. lia.
Qed.
Lemma strings_split l m : l <> [] -> m <> "" -> (forall c, hd_error (s_ m) = Some c -> Forall (fun t => ~ In c (s_ t)) l) -> split_values (joined l m) m = Ok l.
Proof.
  intros N M F. unfold split_values, isempty. apply String.eqb_neq in M. rewrite M. apply String.eqb_neq in M. unfold split_marker, joined. rewrite s_st.
  destruct (s_ m) as [ | c r ] eqn:E; [ exfalso; apply M; rewrite <- (st_s m), E; reflexivity | ].
  pose proof (loop_joined c r (map s_ l)) as K. specialize (F c eq_refl).
  assert (Nl : map s_ l <> []) by (destruct l; [ congruence | discriminate ]).
  assert (Fl : Forall (fun t => ~ In c t) (map s_ l)) by (now rewrite Forall_map).
  specialize (K Fl Nl [] (length (join (map s_ l) (c :: r))) (join_length _ _ _)). cbn [app length] in K. rewrite K. cbn [obind]. f_equal.
  rewrite map_map. rewrite <- (map_id l) at 2. apply map_ext. apply st_s.
Qed.
Lemma contains_one c t : contains (st [c]) t = false -> ~ In c (s_ t).
Proof.
  unfold contains. rewrite s_st. intros H I. apply in_split in I. destruct I as (a & b & E). revert H.
  assert (K : forall s i, In c s -> exists j, find_sub [c] s i = Some j).
  { induction s as [ | x s IH ]; intros i J; [ destruct J | ]. cbn [find_sub begins]. destruct (Ascii.eqb_spec c x) as [ -> | Nx ]; [ destruct s; eexists; reflexivity | ].
    cbn [andb]. apply IH. destruct J as [ -> | J ]; [ congruence | exact J ]. }
  destruct (K (s_ t) 0) as (j & ->); [ rewrite E; apply in_or_app; right; now left | discriminate ].
Qed.

(** A list of strings is written with a separator that occurs in none of them; without one the writer
    throws. *)
Theorem C89_separator : forall name l, match strings_el name l with
  | Ok a => exists m, In m separators /\ Forall (fun t => contains m t = false) l /\
              a = mkAe (xml name) None "strings" (xml (joined l m)) "" (if String.eqb m " " then "" else m)
  | _ => forall m, In m separators -> exists t, In t l /\ contains m t = true
  end.
Proof.
  intros name l. unfold strings_el, find_separator. destruct (find _ separators) as [ m | ] eqn:E; cbn [obind].
  - apply find_some in E. destruct E as [E1 E2]. exists m. split; [ exact E1 | ]. split; [ | reflexivity ].
    apply Forall_forall. intros t I. destruct (contains m t) eqn:X; [ | reflexivity ]. rewrite negb_true_iff in E2. assert (Y : existsb (contains m) l = true) by (apply existsb_exists; eauto). congruence.
  - intros m I. pose proof (find_none _ _ E m I) as K. cbn in K. rewrite negb_false_iff in K. apply existsb_exists in K. exact K.
Qed.
(** Read back: with a separator of its own the list is the same, if no string holds a dash when the
    separator is the long one; without, if the strings are words. *)
Theorem C89_strings : forall name l a, strings_el name l = Ok a -> l <> [] -> Forall plain_text l -> joined l " " <> "" ->
  (ae_sep a = marker -> Forall (fun t => ~ In "-"%char (s_ t)) l) -> (ae_sep a = "" -> Forall (word (s_ value_seps)) l) ->
  split_values (att_value a) (ae_sep a) = Ok l.
Proof.
  intros name l a E N P J M W. pose proof (C89_separator name l) as K. rewrite E in K. destruct K as (m & I & F & ->). cbn [ae_sep] in *.
  assert (Pj : m = marker \/ m = " " \/ m = "," \/ m = "|" \/ m = "#") by (cbn in I; intuition auto).
  assert (X : xml (joined l m) = joined l m).
  { apply xml_plain. intros ch Ic. unfold joined in Ic. rewrite s_st in Ic.
    assert (K : In ch (s_ m) \/ exists t, In t l /\ In ch (s_ t)).
    { clear - Ic. induction l as [ | t l IH ]; [ destruct Ic | ]. destruct l as [ | u l ]; [ right; exists t; split; [ now left | exact Ic ] | ].
      cbn [map] in Ic. rewrite join_cons in Ic. apply in_app_or in Ic. destruct Ic as [I | I]; [ right; exists t; split; [ now left | exact I ] | ].
      apply in_app_or in I. destruct I as [I | I]; [ now left | ]. destruct (IH I) as [K | (v & K1 & K2)]; [ now left | ]. right. exists v. split; [ now right | exact K2 ]. }
    destruct K as [K | (t & K1 & K2)]; [ | rewrite Forall_forall in P; exact (P t K1 ch K2) ].
    assert (Q : forallb (fun x => negb (Ascii.eqb x "009" || Ascii.eqb x "010" || Ascii.eqb x "013")) (s_ m) = true)
      by (destruct Pj as [ -> | [ -> | [ -> | [ -> | -> ] ] ] ]; vm_compute; reflexivity).
    rewrite forallb_forall in Q. specialize (Q ch K). repeat split; intros ->; discriminate. }
  assert (V : forall n sp, att_value (mkAe n None "strings" (xml (joined l m)) "" sp) = joined l m).
  { intros n sp. unfold att_value. cbn [ae_value ae_content]. rewrite X. destruct (isempty (joined l m)) eqn:Y; [ | reflexivity ]. unfold isempty in Y. apply String.eqb_eq in Y. now rewrite Y. }
  rewrite V. destruct (String.eqb_spec m " ") as [ Em | Nm ].
  - subst m. unfold split_values. change (isempty "") with true. cbv iota. apply toks_joined; [ apply in_seps | now apply W ].
  - apply strings_split; [ exact N | destruct Pj as [ -> | [ -> | [ -> | [ -> | -> ] ] ] ]; discriminate | ]. intros ch H.
    destruct Pj as [ -> | [ -> | [ -> | [ -> | -> ] ] ] ]; try congruence; cbn in H; injection H as <-; [ now apply M | | | ];
    (eapply Forall_impl; [ | exact F ]; intros t T; apply contains_one; exact T).
Qed.

(** ** findings *)

Definition ex_show (t : dtype) (v : value) : string :=
  match v with Some q => let z := Qnum (this q) in if (z <? 0)%Z then String "-" (st (dec (Z.to_N (- z)))) else st (dec (Z.to_N z)) | None => "nan" end.
Definition ex_number (t : string) : outcome value := do z <- string2intT (s_ t); Ok (Some (z2q z)).
Definition ex_parse (t : dtype) (l : list string) : outcome (list value * string) :=
  match t with
  | DString | DStrings => Ok ([], fold_right (fun a b => (a ++ b)%string) "" l)
  | _ => do v <- omapM ex_number l; Ok (v, "")
  end.
Definition num (z : Z) : value := Some (z2q z).
(** a file with an unlimited dimension, a variable along it, one without dimensions and one without sign *)
Definition ex_c : cdm :=
  mkCdm [ mkVar "t2m" DShort ["x"; "time"] "" None; mkVar "n" DInt [] "" None; mkVar "mask" DUChar ["x"] "" None ]
        [ mkDim "x" 3 false; mkDim "time" 2 true ]
        [ ("_GLOBAL", [mkAttr "title" DString [] "a < b & ""c"""]);
          ("mask", [mkAttr "flags" DUChar [num 1; num 2] ""]);
          ("t2m", [mkAttr "units" DString [] "K"; mkAttr "_FillValue" DShort [num (-9)] ""]) ].
Definition ex_get (n : string) : outcome (list value) :=
  if String.eqb n "n" then Ok [num 7] else if String.eqb n "mask" then Ok [num 1; num 0; num 200] else Ok [].
Definition ex_record (n : string) (i : N) : outcome (list value) := if (i =? 0)%N then Ok [num 10; num (-20); num 30] else Ok [].
Definition ex_src_data (n : string) : outcome (list value) := Ok [].
Definition ex_vars : list cvar :=
  [ mkVar "t2m" DShort ["x"; "time"] "" (Some [num 10; num (-20); num 30; num (-9); num (-9); num (-9)]); mkVar "n" DInt [] "" (Some [num 7]);
    mkVar "mask" DChar ["x"] "" (Some [num 1; num 0; num 200]) ].
Definition ex_mark : cattr := mkAttr "_Unsigned" DString [] "true".
Definition ex_atts (n : string) : list cattr := if String.eqb n "mask" then [mkAttr "flags" DChar [num 1; num 2] ""] else attrs_of ex_c n.
Definition has_none (l : str) (s : string) : bool := forallb (fun x => negb (existsb (Ascii.eqb x) l)) (s_ s).
Lemma has_none_spec l s : has_none l s = true -> forall ch, In ch (s_ s) -> ~ In ch l.
Proof.
  unfold has_none. rewrite forallb_forall. intros H ch I J. specialize (H ch I). rewrite negb_true_iff in H.
  assert (existsb (Ascii.eqb ch) l = true) by (apply existsb_exists; exists ch; split; [ exact J | apply Ascii.eqb_refl ]). congruence.
Qed.
Lemma plain_dec s : has_none ["009"; "010"; "013"]%char s = true -> plain_text s.
Proof. intros H ch I. pose proof (has_none_spec _ _ H ch I) as K. repeat split; intros ->; apply K; cbn; auto. Qed.
Lemma word_dec seps s : negb (String.eqb s "") && has_none seps s = true -> word seps s.
Proof. intro H. apply andb_true_iff in H. destruct H as [A B]. split; [ apply String.eqb_neq; now apply negb_true_iff | exact (has_none_spec _ _ B) ]. Qed.
Ltac wd := apply word_dec; vm_compute; reflexivity.
Ltac pd := apply plain_dec; vm_compute; reflexivity.
Ltac nums := split; [ cbn [map]; repeat (constructor; [ wd | ]); constructor | vm_compute; reflexivity ].
Lemma ex_consistent : consistent ex_c.
Proof.
  constructor.
  - cbn. repeat constructor; cbn; intuition discriminate.
  - cbn. repeat constructor; cbn; intuition discriminate.
  - vm_compute. repeat constructor.
  - intros n I. cbn in I. cbn. intuition.
  - intro n. unfold attrs_of. cbn. repeat (destruct (String.eqb n _); cbn; [ repeat constructor; cbn; intuition discriminate | ]). constructor.
Qed.
Example C89_nonvacuous :
  consistent ex_c /\ Forall dim_ok (dims ex_c) /\ Forall var_ok (vars ex_c) /\ Forall2 (data_ok ex_c ex_get ex_record ex_show ex_parse) (vars ex_c) ex_vars /\
  Forall2 (att_ok ex_show ex_parse) (attrs_of ex_c global_ns) (attrs_of ex_c global_ns) /\ atts_ok ex_c ex_show ex_parse ex_mark ex_atts /\
  (exists a, strings_el "names" ["a b"; ""; "c"] = Ok a /\ ae_sep a = "," /\ split_values (att_value a) (ae_sep a) = Ok ["a b"; ""; "c"]).
Proof.
  split; [ exact ex_consistent | ].
  split. { repeat (constructor; [ split; [ pd | cbn; lia ] | ]). constructor. }
  split. { repeat (constructor; [ split; [ pd | ]; split; [ discriminate | ]; split; [ discriminate | ]; split; [ reflexivity | ]; cbn [v_shape]; repeat (constructor; [ split; [ wd | pd ] | ]); constructor | ]). constructor. }
  split.
  { constructor; [ | constructor; [ | constructor; [ | constructor ] ] ]; (do 4 (split; [ reflexivity | ])).
    - exists [[num 10; num (-20); num 30]; [num (-9); num (-9); num (-9)]]. eexists _, _. split; [ vm_compute; reflexivity | ].
      split; [ repeat constructor; discriminate | ]. split; [ discriminate | ]. split; [ vm_compute; reflexivity | ]. split; [ cbn [concat app]; nums | vm_compute; reflexivity ].
    - exists [[num 7]]. eexists _, _. split; [ vm_compute; reflexivity | ].
      split; [ repeat constructor; discriminate | ]. split; [ discriminate | ]. split; [ vm_compute; reflexivity | ]. split; [ cbn [concat app]; nums | vm_compute; reflexivity ].
    - exists [[num 1; num 0; num 200]]. eexists _, _. split; [ vm_compute; reflexivity | ].
      split; [ repeat constructor; discriminate | ]. split; [ discriminate | ]. split; [ vm_compute; reflexivity | ]. split; [ cbn [concat app]; nums | vm_compute; reflexivity ]. }
  split. { constructor; [ | constructor ]. split; [ pd | ]. split; [ reflexivity | ]. split; [ reflexivity | ]. cbn [a_type]. split; [ discriminate | ]. split; [ pd | reflexivity ]. }
  split.
  { split; [ split; [ reflexivity | split; reflexivity ] | ]. intros v I. cbn in I. destruct I as [ <- | [ <- | [ <- | [] ] ] ]; cbn [v_name v_type is_unsigned].
    - split; [ | discriminate ]. constructor; [ | constructor; [ | constructor ] ]; (split; [ pd | ]; split; [ reflexivity | ]; split; [ reflexivity | ]; cbn [a_type]; split; [ discriminate | ]).
      + split; [ pd | reflexivity ].
      + nums.
    - split; [ constructor | discriminate ].
    - split; [ | intros _; cbn; intuition discriminate ]. constructor; [ | constructor ]. split; [ pd | ]. split; [ reflexivity | ]. split; [ reflexivity | ]. cbn [a_type]. split; [ discriminate | nums ]. }
  eexists. split; [ vm_compute; reflexivity | ]. split; vm_compute; reflexivity.
Qed.

(** the document is written and read *)
Definition through (c : cdm) (with_data : bool) : outcome cdm :=
  do d <- write_doc c ex_get ex_record ex_show with_data; do s <- init empty ex_src_data ex_parse ex_number d; Ok (n_cdm s).
Definition one_var (v : cvar) (ds : list cdim) (l : list cattr) : cdm := mkCdm [v] ds [(v_name v, l)].
Definition nl : string := String "010" "".
(** Finding: line ends and tabs in attributes are written as they are, so that a parser delivers spaces. *)
Theorem C89_line_end_refuted : through (one_var (mkVar "n" DInt [] "" None) [] [mkAttr "history" DString [] ("one" ++ nl ++ "two")%string]) false =
  Ok (one_var (mkVar "n" DInt [] "" (Some [])) [] [mkAttr "history" DString [] "one two"]).
Proof. vm_compute. reflexivity. Qed.
(** Finding: an attribute with an empty text is written and ignored by the reader. *)
Theorem C89_empty_refuted : exists c', through (one_var (mkVar "n" DInt [] "" None) [] [mkAttr "note" DString [] ""]) false = Ok c' /\ attrs_of c' "n" = [].
Proof. eexists. split; [ vm_compute; reflexivity | vm_compute; reflexivity ]. Qed.
(** Finding: the types without sign are read as those with sign; the mark that is written is kept as an
    attribute and not acted upon. *)
Theorem C89_unsigned_refuted : through (one_var (mkVar "n" DUChar [] "" None) [] []) false =
  Ok (one_var (mkVar "n" DChar [] "" (Some [])) [] [mkAttr "_Unsigned" DString [] "true"]).
Proof. vm_compute. reflexivity. Qed.
(** Finding: with its data, a file whose unlimited dimension is empty is written as a document that the
    reader refuses. *)
Theorem C89_no_records_refuted :
  exists d, write_doc (one_var (mkVar "t" DInt ["time"] "" None) [mkDim "time" 0 true] []) ex_get ex_record ex_show true = Ok d /\ init empty ex_src_data ex_parse ex_number d = Throw.
Proof. eexists. split; [ vm_compute; reflexivity | vm_compute; reflexivity ]. Qed.
(** Finding: so is a file with a dimension of 2^31 positions, even without data. *)
Theorem C89_long_refuted :
  exists d, write_doc (mkCdm [] [mkDim "x" (2 ^ 31) false] []) ex_get ex_record ex_show false = Ok d /\ init empty ex_src_data ex_parse ex_number d = Throw.
Proof. eexists. split; [ vm_compute; reflexivity | vm_compute; reflexivity ]. Qed.
(** Finding: the name of a vector's other component is not written. *)
Theorem C89_counterpart_refuted : exists c', through (one_var (mkVar "n" DInt [] "v" None) [] []) true = Ok c' /\ map v_counterpart (vars c') = [""].
Proof. eexists. split; [ vm_compute; reflexivity | vm_compute; reflexivity ]. Qed.
(** Finding: a dimension whose name holds a space is read as two dimensions in the shapes. *)
Theorem C89_shape_refuted : exists c', through (one_var (mkVar "n" DInt ["x y"] "" None) [mkDim "x y" 3 false] []) false = Ok c' /\
  map v_shape (vars c') = [["y"; "x"]] /\ map d_name (dims c') = ["x y"].
Proof. eexists. split; [ vm_compute; reflexivity | vm_compute; auto ]. Qed.
(** Finding: strings without spaces are written with spaces between them and no separator named; the reader
    also splits them at commas, and drops empty strings. *)
Theorem C89_comma_refuted : exists a b, strings_el "names" ["a,b"; "c"] = Ok a /\ split_values (att_value a) (ae_sep a) = Ok ["a"; "b"; "c"] /\
  strings_el "names" ["a"; ""; "c"] = Ok b /\ split_values (att_value b) (ae_sep b) = Ok ["a"; "c"].
Proof. do 2 eexists. split; [ vm_compute; reflexivity | ]. split; [ vm_compute; reflexivity | ]. split; vm_compute; reflexivity. Qed.
(** Finding: a separator that no string holds can still begin inside a string. *)
Theorem C89_marker_refuted : exists a, strings_el "names" ["x |,#---NEXT-NCML-STRING"; "c"] = Ok a /\ ae_sep a = marker /\
  split_values (att_value a) (ae_sep a) = Ok ["x |,#"; "NEXT-NCML-STRING---c"].
Proof. eexists. split; [ vm_compute; reflexivity | ]. split; vm_compute; reflexivity. Qed.

Print Assumptions C89_escaped.
Print Assumptions C89_with_data.
Print Assumptions C89_without_data.
Print Assumptions C89_unchanged.
Print Assumptions C89_separator.
Print Assumptions C89_strings.
Print Assumptions C89_line_end_refuted.
Print Assumptions C89_empty_refuted.
Print Assumptions C89_unsigned_refuted.
Print Assumptions C89_no_records_refuted.
Print Assumptions C89_long_refuted.
Print Assumptions C89_counterpart_refuted.
Print Assumptions C89_shape_refuted.
Print Assumptions C89_comma_refuted.
Print Assumptions C89_marker_refuted.
