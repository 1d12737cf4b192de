(** Lemmas for C96: texts of words, the words written for a projection, and the parameters read from them. *)
From Coq Require Import PeanoNat NArith ZArith QArith Qcanon Ascii String List Bool Lia.
From Verif Require Import Base StdMap SliceModel RegridModel StringModel StringProofs TextModel SpecModel ConvertModel CdmModel NmlModel CfvertProps ProjModel ProjProps.
Import ListNotations.
Local Open Scope string_scope.
Local Open Scope list_scope.
Local Open Scope nat_scope.

(** the number of a parameter *)
Definition value_of (ps : list cattr) (n : string) : option value := match param ps n with Some a => hd_error (a_nums a) | None => None end.
(** the axes of the earth, as far as no flattening is given *)
Definition figure (ps : list cattr) : value * value :=
  match value_of ps "earth_radius", value_of ps "semi_major_axis", value_of ps "semi_minor_axis" with
  | Some r, _, _ => (r, r)
  | None, Some a, Some b => (a, b)
  | None, Some a, None => (a, a)
  | None, None, _ => (Some (z2q 6371000), Some (z2q 6371000))
  end.
Definition shift_of (ps : list cattr) : option (list value) := option_map a_nums (param ps "towgs84").

Section Trip.
Variable num : str -> outcome value.
Variable strtod : str -> value.
Variable dotted : str -> outcome (list value).
Variable show16 show6 : value -> str.
Variable minor_of : value -> value -> value.

(** written and read without change *)
Definition exact (x : value) : Prop := num (show16 x) = Ok x /\ strtod (show16 x) = x /\ clean (show16 x).
Definition exact6 (x : value) : Prop := num (show6 x) = Ok x /\ clean (show6 x).
(** no such parameter, or one number *)
Definition plain (ps : list cattr) (n : string) : Prop :=
  match param ps n with None => True | Some a => CdmModel.a_type a <> DString /\ exists x, a_nums a = [x] /\ exact x end.
Definition shift_ok (ps : list cattr) : Prop :=
  match param ps "towgs84" with
  | None => True
  | Some a => CdmModel.a_type a <> DString /\ clean (join (map show16 (a_nums a)) (s_ ",")) /\ dotted (join (map show16 (a_nums a)) (s_ ",")) = Ok (a_nums a) /\
              (length (a_nums a) = 3 \/ length (a_nums a) = 6 \/ length (a_nums a) = 7)
  end.
Definition earth_ok (ps : list cattr) : Prop :=
  (forall n, In n ["false_easting"; "false_northing"; "earth_radius"; "semi_major_axis"; "semi_minor_axis"] -> plain ps n) /\
  param ps "inverse_flattening" = None /\ shift_ok ps /\
  (param ps "earth_radius" = None -> param ps "semi_major_axis" = None -> exact6 (Some (z2q 6371000))).

Definition oe (ps : list cattr) (n k : string) : list word := match value_of ps n with Some x => [(1, s_ k, Some (show16 x))] | None => [] end.
Lemma text_app a b : text (a ++ b) = text a ++ text b.
Proof. unfold text. now rewrite map_app, concat_app. Qed.
Lemma s_append a b : s_ (a ++ b)%string = s_ a ++ s_ b.
Proof. unfold s_. induction a as [|x a IH]; cbn [String.append list_ascii_of_string app]; [reflexivity|]. now rewrite IH. Qed.
Lemma put_word ps n k : plain ps n -> put show16 ps n (" +" ++ k ++ "=") = text (oe ps n k).
Proof.
  unfold plain, put, put_opt, oe, value_of. destruct (param ps n) as [a|]; [|reflexivity]. intros (T & x & E & _). rewrite E. cbn [hd_error map join].
  replace (match CdmModel.a_type a with DString => _ | _ => _ end) with (Some (s_ (" +" ++ k ++ "=")%string ++ join [show16 x] (s_ ","))) by (now destruct (CdmModel.a_type a)).
  unfold text. cbn [map concat render repeat app]. rewrite app_nil_r, !s_append. cbn [app s_ list_ascii_of_string]. rewrite <- app_assoc. reflexivity.
Qed.
Lemma put_opt_word ps n k : plain ps n -> put_opt show16 ps n (" +" ++ k ++ "=") = match value_of ps n with Some _ => Some (text (oe ps n k)) | None => None end.
Proof.
  intro H. pose proof (put_word ps n k H) as W. unfold put in W. unfold plain in H. unfold put_opt, value_of in *. destruct (param ps n) as [a|]; [|reflexivity]. destruct H as (T & x & E & _). rewrite E in *. cbn [hd_error].
  destruct (CdmModel.a_type a); try contradiction; now rewrite <- W.
Qed.
Lemma plain_exact ps n x : plain ps n -> value_of ps n = Some x -> exact x.
Proof. unfold plain, value_of. destruct (param ps n) as [a|]; [|discriminate]. intros (_ & y & E & X) V. rewrite E in V. now injection V as <-. Qed.

Definition shift_words (ps : list cattr) : list word :=
  match param ps "towgs84" with Some a => [(1, s_ "towgs84", Some (join (map show16 (a_nums a)) (s_ ",")))] | None => [] end.
Definition axes_words (ps : list cattr) : list word :=
  match value_of ps "earth_radius", value_of ps "semi_major_axis", value_of ps "semi_minor_axis" with
  | Some r, _, _ => [(2, s_ "a", Some (show16 r)); (1, s_ "e", Some (s_ "0"))]
  | None, Some a, Some b => [(2, s_ "a", Some (show16 a)); (2, s_ "b", Some (show16 b))]
  | None, Some a, None => [(2, s_ "a", Some (show16 a)); (2, s_ "e", Some (s_ "0"))]
  | None, None, _ => [(2, s_ "a", Some (show6 (Some (z2q 6371000)))); (1, s_ "e", Some (s_ "0"))]
  end.
Definition tail_words (ps : list cattr) : list word :=
  oe ps "false_easting" "x_0" ++ oe ps "false_northing" "y_0" ++ axes_words ps ++ shift_words ps ++ [(1, s_ "no_defs", None)].

Ltac rw H := let X := fresh in pose proof H as X; cbn [String.append] in X; rewrite X; clear X.
Lemma put_shift ps : shift_ok ps -> put show16 ps "towgs84" " +towgs84=" = text (shift_words ps).
Proof.
  unfold shift_ok, put, put_opt, shift_words. destruct (param ps "towgs84") as [a|]; [|reflexivity]. intros (T & _ & _ & L). destruct (a_nums a) as [|x l] eqn:E; [cbn in L; lia|].
  replace (match CdmModel.a_type a with DString => _ | _ => _ end) with (Some (s_ (" +towgs84=")%string ++ join (map show16 (x :: l)) (s_ ","))) by (now destruct (CdmModel.a_type a)).
  unfold text. cbn [map concat render repeat app]. rewrite app_nil_r. reflexivity.
Qed.
Lemma earth_words ps : earth_ok ps -> s_ " " ++ earth_text show16 show6 ps = text (axes_words ps ++ shift_words ps).
Proof. clear minor_of.
  intros (P & F & S & D). unfold earth_text, axes_words. rewrite put_shift by exact S. rewrite text_app.
  rw (put_opt_word ps "earth_radius" "a" ltac:(apply P; cbn; tauto)). rw (put_opt_word ps "semi_major_axis" "a" ltac:(apply P; cbn; tauto)).
  rw (put_opt_word ps "semi_minor_axis" "b" ltac:(apply P; cbn; tauto)). rw (put_word ps "semi_minor_axis" "b" ltac:(apply P; cbn; tauto)).
  unfold flattening. rewrite F. replace (qlt 0 (z2q (-1))) with false by reflexivity. unfold oe.
  destruct (value_of ps "earth_radius") as [r|]; [|destruct (value_of ps "semi_major_axis") as [a|]; [destruct (value_of ps "semi_minor_axis") as [b|]|]];
    unfold text; cbn [map concat render repeat app s_ list_ascii_of_string]; rewrite ?app_nil_r, <- ?app_assoc; cbn [app]; rewrite <- ?app_assoc; reflexivity.
Qed.
Lemma tail_text ps : earth_ok ps ->
  put show16 ps "false_easting" " +x_0=" ++ put show16 ps "false_northing" " +y_0=" ++ s_ " " ++ earth_text show16 show6 ps ++ s_ " +no_defs" = text (tail_words ps).
Proof. clear minor_of.
  intro E. unfold tail_words. rewrite !text_app. rw (put_word ps "false_easting" "x_0" ltac:(apply E; cbn; tauto)). rw (put_word ps "false_northing" "y_0" ltac:(apply E; cbn; tauto)).
  rewrite app_assoc with (l := s_ " "). rewrite earth_words by exact E. rewrite text_app, <- !app_assoc. reflexivity.
Qed.

(** the words are well formed *)
Ltac name := let X := fresh "X" in let x := fresh "x" in
  split; [|split]; [intro X; cbn in X; intuition discriminate|intros x X; cbn in X; intuition (subst; reflexivity)|intro X; cbn in X; intuition discriminate].
Lemma oe_ok ps n k : plain ps n -> word_name (s_ k) -> Forall word_ok (oe ps n k).
Proof. clear minor_of.
  intros P N. unfold oe. destruct (value_of ps n) as [x|] eqn:V; [|constructor]. apply plain_exact in V; [|exact P]. destruct V as (_ & _ & V). repeat constructor; try apply N; apply V.
Qed.
Lemma oe_parted ps n k w : In w (oe ps n k) -> 0 < fst (fst w).
Proof. clear num strtod dotted show6 minor_of. unfold oe. destruct (value_of ps n); [|intros []]. intros [<-|[]]. cbn. lia. Qed.
Lemma zero_clean : clean (s_ "0").
Proof. clear num strtod dotted show16 show6 minor_of. split; [|intros [X|[]]; discriminate]. split; [discriminate|]. split; [intros [X|[]]; discriminate|]. intros x [<-|[]]; reflexivity. Qed.
Lemma tail_ok ps : earth_ok ps -> Forall word_ok (tail_words ps).
Proof. clear minor_of.
  intros (P & F & S & D). unfold tail_words. apply Forall_app. split; [apply oe_ok; [apply P; cbn; tauto|name]|]. apply Forall_app. split; [apply oe_ok; [apply P; cbn; tauto|name]|].
  apply Forall_app. split; [|apply Forall_app; split].
  - unfold axes_words. destruct (value_of ps "earth_radius") as [r|] eqn:R; [|destruct (value_of ps "semi_major_axis") as [a|] eqn:A; [destruct (value_of ps "semi_minor_axis") as [b|] eqn:B|]].
    + apply plain_exact in R; [|apply P; cbn; tauto]. constructor; [split; [name|apply R]|]. constructor; [split; [name|apply zero_clean]|constructor].
    + apply plain_exact in A; [|apply P; cbn; tauto]. apply plain_exact in B; [|apply P; cbn; tauto]. constructor; [split; [name|apply A]|]. constructor; [split; [name|apply B]|constructor].
    + apply plain_exact in A; [|apply P; cbn; tauto]. constructor; [split; [name|apply A]|]. constructor; [split; [name|apply zero_clean]|constructor].
    + assert (N : forall n, plain ps n -> value_of ps n = None -> param ps n = None).
      { intros n Pn V. unfold plain, value_of in *. destruct (param ps n); [|reflexivity]. destruct Pn as (_ & x & E & _). now rewrite E in V. }
      constructor; [split; [name|apply D; apply N; try assumption; apply P; cbn; tauto]|]. constructor; [split; [name|apply zero_clean]|constructor].
  - unfold shift_words, shift_ok in *. destruct (param ps "towgs84"); [|constructor]. constructor; [split; [name|apply S]|constructor].
  - constructor; [split; [name|exact I]|constructor].
Qed.
Lemma tail_parted ps w : In w (tail_words ps) -> 0 < fst (fst w).
Proof. clear num strtod dotted minor_of.
  unfold tail_words. rewrite !in_app_iff. intros [H|[H|[H|[H|[<-|[]]]]]]; [now apply oe_parted in H|now apply oe_parted in H| | |cbn; lia].
  - unfold axes_words in H. destruct (value_of ps "earth_radius"); [|destruct (value_of ps "semi_major_axis"); [destruct (value_of ps "semi_minor_axis")|]]; destruct H as [<-|[<-|[]]]; cbn; lia.
  - unfold shift_words in H. destruct (param ps "towgs84"); [|destruct H]. destruct H as [<-|[]]. cbn. lia.
Qed.

(** looking words up *)
Lemma lookup_app ks a b : lookup ks (a ++ b) = match lookup ks a with Some v => Some v | None => lookup ks b end.
Proof. induction a as [|[[n k] [v|]] a IH]; cbn [app lookup]; [reflexivity| |exact IH]. destruct (existsb _ ks); [reflexivity|exact IH]. Qed.
Lemma lookup_oe ks ps n k : lookup ks (oe ps n k) = if existsb (str_eqb (s_ k)) ks then option_map show16 (value_of ps n) else None.
Proof. unfold oe. destruct (value_of ps n); cbn [lookup option_map]; destruct (existsb _ ks); reflexivity. Qed.
Definition tail_keys : list str := map s_ ["x_0"; "y_0"; "a"; "R"; "e"; "b"; "towgs84"; "no_defs"; "ellps"; "datum"].
Lemma lookup_tail_none ks ps : (forall k, In k ks -> ~ In k tail_keys) -> lookup ks (tail_words ps) = None.
Proof. clear num strtod dotted minor_of.
  intro H. assert (N : forall k, In k tail_keys -> existsb (str_eqb k) ks = false).
  { intros k I. apply not_true_iff_false. intro X. apply existsb_exists in X as (k' & I' & E). apply str_eqb_eq in E as <-. now apply (H k). }
  unfold tail_words, axes_words, shift_words. rewrite !lookup_app, !lookup_oe, !N by (cbn; tauto).
  destruct (value_of ps "earth_radius"); [|destruct (value_of ps "semi_major_axis"); [destruct (value_of ps "semi_minor_axis")|]]; destruct (param ps "towgs84"); cbn [lookup]; rewrite ?N by (cbn; tauto); reflexivity.
Qed.

(** ** reading *)

Definition good (l : list word) : Prop := Forall word_ok l /\ parted l.
Lemma key_text k l : good l -> word_name (s_ k) -> key k (text l) = lookup [s_ k] l.
Proof.
  intros (O & P) N. unfold key. rewrite <- search_text; [|intros k' [<-|[]]; exact N|exact O|exact P]. cbn [map plus]. unfold plus. rewrite !s_append. reflexivity.
Qed.
Lemma opt_text k n l v : good l -> word_name (s_ k) -> lookup [s_ k] l = option_map show16 v -> (forall x, v = Some x -> exact x) ->
  opt num k n (text l) = Ok (match v with Some x => [dbl n x] | None => [] end).
Proof. intros G N L E. unfold opt. rewrite key_text, L by assumption. destruct v as [x|]; cbn [option_map]; [|reflexivity]. destruct (E x eq_refl) as (-> & _). reflexivity. Qed.
Lemma dflt_text k n l v : good l -> word_name (s_ k) -> lookup [s_ k] l = option_map show16 v -> (forall x, v = Some x -> exact x) ->
  dflt num k n (text l) = Ok [dbl n (match v with Some x => x | None => Some 0%Qc end)].
Proof. intros G N L E. unfold dflt. rewrite key_text, L by assumption. destruct v as [x|]; cbn [option_map]; [|reflexivity]. destruct (E x eq_refl) as (-> & _). reflexivity. Qed.

Definition some_att (ps : list cattr) (n : string) : list cattr := match value_of ps n with Some x => [dbl n x] | None => [] end.
Definition axes_of (ps : list cattr) : list cattr :=
  match value_of ps "earth_radius", value_of ps "semi_major_axis", value_of ps "semi_minor_axis" with
  | Some r, _, _ => [dbl "semi_major_axis" r; dbl "earth_radius" r]
  | None, Some a, Some b => [dbl "semi_major_axis" a; dbl "semi_major_axis" a; dbl "semi_minor_axis" b]
  | None, Some a, None => [dbl "semi_major_axis" a; dbl "earth_radius" a]
  | None, None, _ => [dbl "semi_major_axis" (Some (z2q 6371000)); dbl "earth_radius" (Some (z2q 6371000))]
  end.
Definition shift_atts (ps : list cattr) : list cattr := match param ps "towgs84" with Some a => [mkAttr "towgs84" DDouble (a_nums a) ""] | None => [] end.
Definition earth_atts (ps : list cattr) : list cattr := some_att ps "false_easting" ++ some_att ps "false_northing" ++ axes_of ps ++ shift_atts ps.

Lemma resized_same l : length l = 3 \/ length l = 6 \/ length l = 7 -> resized l = l.
Proof. clear num strtod dotted show16 show6 minor_of.
  unfold resized. intros [E|[E|E]]; rewrite E; cbn [Nat.leb]; rewrite firstn_app, E, firstn_all2 by lia; rewrite Nat.sub_diag; cbn [firstn]; apply app_nil_r.
Qed.
Definition foreign_words (h : list word) : Prop := forall w, In w h -> ~ In (snd (fst w)) tail_keys.
Lemma lookup_foreign ks h t : foreign_words h -> (forall k, In k ks -> In k tail_keys) -> lookup ks (h ++ t) = lookup ks t.
Proof. clear num strtod dotted show16 show6 minor_of.
  intros F K. rewrite lookup_app. replace (lookup ks h) with (@None str); [reflexivity|]. symmetry. induction h as [|[[n k] [v|]] h IH]; cbn [lookup]; [reflexivity| |apply IH; intros w I; apply F; now right].
  replace (existsb (str_eqb k) ks) with false; [apply IH; intros w I; apply F; now right|]. symmetry. apply not_true_iff_false. intro X. apply existsb_exists in X as (k' & I & E). apply str_eqb_eq in E as <-.
  apply (F _ (or_introl eq_refl)). now apply K.
Qed.
Lemma earth_back ps h : earth_ok ps -> good (h ++ tail_words ps) -> foreign_words h -> earth num dotted minor_of (text (h ++ tail_words ps)) = Ok (earth_atts ps).
Proof.
  intros (P & F & S & D) G FW. unfold earth. cbn [all].
  rewrite (opt_text "x_0" "false_easting" _ (value_of ps "false_easting") G); [|name| |].
  2: { rewrite lookup_foreign by (try exact FW; intros k [<-|[]]; cbn; tauto). unfold tail_words. rewrite lookup_app, lookup_oe. replace (existsb _ _) with true by reflexivity.
       destruct (value_of ps "false_easting"); [reflexivity|]. cbn [option_map]. rewrite lookup_app, lookup_oe. replace (existsb _ _) with false by reflexivity. rewrite lookup_app.
       unfold axes_words, shift_words. destruct (value_of ps "earth_radius"); [|destruct (value_of ps "semi_major_axis"); [destruct (value_of ps "semi_minor_axis")|]]; destruct (param ps "towgs84"); reflexivity. }
  2: { intros x V. apply plain_exact in V; [exact V|]. apply P. cbn. tauto. }
  rewrite (opt_text "y_0" "false_northing" _ (value_of ps "false_northing") G); [|name| |].
  2: { rewrite lookup_foreign by (try exact FW; intros k [<-|[]]; cbn; tauto). unfold tail_words. rewrite lookup_app, lookup_oe. replace (existsb _ _) with false by reflexivity.
       rewrite lookup_app, lookup_oe. replace (existsb _ _) with true by reflexivity. destruct (value_of ps "false_northing"); [reflexivity|]. cbn [option_map]. rewrite lookup_app.
       unfold axes_words, shift_words. destruct (value_of ps "earth_radius"); [|destruct (value_of ps "semi_major_axis"); [destruct (value_of ps "semi_minor_axis")|]]; destruct (param ps "towgs84"); reflexivity. }
  2: { intros x V. apply plain_exact in V; [exact V|]. apply P. cbn. tauto. }
  cbn [obind].
  assert (K : forall k, In k ["e"; "b"; "ellps"; "datum"; "towgs84"] -> key k (text (h ++ tail_words ps)) = lookup [s_ k] (axes_words ps ++ shift_words ps)).
  { intros k I. rewrite key_text; [|exact G|cbn in I; intuition (subst; name)]. rewrite lookup_foreign; [|exact FW|intros k' [<-|[]]; cbn in I; intuition (subst; cbn; tauto)].
    unfold tail_words. rewrite lookup_app, lookup_oe, lookup_app, lookup_oe. replace (existsb (str_eqb (s_ "x_0")) [s_ k]) with false by (cbn in I; intuition (subst; reflexivity)).
    replace (existsb (str_eqb (s_ "y_0")) [s_ k]) with false by (cbn in I; intuition (subst; reflexivity)). rewrite !lookup_app. cbn [lookup]. now destruct (lookup [s_ k] (axes_words ps)), (lookup [s_ k] (shift_words ps)). }
  assert (A : axes_att num minor_of (text (h ++ tail_words ps)) = Ok (axes_of ps)).
  { unfold axes_att. change [s_ "+a="; s_ "+R="] with (map plus [s_ "a"; s_ "R"]). rewrite search_text; [|intros k [<-|[<-|[]]]; name|apply G|apply G].
    rewrite lookup_foreign by (try exact FW; intros k [<-|[<-|[]]]; cbn; tauto). rewrite (K "e"), (K "b") by (cbn; tauto). unfold tail_words. rewrite lookup_app, lookup_oe, lookup_app, lookup_oe.
    replace (existsb (str_eqb (s_ "x_0")) _) with false by reflexivity. replace (existsb (str_eqb (s_ "y_0")) _) with false by reflexivity.
    assert (SH : forall k, In k ["e"; "b"] -> lookup [s_ k] (shift_words ps) = None).
    { intros k I. unfold shift_words. destruct (param ps "towgs84"); [|reflexivity]. cbn in I. intuition (subst; reflexivity). }
    rewrite !lookup_app, !SH by (cbn; tauto). unfold axes_words, axes_of.
    destruct (value_of ps "earth_radius") as [r|] eqn:R; [|destruct (value_of ps "semi_major_axis") as [a|] eqn:Ax; [destruct (value_of ps "semi_minor_axis") as [b|] eqn:B|]].
    - apply plain_exact in R; [|apply P; cbn; tauto]. destruct R as (R & _). cbn. rewrite R. reflexivity.
    - apply plain_exact in Ax; [|apply P; cbn; tauto]. apply plain_exact in B; [|apply P; cbn; tauto]. destruct Ax as (Ax & _). destruct B as (B & _). cbn. rewrite Ax, B. reflexivity.
    - apply plain_exact in Ax; [|apply P; cbn; tauto]. destruct Ax as (Ax & _). cbn. rewrite Ax. reflexivity.
    - assert (N : forall n, plain ps n -> value_of ps n = None -> param ps n = None).
      { intros n Pn V. unfold plain, value_of in *. destruct (param ps n); [|reflexivity]. destruct Pn as (_ & x & E & _). now rewrite E in V. }
      destruct D as (X & _); [apply N; [apply P; cbn; tauto|assumption]..|]. cbn [lookup existsb orb]. replace (str_eqb (s_ "a") (s_ "a")) with true by reflexivity. cbn [orb]. rewrite X. reflexivity. }
  rewrite A. cbn [obind]. unfold ellipsoid_att. rewrite (K "ellps"), (K "datum") by (cbn; tauto).
  assert (NE : forall k, In k ["ellps"; "datum"] -> lookup [s_ k] (axes_words ps ++ shift_words ps) = None).
  { intros k I. rewrite lookup_app. unfold axes_words, shift_words. destruct (value_of ps "earth_radius"); [|destruct (value_of ps "semi_major_axis"); [destruct (value_of ps "semi_minor_axis")|]];
      destruct (param ps "towgs84"); cbn in I; intuition (subst; reflexivity). }
  rewrite !NE by (cbn; tauto). cbn [obind].
  assert (T : towgs_att dotted (text (h ++ tail_words ps)) = Ok (shift_atts ps)).
  { unfold towgs_att. rewrite (K "towgs84"), (K "datum") by (cbn; tauto). rewrite (NE "datum") by (cbn; tauto). rewrite lookup_app.
    replace (lookup [s_ "towgs84"] (axes_words ps)) with (@None str) by (unfold axes_words; destruct (value_of ps "earth_radius"); [|destruct (value_of ps "semi_major_axis"); [destruct (value_of ps "semi_minor_axis")|]]; reflexivity).
    unfold shift_words, shift_atts, shift_ok in *. destruct (param ps "towgs84") as [a|]; [|reflexivity]. destruct S as (_ & _ & S & L). cbn [lookup existsb]. replace (str_eqb (s_ "towgs84") (s_ "towgs84")) with true by reflexivity. cbn [orb].
    rewrite S. cbn [obind]. now rewrite resized_same. }
  rewrite T. cbn [obind]. unfold earth_atts, some_att. rewrite app_nil_r. cbn [app]. reflexivity.
Qed.

(** ** the parameters that come back *)

Definition earth_names : list string := ["false_easting"; "false_northing"; "semi_major_axis"; "semi_minor_axis"; "inverse_flattening"; "earth_radius"; "towgs84"].
Definition foreign (l : list cattr) : Prop := forall a, In a l -> ~ In (aname a) earth_names.
Lemma last_named_app a b n : last_named (a ++ b) n = match last_named b n with Some x => Some x | None => last_named a n end.
Proof. unfold last_named. rewrite rev_app_distr. induction (rev b) as [|x r IH]; cbn [app find]; [reflexivity|]. now destruct (String.eqb n (aname x)). Qed.
Lemma last_foreign l n : foreign l -> In n earth_names -> last_named l n = None.
Proof. clear num strtod dotted show16 show6 minor_of.
  intros F I. unfold last_named. destruct (find _ (rev l)) as [a|] eqn:E; [|reflexivity]. apply find_some in E as (Ia & E). apply String.eqb_eq in E as ->. apply in_rev in Ia. now destruct (F a Ia).
Qed.
Lemma earth_atts_names ps a : In a (earth_atts ps) -> In (aname a) earth_names.
Proof. clear num strtod dotted show16 show6 minor_of.
  unfold earth_atts. rewrite !in_app_iff. intros [I|[I|[I|I]]].
  - unfold some_att in I. destruct (value_of ps "false_easting"); [|destruct I]. destruct I as [<-|[]]. now left.
  - unfold some_att in I. destruct (value_of ps "false_northing"); [|destruct I]. destruct I as [<-|[]]. right. now left.
  - unfold axes_of in I. destruct (value_of ps "earth_radius"); [|destruct (value_of ps "semi_major_axis"); [destruct (value_of ps "semi_minor_axis")|]];
      cbn [In] in I; decompose [or] I; try contradiction; subst a; cbn; tauto.
  - unfold shift_atts in I. destruct (param ps "towgs84"); [|destruct I]. destruct I as [<-|[]]. cbn. tauto.
Qed.
Lemma last_earth ps n : ~ In n earth_names -> last_named (earth_atts ps) n = None.
Proof. clear num strtod dotted show16 show6 minor_of.
  intro H. unfold last_named. destruct (find _ _) as [a|] eqn:E; [|reflexivity]. apply find_some in E as (Ia & E). apply String.eqb_eq in E as ->. apply in_rev in Ia. destruct H. now apply earth_atts_names in Ia.
Qed.
Lemma since_foreign l : foreign l -> since_radius l = l.
Proof. clear num strtod dotted show16 show6 minor_of.
  induction l as [|a l IH] using rev_ind; intro F; [reflexivity|]. rewrite since_app. destruct (String.eqb_spec (aname a) "earth_radius") as [E|E].
  - destruct (F a); [apply in_or_app; right; now left|]. rewrite E. cbn. tauto.
  - rewrite IH; [reflexivity|]. intros b I. apply F. apply in_or_app. now left.
Qed.
Lemma figure_back l ps ps' : foreign l -> params_of (l ++ earth_atts ps) ps' ->
  (forall n, In n ["false_easting"; "false_northing"] -> value_of ps' n = value_of ps n) /\ figure ps' = figure ps /\ shift_of ps' = shift_of ps /\
  (forall n, ~ In n earth_names -> param ps' n = last_named l n).
Proof. clear num strtod dotted show16 show6 minor_of.
  intros F (N & P1 & P2 & P3). split; [|split; [|split]].
  - intros n I. unfold value_of at 1. rewrite P1; [|cbn in I; intuition (subst; discriminate)|intros [X|[X|X]]; subst; cbn in I; intuition discriminate].
    rewrite last_named_app. rewrite (last_foreign l) by (try exact F; cbn in *; tauto). unfold earth_atts, some_att, axes_of, shift_atts.
    destruct (value_of ps "earth_radius"), (value_of ps "semi_major_axis"), (value_of ps "semi_minor_axis"), (param ps "towgs84"), (value_of ps "false_easting") eqn:V1, (value_of ps "false_northing") eqn:V2;
      cbn in I; destruct I as [<-|[<-|[]]]; rewrite ?V1, ?V2; reflexivity.
  - assert (SR : since_radius (l ++ earth_atts ps) = match value_of ps "earth_radius", value_of ps "semi_major_axis", value_of ps "semi_minor_axis" with None, Some _, Some _ => l ++ earth_atts ps | _, _, _ => shift_atts ps end).
    { unfold since_radius. rewrite fold_left_app. fold (since_radius l). rewrite since_foreign by exact F. unfold earth_atts, some_att, axes_of, shift_atts.
      destruct (value_of ps "earth_radius"), (value_of ps "semi_major_axis"), (value_of ps "semi_minor_axis"), (param ps "towgs84"), (value_of ps "false_easting"), (value_of ps "false_northing");
        cbn; rewrite <- ?app_assoc; reflexivity. }
    assert (LE : last_named (l ++ earth_atts ps) "earth_radius" = last_named (earth_atts ps) "earth_radius").
    { rewrite last_named_app, (last_foreign l) by (try exact F; cbn; tauto). now destruct (last_named (earth_atts ps) "earth_radius"). }
    assert (LS : forall n, is_semi n -> last_named (l ++ earth_atts ps) n = last_named (earth_atts ps) n).
    { intros n S. rewrite last_named_app, (last_foreign l) by (try exact F; destruct S as [->|[->| ->]]; cbn; tauto). now destruct (last_named (earth_atts ps) n). }
    assert (V1 : value_of ps' "earth_radius" = match value_of ps "earth_radius", value_of ps "semi_major_axis", value_of ps "semi_minor_axis" with
       | Some r, _, _ => Some r | None, Some a, None => Some a | None, Some a, Some b => None | None, None, _ => Some (Some (z2q 6371000)) end).
    { unfold value_of at 1. rewrite P3, SR, LE. unfold earth_atts, some_att, axes_of.
      destruct (value_of ps "earth_radius"), (value_of ps "semi_major_axis"), (value_of ps "semi_minor_axis"); rewrite ?existsb_app; unfold shift_atts;
        destruct (param ps "towgs84"), (value_of ps "false_easting"), (value_of ps "false_northing"); cbn; rewrite ?orb_true_r; reflexivity. }
    unfold figure. rewrite V1. destruct (value_of ps "earth_radius") eqn:R; [reflexivity|]. destruct (value_of ps "semi_major_axis") eqn:A; [|reflexivity]. destruct (value_of ps "semi_minor_axis") eqn:B; [|reflexivity].
    unfold value_of at 1 2. rewrite !P2 by (unfold is_semi; tauto). rewrite SR, !LS by (unfold is_semi; tauto). unfold earth_atts, some_att, axes_of. rewrite R, A, B. unfold shift_atts.
    destruct (param ps "towgs84"), (value_of ps "false_easting"), (value_of ps "false_northing"); reflexivity.
  - unfold shift_of. rewrite P1; [|discriminate|intros [X|[X|X]]; discriminate]. rewrite last_named_app, (last_foreign l) by (try exact F; cbn; tauto). unfold earth_atts, some_att, axes_of, shift_atts.
    destruct (value_of ps "earth_radius"), (value_of ps "semi_major_axis"), (value_of ps "semi_minor_axis"), (value_of ps "false_easting"), (value_of ps "false_northing"), (param ps "towgs84"); reflexivity.
  - intros n H. rewrite P1, last_named_app, last_earth; [reflexivity|exact H|intros ->; apply H; cbn; tauto|intros [->|[->| ->]]; apply H; cbn; tauto].
Qed.
Lemma create_named k l ps0 : foreign l -> (forall a, In a l -> aname a <> "grid_mapping_name") -> exists ps',
  create ((text_att "grid_mapping_name" (cf_name k) :: l) ++ earth_atts ps0) = Ok (k, ps') /\ params_of ((text_att "grid_mapping_name" (cf_name k) :: l) ++ earth_atts ps0) ps'.
Proof. clear num strtod dotted show16 show6 minor_of.
  intros F G. unfold create. cbn [app param find]. unfold param. cbn [find]. replace (String.eqb "grid_mapping_name" _) with true by reflexivity. cbn [a_text text_att].
  rewrite (proj2 (kind_named_spec (cf_name k) k) eq_refl). cbn [obind]. destruct (params_fold k (text_att "grid_mapping_name" (cf_name k) :: l ++ earth_atts ps0)) as (ps & E & P).
  - intros a [<-|I] Q; [reflexivity|]. apply in_app_or in I as [I|I]; [now destruct (G a I)|]. exfalso.
    apply earth_atts_names in I. rewrite Q in I. cbn in I. intuition discriminate.
  - exists ps. rewrite E. cbn [obind]. auto.
Qed.

(** ** the words of the classes *)

Definition words (pn : string) (wl : list (string * string)) (ps : list cattr) : list word :=
  (0, s_ "proj", Some (s_ pn)) :: concat (map (fun x => oe ps (fst x) (snd x)) wl) ++ tail_words ps.
Definition keys_ok (wl : list (string * string)) : Prop :=
  NoDup (map snd wl) /\ forall x, In x wl -> word_name (s_ (snd x)) /\ ~ In (s_ (snd x)) tail_keys /\ snd x <> "proj".
Lemma s_inj a b : s_ a = s_ b -> a = b.
Proof. unfold s_. intro H. rewrite <- (string_of_list_ascii_of_string a), <- (string_of_list_ascii_of_string b). now rewrite H. Qed.
Lemma s_eqb a b : str_eqb (s_ a) (s_ b) = String.eqb b a.
Proof.
  destruct (String.eqb_spec b a) as [->|N]; [now apply str_eqb_eq|]. apply not_true_iff_false. intro X. apply str_eqb_eq in X. apply s_inj in X. congruence.
Qed.
Lemma lookup_concat k wl ps : NoDup (map snd wl) -> lookup [s_ k] (concat (map (fun x => oe ps (fst x) (snd x)) wl)) =
  match find (fun x => String.eqb k (snd x)) wl with Some x => option_map show16 (value_of ps (fst x)) | None => None end.
Proof.
  induction wl as [|x wl IH]; cbn [map concat find]; intro N; [reflexivity|]. inversion_clear N as [|? ? N1 N2]. rewrite lookup_app, lookup_oe, IH by exact N2. cbn [existsb]. rewrite s_eqb, orb_false_r.
  destruct (String.eqb_spec k (snd x)) as [E|]; [|reflexivity]. destruct (value_of ps (fst x)); [reflexivity|]. cbn [option_map].
  destruct (find _ wl) as [y|] eqn:F; [|reflexivity]. apply find_some in F as (I & Q). apply String.eqb_eq in Q. destruct N1. rewrite <- E, Q. now apply in_map.
Qed.
Lemma lookup_words k pn wl ps : NoDup (map snd wl) -> k <> "proj" -> ~ In (s_ k) tail_keys -> lookup [s_ k] (words pn wl ps) =
  match find (fun x => String.eqb k (snd x)) wl with Some x => option_map show16 (value_of ps (fst x)) | None => None end.
Proof.
  intros N P T. unfold words. cbn [lookup existsb]. rewrite s_eqb. apply String.eqb_neq in P. rewrite P. cbn [orb]. rewrite lookup_app, lookup_concat by exact N.
  rewrite lookup_tail_none; [|intros k' [<-|[]]; exact T]. destruct (find _ wl) as [x|]; [|reflexivity]. now destruct (value_of ps (fst x)).
Qed.
Lemma words_good pn wl ps : keys_ok wl -> tidy (s_ pn) -> (forall x, In x wl -> plain ps (fst x)) -> earth_ok ps -> good (words pn wl ps).
Proof. clear minor_of.
  intros (N & K) C P E. unfold words. split.
  - constructor; [split; [name|exact C]|]. apply Forall_app. split; [|now apply tail_ok]. clear N. induction wl as [|x wl IH]; cbn [map concat]; [constructor|]. apply Forall_app. split.
    + apply oe_ok; [apply P; now left|]. apply (K x). now left.
    + apply IH; intros y I; [apply K|apply P]; now right.
  - intros w I. cbn [tl] in I. apply in_app_or in I as [I|I]; [|now apply tail_parted in I]. apply in_concat in I as (l & Il & Iw). apply in_map_iff in Il as (x & <- & _). now apply oe_parted in Iw.
Qed.
Lemma words_earth pn wl ps : keys_ok wl -> tidy (s_ pn) -> (forall x, In x wl -> plain ps (fst x)) -> earth_ok ps ->
  earth num dotted minor_of (text (words pn wl ps)) = Ok (earth_atts ps).
Proof.
  intros K C P E. unfold words. rewrite app_comm_cons. apply earth_back; [exact E|rewrite <- app_comm_cons; now apply words_good|].
  intros w [<-|I]; [cbn; intuition discriminate|]. apply in_concat in I as (l & Il & Iw). apply in_map_iff in Il as (x & <- & Ix). unfold oe in Iw. destruct (value_of ps (fst x)); [|destruct Iw].
  destruct Iw as [<-|[]]. cbn [fst snd]. now apply (K : _ /\ _).
Qed.
Lemma words_key k pn wl ps : keys_ok wl -> tidy (s_ pn) -> (forall x, In x wl -> plain ps (fst x)) -> earth_ok ps -> word_name (s_ k) -> k <> "proj" -> ~ In (s_ k) tail_keys ->
  key k (text (words pn wl ps)) = match find (fun x => String.eqb k (snd x)) wl with Some x => option_map show16 (value_of ps (fst x)) | None => None end.
Proof. clear minor_of. intros K C P E N NP NT. rewrite key_text; [|now apply words_good|exact N]. apply lookup_words; [apply K|exact NP|exact NT]. Qed.
Lemma words_proj pn wl ps : keys_ok wl -> tidy (s_ pn) -> (forall x, In x wl -> plain ps (fst x)) -> earth_ok ps -> key "proj" (text (words pn wl ps)) = Some (s_ pn).
Proof. clear minor_of. intros K C P E. rewrite key_text; [|now apply words_good|name]. reflexivity. Qed.
Lemma words_opt k n pn wl ps m : keys_ok wl -> tidy (s_ pn) -> (forall x, In x wl -> plain ps (fst x)) -> earth_ok ps -> word_name (s_ k) -> k <> "proj" -> ~ In (s_ k) tail_keys ->
  find (fun x => String.eqb k (snd x)) wl = Some (m, k) -> opt num k n (text (words pn wl ps)) = Ok (match value_of ps m with Some x => [dbl n x] | None => [] end).
Proof. clear minor_of.
  intros K C P E N NP NT F. apply opt_text; [now apply words_good|exact N|rewrite lookup_words, F; [reflexivity|apply K|exact NP|exact NT]|]. intros x V. apply plain_exact in V; [exact V|].
  apply find_some in F as (F & _). exact (P _ F).
Qed.
Lemma words_opt_none k n pn wl ps : keys_ok wl -> tidy (s_ pn) -> (forall x, In x wl -> plain ps (fst x)) -> earth_ok ps -> word_name (s_ k) -> k <> "proj" -> ~ In (s_ k) tail_keys ->
  find (fun x => String.eqb k (snd x)) wl = None -> opt num k n (text (words pn wl ps)) = Ok [].
Proof. clear minor_of. intros K C P E N NP NT F. unfold opt. rewrite words_key, F by assumption. reflexivity. Qed.
Lemma words_dflt k n pn wl ps m : keys_ok wl -> tidy (s_ pn) -> (forall x, In x wl -> plain ps (fst x)) -> earth_ok ps -> word_name (s_ k) -> k <> "proj" -> ~ In (s_ k) tail_keys ->
  find (fun x => String.eqb k (snd x)) wl = Some (m, k) -> dflt num k n (text (words pn wl ps)) = Ok [dbl n (match value_of ps m with Some x => x | None => Some 0%Qc end)].
Proof. clear minor_of.
  intros K C P E N NP NT F. apply dflt_text; [now apply words_good|exact N|rewrite lookup_words, F; [reflexivity|apply K|exact NP|exact NT]|]. intros x V. apply plain_exact in V; [exact V|].
  apply find_some in F as (F & _). exact (P _ F).
Qed.

(** flags *)
Lemma find_sub_skip m x s i : begins m (x :: s) = false -> find_sub m (x :: s) i = find_sub m s (S i).
Proof. intro B. cbn [find_sub]. now rewrite B. Qed.
Lemma find_sub_skips m w s i : ~ In "+"%char w -> find_sub ("+"%char :: m) (w ++ s) i = find_sub ("+"%char :: m) s (length w + i).
Proof. clear num strtod dotted show16 show6 minor_of.
  revert i. induction w as [|x w IH]; intros i H; [reflexivity|]. cbn [app length]. rewrite find_sub_skip.
  - rewrite IH by (intro I; apply H; now right). f_equal. cbn. lia.
  - apply begins_false. intros r E. injection E as E _. apply H. now left.
Qed.
Lemma not_begins_without c m w s : In c m -> unspaced m -> ~ In c w -> blank_first s -> begins m (w ++ s) = false.
Proof.
  intros C U F B. apply begins_false. intros r E. apply app_eq_app in E as (u & [(E1 & E2)|(E1 & E2)]).
  - apply F. rewrite E1. apply in_or_app. now left.
  - destruct u as [|x u]; [rewrite app_nil_r in E1; apply F; now rewrite <- E1|]. rewrite E2 in B. cbn in B. rewrite (U x) in B; [discriminate|]. rewrite E1. apply in_or_app. right. now left.
Qed.
Lemma find_sub_without c m w s i : In c m -> unspaced m -> ~ In c w -> blank_first s -> find_sub m (w ++ s) i = find_sub m s (length w + i).
Proof. clear num strtod dotted show16 show6 minor_of.
  intros C U. revert i. induction w as [|x w IH]; intros i F B; [reflexivity|]. cbn [app length]. rewrite find_sub_skip.
  - rewrite IH; [f_equal; cbn; lia|intro I; apply F; now right|exact B].
  - apply (not_begins_without c m (x :: w)); auto.
Qed.
Lemma flag_text f l : unspaced (s_ f) -> eqfree (s_ f) -> In "_"%char (s_ f) -> good l -> (forall w, In w l -> begins (s_ f) (snd (fst w)) = false) -> (forall w v, In w l -> snd w = Some v -> ~ In "_"%char v) -> flag f (text l) = false.
Proof. clear num strtod dotted show16 show6 minor_of.
  intros U F US (O & P) B UV. unfold flag. cut (forall i, find_sub (s_ ("+" ++ f)) (text l) i = None); [intro X; now rewrite X|]. change (s_ ("+" ++ f)) with ("+"%char :: s_ f).
  assert (U' : unspaced ("+"%char :: s_ f)) by (intros x [<-|I]; [reflexivity|now apply U]).
  induction l as [|[[n k] v] r IH]; intro i; [reflexivity|]. inversion_clear O as [|? ? O1 O2]. destruct O1 as ((K1 & K2 & K3) & O3). cbn [fst snd] in *.
  assert (BF : blank_first (text r)) by (apply text_blank; intros w I; exact (P w I)). assert (P' : parted r). { intros w I. apply P. cbn [tl]. destruct r; [destruct I|]. now right. }
  specialize (IH O2 P' (fun w I => B w (or_intror I)) (fun w v I => UV w v (or_intror I))). specialize (B _ (or_introl eq_refl)). cbn [fst snd] in B.
  unfold text. cbn [map concat render]. fold (text r). rewrite <- !app_assoc. rewrite find_sub_skips by (intro I; apply repeat_spec in I; discriminate). cbn [app]. rewrite <- app_assoc. rewrite find_sub_skip.
  - rewrite find_sub_skips by exact K3. destruct v as [v|]; cbn [app]; [|apply IH]. rewrite find_sub_skip by (apply begins_false; intros q E; discriminate).
    specialize (UV _ v (or_introl eq_refl) eq_refl). rename UV into O4. rewrite (find_sub_without "_"%char); [apply IH|now right|exact U'|exact O4|exact BF].
  - apply begins_false. intros q E. cbn [app] in E. injection E as E. apply app_eq_app in E as (u & [(E1 & E2)|(E1 & E2)]).
    + assert (X : begins (s_ f) k = true) by (apply begins_spec; now exists u). congruence.
    + destruct u as [|x u]; [assert (X : begins (s_ f) k = true) by (apply begins_spec; exists []; rewrite E1; now rewrite !app_nil_r); congruence|].
      destruct v as [v|]; cbn [app] in E2.
      * injection E2 as <- _. apply F. rewrite E1. apply in_or_app. right. now left.
      * rewrite E2 in BF. cbn in BF. rewrite (U x) in BF; [discriminate|]. rewrite E1. apply in_or_app. right. now left.
Qed.
End Trip.
