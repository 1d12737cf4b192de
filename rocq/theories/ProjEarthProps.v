(** C97: replacing the figure of the earth in a PROJ.4 text; examples for C95, C96 and C97. *)
From Coq Require Import PeanoNat NArith ZArith QArith Qcanon Ascii String List Bool Lia Decimal DecimalString DecimalZ.
From Verif Require Import Base StdMap SliceModel RegridModel StringModel StringProofs StringProps TextModel SpecModel ConvertModel CdmModel NmlModel CfvertProps ProjModel ProjProps ProjTripProofs ProjTripProps ProjConicProps.
Import ListNotations.
Local Open Scope string_scope.
Local Open Scope list_scope.
Local Open Scope nat_scope.

(** the words that describe the figure *)
Definition earth_keys : list string := ["a"; "b"; "e"; "R"; "ellps"; "datum"].
Definition is_earth (w : word) : bool := match snd w with Some _ => existsb (fun q => str_eqb (snd (fst w)) (s_ q)) earth_keys | None => false end.
Definition bare (w : word) : str := "+"%char :: snd (fst w) ++ match snd w with Some v => "="%char :: v | None => [] end.

Lemma bare_notd w : word_ok w -> bare w <> [] /\ Forall (notd [" "%char]) (bare w).
Proof.
  destruct w as [[n k] v]. intros ((K1 & K2 & K3) & V). cbn [fst snd] in *. split; [discriminate|]. apply Forall_forall. intros x I [E|[]]. subst x. unfold bare in I. cbn [fst snd] in I.
  destruct I as [I|I]; [discriminate|]. apply in_app_or in I as [I|I]; [specialize (K2 _ I); discriminate|]. destruct v as [v|]; [|destruct I]. destruct I as [I|I]; [discriminate|]. destruct V as (_ & _ & V). specialize (V _ I). discriminate.
Qed.
Lemma runs_text l : forall n k v, Forall word_ok ((n, k, v) :: l) -> (forall w, In w l -> 0 < fst (fst w)) -> runs [" "%char] (text ((n, k, v) :: l)) (map bare ((n, k, v) :: l)).
Proof.
  induction l as [|[[m k'] v'] l IH]; intros n k v O P; inversion_clear O as [|? ? O1 O2]; destruct (bare_notd _ O1) as (B1 & B2).
  - unfold text. cbn [map concat]. rewrite app_nil_r. change (render (n, k, v)) with (repeat " "%char n ++ bare (n, k, v)). apply runs_last; [|exact B1|exact B2]. apply Forall_forall. intros x I. apply repeat_spec in I. now left.
  - specialize (P _ (or_introl eq_refl)) as P0. cbn in P0. destruct m as [|m]; [lia|]. unfold text. cbn [map concat]. fold (text l). change (render (n, k, v)) with (repeat " "%char n ++ bare (n, k, v)). rewrite <- app_assoc.
    change (render (S m, k', v') ++ text l) with (" "%char :: text ((m, k', v') :: l)). change (bare (S m, k', v')) with (bare (m, k', v')). apply runs_cons; [|exact B1|exact B2|now left|].
    + apply Forall_forall. intros x I. apply repeat_spec in I. now left.
    + apply IH; [|intros w I; apply P; now right]. inversion_clear O2. now constructor.
Qed.
Lemma runs_words (l : list word) : good l -> l <> [] -> runs [" "%char] (text l) (map bare l).
Proof. intros (O & P) N. destruct l as [|[[n k] v] l]; [contradiction|]. now apply runs_text. Qed.
Lemma text_empty (f : list word) : f <> [] -> isempty (st (text f)) = false.
Proof. destruct f as [|[[n k] v] f]; [contradiction|]. intros _. now destruct n. Qed.
Lemma find_plus q w : word_name (s_ q) -> word_ok w -> (match find_sub (plus (s_ q)) (bare w) 0 with Some _ => true | None => false end) = match snd w with Some _ => str_eqb (snd (fst w)) (s_ q) | None => false end.
Proof.
  destruct w as [[n k] v]. intros (Q1 & Q2 & Q3) ((K1 & K2 & K3) & V). unfold bare. cbn [fst snd] in *.
  assert (U : unspaced (plus (s_ q))). { intros x [<-|I]; [reflexivity|]. apply in_app_or in I as [I|[<-|[]]]; [now apply Q2|reflexivity]. }
  assert (EQ : In "="%char (plus (s_ q))) by (right; apply in_or_app; right; now left).
  destruct v as [v|].
  - destruct V as (_ & V & _). assert (B := begins_plus (s_ q) k v [] Q1 K1). rewrite !app_nil_r in B. destruct (str_eqb k (s_ q)) eqn:E.
    + cbn [find_sub]. now rewrite B.
    + rewrite find_sub_skip by exact B. unfold plus at 1. rewrite find_sub_skips by exact K3. rewrite find_sub_skip by (apply begins_false; intros r X; discriminate). rewrite <- (app_nil_r v).
      rewrite (find_sub_without "="%char); [reflexivity|exact EQ|exact U|exact V|exact Logic.I].
  - rewrite app_nil_r. rewrite <- (app_nil_r ("+"%char :: k)). rewrite (find_sub_without "="%char); [reflexivity|exact EQ|exact U| |exact Logic.I]. intros [X|X]; [discriminate|now apply K1].
Qed.
Lemma earth_keys_ok q : In q earth_keys -> word_name (s_ q).
Proof.
  intros [<-|[<-|[<-|[<-|[<-|[<-|[]]]]]]]; (split; [|split]; [intro X; cbn in X; intuition discriminate|intros x X; cbn in X; intuition (subst; reflexivity)|intro X; cbn in X; intuition discriminate]).
Qed.
Lemma dropped w : word_ok w -> existsb (fun k => match find_sub (s_ k) (bare w) 0 with Some _ => true | None => false end) figure_keys = is_earth w.
Proof.
  intro O. unfold is_earth. change figure_keys with (map (fun q => "+" ++ q ++ "=")%string earth_keys). assert (K := earth_keys_ok). induction earth_keys as [|q l IH]; cbn [map existsb]; [now destruct (snd w)|].
  rewrite IH by (intros; apply K; now right). replace (s_ ("+" ++ q ++ "=")%string) with (plus (s_ q)) by (unfold plus; rewrite !s_append; reflexivity). rewrite (find_plus q w (K q (or_introl eq_refl)) O).
  destruct (snd w); [reflexivity|]. reflexivity.
Qed.

(** words separated by single blanks *)
Definition one (w : word) : word := (1, snd (fst w), snd w).
Definition placed (l f : list word) : list word :=
  match filter (fun w => negb (is_earth w)) l with
  | [] => f
  | w :: r => (0, snd (fst w), snd w) :: map one r ++ match f with [] => [] | w :: f' => one w :: f' end
  end.
Lemma join_bare r : forall w f k v, join (map bare (w :: r) ++ [text ((0, k, v) :: f)]) (s_ " ") = text ((0, snd (fst w), snd w) :: map one r ++ (1, k, v) :: f).
Proof.
  induction r as [|w' r IH]; intros w f k v.
  - change (map bare [w] ++ [text ((0, k, v) :: f)]) with (bare w :: text ((0, k, v) :: f) :: []). rewrite StringProofs.join_cons. reflexivity.
  - change (map bare (w :: w' :: r) ++ [text ((0, k, v) :: f)]) with (bare w :: bare w' :: (map bare r ++ [text ((0, k, v) :: f)])). rewrite StringProofs.join_cons.
    change (bare w' :: (map bare r ++ [text ((0, k, v) :: f)])) with (map bare (w' :: r) ++ [text ((0, k, v) :: f)]). rewrite IH. reflexivity.
Qed.
Lemma st_s s : st (s_ s) = s.
Proof. apply string_of_list_ascii_of_string. Qed.
Lemma s_st s : s_ (st s) = s.
Proof. apply list_ascii_of_string_of_list_ascii. Qed.

(** The words of the figure are dropped and the new figure is put behind the others, which keep their order. *)
Theorem C97_words l f : good l -> l <> [] -> good f -> f <> [] -> (forall w r, f = w :: r -> fst (fst w) = 0) ->
  replace_earth (st (text l)) (st (text f)) = Ok (st (text (placed l f))).
Proof.
  intros G L (FO & FP) F Z. unfold replace_earth. rewrite text_empty by exact F. unfold toks. rewrite s_st.
  rewrite (proj2 (C18_tokenize_maximal_runs (text l) (s_ " ") (map bare l)) (runs_words l G L)). cbn [obind]. f_equal. f_equal. unfold placed. destruct G as (O & P).
  destruct f as [|[[n k] v] f]; [contradiction|]. specialize (Z _ _ eq_refl). cbn in Z. subst n. rename l into L0. clear L P.
  assert (FL : filter (fun t => negb (existsb (fun k => match find_sub (s_ k) (s_ t) 0 with Some _ => true | None => false end) figure_keys)) (map st (map bare L0)) = map st (map bare (filter (fun w => negb (is_earth w)) L0))).
  { clear FO FP F f k v. induction L0 as [|w L0 IH]; [reflexivity|]. inversion_clear O as [|? ? O1 O2]. cbn [map filter]. rewrite s_st, dropped by exact O1. rewrite IH by exact O2. now destruct (is_earth w). }
  rewrite FL. rewrite map_app. rewrite !map_map. rewrite (map_ext _ bare) by (intro w; apply s_st). cbn [map]. rewrite s_st. destruct (filter (fun w => negb (is_earth w)) L0) as [|w r]; [reflexivity|]. apply join_bare.
Qed.
Lemma lookup_one ks r : lookup ks (map one r) = lookup ks r.
Proof. induction r as [|[[n k] [v|]] r IH]; cbn [map lookup one fst snd]; [reflexivity| |exact IH]. destruct (existsb _ ks); [reflexivity|exact IH]. Qed.
Lemma lookup_placed ks l f : lookup ks (placed l f) = match lookup ks (filter (fun w => negb (is_earth w)) l) with Some v => Some v | None => lookup ks f end.
Proof.
  unfold placed. destruct (filter _ l) as [|[[n k] v] r]; [reflexivity|]. cbn [fst snd]. assert (X : lookup ks (map one r ++ match f with [] => [] | w :: f' => one w :: f' end) = match lookup ks r with Some v => Some v | None => lookup ks f end).
  { rewrite lookup_app, lookup_one. destruct (lookup ks r); [reflexivity|]. destruct f as [|[[m k'] v'] f]; reflexivity. }
  cbn [lookup]. rewrite X. destruct v as [v|]; [|reflexivity]. now destruct (existsb (str_eqb k) ks).
Qed.
Lemma placed_good l f : good l -> good f -> good (placed l f).
Proof.
  intros (O & P) (FO & FP). unfold placed. assert (FI : Forall word_ok (filter (fun w => negb (is_earth w)) l)) by (apply Forall_forall; intros w I; apply filter_In in I as (I & _); now apply (proj1 (Forall_forall _ _) O)).
  destruct (filter _ l) as [|w r]; [split; assumption|]. inversion_clear FI as [|? ? F1 F2]. split.
  - constructor; [exact F1|]. apply Forall_app. split.
    + apply Forall_forall. intros x I. apply in_map_iff in I as (y & <- & I). exact (proj1 (Forall_forall _ _) F2 y I).
    + destruct f as [|x f]; [constructor|]. inversion_clear FO as [|? ? X Y]. now constructor.
  - intros x I. cbn [tl] in I. apply in_app_or in I as [I|I].
    + apply in_map_iff in I as (y & <- & _). cbn. lia.
    + destruct f as [|y f]; [destruct I|]. destruct I as [<-|I]; [cbn; lia|]. now apply FP.
Qed.
(** So the keys of the figure have their values from the new figure only, and a word that is in the text before and does
    not belong to the figure keeps its value. *)
Theorem C97_values l f t q : good l -> l <> [] -> good f -> f <> [] -> (forall w r, f = w :: r -> fst (fst w) = 0) -> word_name (s_ q) ->
  replace_earth (st (text l)) (st (text f)) = Ok t ->
  key q (s_ t) = if existsb (String.eqb q) earth_keys then key q (text f)
                 else match key q (text l) with Some v => Some v | None => key q (text f) end.
Proof.
  intros L L0 F F0 Z Q R. rewrite C97_words in R by assumption. injection R as <-. rewrite s_st. rewrite !key_text by (try assumption; now apply placed_good). rewrite lookup_placed.
  assert (X : lookup [s_ q] (filter (fun w => negb (is_earth w)) l) = if existsb (String.eqb q) earth_keys then None else lookup [s_ q] l).
  { clear. induction l as [|[[n k] v] l IH]; cbn [filter lookup]; [now destruct (existsb (String.eqb q) earth_keys)|]. unfold is_earth at 1. cbn [fst snd]. destruct v as [v|]; cbn [negb lookup]; [|exact IH]. cbn [existsb]. rewrite orb_false_r.
    destruct (existsb (fun q0 => str_eqb k (s_ q0)) earth_keys) eqn:E; cbn [negb lookup existsb]; rewrite ?orb_false_r, IH.
    - destruct (str_eqb k (s_ q)) eqn:K; [|reflexivity]. apply str_eqb_eq in K as ->. replace (existsb (String.eqb q) earth_keys) with true; [reflexivity|]. symmetry. apply existsb_exists in E as (q' & I & S). apply str_eqb_eq, s_inj in S as ->. apply existsb_exists. exists q'. split; [exact I|apply String.eqb_refl].
    - destruct (str_eqb k (s_ q)) eqn:K; [|reflexivity]. apply str_eqb_eq in K as ->. replace (existsb (String.eqb q) earth_keys) with false; [reflexivity|]. symmetry. apply not_true_iff_false. intro S. apply existsb_exists in S as (q' & I & S). apply String.eqb_eq in S as ->.
      assert (T : existsb (fun q0 => str_eqb (s_ q') (s_ q0)) earth_keys = true) by (apply existsb_exists; exists q'; split; [exact I|now apply str_eqb_eq]). congruence. }
  rewrite X. now destruct (existsb (String.eqb q) earth_keys).
Qed.
(** No figure, no change. *)
Theorem C97_empty proj4 : replace_earth proj4 "" = Ok proj4.
Proof. reflexivity. Qed.
(** Finding: a flattening or a shift of the datum given before stays with the new figure. *)
Theorem C97_flattening_refuted :
  replace_earth "+proj=latlong +a=6377397.155 +rf=299.1528128" "+a=6371000 +b=6371000" = Ok "+proj=latlong +rf=299.1528128 +a=6371000 +b=6371000" /\
  replace_earth "+proj=latlong +ellps=intl +towgs84=-87,-98,-121" "+R=6371000" = Ok "+proj=latlong +towgs84=-87,-98,-121 +R=6371000".
Proof. split; reflexivity. Qed.
Example C97_nonvacuous : replace_earth "+proj=stere  +lat_0=90 +lon_0=0 +ellps=WGS84 +a=1 +e=0 +no_defs" "+R=6371000" = Ok "+proj=stere +lat_0=90 +lon_0=0 +no_defs +R=6371000".
Proof. reflexivity. Qed.

(** ** examples and findings about texts, with numbers that are written as integers *)

Definition num0 (s : str) : outcome value :=
  match NilZero.int_of_string (st s) with Some d => Ok (Some (z2q (Z.of_int d))) | None => Throw end.
Definition strtod0 (s : str) : value := match num0 s with Ok v => v | _ => Some 0%Qc end.
Definition show0 (v : value) : str := match v with Some q => s_ (NilZero.string_of_int (Z.to_int (Qnum q))) | None => s_ "nan" end.
Definition dotted0 (s : str) : outcome (list value) := do l <- tokenize s (s_ ","); omapM num0 l.
Definition minor0 (a e : value) : value := a.
Local Notation write := (proj4_of show0 show0).
Local Notation read := (create_by_proj4 num0 strtod0 dotted0 minor0 100).
Definition z (n : Z) : value := Some (z2q n).

Definition mercator_ps : list cattr := [dbl "earth_radius" (z 6371000); dbl lon_origin (z 10); dbl parallel (z 60); dbl "false_easting" (z 500000); mkAttr "towgs84" DDouble [z 1; z 2; z 3] ""].
Example C96_nonvacuous :
  writable num0 strtod0 dotted0 show0 show0 Mercator mercator_ps /\
  write Mercator mercator_ps = Ok (s_ "+proj=merc +lon_0=10 +lat_ts=60 +x_0=500000  +a=6371000 +e=0 +towgs84=1,2,3 +no_defs") /\
  (exists ps', read (s_ "+proj=merc +lon_0=10 +lat_ts=60 +x_0=500000  +a=6371000 +e=0 +towgs84=1,2,3 +no_defs") = Ok (Mercator, ps') /\ value_of ps' lon_origin = Some (z 10) /\ figure ps' = (z 6371000, z 6371000)).
Proof.
  assert (T : forall v : str, (forallb (fun x => negb (Ascii.eqb x "="%char) && negb (is_space x) && negb (Ascii.eqb x "_"%char)) v && match v with [] => false | _ => true end = true) -> clean v).
  { intros v H. apply andb_prop in H as (H & N). rewrite forallb_forall in H. assert (B : forall x, In x v -> x <> "="%char /\ is_space x = false /\ x <> "_"%char).
    { intros x I. apply H in I. apply andb_prop in I as (I & C). apply andb_prop in I as (A & B). apply negb_true_iff in A, B, C. apply Ascii.eqb_neq in A, C. auto. }
    split; [split; [destruct v; discriminate|split]|]; [intro I; destruct (B _ I) as (X & _); congruence|intros x I; apply (B x I)|intro I; destruct (B _ I) as (_ & _ & X); congruence]. }
  split; [|split; [reflexivity|eexists; split; [vm_compute; reflexivity|split; reflexivity]]].
  assert (E : forall n, In n [10; 60; 500000; 6371000]%Z -> exact num0 strtod0 show0 (z n)).
  { intros n [<-|[<-|[<-|[<-|[]]]]]; (split; [vm_compute; reflexivity|split; [vm_compute; reflexivity|apply T; vm_compute; reflexivity]]). }
  split; [split; [|split; [reflexivity|split]]|split; [|split; [|exact Logic.I]]].
  - intros n [<-|[<-|[<-|[<-|[<-|[]]]]]]; unfold plain; cbn; try exact Logic.I; (split; [discriminate|]); eexists; (split; [reflexivity|]); apply E; cbn; tauto.
  - unfold shift_ok. cbn -[join dotted0 show0]. split; [discriminate|]. split; [apply T; vm_compute; reflexivity|]. split; [vm_compute; reflexivity|]. now left.
  - intro X. discriminate.
  - intros n b [X|[X|[]]]; injection X as <- <-; unfold plain; cbn; (split; [discriminate|]); eexists; (split; [reflexivity|]); apply E; cbn; tauto.
  - intros n [<-|[]]. reflexivity.
Qed.

(** Finding: the scale factor of mercator, oblique and transverse mercator projections is written as +k_0 and read as +k. *)
Theorem C96_scale_refuted :
  (exists ps', write Mercator [dbl "earth_radius" (z 1); dbl scale_origin (z 2)] = Ok (s_ "+proj=merc +k_0=2  +a=1 +e=0 +no_defs") /\
     read (s_ "+proj=merc +k_0=2  +a=1 +e=0 +no_defs") = Ok (Mercator, ps') /\ value_of ps' scale_origin = None) /\
  (exists ps', write Oblique [dbl "earth_radius" (z 1); dbl scale_origin (z 2)] = Ok (s_ "+proj=omerc +k_0=2  +a=1 +e=0 +no_defs") /\
     read (s_ "+proj=omerc +k_0=2  +a=1 +e=0 +no_defs") = Ok (Oblique, ps') /\ value_of ps' scale_origin = None) /\
  (exists ps', write Transverse [dbl "earth_radius" (z 1); dbl "scale_factor_at_central_meridian" (z 2)] = Ok (s_ "+proj=tmerc +k_0=2  +a=1 +e=0 +no_defs") /\
     read (s_ "+proj=tmerc +k_0=2  +a=1 +e=0 +no_defs") = Ok (Transverse, ps') /\ value_of ps' "scale_factor_at_central_meridian" = None).
Proof. split; [|split]; (eexists; split; [vm_compute; reflexivity|split; [vm_compute; reflexivity|reflexivity]]). Qed.
(** Finding: the sweep axis of a geostationary projection is read as "sweep_axis" but written from "sweep_angle_axis". *)
Theorem C96_sweep_refuted : exists ps', read (s_ "+proj=geos +h=35785831 +sweep=x +a=1 +e=0") = Ok (Geostationary, ps') /\
  write Geostationary ps' = Ok (s_ "+proj=geos +lon_0=0 +lat_0=0 +h=35785831  +a=1 +e=0 +no_defs").
Proof. eexists. split; vm_compute; reflexivity. Qed.
(** Finding: a flattening is written but not read: the ellipsoid becomes a sphere. *)
Theorem C96_flattening_refuted : exists ps', write LatLong [dbl "semi_major_axis" (z 6377397); dbl "inverse_flattening" (z 299)] = Ok (s_ "+proj=latlong  +a=6377397  +rf=299 +no_defs") /\
  read (s_ "+proj=latlong  +a=6377397  +rf=299 +no_defs") = Ok (LatLong, ps') /\ param ps' "inverse_flattening" = None /\ value_of ps' "earth_radius" = Some (z 6377397).
Proof. eexists. split; [vm_compute; reflexivity|split; [vm_compute; reflexivity|split; reflexivity]]. Qed.
(** Finding: of the longitude in the text of a UTM projection only the digits before the point count, and a negative one is ignored. *)
Theorem C96_utm_refuted :
  (exists ps', read (s_ "+proj=utm +zone=33 +lon_0=10.5") = Ok (Transverse, ps') /\ value_of ps' lon_meridian = Some (z 10)) /\
  (exists ps', read (s_ "+proj=utm +zone=33 +lon_0=-3") = Ok (Transverse, ps') /\ value_of ps' lon_meridian = Some (z 15)).
Proof. split; (eexists; split; [vm_compute; reflexivity|reflexivity]). Qed.
(** The zones of UTM. *)
Example C96_utm_nonvacuous : exists ps', read (s_ "+proj=utm +zone=33 +south") = Ok (Transverse, ps') /\ value_of ps' lon_meridian = Some (z 15) /\ value_of ps' "false_easting" = Some (z 500000) /\ value_of ps' "false_northing" = Some (z 10000000).
Proof. eexists. split; [vm_compute; reflexivity|split; [reflexivity|split; reflexivity]]. Qed.

Section Texts.
Variable num : str -> outcome value.
Variable strtod : str -> value.
Variable dotted : str -> outcome (list value).
Variable show16 show6 : value -> str.
Variable minor_of : value -> value -> value.
Variable fuel : nat.
Local Notation writes := (proj4_of show16 show6).
Local Notation reads := (create_by_proj4 num strtod dotted minor_of fuel).

(** A text of a projection that is not known is kept as it is. *)
Theorem C96_unknown s ps : reads s = Ok (Unknown, ps) -> writes Unknown ps = Ok s.
Proof.
  unfold create_by_proj4. intro H. destruct (accepting num s) as [[k|]| | |]; cbn [obind] in H; try discriminate.
  destruct (from_proj4 num strtod dotted minor_of fuel k s) as [l| | |] eqn:F; cbn [obind] in H; try discriminate.
  assert (C := C95_parameters _ _ _ H). destruct C as (C1 & C2 & _ & C3 & _).
  assert (K : k = Unknown).
  { assert (N : exists a, param l "grid_mapping_name" = Some a /\ a_text a = cf_name k).
    { clear - F. unfold from_proj4 in F. destruct k;
        try match type of F with (do _ <- ?x; _) = _ => destruct x as [a| | |]; cbn [obind] in F; try discriminate; injection F as <-; eexists; split; reflexivity end.
      - unfold polar in F. destruct (stereo num strtod dotted minor_of s) as [a| | |] eqn:S; cbn [obind] in F; try discriminate. unfold stereo in S. destruct (earth num dotted minor_of s); cbn [obind] in S; try discriminate. injection S as <-.
        cbn [List.app rename_first] in F. replace (String.eqb "grid_mapping_name" _) with true in F by reflexivity. cbn [rename_first] in F. destruct (String.eqb "longitude_of_projection_origin" _) eqn:Q in F; [discriminate Q|].
        match type of F with match option_map _ ?x with _ => _ end = _ => destruct x; cbn [option_map] in F; [|discriminate] end. injection F as <-. eexists. split; reflexivity.
      - unfold rotated in F. repeat match type of F with (do _ <- ?x; _) = _ => destruct x; cbn [obind] in F; try discriminate end. injection F as <-. eexists. split; reflexivity.
      - unfold stereo in F. destruct (earth num dotted minor_of s); cbn [obind] in F; try discriminate. injection F as <-. eexists. split; reflexivity. }
    destruct N as (a & N1 & N2). specialize (C1 a N1). rewrite N2 in C1. destruct k; try discriminate C1. reflexivity. }
  subst k. cbn [from_proj4 all] in F. destruct (earth num dotted minor_of s) as [e| | |]; cbn [obind] in F; try discriminate. injection F as <-.
  unfold proj4_of. rewrite C3 by (try discriminate; intros [X|[X|X]]; discriminate). cbn [List.app]. rewrite app_comm_cons, last_app. replace (String.eqb "proj4" (aname (text_att "proj4" (st s)))) with true by reflexivity. cbn [a_text text_att]. f_equal. apply s_st.
Qed.
(** Finding: a polar stereographic text without +lon_0 is accepted and then fails. *)
Theorem C96_polar_longitude_refuted s : accepting num s = Ok (Some PolarStere) -> key "lon_0" s = None -> (exists e, earth num dotted minor_of s = Ok e /\ forall a, In a e -> aname a <> "longitude_of_projection_origin") -> reads s = Throw.
Proof.
  intros A K (e & E & N).
  assert (R : forall f l, (forall a, In a l -> aname a <> "longitude_of_projection_origin") -> rename_first "longitude_of_projection_origin" f l = None).
  { intros f l. induction l as [|b l IH]; intro H; [reflexivity|]. cbn [rename_first]. replace (String.eqb "longitude_of_projection_origin" (aname b)) with false.
    - rewrite IH; [reflexivity|]. intros c I. apply H. now right.
    - symmetry. apply String.eqb_neq. intro X. apply (H b); [now left|congruence]. }
  assert (R2 : forall f a l, a_name a = "grid_mapping_name" -> rename_first "grid_mapping_name" f (a :: l) = Some (f a :: l)).
  { intros f a l H. cbn [rename_first]. rewrite H. reflexivity. }
  unfold create_by_proj4. rewrite A. cbn [obind from_proj4]. unfold polar, stereo. rewrite E, K. cbn [obind List.app]. rewrite R2 by reflexivity. rewrite R; [reflexivity|].
  intros a I. destruct I as [<-|I]; [discriminate|]. apply in_app_or in I as [I|I]; [destruct (key "lat_0" s); [destruct I as [<-|[]]; discriminate|destruct I]|].
  apply in_app_or in I as [I|I]; [|now apply N]. destruct (key "lat_ts" s); [destruct I as [<-|[]]; discriminate|]. destruct (key "k" s); [destruct I as [<-|[]]; discriminate|destruct I].
Qed.
(** Finding: the text of a projection and that of the longitudes and latitudes on its earth always differ (+no_defs), so that
    the shortcut of convertToLonLat and convertFromLonLat for longitudes and latitudes is never taken. *)
Theorem C96_lonlat_refuted k ps t : k <> Unknown -> writes k ps = Ok t -> t <> lonlat_text show16 show6 ps.
Proof.
  intros N W E. unfold proj4_of, part in W. unfold lonlat_text in E. destruct k; try contradiction; cbn [obind] in W;
    try (destruct (conic_text show6 ps); cbn [obind] in W; try discriminate); injection W as <-; try (apply (f_equal (firstn 9)) in E; cbn [firstn s_ list_ascii_of_string List.app] in E; discriminate E).
  all: apply (f_equal (@List.length ascii)) in E; repeat first [rewrite app_length in E | progress cbn [List.length List.app s_ list_ascii_of_string] in E]; lia.
Qed.
End Texts.
(** Finding: a projection unknown_to_fgdc without a proj4 text has none. *)
Theorem C96_no_text_refuted : exists ps, create [text_att "grid_mapping_name" "unknown_to_fgdc"] = Ok (Unknown, ps) /\ forall s16 s6, proj4_of s16 s6 Unknown ps = Throw.
Proof. eexists. split; [reflexivity|]. reflexivity. Qed.
Example C96_polar_nonvacuous : accepting num0 (s_ "+proj=stere +lat_0=90") = Ok (Some PolarStere) /\ read (s_ "+proj=stere +lat_0=90") = Throw /\
  exists ps', read (s_ "+proj=stere +lat_0=90 +lon_0=20 +lat_ts=60 +a=6371000 +e=0") = Ok (PolarStere, ps') /\ value_of ps' lon_pole = Some (z 20).
Proof. split; [vm_compute; reflexivity|]. split; [vm_compute; reflexivity|]. eexists. split; [vm_compute; reflexivity|reflexivity]. Qed.
(** a conic projection with two parallels, a rotated pole *)
Example C96_conic_nonvacuous : exists ps', write LambertConic [dbl "earth_radius" (z 6371000); mkAttr parallel DDouble [z 30; z 60] ""; dbl lon_meridian (z 15)] = Ok (s_ "+proj=lcc +lat_1=30 +lat_2=30 +lon_0=15  +a=6371000 +e=0 +no_defs") /\
  read (s_ "+proj=lcc +lat_1=30 +lat_2=30 +lon_0=15  +a=6371000 +e=0 +no_defs") = Ok (LambertConic, ps') /\ option_map a_nums (param ps' parallel) = Some [z 30; z 30].
Proof. eexists. split; [vm_compute; reflexivity|split; [vm_compute; reflexivity|reflexivity]]. Qed.
Example C96_rotated_nonvacuous : exists ps', write Rotated [dbl "earth_radius" (z 6371000); dbl pole_lon (z (-40)); dbl pole_lat (z 22); dbl grid_lon (z (-5))] = Ok (s_ "+proj=ob_tran +o_proj=longlat +lon_0=-220 +o_lat_p=22 +o_lon_p=-5  +a=6371000 +e=0 +no_defs") /\
  read (s_ "+proj=ob_tran +o_proj=longlat +lon_0=-220 +o_lat_p=22 +o_lon_p=-5  +a=6371000 +e=0 +no_defs") = Ok (Rotated, ps') /\ value_of ps' pole_lon = Some (z (-40)) /\ value_of ps' pole_lat = Some (z 22) /\ value_of ps' grid_lon = None.
Proof. eexists. split; [vm_compute; reflexivity|split; [vm_compute; reflexivity|split; [reflexivity|split; reflexivity]]]. Qed.
Example C95_nonvacuous : exists ps, create [text_att "grid_mapping_name" "mercator"; dbl "semi_major_axis" (z 2); dbl "earth_radius" (z 3); dbl lon_origin (z 4); dbl "semi_minor_axis" (z 5); dbl lon_origin (z 6)] = Ok (Mercator, ps) /\
  param ps "semi_major_axis" = None /\ param ps "earth_radius" = None /\ value_of ps "semi_minor_axis" = Some (z 5) /\ value_of ps lon_origin = Some (z 6) /\ create [text_att "grid_mapping_name" "mollweide"] = Throw.
Proof.
  eexists. split; [vm_compute; reflexivity|]. split; [vm_compute; reflexivity|]. split; [vm_compute; reflexivity|]. split; [vm_compute; reflexivity|]. split; vm_compute; reflexivity.
Qed.

Print Assumptions C97_words.
Print Assumptions C97_values.
Print Assumptions C97_empty.
Print Assumptions C97_flattening_refuted.
Print Assumptions C96_scale_refuted.
Print Assumptions C96_sweep_refuted.
Print Assumptions C96_flattening_refuted.
Print Assumptions C96_utm_refuted.
Print Assumptions C96_unknown.
Print Assumptions C96_polar_longitude_refuted.
Print Assumptions C96_lonlat_refuted.
Print Assumptions C96_no_text_refuted.
