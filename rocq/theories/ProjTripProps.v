(** C96: the PROJ.4 text of a projection gives the projection back. *)
From Coq Require Import PeanoNat NArith ZArith QArith Qcanon Ascii String List Bool Lia.
From Verif Require Import Base StdMap SliceModel RegridModel StringModel StringProofs TextModel SpecModel ConvertModel CdmModel NmlModel CfvertProps ProjModel ProjProps ProjTripProofs.
Import ListNotations.
Local Open Scope string_scope.
Local Open Scope list_scope.
Local Open Scope nat_scope.

Definition lon_origin := "longitude_of_projection_origin".
Definition lat_origin := "latitude_of_projection_origin".
Definition lon_meridian := "longitude_of_central_meridian".
Definition lon_pole := "straight_vertical_longitude_from_pole".
Definition scale_origin := "scale_factor_at_projection_origin".
Definition parallel := "standard_parallel".

(** The parameters of the simple classes, and whether one that is not given becomes 0. *)
Definition table (k : kind) : list (string * bool) :=
  match k with
  | Azimuthal | LambertAzimuthal | Orthographic => [(lon_origin, true); (lat_origin, true)]
  | Geostationary | Perspective => [(lon_origin, true); (lat_origin, true); ("perspective_point_height", true)]
  | LambertCylindrical => [(lon_meridian, true); (parallel, false); (scale_origin, false)]
  | Mercator => [(lon_origin, true); (parallel, false)]
  | Oblique => [(lon_origin, true); (lat_origin, false); ("azimuth_of_central_line", true); ("gamma", true)]
  | Sinusoidal => [(lon_origin, true)]
  | Stereographic => [(lat_origin, false); (lon_origin, false); (scale_origin, false); (parallel, false)]
  | PolarStere => [(lat_origin, false); (lon_pole, false); (scale_origin, false); (parallel, false)]
  | Transverse => [(lon_meridian, true); (lat_origin, false)]
  | _ => []
  end.
(** Parameters that are written but not read, or read but not written. *)
Definition lost (k : kind) : list string :=
  match k with
  | Geostationary => ["sweep_angle_axis"]
  | Mercator => [scale_origin]
  | Oblique => [scale_origin; "no_rotation"]
  | Stereographic => [lon_pole]
  | PolarStere => [lon_origin]
  | Transverse => ["scale_factor_at_central_meridian"]
  | _ => []
  end.
Definition simple_kinds : list kind :=
  [Azimuthal; Geostationary; LambertAzimuthal; LambertCylindrical; LatLong; Mercator; Oblique; Orthographic; PolarStere; Sinusoidal; Stereographic; Transverse; Perspective].
Definition kept (zero : bool) (v : option value) : option value :=
  match v with Some x => Some x | None => if zero then Some (Some 0%Qc) else None end.
(** within a ten-thousandth of a pole *)
Definition polar_latitude (ps : list cattr) : Prop := exists v, value_of ps lat_origin = Some v /\ at_pole v = true.

Section Trip.
Variable num : str -> outcome value.
Variable strtod : str -> value.
Variable dotted : str -> outcome (list value).
Variable show16 show6 : value -> str.
Variable minor_of : value -> value -> value.
Variable fuel : nat.
Local Notation Plain := (plain num strtod show16).
Local Notation Earth_ok := (earth_ok num strtod dotted show16 show6).
Local Notation Exact6 := (exact6 num show6).
Local Notation write := (proj4_of show16 show6).
Local Notation read := (create_by_proj4 num strtod dotted minor_of fuel).
Local Notation Words := (words show16 show6).

Definition writable (k : kind) (ps : list cattr) : Prop :=
  Earth_ok ps /\ (forall n z, In (n, z) (table k) -> Plain ps n) /\ (forall n, In n (lost k) -> param ps n = None) /\
  match k with
  | Stereographic => ~ polar_latitude ps /\ (param ps scale_origin = None \/ param ps parallel = None)
  | PolarStere => polar_latitude ps /\ param ps lon_pole <> None /\ (param ps scale_origin = None \/ param ps parallel = None)
  | _ => True
  end.

(** the keys of the texts *)
Definition written (k : kind) : string * list (string * string) :=
  match k with
  | Azimuthal => ("aeqd", [(lon_origin, "lon_0"); (lat_origin, "lat_0")])
  | LambertAzimuthal => ("laea", [(lon_origin, "lon_0"); (lat_origin, "lat_0")])
  | Orthographic => ("ortho", [(lon_origin, "lon_0"); (lat_origin, "lat_0")])
  | Geostationary => ("geos", [(lon_origin, "lon_0"); (lat_origin, "lat_0"); ("perspective_point_height", "h")])
  | Perspective => ("nsper", [(lon_origin, "lon_0"); (lat_origin, "lat_0"); ("perspective_point_height", "h")])
  | LambertCylindrical => ("cea", [(lon_meridian, "lon_0"); (parallel, "lat_ts"); (scale_origin, "k")])
  | Mercator => ("merc", [(lon_origin, "lon_0"); (parallel, "lat_ts")])
  | Oblique => ("omerc", [(lon_origin, "lonc"); (lat_origin, "lat_0"); ("azimuth_of_central_line", "alpha"); ("gamma", "gamma")])
  | Sinusoidal => ("sinu", [(lon_origin, "lon_0")])
  | Stereographic => ("stere", [(lat_origin, "lat_0"); (lon_origin, "lon_0"); (scale_origin, "k"); (parallel, "lat_ts")])
  | PolarStere => ("stere", [(lat_origin, "lat_0"); (lon_pole, "lon_0"); (scale_origin, "k"); (parallel, "lat_ts")])
  | Transverse => ("tmerc", [(lon_meridian, "lon_0"); (lat_origin, "lat_0")])
  | LatLong => ("latlong", [])
  | _ => ("", [])
  end.
Ltac name := let X := fresh "X" in let x := fresh "x" in
  split; [|split]; [intro X; cbn in X; intuition discriminate|intros x X; cbn in X; intuition (subst; reflexivity)|intro X; cbn in X; intuition discriminate].
Lemma written_keys k : keys_ok (snd (written k)).
Proof.
  assert (W : forall l, NoDup l -> (forall x, In x l -> In x ["lon_0"; "lat_0"; "h"; "lat_ts"; "k"; "lonc"; "alpha"; "gamma"]) ->
    forall wl : list (string * string), map snd wl = l -> keys_ok wl).
  { intros l N H wl E. split; [now rewrite E|]. intros x I. assert (J : In (snd x) l) by (rewrite <- E; now apply in_map). apply H in J. clear - J. destruct x as [n k]. cbn [snd] in *.
    destruct J as [<-|[<-|[<-|[<-|[<-|[<-|[<-|[<-|[]]]]]]]]]; (split; [name|split; [cbn; intuition discriminate|discriminate]]). }
  destruct k; cbn [written snd]; (eapply W; [| |reflexivity]); cbn [map snd];
    try (repeat constructor; cbn; intuition discriminate); intros x I; cbn in I; decompose [or] I; try contradiction; subst x; cbn; tauto.
Qed.
Lemma written_clean k : In k simple_kinds -> tidy (s_ (fst (written k))).
Proof.
  intro I. assert (J : In (fst (written k)) ["aeqd"; "laea"; "ortho"; "geos"; "nsper"; "cea"; "merc"; "omerc"; "sinu"; "stere"; "tmerc"; "latlong"]) by (destruct k; cbn in I |- *; try tauto; intuition discriminate).
  clear I. revert J. generalize (fst (written k)). intros p J. destruct J as [<-|[<-|[<-|[<-|[<-|[<-|[<-|[<-|[<-|[<-|[<-|[<-|[]]]]]]]]]]]]];
    (split; [discriminate|split; [intro X; cbn in X; intuition discriminate|intros x X; cbn in X; intuition (subst; reflexivity)]]).
Qed.
Lemma written_plain k ps : writable k ps -> forall x, In x (snd (written k)) -> Plain ps (fst x).
Proof.
  intros (_ & P & _) x I. assert (J : exists z, In (fst x, z) (table k)).
  { destruct k; cbn [written snd table] in *; cbn [In] in I; decompose [or] I; try contradiction; subst x; cbn [fst In]; eexists; first [now left | right; now left | right; right; now left | right; right; right; now left]. }
  destruct J as (z & J). now apply (P _ z).
Qed.
Lemma put_nothing ps n k : param ps n = None -> put show16 ps n k = [].
Proof. intro H. unfold put, put_opt. now rewrite H. Qed.
Lemma text_cons n k v l : text ((n, k, Some v) :: l) = (repeat " "%char n ++ "+"%char :: k ++ "="%char :: v) ++ text l.
Proof. reflexivity. Qed.
Ltac rw H := let X := fresh in pose proof H as X; cbn [String.append] in X; rewrite X; clear X.
Lemma write_words k ps : In k simple_kinds -> writable k ps -> write k ps = Ok (text (Words (fst (written k)) (snd (written k)) ps)).
Proof.
  intros I W. assert (P := written_plain k ps W). destruct W as (E & _ & L & S). unfold words. rewrite text_cons, text_app. rewrite <- (tail_text num strtod dotted) by exact E.
  destruct k; cbn in I; try (exfalso; clear - I; intuition discriminate); clear I; cbn [written fst snd map concat]; rewrite ?text_app; unfold proj4_of, part; cbn [obind];
    repeat match goal with |- context [text (oe show16 ps ?n ?q)] => rewrite <- (put_word num strtod show16 ps n q) by (apply (P (n, q)); cbn [written snd In]; auto 6) end;
    cbn [lost] in L; repeat match goal with |- context [put show16 ps ?n ?q] => rewrite (put_nothing ps n q) by (apply L; cbn [In]; auto 4; fail) end;
    f_equal; rewrite <- ?app_assoc; cbn [app]; reflexivity.
Qed.
Local Notation W k ps := (Words (fst (written k)) (snd (written k)) ps).
Definition read_keys : list string := ["lon_0"; "lat_0"; "h"; "lat_ts"; "k"; "lonc"; "alpha"; "gamma"; "sweep"].
Lemma read_keys_ok q : In q read_keys -> word_name (s_ q) /\ q <> "proj" /\ ~ In (s_ q) tail_keys.
Proof. intros [<-|[<-|[<-|[<-|[<-|[<-|[<-|[<-|[<-|[]]]]]]]]]]; (split; [name|split; [discriminate|cbn; intuition discriminate]]). Qed.
Lemma read_dflt k ps q n m : In k simple_kinds -> writable k ps -> In q read_keys -> find (fun x => String.eqb q (snd x)) (snd (written k)) = Some (m, q) ->
  dflt num q n (text (W k ps)) = Ok [dbl n (match value_of ps m with Some x => x | None => Some 0%Qc end)].
Proof.
  intros I H J F. destruct (read_keys_ok q J) as (N1 & N2 & N3).
  apply (words_dflt num strtod dotted); [apply written_keys|now apply written_clean|now apply written_plain|apply H|exact N1|exact N2|exact N3|exact F].
Qed.
Lemma read_opt k ps q n m : In k simple_kinds -> writable k ps -> In q read_keys -> find (fun x => String.eqb q (snd x)) (snd (written k)) = Some (m, q) ->
  opt num q n (text (W k ps)) = Ok (match value_of ps m with Some x => [dbl n x] | None => [] end).
Proof.
  intros I H J F. destruct (read_keys_ok q J) as (N1 & N2 & N3).
  apply (words_opt num strtod dotted); [apply written_keys|now apply written_clean|now apply written_plain|apply H|exact N1|exact N2|exact N3|exact F].
Qed.
Lemma read_opt_none k ps q n : In k simple_kinds -> writable k ps -> In q read_keys -> find (fun x => String.eqb q (snd x)) (snd (written k)) = None ->
  opt num q n (text (W k ps)) = Ok [].
Proof.
  intros I H J F. destruct (read_keys_ok q J) as (N1 & N2 & N3).
  apply (words_opt_none num strtod dotted); [apply written_keys|now apply written_clean|now apply written_plain|apply H|exact N1|exact N2|exact N3|exact F].
Qed.
Lemma read_key k ps q : In k simple_kinds -> writable k ps -> In q read_keys ->
  key q (text (W k ps)) = match find (fun x => String.eqb q (snd x)) (snd (written k)) with Some x => option_map show16 (value_of ps (fst x)) | None => None end.
Proof.
  intros I H J. destruct (read_keys_ok q J) as (N1 & N2 & N3).
  apply (words_key num strtod dotted); [apply written_keys|now apply written_clean|now apply written_plain|apply H|exact N1|exact N2|exact N3].
Qed.
Lemma read_earth k ps : In k simple_kinds -> writable k ps -> earth num dotted minor_of (text (W k ps)) = Ok (earth_atts ps).
Proof. intros I H. apply (words_earth num strtod); [apply written_keys|now apply written_clean|now apply written_plain|apply H]. Qed.
Lemma read_proj k ps : In k simple_kinds -> writable k ps -> key "proj" (text (W k ps)) = Some (s_ (fst (written k))).
Proof. intros I H. apply (words_proj num strtod dotted); [apply written_keys|now apply written_clean|now apply written_plain|apply H]. Qed.

Lemma stereo_exact k ps n v : writable k ps -> In n (map fst (table k)) -> value_of ps n = Some v -> exact num strtod show16 v.
Proof. intros (_ & P & _) I V. apply in_map_iff in I as ([m z] & <- & I). apply (plain_exact _ _ _ ps m); [now apply (P m z)|exact V]. Qed.
Lemma accept k ps : In k simple_kinds -> writable k ps -> accepting num (text (W k ps)) = Ok (Some k).
Proof.
  intros I H. unfold accepting. rewrite read_proj by assumption. pose proof (read_key k ps "lat_0" I H) as L. specialize (L ltac:(cbn; tauto)).
  destruct k; cbn in I; try (exfalso; clear - I; intuition discriminate); try reflexivity.
  - rewrite L. cbn [written fst]. replace (find _ simple_names) with (@None (string * kind)) by reflexivity. replace (str_eqb (s_ "stere") (s_ "stere")) with true by reflexivity. cbn [written snd find String.eqb Ascii.eqb Bool.eqb fst].
    destruct H as (E & P & Q & (v & V & A) & R). unfold lat_origin in *. cbn. rewrite V. cbn [option_map]. assert (X : exact num strtod show16 v) by (apply (plain_exact _ _ _ ps _ v (P lat_origin false ltac:(now left))); exact V).
    destruct X as (-> & _). cbn [obind]. now rewrite A.
  - rewrite L. cbn [written fst]. replace (find _ simple_names) with (@None (string * kind)) by reflexivity. replace (str_eqb (s_ "stere") (s_ "stere")) with true by reflexivity. cbn.
    destruct H as (E & P & Q & A & R). destruct (value_of ps lat_origin) as [v|] eqn:V; cbn [option_map]; [|reflexivity].
    assert (X : exact num strtod show16 v) by (apply (plain_exact _ _ _ ps _ v (P lat_origin false ltac:(now left))); exact V).
    destruct X as (-> & _). cbn [obind]. destruct (at_pole v) eqn:Z; [|reflexivity]. destruct A. now exists v.
Qed.

Definition zeroed (ps : list cattr) (n : string) : list cattr := [dbl n (match value_of ps n with Some x => x | None => Some 0%Qc end)].
Definition scaling (ps : list cattr) : list cattr := match value_of ps parallel with Some x => [dbl parallel x] | None => some_att ps scale_origin end.
Definition got (k : kind) (ps : list cattr) : list cattr :=
  match k with
  | Azimuthal | LambertAzimuthal | Orthographic => zeroed ps lon_origin ++ zeroed ps lat_origin
  | Geostationary => zeroed ps lon_origin ++ zeroed ps lat_origin ++ zeroed ps "perspective_point_height" ++ [text_att "sweep_axis" "y"]
  | Perspective => zeroed ps lon_origin ++ zeroed ps lat_origin ++ zeroed ps "perspective_point_height"
  | LambertCylindrical => zeroed ps lon_meridian ++ some_att ps parallel ++ some_att ps scale_origin
  | Mercator => zeroed ps lon_origin ++ some_att ps parallel
  | Oblique => zeroed ps lon_origin ++ some_att ps lat_origin ++ zeroed ps "azimuth_of_central_line" ++ zeroed ps "gamma"
  | Sinusoidal => zeroed ps lon_origin
  | Stereographic => some_att ps lon_origin ++ some_att ps lat_origin ++ scaling ps
  | PolarStere => some_att ps lon_pole ++ some_att ps lat_origin ++ scaling ps
  | Transverse => zeroed ps lon_meridian ++ some_att ps lat_origin
  | _ => []
  end.
Lemma stereo_words k ps m : k = Stereographic /\ m = lon_origin \/ k = PolarStere /\ m = lon_pole -> writable k ps -> stereo num strtod dotted minor_of (text (W k ps)) =
  Ok ([text_att "grid_mapping_name" "stereographic"] ++ (match value_of ps m with Some x => [dbl lon_origin x] | None => [] end) ++ some_att ps lat_origin ++ scaling ps ++ earth_atts ps).
Proof.
  intros KM H. assert (I : In k simple_kinds) by (destruct KM as [(-> & _)|(-> & _)]; cbn; tauto). unfold stereo. rewrite read_earth by assumption. cbn [obind].
  assert (X : forall n v, In n (map fst (table k)) -> value_of ps n = Some v -> strtod (show16 v) = v) by (intros n v In_ V; eapply stereo_exact in V; [apply V|exact H|exact In_]).
  rewrite !read_key by (assumption || (cbn; tauto)).
  assert (F : (find (fun x => String.eqb "lon_0" (snd x)) (snd (written k)) = Some (m, "lon_0")) /\ (find (fun x => String.eqb "lat_0" (snd x)) (snd (written k)) = Some (lat_origin, "lat_0")) /\
    (find (fun x => String.eqb "lat_ts" (snd x)) (snd (written k)) = Some (parallel, "lat_ts")) /\ (find (fun x => String.eqb "k" (snd x)) (snd (written k)) = Some (scale_origin, "k"))).
  { destruct KM as [(-> & ->)|(-> & ->)]; repeat split; reflexivity. }
  destruct F as (-> & -> & -> & ->). cbn [fst].
  assert (T : forall n, In n [m; lat_origin; parallel; scale_origin] -> In n (map fst (table k))) by (destruct KM as [(-> & ->)|(-> & ->)]; cbn; tauto).
  unfold scaling, some_att. destruct (value_of ps m) eqn:V1; destruct (value_of ps lat_origin) eqn:V2; destruct (value_of ps parallel) eqn:V3; destruct (value_of ps scale_origin) eqn:V4; cbn [option_map];
    repeat match goal with Q : value_of ps ?n = Some ?v |- _ => rewrite (X n v) by (try exact Q; apply T; cbn; tauto); clear Q end; reflexivity.
Qed.
Lemma read_atts k ps : In k simple_kinds -> writable k ps -> from_proj4 num strtod dotted minor_of fuel k (text (W k ps)) =
  Ok ((text_att "grid_mapping_name" (cf_name k) :: got k ps) ++ earth_atts ps).
Proof.
  intros I H. unfold from_proj4, origin. cbn [all].
  destruct k; try (exfalso; cbn in I; clear - I; intuition discriminate).
  - rewrite (read_dflt Azimuthal ps "lon_0" _ lon_origin I H ltac:(cbn; tauto) eq_refl), (read_dflt Azimuthal ps "lat_0" _ lat_origin I H ltac:(cbn; tauto) eq_refl), read_earth by assumption. cbn [obind app]. now rewrite app_nil_r.
  - rewrite (read_dflt Geostationary ps "lon_0" _ lon_origin I H ltac:(cbn; tauto) eq_refl), (read_dflt Geostationary ps "lat_0" _ lat_origin I H ltac:(cbn; tauto) eq_refl),
      (read_dflt Geostationary ps "h" _ "perspective_point_height" I H ltac:(cbn; tauto) eq_refl), read_earth by assumption. rewrite (read_key Geostationary ps "sweep") by (assumption || (cbn; tauto)). cbn [obind app]. now rewrite app_nil_r.
  - rewrite (read_dflt LambertAzimuthal ps "lon_0" _ lon_origin I H ltac:(cbn; tauto) eq_refl), (read_dflt LambertAzimuthal ps "lat_0" _ lat_origin I H ltac:(cbn; tauto) eq_refl), read_earth by assumption. cbn [obind app]. now rewrite app_nil_r.
  - rewrite (read_dflt LambertCylindrical ps "lon_0" _ lon_meridian I H ltac:(cbn; tauto) eq_refl), (read_opt LambertCylindrical ps "lat_ts" _ parallel I H ltac:(cbn; tauto) eq_refl),
      (read_opt LambertCylindrical ps "k" _ scale_origin I H ltac:(cbn; tauto) eq_refl), read_earth by assumption. cbn [obind app got]. rewrite app_nil_r, <- !app_assoc. reflexivity.
  - rewrite read_earth by assumption. cbn [obind app]. now rewrite app_nil_r.
  - rewrite (read_dflt Mercator ps "lon_0" _ lon_origin I H ltac:(cbn; tauto) eq_refl), (read_opt Mercator ps "lat_ts" _ parallel I H ltac:(cbn; tauto) eq_refl),
      (read_opt_none Mercator ps "k" _ I H ltac:(cbn; tauto) eq_refl), read_earth by assumption. cbn [obind app got]. rewrite app_nil_r, <- !app_assoc. reflexivity.
  - rewrite (read_dflt Oblique ps "lonc" _ lon_origin I H ltac:(cbn; tauto) eq_refl), (read_opt Oblique ps "lat_0" _ lat_origin I H ltac:(cbn; tauto) eq_refl),
      (read_dflt Oblique ps "alpha" _ "azimuth_of_central_line" I H ltac:(cbn; tauto) eq_refl), (read_dflt Oblique ps "gamma" _ "gamma" I H ltac:(cbn; tauto) eq_refl),
      (read_opt_none Oblique ps "k" _ I H ltac:(cbn; tauto) eq_refl), read_earth by assumption.
    rewrite flag_text; [cbn [obind app got]; rewrite app_nil_r, <- !app_assoc; cbn [app]; reflexivity|intros x X; cbn in X; intuition (subst; reflexivity)|intro X; cbn in X; intuition discriminate|cbn; tauto|
      apply (words_good num strtod dotted); [apply written_keys|now apply written_clean|now apply written_plain|apply H]| |].
    + intros w Iw. unfold words in Iw. destruct Iw as [<-|Iw]; [reflexivity|]. apply in_app_or in Iw as [Iw|Iw].
      * cbn [written snd map concat fst] in Iw. rewrite !in_app_iff in Iw. unfold oe in Iw. destruct (value_of ps lon_origin), (value_of ps lat_origin), (value_of ps "azimuth_of_central_line"), (value_of ps "gamma");
          cbn [In] in Iw; decompose [or] Iw; try contradiction; subst w; reflexivity.
      * unfold tail_words in Iw. rewrite !in_app_iff in Iw. destruct Iw as [Iw|[Iw|[Iw|[Iw|[<-|[]]]]]]; [| | | |reflexivity].
        -- unfold oe in Iw. destruct (value_of ps "false_easting"); [|destruct Iw]. destruct Iw as [<-|[]]. reflexivity.
        -- unfold oe in Iw. destruct (value_of ps "false_northing"); [|destruct Iw]. destruct Iw as [<-|[]]. reflexivity.
        -- unfold axes_words in Iw. destruct (value_of ps "earth_radius"); [|destruct (value_of ps "semi_major_axis"); [destruct (value_of ps "semi_minor_axis")|]]; destruct Iw as [<-|[<-|[]]]; reflexivity.
        -- unfold shift_words in Iw. destruct (param ps "towgs84"); [|destruct Iw]. destruct Iw as [<-|[]]. reflexivity.
    + assert (OE : forall n q w v, Plain ps n -> In w (oe show16 ps n q) -> snd w = Some v -> ~ In "_"%char v).
      { intros n q w v Pn Iw Q. unfold oe in Iw. destruct (value_of ps n) as [x|] eqn:V; [|destruct Iw]. destruct Iw as [<-|[]]. cbn in Q. injection Q as <-. apply (plain_exact num strtod show16) in V; [|exact Pn]. apply V. }
      assert (PW := written_plain Oblique ps H). destruct H as ((PE & _ & SH & DF) & _). intros w v Iw Q. unfold words in Iw. destruct Iw as [<-|Iw]; [injection Q as <-; cbn; intuition discriminate|]. apply in_app_or in Iw as [Iw|Iw].
      * apply in_concat in Iw as (l & Il & Iw). apply in_map_iff in Il as (x & <- & Ix). apply (OE (fst x) (snd x) w v); auto.
      * unfold tail_words in Iw. rewrite !in_app_iff in Iw. destruct Iw as [Iw|[Iw|[Iw|[Iw|[<-|[]]]]]]; [| | | |discriminate].
        -- apply (OE "false_easting" "x_0" w v); auto. apply PE. cbn. tauto.
        -- apply (OE "false_northing" "y_0" w v); auto. apply PE. cbn. tauto.
        -- assert (NV : forall n, Plain ps n -> value_of ps n = None -> param ps n = None).
           { intros n Pn V. unfold plain, value_of in *. destruct (param ps n); [|reflexivity]. destruct Pn as (_ & x & X & _). now rewrite X in V. }
           assert (R : Plain ps "earth_radius") by (apply PE; cbn; tauto). assert (MA : Plain ps "semi_major_axis") by (apply PE; cbn; tauto). assert (MI : Plain ps "semi_minor_axis") by (apply PE; cbn; tauto).
           unfold axes_words in Iw. destruct (value_of ps "earth_radius") as [r|] eqn:V1; [|destruct (value_of ps "semi_major_axis") as [a|] eqn:V2; [destruct (value_of ps "semi_minor_axis") as [b|] eqn:V3|]];
             destruct Iw as [<-|[<-|[]]]; cbn [snd] in Q; injection Q as <-; try (apply zero_clean).
           ++ apply (plain_exact num strtod show16) in V1; [|exact R]. apply V1.
           ++ apply (plain_exact num strtod show16) in V2; [|exact MA]. apply V2.
           ++ apply (plain_exact num strtod show16) in V3; [|exact MI]. apply V3.
           ++ apply (plain_exact num strtod show16) in V2; [|exact MA]. apply V2.
           ++ apply DF; now apply NV.
        -- unfold shift_words, shift_ok in *. destruct (param ps "towgs84"); [|destruct Iw]. destruct Iw as [<-|[]]. cbn in Q. injection Q as <-. apply SH.
  - rewrite (read_dflt Orthographic ps "lon_0" _ lon_origin I H ltac:(cbn; tauto) eq_refl), (read_dflt Orthographic ps "lat_0" _ lat_origin I H ltac:(cbn; tauto) eq_refl), read_earth by assumption. cbn [obind app]. now rewrite app_nil_r.
  - unfold polar. rewrite (stereo_words PolarStere ps lon_pole) by (tauto || assumption). cbn [obind app rename_first].
    replace (String.eqb "grid_mapping_name" (CdmModel.a_name (text_att "grid_mapping_name" "stereographic"))) with true by reflexivity.
    destruct H as (_ & P & _ & _ & L & _). specialize (P lon_pole false ltac:(right; now left)). unfold got. destruct (value_of ps lon_pole) as [x|] eqn:V.
    + unfold some_att. rewrite V. cbn. rewrite <- !app_assoc. reflexivity.
    + exfalso. unfold plain, value_of in *. destruct (param ps lon_pole); [|contradiction]. destruct P as (_ & x & Q & _). now rewrite Q in V.
  - rewrite (read_dflt Sinusoidal ps "lon_0" _ lon_origin I H ltac:(cbn; tauto) eq_refl), read_earth by assumption. cbn [obind app]. now rewrite app_nil_r.
  - rewrite (stereo_words Stereographic ps lon_origin) by (tauto || assumption). unfold got, some_att. cbn [app cf_name]. rewrite <- !app_assoc. reflexivity.
  - unfold transverse. cbn [all]. rewrite read_proj by assumption. replace (str_eqb (s_ (fst (written Transverse))) (s_ "utm")) with false by reflexivity.
    rewrite (read_dflt Transverse ps "lon_0" _ lon_meridian I H ltac:(cbn; tauto) eq_refl), (read_opt Transverse ps "lat_0" _ lat_origin I H ltac:(cbn; tauto) eq_refl),
      (read_opt_none Transverse ps "k" _ I H ltac:(cbn; tauto) eq_refl), read_earth by assumption. cbn [obind app got]. rewrite !app_nil_r. reflexivity.
  - rewrite (read_dflt Perspective ps "lon_0" _ lon_origin I H ltac:(cbn; tauto) eq_refl), (read_dflt Perspective ps "lat_0" _ lat_origin I H ltac:(cbn; tauto) eq_refl),
      (read_dflt Perspective ps "h" _ "perspective_point_height" I H ltac:(cbn; tauto) eq_refl), read_earth by assumption. cbn [obind app]. now rewrite app_nil_r.
Qed.

(** what is the same for all classes: the offsets, the figure of the earth and its shift *)
Definition same_earth (ps ps' : list cattr) : Prop :=
  (forall n, In n ["false_easting"; "false_northing"] -> value_of ps' n = value_of ps n) /\ figure ps' = figure ps /\ shift_of ps' = shift_of ps.

(** If the text can be read by createByProj4, the projection read has the same class, the same numbers and the same earth. *)
Theorem C96_round_trip k ps : In k simple_kinds -> writable k ps ->
  exists t ps', write k ps = Ok t /\ read t = Ok (k, ps') /\ NoDup (map aname ps') /\
    (forall n z, In (n, z) (table k) -> value_of ps' n = kept z (value_of ps n)) /\ same_earth ps ps'.
Proof.
  intros I H. exists (text (W k ps)).
  assert (N : forall a, In a (got k ps) -> In (aname a) ["longitude_of_projection_origin"; "latitude_of_projection_origin"; "longitude_of_central_meridian"; "straight_vertical_longitude_from_pole";
     "scale_factor_at_projection_origin"; "standard_parallel"; "perspective_point_height"; "sweep_axis"; "azimuth_of_central_line"; "gamma"]).
  { intros a Ia. unfold got, zeroed, some_att, scaling, some_att in Ia.
    destruct k; rewrite ?in_app_iff in Ia;
      repeat match goal with
      | Q : _ \/ _ |- _ => destruct Q
      | Q : In _ (match value_of ps ?n with _ => _ end) |- _ => destruct (value_of ps n)
      | Q : In _ [] |- _ => destruct Q
      | Q : In _ [_] |- _ => destruct Q as [<-|[]]
      end; cbn; tauto. }
  destruct (create_named k (got k ps) ps) as (ps' & C & P).
  { intros a Ia J. apply N in Ia. revert J. cbn in Ia. clear - Ia. generalize dependent (aname a). intros m Ia J. cbn in J. decompose [or] Ia; try contradiction; subst m; intuition discriminate. }
  { intros a Ia. apply N in Ia. intro E. rewrite E in Ia. cbn in Ia. intuition discriminate. }
  exists ps'. split; [now apply write_words|]. split.
  { unfold create_by_proj4. rewrite accept by assumption. cbn [obind]. rewrite read_atts by assumption. exact C. }
  split; [apply P|]. apply figure_back in P.
  2: { intros a [<-|Ia] J; [cbn in J; intuition discriminate|]. apply N in Ia. revert J. cbn in Ia. clear - Ia. generalize dependent (aname a). intros m Ia J. cbn in J. decompose [or] Ia; try contradiction; subst m; intuition discriminate. }
  destruct P as (P1 & P2 & P3 & P4). split; [|split; [exact P1|split; [exact P2|exact P3]]].
  assert (X : match k with Stereographic | PolarStere => value_of ps scale_origin = None \/ value_of ps parallel = None | _ => True end).
  { unfold value_of. destruct k; try exact Logic.I; destruct H as (_ & _ & _ & H); [destruct H as (_ & _ & [-> | ->])|destruct H as (_ & [-> | ->])]; auto. }
  clear - X P4 I. intros n z J. unfold value_of at 1. rewrite P4.
  - clear P4. destruct k; cbn [table] in J; cbn [In] in J;
      repeat match goal with Q : _ \/ _ |- _ => destruct Q | Q : False |- _ => destruct Q | Q : (_, _) = (n, z) |- _ => injection Q as <- <- end;
      cbn [got]; unfold zeroed, scaling, some_att;
      repeat match goal with Q : value_of ps ?m = None |- _ => rewrite Q; clear Q end;
      repeat match goal with |- context [value_of ps ?m] => destruct (value_of ps m) end; reflexivity.
  - assert (T : In n (map fst (table k))) by (apply in_map_iff; now exists (n, z)). destruct k; cbn in T; intro E; cbn in E; intuition (subst; discriminate).
Qed.
End Trip.

Print Assumptions C96_round_trip.
