(** C96: the PROJ.4 texts of conic and rotated projections, and the findings about texts. *)
From Coq Require Import PeanoNat NArith ZArith QArith Qcanon Ascii String List Bool Lia.
From Verif Require Import Base StdMap SliceModel RegridModel StringModel StringProofs TextModel SpecModel ConvertModel CdmModel NmlModel CfvertProps ProjModel ProjProps ProjTripProofs ProjTripProps.
Import ListNotations.
Local Open Scope string_scope.
Local Open Scope list_scope.
Local Open Scope nat_scope.

Section Trip.
Variable num : str -> outcome value.
Variable strtod : str -> value.
Variable dotted : str -> outcome (list value).
Variable show16 show6 : value -> str.
Variable minor_of : value -> value -> value.
Variable fuel : nat.
Local Notation Plain := (plain num strtod show16).
Local Notation Earth_ok := (earth_ok num strtod dotted show16 show6).
Local Notation Exact6 := (exact6 num show6).
Local Notation write := (proj4_of show16 show6).
Local Notation read := (create_by_proj4 num strtod dotted minor_of fuel).
Ltac name := let X := fresh "X" in let x := fresh "x" in
  split; [|split]; [intro X; cbn in X; intuition discriminate|intros x X; cbn in X; intuition (subst; reflexivity)|intro X; cbn in X; intuition discriminate].

(** ** conic and rotated projections *)

(** the words before those of all classes *)
Lemma good_head ps h : Earth_ok ps -> Forall word_ok h -> parted h -> h <> [] -> good (h ++ tail_words show16 show6 ps).
Proof.
  intros E O P N. split; [apply Forall_app; split; [exact O|now apply (tail_ok num strtod dotted)]|]. intros w I. destruct h as [|x h]; [contradiction|]. cbn [app tl] in I. apply in_app_or in I as [I|I]; [now apply P|].
  now apply tail_parted in I.
Qed.
Lemma key_head q ps h : good (h ++ tail_words show16 show6 ps) -> word_name (s_ q) -> ~ In (s_ q) tail_keys -> key q (text (h ++ tail_words show16 show6 ps)) = lookup [s_ q] h.
Proof.
  intros G N T. rewrite key_text by assumption. rewrite lookup_app, lookup_tail_none; [now destruct (lookup [s_ q] h)|]. intros k [<-|[]]. exact T.
Qed.

Definition conic_head (p : string) (x y : str) (ps : list cattr) : list word :=
  [(0, s_ "proj", Some (s_ p)); (1, s_ "lat_1", Some x); (1, s_ "lat_2", Some y)] ++ oe show16 ps lon_meridian "lon_0" ++ oe show16 ps lat_origin "lat_0".
Definition conic_name (k : kind) : string := match k with Albers => "aea" | _ => "lcc" end.
Lemma conic_good k x y ps : Earth_ok ps -> Plain ps lon_meridian -> Plain ps lat_origin -> tidy x -> tidy y -> good (conic_head (conic_name k) x y ps ++ tail_words show16 show6 ps).
Proof.
  intros E P1 P2 X Y. apply good_head; [exact E| | |discriminate].
  - unfold conic_head. apply Forall_app. split.
    + constructor; [split; [name|]|].
      { cbn [snd]. unfold conic_name. split; [destruct k; discriminate|split; [destruct k; intro Q; cbn in Q; intuition discriminate|destruct k; intros q Q; cbn in Q; intuition (subst; reflexivity)]]. }
      constructor; [split; [name|exact X]|]. constructor; [split; [name|exact Y]|constructor].
    + apply Forall_app. split; apply (oe_ok num strtod); try assumption; name.
  - intros w I. unfold conic_head in I. cbn [app tl] in I. destruct I as [<-|[<-|I]]; [cbn; lia..|]. apply in_app_or in I as [I|I]; now apply oe_parted in I.
Qed.
Lemma oe_foreign ps n q : ~ In (s_ q) tail_keys -> foreign_words (oe show16 ps n q).
Proof. intros H w I. unfold oe in I. destruct (value_of ps n); [|destruct I]. destruct I as [<-|[]]. exact H. Qed.
Lemma conic_words k x y ps a b : Earth_ok ps -> Plain ps lon_meridian -> Plain ps lat_origin -> tidy x -> tidy y -> num x = Ok a -> num y = Ok b -> k = Albers \/ k = LambertConic ->
  exists ps', read (text (conic_head (conic_name k) x y ps ++ tail_words show16 show6 ps)) = Ok (k, ps') /\ NoDup (map aname ps') /\
    param ps' parallel = Some (mkAttr parallel DDouble [a; b] "") /\ value_of ps' lon_meridian = kept true (value_of ps lon_meridian) /\ value_of ps' lat_origin = kept true (value_of ps lat_origin) /\ same_earth ps ps'.
Proof.
  intros E P1 P2 X Y A B K. assert (G := conic_good k x y ps E P1 P2 X Y). set (h := conic_head (conic_name k) x y ps) in *.
  assert (KEY : forall q, In q ["proj"; "lat_1"; "lat_2"; "lon_0"; "lat_0"] -> key q (text (h ++ tail_words show16 show6 ps)) = lookup [s_ q] h).
  { intros q I. apply key_head; [exact G|destruct I as [<-|[<-|[<-|[<-|[<-|[]]]]]]; name|destruct I as [<-|[<-|[<-|[<-|[<-|[]]]]]]; cbn; intuition discriminate]. }
  assert (EA : earth num dotted minor_of (text (h ++ tail_words show16 show6 ps)) = Ok (earth_atts ps)).
  { apply (earth_back num strtod); [exact E|exact G|]. intros w I. unfold h, conic_head in I. apply in_app_or in I as [I|I]; [destruct I as [<-|[<-|[<-|[]]]]; cbn; intuition discriminate|].
    apply in_app_or in I as [I|I]; apply oe_foreign in I; try exact I; cbn; intuition discriminate. }
  assert (D1 : dflt num "lon_0" lon_meridian (text (h ++ tail_words show16 show6 ps)) = Ok (zeroed ps lon_meridian)).
  { unfold dflt. rewrite KEY by (cbn; tauto). unfold h, conic_head, zeroed. rewrite !lookup_app, !lookup_oe. cbn [lookup].
    destruct (value_of ps lon_meridian) as [v|] eqn:V; [|reflexivity]. apply (plain_exact num strtod show16) in V; [|exact P1]. destruct V as (V & _). cbn. now rewrite V. }
  assert (D2 : dflt num "lat_0" lat_origin (text (h ++ tail_words show16 show6 ps)) = Ok (zeroed ps lat_origin)).
  { unfold dflt. rewrite KEY by (cbn; tauto). unfold h, conic_head, zeroed. rewrite !lookup_app, !lookup_oe. cbn [lookup].
    destruct (value_of ps lat_origin) as [v|] eqn:V; [|now destruct (value_of ps lon_meridian)]. apply (plain_exact num strtod show16) in V; [|exact P2]. destruct V as (V & _). cbn. destruct (value_of ps lon_meridian); cbn; now rewrite V. }
  assert (PA : parallels num (text (h ++ tail_words show16 show6 ps)) = Ok [mkAttr parallel DDouble [a; b] ""]).
  { unfold parallels. rewrite !KEY by (cbn; tauto). unfold h, conic_head. cbn. rewrite A. cbn. rewrite B. reflexivity. }
  set (l := [mkAttr parallel DDouble [a; b] ""] ++ zeroed ps lon_meridian ++ zeroed ps lat_origin).
  assert (N : forall at_, In at_ l -> aname at_ = parallel \/ aname at_ = lon_meridian \/ aname at_ = lat_origin).
  { unfold l, zeroed. intros at_ [<-|[<-|[<-|[]]]]; auto. }
  destruct (create_named k l ps) as (ps' & C & P).
  { intros at_ I. apply N in I as [-> |[-> | ->]]; intro Q; cbn in Q; intuition discriminate. }
  { intros at_ I. apply N in I as [-> |[-> | ->]]; discriminate. }
  exists ps'. split.
  { unfold create_by_proj4. assert (AC : accepting num (text (h ++ tail_words show16 show6 ps)) = Ok (Some k)) by (unfold accepting; rewrite KEY by (cbn; tauto); destruct K as [-> | ->]; reflexivity).
    rewrite AC. cbn [obind]. unfold from_proj4. cbn [all].
    assert (F : (do a0 <- all [parallels num (text (h ++ tail_words show16 show6 ps)); dflt num "lon_0" "longitude_of_central_meridian" (text (h ++ tail_words show16 show6 ps));
      dflt num "lat_0" "latitude_of_projection_origin" (text (h ++ tail_words show16 show6 ps)); earth num dotted minor_of (text (h ++ tail_words show16 show6 ps))]; Ok (text_att "grid_mapping_name" (cf_name k) :: a0)) =
      Ok ((text_att "grid_mapping_name" (cf_name k) :: l) ++ earth_atts ps)).
    { fold lon_meridian lat_origin. cbn [all]. rewrite PA, D1, D2, EA. cbn [obind]. unfold l. rewrite app_nil_r, <- ?app_assoc. reflexivity. }
    rewrite <- C. destruct K as [-> | ->]; cbn [all] in F; rewrite F; reflexivity. }
  split; [apply P|]. apply figure_back in P.
  2: { intros at_ [<-|I] Q; [cbn in Q; intuition discriminate|]. apply N in I as [X0|[X0|X0]]; rewrite X0 in Q; cbn in Q; intuition discriminate. }
  destruct P as (Q1 & Q2 & Q3 & Q4). unfold value_of at 1 3. rewrite !Q4 by (cbn; intuition discriminate). unfold l, zeroed. cbn [last_named rev app]. unfold same_earth.
  split; [reflexivity|]. split; [cbn; now destruct (value_of ps lon_meridian)|]. split; [cbn; now destruct (value_of ps lat_origin)|]. auto.
Qed.

(** A conic projection gets back the first standard parallel twice unless it has three or more. *)
Theorem C96_conic k ps p x l : k = Albers \/ k = LambertConic -> Earth_ok ps -> Plain ps lon_meridian -> Plain ps lat_origin ->
  param ps parallel = Some p -> a_nums p = x :: l -> Exact6 x -> (forall y z r, l = y :: z :: r -> Exact6 y) ->
  exists t ps' p', write k ps = Ok t /\ read t = Ok (k, ps') /\ param ps' parallel = Some p' /\
    a_nums p' = [x; match l with y :: _ :: _ => y | _ => x end] /\
    value_of ps' lon_meridian = kept true (value_of ps lon_meridian) /\ value_of ps' lat_origin = kept true (value_of ps lat_origin) /\ same_earth ps ps'.
Proof.
  intros K E P1 P2 PA N X Y. set (y := match l with y :: _ :: _ => y | _ => x end).
  assert (Y' : Exact6 y) by (unfold y; destruct l as [|y0 [|z r]]; [exact X|exact X|now apply (Y y0 z r)]).
  destruct (conic_words k (show6 x) (show6 y) ps x y) as (ps' & R & _ & A & B & C & D); try assumption; try apply X; try apply Y'.
  exists (text (conic_head (conic_name k) (show6 x) (show6 y) ps ++ tail_words show16 show6 ps)), ps', (mkAttr parallel DDouble [x; y] "").
  split; [|split; [exact R|split; [exact A|split; [reflexivity|auto]]]].
  rewrite text_app. rewrite <- (tail_text num strtod dotted) by exact E. unfold conic_head. rewrite !text_app. rewrite <- (put_word num strtod show16 ps lon_meridian "lon_0"), <- (put_word num strtod show16 ps lat_origin "lat_0") by assumption.
  unfold proj4_of, part, conic_text. fold parallel. destruct K as [-> | ->]; rewrite PA, N; cbn [obind]; fold y; f_equal; unfold text; cbn [map concat render repeat app s_ list_ascii_of_string conic_name String.append]; rewrite ?app_nil_r, <- ?app_assoc;
    cbn [app]; rewrite <- ?app_assoc; cbn [app]; rewrite <- ?app_assoc; reflexivity.
Qed.
(** Finding: of two standard parallels the second is not written (`size() > 2`): another cone. *)
Theorem C96_second_parallel_refuted k ps p x y : k = Albers \/ k = LambertConic -> Earth_ok ps -> Plain ps lon_meridian -> Plain ps lat_origin ->
  param ps parallel = Some p -> a_nums p = [x; y] -> x <> y -> Exact6 x ->
  exists t ps' p', write k ps = Ok t /\ read t = Ok (k, ps') /\ param ps' parallel = Some p' /\ a_nums p' = [x; x] /\ a_nums p' <> a_nums p.
Proof.
  intros K E P1 P2 PA N D X. destruct (C96_conic k ps p x [y] K E P1 P2 PA N X) as (t & ps' & p' & W & R & Q & V & _); [intros; discriminate|].
  exists t, ps', p'. split; [exact W|]. split; [exact R|]. split; [exact Q|]. split; [exact V|]. rewrite V, N. congruence.
Qed.

Definition pole_lon := "grid_north_pole_longitude".
Definition pole_lat := "grid_north_pole_latitude".
Definition grid_lon := "north_pole_grid_longitude".
Definition rotated_head (ps : list cattr) : list word :=
  [(0, s_ "proj", Some (s_ "ob_tran")); (1, s_ "o_proj", Some (s_ "longlat"))] ++
  match value_of ps pole_lon with Some x => [(1, s_ "lon_0", Some (show6 (vadd x (Some (z2q (-180))))))] | None => [] end ++
  oe show16 ps pole_lat "o_lat_p" ++ oe show16 ps grid_lon "o_lon_p".
(** the pole: a finite longitude between -180 and 180 *)
Definition within180 (x : value) : Prop := match x with Some q => qlt (z2q 180) q = false /\ qlt q (z2q (-180)) = false | None => False end.
Definition rotated_ok (ps : list cattr) : Prop :=
  match param ps pole_lon with None => True | Some a => exists x, a_nums a = [x] /\ within180 x /\ Exact6 (vadd x (Some (z2q (-180)))) end.
Lemma up180_same n x : qlt x (z2q (-180)) = false -> up180 n x = Ok x.
Proof. intro H. destruct n; cbn [up180]; now rewrite H. Qed.
Lemma down180_same n x : qlt (z2q 180) x = false -> down180 n x = Ok x.
Proof. intro H. destruct n; cbn [down180]; now rewrite H. Qed.
Lemma pole_back x : within180 x -> norm180 fuel (vadd (Some (z2q 180)) (vadd x (Some (z2q (-180))))) = Ok x.
Proof.
  unfold within180. destruct x as [q|]; [|intros []]. intros (A & B). cbn [vadd norm180]. replace (z2q 180 + (q + z2q (-180)))%Qc with q.
  2: { replace (z2q (-180)) with (- z2q 180)%Qc by (apply Qc_is_canon; reflexivity). ring. }
  rewrite up180_same by exact B. cbn [obind]. rewrite down180_same by exact A. reflexivity.
Qed.

(** A rotated pole keeps its longitude between -180 and 180 and its latitude; the longitude of the pole in the grid only
    if it is positive. *)
Theorem C96_rotated ps : Earth_ok ps -> Plain ps pole_lat -> Plain ps grid_lon -> rotated_ok ps ->
  exists t ps', write Rotated ps = Ok t /\ read t = Ok (Rotated, ps') /\ NoDup (map aname ps') /\
    value_of ps' pole_lon = Some (match value_of ps pole_lon with Some x => x | None => Some (z2q 180) end) /\
    value_of ps' pole_lat = Some (match value_of ps pole_lat with Some x => x | None => Some (z2q 90) end) /\
    value_of ps' grid_lon = match value_of ps grid_lon with Some (Some g) => if qlt (Q2Qc (1 # 10000)) g then Some (Some g) else None | _ => None end /\
    same_earth ps ps'.
Proof.
  intros E P1 P2 RO. set (h := rotated_head ps).
  assert (PL : forall x, value_of ps pole_lon = Some x -> within180 x /\ Exact6 (vadd x (Some (z2q (-180))))).
  { unfold value_of, rotated_ok in *. destruct (param ps pole_lon) as [a|]; [|discriminate]. destruct RO as (x & -> & A & B). intros y Q. injection Q as <-. auto. }
  assert (G : good (h ++ tail_words show16 show6 ps)).
  { apply good_head; [exact E| | |discriminate].
    - unfold h, rotated_head. apply Forall_app. split; [|apply Forall_app; split; [|apply Forall_app; split; apply (oe_ok num strtod); try assumption; name]].
      + constructor; [|constructor; [|constructor]]; (split; [name|]); cbn [snd]; (split; [discriminate|split; [intro Q; cbn in Q; intuition discriminate|]]); intros q Q; cbn in Q; intuition (subst; reflexivity).
      + destruct (value_of ps pole_lon) as [x|] eqn:V; [|constructor]. constructor; [|constructor]. split; [name|]. apply (PL x eq_refl).
    - intros w I. unfold h, rotated_head in I. cbn [app tl] in I. destruct I as [<-|I]; [cbn; lia|]. apply in_app_or in I as [I|I].
      + destruct (value_of ps pole_lon); [|destruct I]. destruct I as [<-|[]]. cbn. lia.
      + apply in_app_or in I as [I|I]; now apply oe_parted in I. }
  assert (KEY : forall q, In q ["proj"; "o_proj"; "lon_0"; "o_lat_p"; "o_lon_p"] -> key q (text (h ++ tail_words show16 show6 ps)) = lookup [s_ q] h).
  { intros q I. apply key_head; [exact G|destruct I as [<-|[<-|[<-|[<-|[<-|[]]]]]]; name|destruct I as [<-|[<-|[<-|[<-|[<-|[]]]]]]; cbn; intuition discriminate]. }
  assert (EA : earth num dotted minor_of (text (h ++ tail_words show16 show6 ps)) = Ok (earth_atts ps)).
  { apply (earth_back num strtod); [exact E|exact G|]. intros w I. unfold h, rotated_head in I. apply in_app_or in I as [I|I]; [destruct I as [<-|[<-|[]]]; cbn; intuition discriminate|].
    apply in_app_or in I as [I|I]; [destruct (value_of ps pole_lon); [|destruct I]; destruct I as [<-|[]]; cbn; intuition discriminate|].
    apply in_app_or in I as [I|I]; apply oe_foreign in I; try exact I; cbn; intuition discriminate. }
  assert (LA : or_num num "o_lat_p" (Some (z2q 90)) (text (h ++ tail_words show16 show6 ps)) = Ok (match value_of ps pole_lat with Some x => x | None => Some (z2q 90) end)).
  { unfold or_num. rewrite KEY by (cbn; tauto). unfold h, rotated_head. rewrite !lookup_app, !lookup_oe. destruct (value_of ps pole_lon) as [x0|], (value_of ps pole_lat) as [v|] eqn:V;
      try (apply (plain_exact num strtod show16) in V; [|exact P1]; destruct V as (V & _)); cbn; rewrite ?V; now destruct (value_of ps grid_lon). }
  assert (GL : or_num num "o_lon_p" (Some 0%Qc) (text (h ++ tail_words show16 show6 ps)) = Ok (match value_of ps grid_lon with Some x => x | None => Some 0%Qc end)).
  { unfold or_num. rewrite KEY by (cbn; tauto). unfold h, rotated_head. rewrite !lookup_app, !lookup_oe. destruct (value_of ps pole_lon) as [x0|], (value_of ps grid_lon) as [v|] eqn:V;
      try (apply (plain_exact num strtod show16) in V; [|exact P2]; destruct V as (V & _)); destruct (value_of ps pole_lat); cbn; rewrite ?V; reflexivity. }
  assert (LO : (do lon <- or_num num "lon_0" (Some 0%Qc) (text (h ++ tail_words show16 show6 ps)); norm180 fuel (vadd (Some (z2q 180)) lon)) = Ok (match value_of ps pole_lon with Some x => x | None => Some (z2q 180) end)).
  { unfold or_num. rewrite KEY by (cbn; tauto). unfold h, rotated_head. rewrite !lookup_app, !lookup_oe. destruct (value_of ps pole_lon) as [x|] eqn:V.
    - destruct (PL x eq_refl) as (A & B & _). cbn [lookup existsb]. replace (str_eqb (s_ "lon_0") (s_ "lon_0")) with true by reflexivity. cbn [orb]. cbn -[vadd z2q]. rewrite B. cbn [obind]. now apply pole_back.
    - destruct (value_of ps pole_lat), (value_of ps grid_lon); cbn -[vadd z2q norm180]; cbn [vadd norm180]; rewrite up180_same by reflexivity; cbn [obind]; rewrite down180_same by reflexivity; cbn [obind]; do 2 f_equal; apply Qc_is_canon; reflexivity. }
  set (pl := match value_of ps pole_lon with Some x => x | None => Some (z2q 180) end) in *. set (la := match value_of ps pole_lat with Some x => x | None => Some (z2q 90) end) in *.
  set (g := match value_of ps grid_lon with Some x => x | None => Some 0%Qc end) in *.
  set (l := [dbl pole_lon pl; dbl pole_lat la] ++ (if match g with Some g => qlt (Q2Qc (1 # 10000)) g | None => false end then [dbl grid_lon g] else [])).
  assert (N : forall a, In a l -> aname a = pole_lon \/ aname a = pole_lat \/ aname a = grid_lon).
  { intros a [<-|[<-|I]]; auto. destruct (match g with Some g => _ | None => _ end); [|destruct I]. destruct I as [<-|[]]; auto. }
  destruct (create_named Rotated l ps) as (ps' & C & P).
  { intros a I. apply N in I as [-> |[-> | ->]]; intro Q; cbn in Q; intuition discriminate. }
  { intros a I. apply N in I as [-> |[-> | ->]]; discriminate. }
  exists (text (h ++ tail_words show16 show6 ps)), ps'. split.
  { rewrite text_app. rewrite <- (tail_text num strtod dotted) by exact E. unfold h, rotated_head. rewrite !text_app. rewrite <- (put_word num strtod show16 ps pole_lat "o_lat_p"), <- (put_word num strtod show16 ps grid_lon "o_lon_p") by assumption.
    unfold proj4_of, part. fold pole_lon. unfold value_of, rotated_ok in *. destruct (param ps pole_lon) as [a|].
    - destruct RO as (x & -> & _). cbn [hd_error obind]. f_equal. unfold text. cbn [map concat render repeat app s_ list_ascii_of_string]. rewrite ?app_nil_r, <- ?app_assoc. cbn [app]. rewrite <- ?app_assoc. cbn [app]. rewrite <- ?app_assoc. reflexivity.
    - cbn [obind]. rewrite <- ?app_assoc. reflexivity. }
  split.
  { unfold create_by_proj4. assert (AC : accepting num (text (h ++ tail_words show16 show6 ps)) = Ok (Some Rotated)) by (unfold accepting; rewrite (KEY "proj"), (KEY "o_proj") by (cbn; tauto); reflexivity).
    rewrite AC. cbn [obind from_proj4]. unfold rotated. rewrite LA, GL. cbn [obind].
    destruct (or_num num "lon_0" (Some 0%Qc) (text (h ++ tail_words show16 show6 ps))) as [lon| | |]; cbn [obind] in LO |- *; try discriminate. rewrite LO. cbn [obind]. rewrite EA. cbn [obind].
    rewrite <- C. reflexivity. }
  split; [apply P|]. apply figure_back in P.
  2: { intros a [<-|I] Q; [cbn in Q; intuition discriminate|]. apply N in I as [X0|[X0|X0]]; rewrite X0 in Q; cbn in Q; intuition discriminate. }
  destruct P as (Q1 & Q2 & Q3 & Q4). unfold value_of at 1 2 3. rewrite !Q4 by (cbn; intuition discriminate). unfold l, same_earth.
  split; [destruct (match g with Some g => _ | None => _ end); reflexivity|]. split; [destruct (match g with Some g => _ | None => _ end); reflexivity|]. split; [|auto].
  unfold g. destruct (value_of ps grid_lon) as [[v|]|]; [destruct (qlt (Q2Qc (1 # 10000)) v); reflexivity|reflexivity|reflexivity].
Qed.
(** Finding: a negative longitude of the pole in the grid is lost. *)
Theorem C96_grid_longitude_refuted ps g : Earth_ok ps -> Plain ps pole_lat -> Plain ps grid_lon -> rotated_ok ps -> value_of ps grid_lon = Some (Some g) -> (g < 0)%Qc ->
  exists t ps', write Rotated ps = Ok t /\ read t = Ok (Rotated, ps') /\ value_of ps' grid_lon = None.
Proof.
  intros E P1 P2 RO V G. destruct (C96_rotated ps E P1 P2 RO) as (t & ps' & A & B & _ & _ & _ & C & _). exists t, ps'. split; [exact A|]. split; [exact B|]. rewrite C, V.
  replace (qlt (Q2Qc (1 # 10000)) g) with false; [reflexivity|]. symmetry. unfold qlt. destruct (Q2Qc (1 # 10000) ?= g)%Qc eqn:X; try reflexivity. exfalso. apply Qclt_alt in X.
  apply (Qclt_not_le _ _ (Qclt_trans _ _ _ X G)). discriminate.
Qed.
End Trip.

Print Assumptions C96_conic.
Print Assumptions C96_second_parallel_refuted.
Print Assumptions C96_rotated.
Print Assumptions C96_grid_longitude_refuted.
