(** C98: the figure of the earth, the shift of the datum and the UTM zone read from any PROJ.4 text. *)
From Coq Require Import PeanoNat NArith ZArith QArith Qcanon Ascii String List Bool Lia.
From Verif Require Import Base StdMap SliceModel RegridModel StringModel StringProofs StringProps TextModel SpecModel ConvertModel CdmModel NmlModel CfvertProps ProjModel ProjProps ProjTripProofs ProjTripProps ProjConicProps ProjEarthProps.
Import ListNotations.
Local Open Scope string_scope.
Local Open Scope list_scope.
Local Open Scope nat_scope.

Definition figure_names : list string := ["earth_radius"; "semi_major_axis"; "semi_minor_axis"; "inverse_flattening"; "towgs84"].
Definition no_figure (l : list cattr) : Prop := forall a, In a l -> ~ In (aname a) figure_names.

Lemma no_figure_app a b : no_figure a -> no_figure b -> no_figure (a ++ b).
Proof. intros A B x I. apply in_app_or in I as [I|I]; auto. Qed.
Lemma last_no_figure l n : no_figure l -> In n figure_names -> last_named l n = None.
Proof.
  intros F I. unfold last_named. destruct (find _ _) as [a|] eqn:E; [|reflexivity]. apply find_some in E as (Ia & E). apply String.eqb_eq in E as ->. apply in_rev in Ia. now destruct (F a Ia).
Qed.
Lemma since_no_figure l : no_figure l -> forall acc, fold_left (fun acc a => if String.eqb (aname a) "earth_radius" then [] else acc ++ [a]) l acc = acc ++ l.
Proof.
  induction l as [|a l IH]; intros F acc; cbn [fold_left]; [now rewrite app_nil_r|]. destruct (String.eqb_spec (aname a) "earth_radius") as [E|E].
  - destruct (F a (or_introl eq_refl)). rewrite E. now left.
  - rewrite IH by (intros x I; apply F; now right). now rewrite <- app_assoc.
Qed.

Section Read.
Variable num : str -> outcome value.
Variable strtod : str -> value.
Variable dotted : str -> outcome (list value).
Variable minor_of : value -> value -> value.
Variable fuel : nat.
Local Notation reads := (create_by_proj4 num strtod dotted minor_of fuel).

Definition single_ok (o : outcome (list cattr)) : Prop := forall l, o = Ok l -> no_figure l.
Lemma opt_ok k n s : ~ In n figure_names -> single_ok (opt num k n s).
Proof. intros N l H. unfold opt in H. destruct (key k s); [destruct (num s0); cbn [obind] in H; try discriminate|]; injection H as <-; intros x I; [destruct I as [<-|[]]; exact N|destruct I]. Qed.
Lemma dflt_ok k n s : ~ In n figure_names -> single_ok (dflt num k n s).
Proof. intros N l H. unfold dflt in H. destruct (key k s); [destruct (num s0); cbn [obind] in H; try discriminate|]; injection H as <-; intros x I; destruct I as [<-|[]]; exact N. Qed.
Lemma all_ok l : Forall single_ok l -> single_ok (all l).
Proof.
  induction l as [|o l IH]; intros F r H; cbn [all] in H; [injection H as <-; intros a []|]. inversion_clear F as [|? ? F1 F2]. destruct o as [a| | |]; cbn [obind] in H; try discriminate. destruct (all l) as [b| | |]; cbn [obind] in H; try discriminate.
  injection H as <-. apply no_figure_app; [now apply F1|now apply IH].
Qed.
Lemma all_app l m r : all (l ++ m) = Ok r -> exists a b, all l = Ok a /\ all m = Ok b /\ r = a ++ b.
Proof.
  revert r. induction l as [|o l IH]; intros r H; cbn [List.app all] in H |- *; [exists [], r; auto|]. destruct o as [x| | |]; cbn [obind] in H |- *; try discriminate. destruct (all (l ++ m)) as [y| | |] eqn:E; cbn [obind] in H; try discriminate.
  injection H as <-. destruct (IH y eq_refl) as (a & b & -> & B & ->). exists (x ++ a), b. cbn [obind]. split; [reflexivity|]. split; [exact B|apply app_assoc].
Qed.
Lemma earth_has x e s : earth num dotted minor_of s = Ok e -> In x e -> In (aname x) ("false_easting" :: "false_northing" :: figure_names).
Proof.
  intros E I. unfold earth in E. cbn [all] in E. unfold opt in E.
  assert (K : forall a n k t v, key k s = t -> match t with Some t => do v <- num t; Ok [dbl n v] | None => Ok [] end = Ok v -> In a v -> aname a = n).
  { intros a n k t v _ H J. destruct t as [t|]; [destruct (num t); cbn [obind] in H; try discriminate; injection H as <-; destruct J as [<-|[]]; reflexivity|injection H as <-; destruct J]. }
  match type of E with (do _ <- ?o; _) = _ => destruct o as [a1| | |] eqn:E1; cbn [obind] in E; try discriminate end.
  match type of E with (do _ <- (do _ <- ?o; _); _) = _ => destruct o as [a2| | |] eqn:E2; cbn [obind] in E; try discriminate end.
  destruct (axes_att num minor_of s) as [a3| | |] eqn:E3; cbn [obind] in E; try discriminate.
  destruct (ellipsoid_att s) as [a4| | |] eqn:E4; cbn [obind] in E; try discriminate.
  destruct (towgs_att dotted s) as [a5| | |] eqn:E5; cbn [obind] in E; try discriminate. injection E as <-. rewrite app_nil_r in I.
  apply in_app_or in I as [I|I]; [left; symmetry; eapply K; [reflexivity|exact E1|exact I]|]. apply in_app_or in I as [I|I]; [right; left; symmetry; eapply K; [reflexivity|exact E2|exact I]|].
  right. right. clear E1 E2 K. apply in_app_or in I as [I|I]; [|apply in_app_or in I as [I|I]].
  - unfold axes_att in E3. destruct (search not_space _ s) as [t|]; [|injection E3 as <-; destruct I]. destruct (num t) as [v| | |]; cbn [obind] in E3; try discriminate.
    match type of E3 with (do _ <- ?o; _) = _ => destruct o as [[b|]| | |]; cbn [obind] in E3; try discriminate end; [injection E3 as <-; cbn in I; decompose [or] I; try contradiction; subst x; cbn; tauto|].
    destruct (key "b" s) as [u|]; [destruct (num u); cbn [obind] in E3; try discriminate|]; injection E3 as <-; cbn in I; decompose [or] I; try contradiction; subst x; cbn; tauto.
  - unfold ellipsoid_att in E4. destruct (match key "ellps" s with Some t => Some t | None => key "datum" s end) as [t|]; [|injection E4 as <-; destruct I]. destruct (string2lowerCase t) as [w| | |]; cbn [obind] in E4; try discriminate. injection E4 as <-.
    unfold ellipsoid in I. repeat match type of I with In _ (if ?b then _ else _) => destruct b end; cbn in I; decompose [or] I; try contradiction; subst x; cbn; tauto.
  - unfold towgs_att in E5. destruct (key "towgs84" s) as [t|]; [destruct (dotted t)|destruct (key "datum" s) as [t|]; [destruct (string2lowerCase t)|]]; cbn [obind] in E5; try discriminate; injection E5 as <-; destruct I as [<-|[]] || destruct I; cbn; tauto.
Qed.
(** The attributes of the earth are those of proj4GetEarthAttributes. *)
Lemma split_earth k s l : from_proj4 num strtod dotted minor_of fuel k s = Ok l -> exists a e b, earth num dotted minor_of s = Ok e /\ l = a ++ e ++ b /\ no_figure a /\ no_figure b.
Proof.
  assert (S : forall (m : list (outcome (list cattr))) r, Forall single_ok m -> (do a <- all (m ++ [earth num dotted minor_of s]); Ok (text_att "grid_mapping_name" (cf_name k) :: a)) = Ok r ->
    exists a e b, earth num dotted minor_of s = Ok e /\ r = a ++ e ++ b /\ no_figure a /\ no_figure b).
  { intros m r F H. destruct (all (m ++ [earth num dotted minor_of s])) as [x| | |] eqn:E; cbn [obind] in H; try discriminate. injection H as <-. apply all_app in E as (a & b & A & B & ->). cbn [all] in B.
    destruct (earth num dotted minor_of s) as [e| | |]; cbn [obind] in B; try discriminate. injection B as <-. exists (text_att "grid_mapping_name" (cf_name k) :: a), e, []. split; [reflexivity|]. split; [reflexivity|]. split.
    - intros z [<-|I]; [intros [X|[X|[X|[X|[X|[]]]]]]; discriminate|]. eapply all_ok; eassumption.
    - intros z []. }
  assert (N : forall n, In n ["longitude_of_projection_origin"; "latitude_of_projection_origin"; "longitude_of_central_meridian"; "standard_parallel"; "scale_factor_at_projection_origin"; "scale_factor_at_central_meridian"; "perspective_point_height"; "azimuth_of_central_line"; "gamma"] -> ~ In n figure_names).
  { intros n I X. cbn in I, X. intuition (subst; discriminate). }
  assert (NT : forall n t, In n ["grid_mapping_name"; "sweep_axis"; "no_rotation"; "proj4"] -> no_figure [text_att n t]).
  { intros n t I a [<-|[]] X. cbn in I, X. intuition (subst; discriminate). }
  assert (OR : single_ok (origin num s)) by (apply all_ok; repeat constructor; apply dflt_ok, N; cbn; tauto).
  assert (PA : single_ok (parallels num s)).
  { intros r H. unfold parallels in H. destruct (key "lat_1" s); [|injection H as <-; intros x []]. destruct (num s0); cbn [obind] in H; try discriminate. destruct (key "lat_2" s); [destruct (num s1); cbn [obind] in H; try discriminate|]; injection H as <-;
      intros x [<-|[]] X; cbn in X; intuition discriminate. }
  assert (ST : forall r, stereo num strtod dotted minor_of s = Ok r -> exists a e, earth num dotted minor_of s = Ok e /\ r = text_att "grid_mapping_name" "stereographic" :: a ++ e /\ no_figure a /\ forall x, In x a -> aname x <> "grid_mapping_name").
  { intros r H. unfold stereo in H. destruct (earth num dotted minor_of s) as [e| | |]; cbn [obind] in H; try discriminate. match type of H with Ok (_ ++ ?a ++ ?b ++ ?c ++ e) = _ => exists (a ++ b ++ c), e end. injection H as <-. split; [reflexivity|]. split; [cbn [List.app]; now rewrite <- !app_assoc|].
    assert (T : forall k n x, In n ["longitude_of_projection_origin"; "latitude_of_projection_origin"; "standard_parallel"; "scale_factor_at_projection_origin"] -> In x (match key k s with Some t => [dbl n (strtod t)] | None => [] end) -> aname x = n).
    { intros k0 n x _ I. destruct (key k0 s); [destruct I as [<-|[]]; reflexivity|destruct I]. }
    assert (W : forall x, In x ((match key "lon_0" s with Some t => [dbl "longitude_of_projection_origin" (strtod t)] | None => [] end) ++ (match key "lat_0" s with Some t => [dbl "latitude_of_projection_origin" (strtod t)] | None => [] end) ++
       match (match key "lat_ts" s with Some t => [dbl "standard_parallel" (strtod t)] | None => [] end) with [] => (match key "k" s with Some t => [dbl "scale_factor_at_projection_origin" (strtod t)] | None => [] end) | l => l end) ->
       In (aname x) ["longitude_of_projection_origin"; "latitude_of_projection_origin"; "standard_parallel"; "scale_factor_at_projection_origin"]).
    { intros x I. apply in_app_or in I as [I|I]; [apply T in I; [rewrite I|]; cbn; tauto|]. apply in_app_or in I as [I|I]; [apply T in I; [rewrite I|]; cbn; tauto|].
      destruct (key "lat_ts" s); [destruct I as [<-|[]]; cbn; tauto|]. apply T in I; [rewrite I|]; cbn; tauto. }
    split; [intros x I; apply N; apply W in I; cbn in I |- *; tauto|]. intros x I X. apply W in I. rewrite X in I. cbn in I. intuition discriminate. }
  set (UT := if match key "proj" s with Some p => str_eqb p (s_ "utm") | None => false end then utm num s
       else all [dflt num "lon_0" "longitude_of_central_meridian" s; opt num "lat_0" "latitude_of_projection_origin" s; opt num "k" "scale_factor_at_central_meridian" s]).
  assert (UTK : single_ok UT).
  { unfold UT. destruct (match key "proj" s with Some p => _ | None => _ end).
    - intros r H. unfold utm in H. do 2 match type of H with (do _ <- ?x; _) = _ => destruct x as [?| | |] eqn:?; cbn [obind] in H; try discriminate end. assert (HH : forall a b : list cattr, Ok a = Ok b -> a = b) by congruence. apply HH in H. subst r.
      apply no_figure_app; [intros x [<-|[<-|[<-|[]]]] X; cbn in X; intuition discriminate|].
      assert (ME : forall r (o : option str) (f : str -> outcome value), match o with None => Ok [] | Some t => do v <- f t; Ok [dbl "longitude_of_central_meridian" v] end = Ok r -> no_figure r).
      { intros r o f Q. destruct o as [t|]; [destruct (f t); cbn [obind] in Q; try discriminate; injection Q as <-; intros x [<-|[]]; apply N; cbn; tauto|injection Q as <-; intros x I; destruct I]. }
      apply no_figure_app; [|apply no_figure_app].
      + destruct (search is_digit [s_ "+zone="] s) as [t|]; [|injection Heqo as <-; intros x I; destruct I]. destruct (32767 <? dec_value t)%Z; [discriminate|]. injection Heqo as <-. intros x [<-|[]]. apply N. cbn. tauto.
      + eapply ME. eassumption.
      + destruct (flag "south" s); [intros x [<-|[]] X; cbn in X; intuition discriminate|intros x I; destruct I].
    - apply all_ok. repeat apply Forall_cons; try apply Forall_nil; try (apply dflt_ok, N; cbn; tauto); try (apply opt_ok, N; cbn; tauto). }
  unfold from_proj4. intro H. destruct k.
  - apply (S [parallels num s; dflt num "lon_0" "longitude_of_central_meridian" s; dflt num "lat_0" "latitude_of_projection_origin" s]); [|exact H]. repeat apply Forall_cons; try apply Forall_nil; try assumption; try (apply dflt_ok, N; cbn; tauto); try (apply opt_ok, N; cbn; tauto).
  - apply (S [origin num s]); [|exact H]. repeat apply Forall_cons; try apply Forall_nil; try assumption; try (apply dflt_ok, N; cbn; tauto); try (apply opt_ok, N; cbn; tauto).
  - apply (S [origin num s; dflt num "h" "perspective_point_height" s; Ok [text_att "sweep_axis" (match key "sweep" s with Some t => st t | None => "y" end)]]); [|exact H]. repeat apply Forall_cons; try apply Forall_nil; try assumption; try (apply dflt_ok, N; cbn; tauto); try (apply opt_ok, N; cbn; tauto). intros r Q. injection Q as <-. apply NT. cbn; tauto.
  - apply (S [origin num s]); [|exact H]. repeat apply Forall_cons; try apply Forall_nil; try assumption; try (apply dflt_ok, N; cbn; tauto); try (apply opt_ok, N; cbn; tauto).
  - apply (S [parallels num s; dflt num "lon_0" "longitude_of_central_meridian" s; dflt num "lat_0" "latitude_of_projection_origin" s]); [|exact H]. repeat apply Forall_cons; try apply Forall_nil; try assumption; try (apply dflt_ok, N; cbn; tauto); try (apply opt_ok, N; cbn; tauto).
  - apply (S [dflt num "lon_0" "longitude_of_central_meridian" s; opt num "lat_ts" "standard_parallel" s; opt num "k" "scale_factor_at_projection_origin" s]); [|exact H]. repeat apply Forall_cons; try apply Forall_nil; try assumption; try (apply dflt_ok, N; cbn; tauto); try (apply opt_ok, N; cbn; tauto).
  - apply (S []); [|exact H]. repeat apply Forall_cons; try apply Forall_nil; try assumption; try (apply dflt_ok, N; cbn; tauto); try (apply opt_ok, N; cbn; tauto).
  - apply (S [dflt num "lon_0" "longitude_of_projection_origin" s; opt num "lat_ts" "standard_parallel" s; opt num "k" "scale_factor_at_projection_origin" s]); [|exact H]. repeat apply Forall_cons; try apply Forall_nil; try assumption; try (apply dflt_ok, N; cbn; tauto); try (apply opt_ok, N; cbn; tauto).
  - apply (S [dflt num "lonc" "longitude_of_projection_origin" s; opt num "lat_0" "latitude_of_projection_origin" s; dflt num "alpha" "azimuth_of_central_line" s; dflt num "gamma" "gamma" s; opt num "k" "scale_factor_at_projection_origin" s; Ok (if flag "no_rot" s then [text_att "no_rotation" ""] else [])]); [|exact H]. repeat apply Forall_cons; try apply Forall_nil; try assumption; try (apply dflt_ok, N; cbn; tauto); try (apply opt_ok, N; cbn; tauto). intros r Q. injection Q as <-. destruct (flag "no_rot" s); [apply NT; cbn; tauto|intros x I; destruct I].
  - apply (S [origin num s]); [|exact H]. repeat apply Forall_cons; try apply Forall_nil; try assumption; try (apply dflt_ok, N; cbn; tauto); try (apply opt_ok, N; cbn; tauto).
  - unfold polar in H. destruct (stereo num strtod dotted minor_of s) as [r| | |]; cbn [obind] in H; try discriminate. destruct (ST r eq_refl) as (a & e & E & -> & F & G).
    cbn [rename_first] in H. replace (String.eqb "grid_mapping_name" (aname (text_att "grid_mapping_name" "stereographic"))) with true in H by reflexivity. cbn [rename_first] in H. replace (String.eqb "longitude_of_projection_origin" (aname (text_att "grid_mapping_name" "polar_stereographic"))) with false in H by reflexivity.
    assert (EN : forall x, In x e -> aname x <> "longitude_of_projection_origin") by (intros x I; apply (earth_has x e s E) in I; intro X; rewrite X in I; cbn in I; intuition discriminate).
    assert (R : forall f l, (forall x, aname (f x) = "straight_vertical_longitude_from_pole") -> rename_first "longitude_of_projection_origin" f (a ++ e) = Some l -> exists a', l = a' ++ e /\ no_figure a').
    { intros f l0 Ff. clear H G ST S. revert l0. induction a as [|x a IH]; intros l0 H.
      - exfalso. cbn [List.app] in H. clear - H EN. revert l0 H. induction e as [|y e IH]; intros l0 H; [discriminate|]. cbn [rename_first] in H. destruct (String.eqb_spec "longitude_of_projection_origin" (aname y)) as [X|X]; [apply (EN y (or_introl eq_refl)); congruence|].
        destruct (rename_first "longitude_of_projection_origin" f e) as [m|]; [|discriminate]. apply (IH (fun z I => EN z (or_intror I)) m eq_refl).
      - cbn [List.app rename_first] in H. destruct (String.eqb "longitude_of_projection_origin" (aname x)).
        + injection H as <-. exists (f x :: a). split; [reflexivity|]. intros z [<-|I]; [rewrite Ff; intros X; cbn in X; intuition discriminate|apply F; now right].
        + destruct (rename_first "longitude_of_projection_origin" f (a ++ e)) as [m|]; [|discriminate]. injection H as <-. destruct (IH (fun z I => F z (or_intror I)) m eq_refl) as (a' & -> & Fa). exists (x :: a'). split; [reflexivity|]. intros z [<-|I]; [apply F; now left|now apply Fa]. }
    match type of H with match option_map _ ?x with _ => _ end = _ => destruct x as [l2|] eqn:E2; cbn [option_map] in H; [|discriminate] end. injection H as <-. apply R in E2 as (a' & -> & Fa); [|reflexivity].
    exists (text_att "grid_mapping_name" "polar_stereographic" :: a'), e, []. split; [exact E|]. split; [now rewrite app_nil_r|]. split; [intros x [<-|I]; [apply (NT "grid_mapping_name" "polar_stereographic"); [cbn; tauto|now left]|now apply Fa]|intros x I; destruct I].
  - unfold rotated in H. do 4 match type of H with (do _ <- ?x; _) = _ => destruct x as [?| | |]; cbn [obind] in H; try discriminate end. destruct (earth num dotted minor_of s) as [e| | |]; cbn [obind] in H; try discriminate.
    match type of H with Ok (?a ++ ?b ++ e) = _ => exists (a ++ b), e, [] end. split; [reflexivity|]. injection H as <-. split; [rewrite ?app_nil_r, <- ?app_assoc; reflexivity|]. split; [|intros x I; destruct I].
    apply no_figure_app; [intros x [<-|[<-|[<-|[]]]] X; cbn in X; intuition discriminate|]. match goal with |- no_figure (if ?b then _ else _) => destruct b end; [intros x [<-|[]] X; cbn in X; intuition discriminate|intros x I; destruct I].
  - apply (S [dflt num "lon_0" "longitude_of_projection_origin" s]); [|exact H]. repeat apply Forall_cons; try apply Forall_nil; try assumption; try (apply dflt_ok, N; cbn; tauto); try (apply opt_ok, N; cbn; tauto).
  - destruct (ST l H) as (a & e & E & -> & F & _). exists (text_att "grid_mapping_name" "stereographic" :: a), e, []. split; [exact E|]. split; [now rewrite app_nil_r|]. split; [intros x [<-|I]; [apply (NT "grid_mapping_name" "stereographic"); [cbn; tauto|now left]|now apply F]|intros x I; destruct I].
  - destruct (transverse num dotted minor_of s) as [r| | |] eqn:T; cbn [all obind] in H; try discriminate. apply (S [UT]); [constructor; [exact UTK|constructor]|]. change (all ([UT] ++ [earth num dotted minor_of s])) with (transverse num dotted minor_of s). rewrite T. cbn [obind]. now rewrite <- H, app_nil_r.
  - cbn [all] in H. destruct (earth num dotted minor_of s) as [e| | |]; cbn [obind] in H; try discriminate. injection H as <-. exists [text_att "grid_mapping_name" (cf_name Unknown)], e, [text_att "proj4" (st s)].
    split; [reflexivity|]. split; [reflexivity|]. split; apply NT; cbn; tauto.
  - apply (S [origin num s; dflt num "h" "perspective_point_height" s]); [|exact H]. repeat apply Forall_cons; try apply Forall_nil; try assumption; try (apply dflt_ok, N; cbn; tauto); try (apply opt_ok, N; cbn; tauto).
Qed.

(** the four attributes of the figure *)
Definition four : list string := ["earth_radius"; "semi_major_axis"; "semi_minor_axis"; "inverse_flattening"].
Definition no_four (l : list cattr) : Prop := forall a, In a l -> ~ In (aname a) four.
Lemma last_no_four l n : no_four l -> In n four -> last_named l n = None.
Proof.
  clear num strtod dotted minor_of fuel.
  intros F I. unfold last_named. destruct (find _ _) as [a|] eqn:E; [|reflexivity]. apply find_some in E as (Ia & E). apply String.eqb_eq in E as ->. apply in_rev in Ia. now destruct (F a Ia).
Qed.
Lemma since_no_four l : no_four l -> forall acc, fold_left (fun acc a => if String.eqb (aname a) "earth_radius" then [] else acc ++ [a]) l acc = acc ++ l.
Proof.
  clear num strtod dotted minor_of fuel.
  induction l as [|a l IH]; intros F acc; cbn [fold_left]; [now rewrite app_nil_r|]. destruct (String.eqb_spec (aname a) "earth_radius") as [E|E].
  - destruct (F a (or_introl eq_refl)). rewrite E. now left.
  - rewrite IH by (intros x I; apply F; now right). now rewrite <- app_assoc.
Qed.
Lemma since_acc l : forall acc, fold_left (fun acc a => if String.eqb (aname a) "earth_radius" then [] else acc ++ [a]) l acc =
  if existsb (fun a => String.eqb (aname a) "earth_radius") l then since_radius l else acc ++ l.
Proof.
  clear num strtod dotted minor_of fuel. unfold since_radius.
  induction l as [|a l IH] using rev_ind; intro acc; [cbn; now rewrite app_nil_r|]. rewrite !fold_left_app. cbn [fold_left]. rewrite existsb_app. cbn [existsb]. destruct (String.eqb (aname a) "earth_radius"); [now rewrite orb_true_r|].
  rewrite !orb_false_r, IH. destruct (existsb _ l); [reflexivity|]. now rewrite app_assoc.
Qed.
Lemma since_between a m b n : no_four a -> no_four b -> In n four -> last_named (since_radius (a ++ m ++ b)) n = last_named (since_radius m) n.
Proof.
  clear num strtod dotted minor_of fuel.
  intros A B I. unfold since_radius at 1. rewrite !fold_left_app, (since_no_four b B), (since_no_four a A). cbn [List.app]. rewrite last_named_app, (last_no_four b n B I). rewrite since_acc.
  destruct (existsb _ m) eqn:E; [reflexivity|]. rewrite last_named_app, (last_no_four a n A I). unfold since_radius. rewrite since_acc, E. cbn [List.app]. now destruct (last_named m n).
Qed.
Lemma last_between a m b n : no_four a -> no_four b -> In n four -> last_named (a ++ m ++ b) n = last_named m n.
Proof. clear num strtod dotted minor_of fuel. intros A B I. rewrite !last_named_app, (last_no_four a n A I), (last_no_four b n B I). now destruct (last_named m n). Qed.

(** The four attributes depend on the axes and the ellipsoid of the text only. *)
Lemma figure_parts s k ps : reads s = Ok (k, ps) -> exists x y, axes_att num minor_of s = Ok x /\ ellipsoid_att s = Ok y /\
  (forall n, is_semi n -> param ps n = last_named (since_radius (x ++ y)) n) /\
  ((exists n, is_semi n /\ param ps n <> None) <-> param ps "earth_radius" = None) /\
  (forall a, param ps "earth_radius" = Some a -> last_named (x ++ y) "earth_radius" = Some a \/
     last_named (x ++ y) "earth_radius" = None /\ a = mkAttr "earth_radius" DDouble [Some (z2q 6371000)] "").
Proof.
  intro H. unfold create_by_proj4 in H. destruct (accepting num s) as [[j|]| | |]; cbn [obind] in H; try discriminate. destruct (from_proj4 num strtod dotted minor_of fuel j s) as [l| | |] eqn:F; cbn [obind] in H; try discriminate.
  apply split_earth in F as (a & e & b & E & -> & Fa & Fb). apply C95_parameters in H as (_ & _ & _ & _ & P1 & P2 & P3).
  assert (W : forall l, no_figure l -> no_four l). { intros l A x I X. apply (A x I). cbn in X |- *. tauto. } apply W in Fa, Fb. clear W.
  unfold earth in E. cbn [all] in E. unfold opt in E.
  assert (K : forall n k v, ~ In n four -> match key k s with Some t => do v <- num t; Ok [dbl n v] | None => Ok [] end = Ok v -> no_four v).
  { intros n k0 v N Q. destruct (key k0 s) as [t|]; [destruct (num t); cbn [obind] in Q; try discriminate; injection Q as <-; intros z [<-|[]]; exact N|injection Q as <-; intros z I; destruct I]. }
  match type of E with (do _ <- ?o; _) = _ => destruct o as [a1| | |] eqn:E1; cbn [obind] in E; try discriminate end.
  match type of E with (do _ <- (do _ <- ?o; _); _) = _ => destruct o as [a2| | |] eqn:E2; cbn [obind] in E; try discriminate end.
  destruct (axes_att num minor_of s) as [x| | |] eqn:E3; cbn [obind] in E; try discriminate.
  destruct (ellipsoid_att s) as [y| | |] eqn:E4; cbn [obind] in E; try discriminate.
  destruct (towgs_att dotted s) as [a5| | |] eqn:E5; cbn [obind] in E; try discriminate. injection E as <-.
  apply K in E1; [|intro X; cbn in X; intuition discriminate]. apply K in E2; [|intro X; cbn in X; intuition discriminate].
  assert (T : no_four a5).
  { unfold towgs_att in E5. destruct (key "towgs84" s) as [t|]; [destruct (dotted t)|destruct (key "datum" s) as [t|]; [destruct (string2lowerCase t)|]]; cbn [obind] in E5; try discriminate; injection E5 as <-; intros z I; first [destruct I as [<-|[]]|destruct I]; intro X; cbn in X; intuition discriminate. }
  assert (AP : forall l m, no_four l -> no_four m -> no_four (l ++ m)) by (intros l m A B z I; apply in_app_or in I as [I|I]; auto).
  assert (Q : a ++ (a1 ++ a2 ++ x ++ y ++ a5 ++ []) ++ b = (a ++ a1 ++ a2) ++ (x ++ y) ++ (a5 ++ b)) by (rewrite app_nil_r, <- !app_assoc; reflexivity). rewrite Q in P1, P3.
  exists x, y. split; [reflexivity|]. split; [reflexivity|]. split; [|split; [exact P2|]].
  - intros n I. rewrite (P1 n I). apply since_between; auto. destruct I as [-> |[-> | ->]]; cbn; tauto.
  - intros z Z. rewrite last_between in P3; auto. now left.
Qed.

(** the ellipsoids with two axes *)
Definition ellipsoids : list (string * Q * Q) :=
  [("wgs84", 6378137, 6356752.3142); ("nad83", 6378137, 6356752.3); ("grs80", 6378137, 6356752.3141); ("etrs89", 6378137, 6356752.3141); ("nad27", 6378206.4, 6356583.8);
   ("wgs72", 6378135, 6356750.52); ("iers89", 6378136, 6356751.302); ("iers03", 6378136.6, 6356751.9); ("intl", 6378388, 6356909)]%Q.
(** the name given by ellps, or else by datum, in lower case *)
Definition earth_name (s : str) (w : str) : Prop :=
  exists t, (key "ellps" s = Some t \/ key "ellps" s = None /\ key "datum" s = Some t) /\ string2lowerCase t = Ok w.
Definition axis (s : str) : option str := search not_space [s_ "+a="; s_ "+R="] s.
(** the figure given by a or R, e and b *)
Definition axes_figure (s : str) (f : value * value) : Prop :=
  match axis s with
  | None => f = (Some (z2q 6371000), Some (z2q 6371000))
  | Some t => exists a, num t = Ok a /\
      match key "e" s with
      | Some e => if string_dec (st e) "0" then match key "b" s with Some u => exists b, num u = Ok b /\ f = (a, b) | None => f = (a, a) end
                  else exists x, num e = Ok x /\ f = (a, minor_of a x)
      | None => match key "b" s with Some u => exists b, num u = Ok b /\ f = (a, b) | None => f = (a, a) end
      end
  end.

Lemma axes_shape s x : axes_att num minor_of s = Ok x ->
  x = [] /\ axis s = None \/
  exists v, (exists t, axis s = Some t /\ num t = Ok v) /\
    ((exists u, x = [dbl "semi_major_axis" v; dbl "semi_major_axis" v; dbl "semi_minor_axis" u] /\
        match key "e" s with
        | Some e => if string_dec (st e) "0" then exists b, key "b" s = Some b /\ num b = Ok u else exists q, num e = Ok q /\ u = minor_of v q
        | None => exists b, key "b" s = Some b /\ num b = Ok u
        end) \/
     x = [dbl "semi_major_axis" v; dbl "earth_radius" v] /\ key "b" s = None /\ (forall e, key "e" s = Some e -> st e = "0")).
Proof.
  intro H. unfold axes_att in H. fold (axis s) in H. destruct (axis s) as [t|]; [|left; split; [now injection H|reflexivity]]. right. destruct (num t) as [v| | |] eqn:NT; cbn [obind] in H; try discriminate. exists v. split; [exists t; auto|].
  assert (Z : forall e : str, str_eqb e (s_ "0") = true <-> st e = "0").
  { intro e. rewrite str_eqb_eq. split; [intros ->; reflexivity|]. intro Q. rewrite <- (s_st e), Q. reflexivity. }
  destruct (key "e" s) as [e|] eqn:KE.
  - destruct (str_eqb e (s_ "0")) eqn:E0.
    + cbn [obind] in H. apply Z in E0. destruct (key "b" s) as [u|]; [destruct (num u) as [b| | |] eqn:NB; cbn [obind] in H; try discriminate|]; injection H as <-.
      * left. exists b. split; [reflexivity|]. destruct (string_dec (st e) "0"); [|contradiction]. exists u. auto.
      * right. split; [reflexivity|]. split; [reflexivity|]. intros e' Q. congruence.
    + destruct (num e) as [q| | |] eqn:NE; cbn [obind] in H; try discriminate. injection H as <-. left. eexists. split; [reflexivity|]. destruct (string_dec (st e) "0") as [Q|Q]; [apply Z in Q; congruence|]. exists q. auto.
  - cbn [obind] in H. destruct (key "b" s) as [u|]; [destruct (num u) as [b| | |] eqn:NB; cbn [obind] in H; try discriminate|]; injection H as <-.
    + left. exists b. split; [reflexivity|]. exists u. auto.
    + right. split; [reflexivity|]. split; [reflexivity|]. intros e' Q. discriminate.
Qed.
Lemma ellps_name s w y : earth_name s w -> ellipsoid_att s = Ok y -> y = ellipsoid w.
Proof. intros (t & K & L) H. unfold ellipsoid_att in H. destruct K as [K|(K1 & K2)]; [rewrite K in H|rewrite K1, K2 in H]; rewrite L in H; cbn [obind] in H; now injection H. Qed.

(** A known ellipsoid is the figure, whatever else is given. *)
Theorem C98_ellipsoid s k ps w a b : reads s = Ok (k, ps) -> earth_name s w -> In (st w, a, b) ellipsoids ->
  figure ps = (Some (Q2Qc a), Some (Q2Qc b)) /\ param ps "earth_radius" = None /\ param ps "inverse_flattening" = None.
Proof.
  intros H W I. apply figure_parts in H as (x & y & X & Y & P1 & P2 & _). apply (ellps_name s w y W) in Y. clear W.
  assert (Z : y = [dbl "semi_major_axis" (Some (Q2Qc a)); dbl "semi_minor_axis" (Some (Q2Qc b))]).
  { rewrite Y. assert (WW : w = s_ (st w)) by (symmetry; apply s_st). rewrite WW. clear - I. cbn [ellipsoids In] in I.
    repeat match type of I with _ \/ _ => destruct I as [I|I]; [injection I as <- <- <-; vm_compute; reflexivity|] end. destruct I. }
  assert (A := axes_shape s x X). clear X Y. subst y.
  destruct A as [(-> & _)|(v & _ & [(u & -> & _)|(-> & _)])];
    (assert (M := P1 "semi_major_axis" ltac:(now left)); assert (N := P1 "semi_minor_axis" ltac:(right; now left)); assert (F := P1 "inverse_flattening" ltac:(right; now right)); cbn in M, N, F;
     assert (R : param ps "earth_radius" = None) by (apply P2; exists "semi_major_axis"; split; [now left|rewrite M; discriminate]);
     split; [unfold figure, value_of; rewrite R, M, N; reflexivity|split; assumption]).
Qed.
(** Bessel's ellipsoid has an axis and a flattening; a short axis is there only if it is given as well. *)
Theorem C98_bessel s k ps w : reads s = Ok (k, ps) -> earth_name s w -> w = s_ "bessel" ->
  value_of ps "semi_major_axis" = Some (Some (Q2Qc 6377397.155)) /\ value_of ps "inverse_flattening" = Some (Some (Q2Qc 299.1528128)) /\ param ps "earth_radius" = None /\
  (axis s = None -> param ps "semi_minor_axis" = None).
Proof.
  intros H W I. apply figure_parts in H as (x & y & X & Y & P1 & P2 & _). apply (ellps_name s w y W) in Y. clear W. subst w.
  assert (Z : y = [dbl "semi_major_axis" (Some (Q2Qc 6377397.155)); dbl "inverse_flattening" (Some (Q2Qc 299.1528128))]) by (rewrite Y; vm_compute; reflexivity).
  assert (A := axes_shape s x X). clear X Y. subst y.
  destruct A as [(-> & _)|(v & T & [(u & -> & _)|(-> & _)])];
    (assert (M := P1 "semi_major_axis" ltac:(now left)); assert (N := P1 "semi_minor_axis" ltac:(right; now left)); assert (F := P1 "inverse_flattening" ltac:(right; now right)); cbn in M, N, F;
     assert (R : param ps "earth_radius" = None) by (apply P2; exists "semi_major_axis"; split; [now left|rewrite M; discriminate]);
     split; [unfold value_of; rewrite M; reflexivity|split; [unfold value_of; rewrite F; reflexivity|split; [assumption|]]]); intro Q; try exact N; destruct T as (t & T & _); congruence.
Qed.
(** Without a known ellipsoid the figure is given by the axes, and there is no flattening. *)
Theorem C98_axes s k ps : reads s = Ok (k, ps) -> (forall w, earth_name s w -> st w <> "bessel" /\ forall a b, ~ In (st w, a, b) ellipsoids) ->
  axes_figure s (figure ps) /\ param ps "inverse_flattening" = None.
Proof.
  intros H W. apply figure_parts in H as (x & y & X & Y & P1 & P2 & P3).
  assert (Z : y = []).
  { unfold ellipsoid_att in Y. destruct (match key "ellps" s with Some t => Some t | None => key "datum" s end) as [t|] eqn:E; [|now injection Y]. destruct (string2lowerCase t) as [w| | |] eqn:L; cbn [obind] in Y; try discriminate. injection Y as <-.
    destruct (W w) as (W1 & W2); [exists t; split; [|exact L]; destruct (key "ellps" s); [left; congruence|right; auto]|]. clear - W1 W2. unfold ellipsoid.
    repeat match goal with |- (if ?c then _ else _) = _ => destruct c eqn:?; [exfalso; repeat match goal with Q : _ || _ = true |- _ => apply orb_prop in Q as [Q|Q] end;
      match goal with Q : str_eqb w _ = true |- _ => apply str_eqb_eq in Q; subst w end; first [now apply W1|eapply W2; cbn; repeat (first [left; reflexivity|right])]|] end. reflexivity. }
  subst y. rewrite app_nil_r in P1, P3. unfold axes_figure.
  assert (A := axes_shape s x X). clear X Y W.
  destruct A as [(-> & T)|(v & (t & T & NT) & [(u & -> & U)|(-> & U)])].
  - rewrite T. assert (M := P1 "semi_major_axis" ltac:(now left)). assert (N := P1 "semi_minor_axis" ltac:(right; now left)). assert (F := P1 "inverse_flattening" ltac:(right; now right)). cbn in M, N, F. split; [|exact F].
    destruct (param ps "earth_radius") as [a|] eqn:R.
    + destruct (P3 a eq_refl) as [Q|(_ & ->)]; [discriminate|]. unfold figure, value_of. now rewrite R.
    + unfold figure, value_of. now rewrite R, M.
  - rewrite T. assert (M := P1 "semi_major_axis" ltac:(now left)). assert (N := P1 "semi_minor_axis" ltac:(right; now left)). assert (F := P1 "inverse_flattening" ltac:(right; now right)). cbn in M, N, F. split; [|exact F].
    assert (R : param ps "earth_radius" = None) by (apply P2; exists "semi_major_axis"; split; [now left|rewrite M; discriminate]).
    assert (G : figure ps = (v, u)) by (unfold figure, value_of; rewrite R, M, N; reflexivity). rewrite G. exists v. split; [exact NT|]. destruct (key "e" s) as [e|].
    + destruct (string_dec (st e) "0"); [destruct U as (b & -> & Q); now exists u|destruct U as (q & Q & ->); now exists q].
    + destruct U as (b & -> & Q). now exists u.
  - rewrite T. assert (M := P1 "semi_major_axis" ltac:(now left)). assert (N := P1 "semi_minor_axis" ltac:(right; now left)). assert (F := P1 "inverse_flattening" ltac:(right; now right)). cbn in M, N, F. split; [|exact F].
    assert (G : figure ps = (v, v)).
    { destruct (param ps "earth_radius") as [a|] eqn:R.
      - destruct (P3 a eq_refl) as [Q|(Q & _)]; [|discriminate]. injection Q as <-. unfold figure, value_of. now rewrite R.
      - exfalso. destruct (proj2 P2 eq_refl) as (n & [-> |[-> | ->]] & Q); congruence. }
    rewrite G. exists v. split; [exact NT|]. destruct U as (B & E). rewrite B. destruct (key "e" s) as [e|]; [|reflexivity]. rewrite (E e eq_refl). reflexivity.
Qed.

Lemma earth_all s e : earth num dotted minor_of s = Ok e -> exists x1 x2 x3 x4, e = x1 ++ x2 ++ x3 ++ x4 /\
  opt num "x_0" "false_easting" s = Ok x1 /\ opt num "y_0" "false_northing" s = Ok x2 /\ (forall a, In a x3 -> In (aname a) four) /\ towgs_att dotted s = Ok x4.
Proof.
  unfold earth. intro E. cbn [all] in E.
  destruct (opt num "x_0" "false_easting" s) as [x1| | |] eqn:E1; cbn [obind] in E; try discriminate.
  destruct (opt num "y_0" "false_northing" s) as [x2| | |] eqn:E2; cbn [obind] in E; try discriminate.
  destruct (axes_att num minor_of s) as [x| | |] eqn:E3; cbn [obind] in E; try discriminate.
  destruct (ellipsoid_att s) as [y| | |] eqn:E4; cbn [obind] in E; try discriminate.
  destruct (towgs_att dotted s) as [x4| | |] eqn:E5; cbn [obind] in E; try discriminate. injection E as <-.
  exists x1, x2, (x ++ y), x4. split; [rewrite app_nil_r, <- !app_assoc; reflexivity|]. split; [reflexivity|]. split; [reflexivity|]. split; [|reflexivity].
  intros a I. apply in_app_or in I as [I|I].
  - apply axes_shape in E3 as [(-> & _)|(v & _ & [(u & -> & _)|(-> & _)])]; cbn in I; decompose [or] I; try contradiction; subst a; cbn; tauto.
  - unfold ellipsoid_att in E4. destruct (match key "ellps" s with Some t => Some t | None => key "datum" s end) as [t|]; [|injection E4 as <-; destruct I]. destruct (string2lowerCase t) as [w| | |]; cbn [obind] in E4; try discriminate. injection E4 as <-.
    unfold ellipsoid in I. repeat match type of I with In _ (if ?b then _ else _) => destruct b end; cbn in I; decompose [or] I; try contradiction; subst a; cbn; tauto.
Qed.
Lemma last_not l n : (forall a, In a l -> aname a <> n) -> last_named l n = None.
Proof.
  clear num strtod dotted minor_of fuel. intro H. unfold last_named. destruct (find _ _) as [a|] eqn:E; [|reflexivity]. apply find_some in E as (I & E). apply in_rev in I. apply String.eqb_eq in E. destruct (H a I). congruence.
Qed.
Lemma opt_named k n s l : opt num k n s = Ok l -> forall a, In a l -> aname a = n.
Proof. unfold opt. intros H a I. destruct (key k s) as [t|]; [destruct (num t); cbn [obind] in H; try discriminate; injection H as <-; destruct I as [<-|[]]; reflexivity|injection H as <-; destruct I]. Qed.
Lemma towgs_named s l : towgs_att dotted s = Ok l -> forall a, In a l -> aname a = "towgs84".
Proof.
  unfold towgs_att. intros H a I. destruct (key "towgs84" s) as [t|]; [destruct (dotted t)|destruct (key "datum" s) as [t|]; [destruct (string2lowerCase t)|]]; cbn [obind] in H; try discriminate; injection H as <-; first [destruct I as [<-|[]]|destruct I]; reflexivity.
Qed.

(** The shift of the datum has 3, 6 or 7 numbers: those given, as far as they fit, and zeros. *)
Definition shift_read (s : str) (r : option (list value)) : Prop :=
  match key "towgs84" s with
  | Some t => exists l v, dotted t = Ok l /\ r = Some v /\ length v = (if length l <=? 3 then 3 else if length l <=? 6 then 6 else 7) /\
                forall i, i < length v -> nth_error v i = Some (nth i l (Some 0%Qc))
  | None => match key "datum" s with
            | Some t => exists w, string2lowerCase t = Ok w /\
                r = Some (if string_dec (st w) "ggrs87" then [Some (Q2Qc (-199.87)); Some (Q2Qc 74.79); Some (Q2Qc 246.62)] else [Some 0%Qc; Some 0%Qc; Some 0%Qc])
            | None => r = None
            end
  end.
Theorem C98_shift s k ps : reads s = Ok (k, ps) -> shift_read s (shift_of ps).
Proof.
  intro H. unfold create_by_proj4 in H. destruct (accepting num s) as [[j|]| | |]; cbn [obind] in H; try discriminate. destruct (from_proj4 num strtod dotted minor_of fuel j s) as [l| | |] eqn:F; cbn [obind] in H; try discriminate.
  apply split_earth in F as (a & e & b & E & -> & Fa & Fb). apply C95_parameters in H as (_ & _ & _ & P & _). clear j.
  apply earth_all in E as (x1 & x2 & x3 & x4 & -> & E1 & E2 & E3 & E4).
  assert (Q : param ps "towgs84" = last_named x4 "towgs84").
  { rewrite P by (try discriminate; intros [X|[X|X]]; discriminate). rewrite !last_named_app. rewrite (last_no_figure b) by (try exact Fb; cbn; tauto). rewrite (last_no_figure a) by (try exact Fa; cbn; tauto).
    rewrite (last_not x3) by (intros z I X; apply E3 in I; rewrite X in I; cbn in I; intuition discriminate). rewrite (last_not x2) by (intros z I X; apply (opt_named _ _ _ _ E2) in I; congruence). rewrite (last_not x1) by (intros z I X; apply (opt_named _ _ _ _ E1) in I; congruence).
    now destruct (last_named x4 "towgs84"). }
  unfold shift_of. rewrite Q. clear - E4. unfold shift_read, towgs_att in *. destruct (key "towgs84" s) as [t|].
  - destruct (dotted t) as [l| | |]; cbn [obind] in E4; try discriminate. injection E4 as <-. exists l, (resized l). split; [reflexivity|]. split; [reflexivity|].
    assert (Z : forall n, length (firstn n (l ++ repeat (Some 0%Qc) n)) = n) by (intro n; rewrite firstn_length, app_length, repeat_length; lia).
    assert (NT : forall i n, i < n -> nth_error (firstn n (l ++ repeat (Some 0%Qc) n)) i = Some (nth i l (Some 0%Qc))).
    { intros i n I. rewrite nth_error_firstn. replace (i <? n) with true by (symmetry; now apply Nat.ltb_lt). destruct (Nat.ltb_spec i (length l)) as [L|L].
      - rewrite nth_error_app1 by exact L. now apply nth_error_nth'.
      - rewrite nth_error_app2 by exact L. rewrite nth_overflow by exact L. rewrite nth_error_repeat. replace (i - length l <? n) with true by (symmetry; apply Nat.ltb_lt; lia). reflexivity. }
    unfold resized. destruct (length l <=? 3); [|destruct (length l <=? 6)]; rewrite Z; (split; [reflexivity|]); intros i I; now apply NT.
  - destruct (key "datum" s) as [t|]; [|injection E4 as <-; reflexivity]. destruct (string2lowerCase t) as [w| | |]; cbn [obind] in E4; try discriminate. injection E4 as <-. exists w. split; [reflexivity|]. cbn. f_equal. unfold of_datum.
    destruct (string_dec (st w) "ggrs87") as [W|W].
    + rewrite <- (s_st w), W. vm_compute. reflexivity.
    + destruct (str_eqb w (s_ "ggrs87")) eqn:X; [|reflexivity]. apply str_eqb_eq in X. subst w. now destruct W.
Qed.

(** UTM: the zone gives the central meridian unless digits follow +lon_0=; the false easting is 500 km and the false northing
    0 or 10000 km unless they are given. *)
Theorem C98_utm s k ps : reads s = Ok (k, ps) -> key "proj" s = Some (s_ "utm") ->
  k = Transverse /\ value_of ps "scale_factor_at_central_meridian" = Some (Some (Q2Qc 0.9996)) /\ value_of ps "latitude_of_projection_origin" = Some (Some (z2q 0)) /\
  (forall z, search is_digit [s_ "+zone="] s = Some z -> search is_digit [s_ "+lon_0="] s = None -> (1 <= dec_value z <= 60)%Z -> value_of ps "longitude_of_central_meridian" = Some (Some (z2q (6 * dec_value z - 183)))) /\
  (forall t v, search is_digit [s_ "+lon_0="] s = Some t -> num t = Ok v -> value_of ps "longitude_of_central_meridian" = Some v) /\
  (key "x_0" s = None -> value_of ps "false_easting" = Some (Some (z2q 500000))) /\ (forall t v, key "x_0" s = Some t -> num t = Ok v -> value_of ps "false_easting" = Some v) /\
  (key "y_0" s = None -> value_of ps "false_northing" = if flag "south" s then Some (Some (z2q 10000000)) else None) /\ (forall t v, key "y_0" s = Some t -> num t = Ok v -> value_of ps "false_northing" = Some v).
Proof.
  intros H U. unfold create_by_proj4 in H. assert (AC : accepting num s = Ok (Some Transverse)) by (unfold accepting; rewrite U; reflexivity). rewrite AC in H. cbn [obind from_proj4] in H.
  unfold transverse in H. rewrite U in H. cbn [all] in H. change (str_eqb (s_ "utm") (s_ "utm")) with true in H. cbn [obind] in H.
  destruct (utm num s) as [u| | |] eqn:UT; cbn [obind] in H; try discriminate. destruct (earth num dotted minor_of s) as [e| | |] eqn:E; cbn [obind] in H; try discriminate. rewrite !app_nil_r in H.
  assert (KK : k = Transverse).
  { apply C95_parameters in H as (C1 & _). specialize (C1 _ eq_refl). cbn in C1. destruct k; try discriminate C1. reflexivity. }
  split; [exact KK|]. apply C95_parameters in H as (_ & _ & _ & P & _).
  apply earth_all in E as (x1 & x2 & x3 & x4 & -> & E1 & E2 & E3 & E4).
  assert (LE : forall n, ~ In n figure_names -> param ps n = match last_named x2 n with Some z => Some z | None => match last_named x1 n with Some z => Some z | None => last_named (text_att "grid_mapping_name" "transverse_mercator" :: u) n end end).
  { intros n N. rewrite P; [|intros ->; apply N; cbn; tauto|intros [-> |[-> | ->]]; apply N; cbn; tauto]. cbn [cf_name]. rewrite app_comm_cons, !last_named_app.
    rewrite (last_not x4) by (intros z I X; apply (towgs_named _ _ E4) in I; apply N; rewrite <- X, I; cbn; tauto).
    rewrite (last_not x3) by (intros z I X; apply E3 in I; apply N; rewrite <- X; cbn in I |- *; tauto). now destruct (last_named x2 n). }
  assert (L1 : forall n, n <> "false_easting" -> last_named x1 n = None) by (intros n N; apply last_not; intros z I X; apply (opt_named _ _ _ _ E1) in I; congruence).
  assert (L2 : forall n, n <> "false_northing" -> last_named x2 n = None) by (intros n N; apply last_not; intros z I X; apply (opt_named _ _ _ _ E2) in I; congruence).
  clear P E3 E4. unfold utm in UT.
  match type of UT with (do _ <- ?o; _) = _ => destruct o as [zo| | |] eqn:ZO; cbn [obind] in UT; try discriminate end.
  match type of UT with (do _ <- ?o; _) = _ => destruct o as [lo| | |] eqn:LO; cbn [obind] in UT; try discriminate end.
  assert (UU : u = [dbl "scale_factor_at_central_meridian" (tenth 9996 10000); int_att "latitude_of_projection_origin" 0; int_att "false_easting" 500000] ++ zo ++ lo ++ (if flag "south" s then [int_att "false_northing" 10000000] else [])) by congruence. clear UT.
  assert (LU : forall n, last_named (text_att "grid_mapping_name" "transverse_mercator" :: u) n =
    match last_named (if flag "south" s then [int_att "false_northing" 10000000] else []) n with Some z => Some z | None => match last_named lo n with Some z => Some z | None => match last_named zo n with Some z => Some z | None =>
      last_named [text_att "grid_mapping_name" "transverse_mercator"; dbl "scale_factor_at_central_meridian" (tenth 9996 10000); int_att "latitude_of_projection_origin" 0; int_att "false_easting" 500000] n end end end).
  { intro n. rewrite UU. match goal with |- last_named (?x :: ?y ++ ?z) n = _ => change (x :: y ++ z) with ((x :: y) ++ z) end. rewrite !last_named_app. destruct (last_named (if flag "south" s then _ else _) n), (last_named lo n), (last_named zo n); reflexivity. }
  assert (ZN : forall a, In a zo -> aname a = "longitude_of_central_meridian").
  { intros a I. destruct (search is_digit [s_ "+zone="] s) as [t|]; [|injection ZO as <-; destruct I]. destruct (32767 <? dec_value t)%Z; [discriminate|]. injection ZO as <-. destruct I as [<-|[]]. reflexivity. }
  assert (LN : forall a, In a lo -> aname a = "longitude_of_central_meridian").
  { intros a I. destruct (search is_digit [s_ "+lon_0="] s) as [t|]; [destruct (num t); cbn [obind] in LO; try discriminate; injection LO as <-; destruct I as [<-|[]]; reflexivity|injection LO as <-; destruct I]. }
  assert (NZ : forall n, n <> "longitude_of_central_meridian" -> last_named zo n = None) by (intros n N; apply last_not; intros z I X; apply ZN in I; congruence).
  assert (NL : forall n, n <> "longitude_of_central_meridian" -> last_named lo n = None) by (intros n N; apply last_not; intros z I X; apply LN in I; congruence).
  assert (SO : forall n, n <> "false_northing" -> last_named (if flag "south" s then [int_att "false_northing" 10000000] else []) n = None) by (intros n N; apply last_not; intros z I X; destruct (flag "south" s); [destruct I as [<-|[]]; cbn in X; congruence|destruct I]).
  assert (NF : forall n, In n ["scale_factor_at_central_meridian"; "latitude_of_projection_origin"; "longitude_of_central_meridian"; "false_easting"; "false_northing"] -> ~ In n figure_names) by (intros n I X; cbn in I, X; intuition (subst; discriminate)).
  unfold value_of. split; [|split; [|split; [|split; [|split; [|split; [|split]]]]]].
  - rewrite LE, L2, L1, LU, SO, NL, NZ by (try discriminate; apply NF; cbn; tauto). vm_compute. reflexivity.
  - rewrite LE, L2, L1, LU, SO, NL, NZ by (try discriminate; apply NF; cbn; tauto). reflexivity.
  - intros z Z L R. rewrite LE, L2, L1, LU, SO by (try discriminate; apply NF; cbn; tauto). rewrite L in LO. injection LO as <-. rewrite Z in ZO. replace (32767 <? dec_value z)%Z with false in ZO by (symmetry; apply Z.ltb_ge; lia). injection ZO as <-.
    cbn [last_named rev List.app find aname a_name dbl]. replace (String.eqb "longitude_of_central_meridian" "longitude_of_central_meridian") with true by reflexivity. cbn [a_nums dbl hd_error]. do 3 f_equal. lia.
  - intros t v T V. rewrite LE, L2, L1, LU, SO by (try discriminate; apply NF; cbn; tauto). rewrite T, V in LO. cbn [obind] in LO. injection LO as <-. reflexivity.
  - intro X. rewrite LE, L2 by (try discriminate; apply NF; cbn; tauto). unfold opt in E1. rewrite X in E1. injection E1 as <-. rewrite LU, SO, NL, NZ by discriminate. reflexivity.
  - intros t v T V. rewrite LE, L2 by (try discriminate; apply NF; cbn; tauto). unfold opt in E1. rewrite T, V in E1. cbn [obind] in E1. injection E1 as <-. reflexivity.
  - intro X. rewrite LE by (apply NF; cbn; tauto). unfold opt in E2. rewrite X in E2. injection E2 as <-. rewrite L1, LU, NL, NZ by discriminate. now destruct (flag "south" s).
  - intros t v T V. rewrite LE by (apply NF; cbn; tauto). unfold opt in E2. rewrite T, V in E2. cbn [obind] in E2. injection E2 as <-. reflexivity.
Qed.
End Read.

Definition read0 := create_by_proj4 num0 strtod0 dotted0 minor0 100.
Example C98_nonvacuous :
  (exists ps, read0 (s_ "+proj=merc +a=5 +datum=GGRS87 +ellps=NAD27") = Ok (Mercator, ps) /\ figure ps = (Some (Q2Qc 6378206.4), Some (Q2Qc 6356583.8)) /\ shift_of ps = Some [Some (Q2Qc (-199.87)); Some (Q2Qc 74.79); Some (Q2Qc 246.62)]) /\
  (exists ps, read0 (s_ "+proj=longlat +a=6 +b=5 +towgs84=1,2,3,4") = Ok (LatLong, ps) /\ figure ps = (z 6, z 5) /\ shift_of ps = Some [z 1; z 2; z 3; z 4; z 0; z 0]) /\
  (exists ps, read0 (s_ "+proj=longlat +R=6 +e=0") = Ok (LatLong, ps) /\ figure ps = (z 6, z 6) /\ shift_of ps = None) /\
  earth_name (s_ "+proj=merc +a=5 +datum=GGRS87 +ellps=NAD27") (s_ "nad27") /\ search is_digit [s_ "+zone="] (s_ "+proj=utm +zone=33") = Some (s_ "33").
Proof.
  split; [eexists; split; [vm_compute; reflexivity|split; vm_compute; reflexivity]|]. split; [eexists; split; [vm_compute; reflexivity|split; vm_compute; reflexivity]|]. split; [eexists; split; [vm_compute; reflexivity|split; vm_compute; reflexivity]|].
  split; [|reflexivity]. exists (s_ "NAD27"). split; [left; reflexivity|reflexivity].
Qed.
(** Finding: an ellipsoid that is not in the list (as clrk66) becomes a sphere without a word. *)
Theorem C98_unknown_ellipsoid_refuted : exists ps, read0 (s_ "+proj=longlat +ellps=clrk66") = Ok (LatLong, ps) /\ figure ps = (z 6371000, z 6371000).
Proof. eexists. split; vm_compute; reflexivity. Qed.
(** Finding: Bessel's ellipsoid with a short axis given as well has three numbers for two axes. *)
Theorem C98_bessel_refuted : exists ps, read0 (s_ "+proj=longlat +a=6 +b=5 +ellps=bessel") = Ok (LatLong, ps) /\ value_of ps "semi_minor_axis" = Some (z 5) /\ value_of ps "inverse_flattening" <> None.
Proof. eexists. split; [vm_compute; reflexivity|]. split; [vm_compute; reflexivity|]. vm_compute. discriminate. Qed.
(** Finding: a zone of more than 60 is taken as 60. *)
Theorem C98_zone_refuted : exists ps, read0 (s_ "+proj=utm +zone=99") = Ok (Transverse, ps) /\ value_of ps "longitude_of_central_meridian" = Some (z 177).
Proof. eexists. split; vm_compute; reflexivity. Qed.

Print Assumptions C98_ellipsoid.
Print Assumptions C98_bessel.
Print Assumptions C98_axes.
Print Assumptions C98_shift.
Print Assumptions C98_utm.
Print Assumptions C98_unknown_ellipsoid_refuted.
Print Assumptions C98_bessel_refuted.
Print Assumptions C98_zone_refuted.
