(** C95, C96, C97: parameters of projections, their PROJ.4 texts and the figure of the earth. *)
From Coq Require Import PeanoNat NArith ZArith QArith Qcanon Ascii String List Bool Lia.
From Verif Require Import Base StdMap SliceModel RegridModel StringModel StringProofs TextModel SpecModel ConvertModel CdmModel NmlModel CfvertProps ProjModel.
Import ListNotations.
Local Open Scope string_scope.
Local Open Scope list_scope.
Local Open Scope nat_scope.

Notation aname := CdmModel.a_name.

(** ** parameters *)

(** the last attribute of a name; the attributes behind the last earth_radius *)
Definition last_named (l : list cattr) (n : string) : option cattr := find (fun a => String.eqb n (aname a)) (rev l).
Definition since_radius (l : list cattr) : list cattr := fold_left (fun acc a => if String.eqb (aname a) "earth_radius" then [] else acc ++ [a]) l [].
Definition is_semi (n : string) : Prop := n = "semi_major_axis" \/ n = "semi_minor_axis" \/ n = "inverse_flattening".

Lemma param_none ps n : param ps n = None <-> ~ In n (map aname ps).
Proof.
  unfold param. induction ps as [|a r IH]; cbn [find map In]; [tauto|]. destruct (String.eqb_spec n (aname a)) as [->|Q].
  - split; [discriminate|]. intro H. destruct H. now left.
  - rewrite IH. split; [intros H [E|E]; [congruence|auto]|auto].
Qed.
Lemma param_remove ps n m : NoDup (map aname ps) -> param (remove_param n ps) m = if String.eqb m n then None else param ps m.
Proof.
  induction ps as [|a r IH]; cbn [remove_param map]; intro N; [now destruct (String.eqb m n)|]. inversion_clear N as [|? ? N1 N2].
  unfold param in *. destruct (String.eqb_spec n (aname a)) as [->|Q]; cbn [find].
  - destruct (String.eqb_spec m (aname a)) as [E|]; [|reflexivity]. rewrite E. now apply param_none.
  - rewrite IH by exact N2. destruct (String.eqb_spec m (aname a)) as [E|]; [|reflexivity]. rewrite E. destruct (String.eqb_spec (aname a) n); [congruence|reflexivity].
Qed.
Lemma remove_incl n ps m : In m (map aname (remove_param n ps)) -> In m (map aname ps).
Proof. induction ps as [|a r IH]; cbn [remove_param map In]; [tauto|]. destruct (String.eqb n (aname a)); cbn [map In]; [auto|]. intros [E|E]; auto. Qed.
Lemma remove_nodup n ps : NoDup (map aname ps) -> NoDup (map aname (remove_param n ps)).
Proof.
  induction ps as [|a r IH]; cbn [remove_param map]; intro N; [constructor|]. inversion_clear N as [|? ? N1 N2]. destruct (String.eqb n (aname a)); [exact N2|]. cbn [map].
  constructor; [|auto]. intro I. apply N1. now apply remove_incl in I.
Qed.
Lemma param_replace a ps m : param (replace_param a ps) m = if String.eqb m (aname a) then Some a else param ps m.
Proof.
  unfold param. induction ps as [|b r IH]; cbn [replace_param find]; [reflexivity|]. destruct (String.eqb_spec (aname a) (aname b)) as [E|E]; cbn [find].
  - rewrite <- E. now destruct (String.eqb m (aname a)).
  - rewrite IH. destruct (String.eqb_spec m (aname b)) as [->|]; [|reflexivity]. destruct (String.eqb_spec (aname b) (aname a)); [congruence|reflexivity].
Qed.
Lemma replace_names a ps m : In m (map aname (replace_param a ps)) <-> m = aname a \/ In m (map aname ps).
Proof.
  induction ps as [|b r IH]; cbn [replace_param map In]; [intuition congruence|]. destruct (String.eqb_spec (aname a) (aname b)) as [E|E]; cbn [map In].
  - rewrite E. intuition congruence.
  - rewrite IH. tauto.
Qed.
Lemma replace_nodup a ps : NoDup (map aname ps) -> NoDup (map aname (replace_param a ps)).
Proof.
  induction ps as [|b r IH]; cbn [replace_param map]; intro N; [repeat constructor; intros []|]. inversion_clear N as [|? ? N1 N2].
  destruct (String.eqb_spec (aname a) (aname b)) as [E|E]; cbn [map]; [rewrite E; now constructor|]. constructor; [|auto]. rewrite replace_names. intros [X|X]; [congruence|contradiction].
Qed.

Lemma last_app l a n : last_named (l ++ [a]) n = if String.eqb n (aname a) then Some a else last_named l n.
Proof. unfold last_named. rewrite rev_app_distr. reflexivity. Qed.
Lemma since_app l a : since_radius (l ++ [a]) = if String.eqb (aname a) "earth_radius" then [] else since_radius l ++ [a].
Proof. unfold since_radius. now rewrite fold_left_app. Qed.
Lemma ofold_app {S' A} (f : S' -> A -> outcome S') l a s : ofold f (l ++ [a]) s = do x <- ofold f l s; f x a.
Proof. revert s. induction l as [|b l IH]; intro s; cbn [app ofold]; [cbn [obind]; destruct (f s a); reflexivity|]. destruct (f s b); [cbn [obind]; apply IH|reflexivity..]. Qed.

Lemma add_param_ok k ps a : NoDup (map aname ps) -> (aname a = "grid_mapping_name" -> a_text a = cf_name k) ->
  exists ps', add_param k ps a = Ok ps' /\ NoDup (map aname ps') /\
    forall n, param ps' n = if String.eqb n (aname a) then Some a
                            else if (String.eqb (aname a) "earth_radius" && existsb (String.eqb n) semi) || (existsb (String.eqb (aname a)) semi && String.eqb n "earth_radius") then None
                            else param ps n.
Proof.
  intros N G. unfold add_param.
  replace (String.eqb (aname a) "grid_mapping_name" && negb (String.eqb (a_text a) (cf_name k))) with false.
  2: { symmetry. destruct (String.eqb_spec (aname a) "grid_mapping_name") as [E|E]; [|reflexivity]. rewrite (G E), String.eqb_refl. reflexivity. }
  cbn zeta. eexists. split; [reflexivity|].
  set (ps1 := if String.eqb (aname a) "earth_radius" then _ else ps).
  assert (N1 : NoDup (map aname ps1)) by (unfold ps1, semi; destruct (String.eqb _ _); [cbn [fold_left]; repeat apply remove_nodup; exact N|exact N]).
  assert (P1 : forall n, param ps1 n = if String.eqb (aname a) "earth_radius" && existsb (String.eqb n) semi then None else param ps n).
  { intro n. unfold ps1, semi. destruct (String.eqb (aname a) "earth_radius"); cbn [andb]; [|reflexivity]. cbn [fold_left existsb]. rewrite !param_remove by (repeat apply remove_nodup; exact N).
    destruct (String.eqb n "semi_major_axis"), (String.eqb n "semi_minor_axis"), (String.eqb n "inverse_flattening"); reflexivity. }
  split.
  - apply replace_nodup. destruct (existsb _ semi); [now apply remove_nodup|exact N1].
  - intro n. rewrite param_replace. destruct (String.eqb n (aname a)); [reflexivity|]. destruct (existsb (String.eqb (aname a)) semi) eqn:S.
    + rewrite param_remove by exact N1. rewrite P1. rewrite andb_true_l. destruct (String.eqb n "earth_radius"); [now rewrite orb_true_r|]. now rewrite orb_false_r.
    + rewrite andb_false_l, orb_false_r. apply P1.
Qed.

Lemma semi_spec n : existsb (String.eqb n) semi = true <-> is_semi n.
Proof.
  unfold semi, is_semi. cbn [existsb]. rewrite !orb_true_iff, !String.eqb_eq. intuition congruence.
Qed.

(** what the parameters are after some attributes *)
Definition params_of (l : list cattr) (ps : list cattr) : Prop :=
  NoDup (map aname ps) /\
  (forall n, n <> "earth_radius" -> ~ is_semi n -> param ps n = last_named l n) /\
  (forall n, is_semi n -> param ps n = last_named (since_radius l) n) /\
  param ps "earth_radius" = if existsb (fun a => existsb (String.eqb (aname a)) semi) (since_radius l) then None
                            else Some (match last_named l "earth_radius" with Some a => a | None => dbl "earth_radius" (Some (z2q 6371000)) end).
Lemma params_fold k l : (forall a, In a l -> aname a = "grid_mapping_name" -> a_text a = cf_name k) ->
  exists ps, ofold (add_param k) l initial = Ok ps /\ params_of l ps.
Proof.
  induction l as [|a l IH] using rev_ind; intro G.
  - exists initial. split; [reflexivity|]. split; [repeat constructor; intros []|]. split; [|split].
    + intros n H _. unfold param, initial. cbn. destruct (String.eqb_spec n "earth_radius"); [contradiction|reflexivity].
    + intros n [->|[->| ->]]; reflexivity.
    + reflexivity.
  - destruct IH as (ps & F & N & P1 & P2 & P3); [intros; apply G; [apply in_or_app; now left|assumption]|]. rewrite ofold_app, F. cbn [obind].
    destruct (add_param_ok k ps a N) as (ps' & E & N' & P'); [apply G; apply in_or_app; right; now left|]. exists ps'. split; [exact E|]. split; [exact N'|]. split; [|split].
    + intros n H1 H2. rewrite P', last_app. destruct (String.eqb n (aname a)); [reflexivity|].
      replace (existsb (String.eqb n) semi) with false by (symmetry; apply not_true_iff_false; now rewrite semi_spec). replace (String.eqb n "earth_radius") with false by (symmetry; now apply String.eqb_neq).
      rewrite !andb_false_r. now apply P1.
    + intros n H. rewrite P', since_app. assert (S : existsb (String.eqb n) semi = true) by now apply semi_spec.
      assert (NE : n <> "earth_radius") by (destruct H as [->|[->| ->]]; discriminate). apply String.eqb_neq in NE. rewrite S, NE, andb_true_r, andb_false_r, orb_false_r.
      destruct (String.eqb_spec (aname a) "earth_radius") as [E1|E1].
      * rewrite E1, NE. reflexivity.
      * rewrite last_app. destruct (String.eqb n (aname a)); [reflexivity|]. now apply P2.
    + rewrite P', last_app, since_app. destruct (String.eqb_spec (aname a) "earth_radius") as [E1|E1].
      * rewrite E1. reflexivity.
      * replace (String.eqb "earth_radius" (aname a)) with false by (symmetry; apply String.eqb_neq; congruence). rewrite existsb_app. cbn [existsb]. rewrite orb_false_r. cbn [andb orb].
        rewrite String.eqb_refl, andb_true_r. destruct (existsb (String.eqb (aname a)) semi); [now rewrite orb_true_r|]. rewrite orb_false_r. exact P3.
Qed.
Lemma params_fold_throws k l : (exists a, In a l /\ aname a = "grid_mapping_name" /\ a_text a <> cf_name k) -> ofold (add_param k) l initial = Throw.
Proof.
  induction l as [|b l IH] using rev_ind; intros (a & I & H1 & H2); [destruct I|]. rewrite ofold_app.
  assert (D : (exists a, In a l /\ aname a = "grid_mapping_name" /\ a_text a <> cf_name k) \/ forall a, In a l -> aname a = "grid_mapping_name" -> a_text a = cf_name k).
  { clear. induction l as [|x l [H|H]]; [right; intros a []| |].
    - left. destruct H as (a & H1 & H2). exists a. split; [now right|exact H2].
    - destruct (string_dec (aname x) "grid_mapping_name") as [E|E]; [destruct (string_dec (a_text x) (cf_name k)) as [T|T]|].
      + right. intros a [->|I] A; auto.
      + left. exists x. split; [now left|auto].
      + right. intros a [->|I] A; [contradiction|auto]. }
  destruct D as [D|D]; [now rewrite (IH D)|]. destruct (params_fold k l D) as (ps & -> & _). cbn [obind].
  apply in_app_or in I as [I|[->|[]]]; [now specialize (D a I H1)|]. unfold add_param. rewrite H1, String.eqb_refl. apply String.eqb_neq in H2. now rewrite H2.
Qed.

Lemma kind_named_spec n k : kind_named n = Some k <-> n = cf_name k.
Proof.
  split.
  - unfold kind_named. intro H. apply find_some in H as (_ & H). now apply String.eqb_eq.
  - intros ->. destruct k; reflexivity.
Qed.
Lemma param_in l n a : param l n = Some a -> In a l /\ aname a = n.
Proof. unfold param. intro H. apply find_some in H as (I & E). apply String.eqb_eq in E. auto. Qed.

(** A projection created from attributes has each parameter once.  Apart from the figure of the earth it is the last one
    given; the figure is either a radius, the last one given or the default one, or the axes and the flattening given
    after the last radius. *)
Theorem C95_parameters attrs k ps : create attrs = Ok (k, ps) ->
  (forall a, param attrs "grid_mapping_name" = Some a -> a_text a = cf_name k) /\
  (param attrs "grid_mapping_name" = None -> k = LatLong) /\
  NoDup (map aname ps) /\
  (forall n, n <> "earth_radius" -> ~ is_semi n -> param ps n = last_named attrs n) /\
  (forall n, is_semi n -> param ps n = last_named (since_radius attrs) n) /\
  ((exists n, is_semi n /\ param ps n <> None) <-> param ps "earth_radius" = None) /\
  (forall a, param ps "earth_radius" = Some a -> last_named attrs "earth_radius" = Some a \/
     last_named attrs "earth_radius" = None /\ a = mkAttr "earth_radius" DDouble [Some (z2q 6371000)] "").
Proof.
  unfold create. intro H.
  destruct (match param attrs "grid_mapping_name" with None => Ok LatLong | Some a => match kind_named (a_text a) with Some k => Ok k | None => Throw end end) as [k'| | |] eqn:K; try discriminate.
  cbn [obind] in H. destruct (ofold (add_param k') attrs initial) as [ps'| | |] eqn:F; try discriminate. cbn [obind] in H. injection H as -> ->.
  assert (G : forall a, In a attrs -> aname a = "grid_mapping_name" -> a_text a = cf_name k).
  { intros a I E. destruct (string_dec (a_text a) (cf_name k)) as [|T]; [assumption|]. rewrite params_fold_throws in F; [discriminate|]. now exists a. }
  destruct (params_fold k attrs G) as (ps0 & F0 & N & P1 & P2 & P3). rewrite F in F0. injection F0 as <-.
  split; [intros a A; apply param_in in A as (I & E); now apply G|]. split; [intro A; rewrite A in K; now injection K|]. split; [exact N|]. split; [exact P1|]. split; [exact P2|]. split.
  - rewrite P3. split.
    + intros (n & S & X). rewrite P2 in X by exact S. destruct (last_named (since_radius attrs) n) as [a|] eqn:L; [|congruence]. unfold last_named in L. apply find_some in L as (I & E). apply in_rev in I.
      replace (existsb _ (since_radius attrs)) with true; [reflexivity|]. symmetry. apply existsb_exists. exists a. split; [exact I|]. apply semi_spec. apply String.eqb_eq in E. now rewrite <- E.
    + destruct (existsb _ (since_radius attrs)) eqn:X; [|discriminate]. intros _. apply existsb_exists in X as (a & I & S). exists (aname a). apply semi_spec in S. split; [exact S|]. rewrite P2 by exact S.
      unfold last_named. intro Q. apply find_none with (x := a) in Q; [|now apply -> in_rev]. now rewrite String.eqb_refl in Q.
  - intros a A. rewrite P3 in A. destruct (existsb _ _); [discriminate|]. injection A as <-. destruct (last_named attrs "earth_radius"); auto.
Qed.
(** Creation fails exactly if the projection is not known or two names of it differ. *)
Theorem C95_created attrs : (exists k ps, create attrs = Ok (k, ps)) \/ create attrs = Throw /\
  exists a, param attrs "grid_mapping_name" = Some a /\ (~ In (a_text a) (map cf_name kinds) \/ exists b, In b attrs /\ aname b = "grid_mapping_name" /\ a_text b <> a_text a).
Proof.
  unfold create. destruct (param attrs "grid_mapping_name") as [a|] eqn:A.
  - destruct (kind_named (a_text a)) as [k|] eqn:K; cbn [obind].
    + apply kind_named_spec in K.
      assert (D : (exists b, In b attrs /\ aname b = "grid_mapping_name" /\ a_text b <> cf_name k) \/ forall b, In b attrs -> aname b = "grid_mapping_name" -> a_text b = cf_name k).
      { clear. induction attrs as [|x l [H|H]]; [right; intros b []| |].
        - left. destruct H as (b & H1 & H2). exists b. split; [now right|exact H2].
        - destruct (string_dec (aname x) "grid_mapping_name") as [E|E]; [destruct (string_dec (a_text x) (cf_name k)) as [T|T]|].
          + right. intros b [->|I] B; auto.
          + left. exists x. split; [now left|auto].
          + right. intros b [->|I] B; [contradiction|auto]. }
      destruct D as [D|D].
      * right. rewrite (params_fold_throws _ _ D). split; [reflexivity|]. exists a. split; [reflexivity|]. right. destruct D as (b & B1 & B2 & B3). exists b. rewrite K. auto.
      * left. destruct (params_fold k attrs D) as (ps & -> & _). cbn. eauto.
    + right. split; [reflexivity|]. exists a. split; [reflexivity|]. left. intro I. apply in_map_iff in I as (k & E & _). symmetry in E. apply kind_named_spec in E. congruence.
  - left. cbn [obind]. destruct (params_fold LatLong attrs) as (ps & -> & _); [|cbn; eauto]. intros b I B. apply param_none in A. destruct A. rewrite <- B. now apply in_map.
Qed.

(** ** texts of words *)

Definition plus (k : str) : str := "+"%char :: k ++ ["="%char].
Definition eqfree (s : str) : Prop := ~ In "="%char s.
Definition unspaced (s : str) : Prop := forall x, In x s -> is_space x = false.
Definition tidy (v : str) : Prop := v <> [] /\ eqfree v /\ unspaced v.
Definition clean (v : str) : Prop := tidy v /\ ~ In "_"%char v.
Definition word_name (k : str) : Prop := eqfree k /\ unspaced k /\ ~ In "+"%char k.
(** nothing, or something that begins with a blank *)
Definition blank_first (s : str) : Prop := match s with [] => True | x :: _ => is_space x = true end.
(** blanks, a name and, unless it is a flag, a value *)
Definition word := (nat * str * option str)%type.
Definition render (w : word) : str :=
  let '(n, k, v) := w in repeat " "%char n ++ "+"%char :: k ++ match v with Some v => "="%char :: v | None => [] end.
Definition text (l : list word) : str := concat (map render l).
Definition word_ok (w : word) : Prop := word_name (snd (fst w)) /\ match snd w with Some v => tidy v | None => True end.
(** the value of the first word with one of the names *)
Fixpoint lookup (ks : list str) (l : list word) : option str :=
  match l with
  | [] => None
  | (_, k, v) :: r => match v with Some v => if existsb (str_eqb k) ks then Some v else lookup ks r | None => lookup ks r end
  end.

Lemma match_none cls ks s : (forall k, In k ks -> begins k s = false) -> match_at cls ks s = None.
Proof.
  intro H. unfold match_at. destruct (find _ ks) as [k|] eqn:F; [|reflexivity]. apply find_some in F as (I & E). rewrite (H k I) in E. discriminate.
Qed.
Lemma begins_false m s : (forall r, s <> m ++ r) -> begins m s = false.
Proof. intro H. apply not_true_iff_false. rewrite begins_spec. intros (r & E). now apply (H r). Qed.
Lemma match_skip cls ks x s : x <> "+"%char -> match_at cls (map plus ks) (x :: s) = None.
Proof. intro H. apply match_none. intros k I. apply in_map_iff in I as (k' & <- & _). apply begins_false. intros r E. injection E as E _. contradiction. Qed.
Lemma search_skip cls ks x s : x <> "+"%char -> search cls (map plus ks) (x :: s) = search cls (map plus ks) s.
Proof. intro H. cbn [search]. now rewrite match_skip. Qed.
Lemma search_skips cls ks w s : ~ In "+"%char w -> search cls (map plus ks) (w ++ s) = search cls (map plus ks) s.
Proof. induction w as [|x w IH]; intro H; [reflexivity|]. cbn [app]. rewrite search_skip by (intro E; apply H; now left). apply IH. intro I. apply H. now right. Qed.

Lemma not_begins_eqfree k w s : unspaced k -> eqfree w -> blank_first s -> begins (plus k) (w ++ s) = false.
Proof.
  intros U F B. apply begins_false. intros r E. apply app_eq_app in E as (u & [(E1 & E2)|(E1 & E2)]).
  - apply F. rewrite E1. apply in_or_app. left. right. apply in_or_app. right. now left.
  - destruct u as [|x u].
    + rewrite app_nil_r in E1. apply F. rewrite <- E1. right. apply in_or_app. right. now left.
    + rewrite E2 in B. cbn in B. assert (I : In x (plus k)) by (rewrite E1; apply in_or_app; right; now left). destruct I as [<-|I]; [discriminate|]. apply in_app_or in I as [I|[<-|[]]]; [|discriminate].
      rewrite (U x I) in B. discriminate.
Qed.
Lemma search_eqfree cls ks w s : (forall k, In k ks -> unspaced k) -> eqfree w -> blank_first s -> search cls (map plus ks) (w ++ s) = search cls (map plus ks) s.
Proof.
  intros U. induction w as [|x w IH]; intros F B; [reflexivity|]. cbn [app search].
  rewrite match_none. 2: { intros k I. apply in_map_iff in I as (k' & <- & I). apply (not_begins_eqfree k' (x :: w)); auto. }
  apply IH; [|exact B]. intro I. apply F. now right.
Qed.
Lemma eqfree_app k n r q : eqfree k -> eqfree n -> k ++ "="%char :: r = n ++ "="%char :: q -> k = n /\ r = q.
Proof.
  revert n. induction k as [|x k IH]; intros [|y n] F G E; cbn [app] in E.
  - now injection E.
  - injection E as E _. destruct G. now left.
  - injection E as E _. destruct F. now left.
  - injection E as -> E. destruct (IH n) as (-> & ->); auto; intro I; [apply F|apply G]; now right.
Qed.
Lemma begins_plus k n v s : eqfree k -> eqfree n -> begins (plus k) ("+"%char :: n ++ "="%char :: v ++ s) = str_eqb n k.
Proof.
  intros F G. destruct (str_eqb n k) eqn:Q.
  - apply str_eqb_eq in Q as ->. apply begins_spec. exists (v ++ s). unfold plus. cbn [app]. now rewrite <- app_assoc.
  - apply begins_false. intros r E. unfold plus in E. cbn [app] in E. injection E as E. rewrite <- app_assoc in E. cbn [app] in E. apply eqfree_app in E as (-> & _); [|exact G|exact F].
    rewrite (proj2 (str_eqb_eq k k) eq_refl) in Q. discriminate.
Qed.
Lemma run_of_value v s : unspaced v -> blank_first s -> run_of not_space (v ++ s) = v.
Proof.
  induction v as [|x v IH]; intros U B; cbn [app run_of].
  - destruct s as [|x s]; [reflexivity|]. cbn in *. unfold not_space. now rewrite B.
  - unfold not_space. rewrite (U x (or_introl eq_refl)). cbn [negb]. f_equal. apply IH; [|exact B]. intros y I. apply U. now right.
Qed.
Lemma plus_length k : length (plus k) = S (S (length k)).
Proof. unfold plus. cbn [length]. rewrite app_length. cbn [length]. lia. Qed.
Lemma skipn_plus k v s : skipn (length (plus k)) ("+"%char :: k ++ "="%char :: v ++ s) = v ++ s.
Proof.
  replace ("+"%char :: k ++ "="%char :: v ++ s) with (plus k ++ (v ++ s)) by (unfold plus; cbn [app]; now rewrite <- app_assoc). rewrite skipn_app, skipn_all, Nat.sub_diag. reflexivity.
Qed.
Lemma match_word ks n v s : (forall k, In k ks -> word_name k) -> word_name n -> tidy v -> blank_first s ->
  match_at not_space (map plus ks) ("+"%char :: n ++ "="%char :: v ++ s) = if existsb (str_eqb n) ks then Some v else None.
Proof.
  intros K (N1 & N2 & N3) (V1 & V2 & V3) B. unfold match_at.
  induction ks as [|k ks IH]; [reflexivity|]. cbn [map find existsb]. destruct (K k (or_introl eq_refl)) as (K1 & _). rewrite begins_plus by assumption. destruct (str_eqb n k) eqn:Q.
  - apply str_eqb_eq in Q as ->. rewrite skipn_plus, run_of_value by assumption. destruct v as [|a v]; [contradiction|]. cbn [andb orb]. rewrite skipn_plus, run_of_value by assumption. reflexivity.
  - cbn [andb orb]. apply IH. intros k' I. apply K. now right.
Qed.
Lemma search_blanks cls ks n s : search cls (map plus ks) (repeat " "%char n ++ s) = search cls (map plus ks) s.
Proof. apply search_skips. intro I. apply repeat_spec in I. discriminate. Qed.

(** In a text of words, a search finds the value of the first word with one of the names. *)
Definition parted (l : list word) : Prop := forall w, In w (tl l) -> 0 < fst (fst w).
Lemma text_blank l : (forall w, In w l -> 0 < fst (fst w)) -> blank_first (text l).
Proof. destruct l as [|[[n k] v] r]; intro H; [exact I|]. specialize (H _ (or_introl eq_refl)). cbn in H. destruct n; [lia|]. reflexivity. Qed.
Lemma search_text ks l : (forall k, In k ks -> word_name k) -> Forall word_ok l -> parted l ->
  search not_space (map plus ks) (text l) = lookup ks l.
Proof.
  intro K. induction l as [|[[n k] v] r IH]; intros O P.
  - cbn [text map concat search lookup]. rewrite match_none; [reflexivity|]. intros k I. apply in_map_iff in I as (k' & <- & _). reflexivity.
  - inversion_clear O as [|? ? O1 O2]. destruct O1 as (O1 & O3). cbn [fst snd] in O1, O3. assert (B : blank_first (text r)) by (apply text_blank; intros w I; exact (P w I)).
    assert (P' : parted r). { intros w I. apply P. cbn [tl]. destruct r; [destruct I|]. now right. }
    specialize (IH O2 P'). unfold text. cbn [map concat render lookup]. fold (text r). rewrite <- !app_assoc. rewrite search_blanks. cbn [app]. rewrite <- app_assoc. destruct v as [v|].
    + cbn [app]. cbn [search]. rewrite match_word by assumption. destruct (existsb (str_eqb k) ks); [reflexivity|].
      destruct O1 as (O1 & O4 & O5). destruct O3 as (V1 & V2 & V3). rewrite search_skips by exact O5. rewrite search_skip by discriminate.
      rewrite search_eqfree; [exact IH| |exact V2|exact B]. intros k' I. destruct (K k' I) as (_ & X & _). exact X.
    + cbn [app]. rewrite <- IH. apply (search_eqfree _ ks ("+"%char :: k)); [intros k' I; destruct (K k' I) as (_ & X & _); exact X| |exact B]. intros [X|X]; [discriminate|]. destruct O1 as (O1 & _). exact (O1 X).
Qed.

Print Assumptions C95_parameters.
Print Assumptions C95_created.
