(** C38 directory scans and glob patterns, C39 path splitting and joining. *)
From Coq Require Import NArith ZArith Ascii String List Bool Lia.
From Coq Require Import ZifyBool ZifyNat ZifyN.
From Verif Require Import Base SearchModel StringModel StringProofs TextModel FilesModel FilesProofs.
Import ListNotations.
Local Open Scope nat_scope.

(** * C39 paths *)

Definition sep : ascii := "/"%char.
Definition no_sep (s : str) : Prop := ~ In sep s.
(** the directory part of a path: empty or ending in a separator *)
Definition dir_part (d : str) : Prop := d = [] \/ exists a, d = a ++ [sep].

(** directory part and file name make up the path; the name has no separator *)
Theorem C39_split : forall p,
  removeFilename p ++ extractFilename p = p /\ no_sep (extractFilename p) /\ dir_part (removeFilename p).
Proof.
  intro p. unfold removeFilename, extractFilename, no_sep, dir_part. change (s_ "/") with [sep].
  destruct (split_last sep p) as [ N | (a & b & -> & N) ].
  - rewrite find_last_none by assumption. repeat split; auto.
  - rewrite find_last_some by assumption. rewrite skipn_len, firstn_len. split.
    + now rewrite <- app_assoc.
    + split; [ assumption | right; now exists a ].
Qed.

(** and that is the only way to split it *)
Theorem C39_split_unique : forall d f, dir_part d -> no_sep f ->
  removeFilename (d ++ f) = d /\ extractFilename (d ++ f) = f.
Proof.
  intros d f [ -> | (a & ->) ] N; unfold removeFilename, extractFilename; change (s_ "/") with [sep].
  - cbn [app]. now rewrite find_last_none.
  - rewrite <- app_assoc. cbn [app]. rewrite find_last_some by assumption.
    now rewrite skipn_len, firstn_len.
Qed.

Theorem C39_replace : forall p f, no_sep f ->
  removeFilename (replaceFilename p f) = removeFilename p /\ extractFilename (replaceFilename p f) = f.
Proof. intros p f N. apply C39_split_unique; [ apply C39_split | exact N ]. Qed.

Theorem C39_replace_own : forall p, replaceFilename p (extractFilename p) = p.
Proof. intro p. apply C39_split. Qed.

(** exactly one separator is inserted, and only when needed *)
Theorem C39_join : forall d f,
  (dir_part d -> joinFilename d f = d ++ f) /\
  (~ dir_part d -> joinFilename d f = d ++ [sep] ++ f).
Proof.
  intros d f. unfold joinFilename. split.
  - intros [ -> | (a & ->) ]; [ reflexivity | ]. rewrite rev_app_distr. reflexivity.
  - intro H. destruct (rev d) as [ | c r ] eqn:R.
    + exfalso. apply H. left. rewrite <- (rev_involutive d), R. reflexivity.
    + unfold is_slash. destruct (Ascii.eqb_spec c slash) as [ E | NE ]; [ | reflexivity ].
      exfalso. apply H. right. exists (rev r). rewrite <- (rev_involutive d), R. cbn [rev]. now rewrite E.
Qed.

Theorem C39_join_split : forall d f, no_sep f ->
  extractFilename (joinFilename d f) = f /\
  (removeFilename (joinFilename d f) = d \/ removeFilename (joinFilename d f) = d ++ [sep]).
Proof.
  intros d f N. destruct (C39_join d f) as [ A B ].
  assert (D : dir_part d \/ ~ dir_part d).
  { destruct (rev d) as [ | c r ] eqn:R.
    - left. left. rewrite <- (rev_involutive d), R. reflexivity.
    - destruct (Ascii.eqb_spec c sep) as [ E | NE ].
      + left. right. exists (rev r). rewrite <- (rev_involutive d), R. cbn [rev]. now rewrite E.
      + right. intros [ -> | (a & ->) ]; [ discriminate | ]. rewrite rev_app_distr in R. cbn in R. congruence. }
  destruct D as [ D | D ].
  - rewrite (A D). destruct (C39_split_unique d f D N) as [ -> -> ]. auto.
  - rewrite (B D), app_assoc. destruct (C39_split_unique (d ++ [sep]) f) as [ -> -> ]; auto.
    right. now exists d.
Qed.

(** the characters of an extension: letters, digits and the underscore *)
Definition word_char (c : ascii) : Prop :=
  let n := N_of_ascii c in (48 <= n <= 57 \/ 65 <= n <= 90 \/ 97 <= n <= 122 \/ n = 95)%N.
Definition line_break (c : ascii) : Prop := c = "010"%char \/ c = "013"%char.
Definition lowered (c : ascii) : ascii :=
  if ((65 <=? N_of_ascii c) && (N_of_ascii c <=? 90))%N then ascii_of_N (N_of_ascii c + 32) else c.

Lemma is_word_spec : forall c, is_word c = true <-> word_char c.
Proof. intro c. unfold is_word, word_char. lia. Qed.

Lemma is_newline_spec : forall c, is_newline c = true <-> line_break c.
Proof.
  intro c. unfold is_newline, line_break. rewrite orb_true_iff, !N.eqb_eq. split.
  - intros [ H | H ]; [ left | right ]; rewrite <- (ascii_N_embedding c), H; reflexivity.
  - intros [ -> | -> ]; [ left | right ]; reflexivity.
Qed.

Lemma no_newline : forall s, existsb is_newline s = false <-> forall c, In c s -> ~ line_break c.
Proof.
  intro s. rewrite <- not_true_iff_false, existsb_exists. split.
  - intros H c I L. apply H. exists c. split; [ exact I | now apply is_newline_spec ].
  - intros H (c & I & L). apply is_newline_spec in L. now apply (H c).
Qed.

(** the part behind the last dot, in lower case *)
Theorem C39_extension : forall a e, e <> [] -> Forall word_char e -> (forall c, In c a -> ~ line_break c) ->
  getExtension (a ++ "."%char :: e) = map lowered e.
Proof.
  intros a e NE W L. unfold getExtension. change (s_ ".") with ["."%char].
  assert (N : ~ In "."%char e).
  { intro I. rewrite Forall_forall in W. specialize (W _ I). unfold word_char in W. cbn in W. lia. }
  rewrite find_last_some by assumption. rewrite skipn_len, firstn_len0.
  destruct e as [ | c e ]; [ congruence | ].
  replace (forallb is_word (c :: e)) with true.
  - rewrite (proj2 (no_newline a) L). reflexivity.
  - symmetry. apply forallb_forall. intros x I. apply is_word_spec. rewrite Forall_forall in W. now apply W.
Qed.

(** any other name has none *)
Theorem C39_no_extension : forall p,
  (forall a e, p = a ++ "."%char :: e -> Forall word_char e -> e = [] \/ exists c, In c a /\ line_break c) ->
  getExtension p = [].
Proof.
  intros p H. unfold getExtension. change (s_ ".") with ["."%char].
  destruct (split_last "."%char p) as [ N | (a & b & E & N) ].
  - now rewrite find_last_none.
  - rewrite E, find_last_some by assumption. rewrite skipn_len, firstn_len0.
    destruct b as [ | c b ]; [ reflexivity | ].
    destruct (forallb is_word (c :: b)) eqn:W; [ | reflexivity ].
    destruct (existsb is_newline a) eqn:L; [ reflexivity | ]. exfalso.
    rewrite no_newline in L. destruct (H a (c :: b) E) as [ X | (x & I & B) ].
    + apply Forall_forall. intros x I. rewrite forallb_forall in W. now apply is_word_spec, W.
    + discriminate.
    + now apply (L x).
Qed.

(** it depends on the file name only *)
Theorem C39_extension_of_name : forall p, (forall c, In c p -> ~ line_break c) ->
  getExtension p = getExtension (extractFilename p).
Proof.
  intros p L. destruct (C39_split p) as (E & N & D). revert E N D.
  generalize (removeFilename p) as d, (extractFilename p) as f. intros d f <- N D.
  unfold getExtension at 2. change (s_ ".") with ["."%char].
  destruct (split_last "."%char f) as [ M | (a & b & -> & M) ].
  - rewrite find_last_none by assumption. apply C39_no_extension.
    intros a e Q W. exfalso. rewrite Forall_forall in W.
    destruct D as [ -> | (d' & ->) ].
    + cbn in Q. apply M. rewrite Q. apply in_or_app. right. now left.
    + rewrite <- app_assoc in Q. cbn [app] in Q.
      assert (I : In sep e).
      { clear W L N. revert a Q. induction d' as [ | x d' IH ]; intros [ | y a ] Q; cbn [app] in Q.
        - injection Q. discriminate.
        - injection Q as -> Q. exfalso. apply M. rewrite Q. apply in_or_app. right. now left.
        - injection Q as -> <-. apply in_or_app. right. now left.
        - injection Q as -> Q. now apply (IH a). }
      specialize (W _ I). unfold word_char in W. cbn in W. lia.
  - rewrite find_last_some by assumption. rewrite skipn_len, firstn_len0.
    unfold getExtension. change (s_ ".") with ["."%char]. rewrite app_assoc, find_last_some by assumption.
    rewrite skipn_len, firstn_len0. rewrite existsb_app.
    replace (existsb is_newline d) with false; [ reflexivity | ]. symmetry. apply no_newline.
    intros c I. apply L. apply in_or_app. now left.
Qed.

Example C39_nonvacuous :
  removeFilename (s_ "/data/a.b/arome_2.NC4") = s_ "/data/a.b/" /\
  extractFilename (s_ "/data/a.b/arome_2.NC4") = s_ "arome_2.NC4" /\
  getExtension (s_ "/data/a.b/arome_2.NC4") = s_ "nc4" /\
  getExtension (s_ "/data/a.b/arome") = [] /\
  joinFilename (s_ "/data") (s_ "x.nc") = s_ "/data/x.nc" /\ joinFilename (s_ "/data/") (s_ "x.nc") = s_ "/data/x.nc".
Proof. repeat split; reflexivity. Qed.

(** * C38 directory scans *)

(** a file of the tree, as the list of names leading to it *)
Inductive file_at : tree -> list str -> Prop :=
| fa_file : forall n r, file_at (File n r) [n]
| fa_after_file : forall n r p, file_at r p -> file_at (File n r) p
| fa_after_special : forall n r p, file_at r p -> file_at (Special n r) p
| fa_in_sub : forall n s r p, file_at s p -> file_at (Sub n s r) (n :: p)
| fa_after_sub : forall n s r p, file_at r p -> file_at (Sub n s r) p.

(** not more than d directories below the start; a negative number is no limit *)
Definition within (d : Z) (p : list str) : Prop := (d < 0 \/ Z.of_nat (length p) <= d + 1)%Z.

Lemma file_at_ne : forall t p, file_at t p -> 1 <= length p.
Proof. induction 1; cbn; lia. Qed.

(** the list of files in order of the entries has exactly the files within the depth *)
Theorem C38_listing : forall t d p, In p (listing d t) <-> file_at t p /\ within d p.
Proof.
  unfold within.
  induction t as [ | n r IHr | n r IHr | n s IHs r IHr ]; intros d p; cbn [listing].
  - split; [ intros [] | intros [ H _ ]; inversion H ].
  - cbn [In]. rewrite IHr. split.
    + intros [ <- | [ H W ] ].
      * split; [ constructor | cbn; lia ].
      * split; [ now constructor | exact W ].
    + intros [ H W ]. inversion H; subst; [ now left | right; auto ].
  - rewrite IHr. split; intros [ H W ]; split; auto; [ now constructor | now inversion H ].
  - rewrite in_app_iff, IHr. destruct (Z.eqb_spec d 0) as [ Z0 | NZ ].
    + split.
      * intros [ [] | [ H W ] ]. split; [ now apply fa_after_sub | exact W ].
      * intros [ H W ]. right. inversion H; subst; auto.
        exfalso. match goal with F : file_at s _ |- _ => apply file_at_ne in F end. cbn in W. lia.
    + rewrite in_map_iff. split.
      * intros [ (q & <- & I) | [ H W ] ].
        -- apply IHs in I. destruct I as [ F W ]. split; [ now constructor | ]. cbn [length]. lia.
        -- split; [ now apply fa_after_sub | exact W ].
      * intros [ H W ]. inversion H; subst.
        -- left. eexists. split; [ reflexivity | ]. apply IHs. split; [ assumption | ]. cbn [length] in W. lia.
        -- right. auto.
Qed.

(** matching the file name only: exactly the matching files, in order *)
Theorem C38_scan_file_only : forall re dir d t, levels d t <= 1000 ->
  scanFiles re true dir d t = Ok (map (full dir) (filter (fun p : list str => re (last p [])) (listing d t))).
Proof.
  intros re dir d t L. unfold scanFiles. rewrite scan_seen by lia.
  destruct (Nat.leb_spec (0 + levels d t) 1000); [ | lia ]. f_equal.
  rewrite (scan_filter re (fun p => last p [])).
  - now rewrite seen_names.
  - intros e I. now apply (seen_file_only t d []).
Qed.

(** matching the path: exactly the files whose path relative to the start directory matches, if no
    entry follows a sub-directory that is entered *)
Theorem C38_scan_path : forall re dir d t, levels d t <= 1000 -> tidy d t ->
  scanFiles re false dir d t = Ok (map (full dir) (filter (fun p => re (rel_path p)) (listing d t))).
Proof.
  intros re dir d t L T. unfold scanFiles. rewrite scan_seen by lia.
  destruct (Nat.leb_spec (0 + levels d t) 1000); [ | lia ]. f_equal.
  rewrite (scan_filter re rel_path).
  - now rewrite seen_names.
  - intros e I. now apply (seen_tidy t d []).
Qed.

(** in particular when no sub-directory is entered *)
Theorem C38_scan_flat : forall re dir t,
  scanFiles re false dir 0 t = Ok (map (full dir) (filter (fun p => re (rel_path p)) (listing 0 t))).
Proof.
  intros re dir t. apply C38_scan_path; [ | apply tidy_0 ]. induction t; cbn; lia.
Qed.

(** a pattern that ignores the directory part finds the same files whatever the siblings are *)
Theorem C38_scan_any_directory : forall (re : str -> bool) (dir : str) d t, levels d t <= 1000 ->
  (forall a n, no_sep n -> dir_part a -> re (a ++ n) = re n) ->
  (forall p, In p (listing d t) -> Forall no_sep p) ->
  exists files, scanFiles re false dir d t = Ok files /\
    files = map (full dir) (filter (fun p : list str => re (last p [])) (listing d t)).
Proof.
  intros re dir d t L R NS. eexists. split; [ | reflexivity ].
  unfold scanFiles. rewrite scan_seen by lia.
  destruct (Nat.leb_spec (0 + levels d t) 1000); [ | lia ]. f_equal.
  rewrite <- (seen_names false t d []).
  assert (G : forall t d rel e, dir_part rel -> In e (seen false d rel t) ->
            (forall p, In p (listing d t) -> Forall no_sep p) ->
            exists a, dir_part a /\ fst e = a ++ last (snd e) []).
  { clear. induction t as [ | n r IHr | n r IHr | n s IHs r IHr ]; intros d rel e D I NS; cbn [seen listing] in *.
    - destruct I.
    - destruct I as [ <- | I ]; [ now exists rel | ]. apply (IHr d rel); auto. intros p P. apply NS. now right.
    - now apply (IHr d rel).
    - destruct (d =? 0)%Z.
      + apply (IHr d rel); auto.
      + assert (D' : dir_part (rel ++ n ++ [slash])) by (right; exists (rel ++ n); now rewrite app_assoc).
        apply in_app_or in I. destruct I as [ I | I ].
        * apply in_map_iff in I. destruct I as (q & <- & Q). cbn [fst snd].
          destruct (IHs _ _ _ D' Q) as (a & DA & E).
          { intros p P. assert (X : In (n :: p) (map (cons n) (listing (d - 1) s) ++ listing d r))
              by (apply in_or_app; left; now apply in_map).
            apply NS in X. now inversion X. }
          exists a. split; [ exact DA | ]. rewrite E. f_equal. cbn [last].
          assert (M : In (snd q) (listing (d - 1) s))
            by (rewrite <- (seen_names false s (d - 1)%Z (rel ++ n ++ [slash])); now apply in_map).
          apply listing_ne in M. destruct (snd q); [ congruence | reflexivity ].
        * apply (IHr _ _ _ D' I). intros p P. apply NS. apply in_or_app. now right. }
  assert (G' : forall e, In e (seen false d [] t) -> re (fst e) = re (last (snd e) [])).
  { intros e I. destruct (G t d [] e) as (a & D & ->); auto; [ now left | ].
    apply R; [ | exact D ].
    assert (M : In (snd e) (listing d t)) by (rewrite <- (seen_names false t d []); now apply in_map).
    assert (F := NS _ M). apply listing_ne in M. destruct (exists_last M) as (q & x & Q). rewrite Q in *.
    rewrite last_last. apply Forall_app in F. destruct F as [ _ F ]. now inversion F. }
  clear - G'. revert G'. generalize (seen false d [] t) as l.
  induction l as [ | e l IH ]; intro G; [ reflexivity | ]. cbn [filter map].
  replace (re (last (snd e) [])) with (re (fst e)) by (apply G; now left). destruct (re (fst e)); cbn [map]; rewrite IH by (intros x I; apply G; now right); reflexivity.
Qed.

(** with two sub-directories, the files of the second are not found *)
Theorem C38_siblings_refuted : exists t p reg,
  file_at t p /\ rel_path p = s_ "b/x" /\ levels 1 t <= 1000 /\
  (forall s, reg s = str_eqb s (s_ "b/x")) /\
  scanFiles reg false (s_ ".") 1 t = Ok [].
Proof.
  exists (Sub (s_ "a") End (Sub (s_ "b") (File (s_ "x") End) End)), [s_ "b"; s_ "x"], (fun s => str_eqb s (s_ "b/x")).
  repeat split; try reflexivity; [ apply fa_after_sub, fa_in_sub, fa_file | cbn; lia ].
Qed.

(** and a file of the start directory is found as if it were in a sub-directory *)
Theorem C38_wrong_directory_refuted : exists t reg,
  (forall s, reg s = str_eqb s (s_ "a/x")) /\ ~ file_at t [s_ "a"; s_ "x"] /\
  scanFiles reg false (s_ ".") 1 t = Ok [s_ "./x"].
Proof.
  exists (Sub (s_ "a") End (File (s_ "x") End)), (fun s => str_eqb s (s_ "a/x")).
  repeat split; try reflexivity. intro H. inversion H; subst.
  - match goal with F : file_at End _ |- _ => inversion F end.
  - match goal with F : file_at (File _ _) _ |- _ => inversion F; subst end.
    match goal with F : file_at End _ |- _ => inversion F end.
Qed.

(** the scan gives up exactly when more than 1000 directories are nested *)
Theorem C38_scan_too_deep : forall re fo dir d t,
  scanFiles re fo dir d t = Throw <-> 1000 < levels d t.
Proof.
  intros. unfold scanFiles. rewrite scan_seen by lia.
  destruct (Nat.leb_spec (0 + levels d t) 1000); split; intro H0; try discriminate; try reflexivity; lia.
Qed.

(** ** glob patterns *)

(** "?" one character that is no separator, "*" a run of such characters, "**" any run of characters
    without line breaks, anything else itself *)
Inductive glob_spec : str -> str -> Prop :=
| gs_nil : glob_spec [] []
| gs_one : forall c p s, c <> sep -> glob_spec p s -> glob_spec ("?"%char :: p) (c :: s)
| gs_run : forall run p s, no_sep run -> (forall q, p <> "*"%char :: q) -> glob_spec p s ->
    glob_spec ("*"%char :: p) (run ++ s)
| gs_any : forall run p s, (forall c, In c run -> ~ line_break c) -> glob_spec p s ->
    glob_spec ("*"%char :: "*"%char :: p) (run ++ s)
| gs_char : forall c p s, c <> "?"%char -> c <> "*"%char -> glob_spec p s -> glob_spec (c :: p) (c :: s).

Lemma not_slash_spec : forall c, not_slash c = true <-> c <> sep.
Proof. intro c. unfold not_slash, is_slash. rewrite negb_true_iff. apply Ascii.eqb_neq. Qed.
Lemma not_newline_spec : forall c, not_newline c = true <-> ~ line_break c.
Proof. intro c. unfold not_newline. rewrite negb_true_iff, <- is_newline_spec. destruct (is_newline c); intuition congruence. Qed.

Lemma items_spec : forall n p s, length p <= n -> (re_match (glob_items p) s = true <-> glob_spec p s).
Proof.
  induction n as [ | n IH ]; intros p s H.
  - destruct p; [ | cbn in H; lia ]. cbn. destruct s; split; intro X; try discriminate; try constructor. inversion X.
  - destruct p as [ | c p ].
    { cbn. destruct s; split; intro X; try discriminate; try constructor. inversion X. }
    cbn [length] in H. cbn [glob_items].
    destruct (Ascii.eqb_spec c "?") as [ E1 | N1 ].
    + subst c. cbn [re_match]. destruct s as [ | x s ].
      * split; [ discriminate | intro X; inversion X; congruence ].
      * rewrite andb_true_iff, not_slash_spec, IH by lia. split.
        -- intros [ A B ]. now constructor.
        -- intro X. inversion X; subst; [ auto | congruence ].
    + destruct (Ascii.eqb_spec c "*") as [ E2 | N2 ].
      * subst c. destruct p as [ | d p' ].
        -- rewrite re_match_star. split.
           ++ intros (run & rest & -> & A & B). apply gs_run; [ | discriminate | ].
              ** intro I. apply A in I. now apply not_slash_spec in I.
              ** destruct rest; [ constructor | discriminate ].
           ++ intro X. inversion X; subst; [ | congruence ]. exists run, s0. repeat split.
              ** intros x I. apply not_slash_spec. intros ->. contradiction.
              ** match goal with F : glob_spec [] _ |- _ => inversion F end. reflexivity.
        -- destruct (Ascii.eqb_spec d "*") as [ E3 | N3 ].
           ++ subst d. rewrite re_match_star. split.
              ** intros (run & rest & -> & A & B). apply gs_any.
                 { intros x I. now apply not_newline_spec, A. }
                 apply IH in B; [ exact B | cbn in H; lia ].
              ** intro X. inversion X; subst; try congruence.
                 exists run, s0. repeat split.
                 { intros x I. now apply not_newline_spec, H1. }
                 apply IH; [ cbn in H; lia | assumption ].
           ++ rewrite re_match_star. split.
              ** intros (run & rest & -> & A & B). apply gs_run.
                 { intro I. apply A in I. now apply not_slash_spec in I. }
                 { intros q Q. congruence. }
                 apply IH in B; [ exact B | cbn in H |- *; lia ].
              ** intro X. inversion X; subst; try congruence.
                 exists run, s0. repeat split.
                 { intros x I. apply not_slash_spec. intros ->. contradiction. }
                 apply IH; [ cbn in H |- *; lia | assumption ].
      * unfold lit_item. cbn [re_match]. destruct s as [ | x s ].
        -- split; [ discriminate | intro X; inversion X; congruence ].
        -- rewrite andb_true_iff, IH by lia. split.
           ++ intros [ A B ]. apply Ascii.eqb_eq in A. subst x. now constructor.
           ++ intro X. inversion X; subst; try congruence. split; [ apply Ascii.eqb_refl | assumption ].
Qed.

(** the regular expression made from a glob pattern is always accepted and matches the same names *)
Theorem C38_glob_language : forall reg, exists p,
  re_parse (glob_regex reg) = Some p /\ forall s, re_match p s = true <-> glob_spec reg s.
Proof.
  intro reg. exists (glob_items reg). split.
  - unfold re_parse. apply (parse_glob (length reg)); lia.
  - intro s. now apply (items_spec (length reg)).
Qed.

(** the start directory and the pattern make up the argument: the directory has no wildcard and ends
    in a separator, and no separator is left before the first wildcard *)
Theorem C38_glob_split : forall glob, (forall c, In c glob -> ~ line_break c) ->
  (glob_split glob = (s_ ".", glob) /\
   (forall a b, glob = a ++ sep :: b -> In "*"%char a \/ In "?"%char a)) \/
  (exists d, fst (glob_split glob) = d ++ [sep] /\ fst (glob_split glob) ++ snd (glob_split glob) = glob /\
     ~ In "*"%char (fst (glob_split glob)) /\ ~ In "?"%char (fst (glob_split glob)) /\
     forall a b, snd (glob_split glob) = a ++ sep :: b -> In "*"%char a \/ In "?"%char a).
Proof.
  intros glob L. unfold glob_split. change (s_ "/") with [sep].
  set (w := take_while (fun c => negb (is_wild c)) glob).
  assert (W : exists rest, glob = w ++ rest /\ (forall c, In c w -> is_wild c = false) /\
              match rest with c :: _ => is_wild c = true | [] => True end).
  { subst w. clear L. induction glob as [ | c g (rest & E & A & B) ].
    - exists []. repeat split. intros c [].
    - cbn [take_while]. destruct (is_wild c) eqn:X; cbn [negb].
      + exists (c :: g). repeat split; [ intros x [] | exact X ].
      + exists rest. split; [ cbn [app]; now rewrite <- E | ]. split; [ | exact B ].
        intros x [ <- | I ]; auto. }
  destruct W as (rest & E & A & B). clearbody w.
  assert (WI : forall c, is_wild c = true -> c = "*"%char \/ c = "?"%char).
  { intros c. unfold is_wild. rewrite orb_true_iff, !Ascii.eqb_eq. tauto. }
  assert (tail : forall u a b, u ++ rest = a ++ sep :: b -> ~ In sep u -> In "*"%char a \/ In "?"%char a).
  { intros u. induction u as [ | x u IH ]; intros a b Q N.
    - destruct rest as [ | c rest ]; [ destruct a; discriminate | ].
      destruct a as [ | y a ]; cbn [app] in Q; injection Q as -> Q.
      + discriminate B.
      + apply WI in B. destruct B as [ -> | -> ]; [ left | right ]; now left.
    - destruct a as [ | y a ]; cbn [app] in Q; injection Q as -> Q.
      + exfalso. apply N. now left.
      + destruct (IH a b Q) as [ I | I ]; [ intro I; apply N; now right | left | right ]; now right. }
  destruct (split_last sep w) as [ N | (a & b & Q & N) ].
  - rewrite find_last_none by assumption. left. split; [ reflexivity | ].
    intros a b X. rewrite E in X. now apply (tail w a b).
  - rewrite Q, find_last_some by assumption. rewrite Q in E. rewrite <- app_assoc in E. cbn [app] in E.
    rewrite E, skipn_len, firstn_len.
    replace (existsb is_newline (b ++ rest)) with false.
    2:{ symmetry. apply no_newline. intros c I. apply L. rewrite E. apply in_or_app. right. now right. }
    right. exists a. cbn [fst snd]. split; [ reflexivity | ]. split; [ now rewrite <- app_assoc | ].
    assert (NW : forall c, is_wild c = true -> ~ In c (a ++ [sep])).
    { intros c C I. assert (In c w) as I'.
      { rewrite Q. apply in_app_or in I. apply in_or_app. destruct I as [ I | [ <- | [] ] ]; [ now left | right; now left ]. }
      apply A in I'. congruence. }
    split; [ now apply NW | ]. split; [ now apply NW | ].
    intros a' b' X. now apply (tail b a' b').
Qed.

Lemma count_app : forall a b, count_slash (a ++ b) = count_slash a + count_slash b.
Proof. intros. unfold count_slash. now rewrite filter_app, app_length. Qed.
Lemma count_none : forall s, no_sep s -> count_slash s = 0.
Proof.
  intros s N. unfold count_slash. induction s as [ | c s IH ]; [ reflexivity | ]. cbn [filter].
  unfold is_slash. destruct (Ascii.eqb_spec c slash) as [ -> | NE ].
  - exfalso. apply N. now left.
  - apply IH. intro I. apply N. now right.
Qed.

Lemma double_tail : forall c p, has_double (c :: p) = false -> has_double p = false.
Proof.
  intros c [ | d p ] H; [ reflexivity | ].
  change (has_double (c :: d :: p)) with (Ascii.eqb c "*" && Ascii.eqb d "*" || has_double (d :: p)) in H.
  now apply orb_false_elim in H.
Qed.

(** without "**" a pattern only matches paths of its own depth *)
Theorem C38_glob_depth : forall reg s, has_double reg = false -> glob_spec reg s -> count_slash s = count_slash reg.
Proof.
  intros reg s H G. induction G as [ | c p s N G IH | run p s N NQ G IH | run p s N G IH | c p s N1 N2 G IH ].
  - reflexivity.
  - assert (D : has_double p = false) by (now apply double_tail in H).
    unfold count_slash in *. cbn [filter]. unfold is_slash. destruct (Ascii.eqb_spec c slash) as [ -> | ]; [ now elim N | ].
    cbn [Ascii.eqb Bool.eqb andb]. now apply IH.
  - assert (D : has_double p = false) by (now apply double_tail in H).
    rewrite count_app, count_none by assumption. cbn [Nat.add]. rewrite IH by assumption. reflexivity.
  - discriminate H.
  - assert (D : has_double p = false) by (now apply double_tail in H).
    change (c :: s) with ([c] ++ s). change (c :: p) with ([c] ++ p). rewrite !count_app. now rewrite IH.
Qed.

Lemma count_rel : forall p, p <> [] -> Forall no_sep p -> count_slash (rel_path p) = length p - 1.
Proof.
  induction p as [ | n p IH ]; intros NE F; [ congruence | ]. inversion F; subst.
  destruct p as [ | m p ].
  - cbn. now apply count_none.
  - change (rel_path (n :: m :: p)) with (n ++ [slash] ++ rel_path (m :: p)).
    rewrite !count_app, IH by (auto; discriminate). rewrite count_none by assumption. cbn. lia.
Qed.

(** globFiles: exactly the files below the start directory whose relative path matches, if no entry
    follows a sub-directory that is entered *)
Theorem C38_glob_files : forall fs glob dir reg, glob_split glob = (dir, reg) ->
  levels (glob_depth reg) (fs dir) <= 1000 -> tidy (glob_depth reg) (fs dir) ->
  (forall p, file_at (fs dir) p -> Forall no_sep p) ->
  exists files, globFiles fs glob = Ok files /\
    forall f, In f files <-> exists p, file_at (fs dir) p /\ glob_spec reg (rel_path p) /\ f = full dir p.
Proof.
  intros fs glob dir reg S L T NS. unfold globFiles. rewrite S.
  destruct (C38_glob_language reg) as (p & -> & M).
  rewrite C38_scan_path by assumption. eexists. split; [ reflexivity | ].
  intro f. rewrite in_map_iff. split.
  - intros (q & <- & I). apply filter_In in I. destruct I as [ I R ]. apply C38_listing in I.
    exists q. repeat split; [ apply I | now apply M ].
  - intros (q & F & G & ->). exists q. split; [ reflexivity | ]. apply filter_In. split; [ | now apply M ].
    apply C38_listing. split; [ exact F | ]. unfold within, glob_depth.
    destruct (has_double reg) eqn:D; [ left; lia | right ].
    rewrite <- (C38_glob_depth reg _ D G). rewrite count_rel; [ | | now apply NS ].
    + assert (X := file_at_ne _ _ F). lia.
    + intros ->. apply file_at_ne in F. cbn in F. lia.
Qed.

(** a pattern for one directory level finds files of the first sub-directory only *)
Theorem C38_glob_siblings_refuted :
  let t := Sub (s_ "d1") (File (s_ "x.nc") End) (Sub (s_ "d2") (File (s_ "x.nc") End) End) in
  globFiles (fun _ => t) (s_ "in/*/x.nc") = Ok [s_ "in/d1/x.nc"] /\
  file_at t [s_ "d2"; s_ "x.nc"] /\ glob_spec (s_ "*/x.nc") (rel_path [s_ "d2"; s_ "x.nc"]).
Proof.
  split; [ reflexivity | ]. split; [ apply fa_after_sub, fa_in_sub, fa_file | ].
  apply (gs_run (s_ "d2") (s_ "/x.nc") (s_ "/x.nc")).
  - cbn. unfold no_sep, sep. cbn. intros [ H | [ H | [] ] ]; discriminate.
  - discriminate.
  - repeat (apply gs_char; [ discriminate | discriminate | ]). constructor.
Qed.

(** "**" does not match a line break in a name *)
Theorem C38_line_break_refuted : exists s, s = ["010"%char] /\
  forall p, re_parse (glob_regex (s_ "**")) = Some p -> re_match p s = false.
Proof. exists ["010"%char]. split; [ reflexivity | ]. intros p H. injection H as <-. reflexivity. Qed.

Example C38_nonvacuous :
  let t := File (s_ "a.nc") (File (s_ "b.txt") (Special (s_ "pipe") (Sub (s_ "sub") (File (s_ "c.nc") End) End))) in
  levels (-1) t <= 1000 /\ tidy (-1) t /\
  globFiles (fun _ => t) (s_ "/data/**.nc") = Ok [s_ "/data/a.nc"; s_ "/data/sub/c.nc"] /\
  globFiles (fun _ => t) (s_ "/data/?.nc") = Ok [s_ "/data/a.nc"] /\
  glob_split (s_ "/data/*/y.nc") = (s_ "/data/", s_ "*/y.nc").
Proof. repeat split; try reflexivity; cbn; auto; lia. Qed.

Print Assumptions C39_split.
Print Assumptions C39_split_unique.
Print Assumptions C39_replace.
Print Assumptions C39_replace_own.
Print Assumptions C39_join.
Print Assumptions C39_join_split.
Print Assumptions C39_extension.
Print Assumptions C39_no_extension.
Print Assumptions C39_extension_of_name.
Print Assumptions C38_listing.
Print Assumptions C38_scan_file_only.
Print Assumptions C38_scan_path.
Print Assumptions C38_scan_flat.
Print Assumptions C38_scan_any_directory.
Print Assumptions C38_siblings_refuted.
Print Assumptions C38_wrong_directory_refuted.
Print Assumptions C38_scan_too_deep.
Print Assumptions C38_glob_language.
Print Assumptions C38_glob_split.
Print Assumptions C38_glob_depth.
Print Assumptions C38_glob_files.
Print Assumptions C38_glob_siblings_refuted.
Print Assumptions C38_line_break_refuted.
