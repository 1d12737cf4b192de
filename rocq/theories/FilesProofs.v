(** Lemmas for FilesModel *)
From Coq Require Import NArith ZArith Ascii String List Bool Lia.
From Coq Require Import ZifyBool ZifyNat ZifyN.
From Verif Require Import Base SearchModel StringModel StringProofs TextModel FilesModel.
Import ListNotations.
Local Open Scope nat_scope.

(** * the last separator *)

Lemma mem1 : forall c x, mem x [c] = Ascii.eqb x c.
Proof. intros. unfold mem. cbn. now rewrite orb_false_r. Qed.

Lemma find_last_none : forall c s, ~ In c s -> find_last_of s [c] = None.
Proof.
  intros c s H. unfold find_last_of. rewrite find_from_none; [ reflexivity | ].
  apply Forall_forall. intros x I. rewrite mem1. apply Ascii.eqb_neq. intros ->.
  apply H. now apply in_rev.
Qed.

Lemma find_last_some : forall c a b, ~ In c b -> find_last_of (a ++ c :: b) [c] = Some (length a).
Proof.
  intros c a b H. unfold find_last_of. rewrite rev_app_distr. cbn [rev]. rewrite <- app_assoc. cbn [app].
  rewrite find_from_app.
  - f_equal. rewrite app_length, rev_length. cbn [length]. lia.
  - apply Forall_forall. intros x I. rewrite mem1. apply Ascii.eqb_neq. intros ->.
    apply H. now apply in_rev.
  - rewrite mem1. apply Ascii.eqb_refl.
Qed.

Lemma split_last : forall (c : ascii) s,
  ~ In c s \/ exists a b, s = a ++ c :: b /\ ~ In c b.
Proof.
  intros c s. induction s as [ | x s [ N | (a & b & E & N) ] ].
  - left. intros [].
  - destruct (Ascii.eqb_spec x c) as [ E | NE ].
    + right. exists [], s. subst x. now split.
    + left. intros [ E | I ]; [ now apply NE | now apply N ].
  - right. exists (x :: a), b. split; [ now rewrite E | exact N ].
Qed.

Lemma skipn_len : forall (a : str) c b, skipn (length a + 1) (a ++ c :: b) = b.
Proof. intros. induction a as [ | x a IH ]; [ reflexivity | exact IH ]. Qed.
Lemma firstn_len : forall (a : str) c b, firstn (length a + 1) (a ++ c :: b) = a ++ [c].
Proof. intros. induction a as [ | x a IH ]; [ reflexivity | ]. cbn [length Nat.add firstn app]. now rewrite IH. Qed.
Lemma firstn_len0 : forall (a b : str), firstn (length a) (a ++ b) = a.
Proof. intros. induction a as [ | x a IH ]; [ reflexivity | ]. cbn [length firstn app]. now rewrite IH. Qed.

(** * reading the regular expression of a glob pattern *)

Definition lit_item (c : ascii) : item := One (Ascii.eqb c).

Fixpoint glob_items (reg : str) : list item :=
  match reg with
  | [] => []
  | c :: r =>
      if Ascii.eqb c "?" then One not_slash :: glob_items r
      else if Ascii.eqb c "*" then
        match r with
        | d :: r' => if Ascii.eqb d "*" then Star not_newline :: glob_items r'
                     else Star not_slash :: glob_items r
        | [] => [Star not_slash]
        end
      else lit_item c :: glob_items r
  end.

Definition no_star_head (s : str) : Prop := match s with c :: _ => c <> "*"%char | [] => True end.

Lemma glob_regex_head : forall r, no_star_head (glob_regex r).
Proof.
  intros [ | c r ]; [ exact I | ]. cbn [glob_regex].
  destruct (Ascii.eqb_spec c "?") as [ _ | N1 ]; [ cbn; discriminate | ].
  destruct (Ascii.eqb_spec c "*") as [ _ | N2 ].
  - destruct r as [ | d r' ]; [ cbn; discriminate | ].
    destruct (Ascii.eqb d "*"); cbn; discriminate.
  - unfold regex_escape_char. destruct (mem c ESCAPE_THESE); cbn; [ discriminate | exact N2 ].
Qed.

Lemma glob_regex_nostar : forall r, match glob_regex r with c :: _ => Ascii.eqb c "*" = false | [] => True end.
Proof.
  intro r. assert (H := glob_regex_head r). destruct (glob_regex r); [ exact I | ]. now apply Ascii.eqb_neq.
Qed.

Lemma parse_glob : forall n r fuel, length r <= n -> length (glob_regex r) < fuel ->
  re_parse_loop fuel (glob_regex r) = Some (glob_items r).
Proof.
  induction n as [ | n IH ]; intros r fuel Hn Hf.
  - destruct r; [ | cbn in Hn; lia ]. destruct fuel; [ cbn in Hf; lia | reflexivity ].
  - destruct r as [ | c r ]; [ destruct fuel; [ cbn in Hf; lia | reflexivity ] | ].
    cbn [length] in Hn. cbn [glob_regex glob_items] in *.
    assert (NS := glob_regex_nostar r).
    destruct (Ascii.eqb_spec c "?") as [ E1 | N1 ].
    + destruct fuel as [ | fuel ]; [ lia | ].
      assert (R : re_parse_loop fuel (glob_regex r) = Some (glob_items r)).
      { apply IH; [ lia | ]. cbn [s_ list_ascii_of_string app length] in Hf. lia. }
      cbn [s_ list_ascii_of_string app re_parse_loop]. cbn [Ascii.eqb Bool.eqb andb].
      destruct (glob_regex r) as [ | x q ] eqn:G.
      * rewrite R. reflexivity.
      * rewrite NS. rewrite R. reflexivity.
    + destruct (Ascii.eqb_spec c "*") as [ E2 | N2 ].
      * destruct r as [ | d r' ].
        { destruct fuel as [ | [ | fuel ] ]; cbn in Hf; try lia. reflexivity. }
        destruct (Ascii.eqb_spec d "*") as [ E3 | N3 ].
        -- destruct fuel as [ | fuel ]; [ lia | ].
           assert (R : re_parse_loop fuel (glob_regex r') = Some (glob_items r')).
           { apply IH; [ cbn in Hn; lia | ]. cbn [s_ list_ascii_of_string app length] in Hf. lia. }
           cbn [s_ list_ascii_of_string app re_parse_loop]. cbn [Ascii.eqb Bool.eqb andb].
           rewrite R. reflexivity.
        -- destruct fuel as [ | fuel ]; [ lia | ].
           assert (R : re_parse_loop fuel (glob_regex (d :: r')) = Some (glob_items (d :: r'))).
           { apply IH; [ cbn in Hn |- *; lia | ]. cbn [s_ list_ascii_of_string app length] in Hf. lia. }
           cbn [s_ list_ascii_of_string app]. remember (glob_regex (d :: r')) as G.
           remember (glob_items (d :: r')) as GI.
           cbn [re_parse_loop]. cbn [Ascii.eqb Bool.eqb andb].
           rewrite R. reflexivity.
      * unfold regex_escape_char in *. destruct (mem c ESCAPE_THESE) eqn:M; cbn [app length] in *.
        -- destruct fuel as [ | fuel ]; [ lia | ].
           assert (R : re_parse_loop fuel (glob_regex r) = Some (glob_items r)) by (apply IH; lia).
           cbn [re_parse_loop]. change (Ascii.eqb "\" "\") with true. cbn iota.
           destruct (glob_regex r) as [ | x q ].
           ++ rewrite R. reflexivity.
           ++ rewrite NS, R. reflexivity.
        -- destruct fuel as [ | fuel ]; [ lia | ].
           assert (R : re_parse_loop fuel (glob_regex r) = Some (glob_items r)) by (apply IH; lia).
           assert (NI : forall d, In d ESCAPE_THESE -> Ascii.eqb c d = false).
           { intros d I. apply Ascii.eqb_neq. intros ->. apply mem_In in I. congruence. }
           cbn [re_parse_loop]. rewrite !NI by (cbn; tauto). unfold is_special. rewrite M. cbn iota.
           destruct (glob_regex r) as [ | x q ].
           ++ rewrite R. reflexivity.
           ++ rewrite NS, R. reflexivity.
Qed.

Lemma re_match_star : forall f p s, re_match (Star f :: p) s = true <->
  exists run rest, s = run ++ rest /\ (forall c, In c run -> f c = true) /\ re_match p rest = true.
Proof.
  intros f p. induction s as [ | c s IH ]; cbn [re_match].
  - rewrite orb_false_r. split.
    + intro H. exists [], []. repeat split; [ intros c [] | exact H ].
    + intros (run & rest & E & _ & H). symmetry in E. apply app_eq_nil in E. destruct E as [ _ E ]. now rewrite E in H.
  - rewrite orb_true_iff, andb_true_iff. cbn [re_match] in IH. rewrite IH. split.
    + intros [ H | (F & run & rest & E & A & H) ].
      * exists [], (c :: s). repeat split; [ intros x [] | exact H ].
      * exists (c :: run), rest. split; [ now rewrite E | ]. split; [ | exact H ].
        intros x [ <- | I ]; [ exact F | now apply A ].
    + intros (run & rest & E & A & H). destruct run as [ | x run ].
      * left. cbn in E. now rewrite E.
      * right. injection E as -> E. split; [ apply A; now left | ].
        exists run, rest. repeat split; auto. intros y I. apply A. now right.
Qed.

(** * scanning *)

(** the files of a tree down to a depth, each as the list of names leading to it *)
Fixpoint listing (d : Z) (t : tree) : list (list str) :=
  match t with
  | End => []
  | Special _ r => listing d r
  | File n r => [n] :: listing d r
  | Sub n s r => (if (d =? 0)%Z then [] else map (cons n) (listing (d - 1) s)) ++ listing d r
  end.

(** nesting of directories that are entered *)
Fixpoint levels (d : Z) (t : tree) : nat :=
  match t with
  | End => 0
  | Special _ r => levels d r
  | File _ r => levels d r
  | Sub _ s r => if (d =? 0)%Z then levels d r else Nat.max (S (levels (d - 1) s)) (levels d r)
  end.

(** the path of a file for a list of names *)
Definition full (dir : str) (p : list str) : str := fold_left joinFilename p dir.
Fixpoint rel_path (p : list str) : str :=
  match p with
  | [] => []
  | [n] => n
  | n :: p' => n ++ slash :: rel_path p'
  end.

(** what each file is matched with, and its names *)
Fixpoint seen (fileOnly : bool) (d : Z) (rel : str) (t : tree) : list (str * list str) :=
  match t with
  | End => []
  | Special _ r => seen fileOnly d rel r
  | File n r => ((if fileOnly then [] else rel) ++ n, [n]) :: seen fileOnly d rel r
  | Sub n s r =>
      if (d =? 0)%Z then seen fileOnly d rel r
      else let rel' := if fileOnly then rel else rel ++ n ++ [slash] in
           map (fun e => (fst e, n :: snd e)) (seen fileOnly (d - 1) rel' s) ++ seen fileOnly d rel' r
  end.

Lemma scan_seen : forall re fo t dir d rel dc, dc <= 1000 ->
  scanFiles_ re fo dir d rel dc t =
  if dc + levels d t <=? 1000
  then Ok (map (fun e => full dir (snd e)) (filter (fun e => re (fst e)) (seen fo d rel t)))
  else Throw.
Proof.
  intros re fo. induction t as [ | n r IHr | n r IHr | n s IHs r IHr ]; intros dir d rel dc H;
    cbn [scanFiles_ levels seen].
  - destruct (Nat.leb_spec (dc + 0) 1000); [ reflexivity | lia ].
  - rewrite IHr by assumption. destruct (Nat.leb_spec (dc + levels d r) 1000); [ | reflexivity ].
    cbn [obind filter fst]. destruct (re _); reflexivity.
  - now apply IHr.
  - destruct (Z.eqb_spec d 0) as [ Z0 | NZ ]; [ now apply IHr | ].
    destruct (Nat.ltb_spec 1000 (dc + 1)) as [ L | L ].
    + cbn [obind]. destruct (Nat.leb_spec (dc + Nat.max (S (levels (d - 1) s)) (levels d r)) 1000); [ lia | reflexivity ].
    + rewrite IHs by lia. rewrite IHr by lia.
      destruct (Nat.leb_spec (dc + 1 + levels (d - 1) s) 1000) as [ A | A ]; cbn [obind].
      2: destruct (Nat.leb_spec (dc + Nat.max (S (levels (d - 1) s)) (levels d r)) 1000); [ lia | reflexivity ].
      destruct (Nat.leb_spec (dc + levels d r) 1000) as [ B | B ]; cbn [obind].
      2: destruct (Nat.leb_spec (dc + Nat.max (S (levels (d - 1) s)) (levels d r)) 1000); [ lia | reflexivity ].
      destruct (Nat.leb_spec (dc + Nat.max (S (levels (d - 1) s)) (levels d r)) 1000) as [ C | C ]; [ | lia ].
      f_equal. rewrite filter_app, map_app. f_equal.
      clear. set (l := seen _ _ _ _). clearbody l.
      induction l as [ | e l IH ]; [ reflexivity | ]. cbn [map filter fst]. destruct (re (fst e)); cbn [map snd]; now rewrite IH.
Qed.

Lemma seen_names : forall fo t d rel, map snd (seen fo d rel t) = listing d t.
Proof.
  intro fo. induction t as [ | n r IHr | n r IHr | n s IHs r IHr ]; intros d rel; cbn [seen listing].
  - reflexivity.
  - cbn [map snd]. now rewrite IHr.
  - apply IHr.
  - destruct (d =? 0)%Z; [ apply IHr | ].
    rewrite map_app, IHr. f_equal. rewrite <- (IHs (d - 1)%Z (if fo then rel else rel ++ n ++ [slash])).
    rewrite !map_map. reflexivity.
Qed.

Lemma listing_ne : forall t d p, In p (listing d t) -> p <> [].
Proof.
  induction t as [ | n r IHr | n r IHr | n s IHs r IHr ]; intros d p I; cbn [listing] in I.
  - destruct I.
  - destruct I as [ <- | I ]; [ discriminate | eauto ].
  - eauto.
  - apply in_app_or in I. destruct I as [ I | I ]; [ | eauto ].
    destruct (d =? 0)%Z; [ destruct I | ]. apply in_map_iff in I. destruct I as (q & <- & _). discriminate.
Qed.

(** only the name *)
Lemma seen_file_only : forall t d rel e, In e (seen true d rel t) -> fst e = last (snd e) [].
Proof.
  induction t as [ | n r IHr | n r IHr | n s IHs r IHr ]; intros d rel e I; cbn [seen] in I.
  - destruct I.
  - destruct I as [ <- | I ]; [ reflexivity | eauto ].
  - eauto.
  - destruct (d =? 0)%Z; [ eauto | ]. apply in_app_or in I. destruct I as [ I | I ]; [ | eauto ].
    apply in_map_iff in I. destruct I as (q & <- & Q). cbn [fst snd].
    rewrite (IHs _ _ _ Q). cbn [last].
    assert (M : In (snd q) (listing (d - 1) s)) by (rewrite <- (seen_names true s (d - 1)%Z rel); now apply in_map).
    apply listing_ne in M. destruct (snd q); [ congruence | reflexivity ].
Qed.

(** nothing that matters follows a sub-directory that is entered *)
Fixpoint bare (t : tree) : Prop :=
  match t with End => True | Special _ r => bare r | _ => False end.
Fixpoint tidy (d : Z) (t : tree) : Prop :=
  match t with
  | End => True
  | Special _ r => tidy d r
  | File _ r => tidy d r
  | Sub _ s r => if (d =? 0)%Z then tidy d r else tidy (d - 1) s /\ bare r
  end.

Lemma bare_seen : forall fo t d rel, bare t -> seen fo d rel t = [].
Proof. intro fo. induction t; intros d rel B; cbn in *; auto; contradiction. Qed.

Lemma seen_tidy : forall t d rel e, tidy d t -> In e (seen false d rel t) -> fst e = rel ++ rel_path (snd e).
Proof.
  induction t as [ | n r IHr | n r IHr | n s IHs r IHr ]; intros d rel e T I; cbn [seen tidy] in *.
  - destruct I.
  - destruct I as [ <- | I ]; [ reflexivity | eauto ].
  - eauto.
  - destruct (d =? 0)%Z; [ eauto | ]. destruct T as [ T B ].
    rewrite (bare_seen false r) in I by assumption. rewrite app_nil_r in I.
    apply in_map_iff in I. destruct I as (q & <- & Q). cbn [fst snd].
    rewrite (IHs _ _ _ T Q). rewrite <- !app_assoc. cbn [app]. f_equal.
    assert (M : In (snd q) (listing (d - 1) s)) by (rewrite <- (seen_names false s (d - 1)%Z (rel ++ n ++ [slash])); now apply in_map).
    apply listing_ne in M. destruct (snd q); [ congruence | reflexivity ].
Qed.

(** a depth of 0 enters nothing *)
Lemma tidy_0 : forall t, tidy 0 t.
Proof. induction t; cbn; auto. Qed.

Lemma scan_filter : forall (re : str -> bool) (m : list str -> str) (l : list (str * list str)) (dir : str),
  (forall e, In e l -> fst e = m (snd e)) ->
  map (fun e => full dir (snd e)) (filter (fun e => re (fst e)) l) =
  map (full dir) (filter (fun p => re (m p)) (map snd l)).
Proof.
  intros re m l dir. induction l as [ | e l IH ]; intro H; [ reflexivity | ].
  cbn [filter map]. rewrite (H e) by now left.
  destruct (re (m (snd e))); cbn [map]; rewrite IH by (intros x I; apply H; now right); reflexivity.
Qed.
