(** C115: templates in the attributes of configuration files. *)
From Coq Require Import PeanoNat NArith ZArith Ascii String List Bool Lia.
From Verif Require Import Base StringModel TimeModel TextModel TextProofs StringProofs InstantModel InstantProps TmplModel.
Import ListNotations.
Local Open Scope list_scope.
Local Open Scope nat_scope.

(** ** The search with a condition on what follows *)
Definition fnd (P : str -> bool) (r : re) (s : str) : option (list capture * str * str) :=
  find (fun x => P (snd x)) (matches_at r s).
Definition some {A} (o : option A) : bool := match o with Some _ => true | None => false end.

Lemma find_map : forall {A B} (g : A -> B) (p : B -> bool) l,
  find p (map g l) = option_map g (find (fun x => p (g x)) l).
Proof. induction l as [ | a l IH ]; [ reflexivity | ]. cbn [map find]. destruct (p (g a)); [ reflexivity | exact IH ]. Qed.
Lemma find_app : forall {A} (p : A -> bool) l l',
  find p (l ++ l') = match find p l with Some x => Some x | None => find p l' end.
Proof. induction l as [ | a l IH ]; intros l'; [ reflexivity | ]. cbn [List.app find]. destruct (p a); auto. Qed.
Lemma find_ext : forall {A} (p q : A -> bool) l, (forall x, p x = q x) -> find p l = find q l.
Proof. intros A p q l E. induction l as [ | a l IH ]; [ reflexivity | ]. cbn [find]. rewrite E, IH. reflexivity. Qed.

Lemma fnd_cat : forall P a b s,
  fnd P (Cat a b) s =
  match fnd (fun s' => some (fnd P b s')) a s with
  | Some (ca, ma, ra) =>
      match fnd P b ra with Some (cb, mb, rb) => Some (ca ++ cb, ma ++ mb, rb) | None => None end
  | None => None
  end.
Proof.
  intros P a b s. unfold fnd at 1 2. cbn [matches_at].
  induction (matches_at a s) as [ | [ [ ca ma ] ra ] l IH ]; [ reflexivity | ].
  cbn [flat_map find snd]. rewrite find_app, find_map.
  match goal with |- context [option_map _ (find ?p (matches_at b ra))] =>
    replace (find p (matches_at b ra)) with (fnd P b ra)
      by (unfold fnd; apply find_ext; intros [ [ ? ? ] ? ]; reflexivity) end.
  destruct (fnd P b ra) as [ [ [ cb mb ] rb ] | ] eqn:F.
  - cbn [option_map some]. rewrite F. reflexivity.
  - cbn [option_map some]. exact IH.
Qed.

Lemma fnd_opt : forall P a s,
  fnd P (Opt a) s = match fnd P a s with Some x => Some x | None => if P s then Some ([], [], s) else None end.
Proof. intros P a s. unfold fnd. cbn [matches_at]. rewrite find_app. reflexivity. Qed.

Lemma fnd_grp : forall P n a s,
  fnd P (Grp n a) s = option_map (fun x => let '(c, m, r) := x in ((n, m) :: c, m, r)) (fnd P a s).
Proof.
  intros P n a s. unfold fnd. cbn [matches_at]. rewrite find_map. f_equal.
  apply find_ext. intros [ [ ? ? ] ? ]. reflexivity.
Qed.

Lemma fnd_is : forall P c s, fnd P (is c) s =
  match s with x :: s' => if Ascii.eqb c x && P s' then Some ([], [x], s') else None | [] => None end.
Proof.
  intros P c s. unfold fnd, is. cbn [matches_at]. destruct s as [ | x s' ]; [ reflexivity | ].
  destruct (Ascii.eqb c x); [ | reflexivity ]. cbn [find snd andb]. destruct (P s'); reflexivity.
Qed.

(** the star takes the longest prefix *)
Lemma stars_all : forall f s m r, In (m, r) (stars f s) -> s = m ++ r /\ Forall (fun c => f c = true) m.
Proof.
  induction s as [ | c s IH ]; cbn [stars]; intros m r I.
  - destruct I as [ [=] | [] ]. subst. split; [ reflexivity | constructor ].
  - apply in_app_iff in I. destruct I as [ I | [ [=] | [] ] ].
    + destruct (f c) eqn:E; [ | destruct I ].
      apply in_map_iff in I. destruct I as [ [ m' r' ] [ [=] I ] ]. cbn in *. subst.
      destruct (IH _ _ I) as [ -> F ]. split; [ reflexivity | constructor; assumption ].
    + subst. split; [ reflexivity | constructor ].
Qed.

Lemma fnd_star : forall P f a b, Forall (fun c => f c = true) a -> P b = true ->
  (forall m r, m <> [] -> b = m ++ r -> Forall (fun c => f c = true) m -> P r = false) ->
  fnd P (Star f) (a ++ b) = Some ([], a, b).
Proof.
  intros P f a b F Pb N. unfold fnd. cbn [matches_at]. rewrite find_map. cbn [snd].
  assert (G : find (fun x : str * str => P (snd x)) (stars f (a ++ b)) = Some (a, b)).
  { induction a as [ | c a IH ].
    - cbn [List.app]. destruct b as [ | c b ].
      + cbn [stars find snd]. rewrite Pb. reflexivity.
      + cbn [stars]. rewrite find_app.
        match goal with |- match ?x with _ => _ end = _ => assert (E : x = None) end.
        { destruct (f c) eqn:E; [ | reflexivity ]. rewrite find_map.
          match goal with |- option_map _ ?x = None => destruct x as [ [ m r ] | ] eqn:D; [ | reflexivity ] end.
          apply find_some in D. destruct D as [ I D ]. cbn [snd fst] in D.
          destruct (stars_all _ _ _ _ I) as [ -> G ].
          assert (X := N (c :: m) r ltac:(discriminate) eq_refl ltac:(constructor; assumption)). congruence. }
        rewrite E. cbn [find snd]. rewrite Pb. reflexivity.
    - inversion F as [ | ? ? Fc Fa ]. subst. cbn [List.app stars]. rewrite Fc, find_app, find_map. cbn [snd].
      cbn [snd fst] in IH |- *. etransitivity; [ apply f_equal2 with (f := fun x y => match x with Some z => Some z | None => y end);
        [ apply f_equal; exact (IH Fa) | reflexivity ] | reflexivity ]. }
  etransitivity; [ apply f_equal; exact G | reflexivity ].
Qed.

Lemma fnd_star_none : forall P f s,
  (forall m r, s = m ++ r -> P r = false) -> fnd P (Star f) s = None.
Proof.
  intros P f s N. unfold fnd. cbn [matches_at]. rewrite find_map. cbn [snd].
  destruct (find (fun x : str * str => P (snd x)) (stars f s)) as [ [ m r ] | ] eqn:D; [ | reflexivity ].
  apply find_some in D. destruct D as [ I D ]. destruct (stars_all _ _ _ _ I) as [ -> G ].
  cbn [snd] in D. rewrite (N _ _ eq_refl) in D. discriminate.
Qed.

(** the text p occurs in s *)
Definition occurs (p s : str) : Prop := exists a b, s = a ++ p ++ b.
Definition close : str := [")"; "%"]%char.

Lemma occurs_tail : forall p a s, ~ occurs p (a ++ s) -> ~ occurs p s.
Proof. intros p a s N [ x [ y -> ] ]. apply N. exists (a ++ x), y. rewrite <- app_assoc. reflexivity. Qed.

Definition after_percent (s : str) : bool := match s with c :: _ => Ascii.eqb "%" c | [] => false end.
(** ")" followed by "%" *)
Definition closes (s : str) : bool := some (fnd after_percent (is ")") s).
Lemma closes_iff : forall s, closes s = true <-> exists b, s = close ++ b.
Proof.
  intros s. unfold closes. rewrite fnd_is. split.
  - destruct s as [ | x s ]; [ discriminate | ]. destruct (Ascii.eqb ")" x) eqn:E; [ | discriminate ].
    destruct s as [ | y s ]; [ discriminate | ]. cbn [andb after_percent].
    destruct (Ascii.eqb "%" y) eqn:D; [ | discriminate ]. intros _.
    apply Ascii.eqb_eq in E, D. subst. exists s. reflexivity.
  - intros [ b -> ]. reflexivity.
Qed.
Lemma closes_not : forall s, ~ occurs close s -> closes s = false.
Proof.
  intros s N. destruct (closes s) eqn:E; [ | reflexivity ]. apply closes_iff in E. destruct E as [ b -> ].
  exfalso. apply N. exists [], b. reflexivity.
Qed.

Definition optdots : re := Opt (Grp 3 (Star (fun c => negb (newline c)))).
Definition line (s : str) : Prop := Forall (fun c => negb (newline c) = true) s.

(** nothing behind the last ")%" closes *)
Lemma behind_last : forall post m r, ~ occurs close post -> close ++ post = m ++ r -> m <> [] -> ~ occurs close r.
Proof.
  intros post m r N E M O. destruct m as [ | c m ]; [ congruence | ]. injection E as <- E.
  destruct m as [ | d m ].
  - cbn [List.app] in E. subst r. destruct O as [ a [ b E ] ]. destruct a as [ | x a ]; [ discriminate | ].
    injection E as <- E. apply N. exists a, b. exact E.
  - injection E as <- E. apply N. destruct O as [ a [ b -> ] ]. exists (m ++ a), b. rewrite <- app_assoc. exact E.
Qed.

Lemma dots_hit : forall a post, line a -> ~ occurs close post ->
  fnd closes optdots (a ++ close ++ post) = Some ([(3, a)], a, close ++ post).
Proof.
  intros a post L N. unfold optdots. rewrite fnd_opt, fnd_grp.
  rewrite fnd_star; [ reflexivity | exact L | apply closes_iff; eexists; reflexivity | ].
  intros m r M E _. apply closes_not. exact (behind_last _ _ _ N E M).
Qed.
Lemma dots_none : forall s, ~ occurs close s -> fnd closes optdots s = None.
Proof.
  intros s N. unfold optdots. rewrite fnd_opt, fnd_grp, fnd_star_none.
  - rewrite closes_not by exact N. reflexivity.
  - intros m r ->. apply closes_not. exact (occurs_tail _ _ _ N).
Qed.

(** the end of the brackets behind the format *)
Definition bracket_end : re := Cat (Opt (is ",")) (Cat optdots (is ")")).
Lemma dots_end : forall s, fnd after_percent (Cat optdots (is ")")) s =
  match fnd closes optdots s with
  | Some (c, m, r) => match fnd after_percent (is ")") r with Some (cb, mb, rb) => Some (c ++ cb, m ++ mb, rb) | None => None end
  | None => None
  end.
Proof. intros s. rewrite fnd_cat. reflexivity. Qed.

Lemma end_none : forall s, ~ occurs close s -> fnd after_percent bracket_end s = None.
Proof.
  intros s N. unfold bracket_end. rewrite fnd_cat, fnd_opt, fnd_is.
  assert (D : forall s', ~ occurs close s' -> fnd after_percent (Cat optdots (is ")")) s' = None).
  { intros s' N'. rewrite dots_end, dots_none by exact N'. reflexivity. }
  destruct s as [ | x s ].
  - rewrite (D []) by exact N. reflexivity.
  - rewrite (D s) by exact (occurs_tail _ [x] _ N). rewrite (D (x :: s)) by exact N.
    cbn [some]. rewrite andb_false_r. reflexivity.
Qed.
Lemma end_options : forall a post, line a -> ~ occurs close post ->
  fnd after_percent bracket_end ("," :: a ++ close ++ post)%char = Some ([(3, a)], "," :: a ++ [")"], "%" :: post)%char.
Proof.
  intros a post L N. unfold bracket_end. rewrite fnd_cat, fnd_opt, fnd_is.
  assert (D : fnd after_percent (Cat optdots (is ")")) (a ++ close ++ post) = Some ([(3, a)], a ++ [")"], "%" :: post)%char).
  { rewrite dots_end, dots_hit by assumption. reflexivity. }
  rewrite D. cbn [some andb Ascii.eqb Bool.eqb]. rewrite D. reflexivity.
Qed.
Lemma end_plain : forall post, ~ occurs close post ->
  fnd after_percent bracket_end (close ++ post) = Some ([(3, [])], [")"], "%" :: post)%char.
Proof.
  intros post N. unfold bracket_end. rewrite fnd_cat, fnd_opt, fnd_is. cbn [close List.app andb].
  change (Ascii.eqb "," ")") with false. cbn [andb].
  assert (D : fnd after_percent (Cat optdots (is ")")) (")" :: "%" :: post)%char = Some ([(3, [])], [")"], "%" :: post)%char).
  { rewrite dots_end. change (")" :: "%" :: post)%char with ([] ++ close ++ post) at 1.
    rewrite dots_hit; [ reflexivity | constructor | exact N ]. }
  rewrite D. cbn [some]. rewrite D. reflexivity.
Qed.

(** format and options in brackets *)
Definition no_comma (s : str) : Prop := Forall (fun c => negb (Ascii.eqb c ",") = true) s.
Definition format_re : re := Grp 2 (Star (fun c => negb (Ascii.eqb c ","))).
Definition body : re := Cat (is "(") (Cat format_re bracket_end).
Definition tail_re : re := Cat (Opt (Grp 1 body)) (is "%").

Lemma template_parts : forall name, template_re name = lit ("%"%char :: name) tail_re.
Proof. reflexivity. Qed.

Lemma format_options : forall fmt a post, no_comma fmt -> line a -> ~ occurs close post ->
  fnd after_percent (Cat format_re bracket_end) (fmt ++ "," :: a ++ close ++ post)%char =
  Some ([(2, fmt); (3, a)], fmt ++ "," :: a ++ [")"], "%" :: post)%char.
Proof.
  intros fmt a post C L N. rewrite fnd_cat. unfold format_re. rewrite fnd_grp, fnd_star.
  - cbn [option_map]. rewrite end_options by assumption. reflexivity.
  - exact C.
  - rewrite end_options by assumption. reflexivity.
  - intros m r M E F. destruct m as [ | c m ]; [ congruence | ]. injection E as <- E.
    inversion F as [ | ? ? X ]. discriminate X.
Qed.
Lemma format_plain : forall fmt post, no_comma fmt -> ~ occurs close post ->
  fnd after_percent (Cat format_re bracket_end) (fmt ++ close ++ post) =
  Some ([(2, fmt); (3, [])], fmt ++ [")"], "%" :: post)%char.
Proof.
  intros fmt post C N. rewrite fnd_cat. unfold format_re. rewrite fnd_grp, fnd_star.
  - cbn [option_map]. rewrite end_plain by assumption. reflexivity.
  - exact C.
  - rewrite end_plain by assumption. reflexivity.
  - intros m r M E F. rewrite end_none; [ reflexivity | ]. exact (behind_last _ _ _ N E M).
Qed.

Definition first_match (r : re) (s : str) : option (list capture * str) :=
  match matches_at r s with (c, _, rest) :: _ => Some (c, rest) | [] => None end.
Lemma first_fnd : forall r s, first_match r s = option_map (fun x => (fst (fst x), snd x)) (fnd (fun _ => true) r s).
Proof. intros r s. unfold first_match, fnd. destruct (matches_at r s) as [ | [ [ c m ] rest ] l ]; reflexivity. Qed.

Lemma percent_eq : forall s, some (fnd (fun _ => true) (is "%") s) = after_percent s.
Proof. intros s. rewrite fnd_is. destruct s as [ | x s ]; [ reflexivity | ]. cbn [after_percent]. rewrite andb_true_r. destruct (Ascii.eqb "%" x); reflexivity. Qed.

Lemma tail_fnd : forall s, fnd (fun _ => true) tail_re s =
  match fnd after_percent (Opt (Grp 1 body)) s with
  | Some (ca, ma, ra) =>
      match fnd (fun _ => true) (is "%") ra with Some (cb, mb, rb) => Some (ca ++ cb, ma ++ mb, rb) | None => None end
  | None => None
  end.
Proof.
  intros s. unfold tail_re. rewrite fnd_cat.
  replace (fnd (fun s' => some (fnd (fun _ => true) (is "%") s')) (Opt (Grp 1 body)) s)
    with (fnd after_percent (Opt (Grp 1 body)) s); [ reflexivity | ].
  unfold fnd at 1 2. apply find_ext. intros x. symmetry. apply percent_eq.
Qed.

Lemma body_fnd : forall s, fnd after_percent body ("(" :: s)%char =
  match fnd after_percent (Cat format_re bracket_end) s with
  | Some (c, m, r) => Some (c, "(" :: m, r)%char | None => None end.
Proof.
  intros s. unfold body. rewrite fnd_cat, fnd_is.
  destruct (fnd after_percent (Cat format_re bracket_end) s) as [ [ [ c m ] r ] | ] eqn:E.
  - cbn [some andb Ascii.eqb Bool.eqb]. rewrite E. reflexivity.
  - cbn [some]. rewrite andb_false_r. reflexivity.
Qed.
Lemma body_none : forall s, (forall s', s <> "(" :: s')%char -> fnd after_percent body s = None.
Proof.
  intros s N. unfold body. rewrite fnd_cat, fnd_is. destruct s as [ | x s ]; [ reflexivity | ].
  destruct (Ascii.eqb "(" x) eqn:E; [ | reflexivity ]. apply Ascii.eqb_eq in E. subst x. exfalso. exact (N s eq_refl).
Qed.

Lemma tail_options : forall fmt a post, no_comma fmt -> line a -> ~ occurs close post ->
  exists t, first_match tail_re ("(" :: fmt ++ "," :: a ++ close ++ post)%char = Some ([(1, t); (2, fmt); (3, a)], post).
Proof.
  intros fmt a post C L N. eexists. rewrite first_fnd, tail_fnd, fnd_opt, fnd_grp, body_fnd, format_options by assumption.
  cbn [option_map]. rewrite fnd_is. reflexivity.
Qed.
Lemma tail_format : forall fmt post, no_comma fmt -> ~ occurs close post ->
  exists t, first_match tail_re ("(" :: fmt ++ close ++ post)%char = Some ([(1, t); (2, fmt); (3, [])], post).
Proof.
  intros fmt post C N. eexists. rewrite first_fnd, tail_fnd, fnd_opt, fnd_grp, body_fnd, format_plain by assumption.
  cbn [option_map]. rewrite fnd_is. reflexivity.
Qed.
Lemma tail_bare : forall post, first_match tail_re ("%" :: post)%char = Some ([], post).
Proof.
  intros post. rewrite first_fnd, tail_fnd, fnd_opt, fnd_grp, body_none by discriminate.
  cbn [option_map after_percent Ascii.eqb Bool.eqb]. rewrite fnd_is. reflexivity.
Qed.
Lemma tail_none : forall s, (forall s', s <> "(" :: s')%char -> (forall s', s <> "%" :: s')%char -> first_match tail_re s = None.
Proof.
  intros s N M. rewrite first_fnd, tail_fnd, fnd_opt, fnd_grp, body_none by exact N. cbn [option_map].
  destruct s as [ | x s ]; [ reflexivity | ]. cbn [after_percent].
  destruct (Ascii.eqb "%" x) eqn:E; [ | reflexivity ]. apply Ascii.eqb_eq in E. subst x. exfalso. exact (M s eq_refl).
Qed.

(** ** The literal begin of a template *)
Lemma lit_hit : forall p r s, first_match (lit p r) (p ++ s) = first_match r s.
Proof.
  intros p r s. induction p as [ | c p IH ]; [ reflexivity | ].
  cbn [lit List.app]. rewrite first_fnd in *. rewrite fnd_cat, fnd_is, Ascii.eqb_refl.
  destruct (fnd (fun _ => true) (lit p r) (p ++ s)) as [ [ [ cb mb ] rb ] | ] eqn:E.
  - cbn [some andb]. rewrite E. cbn [option_map fst snd List.app] in *. exact IH.
  - cbn [some andb]. cbn [option_map] in *. exact IH.
Qed.
Lemma lit_miss : forall p r s, (forall s', s <> p ++ s') -> first_match (lit p r) s = None.
Proof.
  induction p as [ | c p IH ]; intros r s N; [ exfalso; exact (N s eq_refl) | ].
  cbn [lit]. rewrite first_fnd, fnd_cat, fnd_is. destruct s as [ | x s ]; [ reflexivity | ].
  destruct (Ascii.eqb c x) eqn:E; [ | reflexivity ]. apply Ascii.eqb_eq in E. subst x.
  assert (X : first_match (lit p r) s = None).
  { apply IH. intros s' ->. exact (N s' eq_refl). }
  rewrite first_fnd in X. destruct (fnd (fun _ => true) (lit p r) s) as [ ? | ] eqn:F; [ discriminate | ].
  cbn [some andb]. reflexivity.
Qed.

Lemma search_first : forall r s, search r s =
  match first_match r s with
  | Some (c, rest) => Some ([], c, rest)
  | None => match s with
            | [] => None
            | x :: s' => option_map (fun y => let '(pre, c, rest) := y in (x :: pre, c, rest)) (search r s')
            end
  end.
Proof. intros r s. unfold first_match. destruct s; cbn [search]; destruct (matches_at r _) as [ | [ [ ? ? ] ? ] ? ]; reflexivity. Qed.

(** the begin of the templates of a name *)
Definition opening (name : str) : str := "%"%char :: name.
Definition plain_name (name : str) : Prop := ~ In "%"%char name.

Lemma app_prefix : forall (a b c d : str), a ++ b = c ++ d -> length a <= length c -> exists e, c = a ++ e.
Proof.
  induction a as [ | x a IH ]; intros b c d E L; [ exists c; reflexivity | ].
  destruct c as [ | y c ]; [ cbn [length] in L; lia | ]. injection E as <- E. cbn [length] in L.
  destruct (IH b c d E ltac:(lia)) as [ e -> ]. exists e. reflexivity.
Qed.

Lemma search_hit : forall name pre s c rest, plain_name name -> ~ occurs (opening name) pre ->
  first_match tail_re s = Some (c, rest) ->
  search (template_re name) (pre ++ opening name ++ s) = Some (pre, c, rest).
Proof.
  intros name pre s c rest P N F. rewrite template_parts. fold (opening name).
  induction pre as [ | x pre IH ].
  - cbn [List.app]. rewrite search_first, lit_hit, F. reflexivity.
  - rewrite search_first, lit_miss.
    + cbn [List.app]. change (x :: pre ++ opening name ++ s) with (x :: (pre ++ opening name ++ s)).
      cbv iota. rewrite IH; [ reflexivity | exact (occurs_tail _ [x] _ N) ].
    + intros s' E.
      destruct (Nat.le_gt_cases (length (opening name)) (length (x :: pre))) as [ L | L ].
      * destruct (app_prefix (opening name) s' (x :: pre) (opening name ++ s) (eq_sym E) L) as [ e H ].
        apply N. exists [], e. exact H.
      * destruct (app_prefix (x :: pre) (opening name ++ s) (opening name) s' E ltac:(lia)) as [ e H ].
        assert (E' : (x :: pre) ++ opening name ++ s = (x :: pre) ++ e ++ s').
        { rewrite E, H at 1. rewrite <- app_assoc. reflexivity. }
        apply app_inv_head in E'. clear E. rename E' into E.
        destruct e as [ | y e ].
        { rewrite app_nil_r in H. rewrite H in L. lia. }
        cbn [opening List.app] in E. injection E as <- E.
        unfold opening in H. injection H as <- H. apply P. rewrite H. apply in_or_app. right. left. reflexivity.
Qed.

Lemma search_miss : forall name s,
  ~ occurs (opening name ++ ["%"%char]) s -> ~ occurs (opening name ++ ["("%char]) s ->
  search (template_re name) s = None.
Proof.
  intros name s. rewrite template_parts. fold (opening name). induction s as [ | x s IH ]; intros N M; rewrite search_first.
  - rewrite lit_miss; [ reflexivity | discriminate ].
  - assert (E : first_match (lit (opening name) tail_re) (x :: s) = None).
    { destruct (first_match (lit (opening name) tail_re) (x :: s)) eqn:F; [ | reflexivity ]. exfalso.
      assert (D : exists s', x :: s = opening name ++ s').
      { clear IH N M. revert F. generalize (x :: s) as t. generalize (opening name) as q.
        induction q as [ | y q IH ]; intros t F; [ exists t; reflexivity | ].
        cbn [lit] in F. rewrite first_fnd, fnd_cat, fnd_is in F. destruct t as [ | z t ]; [ discriminate | ].
        destruct (Ascii.eqb y z) eqn:E; [ | discriminate ]. apply Ascii.eqb_eq in E. subst z.
        destruct (fnd (fun _ => true) (lit q tail_re) t) eqn:G.
        - destruct (IH t) as [ s' -> ]; [ | exists s'; reflexivity ].
          rewrite first_fnd, G. cbn [option_map]. cbn [some andb] in F. rewrite G in F.
          destruct p0 as [ [ ? ? ] ? ]. cbn [option_map fst snd List.app] in *. exact F.
        - cbn [some andb option_map] in F. discriminate. }
      destruct D as [ s' D ]. rewrite D, lit_hit, tail_none in F; [ discriminate | | ].
      - intros t ->. apply M. exists [], t. rewrite D. rewrite <- app_assoc. reflexivity.
      - intros t ->. apply N. exists [], t. rewrite D. rewrite <- app_assoc. reflexivity. }
    rewrite E, IH; [ reflexivity | exact (occurs_tail _ [x] _ N) | exact (occurs_tail _ [x] _ M) ].
Qed.

(** ** Rounds *)
Lemma matches_shorter : forall r s c m rest, In (c, m, rest) (matches_at r s) -> s = m ++ rest.
Proof.
  induction r as [ f | f | a IHa b IHb | a IHa | n a IHa ]; cbn [matches_at]; intros s c m rest I.
  - destruct s as [ | x s ]; [ destruct I | ]. destruct (f x); [ | destruct I ].
    destruct I as [ [=] | [] ]. subst. reflexivity.
  - apply in_map_iff in I. destruct I as [ [ m' r' ] [ [=] I ] ]. subst. exact (proj1 (stars_all _ _ _ _ I)).
  - apply in_flat_map in I. destruct I as [ [ [ ca ma ] ra ] [ Ia I ] ].
    apply in_map_iff in I. destruct I as [ [ [ cb mb ] rb ] [ [=] Ib ] ]. subst.
    rewrite (IHa _ _ _ _ Ia), (IHb _ _ _ _ Ib). apply app_assoc.
  - apply in_app_iff in I. destruct I as [ I | [ [=] | [] ] ]; [ exact (IHa _ _ _ _ I) | subst; reflexivity ].
  - apply in_map_iff in I. destruct I as [ [ [ c' m' ] r' ] [ [=] I ] ]. subst. exact (IHa _ _ _ _ I).
Qed.

Lemma first_shorter : forall name s c rest, first_match (template_re name) s = Some (c, rest) -> length rest < length s.
Proof.
  intros name s c rest F. unfold first_match in F.
  destruct (matches_at (template_re name) s) as [ | [ [ c' m ] r' ] l ] eqn:E; [ discriminate | ].
  injection F as -> ->.
  assert (I : In (c, m, rest) (matches_at (template_re name) s)) by (rewrite E; left; reflexivity).
  unfold template_re in I. cbn [lit matches_at] in I. unfold is in I. cbn [matches_at] in I.
  destruct s as [ | x s ]; [ destruct I | ]. destruct (Ascii.eqb "%" x); [ | destruct I ].
  cbn [flat_map List.app] in I. rewrite app_nil_r in I. apply in_map_iff in I.
  destruct I as [ [ [ cb mb ] rb ] [ [=] I ] ]. subst. apply matches_shorter in I.
  rewrite I. cbn [length]. rewrite app_length. lia.
Qed.
Lemma search_shorter : forall name s pre c rest,
  search (template_re name) s = Some (pre, c, rest) -> length pre + length rest < length s.
Proof.
  intros name. induction s as [ | x s IH ]; intros pre c rest H; rewrite search_first in H.
  - destruct (first_match (template_re name) []) as [ [ c' r' ] | ] eqn:F; [ | discriminate ].
    injection H as <- <- <-. apply first_shorter in F. cbn [length] in *. lia.
  - destruct (first_match (template_re name) (x :: s)) as [ [ c' r' ] | ] eqn:F.
    + injection H as <- <- <-. apply first_shorter in F. cbn [length] in *. lia.
    + destruct (search (template_re name) s) as [ [ [ p c' ] r' ] | ]; [ | discriminate ].
      injection H as <- <- <-. specialize (IH _ _ _ eq_refl). cbn [length]. lia.
Qed.

Section Claims.
Variable other : ascii -> Z -> str.

Lemma rounds_fuel : forall n name o s out f f', length s < n -> length s < f -> length s < f' ->
  rounds other f (template_re name) o s out =
  do r <- rounds other f' (template_re name) o s []; Ok (out ++ fst r, snd r).
Proof.
  induction n as [ | n IH ]; intros name o s out f f' L F F'; [ lia | ].
  destruct f as [ | f ]; [ lia | ]. destruct f' as [ | f' ]; [ lia | ].
  cbn [rounds]. destruct (search (template_re name) s) as [ [ [ pre c ] rest ] | ] eqn:E; [ | reflexivity ].
  apply search_shorter in E.
  destruct (tokenize (group 3 c) (s_ ",")) as [ opts | | | ]; try reflexivity. cbn [obind].
  destruct (set_options o (group 2 c) opts) as [ o' | | | ]; try reflexivity. cbn [obind].
  destruct (put other o') as [ text | | | ]; try reflexivity. cbn [obind].
  rewrite (IH name o' rest (out ++ pre ++ text) f f') by lia.
  rewrite (IH name o' rest ([] ++ pre ++ text) f' f') by lia.
  destruct (rounds other f' (template_re name) o' rest []) as [ [ v m ] | | | ]; try reflexivity.
  cbn [obind fst snd List.app]. rewrite <- !app_assoc. reflexivity.
Qed.

Lemma replace_step : forall name o s pre c rest,
  search (template_re name) s = Some (pre, c, rest) ->
  replace_one other name o s =
  do options <- tokenize (group 3 c) (s_ ",");
  do o' <- set_options o (group 2 c) options;
  do text <- put other o';
  do r <- replace_one other name o' rest;
  Ok (pre ++ text ++ fst r, snd r).
Proof.
  intros name o s pre c rest E. unfold replace_one at 1. cbn [rounds]. rewrite E.
  apply search_shorter in E.
  destruct (tokenize (group 3 c) (s_ ",")) as [ opts | | | ]; try reflexivity. cbn [obind].
  destruct (set_options o (group 2 c) opts) as [ o' | | | ]; try reflexivity. cbn [obind].
  destruct (put other o') as [ text | | | ]; try reflexivity. cbn [obind].
  rewrite (rounds_fuel (S (length rest)) name o' rest ([] ++ pre ++ text) (length s) (S (length rest))) by lia.
  fold (replace_one other name o' rest).
  destruct (replace_one other name o' rest) as [ [ v m ] | | | ]; try reflexivity.
  cbn [obind fst snd List.app]. rewrite <- app_assoc. reflexivity.
Qed.
Lemma replace_none : forall name o s, search (template_re name) s = None -> replace_one other name o s = Ok (s, o).
Proof. intros name o s E. unfold replace_one. cbn [rounds]. rewrite E. reflexivity. Qed.

Lemma replace_single : forall name o s,
  replace_all other s [(name, o)] = do r <- replace_one other name o s; Ok (fst r, [(name, snd r)]).
Proof. intros name o s. cbn [replace_all]. destruct (replace_one other name o s); reflexivity. Qed.

Lemma number_line : forall a k, string2time a = Ok k -> line a /\ no_comma a.
Proof.
  intros a k K.
  assert (D : forall l n, undec l = Some n -> line l /\ no_comma l).
  { intros l n U. destruct (undec_digits _ _ U) as [ _ F ]. split; eapply Forall_impl; try exact F;
      intros c [ d X ]; destruct c as [ [] [] [] [] [] [] [] [] ]; first [ discriminate X | reflexivity ]. }
  unfold string2time, string2int in K. destruct a as [ | c a ]; [ discriminate | ].
  destruct (Ascii.eqb c "-") eqn:E.
  - apply Ascii.eqb_eq in E. subst c. destruct (undec a) as [ n | ] eqn:U; [ | discriminate ].
    destruct (D _ _ U). split; constructor; auto.
  - destruct (undec (c :: a)) as [ n | ] eqn:U; [ | discriminate ]. exact (D _ _ U).
Qed.

(** ** The claims *)
(** a time of the calendar up to the year int can hold *)
Definition shown (n : Z) : Prop :=
  (- 2 ^ 63 <= n < 2 ^ 63 /\ - 2 ^ 31 <= fst (fst (civil_from_days (n / 86400))) - 1900 < 2 ^ 31)%Z.
Lemma put_time : forall t k f, shown (t + k) -> length (strftime other f (t + k)) < 80 ->
  put other (TimeObj t k f) = Ok (strftime other f (t + k)).
Proof.
  intros t k f [ A B ] L. unfold put. cbv zeta. revert A B.
  generalize (fst (fst (civil_from_days ((t + k) / 86400))) - 1900)%Z as y. intros y A B.
  replace ((- 2 ^ 63 <=? t + k) && (t + k <? 2 ^ 63) && (- 2 ^ 31 <=? y) && (y <? 2 ^ 31))%Z%bool with true.
  - apply Nat.ltb_lt in L. rewrite L. reflexivity.
  - symmetry. rewrite !andb_true_iff, !Z.leb_le, !Z.ltb_lt. tauto.
Qed.

(** a text without template of the name stays as it is *)
Theorem C115_unchanged : forall name o s,
  ~ occurs (opening name ++ ["%"%char]) s -> ~ occurs (opening name ++ ["("%char]) s ->
  replace_all other s [(name, o)] = Ok (s, [(name, o)]).
Proof. intros name o s A B. rewrite replace_single, replace_none by (apply search_miss; assumption). reflexivity. Qed.

(** a template without brackets: the text, for a time the empty text *)
Theorem C115_bare_text : forall name text pre post post' m, plain_name name -> ~ occurs (opening name) pre ->
  replace_all other post [(name, TextObj text)] = Ok (post', m) ->
  replace_all other (pre ++ opening name ++ "%"%char :: post) [(name, TextObj text)] = Ok (pre ++ text ++ post', m).
Proof.
  intros name text pre post post' m P N R. rewrite replace_single in *.
  rewrite (replace_step _ _ _ _ _ _ (search_hit name pre _ _ _ P N (tail_bare post))).
  cbn [group find tokenize set_options]. cbn [obind put].
  change (tokenize [] (s_ ",")) with (Ok (@nil str)). cbn [obind set_options put].
  destruct (replace_one other name (TextObj text) post) as [ [ v o ] | | | ]; try discriminate.
  cbn [obind fst snd] in *. injection R as <- <-. reflexivity.
Qed.

(** a format in brackets: the time in this format, moved by the offset set before *)
Theorem C115_format : forall name t k f fmt pre post post' m, plain_name name -> ~ occurs (opening name) pre ->
  no_comma fmt -> ~ occurs close post -> shown (t + k) -> length (strftime other fmt (t + k)) < 80 ->
  replace_all other post [(name, TimeObj t k fmt)] = Ok (post', m) ->
  replace_all other (pre ++ opening name ++ "("%char :: fmt ++ close ++ post) [(name, TimeObj t k f)] =
  Ok (pre ++ strftime other fmt (t + k) ++ post', m).
Proof.
  intros name t k f fmt pre post post' m P N C O W L R. rewrite replace_single in *.
  destruct (tail_format fmt post C O) as [ x T ].
  rewrite (replace_step _ _ _ _ _ _ (search_hit name pre _ _ _ P N T)).
  cbn [group find fst snd Nat.eqb]. change (tokenize [] (s_ ",")) with (Ok (@nil str)). cbn [obind set_options].
  rewrite put_time by assumption. cbn [obind].
  destruct (replace_one other name (TimeObj t k fmt) post) as [ [ v o ] | | | ]; try discriminate.
  cbn [obind fst snd] in *. injection R as <- <-. reflexivity.
Qed.

(** a format and an offset in seconds *)
Theorem C115_format_offset : forall name t k k' f fmt a pre post post' m, plain_name name -> ~ occurs (opening name) pre ->
  no_comma fmt -> string2time a = Ok k' ->
  ~ occurs close post -> shown (t + k') -> length (strftime other fmt (t + k')) < 80 ->
  replace_all other post [(name, TimeObj t k' fmt)] = Ok (post', m) ->
  replace_all other (pre ++ opening name ++ "("%char :: fmt ++ ","%char :: a ++ close ++ post) [(name, TimeObj t k f)] =
  Ok (pre ++ strftime other fmt (t + k') ++ post', m).
Proof.
  intros name t k k' f fmt a pre post post' m P N C K O W L R. rewrite replace_single in *.
  destruct (number_line _ _ K) as [ La Ca ].
  destruct (tail_options fmt a post C La O) as [ x T ].
  rewrite (replace_step _ _ _ _ _ _ (search_hit name pre _ _ _ P N T)).
  cbn [group find fst snd Nat.eqb].
  change (s_ ",") with [","%char]. rewrite (tokenize1 a ","%char).
  - cbn [obind set_options]. rewrite K. cbn [obind]. rewrite put_time by assumption. cbn [obind].
    destruct (replace_one other name (TimeObj t k' fmt) post) as [ [ v o ] | | | ]; try discriminate.
    cbn [obind fst snd] in *. injection R as <- <-. reflexivity.
  - intros ->. discriminate.
  - intros y I ->. unfold no_comma in Ca. rewrite Forall_forall in Ca. specialize (Ca _ I). discriminate.
Qed.

(** Finding: a time without brackets gives the empty text; its default format is never used *)
Theorem C115_bare_time : forall name t k f pre post post' m, plain_name name -> ~ occurs (opening name) pre ->
  shown (t + k) -> replace_all other post [(name, TimeObj t k [])] = Ok (post', m) ->
  replace_all other (pre ++ opening name ++ "%"%char :: post) [(name, TimeObj t k f)] = Ok (pre ++ post', m).
Proof.
  intros name t k f pre post post' m P N W R. rewrite replace_single in *.
  rewrite (replace_step _ _ _ _ _ _ (search_hit name pre _ _ _ P N (tail_bare post))).
  cbn [group find]. change (tokenize [] (s_ ",")) with (Ok (@nil str)). cbn [obind set_options].
  rewrite put_time; [ | exact W | cbn; lia ]. cbn [obind strftime].
  destruct (replace_one other name (TimeObj t k []) post) as [ [ v o ] | | | ]; try discriminate.
  cbn [obind fst snd List.app] in *. injection R as <- <-. reflexivity.
Qed.

(** an offset that is no number is refused *)
Theorem C115_bad_offset : forall name t k f fmt a pre post, plain_name name -> ~ occurs (opening name) pre ->
  no_comma fmt -> no_comma a -> line a -> a <> [] -> string2time a = Throw -> ~ occurs close post ->
  replace_all other (pre ++ opening name ++ "("%char :: fmt ++ ","%char :: a ++ close ++ post) [(name, TimeObj t k f)] = Throw.
Proof.
  intros name t k f fmt a pre post P N C Ca La A K O. rewrite replace_single.
  destruct (tail_options fmt a post C La O) as [ x T ].
  rewrite (replace_step _ _ _ _ _ _ (search_hit name pre _ _ _ P N T)).
  cbn [group find fst snd Nat.eqb]. change (s_ ",") with [","%char]. rewrite (tokenize1 a ","%char).
  - cbn [obind set_options]. rewrite K. reflexivity.
  - exact A.
  - intros y I ->. unfold no_comma in Ca. rewrite Forall_forall in Ca. specialize (Ca _ I). discriminate.
Qed.

(** several names: one after the other in the order of the map, each on the text left by the one before *)
Theorem C115_in_order : forall s name o m,
  replace_all other s ((name, o) :: m) =
  do r <- replace_all other s [(name, o)];
  do r' <- replace_all other (fst r) m;
  Ok (fst r', snd r ++ snd r').
Proof.
  intros s name o m. rewrite replace_single. cbn [replace_all].
  destruct (replace_one other name o s) as [ [ v o' ] | | | ]; reflexivity.
Qed.

(** the rounds come to an end *)
Lemma rounds_end : forall n name o s out f, length s < n -> length s < f ->
  rounds other f (template_re name) o s out <> Hang.
Proof.
  induction n as [ | n IH ]; intros name o s out f L F; [ lia | ]. destruct f as [ | f ]; [ lia | ].
  cbn [rounds]. destruct (search (template_re name) s) as [ [ [ pre c ] rest ] | ] eqn:E; [ | discriminate ].
  apply search_shorter in E.
  destruct (tokenize_runs (group 3 c) (s_ ",")) as [ ts [ T _ ] ]. rewrite T. cbn [obind].
  destruct (set_options o (group 2 c) ts) as [ o' | | | ] eqn:O; cbn [obind]; try discriminate.
  - destruct (put other o') as [ text | | | ] eqn:Q; cbn [obind]; try discriminate.
    + apply IH; lia.
    + exfalso. destruct o'; unfold put in Q; cbv zeta in Q; [ | discriminate ].
      destruct (_ && _ && _ && _)%bool in Q; [ destruct (_ <? _) in Q | ]; discriminate.
  - exfalso. destruct o; [ | discriminate ]. destruct ts as [ | a ts ]; [ discriminate | ]. cbn [set_options] in O.
    unfold string2time, string2int in O. destruct a as [ | x a ]; [ discriminate | ].
    destruct (if Ascii.eqb x "-" then _ else _) as [ z | ]; [ destruct (_ && _)%bool | ]; discriminate.
Qed.
Theorem C115_ends : forall m s, replace_all other s m <> Hang.
Proof.
  induction m as [ | [ name o ] m IH ]; intros s; [ discriminate | ]. cbn [replace_all].
  destruct (replace_one other name o s) as [ [ v o' ] | | | ] eqn:E; cbn [obind]; try discriminate.
  - specialize (IH v). cbn [fst]. destruct (replace_all other v m) as [ [ ? ? ] | | | ]; cbn [obind]; congruence.
  - exfalso. exact (rounds_end (S (length s)) name o s [] (S (length s)) ltac:(lia) ltac:(lia) E).
Qed.

(** ** What is left in the objects *)
(** equal up to the format *)
Definition same (o o' : robj) : Prop :=
  match o, o' with
  | TimeObj t k _, TimeObj t' k' _ => t = t' /\ k = k'
  | TextObj a, TextObj b => a = b
  | _, _ => False
  end.
Definition same_map (m m' : list (str * robj)) : Prop := Forall2 (fun x y => fst x = fst y /\ same (snd x) (snd y)) m m'.
Lemma same_refl : forall o, same o o.
Proof. intros []; cbn; auto. Qed.
Lemma same_sym : forall a b, same a b -> same b a.
Proof. intros [] []; cbn; intuition congruence. Qed.
Lemma same_trans : forall a b c, same a b -> same b c -> same a c.
Proof. intros [] [] []; cbn; intuition congruence. Qed.

Lemma set_same : forall o o' f opts, same o o' -> set_options o f opts = set_options o' f opts.
Proof.
  intros [ t k g | a ] [ t' k' g' | a' ] f opts S; cbn in S; try contradiction.
  - destruct S as [ -> -> ]. destruct opts; reflexivity.
  - subst. reflexivity.
Qed.
Lemma replace_one_same : forall name o o' s, same o o' ->
  match replace_one other name o s, replace_one other name o' s with
  | Ok (v, x), Ok (v', x') => v = v' /\ same x x'
  | Ok _, _ | _, Ok _ => False
  | a, b => omap fst a = omap fst b
  end.
Proof.
  intros name o o' s S. destruct (search (template_re name) s) as [ [ [ pre c ] rest ] | ] eqn:E.
  - rewrite !(replace_step _ _ _ _ _ _ E).
    destruct (tokenize (group 3 c) (s_ ",")) as [ opts | | | ]; try reflexivity. cbn [obind].
    rewrite (set_same _ _ (group 2 c) opts S).
    destruct (set_options o' (group 2 c) opts) as [ x | | | ]; try reflexivity. cbn [obind].
    destruct (put other x) as [ text | | | ]; try reflexivity. cbn [obind].
    destruct (replace_one other name x rest) as [ [ v y ] | | | ]; try reflexivity.
    cbn [obind]. split; [ reflexivity | apply same_refl ].
  - rewrite !replace_none by exact E. split; [ reflexivity | exact S ].
Qed.

(** the text does not depend on the formats used before *)
Theorem C115_format_forgotten : forall m m' s, same_map m m' ->
  omap fst (replace_all other s m) = omap fst (replace_all other s m').
Proof.
  intros m m' s S. revert s. induction S as [ | [ n o ] [ n' o' ] m m' [ E S ] _ IH ]; intros s; [ reflexivity | ].
  cbn [fst snd] in E, S. subst n'. cbn [replace_all].
  assert (H := replace_one_same n o o' s S).
  destruct (replace_one other n o s) as [ [ v x ] | | | ]; destruct (replace_one other n o' s) as [ [ v' x' ] | | | ];
    try contradiction; try discriminate; try reflexivity.
  destruct H as [ -> _ ]. cbn [obind fst]. specialize (IH v').
  destruct (replace_all other v' m) as [ [ ? ? ] | | | ]; destruct (replace_all other v' m') as [ [ ? ? ] | | | ];
    cbn in *; congruence.
Qed.

(** the match of a search *)
Lemma search_inv : forall name s pre c rest, search (template_re name) s = Some (pre, c, rest) ->
  exists s', s = pre ++ opening name ++ s' /\ first_match tail_re s' = Some (c, rest).
Proof.
  intros name. induction s as [ | x s IH ]; intros pre c rest H; rewrite search_first in H.
  - rewrite template_parts, lit_miss in H; [ discriminate | discriminate ].
  - destruct (first_match (template_re name) (x :: s)) as [ [ c' r' ] | ] eqn:F.
    + injection H as <- <- <-. rewrite template_parts in F. fold (opening name) in F. cbn [List.app].
      destruct (list_eq_dec ascii_dec (firstn (length (opening name)) (x :: s)) (opening name)) as [ D | D ].
      * exists (skipn (length (opening name)) (x :: s)).
        assert (X : x :: s = opening name ++ skipn (length (opening name)) (x :: s)).
        { rewrite <- D at 1. symmetry. apply firstn_skipn. }
        split; [ exact X | ]. rewrite X, lit_hit in F. exact F.
      * exfalso. rewrite lit_miss in F; [ discriminate | ]. intros s' E. apply D. rewrite E.
        rewrite firstn_app, firstn_all, Nat.sub_diag. apply app_nil_r.
    + destruct (search (template_re name) s) as [ [ [ p c' ] r' ] | ]; [ | discriminate ].
      injection H as <- <- <-. destruct (IH _ _ _ eq_refl) as [ s' [ -> G ] ]. exists s'. split; [ reflexivity | exact G ].
Qed.

Lemma last_close : forall s, ~ occurs close s \/ exists a b, s = a ++ close ++ b /\ ~ occurs close b.
Proof.
  induction s as [ | x s IH ].
  - left. intros [ a [ b E ] ]. destruct a; discriminate.
  - destruct IH as [ N | [ a [ b [ -> N ] ] ] ].
    + destruct (list_eq_dec ascii_dec (firstn 2 (x :: s)) close) as [ D | D ].
      * right. exists [], (skipn 2 (x :: s)). split.
        { cbn [List.app]. rewrite <- D. symmetry. apply firstn_skipn. }
        { destruct s as [ | y s ]; [ discriminate | ]. exact (occurs_tail _ [y] s N). }
      * left. intros [ a [ b E ] ]. destruct a as [ | y a ].
        { apply D. rewrite E. reflexivity. }
        { injection E as <- E. apply N. exists a, b. exact E. }
    + right. exists (x :: a), b. split; [ reflexivity | exact N ].
Qed.

Lemma tail_no_options : forall s c rest, no_comma s -> first_match tail_re s = Some (c, rest) ->
  group 3 c = [] /\ no_comma rest /\ no_comma (group 2 c).
Proof.
  intros s c rest C F. assert (T : forall a b, no_comma (a ++ b) -> no_comma b).
  { intros a b H. apply Forall_app in H. tauto. }
  destruct s as [ | x s ]; [ rewrite tail_none in F; discriminate | ].
  destruct (ascii_dec x "("%char) as [ -> | N ].
  - destruct (last_close s) as [ N | [ a [ b [ -> N ] ] ] ].
    + exfalso. rewrite first_fnd, tail_fnd, fnd_opt, fnd_grp, body_fnd in F.
      assert (X : fnd after_percent (Cat format_re bracket_end) s = None).
      { rewrite fnd_cat. unfold format_re. rewrite fnd_grp, fnd_star_none; [ reflexivity | ].
        intros m r ->. rewrite end_none; [ reflexivity | exact (occurs_tail _ _ _ N) ]. }
      rewrite X in F. discriminate.
    + assert (Ca : no_comma a).
      { apply (T ["("%char]) in C. apply Forall_app in C. tauto. }
      destruct (tail_format a b Ca N) as [ t X ]. rewrite X in F. injection F as <- <-.
      split; [ reflexivity | ]. split; [ | exact Ca ].
      apply (T ("("%char :: a ++ close)). cbn [List.app]. rewrite <- app_assoc. exact C.
  - destruct (ascii_dec x "%"%char) as [ -> | M ].
    + rewrite tail_bare in F. injection F as <- <-. split; [ reflexivity | ]. split; [ exact (T ["%"%char] s C) | constructor ].
    + rewrite tail_none in F; [ discriminate | congruence | congruence ].
Qed.

Lemma replace_one_keeps : forall n name s o v o', length s < n -> no_comma s ->
  replace_one other name o s = Ok (v, o') -> same o o'.
Proof.
  induction n as [ | n IH ]; intros name s o v o' L C R; [ lia | ].
  destruct (search (template_re name) s) as [ [ [ pre c ] rest ] | ] eqn:E.
  - rewrite (replace_step _ _ _ _ _ _ E) in R. destruct (search_inv _ _ _ _ _ E) as [ s' [ -> F ] ].
    apply search_shorter in E. unfold no_comma in C. apply Forall_app in C. destruct C as [ _ C ]. apply Forall_app in C.
    destruct (tail_no_options s' c rest (proj2 C) F) as [ G [ Cr C2 ] ].
    rewrite G in R. change (tokenize [] (s_ ",")) with (Ok (@nil str)) in R. cbn [obind] in R.
    destruct (set_options o (group 2 c) []) as [ x | | | ] eqn:O; try discriminate. cbn [obind] in R.
    destruct (put other x) as [ text | | | ]; try discriminate. cbn [obind] in R.
    destruct (replace_one other name x rest) as [ [ w y ] | | | ] eqn:Q; try discriminate. cbn [obind] in R.
    injection R as <- <-. cbn [snd]. apply (same_trans _ x).
    + destruct o; injection O as <-; cbn; auto.
    + refine (IH name rest x w y _ Cr Q). lia.
  - rewrite replace_none in R by exact E. injection R as <- <-. apply same_refl.
Qed.

Lemma replace_all_keeps : forall m s v m',
  (forall name o, In (name, o) m -> forall s v o', replace_one other name o s = Ok (v, o') -> no_comma s -> no_comma v) ->
  no_comma s -> replace_all other s m = Ok (v, m') -> same_map m m'.
Proof.
  induction m as [ | [ name o ] m IH ]; intros s v m' H C R; cbn [replace_all] in R.
  - injection R as <- <-. constructor.
  - destruct (replace_one other name o s) as [ [ w o' ] | | | ] eqn:E; try discriminate. cbn [obind fst snd] in R.
    destruct (replace_all other w m) as [ [ w' m2 ] | | | ] eqn:F; try discriminate. cbn [obind fst snd] in R.
    injection R as <- <-. constructor.
    + split; [ reflexivity | ]. exact (replace_one_keeps _ name s o w o' (Nat.lt_succ_diag_r _) C E).
    + refine (IH w w' m2 _ _ F).
      * intros n x I. apply H. right. exact I.
      * exact (H name o (or_introl eq_refl) s w o' E C).
Qed.

Lemma same_map_refl : forall m, same_map m m.
Proof. intros m. induction m; constructor; [ split; [ reflexivity | apply same_refl ] | exact IHm ]. Qed.
Lemma same_map_trans : forall a b c, same_map a b -> same_map b c -> same_map a c.
Proof.
  intros a b c S. revert c. induction S as [ | x y a b [ E S ] _ IH ]; intros c T; inversion T as [ | ? z ? c' [ E' S' ] T' ];
    subst; constructor.
  - split; [ congruence | exact (same_trans _ _ _ S S') ].
  - exact (IH _ T').
Qed.

(** texts put in do not contain a comma *)
Definition never_comma (m : list (str * robj)) : Prop :=
  forall name o, In (name, o) m -> forall s v o', replace_one other name o s = Ok (v, o') -> no_comma s -> no_comma v.

(** a value without comma leaves times and offsets as they were *)
Theorem C115_offset_stays : forall name o s v m, no_comma s -> replace_all other s [(name, o)] = Ok (v, m) ->
  same_map [(name, o)] m.
Proof.
  intros name o s v m C R. rewrite replace_single in R.
  destruct (replace_one other name o s) as [ [ w o' ] | | | ] eqn:E; try discriminate. cbn [obind fst snd] in R.
  injection R as <- <-. constructor; [ | constructor ]. split; [ reflexivity | ].
  exact (replace_one_keeps _ name s o w o' (Nat.lt_succ_diag_r _) C E).
Qed.

(** the attributes are the elements named attribute, with their names and types, in their order *)
Definition kept (n : xattr) : bool := (x_element n && str_eqb (x_tag n) (s_ "attribute"))%bool.
Theorem C115_attributes : forall nodes m l m', fill_attributes other nodes m = Ok (l, m') ->
  map fst l = map (fun n => (x_name n, x_type n)) (filter kept nodes).
Proof.
  induction nodes as [ | n nodes IH ]; intros m l m' R; cbn [fill_attributes] in R.
  - injection R as <- <-. reflexivity.
  - cbn [filter]. unfold kept at 1. destruct (x_element n && str_eqb (x_tag n) (s_ "attribute"))%bool.
    + destruct (replace_all other (x_value n) m) as [ [ v m2 ] | | | ]; try discriminate. cbn [obind fst snd] in R.
      destruct (fill_attributes other nodes m2) as [ [ l2 m3 ] | | | ] eqn:F; try discriminate. cbn [obind fst snd] in R.
      injection R as <- <-. cbn [map fst]. rewrite (IH _ _ _ F). reflexivity.
    + exact (IH _ _ _ R).
Qed.

(** the value of each is the text made with the objects as they were at first, if no value has a comma *)
Lemma same_never : forall m m', same_map m m' -> never_comma m -> never_comma m'.
Proof.
  intros m m' S H name o' I s v x R C.
  assert (J : exists o, In (name, o) m /\ same o o').
  { clear H R. induction S as [ | [ n1 o1 ] [ n2 o2 ] m m' [ E S ] _ IH ]; [ destruct I | ].
    cbn [fst snd] in E, S. subst n2. destruct I as [ [=] | I ].
    - subst. exists o1. split; [ left; reflexivity | exact S ].
    - destruct (IH I) as [ o [ A B ] ]. exists o. split; [ right; exact A | exact B ]. }
  destruct J as [ o [ J S' ] ]. assert (Q := replace_one_same name o o' s S'). rewrite R in Q.
  destruct (replace_one other name o s) as [ [ w y ] | | | ] eqn:E; try contradiction.
  destruct Q as [ <- _ ]. exact (H name o J s w y E C).
Qed.
Lemma fill_independent : forall nodes m0 m l m', never_comma m0 -> same_map m0 m ->
  Forall (fun n => no_comma (x_value n)) nodes -> fill_attributes other nodes m = Ok (l, m') ->
  Forall2 (fun n a => omap fst (replace_all other (x_value n) m0) = Ok (snd a)) (filter kept nodes) l.
Proof.
  induction nodes as [ | n nodes IH ]; intros m0 m l m' H S C R; cbn [fill_attributes] in R.
  - injection R as <- <-. constructor.
  - inversion C as [ | ? ? Cn Cr ]. subst. cbn [filter]. unfold kept at 1.
    destruct (x_element n && str_eqb (x_tag n) (s_ "attribute"))%bool.
    + destruct (replace_all other (x_value n) m) as [ [ v m2 ] | | | ] eqn:E; try discriminate. cbn [obind fst snd] in R.
      destruct (fill_attributes other nodes m2) as [ [ l2 m3 ] | | | ] eqn:F; try discriminate. cbn [obind fst snd] in R.
      injection R as <- <-. constructor.
      * rewrite (C115_format_forgotten m0 m (x_value n) S), E. reflexivity.
      * refine (IH m0 m2 l2 m3 H _ Cr F). apply (same_map_trans _ m); [ exact S | ].
        exact (replace_all_keeps m (x_value n) v m2 (same_never _ _ S H) Cn E).
    + exact (IH m0 m l m' H S Cr R).
Qed.
Theorem C115_attributes_independent : forall nodes m l m', never_comma m ->
  Forall (fun n => no_comma (x_value n)) nodes -> fill_attributes other nodes m = Ok (l, m') ->
  Forall2 (fun n a => omap fst (replace_all other (x_value n) m) = Ok (snd a)) (filter kept nodes) l.
Proof. intros nodes m l m' H C R. exact (fill_independent nodes m m l m' H (same_map_refl m) C R). Qed.

(** digits are no commas *)
Lemma dec_plain : forall n, no_comma (dec n).
Proof.
  intros n. eapply Forall_impl; [ | exact (proj2 (undec_digits _ _ (undec_dec n))) ].
  intros c [ d X ]. destruct c as [ [] [] [] [] [] [] [] [] ]; first [ discriminate X | reflexivity ].
Qed.
Lemma padded_plain : forall n z, no_comma (padded n z).
Proof.
  intros n z. unfold padded. apply Forall_app. split.
  - apply Forall_forall. intros x I. apply repeat_spec in I. subst. reflexivity.
  - exact (dec_plain _).
Qed.
Lemma strftime_plain : forall t, (forall c, c <> ","%char -> no_comma (other c t)) ->
  forall n f, length f < n -> no_comma f -> no_comma (strftime other f t).
Proof.
  intros t H. induction n as [ | n IH ]; intros f L C; [ lia | ]. destruct f as [ | c f ]; [ constructor | ].
  inversion C as [ | ? ? Cc Cf ]. subst. cbn [length] in L. cbn [strftime]. destruct (Ascii.eqb c "%").
  - destruct f as [ | k f ]; [ constructor; assumption | ]. cbn [length] in L. inversion Cf as [ | ? ? Ck Cg ]. subst.
    apply Forall_app. split; [ | apply IH; [ lia | assumption ] ].
    unfold conversion. destruct (civil_from_days (t / 86400)) as [ [ y mo ] d ]. cbv zeta.
    repeat match goal with |- _ (if ?b then _ else _) => destruct b end;
      solve [ apply padded_plain | exact (dec_plain _) | apply H; intros ->; discriminate Ck | repeat constructor ].
  - constructor; [ exact Cc | apply IH; [ lia | assumption ] ].
Qed.

(** texts without comma, and the digits of a time, bring no comma *)
Theorem C115_no_commas : forall m, (forall c t, c <> ","%char -> no_comma (other c t)) ->
  (forall name text, In (name, TextObj text) m -> no_comma text) -> never_comma m.
Proof.
  intros m H T name o I.
  assert (To : forall text, o = TextObj text -> no_comma text) by (intros text ->; exact (T name text I)).
  clear I T. intros s. remember (S (length s)) as n eqn:E. assert (L : length s < n) by lia. clear E.
  revert s L o To. induction n as [ | n IH ]; intros s L o To v o' R C; [ lia | ].
  destruct (search (template_re name) s) as [ [ [ pre c ] rest ] | ] eqn:E.
  - rewrite (replace_step _ _ _ _ _ _ E) in R. destruct (search_inv _ _ _ _ _ E) as [ s' [ -> F ] ].
    apply search_shorter in E. unfold no_comma in C. apply Forall_app in C. destruct C as [ Cp C ]. apply Forall_app in C.
    destruct (tail_no_options s' c rest (proj2 C) F) as [ G [ Cr C2 ] ].
    rewrite G in R. change (tokenize [] (s_ ",")) with (Ok (@nil str)) in R. cbn [obind] in R.
    destruct (set_options o (group 2 c) []) as [ x | | | ] eqn:O; try discriminate. cbn [obind] in R.
    destruct (put other x) as [ text | | | ] eqn:Q; try discriminate. cbn [obind] in R.
    destruct (replace_one other name x rest) as [ [ w y ] | | | ] eqn:W; try discriminate.
    cbn [obind fst snd] in R. injection R as <- <-.
    apply Forall_app. split; [ exact Cp | ]. apply Forall_app. split.
    + destruct o as [ t k g | a ]; injection O as <-.
      * unfold put in Q. cbv zeta in Q. destruct (_ && _ && _ && _)%bool in Q; [ | discriminate ].
        destruct (_ <? _) in Q; [ | discriminate ]. injection Q as <-.
        exact (strftime_plain _ (fun c => H c _) _ _ (Nat.lt_succ_diag_r _) C2).
      * injection Q as <-. exact (To a eq_refl).
    + refine (IH rest _ x _ w y W Cr); [ lia | ].
      intros a ->. destruct o as [ t k g | b ]; [ discriminate | ]. injection O as ->. exact (To a eq_refl).
  - rewrite replace_none in R by exact E. injection R as <- <-. exact C.
Qed.

(** attributes of a variable: texts are replaced, others stay *)
Theorem C115_update : forall atts m l m', update_values other atts m = Ok (l, m') ->
  map fst l = map fst atts /\
  (forall i v, nth_error atts i = Some (false, v) -> nth_error l i = Some (false, v)) /\
  (forall i v, nth_error atts i = Some (true, v) -> exists m1 m2 w, replace_all other v m1 = Ok (w, m2) /\ nth_error l i = Some (true, w)).
Proof.
  induction atts as [ | [ text v ] atts IH ]; intros m l m' R; cbn [update_values] in R.
  - injection R as <- <-. split; [ reflexivity | ]. split; [ intros i w E; exact E | intros [ | i ] w E; discriminate E ].
  - destruct text.
    + destruct (replace_all other v m) as [ [ w m2 ] | | | ] eqn:RA; try discriminate. cbn [obind fst snd] in R.
      destruct (update_values other atts m2) as [ [ l2 m3 ] | | | ] eqn:F; try discriminate. cbn [obind fst snd] in R.
      injection R as <- <-. destruct (IH _ _ _ F) as [ A [ B C ] ]. split; [ cbn [map fst]; rewrite A; reflexivity | ].
      split; [ intros [ | i ] x E; [ discriminate | ]; exact (B i x E) | ].
      intros [ | i ] x E; [ | exact (C i x E) ]. injection E as <-. exists m, m2, w. split; [ exact RA | reflexivity ].
    + destruct (update_values other atts m) as [ [ l2 m3 ] | | | ] eqn:F; try discriminate. cbn [obind fst snd] in R.
      injection R as <- <-. destruct (IH _ _ _ F) as [ A [ B C ] ]. split; [ cbn [map fst]; rewrite A; reflexivity | ].
      split; [ intros [ | i ] x E; [ exact E | ]; exact (B i x E) | ].
      intros [ | i ] x E; [ discriminate | exact (C i x E) ].
Qed.
End Claims.

(** MIN_DATETIME is the first time of a file and MAX_DATETIME the last *)
Inductive ascending : list Z -> Prop :=
| asc_nil : ascending []
| asc_cons : forall t l, (forall u, In u l -> (t <= u)%Z) -> ascending l -> ascending (t :: l).
Theorem C115_min_max : forall times, ascending times -> times <> [] ->
  exists lo hi, time_objects times = [(s_ "MAX_DATETIME", time_obj hi); (s_ "MIN_DATETIME", time_obj lo)] /\
    In lo times /\ In hi times /\ (forall t, In t times -> (lo <= t <= hi)%Z).
Proof.
  intros times A N. destruct times as [ | t l ]; [ congruence | ]. exists t, (last (t :: l) t).
  split; [ reflexivity | ]. split; [ left; reflexivity | ].
  assert (G : forall l d, ascending l -> l <> [] -> In (last l d) l /\ forall u, In u l -> (u <= last l d)%Z).
  { clear. induction l as [ | x l IH ]; intros d A N; [ congruence | ]. inversion A as [ | ? ? B C ]. subst.
    destruct l as [ | y l ].
    - split; [ left; reflexivity | ]. intros u [ <- | [] ]. apply Z.le_refl.
    - destruct (IH d C ltac:(discriminate)) as [ I J ].
      change (last (x :: y :: l) d) with (last (y :: l) d). split; [ right; exact I | ].
      intros u [ <- | K ]; [ exact (B _ I) | exact (J _ K) ]. }
  destruct (G (t :: l) t A ltac:(discriminate)) as [ I J ]. split; [ exact I | ].
  intros u K. split; [ | exact (J u K) ]. inversion A as [ | ? ? B _ ]. subst.
  destruct K as [ <- | K ]; [ apply Z.le_refl | exact (B u K) ].
Qed.

(** ** Cases *)
(** conversions strftime does not know are copied *)
Definition copied (c : ascii) (_ : Z) : str := ["%"%char; c].
(** 2026-11-15 22:30:00 and two days later *)
Definition file_times := time_objects [1794781800; 1794868200; 1794954600]%Z.

Example C115_nonvacuous_format :
  omap fst (replace_all copied (s_ "from %MIN_DATETIME(%Y-%m-%d %H:%M:%SZ)% on") file_times) =
  Ok (s_ "from 2026-11-15 22:30:00Z on").
Proof. vm_compute. reflexivity. Qed.
Example C115_nonvacuous_offset :
  omap fst (replace_all copied (s_ "%MAX_DATETIME(%Y-%m-%d,2419200)%") file_times) = Ok (s_ "2026-12-15").
Proof. vm_compute. reflexivity. Qed.
Example C115_nonvacuous_both :
  omap fst (replace_all copied (s_ "%MIN_DATETIME(%d)%..%MAX_DATETIME(%d)%") file_times) = Ok (s_ "15..17").
Proof. vm_compute. reflexivity. Qed.
Example C115_nonvacuous_text :
  omap fst (replace_all copied (s_ "height%EXT% of %EXTRA%EXT%") [(s_ "EXT", TextObj (s_ "2"))]) =
  Ok (s_ "height2 of %EXTRA2").
Proof. vm_compute. reflexivity. Qed.
Example C115_nonvacuous : replace_all copied (s_ "%EXT%") [(s_ "EXT", TextObj (s_ "2"))] = Ok (s_ "2", [(s_ "EXT", TextObj (s_ "2"))]) /\
  ascending [1; 2; 5]%Z /\ string2time (s_ "2419200") = Ok 2419200%Z /\ shown 1794954600%Z /\
  never_comma copied [(s_ "EXT", TextObj (s_ "2"))].
Proof.
  split; [ vm_compute; reflexivity | ]. split.
  { repeat constructor; cbn; intros u H; lia. }
  split; [ vm_compute; reflexivity | ]. split.
  { split; [ lia | ]. vm_compute. split; [ discriminate | reflexivity ]. }
  apply C115_no_commas.
  { intros c t N. constructor; [ reflexivity | ]. constructor; [ | constructor ].
    destruct (Ascii.eqb c ",") eqn:E; [ apply Ascii.eqb_eq in E; contradiction | reflexivity ]. }
  intros name text [ [=] | [] ]. subst. repeat constructor.
Qed.

(** Finding: two formats in one value are taken as one, up to the last ")%" *)
Theorem C115_merged_refuted :
  omap fst (replace_all copied (s_ "%MAX_DATETIME(%Y)% and %MAX_DATETIME(%m)%") file_times) =
  Ok (s_ "2026)% and 30AX_DATETIME(11").
Proof. vm_compute. reflexivity. Qed.
(** Finding: also with a template of another name behind *)
Theorem C115_other_name_refuted :
  omap fst (replace_all copied (s_ "%MAX_DATETIME(%d)% and %MIN_DATETIME(%d)%") file_times) =
  Ok (s_ "17)% and 30IN_DATETIME(17").
Proof. vm_compute. reflexivity. Qed.

(** Finding: an offset stays for the values behind; max_time is right before Expires, four weeks late behind it *)
Definition attr (name value : string) : xattr :=
  {| x_element := true; x_tag := s_ "attribute"; x_name := s_ name; x_value := s_ value; x_type := s_ "string" |}.
Theorem C115_offset_kept_refuted :
  let max_time := attr "max_time" "%MAX_DATETIME(%Y-%m-%d)%" in
  let expires := attr "Expires" "%MAX_DATETIME(%Y-%m-%d,2419200)%" in
  omap (fun r => map snd (fst r)) (fill_attributes copied [max_time; expires] file_times) =
    Ok [s_ "2026-11-17"; s_ "2026-12-15"] /\
  omap (fun r => map snd (fst r)) (fill_attributes copied [expires; max_time] file_times) =
    Ok [s_ "2026-12-15"; s_ "2026-12-15"].
Proof. vm_compute. split; reflexivity. Qed.

(** Finding: the offset +5000 given in the description of the options is refused *)
Theorem C115_plus_refuted :
  replace_all copied (s_ "%MAX_DATETIME(%Y,+5000)%") file_times = Throw /\
  omap fst (replace_all copied (s_ "%MAX_DATETIME(%Y,5000)%") file_times) = Ok (s_ "2026").
Proof. vm_compute. split; reflexivity. Qed.

(** Finding: a text of 80 characters does not fit and the buffer is written out all the same *)
Theorem C115_long_refuted : forall other t k,
  put other (TimeObj t k (repeat "x"%char 80)) = UB.
Proof.
  intros other t k. unfold put. cbv zeta.
  assert (E : strftime other (repeat "x"%char 80) (t + k) = repeat "x"%char 80) by reflexivity.
  rewrite E. change (length (repeat "x"%char 80) <? 80) with false. destruct (_ && _ && _ && _)%bool; reflexivity.
Qed.

Local Open Scope Z_scope.
(** the parts of a format *)
Theorem C115_strftime : forall other y m d h mi sec t, date_ok y m d -> 0 <= h < 24 -> 0 <= mi < 60 -> 0 <= sec < 60 ->
  t = days_from_civil y m d * 86400 + h * 3600 + mi * 60 + sec ->
  strftime other (s_ "%Y") t = dec (Z.to_N y) /\ strftime other (s_ "%m") t = padded 2 m /\
  strftime other (s_ "%d") t = padded 2 d /\ strftime other (s_ "%H") t = padded 2 h /\
  strftime other (s_ "%M") t = padded 2 mi /\ strftime other (s_ "%S") t = padded 2 sec /\
  strftime other (s_ "%%") t = s_ "%" /\ strftime other (s_ "%") t = s_ "%" /\
  (forall f, strftime other ("%"%char :: f) t =
     match f with [] => s_ "%" | c :: f' => strftime other ["%"%char; c] t ++ strftime other f' t end) /\
  (forall c f, c <> "%"%char -> strftime other (c :: f) t = c :: strftime other f t).
Proof.
  intros other y m d h mi sec t D H M S E.
  assert (DIV : t / 86400 = days_from_civil y m d).
  { symmetry. apply Z.div_unique with (r := h * 3600 + mi * 60 + sec); [ left; lia | lia ]. }
  assert (MOD : t mod 86400 = h * 3600 + mi * 60 + sec).
  { symmetry. apply Z.mod_unique with (q := days_from_civil y m d); [ left; lia | lia ]. }
  assert (HH : (h * 3600 + mi * 60 + sec) / 3600 = h) by (symmetry; apply Z.div_unique with (r := mi * 60 + sec); [ left; lia | lia ]).
  assert (MM : (h * 3600 + mi * 60 + sec) mod 3600 / 60 = mi).
  { replace ((h * 3600 + mi * 60 + sec) mod 3600) with (mi * 60 + sec).
    - symmetry. apply Z.div_unique with (r := sec); [ left; lia | lia ].
    - apply Z.mod_unique with (q := h); [ left; lia | lia ]. }
  assert (SS : (h * 3600 + mi * 60 + sec) mod 60 = sec).
  { symmetry. apply Z.mod_unique with (q := h * 60 + mi); [ left; lia | lia ]. }
  assert (C : forall k, strftime other ["%"%char; k] t = conversion other k t).
  { intros k. cbn [strftime]. change (Ascii.eqb "%" "%") with true. cbv iota. rewrite app_nil_r. reflexivity. }
  assert (V : forall k, conversion other k t =
    if Ascii.eqb k "Y" then dec (Z.to_N y) else if Ascii.eqb k "m" then padded 2 m else if Ascii.eqb k "d" then padded 2 d
    else if Ascii.eqb k "H" then padded 2 h else if Ascii.eqb k "M" then padded 2 mi else if Ascii.eqb k "S" then padded 2 sec
    else if Ascii.eqb k "%" then s_ "%" else other k t).
  { intros k. unfold conversion. rewrite DIV, (civil_days _ _ _ D). cbv zeta beta iota. rewrite MOD, HH, MM, SS. reflexivity. }
  repeat (split; [ first [ exact (eq_trans (C _) (V _)) | reflexivity ] | ]). split.
  - intros [ | c f ]; [ reflexivity | ]. rewrite C. reflexivity.
  - intros c f N. cbn [strftime]. destruct (Ascii.eqb_spec c "%"); [ contradiction | reflexivity ].
Qed.
(** options do not go over the end of a line; offsets have 64 bits *)
Theorem C115_limits :
  (forall c, In c ["010"; "013"]%char -> forall a b,
     a = s_ "%MAX_DATETIME(%Y,5" /\ b = s_ "6)%" -> omap fst (replace_all copied (a ++ c :: b) file_times) = Ok (a ++ c :: b)) /\
  string2time (s_ "9223372036854775807") = Ok 9223372036854775807 /\ string2time (s_ "9223372036854775808") = Throw /\
  string2time (s_ "-9223372036854775808") = Ok (-9223372036854775808).
Proof.
  split; [ | vm_compute; auto ]. intros c I a b [ -> -> ]. destruct I as [ <- | [ <- | [] ] ]; vm_compute; reflexivity.
Qed.

Print Assumptions C115_strftime.
Print Assumptions C115_limits.
Print Assumptions C115_unchanged.
Print Assumptions C115_bare_text.
Print Assumptions C115_format.
Print Assumptions C115_format_offset.
Print Assumptions C115_bare_time.
Print Assumptions C115_bad_offset.
Print Assumptions C115_in_order.
Print Assumptions C115_ends.
Print Assumptions C115_format_forgotten.
Print Assumptions C115_offset_stays.
Print Assumptions C115_attributes.
Print Assumptions C115_attributes_independent.
Print Assumptions C115_no_commas.
Print Assumptions C115_update.
Print Assumptions C115_min_max.
Print Assumptions C115_merged_refuted.
Print Assumptions C115_other_name_refuted.
Print Assumptions C115_offset_kept_refuted.
Print Assumptions C115_plus_refuted.
Print Assumptions C115_long_refuted.
