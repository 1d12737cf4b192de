(** C120: the parameters of FELT files. *)
From Coq Require Import PeanoNat NArith ZArith QArith Ascii String List Bool Lia.
From Verif Require Import Base StringModel StringProofs StringProps TextModel TextProofs SpecModel StdMap TmplModel TmplProps FparModel.
Import ListNotations.
Local Open Scope list_scope.
Local Open Scope nat_scope.

(** ** Numbers *)
Lemma undec_value : forall s a n, undec_loop s a = Some n -> value_loop s (Z.of_N a) = Z.of_N n.
Proof.
  induction s as [ | c s IH ]; intros a n E; cbn [undec_loop value_loop] in *; [ congruence | ].
  destruct (digit_value c) as [ d | ]; [ | discriminate ]. apply IH in E. rewrite <- E. f_equal. lia.
Qed.
Lemma undec_digits : forall s a n, undec_loop s a = Some n -> Forall (fun c => is_digit c = true) s.
Proof.
  induction s as [ | c s IH ]; intros a n E; [ constructor | ]. cbn [undec_loop] in E.
  destruct (digit_value c) as [ d | ] eqn:D; [ | discriminate ]. constructor; [ unfold is_digit; rewrite D; reflexivity | exact (IH _ _ E) ].
Qed.
Lemma dec_undec : forall n, undec_loop (dec n) 0 = Some n.
Proof.
  intro n. unfold dec. apply dec_loop_undec; [ | right; discriminate ].
  rewrite Nat2N.inj_succ, N2Nat.id. destruct (N.eq_dec n 0) as [ -> | H ]; [ reflexivity | ]. apply N.log2_spec. lia.
Qed.
Lemma dec_digits : forall n, Forall (fun c => is_digit c = true) (dec n).
Proof. intro n. exact (undec_digits _ _ _ (dec_undec n)). Qed.
Lemma dec_value : forall n, value_loop (dec n) 0 = Z.of_N n.
Proof. intro n. exact (undec_value _ _ _ (dec_undec n)). Qed.

Lemma digit_code : forall c, is_digit c = true -> (48 <= N_of_ascii c <= 57)%N.
Proof.
  intros c H. unfold is_digit, digit_value in H.
  destruct ((48 <=? N_of_ascii c) && (N_of_ascii c <=? 57))%N eqn:E; [ | discriminate ]. lia.
Qed.
Lemma digit_no_space : forall c, is_digit c = true -> is_space c = false.
Proof. intros c H. apply digit_code in H. unfold is_space. lia. Qed.
Lemma code_neq : forall c d, N_of_ascii c <> N_of_ascii d -> Ascii.eqb c d = false.
Proof. intros c d H. apply Ascii.eqb_neq. intros ->. auto. Qed.
Lemma digit_not : forall c d, is_digit c = true -> (N_of_ascii d < 48 \/ 57 < N_of_ascii d)%N -> c <> d.
Proof. intros c d H B ->. apply digit_code in H. lia. Qed.

Lemma atoi_dec : forall n, (Z.of_N n < 2 ^ 31)%Z -> atoi (dec n) = Ok (Z.of_N n).
Proof.
  intros n B. pose proof (dec_digits n) as D. pose proof (dec_value n) as V. unfold atoi.
  destruct (dec n) as [ | c s ] eqn:E; [ exfalso; exact (dec_nonempty n E) | ]. inversion D as [ | ? ? Dc Ds ]. subst.
  cbn [skip_space]. rewrite (digit_no_space c Dc). cbv zeta.
  rewrite (proj2 (Ascii.eqb_neq c "-")) by (apply digit_not; [ exact Dc | left; reflexivity ]).
  rewrite (proj2 (Ascii.eqb_neq c "+")) by (apply digit_not; [ exact Dc | left; reflexivity ]).
  rewrite V. destruct (Z.leb_spec (- 2 ^ 31) (Z.of_N n)); [ | lia ]. destruct (Z.ltb_spec (Z.of_N n) (2 ^ 31)); [ reflexivity | lia ].
Qed.
Lemma short_small : forall z, (0 <= z < 2 ^ 15)%Z -> to_short z = z.
Proof. intros z B. unfold to_short. rewrite Z.mod_small; lia. Qed.

(** ** Restrictions *)
Lemma full_fnd : forall r s, full_match r s = option_map (fun x => fst (fst x)) (fnd (fun t => match t with [] => true | _ => false end) r s).
Proof. reflexivity. Qed.

Definition done (t : str) : bool := match t with [] => true | _ => false end.
Lemma fnd_chr : forall P f s, fnd P (Chr f) s = match s with x :: s' => if f x && P s' then Some ([], [x], s') else None | [] => None end.
Proof.
  intros P f s. unfold fnd. cbn [matches_at]. destruct s as [ | x s' ]; [ reflexivity | ].
  destruct (f x); [ | reflexivity ]. cbn [find snd andb]. destruct (P s'); reflexivity.
Qed.
(** nothing of a class is in front of b *)
Definition stops (f : ascii -> bool) (b : str) : Prop := match b with [] => True | c :: _ => f c = false end.
Lemma fnd_star_stop : forall P f a b, Forall (fun c => f c = true) a -> P b = true -> stops f b -> fnd P (Star f) (a ++ b) = Some ([], a, b).
Proof.
  intros P f a b F Pb S. apply fnd_star; [ exact F | exact Pb | ]. intros m r M E G. exfalso.
  destruct m as [ | c m ]; [ auto | ]. subst b. cbn [stops List.app] in S. inversion G. congruence.
Qed.

Lemma word_not_space : forall c, is_word c = true -> is_space c = false.
Proof.
  intros c H. unfold is_word in H. unfold is_space. destruct (is_digit c) eqn:D; [ apply digit_code in D; lia | ].
  cbn [orb] in H. lia.
Qed.
Lemma equal_match : forall sp1 name ds sp2, Forall (fun c => is_space c = true) sp1 -> Forall (fun c => is_word c = true) name ->
  ds <> [] -> Forall (fun c => is_digit c = true) ds -> Forall (fun c => is_space c = true) sp2 ->
  full_match equal_re (sp1 ++ name ++ "="%char :: ds ++ sp2) = Some [(1, name); (2, ds)].
Proof.
  intros sp1 name ds sp2 S1 W N D S2. rewrite full_fnd. fold done.
  assert (E5 : fnd done (Star is_space) sp2 = Some ([], sp2, [])).
  { rewrite <- (app_nil_r sp2) at 1. apply fnd_star_stop; [ exact S2 | reflexivity | exact I ]. }
  assert (ST : stops is_digit sp2).
  { destruct sp2 as [ | c s ]; [ exact I | ]. inversion S2. cbn [stops]. destruct (is_digit c) eqn:X; [ | reflexivity ].
    apply digit_no_space in X. congruence. }
  assert (E4 : fnd done (Cat (Grp 2 (Cat (Chr is_digit) (Star is_digit))) (Star is_space)) (ds ++ sp2) = Some ([(2, ds)], ds ++ sp2, [])).
  { destruct ds as [ | d ds ]; [ congruence | ]. inversion D as [ | ? ? Dd Dds ]. subst.
    rewrite fnd_cat, fnd_grp, fnd_cat, fnd_chr. cbn [List.app]. rewrite Dd.
    rewrite fnd_star_stop by (try assumption; rewrite E5; reflexivity). cbn [some andb].
    rewrite fnd_star_stop by (try assumption; rewrite E5; reflexivity). cbn [option_map List.app]. rewrite E5. reflexivity. }
  assert (E3 : fnd done (Cat (is "=") (Cat (Grp 2 (Cat (Chr is_digit) (Star is_digit))) (Star is_space))) ("="%char :: ds ++ sp2)
             = Some ([(2, ds)], "="%char :: ds ++ sp2, [])).
  { rewrite fnd_cat, fnd_is, Ascii.eqb_refl, E4. cbn [some andb]. rewrite E4. reflexivity. }
  assert (E2 : fnd done (Cat (Grp 1 (Star is_word)) (Cat (is "=") (Cat (Grp 2 (Cat (Chr is_digit) (Star is_digit))) (Star is_space))))
                 (name ++ "="%char :: ds ++ sp2) = Some ([(1, name); (2, ds)], name ++ "="%char :: ds ++ sp2, [])).
  { rewrite fnd_cat, fnd_grp, fnd_star_stop; [ | exact W | rewrite E3; reflexivity | reflexivity ]. cbn [option_map]. rewrite E3. reflexivity. }
  unfold equal_re. rewrite fnd_cat, fnd_star_stop; [ | exact S1 | rewrite E2; reflexivity | ].
  - rewrite E2. reflexivity.
  - destruct name as [ | c name ]; [ reflexivity | ]. inversion W. cbn [stops List.app]. apply word_not_space. assumption.
Qed.
Lemma matches_text : forall r s x, In x (matches_at r s) -> s = snd (fst x) ++ snd x.
Proof. intros r s [ [ c m ] t ] I. exact (matches_shorter _ _ _ _ _ I). Qed.
Lemma equal_needs : forall s, ~ In "="%char s -> full_match equal_re s = None.
Proof.
  intros s N. unfold full_match. destruct (find _ _) as [ x | ] eqn:F; [ | reflexivity ]. exfalso. apply find_some in F. destruct F as [ F _ ].
  unfold equal_re in F. cbn [matches_at] in F. apply in_flat_map in F. destruct F as ([ [ c1 m1 ] r1 ] & I1 & F).
  apply (matches_text (Star is_space)) in I1. cbn [fst snd] in I1.
  apply in_map_iff in F. destruct F as (y & _ & F). apply in_flat_map in F. destruct F as ([ [ c2 m2 ] r2 ] & I2 & F).
  apply (matches_text (Grp 1 (Star is_word))) in I2. cbn [fst snd] in I2.
  apply in_map_iff in F. destruct F as (z & _ & F). apply in_flat_map in F. destruct F as (u & I3 & _).
  apply N. rewrite I1, I2. apply in_or_app. right. apply in_or_app. right.
  unfold is in I3. cbn [matches_at] in I3. destruct r2 as [ | c r2 ]; [ destruct I3 | ]. destruct (Ascii.eqb "=" c) eqn:E; [ | destruct I3 ].
  apply Ascii.eqb_eq in E. left. congruence.
Qed.

(** the word of a header which a restriction is about *)
Definition place (name : string) : option nat :=
  match name with
  | "prod" => Some 0 | "grid" => Some 1 | "dtype" => Some 8 | "vcoord" => Some 10 | "param" => Some 11 | "level" => Some 12
  | "idnum" => Some 13 | _ => None
  end%string.
Lemma word_place : forall n, word_of (s_ n) = place n.
Proof.
  assert (SE : forall a b, str_eqb (s_ a) (s_ b) = String.eqb a b).
  { intros a b. destruct (String.eqb_spec a b) as [ -> | N ].
    - unfold str_eqb. destruct (list_eq_dec ascii_dec (s_ b) (s_ b)); congruence.
    - unfold str_eqb. destruct (list_eq_dec ascii_dec (s_ a) (s_ b)) as [ E | E ]; [ | reflexivity ].
      exfalso. apply N. unfold s_ in E. rewrite <- (string_of_list_ascii_of_string a), <- (string_of_list_ascii_of_string b). congruence. }
  intro n. unfold word_of, restriction_words. cbn [find fst snd]. rewrite !SE.
  destruct (String.eqb_spec "prod" n) as [ <- | N1 ]; [ reflexivity | ].
  destruct (String.eqb_spec "grid" n) as [ <- | N2 ]; [ reflexivity | ].
  destruct (String.eqb_spec "dtype" n) as [ <- | N3 ]; [ reflexivity | ].
  destruct (String.eqb_spec "level" n) as [ <- | N4 ]; [ reflexivity | ].
  destruct (String.eqb_spec "idnum" n) as [ <- | N5 ]; [ reflexivity | ].
  destruct (String.eqb_spec "param" n) as [ <- | N6 ]; [ reflexivity | ].
  destruct (String.eqb_spec "vcoord" n) as [ <- | N7 ]; [ reflexivity | ].
  cbn [option_map]. symmetry. unfold place.
  repeat match goal with
  | |- match ?s with EmptyString => _ | String _ _ => _ end = None => destruct s; try reflexivity; try congruence
  | |- (if ?b then _ else _) = None => destruct b; try reflexivity; try congruence
  | |- match ?a with Ascii _ _ _ _ _ _ _ _ => _ end = None => destruct a
  end.
Qed.

(** a restriction sets its word; other restrictions and texts without an equal sign have no effect *)
Theorem C120_restriction : forall sp1 name n sp2 w, Forall (fun c => is_space c = true) sp1 -> Forall (fun c => is_space c = true) sp2 ->
  Forall (fun c => is_word c = true) (s_ name) ->
  let tok := sp1 ++ s_ name ++ "="%char :: dec n ++ sp2 in
  ((Z.of_N n < 2 ^ 15)%Z -> forall i, place name = Some i -> set_restriction tok w = Ok (set_word i (Z.of_N n) w)) /\
  ((Z.of_N n < 2 ^ 31)%Z -> place name = None -> set_restriction tok w = Ok w) /\
  (forall t, ~ In "="%char t -> set_restriction t w = Ok w).
Proof.
  intros sp1 name n sp2 w S1 S2 W tok.
  assert (M : full_match equal_re tok = Some [(1, s_ name); (2, dec n)]).
  { unfold tok. apply equal_match; [ exact S1 | exact W | apply dec_nonempty | apply dec_digits | exact S2 ]. }
  split; [ | split ].
  - intros B i P. unfold set_restriction. rewrite M. cbn [group find Nat.eqb fst snd]. unfold group. cbn [find Nat.eqb fst snd].
    rewrite atoi_dec by lia. cbn [obind]. rewrite word_place, P, short_small by lia. reflexivity.
  - intros B P. unfold set_restriction. rewrite M. unfold group. cbn [find Nat.eqb fst snd].
    rewrite atoi_dec by lia. cbn [obind]. rewrite word_place, P. reflexivity.
  - intros t N. unfold set_restriction. rewrite equal_needs by exact N. reflexivity.
Qed.

(** ** The words of an identifier *)
(** the last setting of a word *)
Definition final (sets : list (nat * Z)) (i : nat) : Z :=
  match find (fun p => fst p =? i) (rev sets) with Some p => snd p | None => ANY end.
Definition settings (nums : list N) (rs : list (string * N)) : list (nat * Z) :=
  combine [11; 10; 12] (map Z.of_N nums) ++
  flat_map (fun r => match place (fst r) with Some i => [(i, Z.of_N (snd r))] | None => [] end) rs.
Definition identifier (nums : list N) (rs : list (string * N)) : str :=
  join (join (map dec nums) [","%char] :: map (fun r => s_ (fst r) ++ "="%char :: dec (snd r)) rs) [":"%char].

Definition holds (w : words) (sets : list (nat * Z)) : Prop := length w = 16 /\ forall i, i < 16 -> nth i w 0%Z = final sets i.
Lemma set_word_nth : forall i v w j, i < length w -> nth j (set_word i v w) 0%Z = if i =? j then v else nth j w 0%Z.
Proof.
  intros i v w j L. unfold set_word. destruct (Nat.eqb_spec i j) as [ -> | N ].
  - rewrite app_nth2; rewrite firstn_length_le by lia; [ | lia ]. rewrite Nat.sub_diag. reflexivity.
  - destruct (Nat.lt_ge_cases j i) as [ H | H ].
    + rewrite app_nth1 by (rewrite firstn_length_le; lia). rewrite <- (firstn_skipn i w) at 2. rewrite app_nth1 by (rewrite firstn_length_le; lia). reflexivity.
    + rewrite app_nth2; rewrite firstn_length_le by lia; [ | lia ].
      replace (j - i) with (S (j - S i)) by lia. cbn [nth]. rewrite <- (firstn_skipn (S i) w) at 2.
      rewrite app_nth2; rewrite firstn_length_le by lia; [ reflexivity | lia ].
Qed.
Lemma set_word_length : forall i v w, i < length w -> length (set_word i v w) = length w.
Proof. intros i v w L. unfold set_word. rewrite app_length, firstn_length_le by lia. cbn [length]. rewrite skipn_length. lia. Qed.
Lemma holds_set : forall w sets i v, holds w sets -> i < 16 -> holds (set_word i v w) (sets ++ [(i, v)]).
Proof.
  intros w sets i v [ L H ] B. split; [ rewrite set_word_length; lia | ]. intros j J. rewrite set_word_nth by lia.
  unfold final. rewrite rev_app_distr. cbn [rev List.app find fst]. destruct (i =? j); [ reflexivity | apply H; exact J ].
Qed.
Lemma place_range : forall n i, place n = Some i -> i < 16.
Proof.
  intros n i E. rewrite <- word_place in E. unfold word_of in E. destruct (find _ _) as [ p | ] eqn:F; [ | discriminate ].
  apply find_some in F. destruct F as [ F _ ]. cbn [option_map] in E. injection E as <-.
  repeat (destruct F as [ <- | F ]; [ cbn [snd]; lia | ]). destruct F.
Qed.

Lemma front_holds : forall nums ps w sets, Forall (fun i => i < 16) ps -> Forall (fun n => (Z.of_N n < 2 ^ 15)%Z) nums -> holds w sets ->
  exists w', set_front ps (map dec nums) w = Ok w' /\ holds w' (sets ++ combine ps (map Z.of_N nums)).
Proof.
  induction nums as [ | n nums IH ]; intros ps w sets P N H.
  - exists w. cbn [map set_front]. destruct ps; cbn [combine]; rewrite app_nil_r; auto.
  - inversion N as [ | ? ? Hn Hns ]. subst. cbn [map set_front]. rewrite atoi_dec by lia. cbn [obind]. destruct ps as [ | i ps ].
    + destruct (IH [] w sets P Hns H) as (w' & E & H'). exists w'. split; [ exact E | exact H' ].
    + inversion P as [ | ? ? Pi Pps ]. subst. rewrite short_small by lia.
      destruct (IH ps (set_word i (Z.of_N n) w) (sets ++ [(i, Z.of_N n)]) Pps Hns (holds_set _ _ _ _ H Pi)) as (w' & E & H').
      exists w'. split; [ exact E | ]. rewrite <- app_assoc in H'. exact H'.
Qed.
Lemma tokens_hold : forall rs w sets, Forall (fun r => Forall (fun c => is_word c = true) (s_ (fst r)) /\ (Z.of_N (snd r) < 2 ^ 15)%Z) rs -> holds w sets ->
  exists w', ofold (fun w t => set_restriction t w) (map (fun r => s_ (fst r) ++ "="%char :: dec (snd r)) rs) w = Ok w' /\
    holds w' (sets ++ flat_map (fun r => match place (fst r) with Some i => [(i, Z.of_N (snd r))] | None => [] end) rs).
Proof.
  induction rs as [ | [ name n ] rs IH ]; intros w sets F H.
  - exists w. cbn [map ofold flat_map]. rewrite app_nil_r. auto.
  - inversion F as [ | ? ? [ W B ] Fs ]. subst. cbn [fst snd] in *. cbn [map ofold flat_map fst snd].
    destruct (C120_restriction [] name n [] w (Forall_nil _) (Forall_nil _) W) as (R1 & R2 & _).
    rewrite app_nil_r in R1, R2. cbn [List.app] in R1, R2. destruct (place name) as [ i | ] eqn:P.
    + rewrite (R1 B i eq_refl). cbn [obind].
      destruct (IH _ _ Fs (holds_set _ _ i (Z.of_N n) H (place_range _ _ P))) as (w' & E & H'). exists w'. split; [ exact E | ].
      rewrite <- app_assoc in H'. exact H'.
    + rewrite R2 by (lia || reflexivity). cbn [obind]. destruct (IH _ _ Fs H) as (w' & E & H'). exists w'. auto.
Qed.

Lemma words_no : forall (f : ascii -> bool) s c, Forall (fun x => f x = true) s -> f c = false -> ~ In c s.
Proof. intros f s c F N I. rewrite Forall_forall in F. apply F in I. congruence. Qed.
Lemma any_holds : holds any_words [].
Proof.
  split; [ reflexivity | ]. intros i B. unfold final. cbn [rev find].
  do 16 (destruct i as [ | i ]; [ reflexivity | ]). lia.
Qed.
Lemma join_in : forall fs c x, In x (join fs [c]) -> x = c \/ exists f, In f fs /\ In x f.
Proof.
  induction fs as [ | f fs IH ]; intros c x I; [ destruct I | ]. destruct fs as [ | f2 fs ].
  - right. exists f. split; [ left; reflexivity | exact I ].
  - rewrite join_cons in I. apply in_app_iff in I. destruct I as [ I | I ]; [ right; exists f; split; [ left; reflexivity | exact I ] | ].
    apply in_app_iff in I. destruct I as [ [ -> | [] ] | I ]; [ left; reflexivity | ].
    destruct (IH _ _ I) as [ E | (h & H & J) ]; [ left; exact E | right; exists h; split; [ right; exact H | exact J ] ].
Qed.
(** the words of an identifier: parameter, vertical coordinate and level in front, then restrictions; the last one counts *)
Theorem C120_words : forall nums rs, nums <> [] -> Forall (fun n => (Z.of_N n < 2 ^ 15)%Z) nums ->
  Forall (fun r => Forall (fun c => is_word c = true) (s_ (fst r)) /\ (Z.of_N (snd r) < 2 ^ 15)%Z) rs ->
  exists w, diana_words (identifier nums rs) = Ok w /\ holds w (settings nums rs).
Proof.
  intros nums rs NE N R. unfold diana_words, identifier.
  assert (DC : forall n, ~ In ":"%char (dec n)) by (intro n; apply (words_no is_digit); [ apply dec_digits | reflexivity ]).
  rewrite C18_split_join; [ | discriminate | ].
  2:{ constructor.
      - intro I. apply join_in in I. destruct I as [ I | (f & I & J) ]; [ discriminate | ]. apply in_map_iff in I. destruct I as (n & <- & _). exact (DC n J).
      - apply Forall_forall. intros t I J. apply in_map_iff in I. destruct I as ([ name n ] & <- & I). cbn [fst snd] in J.
        rewrite Forall_forall in R. apply R in I. destruct I as [ W _ ]. apply in_app_iff in J. destruct J as [ J | [ J | J ] ]; [ | discriminate | exact (DC n J) ].
        revert J. apply (words_no is_word); [ exact W | reflexivity ]. }
  cbn [obind]. rewrite C18_split_join; [ | destruct nums; [ congruence | discriminate ] | ].
  2:{ apply Forall_forall. intros t I. apply in_map_iff in I. destruct I as (n & <- & _). apply (words_no is_digit); [ apply dec_digits | reflexivity ]. }
  cbn [obind]. destruct (front_holds nums [11; 10; 12] any_words []) as (w & E & H); [ repeat constructor | exact N | exact any_holds | ].
  rewrite E. cbn [obind List.app] in *. destruct (tokens_hold rs w _ R H) as (w' & E' & H'). exists w'. split; [ exact E' | exact H' ].
Qed.

(** ** Removing parts of a text *)
Lemma first_char : forall {A} (x : A) p' p q q', ~ In x p -> p ++ x :: q = p' ++ x :: q' -> length p <= length p'.
Proof.
  induction p' as [ | y p' IH ]; intros p q q' N E.
  - destruct p as [ | z p ]; [ apply Nat.le_refl | ]. injection E as -> E. exfalso. apply N. left. reflexivity.
  - destruct p as [ | z p ]; [ cbn [length]; lia | ]. injection E as -> E. cbn [length].
    apply le_n_S. apply (IH p q q'); [ intro I; apply N; right; exact I | exact E ].
Qed.
Lemma same_length : forall {A} (a b c d : list A), a ++ b = c ++ d -> length a = length c -> a = c /\ b = d.
Proof.
  induction a as [ | x a IH ]; intros b c d E L; destruct c as [ | y c ]; cbn [length] in L; try lia; [ split; [ reflexivity | exact E ] | ].
  injection E as -> E. destruct (IH b c d E ltac:(lia)) as [ -> -> ]. split; reflexivity.
Qed.
Lemma search_at : forall r pre s c rest, (forall a b, a ++ b = pre ++ s -> length a < length pre -> first_match r b = None) ->
  first_match r s = Some (c, rest) -> search r (pre ++ s) = Some (pre, c, rest).
Proof.
  induction pre as [ | x pre IH ]; intros s c rest N F.
  - cbn [List.app]. rewrite search_first, F. reflexivity.
  - rewrite search_first, (N [] ((x :: pre) ++ s) eq_refl) by (cbn [length]; lia). cbn [List.app].
    rewrite (IH s c rest); [ reflexivity | | exact F ]. intros a b E L. apply (N (x :: a) b); [ cbn [List.app]; rewrite E; reflexivity | cbn [length]; lia ].
Qed.
Lemma search_no : forall r s, (forall a b, s = a ++ b -> first_match r b = None) -> search r s = None.
Proof.
  induction s as [ | x s IH ]; intro N; rewrite search_first, (N [] _ eq_refl); [ reflexivity | ].
  rewrite IH; [ reflexivity | ]. intros a b ->. apply (N (x :: a) b). reflexivity.
Qed.
Lemma opt_lit_miss : forall c l r s, (forall t, s <> l ++ t) -> (forall t, s <> c :: l ++ t) -> first_match (Cat (Opt (is c)) (lit l r)) s = None.
Proof.
  intros c l r s N1 N2. rewrite first_fnd, fnd_cat, fnd_opt, fnd_is.
  assert (M : forall t, (forall u, t <> l ++ u) -> fnd (fun _ => true) (lit l r) t = None).
  { intros t N. pose proof (lit_miss l r t N) as L. rewrite first_fnd in L. destruct (fnd _ _ t); [ discriminate | reflexivity ]. }
  rewrite (M s N1). cbn [some]. destruct s as [ | x s ]; [ reflexivity | ].
  destruct (Ascii.eqb c x) eqn:E; [ | reflexivity ]. apply Ascii.eqb_eq in E. subst x.
  rewrite M by (intros u ->; exact (N2 u eq_refl)). reflexivity.
Qed.
Lemma opt_lit_hit : forall c l r t cc rest, first_match r t = Some (cc, rest) ->
  first_match (Cat (Opt (is c)) (lit l r)) (c :: l ++ t) = Some (cc, rest).
Proof.
  intros c l r t cc rest F. rewrite first_fnd, fnd_cat, fnd_opt, fnd_is, Ascii.eqb_refl.
  rewrite <- (lit_hit l r t), first_fnd in F. destruct (fnd (fun _ => true) (lit l r) (l ++ t)) as [ [ [ a b ] d ] | ] eqn:E; [ | discriminate ].
  cbn [some andb]. rewrite E. exact F.
Qed.
Lemma star_first : forall n f a b, Forall (fun c => f c = true) a -> stops f b -> first_match (Grp n (Star f)) (a ++ b) = Some ([(n, a)], b).
Proof. intros n f a b F S. rewrite first_fnd, fnd_grp, fnd_star_stop by (assumption || reflexivity). reflexivity. Qed.
Lemma plus_first : forall n f a b, a <> [] -> Forall (fun c => f c = true) a -> stops f b ->
  first_match (Grp n (Cat (Chr f) (Star f))) (a ++ b) = Some ([(n, a)], b).
Proof.
  intros n f a b N F S. destruct a as [ | x a ]; [ congruence | ]. inversion F as [ | ? ? Fx Fa ]. subst.
  rewrite first_fnd, fnd_grp, fnd_cat, fnd_chr. cbn [List.app]. rewrite Fx.
  rewrite fnd_star_stop by (assumption || reflexivity). cbn [some andb]. rewrite fnd_star_stop by (assumption || reflexivity). reflexivity.
Qed.

Lemma type_none : forall s, ~ In "T"%char s -> search type_re s = None.
Proof.
  intros s N. apply search_no. intros a b ->. unfold type_re. apply lit_miss. intros t ->. apply N.
  apply in_or_app. right. apply in_or_app. left. cbn. tauto.
Qed.
Lemma fill_none : forall s, ~ In "V"%char s -> search fill_re s = None.
Proof.
  intros s N. apply search_no. intros a b ->. unfold fill_re.
  assert (I : In "V"%char (s_ "fillValue=")) by (cbn; tauto).
  apply opt_lit_miss; intros t ->; apply N; apply in_or_app; right; [ apply in_or_app; left; exact I | ].
  right. apply in_or_app. left. exact I.
Qed.
Lemma type_hit : forall a t b, ~ In "T"%char a -> Forall (fun c => is_lower c = true) t -> stops is_lower b ->
  search type_re (a ++ s_ ":dataType=" ++ t ++ b) = Some (a, [(1, t)], b).
Proof.
  intros a t b N L S. apply search_at.
  - intros x y E LT. unfold type_re. apply lit_miss. intros u ->.
    change (s_ ":dataType=") with (s_ ":data" ++ "T"%char :: s_ "ype=") in E. rewrite <- !app_assoc in E. cbn [List.app] in E.
    rewrite !(app_assoc _ (s_ ":data")) in E. symmetry in E. apply first_char in E.
    + rewrite !app_length in E. lia.
    + intro I. apply in_app_iff in I. destruct I as [ I | I ]; [ exact (N I) | ]. cbn in I. intuition discriminate.
  - unfold type_re. rewrite lit_hit. apply star_first; assumption.
Qed.
Lemma type_removed : forall a t b, ~ In "T"%char a -> ~ In "T"%char b -> Forall (fun c => is_lower c = true) t -> stops is_lower b ->
  remove type_re (a ++ s_ ":dataType=" ++ t ++ b) = a ++ b.
Proof.
  intros a t b N M L S. unfold remove. cbn [remove_loop]. rewrite type_hit by assumption.
  f_equal. destruct (length _); [ reflexivity | ]. cbn [remove_loop]. rewrite type_none by exact M. reflexivity.
Qed.
Lemma fill_hit : forall a v b, ~ In "V"%char a -> v <> [] -> Forall (fun c => not_colon c = true) v -> stops not_colon b ->
  search fill_re (a ++ s_ ":fillValue=" ++ v ++ b) = Some (a, [(1, v)], b).
Proof.
  intros a v b N NE L S. change (s_ ":fillValue=") with (":"%char :: s_ "fillValue="). apply search_at.
  - intros x y E LT.
    assert (K : forall p u, p ++ s_ "fillValue=" ++ u = a ++ (":"%char :: s_ "fillValue=") ++ v ++ b -> length a + 1 <= length p).
    { intros p u H.
      assert (H2 : (a ++ ":"%char :: s_ "fill") ++ "V"%char :: (s_ "alue=" ++ v ++ b) = (p ++ s_ "fill") ++ "V"%char :: (s_ "alue=" ++ u))
        by (rewrite <- !app_assoc; exact (eq_sym H)).
      clear H. rename H2 into H. apply first_char in H.
      - rewrite !app_length in H. cbn [length] in H. lia.
      - intro I. apply in_app_iff in I. destruct I as [ I | I ]; [ exact (N I) | ]. cbn in I. intuition discriminate. }
    apply opt_lit_miss; intros u ->.
    + apply K in E. lia.
    + change (x ++ ":"%char :: s_ "fillValue=" ++ u) with (x ++ [":"%char] ++ (s_ "fillValue=" ++ u)) in E. rewrite app_assoc in E.
      apply K in E. rewrite app_length in E. cbn [length] in E. lia.
  - cbn [List.app]. apply opt_lit_hit. apply plus_first; assumption.
Qed.
Lemma fill_removed : forall a v, ~ In "V"%char a -> v <> [] -> Forall (fun c => not_colon c = true) v ->
  remove fill_re (a ++ s_ ":fillValue=" ++ v) = a.
Proof.
  intros a v N NE L. unfold remove. cbn [remove_loop].
  assert (H : search fill_re (a ++ s_ ":fillValue=" ++ v) = Some (a, [(1, v)], [])).
  { rewrite <- (app_nil_r v) at 1. apply fill_hit; assumption || exact I. }
  rewrite H. transitivity (a ++ []); [ f_equal; destruct (length _); reflexivity | apply app_nil_r ].
Qed.
Lemma global_removed : forall a g, g <> [] -> (forall x y, a ++ ":"%char :: g = x ++ g ++ y -> y = []) -> remove (global_re g) (a ++ ":"%char :: g) = a.
Proof.
  intros a g NE U.
  assert (H : search (global_re g) (a ++ ":"%char :: g) = Some (a, [], [])).
  { apply search_at.
    - intros x y E LT. unfold global_re. apply opt_lit_miss; intros u ->.
      + pose proof (U x u (eq_sym E)). subst u. apply (f_equal (@length _)) in E. rewrite !app_length in E. cbn [length] in E. lia.
      + assert (E2 : a ++ ":"%char :: g = (x ++ [":"%char]) ++ g ++ u) by (rewrite <- app_assoc; symmetry; exact E).
        pose proof (U _ u E2). subst u. apply (f_equal (@length _)) in E. rewrite !app_length in E. cbn [length] in E. rewrite app_length in E. cbn [length] in E. lia.
    - unfold global_re. replace (":"%char :: g) with (":"%char :: g ++ []) by (rewrite app_nil_r; reflexivity). apply opt_lit_hit. reflexivity. }
  unfold remove. cbn [remove_loop]. rewrite H. transitivity (a ++ []); [ f_equal | apply app_nil_r ].
  destruct (length _) as [ | n ]; [ reflexivity | ]. cbn [remove_loop]. rewrite search_no; [ reflexivity | ].
  intros x y E. symmetry in E. apply app_eq_nil in E. destruct E as [ -> -> ]. unfold global_re.
  apply opt_lit_miss; intros t E; [ destruct g; [ congruence | discriminate ] | discriminate ].
Qed.

(** ** One parameter of a configuration *)
Lemma equal_inv : forall s c, full_match equal_re s = Some c -> exists sp1 name ds sp2,
  s = sp1 ++ name ++ "="%char :: ds ++ sp2 /\ c = [(1, name); (2, ds)] /\ Forall (fun x => is_space x = true) sp1 /\
  Forall (fun x => is_word x = true) name /\ ds <> [] /\ Forall (fun x => is_digit x = true) ds.
Proof.
  intros s c F. unfold full_match in F. destruct (find _ _) as [ x | ] eqn:E; [ | discriminate ]. cbn [option_map] in F.
  apply find_some in E. destruct E as [ E R ]. destruct x as [ [ cx mx ] rx ]. cbn [fst snd] in *. injection F as ->.
  destruct rx; [ | discriminate ]. clear R.
  unfold equal_re in E. cbn [matches_at] in E. apply in_flat_map in E. destruct E as ([ [ c1 m1 ] r1 ] & I1 & E).
  apply in_map_iff in I1. destruct I1 as ([ sp1 q1 ] & Q1 & I1). apply stars_all in I1. destruct I1 as [ -> S1 ]. cbn [fst snd] in Q1.
  injection Q1 as <- <- <-.
  apply in_map_iff in E. destruct E as ([ [ cy my ] ry ] & Y & E). apply in_flat_map in E. destruct E as ([ [ c2 m2 ] r2 ] & I2 & E).
  apply in_map_iff in I2. destruct I2 as ([ [ c2' m2' ] r2' ] & Q2 & I2).
  apply in_map_iff in I2. destruct I2 as ([ name q2 ] & Q3 & I2). apply stars_all in I2. destruct I2 as [ -> S2 ]. cbn [fst snd] in Q3. cbn beta iota in Q2.
  injection Q3 as <- <- <-. injection Q2 as <- <- <-.
  apply in_map_iff in E. destruct E as ([ [ cz mz ] rz ] & Z & E). apply in_flat_map in E. destruct E as ([ [ c3 m3 ] r3 ] & I3 & E).
  unfold is in I3. cbn [matches_at] in I3. destruct q2 as [ | e q2 ]; [ destruct I3 | ]. destruct (Ascii.eqb "=" e) eqn:EE; [ | destruct I3 ].
  apply Ascii.eqb_eq in EE. subst e. destruct I3 as [ I3 | [] ]. injection I3 as <- <- <-.
  apply in_map_iff in E. destruct E as ([ [ cu mu ] ru ] & U & E). apply in_flat_map in E. destruct E as ([ [ c4 m4 ] r4 ] & I4 & E).
  apply in_map_iff in I4. destruct I4 as ([ [ c4' m4' ] r4' ] & Q4 & I4). apply in_flat_map in I4. destruct I4 as ([ [ c5 m5 ] r5 ] & I5 & I4).
  destruct q2 as [ | d q2 ]; [ destruct I5 | ]. destruct (is_digit d) eqn:D; [ | destruct I5 ]. destruct I5 as [ I5 | [] ].
  injection I5 as <- <- <-.
  apply in_map_iff in I4. destruct I4 as ([ [ c6 m6 ] r6 ] & Q6 & I4). apply in_map_iff in I4. destruct I4 as ([ ds q6 ] & Q7 & I4).
  apply stars_all in I4. destruct I4 as [ -> S4 ]. cbn [fst snd] in Q7. cbn beta iota in Q4, Q6.
  injection Q7 as <- <- <-.
  cbn [List.app] in Q6. injection Q6 as <- <- <-. injection Q4 as <- <- <-.
  apply in_map_iff in E. destruct E as ([ [ c7 m7 ] r7 ] & Q8 & E). apply in_map_iff in E. destruct E as ([ sp2 q8 ] & Q9 & E). cbn [fst snd] in Q9. cbn beta iota in Q8, Y, Z, U.
  injection Q9 as <- <- <-. cbn [List.app] in Q8. injection Q8 as <- <- <-. cbn [List.app] in U. injection U as <- <- <-. cbn [List.app] in Z.
  injection Z as <- <- <-. cbn [List.app] in Y. injection Y as <- <- E9.
  exists sp1, name, (d :: ds), q6. split; [ cbn [List.app]; reflexivity | ]. split; [ reflexivity | ].
  split; [ exact S1 | ]. split; [ exact S2 | ]. split; [ discriminate | ]. constructor; assumption.
Qed.
Lemma value_bound : forall s a, Forall (fun x => is_digit x = true) s -> (0 <= a)%Z -> (0 <= value_loop s a < (a + 1) * 10 ^ Z.of_nat (length s))%Z.
Proof.
  induction s as [ | c s IH ]; intros a F A; [ cbn [value_loop length]; change (10 ^ Z.of_nat 0)%Z with 1%Z; lia | ].
  inversion F as [ | ? ? Fc Fs ]. subst. cbn [value_loop length]. pose proof (digit_code c Fc) as C. unfold digit_value.
  destruct ((48 <=? N_of_ascii c) && (N_of_ascii c <=? 57))%N eqn:E; [ | lia ].
  specialize (IH (10 * a + Z.of_N (N_of_ascii c - 48))%Z Fs ltac:(lia)).
  rewrite Nat2Z.inj_succ, Z.pow_succ_r by lia. split; [ lia | ].
  eapply Z.lt_le_trans; [ apply IH | ]. rewrite Z.mul_assoc. apply Z.mul_le_mono_nonneg_r; [ apply Z.pow_nonneg; lia | lia ].
Qed.
Lemma atoi_digits : forall ds, ds <> [] -> Forall (fun x => is_digit x = true) ds -> length ds <= 9 -> exists z, atoi ds = Ok z.
Proof.
  intros ds N D L. destruct ds as [ | c s ]; [ congruence | ]. pose proof (value_bound (c :: s) 0 D ltac:(lia)) as B.
  assert (P : (10 ^ Z.of_nat (length (c :: s)) <= 10 ^ 9)%Z) by (apply Z.pow_le_mono_r; lia). change (10 ^ 9)%Z with 1000000000%Z in P.
  unfold atoi. inversion D as [ | ? ? Dc Ds ]. subst. cbn [skip_space]. rewrite (digit_no_space c Dc). cbv zeta.
  rewrite (proj2 (Ascii.eqb_neq c "-")) by (apply digit_not; [ exact Dc | left; reflexivity ]).
  rewrite (proj2 (Ascii.eqb_neq c "+")) by (apply digit_not; [ exact Dc | left; reflexivity ]).
  exists (value_loop (c :: s) 0). change (2 ^ 31)%Z with 2147483648%Z.
  destruct (Z.leb_spec (- (2147483648)) (value_loop (c :: s) 0)); [ | lia ]. destruct (Z.ltb_spec (value_loop (c :: s) 0) 2147483648); [ reflexivity | lia ].
Qed.
Lemma fill_token : forall v w, length v <= 9 -> set_restriction (s_ "fillValue=" ++ v) w = Ok w.
Proof.
  intros v w L. unfold set_restriction. destruct (full_match _ _) as [ c | ] eqn:F; [ | reflexivity ].
  apply equal_inv in F. destruct F as (sp1 & name & ds & sp2 & E & -> & S1 & W & N & D). unfold group. cbn [find Nat.eqb fst snd].
  assert (NE : ~ In "="%char (sp1 ++ name)).
  { intro I. apply in_app_iff in I. destruct I as [ I | I ]; revert I; [ apply (words_no is_space) | apply (words_no is_word) ]; assumption || reflexivity. }
  assert (E2 : s_ "fillValue" ++ "="%char :: v = (sp1 ++ name) ++ "="%char :: ds ++ sp2) by (rewrite <- app_assoc; exact E).
  assert (NF : ~ In "="%char (s_ "fillValue")) by (intro I; cbn in I; intuition discriminate).
  assert (L1 := first_char _ _ _ _ _ NF E2). assert (L2 := first_char _ _ _ _ _ NE (eq_sym E2)).
  destruct (same_length _ _ _ _ E2 ltac:(lia)) as [ A B ]. injection B as B.
  assert (sp1 = []).
  { destruct sp1 as [ | x sp1 ]; [ reflexivity | ]. exfalso. inversion S1 as [ | ? ? Sx _ ]. subst. injection A as <- _. discriminate Sx. }
  subst sp1. cbn [List.app] in A. subst name.
  destruct (atoi_digits ds N D) as (z & Z); [ rewrite B, app_length in L; lia | ]. rewrite Z. reflexivity.
Qed.

Lemma ofold_skip : forall {S A} (f : S -> A -> outcome S) l1 x l2 s, (forall s, f s x = Ok s) -> ofold f (l1 ++ x :: l2) s = ofold f (l1 ++ l2) s.
Proof.
  induction l1 as [ | y l1 IH ]; intros x l2 s H; cbn [List.app ofold]; [ rewrite H; reflexivity | ].
  destruct (f s y); cbn [obind]; auto.
Qed.
Lemma fields_app : forall a fa b fb, fields [":"%char] a fa -> fields [":"%char] b fb -> fields [":"%char] (a ++ ":"%char :: b) (fa ++ fb).
Proof.
  intros a fa b fb F G. induction F as [ f H | f c s fs H D F IH ].
  - cbn [List.app]. constructor; [ exact H | left; reflexivity | exact G ].
  - cbn [List.app]. rewrite <- app_assoc. cbn [List.app]. constructor; assumption.
Qed.
Lemma words_fill : forall a v gp, ~ In ":"%char v -> length v <= 9 -> (gp = [] \/ exists g, gp = ":"%char :: g) ->
  diana_words (a ++ s_ ":fillValue=" ++ v ++ gp) = diana_words (a ++ gp).
Proof.
  intros a v gp N L G. unfold diana_words. change (s_ ":") with [":"%char].
  destruct (split_any_fields a [":"%char]) as (fa & _ & FA).
  assert (NF : ~ In ":"%char (s_ "fillValue=" ++ v)) by (intro I; apply in_app_iff in I; destruct I as [ I | I ]; [ cbn in I; intuition discriminate | exact (N I) ]).
  assert (ND : Forall (notd [":"%char]) (s_ "fillValue=" ++ v)).
  { apply Forall_forall. intros x I [ E | [] ]. subst x. contradiction. }
  assert (K : exists gs, fields [":"%char] (a ++ gp) (fa ++ gs) /\ fields [":"%char] (a ++ s_ ":fillValue=" ++ v ++ gp) (fa ++ (s_ "fillValue=" ++ v) :: gs)).
  { destruct G as [ -> | (g & ->) ].
    - exists []. rewrite !app_nil_r. split; [ exact FA | ]. apply (fields_app a fa (s_ "fillValue=" ++ v)); [ exact FA | ]. constructor. exact ND.
    - destruct (split_any_fields g [":"%char]) as (fg & _ & FG). exists fg. split; [ apply fields_app; assumption | ].
      change (a ++ s_ ":fillValue=" ++ v ++ ":"%char :: g) with (a ++ ":"%char :: (s_ "fillValue=" ++ (v ++ ":"%char :: g))).
      apply fields_app; [ exact FA | ]. rewrite app_assoc. constructor; [ exact ND | left; reflexivity | exact FG ]. }
  destruct K as (gs & K1 & K2). apply C18_split_fields in K1, K2. rewrite K1, K2. cbn [obind].
  destruct fa as [ | f0 fa ]; [ inversion FA | ]. cbn [List.app].
  destruct (split_any f0 (s_ ",")) as [ l | | | ]; cbn [obind]; try reflexivity.
  destruct (set_front _ l any_words) as [ w | | | ]; cbn [obind]; try reflexivity.
  apply ofold_skip. intro w2. apply fill_token. exact L.
Qed.

Section Config.
Variable D : Type.
Variable readD : str -> D.
Variable anyD : D.

(** A parameter for which the configuration means what it says: no capital T and V, a type in small letters, a fill
    value of at most nine characters, and restrictions which occur at the end only. *)
Definition plain (s : str) : Prop := ~ In "T"%char s /\ ~ In "V"%char s.
Definition fill_text (c : conf) : str := match c_fill c with Some v => s_ ":fillValue=" ++ v | None => [] end.
Definition good (g : option str) (c : conf) : Prop :=
  plain (c_id c) /\
  (c_type c = [] \/ Forall (fun x => is_lower x = true) (c_type c) /\ c_type c <> s_ "none") /\
  (forall v, c_fill c = Some v -> v <> [] /\ ~ In ":"%char v /\ plain v /\ length v <= 9) /\
  (forall t, g = Some t -> t <> [] /\ plain t /\ forall x y, c_id c ++ fill_text c ++ ":"%char :: t = x ++ t ++ y -> y = []).
Definition restricted (g : option str) (s : str) : str := match g with Some t => s ++ ":"%char :: t | None => s end.
Definition global (g : option str) : str := match g with Some t => t | None => [] end.

Lemma good_step : forall g c p w, good g c -> diana_words (restricted g (c_id c)) = Ok w ->
  sfind (key (restricted g (c_id c ++ fill_text c))) (p_fills p) = None \/ c_type c = [] ->
  exists p', add_param D readD (global g) p (known_id g c) = Ok p' /\
    p_words p' = sput (key (c_id c)) w (p_words p) /\
    p_types p' = (match c_type c with [] => p_types p | t => sput (key (c_id c)) (key t) (p_types p) end) /\
    (forall k, sfind k (p_fills p') =
       match c_fill c with
       | Some v => if String.eqb k (key (c_id c)) then Some (readD v) else sfind k (p_fills p)
       | None => sfind k (p_fills p)
       end).
Proof.
  intros g c p w ((IT & IV) & TY & FI & GL) W NF.
  set (id := c_id c) in *. set (fp := fill_text c) in *. set (gp := match g with Some t => ":"%char :: t | None => [] end).
  assert (RE : forall s, restricted g s = s ++ gp) by (intro s; unfold restricted, gp; destruct g; [ reflexivity | rewrite app_nil_r; reflexivity ]).
  rewrite RE in W, NF. rewrite <- app_assoc in NF.
  assert (FT : ~ In "T"%char fp).
  { unfold fp, fill_text. destruct (c_fill c) as [ v | ]; [ | intros [] ]. destruct (FI v eq_refl) as (_ & _ & (VT & _) & _). intro I.
    apply in_app_iff in I. destruct I as [ I | I ]; [ cbn in I; intuition discriminate | exact (VT I) ]. }
  assert (GT : ~ In "T"%char gp /\ ~ In "V"%char gp).
  { unfold gp. destruct g as [ t | ]; [ | split; intros [] ]. destruct (GL t eq_refl) as (_ & (A & B) & _).
    split; intros [ I | I ]; try discriminate I; contradiction. }
  destruct GT as [ GT GV ].
  assert (ST : forall f, f ":"%char = false -> stops f gp /\ stops f (fp ++ gp)).
  { intros f F. unfold fp, fill_text, gp. destruct (c_fill c), g; cbn; auto. }
  assert (KN : known_id g c = id ++ match c_type c with [] => [] | t => s_ ":dataType=" ++ t end ++ fp ++ gp).
  { unfold known_id, id, fp, gp, fill_text. f_equal. f_equal. destruct (c_fill c) as [ [ | x v ] | ]; try reflexivity.
    exfalso. destruct (FI [] eq_refl) as (N & _). congruence. }
  assert (TN : ~ In "T"%char (id ++ fp ++ gp)) by (intro I; apply in_app_iff in I; destruct I as [ I | I ]; [ exact (IT I) | apply in_app_iff in I; tauto ]).
  assert (CL : match global g return str with [] => id ++ fp ++ gp | _ => remove (global_re (global g)) (id ++ fp ++ gp) end = id ++ fp).
  { unfold global, gp. destruct g as [ t | ]; [ | rewrite app_nil_r; reflexivity ]. destruct (GL t eq_refl) as (TN0 & _ & U).
    destruct t as [ | x t ]; [ congruence | ]. rewrite app_assoc. apply global_removed; [ discriminate | ]. intros a b E. apply (U a b). rewrite app_assoc. exact E. }
  assert (WN : diana_words (id ++ fp ++ gp) = Ok w).
  { unfold fp, fill_text. destruct (c_fill c) as [ v | ]; [ | exact W ]. destruct (FI v eq_refl) as (_ & VC & _ & VL).
    rewrite <- app_assoc. rewrite words_fill; [ exact W | exact VC | exact VL | ]. unfold gp. destruct g; [ right; eexists; reflexivity | left; reflexivity ]. }
  assert (NK : c_fill c <> None -> String.eqb (key (id ++ fp ++ gp)) (key id) = false).
  { intro H. apply String.eqb_neq. intro E. unfold key in E. apply (f_equal list_ascii_of_string) in E. rewrite !list_ascii_of_string_of_list_ascii in E.
    apply (f_equal (@length _)) in E. rewrite !app_length in E. unfold fp, fill_text in E. destruct (c_fill c); [ | congruence ]. cbn [s_ list_ascii_of_string List.app length] in E. lia. }
  assert (FS : search fill_re (id ++ fp ++ gp) = match c_fill c with Some v => Some (id, [(1, v)], gp) | None => None end /\
               (c_fill c <> None -> remove fill_re (id ++ fp) = id) /\ (c_fill c = None -> id ++ fp = id)).
  { unfold fp, fill_text. destruct (c_fill c) as [ v | ].
    - destruct (FI v eq_refl) as (VN & VC & _ & _). assert (VF : Forall (fun x => not_colon x = true) v).
      { apply Forall_forall. intros x I. unfold not_colon. destruct (Ascii.eqb x ":") eqn:E; [ | reflexivity ]. apply Ascii.eqb_eq in E. subst x. contradiction. }
      split; [ | split; [ intros _; apply fill_removed; assumption | discriminate ] ].
      rewrite <- app_assoc. apply fill_hit; [ assumption .. | ]. apply (ST not_colon). reflexivity.
    - split; [ | split; [ congruence | intros _; apply app_nil_r ] ].
      cbn [List.app]. apply fill_none. intro I. apply in_app_iff in I. tauto. }
  destruct FS as (FS & FR & FN).
  rewrite KN. unfold add_param.
  destruct (c_type c) as [ | tx ty ] eqn:CT.
  - cbn [List.app]. rewrite type_none by exact TN. cbv beta iota zeta. rewrite CL, FS, WN.
    destruct (c_fill c) as [ v | ] eqn:CF.
    + rewrite FR by discriminate. cbn [obind]. change ("none" =? "none")%string with true. cbv iota.
      eexists. split; [ reflexivity | ]. cbn [p_words p_types p_fills]. split; [ reflexivity | ]. split; [ reflexivity | ]. intro k. apply sfind_sput.
    + rewrite FN by reflexivity. cbn [obind]. change ("none" =? "none")%string with true. cbv iota.
      eexists. split; [ reflexivity | ]. cbn [p_words p_types p_fills]. split; [ reflexivity | ]. split; reflexivity.
  - destruct TY as [ TY | [ TL TNO ] ]; [ discriminate | ]. rewrite <- CT in *.
    rewrite <- app_assoc. rewrite type_hit, type_removed; [ | try assumption .. ].
    2:{ intro I. apply TN. apply in_or_app. right. exact I. }
    2:{ apply ST. reflexivity. }
    2:{ apply ST. reflexivity. }
    cbv beta iota zeta. rewrite CL, FS, WN.
    assert (KT : String.eqb (key (group 1 [(1, c_type c)])) "none" = false).
    { apply String.eqb_neq. intro E. apply TNO. unfold key, group in E. cbn [find Nat.eqb fst snd] in E.
      apply (f_equal list_ascii_of_string) in E. rewrite list_ascii_of_string_of_list_ascii in E. exact E. }
    destruct NF as [ NF | NF ]; [ | congruence ].
    destruct (c_fill c) as [ v | ] eqn:CF.
    + rewrite FR by discriminate. cbn [obind].
      match goal with |- context [String.eqb ?k "none"] => replace (String.eqb k "none") with false by (symmetry; exact KT) end.
      eexists. split; [ reflexivity | ]. cbn [p_words p_types p_fills]. split; [ reflexivity | ].
      split; [ unfold group; cbn [find Nat.eqb fst snd]; rewrite CT; reflexivity | ].
      intro k. rewrite sfind_sput, NK, NF by discriminate. apply sfind_sput.
    + rewrite FN by reflexivity. cbn [obind].
      match goal with |- context [String.eqb ?k "none"] => replace (String.eqb k "none") with false by (symmetry; exact KT) end.
      eexists. split; [ reflexivity | ]. cbn [p_words p_types p_fills]. split; [ reflexivity | ].
      split; [ unfold group; cbn [find Nat.eqb fst snd]; rewrite CT; reflexivity | ].
      intro k. rewrite NF. reflexivity.
Qed.

Lemma key_inj : forall a b, key a = key b -> a = b.
Proof. intros a b E. unfold key in E. apply (f_equal list_ascii_of_string) in E. rewrite !list_ascii_of_string_of_list_ascii in E. exact E. Qed.
Lemma ofold_snoc : forall {S A} (f : S -> A -> outcome S) l a s, ofold f (l ++ [a]) s = do x <- ofold f l s; f x a.
Proof.
  induction l as [ | b l IH ]; intros a s; cbn [List.app ofold]; [ cbn [obind]; destruct (f s a); reflexivity | ].
  destruct (f s b); cbn [obind]; auto.
Qed.
Lemma restricted_new : forall g cs c, Forall (good g) (cs ++ [c]) -> NoDup (map c_id (cs ++ [c])) ->
  forall c', In c' cs -> restricted g (c_id c ++ fill_text c) <> c_id c'.
Proof.
  intros g cs c F N c' I E. apply Forall_app in F. destruct F as [ F FC ]. rewrite Forall_forall in F. pose proof (F _ I) as ((_ & V) & _ & _ & U).
  inversion FC as [ | ? ? (_ & _ & FV & _) _ ]. subst. unfold restricted, fill_text in *. destruct (c_fill c) as [ v | ] eqn:CF.
  - apply V. rewrite <- E. destruct g; rewrite <- ?app_assoc; apply in_or_app; right; cbn; tauto.
  - rewrite app_nil_r in E. destruct g as [ t | ].
    + destruct (U t eq_refl) as (_ & _ & U2). rewrite <- E in U2. specialize (U2 (c_id c ++ [":"%char]) (fill_text c' ++ ":"%char :: t)).
      rewrite <- !app_assoc in U2. cbn [List.app] in U2. specialize (U2 eq_refl). destruct (fill_text c'); discriminate.
    + rewrite map_app in N. cbn [map] in N. apply NoDup_remove_2 in N. rewrite app_nil_r in N. apply N. rewrite E. apply in_map. exact I.
Qed.

(** a configuration: every parameter has its words, type and fill value under its own id, whatever the restrictions for all
    parameters, which count for the words only *)
Theorem C120_config : forall g cs, Forall (good g) cs -> NoDup (map c_id cs) ->
  (forall c, In c cs -> exists w, diana_words (restricted g (c_id c)) = Ok w) ->
  exists p, of_config D readD g cs = Ok p /\
    (forall c, In c cs ->
       Ok (get_words D p (key (c_id c))) = diana_words (restricted g (c_id c)) /\
       get_type D p (key (c_id c)) = (match c_type c with [] => "short"%string | t => key t end) /\
       get_fill D anyD p (key (c_id c)) = (match c_fill c with Some v => readD v | None => anyD end)) /\
    (forall n, In n (skeys (p_words p)) <-> exists c, In c cs /\ n = key (c_id c)).
Proof.
  intros g cs. unfold of_config, make_params. change (match g with Some g0 => g0 | None => [] end) with (global g).
  assert (K : Forall (good g) cs -> NoDup (map c_id cs) -> (forall c, In c cs -> exists w, diana_words (restricted g (c_id c)) = Ok w) ->
    exists p, ofold (add_param D readD (global g)) (map (known_id g) cs) (mkP [] [] []) = Ok p /\
    (forall c, In c cs -> exists w, diana_words (restricted g (c_id c)) = Ok w /\ sfind (key (c_id c)) (p_words p) = Some w /\
       sfind (key (c_id c)) (p_types p) = (match c_type c with [] => None | t => Some (key t) end) /\
       sfind (key (c_id c)) (p_fills p) = option_map readD (c_fill c)) /\
    (forall k, (forall c, In c cs -> k <> key (c_id c)) -> sfind k (p_words p) = None /\ sfind k (p_types p) = None /\ sfind k (p_fills p) = None)).
  { induction cs as [ | c cs IH ] using rev_ind; intros F N W.
    - exists (mkP [] [] []). split; [ reflexivity | ]. split; [ intros c [] | intros k _; repeat split; reflexivity ].
    - pose proof (restricted_new g cs c F N) as RN. pose proof F as F0. apply Forall_app in F. destruct F as [ F FC ]. inversion FC as [ | ? ? GC _ ]. subst.
      rewrite map_app in N. cbn [map] in N. pose proof (NoDup_remove_1 _ _ _ N) as N1. apply NoDup_remove_2 in N. rewrite app_nil_r in N, N1.
      destruct (IH F N1) as (p & E & P1 & P2); [ intros c0 I; apply W; apply in_or_app; left; exact I | ].
      destruct (W c) as (w & Wc); [ apply in_or_app; right; left; reflexivity | ].
      assert (NI : forall c0, In c0 cs -> key (c_id c) <> key (c_id c0)).
      { intros c0 I H. apply key_inj in H. apply N. rewrite H. apply in_map. exact I. }
      destruct (P2 _ NI) as (Q1 & Q2 & Q3).
      destruct (good_step g c p w GC Wc) as (p' & E' & A1 & A2 & A3).
      { left. apply P2. intros c0 I H. apply key_inj in H. exact (RN c0 I H). }
      exists p'. rewrite map_app. cbn [map]. rewrite ofold_snoc, E. cbn [obind]. split; [ exact E' | ]. split.
      + intros c0 I. apply in_app_iff in I. destruct I as [ I | [ <- | [] ] ].
        * destruct (P1 _ I) as (w0 & W0 & B1 & B2 & B3). exists w0. split; [ exact W0 | ].
          assert (X : String.eqb (key (c_id c0)) (key (c_id c)) = false) by (apply String.eqb_neq; intro H; exact (NI _ I (eq_sym H))).
          rewrite A1, A2, A3. split; [ rewrite sfind_sput, X; exact B1 | ]. split.
          -- destruct (c_type c); [ exact B2 | rewrite sfind_sput, X; exact B2 ].
          -- destruct (c_fill c); [ rewrite X; exact B3 | exact B3 ].
        * exists w. split; [ exact Wc | ]. rewrite A1, A2, A3. rewrite sfind_sput, String.eqb_refl. split; [ reflexivity | ]. split.
          -- destruct (c_type c); [ exact Q2 | rewrite sfind_sput, String.eqb_refl; reflexivity ].
          -- destruct (c_fill c); [ reflexivity | exact Q3 ].
      + intros k NK. destruct (P2 k) as (R1 & R2 & R3); [ intros c0 I; apply NK; apply in_or_app; left; exact I | ].
        assert (X : String.eqb k (key (c_id c)) = false) by (apply String.eqb_neq; apply NK; apply in_or_app; right; left; reflexivity).
        rewrite A1, A2, A3. split; [ rewrite sfind_sput, X; exact R1 | ]. split.
        * destruct (c_type c); [ exact R2 | rewrite sfind_sput, X; exact R2 ].
        * destruct (c_fill c); [ rewrite X; exact R3 | exact R3 ]. }
  intros F N W. destruct (K F N W) as (p & E & P1 & P2). exists p. split; [ exact E | ]. split.
  - intros c I. destruct (P1 _ I) as (w & Wc & B1 & B2 & B3). unfold get_words, get_type, get_fill. rewrite B1, B2, B3. split; [ symmetry; exact Wc | ].
    split; [ destruct (c_type c); reflexivity | destruct (c_fill c); reflexivity ].
  - intro n. rewrite sfind_In. split.
    + intros (w & Fn). destruct (existsb (fun c => String.eqb n (key (c_id c))) cs) eqn:X.
      * apply existsb_exists in X. destruct X as (c & I & X). apply String.eqb_eq in X. exists c. auto.
      * exfalso. destruct (P2 n) as (R & _); [ | congruence ]. intros c I ->. rewrite <- Bool.not_true_iff_false in X. apply X.
        apply existsb_exists. exists c. split; [ exact I | apply String.eqb_refl ].
    + intros (c & I & ->). destruct (P1 _ I) as (w & _ & B & _). exists w. exact B.
Qed.

(** ** The name of a field *)
Definition free (w h : words) : Prop := forall i, i < 16 -> nth i w 0%Z = ANY \/ nth i w 0%Z = nth i h 0%Z.
Lemma fits_free : forall w h, fits w h = true <-> free w h.
Proof.
  intros w h. unfold fits, free. rewrite forallb_forall. split.
  - intros H i B. specialize (H i). rewrite in_seq in H. specialize (H ltac:(lia)). apply orb_true_iff in H. rewrite !Z.eqb_eq in H. exact H.
  - intros H i I. apply in_seq in I. apply orb_true_iff. rewrite !Z.eqb_eq. apply H. lia.
Qed.
Lemma params_sorted : forall g texts p, make_params D readD g texts = Ok p -> ssorted (p_words p).
Proof.
  intros g texts. unfold make_params. assert (S0 : ssorted (p_words (mkP [] [] [] : params D))) by constructor.
  revert S0. generalize (mkP [] [] [] : params D). induction texts as [ | t texts IH ]; intros p0 S0 p E; cbn [ofold] in E; [ congruence | ].
  destruct (add_param D readD g p0 t) as [ p1 | | | ] eqn:A; try discriminate. cbn [obind] in E. refine (IH p1 _ p E).
  unfold add_param in A. destruct (match search type_re t with Some _ => _ | None => _ end) as [ ty name ].
  cbv zeta in A. destruct (match search fill_re name with Some _ => _ | None => _ end) as [ clean fills ].
  destruct (diana_words name); try discriminate. cbn [obind] in A. injection A as <-.
  destruct (ty =? "none")%string; apply sput_sorted; exact S0.
Qed.
(** a field has the first name, in the order of texts, whose words agree with its header; a field without such a name is left out *)
Theorem C120_name : forall g texts p h, make_params D readD g texts = Ok p ->
  (get_name D p h <> ""%string -> exists w, sfind (get_name D p h) (p_words p) = Some w /\ free w h /\
     forall n' w', sfind n' (p_words p) = Some w' -> slt n' (get_name D p h) -> ~ free w' h) /\
  (get_name D p h = ""%string -> forall n w, n <> ""%string -> sfind n (p_words p) = Some w -> ~ free w h \/ exists w0, sfind "" (p_words p) = Some w0 /\ free w0 h).
Proof.
  intros g texts p h M. apply params_sorted in M. unfold get_name. revert M. generalize (p_words p) as m. induction m as [ | [ k w ] m IH ]; intro S.
  - split; [ intro X; exfalso; apply X; reflexivity | intros _ n w _ E; discriminate E ].
  - inversion S as [ | ? ? S1 S2 ]. subst. cbn [find snd fst]. destruct (fits w h) eqn:FW.
    + apply fits_free in FW. cbn [fst sfind]. rewrite String.eqb_refl. split.
      * intros _. exists w. split; [ reflexivity | ]. split; [ exact FW | ]. intros n' w' E L. destruct (String.eqb_spec n' k) as [ -> | NE ]; [ exfalso; exact (slt_irrefl _ L) | ].
        exfalso. rewrite Forall_forall in S2. assert (I : In n' (skeys m)) by (apply sfind_In; eauto).
        apply S2 in I. exact (slt_irrefl _ (slt_trans _ _ _ L I)).
      * intros -> n w' NE E. right. exists w. auto.
    + assert (NF : ~ free w h) by (rewrite <- fits_free; congruence). destruct (IH S1) as [ I1 I2 ]. split.
      * intro NE. destruct (I1 NE) as (w2 & E2 & F2 & U). exists w2. 
        assert (IN : In (match find (fun e : string * words => fits (snd e) h) m with Some e => fst e | None => ""%string end) (skeys m)) by (apply sfind_In; eauto).
        rewrite Forall_forall in S2. pose proof (S2 _ IN) as L. cbn [sfind]. split; [ | split; [ exact F2 | ] ].
        -- destruct (String.eqb_spec (match find (fun e : string * words => fits (snd e) h) m with Some e => fst e | None => ""%string end) k) as [ Q | Q ]; [ | exact E2 ].
           exfalso. rewrite Q in L. exact (slt_irrefl _ L).
        -- intros n' w' E L'. destruct (String.eqb_spec n' k) as [ -> | Q ]; [ | exact (U _ _ E L') ]. injection E as <-. exact NF.
      * intros G n w' NE E. cbn [sfind] in E. destruct (String.eqb_spec n k) as [ -> | Q ]; [ left; injection E as <-; exact NF | ].
        destruct (I2 G n w' NE E) as [ A | (w0 & A & B) ]; [ left; exact A | right ]. exists w0. split; [ | exact B ]. cbn [sfind].
        destruct (String.eqb_spec "" k) as [ Q2 | Q2 ]; [ | exact A ]. subst k. exfalso.
        rewrite Forall_forall in S2. assert (I : In ""%string (skeys m)) by (apply sfind_In; eauto). exact (slt_irrefl _ (S2 _ I)).
Qed.
(** Finding: a parameter which is more precise than one whose id is a prefix of its own never gets a field *)
Theorem C120_precise_refuted : forall g texts p id c rest w w2 h, make_params D readD g texts = Ok p -> id <> ""%string ->
  sfind id (p_words p) = Some w -> sfind (id ++ String c rest)%string (p_words p) = Some w2 ->
  (forall i, i < 16 -> nth i w 0%Z = ANY \/ nth i w 0%Z = nth i w2 0%Z) ->
  (forall i, i < 16 -> nth i w2 0%Z = ANY -> nth i w 0%Z = ANY) ->
  get_name D p h <> (id ++ String c rest)%string.
Proof.
  intros g texts p id c rest w w2 h M NE E E2 A B G. destruct (C120_name g texts p h M) as [ H _ ].
  rewrite G in H. destruct H as (w' & E' & F & U); [ destruct id; discriminate | ]. rewrite E2 in E'. injection E' as <-.
  apply (U id w E).
  - unfold slt. clear. induction id as [ | x id IH ]; [ reflexivity | ]. cbn [String.append String.compare].
    assert (X : Ascii.compare x x = Eq) by (unfold Ascii.compare; apply N.compare_refl). rewrite X. exact IH.
  - intros i I. destruct (A i I) as [ Q | Q ]; [ left; exact Q | ]. destruct (F i I) as [ R | R ]; [ left; apply B; assumption | right; congruence ].
Qed.
(** every array of the file has the fields of its name in the order of the file *)
Theorem C120_fields : forall F (p : params D) (header : F -> words) fs n, n <> ""%string ->
  sfind n (by_name D p header fs) = match filter (fun f => String.eqb (get_name D p (header f)) n) fs with [] => None | l => Some l end.
Proof.
  intros F p header fs n NE. unfold by_name. induction fs as [ | f fs IH ] using rev_ind; [ reflexivity | ].
  rewrite fold_left_app, filter_app. cbn [fold_left filter]. unfold add_field at 1. cbv zeta. destruct (String.eqb_spec (get_name D p (header f)) "") as [ E | E ].
  - rewrite E. destruct (String.eqb_spec "" n) as [ Q | Q ]; [ congruence | ]. rewrite app_nil_r. exact IH.
  - rewrite sfind_sput. destruct (String.eqb_spec n (get_name D p (header f))) as [ Q | Q ].
    + rewrite <- Q, String.eqb_refl. unfold by_name in IH. rewrite IH. destruct (filter _ fs); reflexivity.
    + destruct (String.eqb_spec (get_name D p (header f)) n) as [ Q2 | Q2 ]; [ congruence | ]. rewrite app_nil_r. exact IH.
Qed.
(** values are read as short, float or double *)
Theorem C120_read_type : forall (p : params D) n, read_type D p n = Ok (get_type D p n) <-> In (get_type D p n) ["short"; "float"; "double"]%string.
Proof.
  intros p n. unfold read_type. cbn [In].
  destruct (String.eqb_spec (get_type D p n) "short"); [ split; [ intros _; left; congruence | reflexivity ] | ].
  destruct (String.eqb_spec (get_type D p n) "float"); [ split; [ intros _; right; left; congruence | reflexivity ] | ].
  destruct (String.eqb_spec (get_type D p n) "double"); [ split; [ intros _; right; right; left; congruence | reflexivity ] | ].
  cbn [orb]. split; [ discriminate | intros [ H | [ H | [ H | [] ] ] ]; congruence ].
Qed.
(** a further parameter changes no fill value which is already there to none; words of unknown names are any *)
Theorem C120_kept : forall g p text p', add_param D readD g p text = Ok p' ->
  (forall n v, sfind n (p_fills p) = Some v -> exists v', sfind n (p_fills p') = Some v') /\
  (forall n w, sfind n (p_words p) = Some w -> exists w', sfind n (p_words p') = Some w') /\
  (forall n, sfind n (p_words p) = None -> get_words D p n = any_words).
Proof.
  assert (forall A k (v : A) m n x, sfind n m = Some x -> exists x', sfind n (sput k v m) = Some x') as P.
  { intros A k v m n x H. rewrite sfind_sput. destruct (String.eqb n k) eqn:E; [eauto|]. destruct (String.eqb k n); eauto. }
  intros g p text p' H. unfold add_param in H.
  destruct (match search type_re text with Some (_, c, _) => (key (group 1 c), remove type_re text) | None => ("none"%string, text) end) as (type, name).
  set (clean0 := match g with [] => name | _ => remove (global_re g) name end) in H.
  destruct (match search fill_re name with
            | Some (_, c, _) => let clean' := remove fill_re clean0 in (clean', sput (key clean') (readD (group 1 c)) (p_fills p))
            | None => (clean0, p_fills p) end) as (clean, fills) eqn:F.
  assert (forall n v, sfind n (p_fills p) = Some v -> exists v', sfind n fills = Some v') as A.
  { intros n v X. destruct (search fill_re name) as [((c1, c2), c3)|]; injection F as <- <-; [eapply P; eassumption|eauto]. }
  destruct (diana_words name) as [w| | |]; try discriminate H. cbn [obind] in H. split; [|split].
  - intros n v X. destruct (A n v X) as (v' & X'). destruct (type =? "none")%string; injection H as <-; cbn [p_fills]; [eauto|].
    destruct (sfind (key name) fills); [eapply P; eassumption|eauto].
  - intros n v X. destruct (type =? "none")%string; injection H as <-; cbn [p_words]; eapply P; eassumption.
  - intros n X. unfold get_words. rewrite X. reflexivity.
Qed.
End Config.

(** ** Deltas of the grid *)
Theorem C120_deltas : forall number o l, deltas number o = Ok l ->
  length l = 6 /\
  forall s toks, o = Some s -> tokenize s (s_ " ") = Ok toks -> forall i, i < 6 ->
    match nth_error toks i with Some t => exists q, number t = Ok q /\ nth i l 0%Q = q | None => nth i l 0%Q = 0%Q end.
Proof.
  assert (OM : forall (number : str -> outcome Q) ts r, omapM number ts = Ok r -> length r = length ts /\
    forall i, match nth_error ts i with Some t => exists q, number t = Ok q /\ nth_error r i = Some q | None => nth_error r i = None end).
  { induction ts as [ | t ts IH ]; intros r E; cbn [omapM] in E.
    - injection E as <-. split; [ reflexivity | ]. intros [ | i ]; reflexivity.
    - destruct (number t) as [ q | | | ] eqn:N; try discriminate. cbn [obind] in E. destruct (omapM number ts) as [ r2 | | | ] eqn:M; try discriminate.
      cbn [obind] in E. injection E as <-. destruct (IH r2 eq_refl) as [ L H ]. split; [ cbn [length]; rewrite L; reflexivity | ].
      intros [ | i ]; cbn [nth_error]; [ exists q; split; [ exact N | reflexivity ] | exact (H i) ]. }
  intros number o l E. unfold deltas in E. destruct o as [ s | ].
  2:{ injection E as <-. split; [ reflexivity | ]. discriminate. }
  destruct (tokenize s (s_ " ")) as [ toks | | | ] eqn:T; try discriminate. cbn [obind] in E.
  destruct (omapM number (firstn 6 toks)) as [ r | | | ] eqn:M; try discriminate. cbn [obind] in E.
  assert (EL : l = r ++ repeat 0%Q (6 - length r)) by congruence. clear E. subst l.
  destruct (OM _ _ _ M) as [ L H ]. rewrite firstn_length in L. split; [ rewrite app_length, repeat_length; lia | ].
  intros s' toks' ES ET i I. injection ES as <-. rewrite T in ET. injection ET as <-. specialize (H i).
  assert (NE : nth_error (firstn 6 toks) i = nth_error toks i).
  { clear -I. revert toks. generalize dependent i. generalize 6. induction n as [ | n IH ]; intros i I toks; [ lia | ].
    destruct toks as [ | t toks ]; [ reflexivity | ]. cbn [firstn]. destruct i as [ | i ]; [ reflexivity | ]. cbn [nth_error]. apply IH. lia. }
  rewrite NE in H. destruct (nth_error toks i) as [ t | ].
  - destruct H as (q & Q & R). exists q. split; [ exact Q | ]. pose proof (nth_error_Some r i) as X. rewrite R in X.
    rewrite app_nth1 by (apply X; discriminate). apply nth_error_nth. exact R.
  - apply nth_error_None in H. rewrite app_nth2 by exact H. apply nth_repeat.
Qed.

(** ** Findings *)
(** Finding: a number which is no short is another number; 32769 is any value *)
Theorem C120_wrap_refuted :
  (exists w, diana_words (s_ "17,2,40000") = Ok w /\ nth 12 w 0%Z = (-25536)%Z) /\
  (exists w, diana_words (s_ "17,2:level=32769") = Ok w /\ nth 12 w 0%Z = ANY).
Proof. split; eexists; split; reflexivity. Qed.
Definition texts_only : list conf -> option str -> outcome (params str) := fun cs g => of_config str (fun s => s) g cs.
(** Finding: an unknown type is accepted (the exception is made, but not thrown); reading the values fails later *)
Theorem C120_type_refuted :
  (do p <- texts_only [mkC (s_ "17,2,1000") (s_ "int") None] None;
   Ok (get_type str p "17,2,1000", read_type str p "17,2,1000")) = Ok ("int"%string, Throw).
Proof. reflexivity. Qed.
(** Finding: what is no small letter in a type stays in the name: the parameter has no entry under its id *)
Theorem C120_capital_refuted :
  (do p <- texts_only [mkC (s_ "17,2,1000") (s_ "Float") None] None; Ok (skeys (p_words p))) = Ok ["17,2,1000Float"%string].
Proof. reflexivity. Qed.
(** Finding: a fill value of digits is taken for a restriction, too: a large one is undefined behaviour *)
Theorem C120_fill_refuted : texts_only [mkC (s_ "17,2,1000") (s_ "float") (Some (s_ "9999999999"))] None = UB.
Proof. reflexivity. Qed.
(** Finding: restrictions for all parameters are removed from the middle of an id, too *)
Theorem C120_inner_refuted :
  (do p <- texts_only [mkC (s_ "17,2,1000:prod=74") [] None] (Some (s_ "prod=7")); Ok (skeys (p_words p))) = Ok ["17,2,10004"%string].
Proof. reflexivity. Qed.

(** ** A case *)
Definition sample : list conf :=
  [mkC (s_ "17,2,1000") (s_ "float") (Some (s_ "-32767")); mkC (s_ "31,10:grid=1") [] None].
Definition field (param vcoord level : Z) : words := [74; 1; 0; 0; 0; 0; 0; 0; 3; 0; vcoord; param; level; 0; 0; 0]%Z.
Example C120_nonvacuous :
  Forall (good (Some (s_ "prod=74"))) sample /\ NoDup (map c_id sample) /\
  (do p <- texts_only sample (Some (s_ "prod=74"));
   Ok (map (fun h => let n := get_name str p h in (n, get_type str p n, get_fill str (s_ "any") p n)) [field 17 2 1000; field 31 10 60; field 31 2 60],
       get_name str p (set_word 0 88 (field 17 2 1000))))
  = Ok ([("17,2,1000"%string, "float"%string, s_ "-32767"); ("31,10:grid=1"%string, "short"%string, s_ "any"); (""%string, "short"%string, s_ "any")], ""%string).
Proof.
  assert (P : forall (a t x y : str), ~ In "p"%char a -> a ++ ":"%char :: "p"%char :: t = x ++ ("p"%char :: t) ++ y -> y = []).
  { intros a t x y N E. assert (E2 : (a ++ [":"%char]) ++ "p"%char :: t = x ++ "p"%char :: (t ++ y)) by (rewrite <- app_assoc; exact E).
    assert (M : ~ In "p"%char (a ++ [":"%char])) by (intro I; apply in_app_iff in I; destruct I as [ I | [ I | [] ] ]; [ exact (N I) | discriminate ]).
    assert (L := first_char _ _ _ _ _ M E2). assert (E3 := f_equal (@length ascii) E2). rewrite (app_length (a ++ [":"%char])), (app_length x) in E3.
    cbn [length] in E3. rewrite (app_length t y) in E3. destruct y as [ | z y ]; [ reflexivity | exfalso ]. cbn [length] in E3.
    match type of E3 with ?u + _ = ?v + _ => change (u <= v) in L end. lia. }
  split; [ | split; [ | reflexivity ] ].
  - assert (F : forall c, In c sample -> good (Some (s_ "prod=74")) c); [ | apply Forall_forall; exact F ].
    intros c [ <- | [ <- | [] ] ].
    + split; [ split; clear; intro I; cbn in I; intuition discriminate | ].
      split; [ right; split; [ repeat constructor | discriminate ] | ].
      split; [ intros v [=]; subst v; split; [ discriminate | ]; split; [ clear; intro I; cbn in I; intuition discriminate | ]; split; [ split; clear; intro I; cbn in I; intuition discriminate | cbn; lia ] | ].
      intros t [=]. subst t. split; [ discriminate | ]. split; [ split; clear; intro I; cbn in I; intuition discriminate | ].
      intros x y E. rewrite app_assoc in E. refine (P _ (s_ "rod=74") x y _ E). clear. intro I. cbn in I. intuition discriminate.
    + split; [ split; clear; intro I; cbn in I; intuition discriminate | ]. split; [ left; reflexivity | ]. split; [ discriminate | ].
      intros t [=]. subst t. split; [ discriminate | ]. split; [ split; clear; intro I; cbn in I; intuition discriminate | ].
      intros x y E. rewrite app_assoc in E. refine (P _ (s_ "rod=74") x y _ E). clear. intro I. cbn in I. intuition discriminate.
  - repeat constructor; intro I; cbn [map In] in I; intuition discriminate.
Qed.

(** numbers with a sign, blanks in front and other text behind; numbers which are no int; names of restrictions *)
Example C120_numbers :
  atoi (s_ "-12") = Ok (-12)%Z /\ atoi (s_ "+12") = Ok 12%Z /\ atoi (s_ "  7x") = Ok 7%Z /\ atoi (s_ "") = Ok 0%Z /\
  atoi (s_ "2147483648") = UB /\ atoi (s_ "-2147483648") = Ok (- 2 ^ 31)%Z /\
  set_restriction (s_ "my_level=3") any_words = Ok any_words /\
  option_map (group 1) (full_match equal_re (s_ " my_level=3 ")) = Some (s_ "my_level").
Proof. repeat split. Qed.

Print Assumptions C120_restriction.
Print Assumptions C120_words.
Print Assumptions C120_config.
Print Assumptions C120_name.
Print Assumptions C120_precise_refuted.
Print Assumptions C120_fields.
Print Assumptions C120_read_type.
Print Assumptions C120_deltas.
Print Assumptions C120_wrap_refuted.
Print Assumptions C120_type_refuted.
Print Assumptions C120_capital_refuted.
Print Assumptions C120_fill_refuted.
Print Assumptions C120_inner_refuted.
Print Assumptions C120_nonvacuous.
Print Assumptions C120_kept.
