(** C18 tokenising and joining, C19 trimming, prefixes and replacement, C20 dotted lists,
    C21 string tables, C22 XML escaping. *)
From Coq Require Import NArith ZArith QArith Qround Ascii String List Bool Arith Permutation Lia Lqa.
From Coq Require Import ZifyBool ZifyNat ZifyN.
From Verif Require Import Base StdMap SearchModel SearchProofs StringModel StringProofs.
Import ListNotations.
Local Open Scope nat_scope.

(** ** C18.  [runs d s ts] and [fields d s fs] (StringProofs.v) describe the maximal runs of
    non-delimiters of s and the pieces between single delimiters, as inductive relations. *)

Theorem C18_tokenize_maximal_runs : forall s delims ts,
  tokenize s delims = Ok ts <-> runs delims s ts.
Proof.
  intros s delims ts. destruct (tokenize_runs s delims) as (ts' & E & R). split.
  - intro H. rewrite E in H. injection H as <-. exact R.
  - intro H. rewrite E. f_equal. eapply runs_unique; eassumption.
Qed.

Theorem C18_tokenize_total : forall s delims, exists ts, tokenize s delims = Ok ts /\
  Forall (fun t => t <> [] /\ forall c, In c t -> ~ In c delims) ts.
Proof.
  intros s delims. destruct (tokenize_runs s delims) as (ts & E & R). exists ts. split; [ exact E | ].
  clear E. induction R; constructor; auto; split; auto;
    match goal with H : Forall (notd _) _ |- _ => rewrite Forall_forall in H; exact H end.
Qed.

Theorem C18_split_fields : forall s delims fs, split_any s delims = Ok fs <-> fields delims s fs.
Proof.
  intros s delims fs. destruct (split_any_fields s delims) as (fs' & E & R). split.
  - intro H. rewrite E in H. injection H as <-. exact R.
  - intro H. rewrite E. f_equal. eapply fields_unique; eassumption.
Qed.

(** one field more than delimiters; empty fields are kept *)
Theorem C18_split_count : forall s delims, exists fs, split_any s delims = Ok fs /\
  length fs = S (length (filter (fun c => if in_dec ascii_dec c delims then true else false) s)).
Proof.
  intros s delims. destruct (split_any_fields s delims) as (fs & E & F). exists fs. split; [ exact E | ].
  rewrite (fields_count _ _ _ F). do 2 f_equal. apply filter_ext. intro c.
  destruct (in_dec ascii_dec c delims) as [ I | I ]; [ now apply mem_In | now apply mem_false ].
Qed.

Theorem C18_join_split : forall c s fs, split_any s [c] = Ok fs -> join fs [c] = s.
Proof. intros c s fs H. apply C18_split_fields in H. now apply fields_join. Qed.

Theorem C18_split_join : forall c fs, fs <> [] -> Forall (fun f => ~ In c f) fs ->
  split_any (join fs [c]) [c] = Ok fs.
Proof.
  intros c fs E N. apply C18_split_fields, join_fields; [ exact E | ].
  eapply Forall_impl; [ | exact N ]. intros f H. apply Forall_forall. intros x I [ <- | [] ]. contradiction.
Qed.

Theorem C18_tokenize_join : forall delims delim ts, delim <> [] -> (forall c, In c delim -> In c delims) ->
  Forall (fun t => t <> [] /\ forall c, In c t -> ~ In c delims) ts ->
  tokenize (join ts delim) delims = Ok ts.
Proof.
  intros delims delim ts D0 D H. apply C18_tokenize_maximal_runs, join_runs; [ exact D0 | | ].
  - apply Forall_forall. exact D.
  - eapply Forall_impl; [ | exact H ]. intros t [T N]. split; [ exact T | ]. apply Forall_forall. exact N.
Qed.

(** tokenize is split_any without the empty fields *)
Theorem C18_tokenize_is_split_nonempty : forall s delims fs, split_any s delims = Ok fs ->
  tokenize s delims = Ok (filter (fun f => match f with [] => false | _ => true end) fs).
Proof.
  intros s delims fs H. apply C18_split_fields in H. apply C18_tokenize_maximal_runs.
  now apply fields_runs.
Qed.

Example C18_nonvacuous :
  tokenize (s_ ",a b,,cd;") (s_ ",;") = Ok [s_ "a b"; s_ "cd"] /\
  split_any (s_ ",a,,cd") (s_ ",") = Ok [s_ ""; s_ "a"; s_ ""; s_ "cd"] /\
  join [s_ "a"; s_ "b"; s_ "c"] (s_ ", ") = s_ "a, b, c".
Proof. repeat split; reflexivity. Qed.

(** ** C19.  [trimmed ws s r] (StringProofs.v): s = a ++ r ++ b, a and b consist of characters of
    ws, and r neither starts nor ends with one. *)

Theorem C19_trim : forall s ws r, trim s ws = Ok r <-> trimmed ws s r.
Proof.
  intros s ws r. destruct (trim_spec s ws) as (r' & E & R). split.
  - intro H. rewrite E in H. injection H as <-. exact R.
  - intro H. rewrite E. f_equal. eapply trimmed_unique; eassumption.
Qed.

Theorem C19_trim_total_idempotent : forall s ws, exists r, trim s ws = Ok r /\ trim r ws = Ok r.
Proof.
  intros s ws. destruct (trim_spec s ws) as (r & E & R). exists r. split; [ exact E | ].
  apply C19_trim. destruct R as (a & b & -> & A & B & H & T). exists [], [].
  rewrite app_nil_r. repeat split; auto.
Qed.

Theorem C19_starts_with : forall txt p, exists b, starts_with txt p = Ok b /\
  (b = true <-> exists r, txt = p ++ r).
Proof. exact starts_with_spec. Qed.

Theorem C19_ends_with : forall txt e,
  (Z.of_nat (length txt) < 2 ^ 31)%Z -> (Z.of_nat (length e) < 2 ^ 31)%Z ->
  exists b, ends_with txt e = Ok b /\ (b = true <-> exists r, txt = r ++ e).
Proof. exact ends_with_spec. Qed.

(** the offset is computed from sizes converted to int: with more than 2^31 characters the call
    throws although the text does end that way *)
Theorem C19_ends_with_huge_refuted : forall txt c, Z.of_nat (length txt) = (2 ^ 31)%Z ->
  ends_with (txt ++ [c]) [c] = Throw.
Proof.
  intros txt c L. unfold ends_with. rewrite app_length. cbn [length].
  assert (E1 : size2int (length txt + 1) = (- 2 ^ 31 + 1)%Z).
  { unfold size2int. replace (Z.of_nat (length txt + 1)) with (2 ^ 31 + 1)%Z by lia. reflexivity. }
  rewrite E1. change (size2int 1) with 1%Z. cbv zeta.
  match goal with |- (if ?b then _ else _) = _ => replace b with false by reflexivity end.
  unfold starts_or_ends_with.
  replace (length (txt ++ [c]) <? length [c]) with false; [ reflexivity | ].
  symmetry. apply Nat.ltb_ge. rewrite app_length. lia.
Qed.

Theorem C19_replace_all : forall s a b,
  length (replace_all_copy s a b) = length s /\
  forall i c, nth_error s i = Some c ->
    nth_error (replace_all_copy s a b) i = Some (if ascii_dec c a then b else c).
Proof.
  intros s a b. unfold replace_all_copy. split; [ apply map_length | ].
  intros i c H. rewrite nth_error_map, H. cbn. f_equal.
  destruct (ascii_dec c a) as [ -> | N ]; [ now rewrite Ascii.eqb_refl | ].
  replace (Ascii.eqb c a) with false; [ reflexivity | ]. symmetry. now apply Ascii.eqb_neq.
Qed.

Example C19_nonvacuous :
  trim (s_ "  a b ") blanks = Ok (s_ "a b") /\ trim (s_ "   ") blanks = Ok [] /\
  ends_with (s_ "file.nc") (s_ ".nc") = Ok true /\ starts_with (s_ "fil") (s_ "file") = Ok false /\
  replace_all_copy (s_ "a:b:c") ":"%char "_"%char = s_ "a_b_c".
Proof. repeat split; reflexivity. Qed.

(** ** C20 *)

(** without dots the values come back one by one *)
Theorem C20_plain_list : forall fuel vs, tokenize_dotted fuel (map Num vs) = Ok vs.
Proof.
  intros fuel vs. unfold tokenize_dotted. rewrite <- (app_nil_r (map Num vs)), dotted_nums. reflexivity.
Qed.

(** [t] is after [s] in the direction of step [d] by more than the fraction 1e-5 of the step *)
Definition clearly_before (d s t : Q) : Prop :=
  ((0 < d /\ s < t - d * (1 # 100000)) \/ (d < 0 /\ t - d * (1 # 100000) < s))%Q.

(** Dots between a, b and z.  Any list of values [vs] may come before and any tokens after.  The
    dots are replaced by b + d, ..., b + k*d with d = b - a: all values of the progression that are
    clearly before z, and z follows. *)
Theorem C20_dots_expand : forall vs a b z rest, ~ (a == b)%Q ->
  let d := (b - a)%Q in
  exists fuel0 k prog, length prog = k /\
    (forall j v, nth_error prog j = Some v -> (v == b + inject_Z (Z.of_nat (j + 1)) * d)%Q /\ clearly_before d v z) /\
    ~ clearly_before d (b + inject_Z (Z.of_nat (k + 1)) * d) z /\
    forall fuel, fuel0 <= fuel ->
      tokenize_dotted fuel (map Num (vs ++ [a; b]) ++ Dots :: Num z :: rest) =
      dotted fuel rest (vs ++ [a; b] ++ prog ++ [z]).
Proof.
  intros vs a b z rest N d. subst d.
  set (d := (b - a)%Q). set (dir := if qltb 0 d then 1%Q else (-1)%Q).
  set (rE := (dir * d * (-1 # 100000))%Q).
  assert (Nd : ~ (d == 0)%Q) by (subst d; intro E; apply N; lra).
  assert (D : (0 < d * dir)%Q /\ ((dir == 1 /\ 0 < d) \/ (dir == -1 /\ d < 0))%Q).
  { subst dir. destruct (qltb 0 d) eqn:E.
    - apply qltb_spec in E. split; [ lra | left; split; [ reflexivity | exact E ]].
    - apply qltb_false in E. assert (d < 0)%Q by (destruct (Qle_lt_or_eq _ _ E); [ assumption | contradiction ]).
      split; [ lra | right; split; [ reflexivity | assumption ]]. }
  destruct D as [D Dd].
  assert (CB : forall v, clearly_before d v z <-> ((v - z) * dir < rE)%Q).
  { intro v. unfold clearly_before. subst rE. destruct Dd as [ [E P] | [E P] ]; rewrite E.
    - split; [ intros [ [_ H] | [H _] ]; lra | intro H; left; split; lra ].
    - split; [ intros [ [H _] | [_ H] ]; lra | intro H; right; split; lra ]. }
  destruct (archimedes (rE - (b + d - z) * dir)%Q (d * dir)%Q D) as (m & M).
  destruct (dot_loop_spec d z dir rE D m (b + d)%Q) as (k & prog & R & L & V & T); [ lra | ].
  exists m, k, prog. split; [ exact L | ]. split; [ | split ].
  - intros j v E. destruct (V j v E) as [V1 V2]. split; [ | now apply CB ].
    rewrite V1. replace (Z.of_nat (j + 1)) with (Z.of_nat j + 1)%Z by lia. rewrite inject_Z_plus.
    change (inject_Z 1) with 1%Q. lra.
  - rewrite CB. replace (Z.of_nat (k + 1)) with (Z.of_nat k + 1)%Z by lia. rewrite inject_Z_plus.
    change (inject_Z 1) with 1%Q. lra.
  - intros fuel F. unfold tokenize_dotted. rewrite dotted_nums. cbn [app dotted].
    rewrite rev_app_distr. cbn [rev app]. fold d. fold dir. fold rE.
    rewrite R by exact F. cbn [obind]. now rewrite <- !app_assoc.
Qed.

(** dots need two values before them, and a number after them *)
Theorem C20_dots_need_two_values : forall fuel vs rest, length vs < 2 ->
  tokenize_dotted fuel (map Num vs ++ Dots :: rest) = Throw.
Proof.
  intros fuel vs rest H. unfold tokenize_dotted. rewrite dotted_nums.
  destruct vs as [ | a [ | b vs ] ]; cbn in H; [ reflexivity | reflexivity | lia ].
Qed.

Theorem C20_bad_token_throws : forall fuel vs rest,
  tokenize_dotted fuel (map Num vs ++ Bad :: rest) = Throw.
Proof. intros. unfold tokenize_dotted. rewrite dotted_nums. reflexivity. Qed.

(** a list ending in dots: the iterator is incremented past the end *)
Theorem C20_trailing_dots_refuted : forall fuel vs a b,
  tokenize_dotted fuel (map Num (vs ++ [a; b]) ++ [Dots]) = UB.
Proof.
  intros. unfold tokenize_dotted. rewrite dotted_nums. cbn [app dotted].
  rewrite rev_app_distr. reflexivity.
Qed.

(** equal values before the dots and a smaller one after them: the loop never ends *)
Theorem C20_equal_values_refuted : forall fuel a z, (z < a)%Q ->
  tokenize_dotted fuel [Num a; Num a; Dots; Num z] = Hang.
Proof.
  intros fuel a z H. unfold tokenize_dotted. cbn [dotted app rev].
  assert (E0 : qltb 0 (a - a) = false) by (apply qltb_false; lra).
  rewrite E0.
  assert (L : forall f cur acc, (cur == a)%Q ->
     dot_loop f cur (a - a) z (-1) (-1 * (a - a) * (-1 # 100000)) acc = Hang).
  { clear E0. induction f as [ | f IH ]; intros cur acc C; cbn [dot_loop];
      (destruct (qltb _ _) eqn:E; [ | apply qltb_false in E; exfalso; lra ]); [ reflexivity | ].
    apply IH. lra. }
  rewrite L; [ reflexivity | lra ].
Qed.

(** a value after the dots on the wrong side is appended without expansion *)
Theorem C20_wrong_direction_refuted : forall fuel a b z, (a < b)%Q -> (z <= b)%Q ->
  tokenize_dotted fuel [Num a; Num b; Dots; Num z] = Ok [a; b; z].
Proof.
  intros fuel a b z H Z. unfold tokenize_dotted. cbn [dotted app rev].
  assert (E0 : qltb 0 (b - a) = true) by (apply qltb_spec; lra).
  rewrite E0.
  assert (E1 : qltb ((b + (b - a) - z) * 1) (1 * (b - a) * (-1 # 100000)) = false)
    by (apply qltb_false; lra).
  destruct fuel; cbn [dot_loop]; rewrite E1; reflexivity.
Qed.

Example C20_nonvacuous :
  exists l, tokenize_dotted 10 [Num (7#2); Num (9#2); Dots; Num (15#2); Num 100] = Ok l /\
    Forall2 Qeq l [7#2; 9#2; 11#2; 13#2; 15#2; 100]%Q.
Proof. eexists. split; [ reflexivity | ]. repeat constructor; reflexivity. Qed.

(** ** C21 *)

(** a history of additions; returns the builder and the indices handed out *)
Fixpoint add_all (b : slb) (keys : list string) : slb * list nat :=
  match keys with
  | [] => (b, [])
  | k :: ks => let '(b1, i) := slb_add b k in let '(b2, is) := add_all b1 ks in (b2, i :: is)
  end.

(** what the builder keeps: every registered name is where its index says *)
Definition slb_inv (b : slb) : Prop :=
  forall k i, sfind k (slb_idx b) = Some i -> nth_error (slb_strings b) i = Some k.

Lemma slb_fill_inv : forall all l pre m, all = pre ++ l ->
  (forall k i, sfind k m = Some i -> nth_error all i = Some k) ->
  forall k i, sfind k (slb_fill l (length pre) m) = Some i -> nth_error all i = Some k.
Proof.
  intros all l. induction l as [ | s l IH ]; intros pre m E H k i F; cbn [slb_fill] in F; [ now apply H | ].
  replace (S (length pre)) with (length (pre ++ [s])) in F by (rewrite app_length; cbn; lia).
  refine (IH (pre ++ [s]) _ _ _ k i F).
  - rewrite <- app_assoc. exact E.
  - intros k' i' F'. rewrite sfind_sput in F'. destruct (String.eqb k' s) eqn:K.
    + injection F' as <-. apply String.eqb_eq in K. subst. rewrite nth_error_app2, Nat.sub_diag by lia. reflexivity.
    + now apply H.
Qed.

Lemma slb_from_inv : forall l b, slb_inv (slb_from l b).
Proof.
  intros l [ | ] k i F; unfold slb_from in *; cbn [slb_idx slb_strings] in *.
  - destruct l as [ | s l ]; [ discriminate | ].
    apply (slb_fill_inv (s :: l) l [s] []); [ reflexivity | intros ? ? X; discriminate | exact F ].
  - apply (slb_fill_inv l l [] []); [ reflexivity | intros ? ? X; discriminate | exact F ].
Qed.

Lemma slb_new_inv : forall b, slb_inv (slb_new b).
Proof. intros b k i F. discriminate. Qed.

Lemma slb_add_inv : forall b k, slb_inv b -> slb_inv (fst (slb_add b k)).
Proof.
  intros b k H. unfold slb_add. destruct (sfind k (slb_idx b)) as [ i | ] eqn:E; [ exact H | ].
  intros k' i' F. cbn [fst slb_idx slb_strings] in *. rewrite sfind_sput in F.
  destruct (String.eqb k' k) eqn:K.
  - injection F as <-. apply String.eqb_eq in K. subst. rewrite nth_error_app2, Nat.sub_diag by lia. reflexivity.
  - apply H in F. rewrite nth_error_app1; [ exact F | ]. apply nth_error_Some. congruence.
Qed.

(** builders a client can have *)
Inductive built : slb -> Prop :=
| built_new : forall b, built (slb_new b)
| built_from : forall l b, built (slb_from l b)
| built_add : forall b k, built b -> built (fst (slb_add b k)).

Lemma built_inv : forall b, built b -> slb_inv b.
Proof.
  intros b H. induction H; [ apply slb_new_inv | apply slb_from_inv | now apply slb_add_inv ].
Qed.

Lemma add_all_built : forall ks b, built b -> built (fst (add_all b ks)).
Proof.
  induction ks as [ | k ks IH ]; intros b H; cbn [add_all]; [ exact H | ].
  pose proof (built_add b k H) as B1. destruct (slb_add b k) as [b1 i]. cbn [fst] in B1.
  specialize (IH b1 B1). destruct (add_all b1 ks). exact IH.
Qed.

Lemma slb_add_prefix : forall b k, exists more, slb_strings (fst (slb_add b k)) = slb_strings b ++ more.
Proof.
  intros b k. unfold slb_add. destruct (sfind k (slb_idx b)); cbn [fst slb_strings].
  - exists []. now rewrite app_nil_r.
  - now exists [k].
Qed.

Lemma add_all_prefix : forall ks b, exists more, slb_strings (fst (add_all b ks)) = slb_strings b ++ more.
Proof.
  induction ks as [ | k ks IH ]; intro b; cbn [add_all].
  - exists []. now rewrite app_nil_r.
  - destruct (slb_add_prefix b k) as (m & M). destruct (slb_add b k) as [b1 i]. cbn [fst] in M.
    destruct (IH b1) as (m2 & M2). destruct (add_all b1 ks) as [b2 is]. cbn [fst] in *.
    exists (m ++ m2). now rewrite M2, M, <- app_assoc.
Qed.

Lemma slb_add_kept : forall b k k' i, sfind k (slb_idx b) = Some i -> sfind k (slb_idx (fst (slb_add b k'))) = Some i.
Proof.
  intros b k k' i H. unfold slb_add. destruct (sfind k' (slb_idx b)) eqn:E; [ exact H | ].
  cbn [fst slb_idx]. rewrite sfind_sput. destruct (String.eqb_spec k k') as [ -> | ]; congruence.
Qed.

Lemma add_all_kept : forall ks b k i, sfind k (slb_idx b) = Some i -> sfind k (slb_idx (fst (add_all b ks))) = Some i.
Proof.
  induction ks as [ | k' ks IH ]; intros b k i H; cbn [add_all]; [ exact H | ].
  pose proof (slb_add_kept b k k' i H) as K. destruct (slb_add b k') as [b1 j]. cbn [fst] in K.
  specialize (IH b1 k i K). destruct (add_all b1 ks). exact IH.
Qed.

Lemma slb_add_registers : forall b k, sfind k (slb_idx (fst (slb_add b k))) = Some (snd (slb_add b k)).
Proof.
  intros b k. unfold slb_add. destruct (sfind k (slb_idx b)) eqn:E; cbn [fst snd slb_idx]; [ exact E | ].
  rewrite sfind_sput, String.eqb_refl. reflexivity.
Qed.

(** the index handed out for a name refers to that name, then and after any later additions *)
Theorem C21_index_refers_to_name : forall b k later, built b ->
  let '(b1, i) := slb_add b k in
  nth_error (slb_strings b1) i = Some k /\
  nth_error (slb_strings (fst (add_all b1 later))) i = Some k.
Proof.
  intros b k later H.
  pose proof (slb_add_registers b k) as R. pose proof (built_add b k H) as B.
  destruct (slb_add b k) as [b1 i]. cbn [fst snd] in *. split.
  - now apply (built_inv b1 B).
  - apply (built_inv _ (add_all_built later b1 B)). now apply add_all_kept.
Qed.

(** adding the same name again, whatever happened in between, returns the same index and
    changes nothing; a different name gets a different index *)
Theorem C21_same_name_same_index : forall b k between, built b ->
  let '(b1, i) := slb_add b k in
  let b2 := fst (add_all b1 between) in
  slb_add b2 k = (b2, i) /\
  forall k', k' <> k -> snd (slb_add b2 k') <> i.
Proof.
  intros b k between H.
  pose proof (slb_add_registers b k) as R. pose proof (built_add b k H) as B.
  destruct (slb_add b k) as [b1 i]. cbn [fst snd] in *. cbv zeta.
  set (b2 := fst (add_all b1 between)).
  assert (R2 : sfind k (slb_idx b2) = Some i) by now apply add_all_kept.
  assert (B2 : built b2) by now apply add_all_built.
  split.
  - unfold slb_add. now rewrite R2.
  - intros k' N E.
    pose proof (slb_add_registers b2 k') as R'. rewrite E in R'.
    apply (built_inv _ (built_add b2 k' B2)) in R'.
    pose proof (slb_add_kept b2 k k' i R2) as K. apply (built_inv _ (built_add b2 k' B2)) in K. congruence.
Qed.

(** names already in the list never move *)
Theorem C21_list_only_grows : forall b keys, exists more,
  slb_strings (fst (add_all b keys)) = slb_strings b ++ more.
Proof. intros b keys. apply add_all_prefix. Qed.

(** every name of the initial list is found there (at its last position) *)
Theorem C21_initial_names_found : forall l k, In k l ->
  exists i, slb_add (slb_from l false) k = (slb_from l false, i) /\ nth_error l i = Some k /\
    forall j, nth_error l j = Some k -> j <= i.
Proof.
  intros l k I.
  assert (F : forall l i m, (In k l -> exists j, sfind k (slb_fill l i m) = Some (i + j) /\ nth_error l j = Some k /\
                forall j', nth_error l j' = Some k -> j' <= j) /\
              (~ In k l -> sfind k (slb_fill l i m) = sfind k m)).
  { clear. induction l as [ | s l IH ]; intros i m; split; intro H; cbn [slb_fill].
    - destruct H.
    - reflexivity.
    - destruct (in_dec string_dec k l) as [ Y | N ].
      + destruct (proj1 (IH (S i) (sput s i m)) Y) as (j & E & Nj & Mx).
        exists (S j). split; [ rewrite E; f_equal; lia | ]. split; [ exact Nj | ].
        intros [ | j' ] Ej; [ lia | ]. cbn in Ej. apply Mx in Ej. lia.
      + rewrite (proj2 (IH (S i) (sput s i m)) N). rewrite sfind_sput.
        destruct H as [ -> | H ]; [ | contradiction ]. rewrite String.eqb_refl.
        exists 0. split; [ f_equal; lia | ]. split; [ reflexivity | ].
        intros [ | j' ] Ej; [ lia | ]. cbn in Ej. apply nth_error_In in Ej. contradiction.
    - rewrite (proj2 (IH (S i) (sput s i m))); [ | intro; apply H; now right ].
      rewrite sfind_sput. destruct (String.eqb_spec k s) as [ -> | ]; [ exfalso; apply H; now left | reflexivity ]. }
  destruct (proj1 (F l 0 []) I) as (j & E & N & M). cbn [Nat.add] in E.
  exists j. split; [ | split; [ exact N | exact M ]].
  unfold slb_add. cbn [slb_from slb_idx skipn]. change (slb_idx (slb_from l false)) with (slb_fill l 0 []).
  now rewrite E.
Qed.

(** no duplicates appear: starting from an empty builder or a duplicate-free list, every name is
    held once *)
Theorem C21_no_duplicates : forall l keys, NoDup l ->
  NoDup (slb_strings (fst (add_all (slb_from l false) keys))).
Proof.
  intros l keys N.
  assert (G : forall keys b, built b -> NoDup (slb_strings b) ->
     (forall k, In k (slb_strings b) -> exists i, sfind k (slb_idx b) = Some i) ->
     NoDup (slb_strings (fst (add_all b keys)))).
  { clear. induction keys as [ | k ks IH ]; intros b B N R; cbn [add_all]; [ exact N | ].
    pose proof (built_add b k B) as B1.
    assert (N1 : NoDup (slb_strings (fst (slb_add b k))) /\
                 forall k', In k' (slb_strings (fst (slb_add b k))) -> exists i, sfind k' (slb_idx (fst (slb_add b k))) = Some i).
    { unfold slb_add. destruct (sfind k (slb_idx b)) eqn:E; cbn [fst slb_strings slb_idx]; [ auto | ]. split.
      - eapply Permutation.Permutation_NoDup; [ apply Permutation.Permutation_cons_append | ].
        constructor; [ | exact N ]. intro I. destruct (R k I) as (i & Ri). congruence.
      - intros k' I. rewrite sfind_sput. destruct (String.eqb k' k) eqn:K; [ eauto | ].
        apply in_app_or in I. destruct I as [ I | [ <- | [] ] ]; [ auto | ].
        rewrite String.eqb_refl in K. discriminate. }
    destruct (slb_add b k) as [b1 i]. cbn [fst] in *.
    specialize (IH b1 B1 (proj1 N1) (proj2 N1)). destruct (add_all b1 ks). exact IH. }
  apply G; [ constructor | exact N | ].
  intros k I. cbn [slb_from slb_strings] in I.
  destruct (C21_initial_names_found l k I) as (i & E & _). exists i.
  pose proof (slb_add_registers (slb_from l false) k) as R. rewrite E in R. exact R.
Qed.

(** with the "no index 0" option the index 0 is never handed out, for a new builder and for one
    made from a non-empty list *)
Theorem C21_index_0_reserved : forall b0 keys k,
  (b0 = slb_new true \/ exists s l, b0 = slb_from (s :: l) true) ->
  snd (slb_add (fst (add_all b0 keys)) k) <> 0.
Proof.
  intros b0 keys k H.
  assert (P : slb_strings b0 <> [] /\ forall k, sfind k (slb_idx b0) <> Some 0).
  { destruct H as [ -> | (s & l & ->) ].
    - split; [ discriminate | intros ? E; discriminate ].
    - split; [ discriminate | ]. intros k' E. cbn [slb_from slb_idx skipn] in E.
      assert (G : forall l i m, (forall k, sfind k m <> Some 0) -> 0 < i -> sfind k' (slb_fill l i m) <> Some 0).
      { clear. induction l as [ | s l IH ]; intros i m M I; cbn [slb_fill]; [ apply M | ].
        apply IH; [ | lia ]. intros k E. rewrite sfind_sput in E. destruct (String.eqb k s); [ | now apply M in E ].
        injection E. lia. }
      revert E. apply G; [ intros ? E; discriminate | lia ]. }
  clear H. revert b0 P. induction keys as [ | k' ks IH ]; intros b0 [P1 P2]; cbn [add_all].
  - cbn [fst]. unfold slb_add. destruct (sfind k (slb_idx b0)) as [ i | ] eqn:E; cbn [snd fst].
    + intros ->. now apply P2 in E.
    + destruct (slb_strings b0); [ congruence | discriminate ].
  - assert (P' : slb_strings (fst (slb_add b0 k')) <> [] /\ forall k, sfind k (slb_idx (fst (slb_add b0 k'))) <> Some 0).
    { unfold slb_add. destruct (sfind k' (slb_idx b0)) eqn:E; cbn [fst slb_strings slb_idx]; [ auto | ]. split.
      - destruct (slb_strings b0); discriminate.
      - intros k2 F. rewrite sfind_sput in F. destruct (String.eqb k2 k'); [ | now apply P2 in F ].
        injection F as F. destruct (slb_strings b0); [ congruence | discriminate ]. }
    destruct (slb_add b0 k') as [b1 i]. cbn [fst] in P'. specialize (IH b1 P').
    destruct (add_all b1 ks). exact IH.
Qed.

(** made from an empty list the reserved index is handed out *)
Theorem C21_index_0_refuted : forall k, snd (slb_add (slb_from [] true) k) = 0.
Proof. reflexivity. Qed.

(** a name twice in the initial list stays there twice, and only its last position is used *)
Theorem C21_initial_duplicates_refuted : exists l k, ~ NoDup (slb_strings (slb_from l false)) /\
  nth_error l 0 = Some k /\ snd (slb_add (slb_from l false) k) = 1.
Proof.
  exists ["a"; "a"]%string, "a"%string. split; [ | split; reflexivity ].
  intro N. inversion N as [ | ? ? H ]; subst. apply H. now left.
Qed.

Example C21_nonvacuous :
  let b0 := slb_from ["x"; "y"]%string false in
  let '(b1, is) := add_all b0 ["z"; "y"; "w"; "z"]%string in
  is = [2; 1; 3; 2] /\ slb_strings b1 = ["x"; "y"; "z"; "w"]%string.
Proof. split; reflexivity. Qed.

(** ** C22 *)

(** the predefined entities of XML *)
Definition entities : list (str * ascii) :=
  [(s_ "&amp;", "&"); (s_ "&lt;", "<"); (s_ "&gt;", ">"); (s_ "&quot;", """"); (s_ "&apos;", "'")]%char.

(** characters with a meaning in XML markup *)
Definition markup (c : ascii) : Prop := In c ["&"; "<"; ">"; """"; "'"]%char.

(** [decodes t s]: an XML parser reads the text t as s; t must contain markup characters only as
    parts of entities *)
Inductive decodes : str -> str -> Prop :=
| dec_nil : decodes [] []
| dec_char : forall c t s, ~ markup c -> decodes t s -> decodes (c :: t) (c :: s)
| dec_entity : forall e c t s, In (e, c) entities -> decodes t s -> decodes (e ++ t) (c :: s).

Lemma escape_string_map : forall s, escape_xml_string s = flat_map escape_char s.
Proof.
  intro s. unfold escape_xml_string, escape_xml_to_stream.
  destruct (needs_xml_escape s) eqn:E.
  - assert (G : forall s o, fold_left (fun o c => o ++ escape_char c) s o = o ++ flat_map escape_char s).
    { clear. induction s as [ | c s IH ]; intro o; cbn [fold_left flat_map]; [ now rewrite app_nil_r | ].
      rewrite IH, <- app_assoc. reflexivity. }
    now rewrite G.
  - unfold needs_xml_escape, find_first_of in E. cbn [skipn] in E.
    pose proof (find_from_spec (fun c => mem c xml_special) s 0) as F.
    destruct (find_from (fun c => mem c xml_special) s 0); [ discriminate | ]. clear E.
    induction F as [ | c s C F IH ]; [ reflexivity | ]. cbn [flat_map]. rewrite <- IH.
    apply mem_false in C. unfold escape_char.
    repeat match goal with |- context [ Ascii.eqb c ?x ] =>
      destruct (Ascii.eqb_spec c x) as [ -> | ]; [ exfalso; apply C; cbn; tauto | ] end.
    reflexivity.
Qed.

Lemma escape_char_cases : forall c, (~ markup c /\ escape_char c = [c]) \/ In (escape_char c, c) entities.
Proof.
  intro c. unfold escape_char.
  destruct (Ascii.eqb_spec c "&") as [ -> | ]; [ right; cbn; tauto | ].
  destruct (Ascii.eqb_spec c "<") as [ -> | ]; [ right; cbn; tauto | ].
  destruct (Ascii.eqb_spec c ">") as [ -> | ]; [ right; cbn; tauto | ].
  destruct (Ascii.eqb_spec c """") as [ -> | ]; [ right; cbn; tauto | ].
  destruct (Ascii.eqb_spec c "'") as [ -> | ]; [ right; cbn; tauto | ].
  left. split; [ | reflexivity ]. unfold markup. cbn. intuition congruence.
Qed.

(** escaped text is read back as the original *)
Theorem C22_escape_decodes : forall s, decodes (escape_xml_string s) s.
Proof.
  intro s. rewrite escape_string_map. induction s as [ | c s IH ]; cbn [flat_map]; [ constructor | ].
  destruct (escape_char_cases c) as [ [M E] | I ].
  - rewrite E. now constructor.
  - now constructor.
Qed.

(** and only as the original *)
Theorem C22_decoding_unique : forall t s s', decodes t s -> decodes t s' -> s = s'.
Proof.
  intros t s s' D. revert s'. induction D as [ | c t s M D IH | e c t s I D IH ]; intros s' D'.
  - inversion D' as [ | | e' c' t' s1 I' D1 E ]; [ reflexivity | ].
    exfalso. cbn in I'. decompose [or] I'; try contradiction;
      match goal with H : (_, _) = (_, _) |- _ => injection H as <- <- end; discriminate.
  - inversion D' as [ | c' t' s1 M' D1 | e' c' t' s1 I' D1 E ]; subst.
    + f_equal. now apply IH.
    + exfalso. apply M. cbn in I'. decompose [or] I'; try contradiction;
        match goal with H : (_, _) = (_, _) |- _ => injection H as <- <- end;
        cbn in E; injection E as <- _; now left.
  - inversion D' as [ E | c' t' s1 M' D1 E | e' c' t' s1 I' D1 E ]; subst.
    + exfalso. cbn in I. decompose [or] I; try contradiction;
        match goal with H : (_, _) = (_, _) |- _ => injection H as <- <- end; discriminate.
    + exfalso. apply M'. cbn in I. decompose [or] I; try contradiction;
        match goal with H : (_, _) = (_, _) |- _ => injection H as <- <- end;
        cbn in E; injection E as -> _; now left.
    + assert (c' = c /\ t' = t) as [-> ->]; [ | f_equal; now apply IH ].
      clear - I I' E. cbn in I, I'.
      repeat match goal with H : _ \/ _ |- _ => destruct H as [ H | H ] end; try contradiction;
        repeat match goal with H : (_, _) = (_, _) |- _ => injection H as <- <- end;
        cbn in E; try discriminate E; injection E as ->; split; reflexivity.
Qed.

Theorem C22_escape_injective : forall s s', escape_xml_string s = escape_xml_string s' -> s = s'.
Proof.
  intros s s' E. apply (C22_decoding_unique (escape_xml_string s)); [ apply C22_escape_decodes | ].
  rewrite E. apply C22_escape_decodes.
Qed.

(** no raw <, >, quote or apostrophe is left; & occurs only as the start of an entity *)
Theorem C22_no_raw_markup : forall s i c, nth_error (escape_xml_string s) i = Some c ->
  ~ In c ["<"; ">"; """"; "'"]%char /\
  (c = "&"%char -> exists e d, In (e, d) entities /\ firstn (length e) (skipn i (escape_xml_string s)) = e).
Proof.
  intro s. rewrite escape_string_map.
  induction s as [ | x s IH ]; intros i c H; [ destruct i; discriminate | ].
  cbn [flat_map] in *.
  destruct (escape_char_cases x) as [ [M E] | I ].
  - rewrite E in *. destruct i as [ | i ].
    + cbn in H. injection H as <-. split.
      * intro J. apply M. unfold markup. cbn in *. tauto.
      * intros ->. exfalso. apply M. now left.
    + cbn [app nth_error skipn] in *. now apply IH.
  - set (e := escape_char x) in *. clearbody e.
    destruct (Nat.lt_ge_cases i (length e)) as [ L | L ].
    + rewrite nth_error_app1 in H by exact L.
      pose proof I as I0.
      cbn in I. repeat match goal with H : _ \/ _ |- _ => destruct H as [ H | H ] end; try contradiction;
        injection I as <- <-; cbn in L;
        do 7 (destruct i as [ | i ];
          [ cbn in H; first [ discriminate H | injection H as <-;
              split; [ cbn; intuition discriminate
                     | intro Q; first [ discriminate Q
                                      | eexists; eexists; split; [ exact I0 | reflexivity ] ] ] ] | ]);
        exfalso; lia.
    + rewrite nth_error_app2 in H by exact L. destruct (IH _ _ H) as [H1 H2]. split; [ exact H1 | ].
      intro Q. rewrite skipn_app, skipn_all2 by exact L. cbn [app]. now apply H2.
Qed.

(** text without markup characters is not changed; writing to a stream appends the escaped text *)
Theorem C22_plain_unchanged : forall s, (forall c, In c s -> ~ markup c) -> escape_xml_string s = s.
Proof.
  intros s H. rewrite escape_string_map. induction s as [ | c s IH ]; [ reflexivity | ].
  cbn [flat_map]. rewrite IH by (intros; apply H; now right).
  destruct (escape_char_cases c) as [ [_ ->] | I ]; [ reflexivity | ].
  exfalso. apply (H c (or_introl eq_refl)). unfold markup. cbn in *.
  decompose [or] I; try contradiction; match goal with H : (_, _) = (_, _) |- _ => injection H as _ <- end; tauto.
Qed.

Theorem C22_stream_appends : forall out s, escape_xml_to_stream out s = out ++ escape_xml_string s.
Proof.
  intros out s. unfold escape_xml_string, escape_xml_to_stream. destruct (needs_xml_escape s); [ | reflexivity ].
  assert (G : forall s o, fold_left (fun o c => o ++ escape_char c) s o = o ++ flat_map escape_char s).
  { clear. induction s as [ | c s IH ]; intro o; cbn [fold_left flat_map]; [ now rewrite app_nil_r | ].
    rewrite IH, <- app_assoc. reflexivity. }
  now rewrite !G.
Qed.

Example C22_nonvacuous : escape_xml_string (s_ "a<b & 'c'") = s_ "a&lt;b &amp; &apos;c&apos;".
Proof. reflexivity. Qed.

Print Assumptions C18_tokenize_maximal_runs.
Print Assumptions C18_tokenize_total.
Print Assumptions C18_split_fields.
Print Assumptions C18_split_count.
Print Assumptions C18_join_split.
Print Assumptions C18_split_join.
Print Assumptions C18_tokenize_join.
Print Assumptions C18_tokenize_is_split_nonempty.
Print Assumptions C19_trim.
Print Assumptions C19_trim_total_idempotent.
Print Assumptions C19_starts_with.
Print Assumptions C19_ends_with.
Print Assumptions C19_ends_with_huge_refuted.
Print Assumptions C19_replace_all.
Print Assumptions C20_plain_list.
Print Assumptions C20_dots_expand.
Print Assumptions C20_dots_need_two_values.
Print Assumptions C20_bad_token_throws.
Print Assumptions C20_trailing_dots_refuted.
Print Assumptions C20_equal_values_refuted.
Print Assumptions C20_wrong_direction_refuted.
Print Assumptions C21_index_refers_to_name.
Print Assumptions C21_same_name_same_index.
Print Assumptions C21_list_only_grows.
Print Assumptions C21_initial_names_found.
Print Assumptions C21_no_duplicates.
Print Assumptions C21_index_0_reserved.
Print Assumptions C21_index_0_refuted.
Print Assumptions C21_initial_duplicates_refuted.
Print Assumptions C22_escape_decodes.
Print Assumptions C22_decoding_unique.
Print Assumptions C22_escape_injective.
Print Assumptions C22_no_raw_markup.
Print Assumptions C22_plain_unchanged.
Print Assumptions C22_stream_appends.
