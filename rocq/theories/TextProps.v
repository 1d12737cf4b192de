(** C59 escaping for regular expressions, C60 lower case and booleans, C61 calendar times as text. *)
From Coq Require Import NArith ZArith QArith Qround Ascii String List Bool Lia.
From Coq Require Import ZifyBool ZifyNat ZifyN.
From Verif Require Import Base Rounding SearchModel StringModel StringProofs StringProps TimeModel TextModel TextProofs.
Import ListNotations.
Local Open Scope N_scope.

(** * C59 regular expressions *)

(** the characters with a meaning in a regular expression *)
Definition regex_special (c : ascii) : Prop :=
  In c ["*"; "?"; "\"; "+"; "."; "("; ")"; "["; "]"; "{"; "}"; "|"; "^"; "$"]%char.

(** [matches p s]: the pattern p, taken as literals and escaped characters only, matches exactly s;
    a special character may only occur behind a backslash *)
Inductive matches : str -> str -> Prop :=
| m_nil : matches [] []
| m_lit : forall c p s, ~ regex_special c -> matches p s -> matches (c :: p) (c :: s)
| m_esc : forall c p s, matches p s -> matches ("\"%char :: c :: p) (c :: s).

Lemma mem_special : forall c, mem c ESCAPE_THESE = true <-> regex_special c.
Proof. intro c. rewrite mem_In. reflexivity. Qed.

(** the escaped text is a pattern that matches the text and nothing else *)
Theorem C59_matches_itself : forall s, matches (regex_escape s) s.
Proof.
  induction s as [ | c s IH ]; cbn [regex_escape flat_map]; [ constructor | ].
  unfold regex_escape_char. destruct (mem c ESCAPE_THESE) eqn:M; cbn [app].
  - now apply m_esc.
  - apply m_lit; [ | assumption ]. intro I. apply mem_special in I. congruence.
Qed.

Theorem C59_matches_only_itself : forall s t, matches (regex_escape s) t -> t = s.
Proof.
  induction s as [ | c s IH ]; cbn [regex_escape flat_map]; intros t H.
  - now inversion H.
  - unfold regex_escape_char in H. destruct (mem c ESCAPE_THESE) eqn:M; cbn [app] in H.
    + inversion H as [ | c' p' s' N H' | c' p' s' H' ]; subst.
      * exfalso. apply N. unfold regex_special. cbn. tauto.
      * f_equal. now apply IH.
    + inversion H as [ | c' p' s' N H' | c' p' s' H' ]; subst.
      * f_equal. now apply IH.
      * vm_compute in M. discriminate.
Qed.

Theorem C59_injective : forall a b, regex_escape a = regex_escape b -> a = b.
Proof.
  intros a b E. apply C59_matches_only_itself. rewrite <- E. apply C59_matches_itself.
Qed.

Theorem C59_concatenation : forall a b, regex_escape (a ++ b) = regex_escape a ++ regex_escape b.
Proof. intros. apply flat_map_app. Qed.

Theorem C59_plain_unchanged : forall s, (forall c, In c s -> ~ regex_special c) -> regex_escape s = s.
Proof.
  induction s as [ | c s IH ]; intro H; [ reflexivity | ]. cbn [regex_escape flat_map].
  unfold regex_escape_char. destruct (mem c ESCAPE_THESE) eqn:M.
  - apply mem_special in M. exfalso. apply (H c); [ now left | assumption ].
  - cbn [app]. f_equal. apply IH. intros x I. apply H. now right.
Qed.

Example C59_nonvacuous : regex_escape (s_ "file(1).nc") = s_ "file\(1\)\.nc".
Proof. reflexivity. Qed.

(** * C60 lower case and booleans *)

Definition is_ascii (s : str) : Prop := forall c, In c s -> N_of_ascii c < 128.
Definition is_upper (c : ascii) : Prop := 65 <= N_of_ascii c <= 90.

Definition lower1 (c : ascii) : ascii :=
  if (65 <=? N_of_ascii c) && (N_of_ascii c <=? 90) then ascii_of_N (N_of_ascii c + 32) else c.

Lemma lower_ok : forall s, is_ascii s -> string2lowerCase s = Ok (map lower1 s).
Proof.
  induction s as [ | c s IH ]; intro H; [ reflexivity | ]. unfold string2lowerCase in *. cbn [omapM map].
  unfold to_lower at 1. assert (B := H c (or_introl eq_refl)).
  destruct (N.leb_spec 128 (N_of_ascii c)); [ lia | ].
  assert (E : (if (65 <=? N_of_ascii c) && (N_of_ascii c <=? 90) then Ok (ascii_of_N (N_of_ascii c + 32)) else Ok c)
              = Ok (lower1 c)).
  { unfold lower1. now destruct ((65 <=? N_of_ascii c) && (N_of_ascii c <=? 90)). }
  rewrite E. cbn [obind]. rewrite IH; [ reflexivity | ]. intros x I. apply H. now right.
Qed.

Lemma lower1_code : forall c, N_of_ascii c < 128 ->
  N_of_ascii (lower1 c) = if (65 <=? N_of_ascii c) && (N_of_ascii c <=? 90) then N_of_ascii c + 32 else N_of_ascii c.
Proof.
  intros c H. unfold lower1. destruct ((65 <=? N_of_ascii c) && (N_of_ascii c <=? 90)) eqn:E; [ | reflexivity ].
  apply N_ascii_embedding. lia.
Qed.

(** each letter is replaced by its lower case form, every other character kept *)
Theorem C60_lower_case : forall s, is_ascii s ->
  exists l, string2lowerCase s = Ok l /\ length l = length s /\
    (forall c, In c l -> ~ is_upper c) /\
    (forall i c, nth_error s i = Some c ->
       exists d, nth_error l i = Some d /\
         (is_upper c -> N_of_ascii d = N_of_ascii c + 32) /\ (~ is_upper c -> d = c)).
Proof.
  intros s H. exists (map lower1 s). rewrite lower_ok by assumption. split; [ reflexivity | ].
  split; [ apply map_length | ]. split.
  - intros d I U. apply in_map_iff in I. destruct I as (c & <- & I). unfold is_upper in U.
    rewrite lower1_code in U by now apply H.
    destruct ((65 <=? N_of_ascii c) && (N_of_ascii c <=? 90)) eqn:E; lia.
  - intros i c I. exists (lower1 c). split; [ now rewrite nth_error_map, I | ].
    assert (B : N_of_ascii c < 128) by (apply H; eapply nth_error_In; eassumption).
    split; intro U; unfold is_upper in U.
    + rewrite lower1_code by assumption. destruct ((65 <=? N_of_ascii c) && (N_of_ascii c <=? 90)) eqn:E; lia.
    + unfold lower1. destruct ((65 <=? N_of_ascii c) && (N_of_ascii c <=? 90)) eqn:E; [ lia | reflexivity ].
Qed.

Theorem C60_lower_case_idempotent : forall s l, is_ascii s -> string2lowerCase s = Ok l -> string2lowerCase l = Ok l.
Proof.
  intros s l H E. rewrite lower_ok in E by assumption. injection E as <-.
  rewrite lower_ok.
  - f_equal. rewrite map_map. apply map_ext_in. intros c I. unfold lower1 at 1.
    rewrite lower1_code by now apply H.
    destruct ((65 <=? N_of_ascii c) && (N_of_ascii c <=? 90)) eqn:E; destruct (_ && _) eqn:E2 at 1; try reflexivity; lia.
  - intros d I. apply in_map_iff in I. destruct I as (c & <- & I). assert (B := H c I).
    rewrite lower1_code by assumption. destruct ((65 <=? N_of_ascii c) && (N_of_ascii c <=? 90)) eqn:E; lia.
Qed.

(** a byte above 127 reaches tolower as a negative number, which is outside its domain *)
Theorem C60_non_ascii_refuted : forall a c b, is_ascii a -> 128 <= N_of_ascii c -> string2lowerCase (a ++ c :: b) = UB.
Proof.
  intros a c b A C. unfold string2lowerCase. induction a as [ | x a IH ]; cbn [app omapM].
  - unfold to_lower. destruct (N.leb_spec 128 (N_of_ascii c)); [ reflexivity | lia ].
  - assert (B := A x (or_introl eq_refl)). unfold to_lower at 1.
    destruct (N.leb_spec 128 (N_of_ascii x)); [ lia | ].
    destruct ((65 <=? N_of_ascii x) && (N_of_ascii x <=? 90)); cbn [obind];
      (rewrite IH; [ reflexivity | intros y I; apply A; now right ]).
Qed.

(** equality up to the case of letters *)
Definition same_letter (c d : ascii) : Prop :=
  c = d \/ (is_upper c /\ N_of_ascii d = N_of_ascii c + 32).
Definition spells (s word : str) : Prop := Forall2 same_letter s word.

Lemma spells_lower : forall s w, is_ascii s -> (forall c, In c w -> ~ is_upper c) ->
  (map lower1 s = w <-> spells s w).
Proof.
  intros s w A W. split.
  - intros <-. clear W. induction s as [ | c s IH ]; constructor.
    + assert (B := A c (or_introl eq_refl)). unfold same_letter, is_upper.
      destruct ((65 <=? N_of_ascii c) && (N_of_ascii c <=? 90)) eqn:E.
      * right. rewrite lower1_code by assumption. rewrite E. lia.
      * left. unfold lower1. now rewrite E.
    + apply IH. intros x I. apply A. now right.
  - intro F. induction F as [ | c d s w S F IH ]; [ reflexivity | ]. cbn [map]. f_equal.
    + assert (B := A c (or_introl eq_refl)). destruct S as [ -> | [U E] ].
      * unfold lower1. destruct ((65 <=? N_of_ascii d) && (N_of_ascii d <=? 90)) eqn:E; [ | reflexivity ].
        exfalso. apply (W d (or_introl eq_refl)). unfold is_upper. lia.
      * unfold lower1. unfold is_upper in U. destruct ((65 <=? N_of_ascii c) && (N_of_ascii c <=? 90)) eqn:E2; [ | lia ].
        rewrite <- E. apply ascii_N_embedding.
    + apply IH; intros x I; [ apply A | apply W ]; now right.
Qed.

Definition says_true (s : str) : Prop := s = s_ "1" \/ spells s (s_ "on") \/ spells s (s_ "true").
Definition says_false (s : str) : Prop := s = s_ "0" \/ spells s (s_ "off") \/ spells s (s_ "false").

Lemma no_upper : forall w, forallb (fun c => (N_of_ascii c <? 65) || (90 <? N_of_ascii c)) w = true ->
  forall c, In c w -> ~ is_upper c.
Proof. intros w H c I U. rewrite forallb_forall in H. specialize (H c I). unfold is_upper in U. lia. Qed.

Lemma bool_cases : forall s, is_ascii s ->
  (string2bool s = Ok true /\ says_true s /\ ~ says_false s) \/
  (string2bool s = Ok false /\ ~ says_true s /\ says_false s) \/
  (string2bool s = Throw /\ ~ says_true s /\ ~ says_false s).
Proof.
  intros s A. unfold says_true, says_false.
  assert (W1 := spells_lower s (s_ "on") A (no_upper (s_ "on") eq_refl)).
  assert (W2 := spells_lower s (s_ "true") A (no_upper (s_ "true") eq_refl)).
  assert (W3 := spells_lower s (s_ "off") A (no_upper (s_ "off") eq_refl)).
  assert (W4 := spells_lower s (s_ "false") A (no_upper (s_ "false") eq_refl)).
  rewrite <- W1, <- W2, <- W3, <- W4. clear W1 W2 W3 W4.
  unfold string2bool. rewrite lower_ok by assumption. cbn [obind].
  destruct (str_eqb s (s_ "0")) eqn:E0.
  { apply str_eqb_eq in E0. subst s. right; left. split; [ reflexivity | ]. split; [ | now left ].
    intros [ H | [ H | H ] ]; discriminate H. }
  destruct (str_eqb s (s_ "1")) eqn:E1.
  { apply str_eqb_eq in E1. subst s. left. split; [ reflexivity | ]. split; [ now left | ].
    intros [ H | [ H | H ] ]; discriminate H. }
  assert (N0 : s <> s_ "0") by (intro H; apply str_eqb_eq in H; congruence).
  assert (N1 : s <> s_ "1") by (intro H; apply str_eqb_eq in H; congruence).
  destruct (str_eqb (map lower1 s) (s_ "on")) eqn:L1.
  { apply str_eqb_eq in L1. left. rewrite L1. split; [ reflexivity | ]. split; [ tauto | ].
    intros [ H | [ H | H ] ]; [ congruence | discriminate H | discriminate H ]. }
  destruct (str_eqb (map lower1 s) (s_ "true")) eqn:L2.
  { apply str_eqb_eq in L2. left. rewrite L2. split; [ reflexivity | ]. split; [ tauto | ].
    intros [ H | [ H | H ] ]; [ congruence | discriminate H | discriminate H ]. }
  assert (M1 : map lower1 s <> s_ "on") by (intro H; apply str_eqb_eq in H; congruence).
  assert (M2 : map lower1 s <> s_ "true") by (intro H; apply str_eqb_eq in H; congruence).
  destruct (str_eqb (map lower1 s) (s_ "off")) eqn:L3.
  { apply str_eqb_eq in L3. right; left. split; [ reflexivity | ]. tauto. }
  destruct (str_eqb (map lower1 s) (s_ "false")) eqn:L4.
  { apply str_eqb_eq in L4. right; left. split; [ reflexivity | ]. tauto. }
  assert (M3 : map lower1 s <> s_ "off") by (intro H; apply str_eqb_eq in H; congruence).
  assert (M4 : map lower1 s <> s_ "false") by (intro H; apply str_eqb_eq in H; congruence).
  right; right. split; [ reflexivity | ]. tauto.
Qed.

(** exactly the listed words, in any mixture of cases, are accepted *)
Theorem C60_bool_true : forall s, is_ascii s -> (string2bool s = Ok true <-> says_true s).
Proof. intros s A. destruct (bool_cases s A) as [ (E & H) | [ (E & H) | (E & H) ] ]; rewrite E; intuition congruence. Qed.
Theorem C60_bool_false : forall s, is_ascii s -> (string2bool s = Ok false <-> says_false s).
Proof. intros s A. destruct (bool_cases s A) as [ (E & H) | [ (E & H) | (E & H) ] ]; rewrite E; intuition congruence. Qed.
Theorem C60_bool_throws : forall s, is_ascii s -> (string2bool s = Throw <-> ~ says_true s /\ ~ says_false s).
Proof. intros s A. destruct (bool_cases s A) as [ (E & H) | [ (E & H) | (E & H) ] ]; rewrite E; intuition congruence. Qed.

Example C60_nonvacuous : string2lowerCase (s_ "Fimex 1.0") = Ok (s_ "fimex 1.0") /\
  string2bool (s_ "TrUe") = Ok true /\ string2bool (s_ "OFF") = Ok false /\ string2bool (s_ "yes") = Throw.
Proof. repeat split; reflexivity. Qed.

(** * C61 calendar times as text *)

(** decimal text of a number: digits only, and with the value of the number *)
Theorem C61_decimal_digits : forall n, undec (dec n) = Some n.
Proof. exact undec_dec. Qed.

Definition printable (t : ftime) : Prop :=
  year t < 2 ^ 16 /\ month t <= 99 /\ mday t <= 99 /\ hour t <= 99 /\ minute t <= 99 /\ second t <= 99 /\ msecond t <= 999.

Lemma to_char_small : forall n, n <= 99 -> to_char n = Z.of_N n.
Proof. intros n H. unfold to_char. rewrite Z.mod_small by lia. lia. Qed.

Lemma two_digits_undec : forall n, n <= 99 -> undec (two_digits (to_char n)) = Some n.
Proof.
  intros n H. rewrite to_char_small by assumption. unfold two_digits.
  destruct (Z.ltb_spec (Z.of_N n) 0); [ lia | ]. destruct (Z.leb_spec 100 (Z.of_N n)); [ lia | ]. cbn [orb].
  destruct (Z.ltb_spec (Z.of_N n) 10).
  - unfold undec. cbn [undec_loop]. change (digit_value "0") with (Some 0).
    rewrite N2Z.id, digit_digit by lia. f_equal; lia.
  - unfold undec. cbn [undec_loop].
    assert (Z.of_N n mod 10 < 10)%Z by (apply Z.mod_pos_bound; lia).
    assert (0 <= Z.of_N n mod 10)%Z by (apply Z.mod_pos_bound; lia).
    assert (E := Z.div_mod (Z.of_N n) 10 ltac:(lia)).
    rewrite digit_digit by lia. rewrite digit_digit by lia. f_equal; lia.
Qed.

Lemma undec_loop_zeros : forall s, undec_loop ("0"%char :: s) 0 = undec_loop s 0.
Proof. reflexivity. Qed.

Lemma dec_length : forall n, n <= 999 -> length (dec n) = if n <? 10 then 1%nat else if n <? 100 then 2%nat else 3%nat.
Proof.
  intros n H.
  assert (A : forallb (fun k => Nat.eqb (length (dec (N.of_nat k)))
     (if N.of_nat k <? 10 then 1%nat else if N.of_nat k <? 100 then 2%nat else 3%nat)) (seq 0 1000) = true)
    by (vm_compute; reflexivity).
  rewrite forallb_forall in A. specialize (A (N.to_nat n)).
  rewrite N2Nat.id in A. apply Nat.eqb_eq. apply A. apply in_seq. lia.
Qed.

Definition msec_text (n : N) : str :=
  (if n <? 10 then ["0"; "0"]%char else if n <? 100 then ["0"%char] else []) ++ dec n.

Lemma msec_undec : forall n, undec (msec_text n) = Some n.
Proof.
  intro n. assert (D := undec_dec n). unfold msec_text.
  assert (N0 := dec_nonempty n). unfold undec in *. destruct (dec n) as [ | c r ] eqn:E; [ congruence | ].
  destruct (n <? 10); [ exact D | destruct (n <? 100); exact D ].
Qed.

Lemma msec_length : forall n, n <= 999 -> length (msec_text n) = 3%nat.
Proof.
  intros n H. unfold msec_text. rewrite app_length, dec_length by assumption.
  destruct (n <? 10); [ reflexivity | destruct (n <? 100); reflexivity ].
Qed.

Lemma milli3 : forall f n, length f = 3%nat -> milli (Some f) n = Z.of_N n.
Proof.
  intros f n L. unfold milli. rewrite L. change (Pos.pow 10 (Pos.of_nat 3)) with 1000%positive.
  transitivity (lround (inject_Z (Z.of_N n))); [ | apply lround_int ]. apply lround_comp. unfold Qeq, inject_Z. cbn [Qmult Qnum Qden]. lia.
Qed.

Lemma to_unsigned_id : forall b n, (0 <= b)%Z -> n < 2 ^ Z.to_N b -> to_unsigned b (Z.of_N n) = n.
Proof.
  intros b n B H. unfold to_unsigned. rewrite Z.mod_small; [ apply N2Z.id | ].
  split; [ lia | ]. replace (2 ^ b)%Z with (Z.of_N (2 ^ Z.to_N b)); [ lia | ].
  rewrite N2Z.inj_pow. f_equal. lia.
Qed.

(** reading what was written gives the same time, whatever is in the fields that two (or, for the
    milliseconds, three) digits can hold *)
Theorem C61_print_parse : forall fuel t, printable t -> parse_iso8601 fuel (print_time t) = Ok (Some t).
Proof.
  intros fuel [y mo d h mi s ms] (Y & Mo & D & H & Mi & S & Ms). cbn [year month mday hour minute second msecond] in *.
  unfold print_time. cbn [year month mday hour minute second msecond].
  set (f := if 0 <? ms then Some (msec_text ms) else None).
  replace (dec y ++ _) with
    (date_text (dec y) (two_digits (to_char mo)) (two_digits (to_char d)) ++ ["T"%char] ++
     clock_text (two_digits (to_char h)) (two_digits (to_char mi)) (sec_text (two_digits (to_char s)) f)).
  2:{ unfold date_text, clock_text. rewrite <- !app_assoc. do 11 f_equal. unfold sec_text, f.
      destruct (0 <? ms); [ reflexivity | now rewrite app_nil_r ]. }
  assert (Q : frac_ok f ms) by (unfold f; destruct (0 <? ms); [ apply msec_undec | exact I ]).
  rewrite (parse_general fuel "T" _ _ _ _ _ _ f y mo d h mi s ms); try (apply two_digits_undec; assumption);
    try apply undec_dec; try assumption; try tauto; try lia.
  do 2 f_equal. rewrite !to_unsigned_id by (cbn; lia).
  replace (milli f ms) with (Z.of_N ms); [ rewrite to_unsigned_id by (cbn; lia); reflexivity | ].
  unfold f. destruct (N.ltb_spec 0 ms); [ now rewrite milli3 by now apply msec_length | cbn [milli]; lia ].
Qed.

(** so two times with the same text are the same time *)
Corollary C61_print_injective : forall t u, printable t -> printable u -> print_time t = print_time u -> t = u.
Proof.
  intros t u T U E. assert (A := C61_print_parse 0 t T). rewrite E, (C61_print_parse 0 u U) in A. congruence.
Qed.

(** texts YYYY-MM-DD hh:mm:ss with digits of any number, T or blank between, up to 16/8 bit wrapping *)
Theorem C61_parse_fields : forall fuel sep y mo d h mi s ny nmo nd nh nmi ns,
  sep = "T"%char \/ sep = " "%char ->
  undec y = Some ny -> undec mo = Some nmo -> undec d = Some nd ->
  undec h = Some nh -> undec mi = Some nmi -> undec s = Some ns ->
  ny < 2 ^ 16 -> nmo < 2 ^ 8 -> nd < 2 ^ 8 -> nh < 2 ^ 8 -> nmi < 2 ^ 8 -> ns < 2 ^ 8 ->
  parse_iso8601 fuel (y ++ ["-"%char] ++ mo ++ ["-"%char] ++ d ++ [sep] ++ h ++ [":"%char] ++ mi ++ [":"%char] ++ s)
  = Ok (Some (mkTime ny nmo nd nh nmi ns 0)).
Proof.
  intros fuel sep y mo d h mi s ny nmo nd nh nmi ns Sep Y Mo D H Mi S B1 B2 B3 B4 B5 B6.
  replace (y ++ _) with (date_text y mo d ++ [sep] ++ clock_text h mi (sec_text s None))
    by (unfold date_text, clock_text; now rewrite <- !app_assoc).
  rewrite (parse_general fuel sep y mo d h mi s None ny nmo nd nh nmi ns 0); try assumption; try exact I; try lia.
  do 2 f_equal. rewrite !to_unsigned_id by (cbn; lia). reflexivity.
Qed.

(** a date alone is its midnight *)
Theorem C61_date_only : forall fuel y mo d ny nmo nd,
  undec y = Some ny -> undec mo = Some nmo -> undec d = Some nd ->
  ny < 2 ^ 16 -> nmo < 2 ^ 8 -> nd < 2 ^ 8 ->
  parse_iso8601 fuel (y ++ ["-"%char] ++ mo ++ ["-"%char] ++ d) = Ok (Some (mkTime ny nmo nd 0 0 0 0)).
Proof.
  intros fuel y mo d ny nmo nd Y Mo D B1 B2 B3.
  destruct (undec_digits _ _ Y) as [Y0 Yd]. destruct (undec_digits _ _ Mo) as [Mo0 Mod].
  destruct (undec_digits _ _ D) as [D0 Dd].
  change (y ++ _) with (date_text y mo d). unfold parse_iso8601.
  assert (G : forall c, c <> "-"%char -> In c sepchars -> forall x, In x (date_text y mo d) -> x <> c).
  { intros c C1 C2. apply Forall_forall. unfold date_text.
    repeat (apply Forall_app; split); try (apply Forall_forall; now apply digits_ne); repeat constructor; congruence. }
  assert (N0 : date_text y mo d <> []) by (unfold date_text; destruct y; [ congruence | discriminate ]).
  rewrite trim_id.
  2:{ unfold date_text. intros c r. now apply (head_notin []). }
  2:{ intros c r E. unfold date_text in E. rewrite !app_assoc in E. revert E. now apply last_notin. }
  cbn [obind]. destruct (date_text y mo d) as [ | c0 rest ] eqn:Eall; [ congruence | ]. rewrite <- Eall in *. clear c0 rest Eall.
  change (s_ "T") with ["T"%char]. change (s_ " ") with [" "%char].
  rewrite tokenize1; [ | assumption | apply G; [ discriminate | cbn; tauto ] ].
  cbn [obind length Nat.eqb]. rewrite tokenize1; [ | assumption | apply G; [ discriminate | cbn; tauto ] ].
  cbn [obind]. rewrite (dotted_date _ _ _ _ _ _ _ Y Mo D) by lia.
  cbn [obind length Nat.eqb].
  change (tokenize (s_ "0.0") (s_ ".")) with (Ok [s_ "0"; s_ "0"]).
  change (string2short (s_ "0")) with (Ok 0%Z). cbn [obind].
  change (string2frac (s_ "0")) with (Ok (0 # 10)%Q). cbn [obind rd nth_error].
  change (string2short (s_ "0")) with (Ok 0%Z). cbn [obind].
  do 2 f_equal. rewrite !to_unsigned_id by (cbn; lia). reflexivity.
Qed.

(** without seconds: they are 0 *)
Theorem C61_no_seconds : forall fuel sep y mo d h mi ny nmo nd nh nmi,
  sep = "T"%char \/ sep = " "%char ->
  undec y = Some ny -> undec mo = Some nmo -> undec d = Some nd ->
  undec h = Some nh -> undec mi = Some nmi ->
  ny < 2 ^ 16 -> nmo < 2 ^ 8 -> nd < 2 ^ 8 -> nh < 2 ^ 8 -> nmi < 2 ^ 8 ->
  parse_iso8601 fuel (y ++ ["-"%char] ++ mo ++ ["-"%char] ++ d ++ [sep] ++ h ++ [":"%char] ++ mi)
  = Ok (Some (mkTime ny nmo nd nh nmi 0 0)).
Proof.
  intros fuel sep y mo d h mi ny nmo nd nh nmi Sep Y Mo D H Mi B1 B2 B3 B4 B5.
  destruct (undec_digits _ _ Y) as [Y0 Yd]. destruct (undec_digits _ _ Mo) as [Mo0 Mod].
  destruct (undec_digits _ _ D) as [D0 Dd]. destruct (undec_digits _ _ H) as [H0 Hd].
  destruct (undec_digits _ _ Mi) as [Mi0 Mid].
  replace (y ++ _) with (date_text y mo d ++ [sep] ++ (h ++ [":"%char] ++ mi))
    by (unfold date_text; now rewrite <- !app_assoc).
  set (date := date_text y mo d). set (clock := h ++ [":"%char] ++ mi).
  assert (Dn : forall c, c <> "-"%char -> In c sepchars -> Forall (fun x => x <> c) date).
  { intros c C1 C2. subst date. unfold date_text.
    repeat (apply Forall_app; split); try (apply Forall_forall; now apply digits_ne); repeat constructor; congruence. }
  assert (Cn : forall c, c <> ":"%char -> In c sepchars -> Forall (fun x => x <> c) clock).
  { intros c C1 C2. subst clock.
    repeat (apply Forall_app; split); try (apply Forall_forall; now apply digits_ne); repeat constructor; congruence. }
  assert (Da0 : date <> []) by (subst date; unfold date_text; destruct y; [ congruence | discriminate ]).
  assert (Ck0 : clock <> []) by (subst clock; destruct h; [ congruence | discriminate ]).
  unfold parse_iso8601.
  rewrite trim_id.
  2:{ subst date. unfold date_text. rewrite <- app_assoc. intros c r. now apply (head_notin []). }
  2:{ intros c r E. subst clock. rewrite !app_assoc in E. revert E. now apply last_notin. }
  cbn [obind].
  destruct (date ++ [sep] ++ clock) as [ | c0 rest ] eqn:Eall.
  { exfalso. destruct date; [ congruence | discriminate ]. }
  rewrite <- Eall. clear c0 rest Eall.
  assert (Tok : (do dt1 <- tokenize (date ++ [sep] ++ clock) (s_ "T");
                 if Nat.eqb (length dt1) 1 then tokenize (date ++ [sep] ++ clock) (s_ " ") else Ok dt1)
                = Ok [date; clock]).
  { change (s_ "T") with ["T"%char]. change (s_ " ") with [" "%char]. destruct Sep as [ -> | -> ].
    - rewrite tokenize2; [ reflexivity | assumption | assumption | ].
      apply Forall_forall. apply Forall_app; split; [ apply Dn | apply Cn ]; try discriminate; cbn; tauto.
    - rewrite (tokenize1 _ "T").
      + cbn [obind length Nat.eqb]. apply tokenize2; [ assumption | assumption | ].
        apply Forall_forall. apply Forall_app; split; [ apply Dn | apply Cn ]; try discriminate; cbn; tauto.
      + destruct date; [ congruence | discriminate ].
      + apply Forall_forall. apply Forall_app; split; [ apply Dn | apply Forall_app; split; [ repeat constructor | apply Cn ] ];
          try discriminate; cbn; tauto. }
  revert Tok.
  destruct (tokenize (date ++ [sep] ++ clock) (s_ "T")) as [ dt1 | | | ]; cbn [obind]; try discriminate.
  intro Tok. rewrite Tok. cbn [obind]. clear Tok.
  subst date. rewrite (dotted_date _ _ _ _ _ _ _ Y Mo D) by lia. cbn [obind].
  subst clock. change (s_ ":") with [":"%char].
  rewrite tokenize2; [ | assumption | assumption | ].
  2:{ apply Forall_forall. apply Forall_app; split; apply Forall_forall; apply digits_ne; try assumption; cbn; tauto. }
  cbn [obind].
  change (tokenize (s_ "0") (s_ ".")) with (Ok [s_ "0"]). cbn [obind rd nth_error].
  unfold string2short. rewrite (string2int_undec _ _ h nh), (string2int_undec _ _ mi nmi) by (assumption || lia).
  cbn [obind]. rewrite (string2int_undec _ _ (s_ "0") 0) by (reflexivity || lia). cbn [obind].
  do 2 f_equal. rewrite !to_unsigned_id by (cbn; lia). reflexivity.
Qed.

(** documented: the time of day alone; it is taken for a date, and refused by an exception instead
    of the result false *)
Theorem C61_clock_only_refuted : forall fuel, parse_iso8601 fuel (s_ "10:20:30") = Throw.
Proof. intro. reflexivity. Qed.

(** a seconds field of only a dot: the first token is read although there is none *)
Theorem C61_only_dot_refuted : forall fuel, parse_iso8601 fuel (s_ "2010-01-02T10:20:.") = UB.
Proof. intro. reflexivity. Qed.

(** fractions just below one second are rounded to 1000 milliseconds; so the result differs from
    the time meant and sorts in the wrong second *)
Theorem C61_rounds_to_1000_refuted : forall fuel,
  parse_iso8601 fuel (s_ "2010-01-02T10:20:30.9999") = Ok (Some (mkTime 2010 1 2 10 20 30 1000)).
Proof. intro. reflexivity. Qed.

(** values too large for the field wrap around silently *)
Theorem C61_wraps_refuted : forall fuel,
  parse_iso8601 fuel (s_ "65546-257-01T256:00:00") = Ok (Some (mkTime 10 1 1 0 0 0 0)).
Proof. intro. reflexivity. Qed.

Example C61_nonvacuous : printable (mkTime 2010 1 31 23 59 9 7) /\
  print_time (mkTime 2010 1 31 23 59 9 7) = s_ "2010-01-31T23:59:09.007" /\
  parse_iso8601 0 (s_ " 2010-01-31 23:59 ") = Ok (Some (mkTime 2010 1 31 23 59 0 0)).
Proof. split; [ unfold printable; cbn; lia | split; reflexivity ]. Qed.

Print Assumptions C59_matches_itself.
Print Assumptions C59_matches_only_itself.
Print Assumptions C59_injective.
Print Assumptions C59_concatenation.
Print Assumptions C59_plain_unchanged.
Print Assumptions C60_lower_case.
Print Assumptions C60_lower_case_idempotent.
Print Assumptions C60_non_ascii_refuted.
Print Assumptions C60_bool_true.
Print Assumptions C60_bool_false.
Print Assumptions C60_bool_throws.
Print Assumptions C61_decimal_digits.
Print Assumptions C61_print_parse.
Print Assumptions C61_print_injective.
Print Assumptions C61_parse_fields.
Print Assumptions C61_date_only.
Print Assumptions C61_no_seconds.
Print Assumptions C61_clock_only_refuted.
Print Assumptions C61_only_dot_refuted.
Print Assumptions C61_rounds_to_1000_refuted.
Print Assumptions C61_wraps_refuted.
