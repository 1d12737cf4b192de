(** Lemmas on text forms. *)
From Coq Require Import NArith ZArith QArith Qround Ascii String List Bool Arith Lia Lqa.
From Coq Require Import ZifyBool ZifyNat ZifyN.
From Verif Require Import Base Rounding SearchModel StringModel StringProofs StringProps TimeModel TextModel.
Import ListNotations.
Local Open Scope N_scope.

(** ** digits *)

Lemma digit_digit : forall n, n < 10 -> digit_value (digit n) = Some n.
Proof.
  intros n H. unfold digit_value, digit. rewrite N_ascii_embedding by lia.
  replace ((48 <=? 48 + n) && (48 + n <=? 57)) with true by lia. f_equal; lia.
Qed.

Lemma undec_loop_app : forall a b acc,
  undec_loop (a ++ b) acc = match undec_loop a acc with Some x => undec_loop b x | None => None end.
Proof.
  induction a as [ | c a IH ]; intros b acc; cbn [app undec_loop]; [ reflexivity | ].
  destruct (digit_value c); [ apply IH | reflexivity ].
Qed.

Lemma dec_loop_app : forall f n acc, dec_loop f n acc = dec_loop f n [] ++ acc.
Proof.
  induction f as [ | f IH ]; intros n acc; cbn [dec_loop]; [ reflexivity | ].
  destruct (n <? 10); [ reflexivity | ].
  rewrite IH, (IH _ [_]), <- app_assoc. reflexivity.
Qed.

Lemma dec_loop_undec : forall f n, n < 2 ^ N.of_nat f -> n = 0 \/ f <> O ->
  undec_loop (dec_loop f n []) 0 = Some n.
Proof.
  induction f as [ | f IH ]; intros n B Z.
  - cbn in B. assert (n = 0) by lia. subst. reflexivity.
  - cbn [dec_loop]. destruct (n <? 10) eqn:E.
    + cbn [undec_loop]. rewrite digit_digit by lia. f_equal; lia.
    + apply N.ltb_ge in E. rewrite dec_loop_app, undec_loop_app.
      pose proof (N.div_mod n 10 ltac:(lia)) as DM. pose proof (N.mod_lt n 10 ltac:(lia)) as ML.
      assert (B2 : n / 10 < 2 ^ N.of_nat f).
      { apply N.div_lt_upper_bound; [ lia | ].
        replace (N.of_nat (S f)) with (N.succ (N.of_nat f)) in B by lia. rewrite N.pow_succ_r' in B. lia. }
      rewrite IH; [ | exact B2 | ].
      2:{ destruct f; [ cbn in B2; left; lia | right; discriminate ]. }
      cbn [undec_loop]. rewrite digit_digit by lia. f_equal; lia.
Qed.

Lemma dec_nonempty : forall n, dec n <> [].
Proof.
  intros n. unfold dec. cbn [dec_loop]. destruct (n <? 10); [ discriminate | ].
  rewrite dec_loop_app. destruct (dec_loop _ _ []); discriminate.
Qed.

Lemma undec_dec : forall n, undec (dec n) = Some n.
Proof.
  intro n. unfold undec. pose proof (dec_nonempty n) as E. unfold dec in *.
  assert (B : n < 2 ^ N.of_nat (S (N.to_nat (N.log2 n)))).
  { replace (N.of_nat (S (N.to_nat (N.log2 n)))) with (N.succ (N.log2 n)) by lia.
    destruct (N.eq_dec n 0) as [ -> | Z ]; [ reflexivity | ]. apply N.log2_spec. lia. }
  pose proof (dec_loop_undec _ n B (or_intror (Nat.neq_succ_0 _))) as R.
  destruct (dec_loop _ n []); [ congruence | exact R ].
Qed.

Definition isdigit (c : ascii) : Prop := exists d, digit_value c = Some d.

Lemma undec_loop_digits : forall s acc n, undec_loop s acc = Some n -> Forall isdigit s.
Proof.
  induction s as [ | c s IH ]; intros acc n H; [ constructor | ]. cbn [undec_loop] in H.
  destruct (digit_value c) eqn:E; [ | discriminate ]. constructor; [ now exists n0 | eauto ].
Qed.
Lemma undec_digits : forall s n, undec s = Some n -> s <> [] /\ Forall isdigit s.
Proof.
  intros s n H. unfold undec in H. destruct s as [ | c s ]; [ discriminate | ].
  split; [ discriminate | eauto using undec_loop_digits ].
Qed.

(** no digit is a separator *)
Lemma digit_not : forall c l, isdigit c -> Forall (fun x => digit_value x = None) l -> ~ In c l.
Proof.
  intros c l (d & D) F I. rewrite Forall_forall in F. rewrite (F c I) in D. discriminate.
Qed.

Lemma string2int_undec : forall lo hi s n, undec s = Some n -> (lo <= Z.of_N n <= hi)%Z ->
  string2int lo hi s = Ok (Z.of_N n).
Proof.
  intros lo hi s n U R. unfold string2int. destruct s as [ | c r ]; [ discriminate | ].
  destruct (undec_digits _ _ U) as [_ F]. inversion F as [ | ? ? [d D] ]; subst.
  destruct (Ascii.eqb_spec c "-") as [ -> | _ ]; [ discriminate | ].
  rewrite U. cbn [option_map]. replace ((lo <=? Z.of_N n) && (Z.of_N n <=? hi))%Z with true by lia. reflexivity.
Qed.

(** ** separators *)

Lemma all_digits_sep : forall s l, Forall isdigit s -> Forall (fun x => digit_value x = None) l ->
  forall c, In c s -> ~ In c l.
Proof. intros s l F L c I. rewrite Forall_forall in F. apply digit_not; auto. Qed.

Lemma sep_none : Forall (fun x => digit_value x = None) ["T"; " "; "-"; ":"; "."; "009"; "010"; "013"]%char.
Proof. repeat constructor. Qed.

Definition sepchars : str := ["T"; " "; "-"; ":"; "."; "009"; "010"; "013"]%char.

Lemma digit_sep : forall c, isdigit c -> ~ In c sepchars.
Proof. intros c D. apply digit_not; [ exact D | apply sep_none ]. Qed.

Lemma trim_id : forall s, (forall c r, s = c :: r -> ~ In c blanks) -> (forall c r, s = r ++ [c] -> ~ In c blanks) ->
  trim s blanks = Ok s.
Proof.
  intros s H T. apply C19_trim. exists [], []. rewrite app_nil_r. repeat split; auto.
Qed.

Lemma trim_digits : forall s, Forall isdigit s -> trim s blanks = Ok s.
Proof.
  intros s F. apply trim_id; intros c r -> I.
  - inversion F; subst. apply (digit_sep c); [ assumption | ]. cbn in I |- *. tauto.
  - apply Forall_app in F. destruct F as [_ F]. inversion F; subst.
    apply (digit_sep c); [ assumption | ]. cbn in I |- *. tauto.
Qed.

Lemma int_token_undec : forall s n, undec s = Some n -> (Z.of_N n < 2 ^ 31)%Z ->
  int_token s = Ok (Num (inject_Z (Z.of_N n))).
Proof.
  intros s n U B. destruct (undec_digits _ _ U) as [E F]. unfold int_token.
  rewrite trim_digits by exact F. cbn [obind].
  destruct (str_eqb s (s_ "...")) eqn:D.
  - exfalso. apply str_eqb_eq in D. subst s. inversion F as [ | ? ? [d X] ]. discriminate.
  - unfold string2intT. rewrite (string2int_undec _ _ s n) by (assumption || lia). reflexivity.
Qed.

(** tokenizing "a-b-c" and the like *)
Lemma tokenize3 : forall a b c d, a <> [] -> b <> [] -> c <> [] ->
  (forall x, In x (a ++ b ++ c) -> x <> d) ->
  tokenize (a ++ [d] ++ b ++ [d] ++ c) [d] = Ok [a; b; c].
Proof.
  intros a b c d A B C H. change (a ++ [d] ++ b ++ [d] ++ c) with (a ++ [d] ++ (b ++ [d] ++ c)).
  replace (a ++ [d] ++ b ++ [d] ++ c) with (join [a; b; c] [d]) by (rewrite !join_cons; reflexivity).
  apply C18_tokenize_join; [ discriminate | auto | ].
  assert (G : forall t, (forall x, In x t -> In x (a ++ b ++ c)) -> forall x, In x t -> ~ In x [d]).
  { intros t T x I [ <- | [] ]. exact (H _ (T _ I) eq_refl). }
  repeat constructor; try assumption; apply G; intros x I; rewrite !in_app_iff; tauto.
Qed.

Lemma tokenize2 : forall a b d, a <> [] -> b <> [] -> (forall x, In x (a ++ b) -> x <> d) ->
  tokenize (a ++ [d] ++ b) [d] = Ok [a; b].
Proof.
  intros a b d A B H.
  replace (a ++ [d] ++ b) with (join [a; b] [d]) by (rewrite join_cons; reflexivity).
  apply C18_tokenize_join; [ discriminate | auto | ].
  assert (G : forall t, (forall x, In x t -> In x (a ++ b)) -> forall x, In x t -> ~ In x [d]).
  { intros t T x I [ <- | [] ]. exact (H _ (T _ I) eq_refl). }
  repeat constructor; try assumption; apply G; intros x I; rewrite !in_app_iff; tauto.
Qed.

Lemma tokenize1 : forall a d, a <> [] -> (forall x, In x a -> x <> d) -> tokenize a [d] = Ok [a].
Proof.
  intros a d A H. replace a with (join [a] [d]) at 1 by reflexivity.
  apply C18_tokenize_join; [ discriminate | auto | ].
  repeat constructor; try assumption. intros x I [ <- | [] ]. exact (H _ I eq_refl).
Qed.

Definition date_text (y m d : str) : str := y ++ ["-"%char] ++ m ++ ["-"%char] ++ d.
Definition clock_text (h m s : str) : str := h ++ [":"%char] ++ m ++ [":"%char] ++ s.

Lemma digits_ne : forall s d, Forall isdigit s -> In d sepchars -> forall x, In x s -> x <> d.
Proof.
  intros s d F D x I ->. rewrite Forall_forall in F. exact (digit_sep _ (F _ I) D).
Qed.

Lemma dotted_date : forall fuel y m d ny nm nd,
  undec y = Some ny -> undec m = Some nm -> undec d = Some nd ->
  (Z.of_N ny < 2 ^ 31)%Z -> (Z.of_N nm < 2 ^ 31)%Z -> (Z.of_N nd < 2 ^ 31)%Z ->
  dotted_ints fuel (date_text y m d) (s_ "-") = Ok [Z.of_N ny; Z.of_N nm; Z.of_N nd].
Proof.
  intros fuel y m d ny nm nd Y M D By Bm Bd.
  destruct (undec_digits _ _ Y) as [Y0 Yd]. destruct (undec_digits _ _ M) as [M0 Md].
  destruct (undec_digits _ _ D) as [D0 Dd].
  unfold dotted_ints, date_text. change (s_ "-") with ["-"%char].
  rewrite tokenize3; [ | assumption | assumption | assumption | ].
  2:{ apply digits_ne; [ | cbn; tauto ].
      apply Forall_app; split; [ assumption | apply Forall_app; split; assumption ]. }
  cbn [obind omapM]. rewrite !(int_token_undec _ _ Y), !(int_token_undec _ _ M), !(int_token_undec _ _ D) by assumption.
  cbn [obind omapM]. unfold tokenize_dotted. cbn [dotted app obind map].
  rewrite !Qfloor_Z. reflexivity.
Qed.

(** the text of the seconds: s or s.f *)
Definition sec_text (s : str) (f : option str) : str :=
  match f with Some f => s ++ ["."%char] ++ f | None => s end.

Definition milli (f : option str) (nf : N) : Z :=
  match f with
  | Some f => lround ((Z.of_N nf # Pos.pow 10 (Pos.of_nat (length f))) * 1000)
  | None => 0%Z
  end.

Definition frac_ok (f : option str) (nf : N) : Prop :=
  match f with Some f => undec f = Some nf | None => True end.

Lemma head_notin : forall (l : str) a b, a <> [] -> Forall isdigit a ->
  forall c r, a ++ b = c :: r -> ~ In c blanks.
Proof.
  intros l a b A F c r E I. destruct a as [ | x a ]; [ congruence | ]. cbn in E. injection E as -> _.
  inversion F; subst. apply (digit_sep c); [ assumption | ]. cbn in I |- *. tauto.
Qed.

Lemma last_notin : forall a b, b <> [] -> Forall isdigit b ->
  forall c r, a ++ b = r ++ [c] -> ~ In c blanks.
Proof.
  intros a b B F c r E I. destruct (rev_cases b) as [ -> | (b' & x & ->) ]; [ congruence | ].
  rewrite app_assoc in E. apply app_inj_tail in E. destruct E as [_ ->].
  apply Forall_app in F. destruct F as [_ F]. inversion F; subst.
  apply (digit_sep c); [ assumption | ]. cbn in I |- *. tauto.
Qed.

Lemma seconds_tokens : forall s f nf ns, undec s = Some ns -> frac_ok f nf ->
  tokenize (sec_text s f) (s_ ".") = Ok (match f with Some f => [s; f] | None => [s] end).
Proof.
  intros s f nf ns S F. destruct (undec_digits _ _ S) as [S0 Sd]. change (s_ ".") with ["."%char].
  destruct f as [ f | ]; cbn [sec_text frac_ok] in *.
  - destruct (undec_digits _ _ F) as [F0 Fd]. apply tokenize2; [ assumption | assumption | ].
    apply digits_ne; [ now apply Forall_app | cbn; tauto ].
  - apply tokenize1; [ assumption | ]. apply digits_ne; [ assumption | cbn; tauto ].
Qed.

Lemma In_clock : forall (P : ascii -> Prop) h mi s f, Forall P h -> Forall P mi -> Forall P s ->
  (forall x, f = Some x -> Forall P x) -> P ":"%char -> P "."%char -> Forall P (clock_text h mi (sec_text s f)).
Proof.
  intros P h mi s f H M S F C D. unfold clock_text, sec_text.
  repeat (apply Forall_app; split); auto.
  destruct f as [ f | ]; [ | assumption ]. repeat (apply Forall_app; split); auto.
Qed.

Lemma parse_general : forall fuel sep y mo d h mi s f ny nmo nd nh nmi ns nf,
  sep = "T"%char \/ sep = " "%char ->
  undec y = Some ny -> undec mo = Some nmo -> undec d = Some nd ->
  undec h = Some nh -> undec mi = Some nmi -> undec s = Some ns -> frac_ok f nf ->
  ny < 2 ^ 31 -> nmo < 2 ^ 31 -> nd < 2 ^ 31 -> nh < 2 ^ 15 -> nmi < 2 ^ 15 -> ns < 2 ^ 15 ->
  parse_iso8601 fuel (date_text y mo d ++ [sep] ++ clock_text h mi (sec_text s f)) =
  Ok (Some (mkTime (to_unsigned 16 (Z.of_N ny)) (to_unsigned 8 (Z.of_N nmo)) (to_unsigned 8 (Z.of_N nd))
                   (to_unsigned 8 (Z.of_N nh)) (to_unsigned 8 (Z.of_N nmi)) (to_unsigned 8 (Z.of_N ns))
                   (to_unsigned 16 (milli f nf)))).
Proof.
  intros fuel sep y mo d h mi s f ny nmo nd nh nmi ns nf Sep Y Mo D H Mi S F By Bmo Bd Bh Bmi Bs.
  destruct (undec_digits _ _ Y) as [Y0 Yd]. destruct (undec_digits _ _ Mo) as [Mo0 Mod].
  destruct (undec_digits _ _ D) as [D0 Dd]. destruct (undec_digits _ _ H) as [H0 Hd].
  destruct (undec_digits _ _ Mi) as [Mi0 Mid]. destruct (undec_digits _ _ S) as [S0 Sd].
  assert (Fd : forall x, f = Some x -> x <> [] /\ Forall isdigit x).
  { intros x ->. exact (undec_digits _ _ F). }
  set (date := date_text y mo d). set (clock := clock_text h mi (sec_text s f)).
  assert (Dn : forall c, c <> "-"%char -> In c sepchars -> Forall (fun x => x <> c) date).
  { intros c C1 C2. subst date. unfold date_text.
    repeat (apply Forall_app; split); try (apply Forall_forall; now apply digits_ne); repeat constructor; congruence. }
  assert (Cn : forall c, c <> ":"%char -> c <> "."%char -> In c sepchars -> Forall (fun x => x <> c) clock).
  { intros c C1 C2 C3. subst clock. apply In_clock; try (apply Forall_forall; now apply digits_ne); try congruence.
    intros x X. apply Forall_forall. apply digits_ne; [ now apply Fd | assumption ]. }
  assert (Da0 : date <> []) by (subst date; unfold date_text; destruct y; [ congruence | discriminate ]).
  assert (Ck0 : clock <> []) by (subst clock; unfold clock_text; destruct h; [ congruence | discriminate ]).
  unfold parse_iso8601.
  rewrite trim_id.
  2:{ subst date. unfold date_text. rewrite <- app_assoc. intros c r. now apply (head_notin []). }
  2:{ intros c r E. subst clock. unfold clock_text, sec_text in E. rewrite !app_assoc in E.
      destruct f as [ f | ].
      - rewrite !app_assoc in E. revert E. apply last_notin; now apply Fd.
      - revert E. now apply last_notin. }
  cbn [obind].
  destruct (date ++ [sep] ++ clock) as [ | c0 rest ] eqn:Eall.
  { exfalso. destruct date; [ congruence | discriminate ]. }
  rewrite <- Eall. clear c0 rest Eall.
  assert (Tok : (do dt1 <- tokenize (date ++ [sep] ++ clock) (s_ "T");
                 if Nat.eqb (length dt1) 1 then tokenize (date ++ [sep] ++ clock) (s_ " ") else Ok dt1)
                = Ok [date; clock]).
  { change (s_ "T") with ["T"%char]. change (s_ " ") with [" "%char]. destruct Sep as [ -> | -> ].
    - rewrite tokenize2; [ reflexivity | assumption | assumption | ].
      apply Forall_forall. apply Forall_app; split; [ apply Dn | apply Cn ]; try discriminate; cbn; tauto.
    - rewrite (tokenize1 _ "T").
      + cbn [obind length Nat.eqb]. apply tokenize2; [ assumption | assumption | ].
        apply Forall_forall. apply Forall_app; split; [ apply Dn | apply Cn ]; try discriminate; cbn; tauto.
      + destruct date; [ congruence | discriminate ].
      + apply Forall_forall. apply Forall_app; split; [ apply Dn | apply Forall_app; split; [ repeat constructor | apply Cn ] ];
          try discriminate; cbn; tauto. }
  change (obind (tokenize (date ++ [sep] ++ clock) (s_ "T")) ?g) with (obind (tokenize (date ++ [sep] ++ clock) (s_ "T")) g).
  revert Tok.
  destruct (tokenize (date ++ [sep] ++ clock) (s_ "T")) as [ dt1 | | | ]; cbn [obind]; try discriminate.
  intro Tok. rewrite Tok. cbn [obind]. clear Tok.
  subst date. rewrite (dotted_date _ _ _ _ _ _ _ Y Mo D) by lia. cbn [obind].
  subst clock. unfold clock_text. change (s_ ":") with [":"%char].
  assert (St0 : sec_text s f <> []) by (unfold sec_text; destruct s; [ congruence | destruct f; discriminate ]).
  rewrite tokenize3; [ | assumption | assumption | assumption | ].
  2:{ assert (G : forall x, Forall isdigit x -> Forall (fun c => c <> ":"%char) x).
      { intros x X. apply Forall_forall. apply digits_ne; [ assumption | cbn; tauto ]. }
      apply Forall_forall. repeat (apply Forall_app; split); auto.
      unfold sec_text. destruct f as [ f | ]; [ | now apply G ].
      repeat (apply Forall_app; split); [ now apply G | repeat constructor; discriminate | apply G; now apply Fd ]. }
  cbn [obind]. rewrite (seconds_tokens s f nf ns S F). cbn [obind].
  unfold string2short. rewrite (string2int_undec _ _ h nh), (string2int_undec _ _ mi nmi) by (assumption || lia).
  destruct f as [ f | ]; cbn [frac_ok milli] in *.
  - unfold string2frac. rewrite F. cbn [obind rd nth_error].
    rewrite (string2int_undec _ _ s ns) by (assumption || lia). reflexivity.
  - cbn [obind rd nth_error].
    rewrite (string2int_undec _ _ s ns) by (assumption || lia). reflexivity.
Qed.
