(** C56 specifications of time and space axes. *)
From Coq Require Import NArith ZArith QArith Qround Qabs Ascii String List Bool Lia Lqa.
From Coq Require Import ZifyBool ZifyNat ZifyN.
From Verif Require Import Base Rounding SearchModel SearchProofs StringModel StringProofs StringProps TextModel ConvertModel SpecModel SpecProofs.
Import ListNotations.
Local Open Scope Q_scope.

(** a multiple of the step *)
Definition multiple (d v : Q) : Prop := exists z : Z, v == inject_Z z * d.

(** the quotient of a time and the step is within int *)
Definition int_quotient (t d : Q) : Prop := - inject_Z (2 ^ 31) < t / d /\ t / d < inject_Z (2 ^ 31).

(** ** the positions 0 and x of a relative axis *)

(** the position 0: the last multiple of the step not above the start, for a start not before 0 *)
Theorem C56_start : forall t d, 0 < d -> 0 <= t -> int_quotient t d ->
  exists o, start_offset t d = Ok o /\ multiple d o /\ o <= t /\ t < o + d.
Proof.
  intros t d D T F. destruct (on_grid_pos t d D T F) as (z & E & A & B).
  exists (inject_Z z * d). unfold start_offset. rewrite E. cbn [obind].
  rewrite (proj2 (qltb_false t _)) by exact A. repeat split; auto. exists z. reflexivity.
Qed.

(** the position x: the last multiple of the step not above the end, for an end not before 0 *)
Theorem C56_end : forall t d, 0 < d -> 0 <= t -> int_quotient t d ->
  exists o, on_grid t d = Ok o /\ multiple d o /\ o <= t /\ t < o + d.
Proof.
  intros t d D T F. destruct (on_grid_pos t d D T F) as (z & E & A & B).
  exists (inject_Z z * d). repeat split; auto. exists z. reflexivity.
Qed.

(** a start before 0 that is a multiple of the step is kept; any other ends up between one and two
    steps too late *)
Theorem C56_negative_start : forall t d, 0 < d -> t < 0 -> int_quotient t d ->
  exists o, start_offset t d = Ok o /\ multiple d o /\
    (multiple d t -> o == t) /\ (~ multiple d t -> t + d < o /\ o < t + 2 * d).
Proof.
  intros t d D T F. destruct (on_grid_neg t d D T F) as (z & E & A & B).
  unfold start_offset. rewrite E. cbn [obind]. destruct (qltb t (inject_Z z * d)) eqn:L.
  - apply qltb_spec in L. exists (inject_Z z * d + d). split; [ reflexivity | ]. split; [ | split ].
    + exists (z + 1)%Z. rewrite inject_Z_plus. change (inject_Z 1) with 1. lra.
    + intros (k & K). exfalso. rewrite K in *.
      assert (X : 0 < inject_Z z - inject_Z k).
      { destruct (Qlt_le_dec 0 (inject_Z z - inject_Z k)) as [ G | G ]; [ exact G | ].
        assert (Y : inject_Z z * d <= inject_Z k * d) by (apply Qmult_le_compat_r; lra). lra. }
      assert (Y : 1 <= inject_Z z - inject_Z k).
      { assert (k < z)%Z by (rewrite Zlt_Qlt; lra).
        assert (k + 1 <= z)%Z as G by lia. rewrite Zle_Qle in G. rewrite inject_Z_plus in G.
        change (inject_Z 1) with 1 in G. lra. }
      assert (Z : (1 + inject_Z k) * d <= inject_Z z * d) by (apply Qmult_le_compat_r; lra). lra.
    + intros _. lra.
  - apply qltb_false in L. exists (inject_Z z * d). split; [ reflexivity | ]. split; [ now exists z | ]. split.
    + intros _. lra.
    + intro N. exfalso. apply N. exists z. lra.
Qed.

(** the documented rule (the first multiple not before the start) does not hold *)
Theorem C56_first_above_refuted :
  (exists o, start_offset 5 3 = Ok o /\ o == 3) /\ (exists o, start_offset (-5) 3 = Ok o /\ o == 0) /\
  (exists o, on_grid (-5) 3 = Ok o /\ o == -3).
Proof. repeat split; eexists; (split; [ reflexivity | reflexivity ]). Qed.

(** equal first values: division by zero and an undefined conversion *)
Theorem C56_equal_values_refuted : forall t d, d == 0 -> start_offset t d = UB.
Proof.
  intros t d E. unfold start_offset, on_grid. rewrite (proj2 (Qeq_bool_iff d 0) E). reflexivity.
Qed.

(** ** one value of the list *)

Definition is_number (s : str) : Prop := s <> [] /\ ~ In "x"%char s.

Theorem C56_plain_value : forall s2d s v o f, ~ In "x"%char s -> s2d s = Ok v ->
  translate_time s2d s o f = Ok (o + v) /\ translate_place s2d s o f = Ok (o + v).
Proof.
  intros s2d s v o f N E. unfold translate_time, translate_place. rewrite x_match_none by exact N.
  now rewrite E.
Qed.

Theorem C56_x : forall s2d o f,
  translate_time s2d (s_ "x") o f = Ok f /\ translate_place s2d (s_ "x") o f = Ok f.
Proof. intros. split; reflexivity. Qed.

(** a number of the form the pattern takes: one digit, an optional dot, digits *)
Definition digit_char (c : ascii) : Prop := (48 <= N_of_ascii c <= 57)%N.
Inductive short_number : str -> Prop :=
| sn_int : forall d ds, digit_char d -> Forall digit_char ds -> short_number (d :: ds)
| sn_frac : forall d ds, digit_char d -> Forall digit_char ds -> short_number (d :: "."%char :: ds).

Lemma is_digit_spec : forall c, is_digit c = true <-> digit_char c.
Proof.
  intro c. unfold is_digit, digit_value, digit_char.
  destruct ((48 <=? N_of_ascii c) && (N_of_ascii c <=? 57))%N eqn:E; split; intro H; try discriminate; try reflexivity; lia.
Qed.

Lemma digits_all : forall ds, Forall digit_char ds -> digits ds = ds.
Proof.
  induction 1 as [ | c ds C _ IH ]; [ reflexivity | ]. cbn. apply is_digit_spec in C. now rewrite C, IH.
Qed.

Lemma digit_facts : forall c, digit_char c ->
  is_space c = false /\ Ascii.eqb c "+" = false /\ Ascii.eqb c "-" = false /\ Ascii.eqb c "." = false.
Proof.
  intros c H. unfold digit_char in H. repeat split.
  - unfold is_space. lia.
  - apply Ascii.eqb_neq. intros ->. vm_compute in H. now destruct H.
  - apply Ascii.eqb_neq. intros ->. vm_compute in H. now destruct H.
  - apply Ascii.eqb_neq. intros ->. vm_compute in H. now destruct H.
Qed.

Lemma x_match_number : forall pre n, (pre = [] \/ pre = ["+"%char] \/ pre = ["-"%char]) -> short_number n ->
  x_match ("x"%char :: pre ++ n) = Some (hd_error pre, n).
Proof.
  intros pre n P H.
  assert (N : forall r, r = n -> (match skip_space r with
                 | d :: r' =>
                     if is_digit d then
                       match r' with
                       | p :: r'' => if Ascii.eqb p "." then d :: p :: digits r'' else d :: digits r'
                       | [] => [d]
                       end
                     else []
                 | [] => []
                 end) = n).
  { intros r ->. destruct H as [ d ds D F | d ds D F ].
    - destruct (digit_facts d D) as (S & _). cbn [skip_space]. rewrite S.
      rewrite (proj2 (is_digit_spec d) D). destruct ds as [ | p ds ]; [ reflexivity | ].
      inversion F; subst. destruct (digit_facts p) as (_ & _ & _ & X); [ assumption | ]. rewrite X.
      now rewrite (digits_all (p :: ds)).
    - destruct (digit_facts d D) as (S & _). cbn [skip_space]. rewrite S.
      rewrite (proj2 (is_digit_spec d) D). change (Ascii.eqb "." ".") with true. cbn iota.
      now rewrite digits_all. }
  unfold x_match. cbn [find_from]. change (Ascii.eqb "x" "x") with true. cbn iota.
  cbn [Nat.add skipn].
  destruct P as [ -> | [ -> | -> ] ]; cbn [app hd_error].
  - assert (Q : exists d r, n = d :: r /\ digit_char d) by (destruct H; eauto).
    destruct Q as (d & r & -> & D). destruct (digit_facts d D) as (S & X1 & X2 & _).
    specialize (N (d :: r) eq_refl).
    assert (SK : skip_space (d :: r) = d :: r) by (cbn [skip_space]; now rewrite S).
    rewrite !SK, X1, X2. cbn [orb]. cbv iota beta. f_equal. f_equal. exact N.
  - change (skip_space ("+"%char :: n)) with ("+"%char :: n). cbn iota.
    change (Ascii.eqb "+" "+" || Ascii.eqb "+" "-")%bool with true. cbn iota. f_equal. f_equal. now apply N.
  - change (skip_space ("-"%char :: n)) with ("-"%char :: n). cbn iota.
    change (Ascii.eqb "-" "+" || Ascii.eqb "-" "-")%bool with true. cbn iota. f_equal. f_equal. now apply N.
Qed.

Lemma short_ne : forall n, short_number n -> exists c r, n = c :: r.
Proof. intros n [ d ds | d ds ]; eauto. Qed.

(** behind the end: both kinds of axes add *)
Theorem C56_x_plus : forall s2d n v o f, short_number n -> s2d n = Ok v ->
  translate_time s2d (s_ "x+" ++ n) o f = Ok (f + v) /\ translate_place s2d (s_ "x+" ++ n) o f = Ok (f + v).
Proof.
  intros s2d n v o f H E. change (s_ "x+" ++ n) with ("x"%char :: ["+"%char] ++ n).
  unfold translate_time, translate_place. rewrite x_match_number by auto. cbn [hd_error sign_is].
  change (Ascii.eqb "+" "+") with true. destruct (short_ne n H) as (c & r & ->). cbn iota. rewrite E. now split.
Qed.

(** before the end: the space axis subtracts ... *)
Theorem C56_x_minus : forall s2d n v o f, short_number n -> s2d n = Ok v ->
  translate_place s2d (s_ "x-" ++ n) o f = Ok (f - v).
Proof.
  intros s2d n v o f H E. change (s_ "x-" ++ n) with ("x"%char :: ["-"%char] ++ n).
  unfold translate_place. rewrite x_match_number by auto. cbn [hd_error sign_is].
  change (Ascii.eqb "-" "+") with false. change (Ascii.eqb "-" "-") with true. cbn iota. now rewrite E.
Qed.

(** ... but the time axis gives the origin of the unit, whatever the end is *)
Theorem C56_time_x_minus_refuted : forall s2d n o f, short_number n ->
  translate_time s2d (s_ "x-" ++ n) o f = Ok 0.
Proof.
  intros s2d n o f H. change (s_ "x-" ++ n) with ("x"%char :: ["-"%char] ++ n).
  unfold translate_time. rewrite x_match_number by auto. cbn [hd_error sign_is].
  change (Ascii.eqb "-" "+") with false. change (Ascii.eqb "-" "-") with true. cbn iota.
  destruct (short_ne n H) as (c & r & ->). reflexivity.
Qed.

(** and subtracts when there is no sign *)
Theorem C56_time_x_no_sign : forall s2d n v o f, short_number n -> s2d n = Ok v ->
  translate_time s2d (s_ "x" ++ n) o f = Ok (f - v) /\ translate_place s2d (s_ "x" ++ n) o f = Ok f.
Proof.
  intros s2d n v o f H E. change (s_ "x" ++ n) with ("x"%char :: [] ++ n).
  unfold translate_time, translate_place. rewrite x_match_number by auto. cbn [hd_error sign_is negb].
  destruct (short_ne n H) as (c & r & ->). cbn iota. rewrite E. now split.
Qed.

(** a fraction behind two or more digits is dropped *)
Theorem C56_fraction_dropped_refuted : forall s2d o f,
  translate_place s2d (s_ "x+10.5") o f = translate_place s2d (s_ "x+10") o f /\
  translate_time s2d (s_ "x+10.5") o f = translate_time s2d (s_ "x+10") o f.
Proof. intros. split; reflexivity. Qed.

(** ** whole axes *)

(** a token of the list: not empty, no comma, no x, not the dots *)
Definition plain_token (t : str) : Prop :=
  t <> [] /\ ~ In ","%char t /\ ~ In "x"%char t /\ t <> s_ "...".

(** "a,b,...,x" relative to a start: a and b are counted from the start position, then follow all
    values with the same step that are before the last grid position, then that position *)
Theorem C56_relative_axis : forall s2d translate a b va vb start fin,
  (translate = translate_time s2d \/ translate = translate_place s2d) ->
  plain_token a -> plain_token b -> s2d a = Ok va -> s2d b = Ok vb -> va < vb ->
  0 <= start -> 0 <= fin -> int_quotient start (vb - va) -> int_quotient fin (vb - va) ->
  let d := vb - va in
  exists o e prog fuel0,
    multiple d o /\ o <= start /\ start < o + d /\ multiple d e /\ e <= fin /\ fin < e + d /\
    (forall j v, nth_error prog j = Some v ->
       v == o + vb + inject_Z (Z.of_nat (j + 1)) * d /\ clearly_before d v e) /\
    ~ clearly_before d (o + vb + inject_Z (Z.of_nat (length prog + 1)) * d) e /\
    forall fuel, (fuel0 <= fuel)%nat ->
      relative_steps translate s2d fuel (join [a; b; s_ "..."; s_ "x"] (s_ ",")) start fin =
      Ok ([o + va; o + vb] ++ prog ++ [e]).
Proof.
  intros s2d translate a b va vb start fin T (A1 & A2 & A3 & A4) (B1 & B2 & B3 & B4) Ea Eb L S0 F0 QS QF d.
  destruct (C56_start start d) as (o & EO & MO & O1 & O2); [ unfold d; lra | assumption | assumption | ].
  destruct (C56_end fin d) as (e & EE & ME & E1 & E2); [ unfold d; lra | assumption | assumption | ].
  destruct (C20_dots_expand [] (o + va) (o + vb) e []) as (fuel0 & k & prog & LP & P & NB & R).
  { intro X. lra. }
  assert (DD : o + vb - (o + va) == d) by (unfold d; lra).
  assert (CB : forall x, clearly_before (o + vb - (o + va)) x e <-> clearly_before d x e).
  { intro x. unfold clearly_before. rewrite DD. tauto. }
  exists o, e, prog, fuel0. repeat (split; [ assumption | ]). split; [ | split ].
  - intros j v E. destruct (P j v E) as [ V C ]. split; [ rewrite V, DD; lra | now apply CB ].
  - intro C. apply NB. apply CB. rewrite LP in C. unfold clearly_before in *. rewrite DD. exact C.
  - intros fuel F. unfold relative_steps.
    rewrite C18_tokenize_join.
    2: discriminate.
    2: auto.
    2:{ repeat constructor; auto; try discriminate.
        - intros c I [ <- | [] ]. contradiction.
        - intros c I [ <- | [] ]. contradiction.
        - intros c [ <- | [ <- | [ <- | [] ] ] ] [ X | [] ]; discriminate X.
        - intros c [ <- | [] ] [ X | [] ]; discriminate X. }
    cbn [obind]. rewrite Eb, Ea. cbn [obind]. fold d. rewrite EO. cbn [obind]. rewrite EE. cbn [obind omapM].
    unfold dots. rewrite !str_eqb_neq by (assumption || discriminate).
    assert (TX : forall s v, ~ In "x"%char s -> s2d s = Ok v -> translate s o e = Ok (o + v)).
    { intros s v N E. destruct T as [ -> | -> ]; now apply (C56_plain_value s2d s v o e). }
    rewrite (TX a va), (TX b vb) by assumption.
    replace (translate (s_ "x") o e) with (Ok e) by (destruct T as [ -> | -> ]; reflexivity).
    cbn [obind]. change (str_eqb (s_ "...") (s_ "...")) with true. change (str_eqb (s_ "x") (s_ "...")) with false. cbn [obind].
    change [Num (o + va); Num (o + vb); Dots; Num e] with (map Num ([] ++ [o + va; o + vb]) ++ Dots :: Num e :: []).
    rewrite R by exact F. reflexivity.
Qed.

(** an absolute space axis is the dotted list itself *)
Theorem C56_absolute_axis : forall s2d range fuel steps, steps <> [] ->
  (forall c, In c steps -> c <> ";"%char /\ c <> "="%char) ->
  contains (s_ "relativeStart") steps = false \/ range <> None ->
  spatial_spec s2d range fuel steps = dotted_text s2d fuel steps.
Proof.
  intros s2d range fuel steps NE NC R. unfold spatial_spec.
  assert (TS : forall c, (forall x, In x steps -> x <> c) -> tokenize steps [c] = Ok [steps]).
  { intros c H. assert (J := C18_tokenize_join [c] [c] [steps]). cbn [join join_loop] in J. rewrite app_nil_l in J. apply J.
    - discriminate.
    - auto.
    - repeat constructor; auto. intros x I [ <- | [] ]. now apply (H c). }
  change (s_ ";") with [";"%char]. rewrite TS by (intros x I; now apply NC). cbn [obind parse_sections].
  change (s_ "=") with ["="%char]. rewrite TS by (intros x I; now apply NC). cbn [obind parse_sections].
  destruct range as [ [ st fi ] | ]; [ reflexivity | ].
  destruct R as [ -> | R ]; [ reflexivity | congruence ].
Qed.

(** start and end are required for a relative axis, and the unit is refused *)
Theorem C56_relative_needs_range : forall s2d fuel spec, contains (s_ "relativeStart") spec = true ->
  spatial_spec s2d None fuel spec = Throw.
Proof. intros s2d fuel spec H. unfold spatial_spec. now rewrite H. Qed.

(** fewer than two values *)
Theorem C56_needs_two_values : forall translate s2d fuel steps start fin t,
  tokenize steps (s_ ",") = Ok t -> (length t < 2)%nat ->
  relative_steps translate s2d fuel steps start fin = Throw.
Proof.
  intros translate s2d fuel steps start fin t E L. unfold relative_steps. rewrite E. cbn [obind].
  destruct t as [ | a [ | b t ] ]; cbn in L; try reflexivity. lia.
Qed.

(** ** the sections *)

(** a key and a value with nothing that separates *)
Definition no_sep (s : str) : Prop := s <> [] /\ ~ In ";"%char s /\ ~ In "="%char s.

Lemma split_key : forall k v, no_sep k -> no_sep v -> tokenize (k ++ s_ "=" ++ v) (s_ "=") = Ok [k; v].
Proof.
  intros k v (K1 & K2 & K3) (V1 & V2 & V3). assert (J := C18_tokenize_join (s_ "=") (s_ "=") [k; v]).
  cbn [join join_loop] in J. rewrite app_nil_l in J. rewrite <- app_assoc in J. apply J; [ discriminate | auto | ].
  repeat constructor; auto; intros c I [ <- | [] ]; contradiction.
Qed.
Lemma split_one : forall v, no_sep v -> tokenize v (s_ "=") = Ok [v].
Proof.
  intros v (V1 & V2 & V3). assert (J := C18_tokenize_join (s_ "=") (s_ "=") [v]).
  cbn [join join_loop] in J. rewrite app_nil_l in J. apply J; [ discriminate | auto | ].
  repeat constructor; auto; intros c I [ <- | [] ]; contradiction.
Qed.
Lemma split_sections : forall l, l <> [] -> Forall (fun s : str => s <> [] /\ ~ In ";"%char s) l ->
  tokenize (join l (s_ ";")) (s_ ";") = Ok l.
Proof.
  intros l NE F. apply C18_tokenize_join; [ discriminate | auto | ].
  revert F. apply Forall_impl. intros s (A & B). split; [ exact A | ]. intros c I [ <- | [] ]. contradiction.
Qed.
Lemma key_no_semi : forall k v, no_sep k -> no_sep v -> k ++ s_ "=" ++ v <> [] /\ ~ In ";"%char (k ++ s_ "=" ++ v).
Proof.
  intros k v (K1 & K2 & _) (V1 & V2 & _). split.
  - destruct k; [ congruence | discriminate ].
  - intro I. apply in_app_or in I. destruct I as [ I | I ]; [ contradiction | ].
    apply in_app_or in I. destruct I as [ [ I | [] ] | I ]; [ discriminate I | contradiction ].
Qed.

(** an absolute time axis "steps;unit=u": the calendar times in that unit, with dots expanded *)
Theorem C56_absolute_time : forall s2d range iso fuel steps u, no_sep steps -> no_sep u ->
  time_spec s2d range iso fuel (join [steps; s_ "unit=" ++ u] (s_ ";")) =
  do times <- tokenize steps (s_ ",");
  do ds <- omapM (fun t => if dots t then Ok Dots else do v <- iso u t; Ok (Num v)) times;
  do vs <- tokenize_dotted fuel ds;
  Ok (u, vs).
Proof.
  intros s2d range iso fuel steps u S U. unfold time_spec.
  assert (KU : no_sep (s_ "unit")) by (repeat split; cbn; intuition discriminate).
  change (s_ "unit=" ++ u) with (s_ "unit" ++ s_ "=" ++ u).
  rewrite split_sections; [ | discriminate | ].
  2:{ constructor; [ destruct S as (A & B & C); now split | ]. constructor; [ now apply key_no_semi | constructor ]. }
  cbn [obind parse_sections]. rewrite split_one by exact S. cbn [obind].
  rewrite split_key by assumption. cbn [obind]. change (str_eqb (s_ "unit") (s_ "unit")) with true. reflexivity.
Qed.

(** without a unit: seconds since 1970 *)
Theorem C56_default_unit : forall s2d range iso fuel steps, no_sep steps ->
  time_spec s2d range iso fuel steps =
  do times <- tokenize steps (s_ ",");
  do ds <- omapM (fun t => if dots t then Ok Dots
                           else do v <- iso (s_ "seconds since 1970-01-01 00:00:00") t; Ok (Num v)) times;
  do vs <- tokenize_dotted fuel ds;
  Ok (s_ "seconds since 1970-01-01 00:00:00", vs).
Proof.
  intros s2d range iso fuel steps S. unfold time_spec.
  assert (J := split_sections [steps]). cbn [join join_loop] in J. rewrite app_nil_l in J. rewrite J; [ | discriminate | ].
  2:{ constructor; [ destruct S as (A & B & C); now split | constructor ]. }
  cbn [obind parse_sections]. rewrite split_one by exact S. reflexivity.
Qed.

(** a relative time axis "steps;relativeUnit=u": start and end are taken in u, and u is the unit of
    the result *)
Theorem C56_relative_time : forall s2d range iso fuel steps u start fin, no_sep steps -> no_sep u ->
  range u = Ok (start, fin) ->
  time_spec s2d range iso fuel (join [steps; s_ "relativeUnit=" ++ u] (s_ ";")) =
  omap (fun vs => (u, vs)) (relative_steps (translate_time s2d) s2d fuel steps start fin).
Proof.
  intros s2d range iso fuel steps u start fin S U R. unfold time_spec.
  assert (KU : no_sep (s_ "relativeUnit")) by (repeat split; cbn; intuition discriminate).
  change (s_ "relativeUnit=" ++ u) with (s_ "relativeUnit" ++ s_ "=" ++ u).
  rewrite split_sections; [ | discriminate | ].
  2:{ constructor; [ destruct S as (A & B & C); now split | ]. constructor; [ now apply key_no_semi | constructor ]. }
  cbn [obind parse_sections]. rewrite split_one by exact S. cbn [obind].
  rewrite split_key by assumption. cbn [obind].
  change (str_eqb (s_ "relativeUnit") (s_ "unit")) with false.
  change (str_eqb (s_ "relativeUnit") (s_ "relativeUnit")) with true. cbn iota. cbn [obind].
  destruct u as [ | c u ]; [ destruct U as (X & _); congruence | ]. cbn iota.
  rewrite R. cbn [obind]. now destruct (relative_steps (translate_time s2d) s2d fuel steps start fin).
Qed.

(** what is refused: a second list of steps, any other key, a unit on a space axis *)
Theorem C56_refused_sections : forall s2d range iso fuel a b k v, no_sep a -> no_sep b -> no_sep k -> no_sep v ->
  (time_spec s2d range iso fuel (join [a; b] (s_ ";")) = Throw) /\
  (k <> s_ "unit" -> k <> s_ "relativeUnit" ->
     time_spec s2d range iso fuel (join [a; k ++ s_ "=" ++ v] (s_ ";")) = Throw) /\
  (forall r, spatial_spec s2d r fuel (join [a; b] (s_ ";")) = Throw) /\
  (forall r, k <> s_ "relativeStart" -> spatial_spec s2d r fuel (join [a; k ++ s_ "=" ++ v] (s_ ";")) = Throw).
Proof.
  intros s2d range iso fuel a b k v A B K V.
  assert (TAB : tokenize (join [a; b] (s_ ";")) (s_ ";") = Ok [a; b]).
  { apply split_sections; [ discriminate | ]. destruct A as (A1 & A2 & _), B as (B1 & B2 & _). repeat constructor; auto. }
  assert (TAK : tokenize (join [a; k ++ s_ "=" ++ v] (s_ ";")) (s_ ";") = Ok [a; k ++ s_ "=" ++ v]).
  { apply split_sections; [ discriminate | ]. destruct A as (A1 & A2 & _).
    constructor; [ now split | ]. constructor; [ now apply key_no_semi | constructor ]. }
  assert (NA : exists c r, a = c :: r) by (destruct A as (A1 & _); destruct a; [ congruence | eauto ]).
  destruct NA as (c & r0 & EA).
  assert (P1 : forall rk ua u x, parse_sections rk ua [a; b] ([], u, x) = Throw).
  { intros. cbn [parse_sections]. rewrite (split_one a A), (split_one b B). cbn [obind]. rewrite EA. reflexivity. }
  assert (P2 : forall rk ua u x, k <> rk -> (k = s_ "unit" -> ua = false) ->
               parse_sections rk ua [a; k ++ s_ "=" ++ v] ([], u, x) = Throw).
  { intros rk ua u x N1 N2. cbn [parse_sections]. rewrite (split_one a A). cbn [obind]. rewrite (split_key k v K V). cbn [obind].
    destruct (str_eqb k (s_ "unit")) eqn:E.
    - apply str_eqb_eq in E. now rewrite (N2 E).
    - now rewrite str_eqb_neq. }
  repeat split.
  - unfold time_spec. rewrite TAB. cbn [obind]. now rewrite P1.
  - intros N1 N2. unfold time_spec. rewrite TAK. cbn [obind]. rewrite P2; [ reflexivity | exact N2 | congruence ].
  - intro r. unfold spatial_spec. rewrite TAB. cbn [obind]. rewrite P1. cbn [obind].
    destruct r; [ reflexivity | ]. now destruct (contains _ _).
  - intros r N. unfold spatial_spec. rewrite TAK. cbn [obind]. rewrite P2 by auto. cbn [obind].
    destruct r; [ reflexivity | ]. now destruct (contains _ _).
Qed.

(** a relative space axis "steps;relativeStart=v" uses the given start and end; the value v itself is
    not used *)
Theorem C56_relative_place : forall s2d fuel steps v start fin, no_sep steps -> no_sep v ->
  spatial_spec s2d (Some (start, fin)) fuel (join [steps; s_ "relativeStart=" ++ v] (s_ ";")) =
  relative_steps (translate_place s2d) s2d fuel steps start fin.
Proof.
  intros s2d fuel steps u start fin S U. unfold spatial_spec.
  assert (KU : no_sep (s_ "relativeStart")) by (repeat split; cbn; intuition discriminate).
  change (s_ "relativeStart=" ++ u) with (s_ "relativeStart" ++ s_ "=" ++ u).
  rewrite split_sections; [ | discriminate | ].
  2:{ constructor; [ destruct S as (A & B & C); now split | ]. constructor; [ now apply key_no_semi | constructor ]. }
  cbn [obind parse_sections]. rewrite split_one by exact S. cbn [obind].
  rewrite split_key by assumption. cbn [obind].
  change (str_eqb (s_ "relativeStart") (s_ "unit")) with false.
  change (str_eqb (s_ "relativeStart") (s_ "relativeStart")) with true. cbn iota. cbn [obind].
  destruct u as [ | c u ]; [ destruct U as (X & _); congruence | ]. reflexivity.
Qed.

(** a reader for numbers, for the examples *)
Definition read_q (s : str) : outcome Q :=
  match s with
  | "-"%char :: r => match undec r with Some n => Ok (- inject_Z (Z.of_N n)) | None => Throw end
  | _ => match undec s with Some n => Ok (inject_Z (Z.of_N n)) | None => Throw end
  end.

Definition within_order (l : list Q) (m : list Z) : bool :=
  (Nat.eqb (length l) (length m) && forallb (fun p => Qeq_bool (fst p) (inject_Z (snd p))) (combine l m))%bool.

Example C56_nonvacuous :
  (exists l, spatial_spec read_q (Some (30000, 230000)) 20 (s_ "0,50000,...,x,x+50000;relativeStart=0") = Ok l /\
    within_order l [0; 50000; 100000; 150000; 200000; 250000]%Z = true) /\
  (exists l, time_spec read_q (fun _ => Ok (7, 16)) (fun _ _ => Throw) 20
       (s_ "-3,0,...,x;relativeUnit=hours since 2000-01-01 00:00:00") = Ok (s_ "hours since 2000-01-01 00:00:00", l) /\
    within_order l [3; 6; 9; 12; 15]%Z = true) /\
  int_quotient 7 3 /\ plain_token (s_ "-3") /\ short_number (s_ "5").
Proof.
  repeat split.
  - eexists. split; [ reflexivity | reflexivity ].
  - eexists. split; [ reflexivity | reflexivity ].
  - discriminate.
  - cbn. intros [ X | [ X | [] ] ]; discriminate X.
  - cbn. intros [ X | [ X | [] ] ]; discriminate X.
  - discriminate.
  - apply sn_int; [ | constructor ]. unfold digit_char. cbn. lia.
Qed.

Print Assumptions C56_start.
Print Assumptions C56_end.
Print Assumptions C56_negative_start.
Print Assumptions C56_first_above_refuted.
Print Assumptions C56_equal_values_refuted.
Print Assumptions C56_plain_value.
Print Assumptions C56_x.
Print Assumptions C56_x_plus.
Print Assumptions C56_x_minus.
Print Assumptions C56_time_x_minus_refuted.
Print Assumptions C56_time_x_no_sign.
Print Assumptions C56_fraction_dropped_refuted.
Print Assumptions C56_relative_axis.
Print Assumptions C56_absolute_axis.
Print Assumptions C56_relative_needs_range.
Print Assumptions C56_needs_two_values.
Print Assumptions C56_absolute_time.
Print Assumptions C56_default_unit.
Print Assumptions C56_relative_time.
Print Assumptions C56_refused_sections.
Print Assumptions C56_relative_place.
