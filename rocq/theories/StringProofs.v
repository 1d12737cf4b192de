(** Lemmas on string utilities. *)
From Coq Require Import NArith ZArith QArith Qround Ascii String List Bool Arith Lia Lqa.
From Coq Require Import ZifyBool ZifyNat ZifyN.
From Verif Require Import Base StdMap SearchModel SearchProofs StringModel.
Import ListNotations.
Local Open Scope nat_scope.

Lemma mem_In : forall c l, mem c l = true <-> In c l.
Proof.
  intros. unfold mem. rewrite existsb_exists. split.
  - intros (x & I & E). apply Ascii.eqb_eq in E. now subst.
  - intro I. exists c. split; [ exact I | apply Ascii.eqb_refl ].
Qed.
Lemma mem_false : forall c l, mem c l = false <-> ~ In c l.
Proof. intros. rewrite <- mem_In. destruct (mem c l); intuition congruence. Qed.

(** longest prefix of characters not satisfying [f] *)
Lemma find_from_spec : forall f s i,
  match find_from f s i with
  | Some p => exists n c, p = i + n /\ nth_error s n = Some c /\ f c = true /\
                          Forall (fun c => f c = false) (firstn n s)
  | None => Forall (fun c => f c = false) s
  end.
Proof.
  intros f s. induction s as [ | c s IH ]; intro i; cbn; [ constructor | ].
  destruct (f c) eqn:E.
  - exists 0, c. repeat split; [ lia | exact E | constructor ].
  - specialize (IH (S i)). destruct (find_from f s (S i)) as [ p | ].
    + destruct IH as (n & c' & P & N & F & A). exists (S n), c'.
      repeat split; [ lia | exact N | exact F | cbn; now constructor ].
    + now constructor.
Qed.

(** decomposition of a string at the first character satisfying [f] *)
Lemma find_from_app : forall f a c b i, Forall (fun c => f c = false) a -> f c = true ->
  find_from f (a ++ c :: b) i = Some (i + length a).
Proof.
  intros f a c b. induction a as [ | x a IH ]; intros i A C; cbn.
  - rewrite C. f_equal. lia.
  - inversion A; subst. rewrite H1. rewrite IH by assumption. f_equal. lia.
Qed.

Lemma find_from_none : forall f a i, Forall (fun c => f c = false) a -> find_from f a i = None.
Proof.
  intros f a. induction a as [ | x a IH ]; intros i A; cbn; [ reflexivity | ].
  inversion A; subst. rewrite H1. now apply IH.
Qed.

Lemma split_first : forall (f : ascii -> bool) s,
  (Forall (fun c => f c = false) s) \/
  (exists a c b, s = a ++ c :: b /\ f c = true /\ Forall (fun c => f c = false) a).
Proof.
  intros f s. induction s as [ | x s IH ]; [ left; constructor | ].
  destruct (f x) eqn:E.
  - right. exists [], x, s. repeat split; auto.
  - destruct IH as [ A | (a & c & b & -> & C & A) ].
    + left. now constructor.
    + right. exists (x :: a), c, b. repeat split; auto.
Qed.

(** ** tokenize *)

Definition isd (delims : str) (c : ascii) : Prop := In c delims.
Definition notd (delims : str) (c : ascii) : Prop := ~ In c delims.

Lemma all_delim : forall delims s, Forall (isd delims) s ->
  Forall (fun c => negb (mem c delims) = false) s.
Proof.
  intros. eapply Forall_impl; [ | exact H ]. intros c I. cbn. apply negb_false_iff, mem_In, I.
Qed.
Lemma no_delim : forall delims s, Forall (notd delims) s -> Forall (fun c => mem c delims = false) s.
Proof. intros. eapply Forall_impl; [ | exact H ]. intros c I. cbn. apply mem_false, I. Qed.

(** [runs d s ts]: ts are the maximal runs of non-delimiters of s *)
Inductive runs (delims : str) : str -> list str -> Prop :=
| runs_none : forall d, Forall (isd delims) d -> runs delims d []
| runs_last : forall d t, Forall (isd delims) d -> t <> [] -> Forall (notd delims) t ->
    runs delims (d ++ t) [t]
| runs_cons : forall d t c s ts, Forall (isd delims) d -> t <> [] -> Forall (notd delims) t ->
    isd delims c -> runs delims s ts -> runs delims (d ++ t ++ c :: s) (t :: ts).

Lemma split_delims : forall delims s,
  exists d r, s = d ++ r /\ Forall (isd delims) d /\
    (r = [] \/ exists c r', r = c :: r' /\ notd delims c).
Proof.
  intros delims s. destruct (split_first (fun c => negb (mem c delims)) s)
    as [ A | (a & c & b & -> & C & A) ].
  - exists s, []. rewrite app_nil_r. repeat split; auto.
    eapply Forall_impl; [ | exact A ]. intros c I. cbn in I. apply negb_false_iff, mem_In in I. exact I.
  - exists a, (c :: b). repeat split; auto.
    + eapply Forall_impl; [ | exact A ]. intros x I. cbn in I. apply negb_false_iff, mem_In in I. exact I.
    + right. exists c, b. split; [ reflexivity | ]. apply negb_true_iff, mem_false in C. exact C.
Qed.

Lemma split_token : forall delims s,
  exists t r, s = t ++ r /\ Forall (notd delims) t /\
    (r = [] \/ exists c r', r = c :: r' /\ isd delims c).
Proof.
  intros delims s. destruct (split_first (fun c => mem c delims) s)
    as [ A | (a & c & b & -> & C & A) ].
  - exists s, []. rewrite app_nil_r. repeat split; auto.
    eapply Forall_impl; [ | exact A ]. intros c I. cbn in I. apply mem_false in I. exact I.
  - exists a, (c :: b). repeat split; auto.
    + eapply Forall_impl; [ | exact A ]. intros x I. cbn in I. apply mem_false in I. exact I.
    + right. exists c, b. split; [ reflexivity | ]. now apply mem_In in C.
Qed.

Lemma fn_delims : forall pre delims d r, Forall (isd delims) d ->
  (r = [] \/ exists c r', r = c :: r' /\ notd delims c) ->
  find_first_not_of (pre ++ d ++ r) delims (Some (length pre)) =
  match r with [] => None | _ => Some (length pre + length d) end.
Proof.
  intros pre delims d r D R. unfold find_first_not_of.
  rewrite skipn_app, skipn_all, Nat.sub_diag. cbn [app skipn].
  destruct R as [ -> | (c & r' & -> & C) ].
  - rewrite app_nil_r. apply find_from_none. now apply all_delim.
  - apply find_from_app; [ now apply all_delim | ]. apply negb_true_iff, mem_false, C.
Qed.

Lemma fo_token : forall pre delims t r, Forall (notd delims) t ->
  (r = [] \/ exists c r', r = c :: r' /\ isd delims c) ->
  find_first_of (pre ++ t ++ r) delims (Some (length pre)) =
  match r with [] => None | _ => Some (length pre + length t) end.
Proof.
  intros pre delims t r T R. unfold find_first_of.
  rewrite skipn_app, skipn_all, Nat.sub_diag. cbn [app skipn].
  destruct R as [ -> | (c & r' & -> & C) ].
  - rewrite app_nil_r. apply find_from_none. now apply no_delim.
  - apply find_from_app; [ now apply no_delim | ]. apply mem_In, C.
Qed.

Lemma substr_app : forall (a b c : str), substr (a ++ b ++ c) (length a) (Some (length b)) = Ok b.
Proof.
  intros. unfold substr. replace (length (a ++ b ++ c) <? length a) with false.
  2:{ symmetry. apply Nat.ltb_ge. rewrite app_length. lia. }
  f_equal. rewrite skipn_app, skipn_all, Nat.sub_diag. cbn.
  rewrite firstn_app, firstn_all, Nat.sub_diag. cbn. apply app_nil_r.
Qed.
Lemma substr_app_end : forall (a b : str), substr (a ++ b) (length a) None = Ok b.
Proof.
  intros. unfold substr. replace (length (a ++ b) <? length a) with false.
  2:{ symmetry. apply Nat.ltb_ge. rewrite app_length. lia. }
  f_equal. rewrite skipn_app, skipn_all, Nat.sub_diag. reflexivity.
Qed.

Lemma tok_loop_runs : forall fuel delims pre s acc,
  length s < fuel ->
  exists ts, runs delims s ts /\
    (let lastPos := find_first_not_of (pre ++ s) delims (Some (length pre)) in
     tok_loop fuel (pre ++ s) delims lastPos (find_first_of (pre ++ s) delims lastPos) acc
     = Ok (acc ++ ts)).
Proof.
  induction fuel as [ | fuel IH ]; intros delims pre s acc F; [ lia | ].
  destruct (split_delims delims s) as (d & r & -> & D & R).
  cbv zeta. rewrite fn_delims by assumption.
  destruct R as [ -> | (c & r' & -> & C) ].
  - exists []. split; [ rewrite app_nil_r; now constructor | ]. cbn. now rewrite app_nil_r.
  - destruct (split_token delims (c :: r')) as (t & r & E & Tn & R). rewrite E in *.
    assert (T0 : t <> []).
    { destruct t; [ | discriminate ]. cbn in E. subst r.
      destruct R as [ R | (c1 & r1 & R & I) ]; [ discriminate | ]. injection R as -> ->. contradiction. }
    destruct (t ++ r) as [ | x0 xs ] eqn:Etr.
    { exfalso. destruct t; [ now apply T0 | discriminate ]. }
    rewrite <- Etr in *. clear x0 xs Etr c r' C E.
    rewrite <- app_length.
    pose proof (fo_token (pre ++ d) delims t r Tn R) as FO.
    rewrite <- !app_assoc in FO. rewrite FO.
    destruct R as [ -> | (c & s' & -> & C) ].
    + exists [t]. split; [ rewrite app_nil_r; now constructor | ].
      cbn [tok_loop option_map].
      rewrite app_nil_r. rewrite app_assoc. rewrite substr_app_end. cbn [obind].
      unfold find_first_not_of at 1 2, find_first_of.
      destruct fuel; cbn [tok_loop]; reflexivity.
    + cbn [tok_loop option_map].
      replace (length (pre ++ d) + length t - length (pre ++ d)) with (length t) by lia.
      rewrite (app_assoc pre d). rewrite substr_app. cbn [obind].
      (* continue after the token *)
      assert (Q : exists ts, runs delims (c :: s') ts /\
        tok_loop fuel ((pre ++ d ++ t) ++ c :: s') delims
          (find_first_not_of ((pre ++ d ++ t) ++ c :: s') delims (Some (length (pre ++ d ++ t))))
          (find_first_of ((pre ++ d ++ t) ++ c :: s') delims
             (find_first_not_of ((pre ++ d ++ t) ++ c :: s') delims (Some (length (pre ++ d ++ t)))))
          (acc ++ [t]) = Ok ((acc ++ [t]) ++ ts)).
      { apply IH. rewrite !app_length in F. destruct t; [ now contradiction T0 | ]. cbn [length] in *. lia. }
      destruct Q as (ts & Rs & Q). rewrite <- !app_assoc in Q. rewrite !app_length in Q.
      rewrite <- !app_assoc. rewrite !app_length.
      replace (length pre + (length d + length t)) with (length pre + length d + length t) in Q by lia.
      exists (t :: ts). split.
      * apply runs_cons; try assumption.
        inversion Rs; subst.
        -- constructor. now inversion H; subst.
        -- destruct d0 as [ | x d0 ].
           { cbn in H. subst t0. inversion H2; subst. contradiction. }
           cbn in H. injection H as -> <-. inversion H0; subst. now constructor.
        -- destruct d0 as [ | x d0 ].
           { destruct t0 as [ | x t0 ]; [ congruence | ]. cbn in H. injection H as -> <-.
             inversion H2; subst. contradiction. }
           cbn in H. injection H as -> <-. inversion H0; subst. now constructor.
      * exact Q.
Qed.

Lemma tokenize_runs : forall s delims, exists ts, tokenize s delims = Ok ts /\ runs delims s ts.
Proof.
  intros s delims. destruct (tok_loop_runs (S (length s)) delims [] s [] (Nat.lt_succ_diag_r _))
    as (ts & R & E).
  exists ts. split; [ exact E | exact R ].
Qed.

Lemma app_split_unique : forall (P : ascii -> Prop) a x b a' x' b',
  Forall P a -> ~ P x -> Forall P a' -> ~ P x' -> a ++ x :: b = a' ++ x' :: b' ->
  a = a' /\ x = x' /\ b = b'.
Proof.
  intros P a. induction a as [ | c a IH ]; intros x b a' x' b' A X A' X' E.
  - destruct a' as [ | c' a' ].
    + cbn in E. injection E. auto.
    + cbn in E. injection E as -> ->. inversion A'; subst. contradiction.
  - destruct a' as [ | c' a' ].
    + cbn in E. injection E as -> <-. inversion A; subst. contradiction.
    + cbn in E. injection E as -> E. inversion A; inversion A'; subst.
      destruct (IH _ _ _ _ _ H2 X H6 X' E) as (-> & -> & ->). auto.
Qed.

Lemma app_nosplit : forall (P : ascii -> Prop) a x b s,
  Forall P s -> ~ P x -> a ++ x :: b = s -> False.
Proof.
  intros P a x b s S X E. subst s. apply Forall_app in S. destruct S as [_ S]. inversion S; contradiction.
Qed.

Lemma runs_unique : forall delims s ts ts', runs delims s ts -> runs delims s ts' -> ts = ts'.
Proof.
  intros delims.
  assert (NN : forall c, isd delims c -> ~ notd delims c) by (unfold isd, notd; tauto).
  assert (N2 : forall c, notd delims c -> ~ isd delims c) by (unfold isd, notd; tauto).
  intros s ts ts' R. revert ts'. induction R as [ d D | d t D T N | d t c s ts D T N C R IH ]; intros ts' R'.
  - inversion R' as [ d' D' | d' t' D' T' N' | d' t' c' s' ts1 D' T' N' C' R1 ]; subst; [ reflexivity | | ];
      destruct t' as [ | x t' ]; try congruence; exfalso; apply Forall_app in D as [_ D];
      cbn in D; inversion D; inversion N'; subst; eapply N2; eauto.
  - destruct t as [ | x t ]; [ congruence | ].
    assert (Nx : notd delims x) by now inversion N.
    inversion R' as [ d' D' E | d' t' D' T' N' E | d' t' c' s' ts1 D' T' N' C' R1 E ].
    + exfalso. eapply app_nosplit; [ exact D' | | reflexivity ]. now apply N2.
    + destruct t' as [ | x' t' ]; [ congruence | ].
      assert (Nx' : notd delims x') by now inversion N'.
      destruct (app_split_unique (isd delims) _ _ _ _ _ _ D' (N2 _ Nx') D (N2 _ Nx) E) as (-> & -> & ->).
      reflexivity.
    + destruct t' as [ | x' t' ]; [ congruence | ].
      assert (Nx' : notd delims x') by now inversion N'.
      cbn in E. destruct (app_split_unique (isd delims) _ _ _ _ _ _ D' (N2 _ Nx') D (N2 _ Nx) E) as (-> & -> & E2).
      exfalso. inversion N; subst. eapply (app_nosplit (notd delims)); [ eassumption | | reflexivity ].
      now apply NN.
  - destruct t as [ | x t ]; [ congruence | ].
    assert (Nx : notd delims x) by now inversion N.
    inversion R' as [ d' D' E | d' t' D' T' N' E | d' t' c' s' ts1 D' T' N' C' R1 E ].
    + exfalso. cbn in E. eapply (app_nosplit (isd delims)); [ exact D' | | reflexivity ]. now apply N2.
    + destruct t' as [ | x' t' ]; [ congruence | ].
      assert (Nx' : notd delims x') by now inversion N'.
      cbn in E. destruct (app_split_unique (isd delims) _ _ _ _ _ _ D' (N2 _ Nx') D (N2 _ Nx) E) as (-> & -> & E2).
      exfalso. subst. inversion N'; subst. eapply (app_nosplit (notd delims)); [ eassumption | | reflexivity ].
      now apply NN.
    + destruct t' as [ | x' t' ]; [ congruence | ].
      assert (Nx' : notd delims x') by now inversion N'.
      cbn in E. destruct (app_split_unique (isd delims) _ _ _ _ _ _ D' (N2 _ Nx') D (N2 _ Nx) E) as (-> & -> & E2).
      inversion N; inversion N'; subst.
      destruct (app_split_unique (notd delims) t' c' s' t c s ltac:(assumption) (NN _ C') ltac:(assumption) (NN _ C) E2)
        as (-> & -> & ->).
      f_equal. now apply IH.
Qed.

(** ** split_any *)

(** [fields d s fs]: fs are the pieces of s between single delimiters *)
Inductive fields (delims : str) : str -> list str -> Prop :=
| fields_last : forall f, Forall (notd delims) f -> fields delims f [f]
| fields_cons : forall f c s fs, Forall (notd delims) f -> isd delims c -> fields delims s fs ->
    fields delims (f ++ c :: s) (f :: fs).

Lemma split_loop_fields : forall fuel delims pre s, length s <= fuel ->
  exists fs, fields delims s fs /\ split_loop fuel (pre ++ s) delims (length pre) = Ok fs.
Proof.
  induction fuel as [ | fuel IH ]; intros delims pre s F;
    destruct (split_token delims s) as (t & r & -> & T & R);
    pose proof (fo_token pre delims t r T R) as FO.
  - destruct t, r; cbn in F; try lia. cbn [split_loop].
    rewrite FO. cbn [app]. rewrite app_nil_r. exists [[]]. split; [ constructor; constructor | ].
    pose proof (substr_app_end pre []) as S. rewrite app_nil_r in S. rewrite S. reflexivity.
  - cbn [split_loop]. rewrite FO. destruct R as [ -> | (c & s' & -> & C) ].
    + exists [t]. rewrite app_nil_r. split; [ now constructor | ].
      rewrite substr_app_end. reflexivity.
    + replace (length pre + length t - length pre) with (length t) by lia.
      rewrite substr_app. cbn [obind].
      destruct (IH delims (pre ++ t ++ [c]) s') as (fs & Fs & E).
      { rewrite app_length in F. cbn in F. lia. }
      rewrite <- !app_assoc in E. cbn [app] in E. rewrite !app_length in E. cbn [length] in E.
      replace (length pre + (length t + 1)) with (length pre + length t + 1) in E by lia.
      rewrite E. exists (t :: fs). split; [ now constructor | reflexivity ].
Qed.

Lemma split_any_fields : forall s delims, exists fs, split_any s delims = Ok fs /\ fields delims s fs.
Proof.
  intros s delims. destruct (split_loop_fields (length s) delims [] s (Nat.le_refl _)) as (fs & F & E).
  exists fs. split; [ exact E | exact F ].
Qed.

Lemma fields_unique : forall delims s fs fs', fields delims s fs -> fields delims s fs' -> fs = fs'.
Proof.
  intros delims.
  assert (NN : forall c, isd delims c -> ~ notd delims c) by (unfold isd, notd; tauto).
  intros s fs fs' F. revert fs'. induction F as [ f N | f c s fs N C F IH ]; intros fs' F'.
  - inversion F' as [ f' N' E | f' c' s' fs1 N' C' F1 E ]; subst; [ reflexivity | ].
    exfalso. eapply app_nosplit; [ exact N | | reflexivity ]. now apply NN.
  - inversion F' as [ f' N' E | f' c' s' fs1 N' C' F1 E ]; subst.
    + exfalso. eapply app_nosplit; [ exact N' | | reflexivity ]. now apply NN.
    + destruct (app_split_unique (notd delims) _ _ _ _ _ _ N' (NN _ C') N (NN _ C) E) as (-> & -> & ->).
      f_equal. now apply IH.
Qed.

(** ** join *)

Lemma join_loop_app : forall rest c d b, join_loop c rest d b = b ++ join_loop c rest d [].
Proof.
  induction rest as [ | n rest IH ]; intros c d b; cbn [join_loop]; [ reflexivity | ].
  rewrite IH. rewrite (IH n d ([] ++ c ++ d)). cbn [app]. now rewrite <- !app_assoc.
Qed.

Lemma join_cons : forall a b l d, join (a :: b :: l) d = a ++ d ++ join (b :: l) d.
Proof.
  intros. cbn [join join_loop]. rewrite join_loop_app. cbn [app]. now rewrite <- app_assoc.
Qed.

Lemma fields_join : forall c s fs, fields [c] s fs -> join fs [c] = s.
Proof.
  intros c s fs F. induction F as [ f N | f x s fs N X F IH ]; [ reflexivity | ].
  destruct X as [ <- | [] ].
  destruct fs as [ | g fs ]; [ inversion F | ]. rewrite join_cons. now rewrite IH.
Qed.

Lemma join_fields : forall c fs, fs <> [] -> Forall (Forall (notd [c])) fs -> fields [c] (join fs [c]) fs.
Proof.
  intros c fs. induction fs as [ | f [ | g fs ] IH ]; intros E N; [ congruence | | ].
  - constructor. now inversion N.
  - rewrite join_cons. inversion N; subst. constructor; [ assumption | now left | ].
    apply IH; [ discriminate | assumption ].
Qed.

Lemma runs_pre : forall delims d s ts, Forall (isd delims) d -> runs delims s ts -> runs delims (d ++ s) ts.
Proof.
  intros delims d s ts D R. inversion R; subst.
  - constructor. now apply Forall_app.
  - rewrite app_assoc. constructor; auto. now apply Forall_app.
  - rewrite app_assoc. constructor; auto. now apply Forall_app.
Qed.

Lemma join_runs : forall delims delim ts, delim <> [] -> Forall (isd delims) delim ->
  Forall (fun t => t <> [] /\ Forall (notd delims) t) ts -> runs delims (join ts delim) ts.
Proof.
  intros delims delim ts D0 D. induction ts as [ | t [ | u ts ] IH ]; intro H.
  - constructor. constructor.
  - inversion H as [ | ? ? [T N] ]; subst. cbn. apply (runs_last delims []); auto.
  - rewrite join_cons. inversion H as [ | ? ? [T N] H1 ]; subst.
    destruct delim as [ | c delim ]; [ congruence | ]. inversion D; subst.
    apply (runs_cons delims [] t c); auto.
    apply runs_pre; auto.
Qed.

Lemma fields_runs : forall delims s fs, fields delims s fs ->
  runs delims s (filter (fun f => match f with [] => false | _ => true end) fs).
Proof.
  intros delims s fs F. induction F as [ f N | f c s fs N C F IH ].
  - destruct f as [ | x f ]; cbn; [ apply runs_none; constructor | ].
    apply (runs_last delims []); auto; discriminate.
  - destruct f as [ | x f ]; cbn [filter app].
    + apply (runs_pre delims [c]); auto.
    + apply (runs_cons delims [] (x :: f) c); auto; discriminate.
Qed.

Lemma fields_count : forall delims s fs, fields delims s fs ->
  length fs = S (length (filter (fun c => mem c delims) s)).
Proof.
  intros delims s fs F.
  assert (Z : forall f, Forall (notd delims) f -> filter (fun c => mem c delims) f = []).
  { induction f as [ | c f IH ]; intro N; [ reflexivity | ]. inversion N; subst. cbn.
    replace (mem c delims) with false by (symmetry; now apply mem_false). now apply IH. }
  induction F as [ f N | f c s fs N C F IH ]; cbn [length].
  - now rewrite Z.
  - rewrite filter_app, Z by assumption. cbn [filter app].
    replace (mem c delims) with true by (symmetry; now apply mem_In). cbn [length]. now rewrite IH.
Qed.

(** ** trim *)

(** [trimmed ws s r]: s without all its leading and trailing characters of ws *)
Definition trimmed (ws s r : str) : Prop :=
  exists a b, s = a ++ r ++ b /\ Forall (isd ws) a /\ Forall (isd ws) b /\
    (forall c r', r = c :: r' -> ~ In c ws) /\ (forall c r', r = r' ++ [c] -> ~ In c ws).

Lemma rev_cases : forall (s : str), s = [] \/ exists s' c, s = s' ++ [c].
Proof.
  intro s. destruct (rev s) as [ | c l ] eqn:E.
  - left. now rewrite <- (rev_involutive s), E.
  - right. exists (rev l), c. rewrite <- (rev_involutive s), E. reflexivity.
Qed.

Lemma trim_spec : forall s ws, exists r, trim s ws = Ok r /\ trimmed ws s r.
Proof.
  intros s ws. destruct (split_delims ws s) as (a & m & -> & A & M).
  unfold trim.
  pose proof (fn_delims [] ws a m A M) as F1. cbn [app length Nat.add] in F1. rewrite F1.
  destruct M as [ -> | (c & m' & -> & C) ].
  - exists []. split; [ reflexivity | ]. exists a, [].
    split; [ reflexivity | ]. split; [ exact A | ]. split; [ constructor | ].
    split; intros x r' E; [ discriminate | destruct r'; discriminate ].
  - (* split the end *)
    destruct (split_delims ws (rev (c :: m'))) as (b & m & E & B & M).
    assert (E2 : c :: m' = rev m ++ rev b) by (rewrite <- (rev_involutive (c :: m')), E; apply rev_app_distr).
    destruct M as [ -> | (e & m2 & -> & Ec) ].
    { exfalso. cbn in E2. assert (I : In c (rev b)) by (rewrite <- E2; now left).
      apply in_rev in I. rewrite Forall_forall in B. now apply C, B. }
    rewrite E2. unfold find_last_not_of.
    replace (rev (a ++ rev (e :: m2) ++ rev b)) with (b ++ (e :: m2) ++ rev a).
    2:{ rewrite !rev_app_distr, !rev_involutive. now rewrite <- app_assoc. }
    cbn [app]. rewrite find_from_app; [ | now apply all_delim | apply negb_true_iff, mem_false, Ec ].
    assert (Lr : length (rev (e :: m2)) = S (length m2)) by (rewrite rev_length; reflexivity).
    assert (L : length (a ++ rev (e :: m2) ++ rev b) - 1 - (0 + length b) + 1 - length a = length (rev (e :: m2))).
    { rewrite !app_length, Lr, rev_length. lia. }
    rewrite L, substr_app. exists (rev (e :: m2)). split; [ reflexivity | ].
    exists a, (rev b). repeat split; auto.
    + apply Forall_forall. intros x I. apply in_rev in I. rewrite Forall_forall in B. now apply B.
    + intros x r' Er. rewrite Er in E2. cbn in E2. injection E2 as <- _. exact C.
    + intros x r' Er. cbn in Er. apply app_inj_tail in Er. destruct Er as [_ <-]. exact Ec.
Qed.

Lemma trimmed_unique : forall ws s r r', trimmed ws s r -> trimmed ws s r' -> r = r'.
Proof.
  intros ws s r r' (a & b & -> & A & B & H & T) (a' & b' & E & A' & B' & H' & T').
  assert (Z : forall m a b, Forall (isd ws) (a ++ m ++ b) -> (forall c r', m = c :: r' -> ~ In c ws) -> m = []).
  { intros m x y F G. destruct m as [ | c m ]; [ reflexivity | ]. exfalso.
    apply Forall_app in F as [_ F]. inversion F; subst. eapply G; eauto. }
  destruct r as [ | c r ].
  { symmetry. apply (Z r' a' b'); [ | exact H' ]. rewrite <- E. now apply Forall_app. }
  destruct r' as [ | c' r' ].
  { apply (Z (c :: r) a b); [ | exact H ]. rewrite E. now apply Forall_app. }
  cbn [app] in E.
  destruct (app_split_unique (isd ws) a c (r ++ b) a' c' (r' ++ b')) as (-> & -> & E2);
    [ assumption | now apply (H _ r) | assumption | now apply (H' _ r') | exact E | ].
  destruct (rev_cases (c' :: r)) as [ Q | (m & e & Em) ]; [ discriminate | ].
  destruct (rev_cases (c' :: r')) as [ Q | (m' & e' & Em') ]; [ discriminate | ].
  assert (E3 : (m ++ [e]) ++ b = (m' ++ [e']) ++ b').
  { rewrite <- Em, <- Em'. cbn. now rewrite E2. }
  apply (f_equal (@rev ascii)) in E3. rewrite !rev_app_distr in E3. cbn [rev app] in E3.
  destruct (app_split_unique (isd ws) (rev b) e (rev m) (rev b') e' (rev m')) as (_ & -> & Er).
  - apply Forall_forall. intros x I. apply in_rev in I. rewrite Forall_forall in B. now apply B.
  - exact (T _ _ Em).
  - apply Forall_forall. intros x I. apply in_rev in I. rewrite Forall_forall in B'. now apply B'.
  - exact (T' _ _ Em').
  - exact E3.
  - rewrite Em, Em'. f_equal. rewrite <- (rev_involutive m), Er. apply rev_involutive.
Qed.

(** ** prefixes and suffixes *)

Lemma str_eqb_eq : forall a b, str_eqb a b = true <-> a = b.
Proof. intros. unfold str_eqb. destruct (list_eq_dec ascii_dec a b); intuition congruence. Qed.

Lemma size2int_small : forall n, (Z.of_nat n < 2 ^ 31)%Z -> size2int n = Z.of_nat n.
Proof. intros n H. unfold size2int. rewrite Z.mod_small by lia. lia. Qed.

Lemma firstn_length_eq : forall (A : Type) (l m : list A), firstn (length l) (l ++ m) = l.
Proof. intros. rewrite firstn_app, firstn_all, Nat.sub_diag. cbn. apply app_nil_r. Qed.

Lemma starts_with_spec : forall txt p,
  exists b, starts_with txt p = Ok b /\ (b = true <-> exists r, txt = p ++ r).
Proof.
  intros txt p. unfold starts_with, starts_or_ends_with. destruct p as [ | c p ].
  - exists true. split; [ reflexivity | ]. split; [ now exists txt | reflexivity ].
  - destruct (length txt <? length (c :: p)) eqn:L.
    + exists false. split; [ reflexivity | ]. apply Nat.ltb_lt in L. split; [ discriminate | ].
      intros (r & ->). rewrite app_length in L. lia.
    + apply Nat.ltb_ge in L. replace (Z.of_nat (length txt) <? 0)%Z with false by lia.
      cbn [orb Z.ltb]. change (0 <? 0)%Z with false. cbn [orb].
      change (Z.to_nat 0) with 0. cbn [skipn].
      eexists. split; [ reflexivity | ]. rewrite str_eqb_eq. split.
      * intro E. exists (skipn (length (c :: p)) txt). rewrite <- E at 1. symmetry. apply firstn_skipn.
      * intros (r & ->). apply firstn_length_eq.
Qed.

Lemma ends_with_spec : forall txt e, (Z.of_nat (length txt) < 2 ^ 31)%Z -> (Z.of_nat (length e) < 2 ^ 31)%Z ->
  exists b, ends_with txt e = Ok b /\ (b = true <-> exists r, txt = r ++ e).
Proof.
  intros txt e B Be. unfold ends_with. rewrite !size2int_small by lia. cbv zeta.
  match goal with |- context [ if ?b then UB else _ ] => replace b with false by lia end.
  unfold starts_or_ends_with. destruct e as [ | c e ].
  - exists true. split; [ reflexivity | ]. split; [ intros _; exists txt; now rewrite app_nil_r | reflexivity ].
  - destruct (length txt <? length (c :: e)) eqn:L.
    + exists false. split; [ reflexivity | ]. apply Nat.ltb_lt in L. split; [ discriminate | ].
      intros (r & ->). rewrite app_length in L. lia.
    + apply Nat.ltb_ge in L.
      match goal with |- context [ if ?b then _ else _ ] => replace b with false by lia end.
      eexists. split; [ reflexivity | ]. rewrite str_eqb_eq.
      replace (Z.to_nat (Z.of_nat (length txt) - Z.of_nat (length (c :: e)))) with (length txt - length (c :: e)) by lia.
      split.
      * intro E. exists (firstn (length txt - length (c :: e)) txt).
        rewrite <- (firstn_skipn (length txt - length (c :: e)) txt) at 1. f_equal. rewrite <- E at 2.
        symmetry. apply firstn_all2. rewrite skipn_length. lia.
      * intros (r & ->). rewrite app_length.
        replace (length r + length (c :: e) - length (c :: e)) with (length r) by lia.
        rewrite skipn_app, skipn_all, Nat.sub_diag. cbn [app skipn]. apply firstn_all.
Qed.

(** ** dotted lists *)

Lemma dot_loop_spec : forall d z dir rE, (0 < d * dir)%Q ->
  forall m cur,
  (rE <= (cur + inject_Z (Z.of_nat m) * d - z) * dir)%Q ->
  exists k vs, (forall fuel acc, m <= fuel -> dot_loop fuel cur d z dir rE acc = Ok (acc ++ vs)) /\
    length vs = k /\
    (forall j v, nth_error vs j = Some v -> (v == cur + inject_Z (Z.of_nat j) * d)%Q /\ ((v - z) * dir < rE)%Q) /\
    (rE <= (cur + inject_Z (Z.of_nat k) * d - z) * dir)%Q.
Proof.
  intros d z dir rE D. induction m as [ | m IH ]; intros cur H.
  - assert (N : qltb ((cur - z) * dir) rE = false).
    { apply qltb_false. change (inject_Z (Z.of_nat 0)) with 0%Q in H. lra. }
    exists 0, []. split; [ intros fuel acc _; destruct fuel; cbn [dot_loop]; rewrite N; now rewrite app_nil_r | ].
    split; [ reflexivity | ]. split; [ intros [ | j ] v E; discriminate | exact H ].
  - destruct (qltb ((cur - z) * dir) rE) eqn:E.
    + destruct (IH (cur + d)%Q) as (k & vs & R & L & V & T).
      { rewrite Nat2Z.inj_succ in H. unfold Z.succ in H. rewrite inject_Z_plus in H.
        change (inject_Z 1) with 1%Q in H. lra. }
      exists (S k), (cur :: vs). split.
      { intros [ | fuel ] acc F; [ lia | ]. cbn [dot_loop]. rewrite E, R by lia.
        rewrite <- app_assoc. reflexivity. }
      split; [ cbn; now rewrite L | ]. split.
      * intros [ | j ] v Ev; cbn [nth_error] in Ev.
        -- injection Ev as <-. apply qltb_spec in E. split; [ | exact E ].
           change (inject_Z (Z.of_nat 0)) with 0%Q. lra.
        -- destruct (V j v Ev) as [V1 V2]. split; [ | exact V2 ]. rewrite V1.
           rewrite Nat2Z.inj_succ. unfold Z.succ. rewrite inject_Z_plus.
           change (inject_Z 1) with 1%Q. lra.
      * rewrite Nat2Z.inj_succ. unfold Z.succ. rewrite inject_Z_plus.
        change (inject_Z 1) with 1%Q. lra.
    + exists 0, []. split.
      { intros fuel acc _. destruct fuel; cbn [dot_loop]; rewrite E; now rewrite app_nil_r. }
      apply qltb_false in E.
      split; [ reflexivity | ]. split; [ intros [ | j ] v Ev; discriminate | ].
      change (inject_Z (Z.of_nat 0)) with 0%Q. lra.
Qed.

Lemma archimedes : forall x y, (0 < y)%Q -> exists m : nat, (x <= inject_Z (Z.of_nat m) * y)%Q.
Proof.
  intros x y Y. exists (Z.to_nat (Qceiling (x / y))).
  assert (Q1 : (x / y <= inject_Z (Qceiling (x / y)))%Q) by apply Qle_ceiling.
  assert (Q2 : (inject_Z (Qceiling (x / y)) <= inject_Z (Z.of_nat (Z.to_nat (Qceiling (x / y)))))%Q).
  { rewrite <- Zle_Qle. lia. }
  assert (Q3 : (x / y <= inject_Z (Z.of_nat (Z.to_nat (Qceiling (x / y)))))%Q) by (eapply Qle_trans; eassumption).
  apply (Qmult_le_compat_r _ _ y) in Q3; [ | lra ].
  setoid_replace (x / y * y)%Q with x in Q3; [ exact Q3 | ]. field. lra.
Qed.

Lemma dotted_nums : forall fuel vs toks acc,
  dotted fuel (map Num vs ++ toks) acc = dotted fuel toks (acc ++ vs).
Proof.
  intros fuel vs. induction vs as [ | v vs IH ]; intros toks acc; cbn [map app dotted].
  - now rewrite app_nil_r.
  - rewrite IH, <- app_assoc. reflexivity.
Qed.
