(** C112: aggregations in NcML documents. *)
From Coq Require Import PeanoNat ZArith Ascii String List Bool Lia Decimal DecimalString DecimalNat.
From Verif Require Import Base SearchModel StringModel StringProofs StringProps TextModel FilesModel FilesProofs FilesProps NcaggModel.
From Verif Require AggModel AggProps.
Import ListNotations.
Local Open Scope string_scope.
Local Open Scope list_scope.
Local Open Scope nat_scope.

(** a word: not empty, without blanks *)
Definition word (t : str) : Prop := t <> [] /\ ~ In " "%char t.
Lemma word_run t : word t -> Forall (notd (s_ " ")) t.
Proof.
  intros [_ N]. apply Forall_forall. intros c I [E|[]]. apply N. cbn in E. rewrite E. exact I.
Qed.
Lemma blank_isd : isd (s_ " ") " "%char.
Proof. left. reflexivity. Qed.

(** a location holds the file, then the type (netcdf if missing) and the configuration *)
Theorem C112_location : forall file type config, word file -> word type -> word config ->
  file_type_config file = Ok (file, s_ "netcdf", []) /\
  file_type_config (file ++ s_ " " ++ type) = Ok (file, type, []) /\
  file_type_config (file ++ s_ " " ++ type ++ s_ " " ++ config) = Ok (file, type, config) /\
  file_type_config [] = Ok ([], s_ "netcdf", []).
Proof.
  intros f t c F T C.
  assert (R1 : forall x, word x -> runs (s_ " ") x [x]).
  { intros x X. apply (runs_last (s_ " ") [] x); [constructor|apply X|apply word_run, X]. }
  assert (R2 : forall x s ts, word x -> runs (s_ " ") s ts -> runs (s_ " ") (x ++ " "%char :: s) (x :: ts)).
  { intros x s ts X R. apply (runs_cons (s_ " ") [] x " "%char s ts); [constructor|apply X|apply word_run, X|exact blank_isd|exact R]. }
  unfold file_type_config. split; [|split; [|split]].
  - rewrite (proj2 (C18_tokenize_maximal_runs _ _ _) (R1 f F)). reflexivity.
  - change (f ++ s_ " " ++ t) with (f ++ " "%char :: t).
    rewrite (proj2 (C18_tokenize_maximal_runs _ _ [f; t]) (R2 f _ _ F (R1 t T))). reflexivity.
  - change (f ++ s_ " " ++ t ++ s_ " " ++ c) with (f ++ " "%char :: (t ++ " "%char :: c)).
    rewrite (proj2 (C18_tokenize_maximal_runs _ _ [f; t; c]) (R2 f _ _ F (R2 t _ _ T (R1 c C)))). reflexivity.
  - reflexivity.
Qed.

(** without an aggregation the file of the location is opened; without a location there is nothing but
    what the document itself holds *)
Theorem C112_single : forall fs create regex id l file type config,
  file_type_config l = Ok (file, type, config) ->
  (forall f, create type file config = Ok f -> open fs create regex (Ncml id (Some l) []) = Ok (Single f)) /\
  (create type file config = Throw -> open fs create regex (Ncml id (Some l) []) = Throw) /\
  open fs create regex (Ncml id None []) = Ok Nothing.
Proof.
  intros fs create regex id l file type config E. unfold open. cbn [nc_aggs nc_location]. rewrite E. cbn [obind].
  split; [|split; [|reflexivity]].
  - intros f C. rewrite C. reflexivity.
  - intro C. rewrite C. reflexivity.
Qed.

(** Finding: with several aggregations none is read, though the message says the first *)
Theorem C112_several_refuted : forall fs create regex id loc e1 e2 es,
  open fs create regex (Ncml id loc (e1 :: e2 :: es)) = Ok Nothing.
Proof. reflexivity. Qed.

(** ** Scanning *)
Lemma parse_escaped : forall s fuel, length (regex_escape s) < fuel ->
  re_parse_loop fuel (regex_escape s) = Some (map (fun c => One (Ascii.eqb c)) s).
Proof.
  induction s as [|c s IH]; intros fuel H.
  - destruct fuel; [cbn in H; lia|reflexivity].
  - destruct fuel as [|fuel]; [lia|]. cbn [regex_escape flat_map] in *. fold (regex_escape s) in *.
    assert (NS : forall d r, regex_escape s = d :: r -> Ascii.eqb d "*" = false).
    { intros d r E. destruct s as [|x s]; [discriminate E|]. cbn [regex_escape flat_map] in E. unfold regex_escape_char in E.
      destruct (mem x ESCAPE_THESE) eqn:M; cbn [app] in E; injection E as <- _; [reflexivity|].
      destruct (Ascii.eqb_spec x "*") as [->|]; [discriminate M|reflexivity]. }
    assert (R : re_parse_loop fuel (regex_escape s) = Some (map (fun c => One (Ascii.eqb c)) s)).
    { apply IH. rewrite app_length in H. unfold regex_escape_char in H. destruct (mem c ESCAPE_THESE); cbn [length] in H; lia. }
    unfold regex_escape_char in *. destruct (mem c ESCAPE_THESE) eqn:M; cbn [List.app length] in *.
    + change (["\"%char; c] ++ regex_escape s) with ("\"%char :: c :: regex_escape s).
      cbn [re_parse_loop]. change (Ascii.eqb "\" "\") with true. cbn iota.
      destruct (regex_escape s) as [|d r] eqn:E.
      * rewrite R. reflexivity.
      * rewrite (NS d r eq_refl), R. reflexivity.
    + assert (N : forall x, mem x ESCAPE_THESE = true -> Ascii.eqb c x = false).
      { intros x X. destruct (Ascii.eqb_spec c x) as [->|]; [congruence|reflexivity]. }
      change ([c] ++ regex_escape s) with (c :: regex_escape s).
      cbn [re_parse_loop]. rewrite (N "\"%char eq_refl), (N "["%char eq_refl), (N "."%char eq_refl). unfold is_special. rewrite M. cbn iota.
      destruct (regex_escape s) as [|d r] eqn:E.
      * rewrite R. reflexivity.
      * rewrite (NS d r eq_refl), R. reflexivity.
Qed.
Lemma match_literal : forall s t, re_match (map (fun c => One (Ascii.eqb c)) s) t = true <-> t = s.
Proof.
  induction s as [|c s IH]; intros [|x t]; cbn [map re_match]; try (split; congruence).
  rewrite andb_true_iff, IH. split.
  - intros [A ->]. apply Ascii.eqb_eq in A. rewrite A. reflexivity.
  - intro E. injection E as -> ->. split; [apply Ascii.eqb_refl|reflexivity].
Qed.

(** a suffix stands for itself: a name is taken if it ends in the suffix (and has no line break before) *)
Theorem C112_suffix : forall s, exists re, suffix_regex s = Ok re /\
  forall n, re n = true <-> exists a, n = a ++ s /\ forall c, In c a -> ~ line_break c.
Proof.
  intro s. unfold suffix_regex.
  assert (P : re_parse (s_ ".*" ++ regex_escape s) = Some (Star not_newline :: map (fun c => One (Ascii.eqb c)) s)).
  { unfold re_parse. change (s_ ".*" ++ regex_escape s) with ("."%char :: "*"%char :: regex_escape s).
    cbn [length]. remember (S (S (length (regex_escape s)))) as fuel eqn:F.
    change (re_parse_loop (S fuel) ("."%char :: "*"%char :: regex_escape s))
      with (option_map (cons (Star not_newline)) (re_parse_loop fuel (regex_escape s))).
    rewrite parse_escaped by lia. reflexivity. }
  rewrite P. eexists. split; [reflexivity|]. intro n. rewrite re_match_star. split.
  - intros (a & rest & -> & A & B). apply match_literal in B. subst rest. exists a. split; [reflexivity|].
    intros c I. apply not_newline_spec, A, I.
  - intros (a & -> & A). exists a, s. repeat split; [|apply match_literal; reflexivity].
    intros c I. apply not_newline_spec, A, I.
Qed.

(** a <scan> element with a suffix finds the files of the directory that end in it, with the
    sub-directories unless they are switched off *)
Theorem C112_scan : forall fs regex e dir type config,
  file_type_config (sc_location e) = Ok (dir, type, config) -> sc_suffix e <> [] ->
  levels (scan_depth e) (fs dir) <= 1000 ->
  exists files, scan_files fs regex e = Ok (type, config, files) /\
    forall f, In f files <-> exists p, file_at (fs dir) p /\ f = full dir p /\
      (In (sc_subdirs e) [s_ "false"; s_ "FALSE"; s_ "False"] -> length p <= 1) /\
      exists a, last p [] = a ++ sc_suffix e /\ forall c, In c a -> ~ line_break c.
Proof.
  intros fs regex e dir type config L N D. destruct (C112_suffix (sc_suffix e)) as (re & R & RE).
  unfold scan_files. rewrite L. cbn [obind]. destruct (sc_suffix e) as [|c0 s0] eqn:S; [congruence|]. rewrite R. cbn [obind].
  rewrite C38_scan_file_only by exact D. cbn [obind]. eexists. split; [reflexivity|]. intro f. rewrite in_map_iff.
  assert (W : forall p, within (scan_depth e) p <-> (In (sc_subdirs e) [s_ "false"; s_ "FALSE"; s_ "False"] -> length p <= 1)).
  { intro p. unfold within, scan_depth.
    destruct (existsb (str_eqb (sc_subdirs e)) [s_ "false"; s_ "FALSE"; s_ "False"]) eqn:X.
    - apply existsb_exists in X. destruct X as (y & Y & Q). apply str_eqb_eq in Q. subst y. split; [lia|intro H; right; specialize (H Y); lia].
    - split; [|lia]. intros _ I. exfalso.
      assert (T : existsb (str_eqb (sc_subdirs e)) [s_ "false"; s_ "FALSE"; s_ "False"] = true)
        by (apply existsb_exists; eexists; split; [exact I|apply str_eqb_eq; reflexivity]). congruence. }
  split.
  - intros (p & <- & I). apply filter_In in I. destruct I as [I M]. apply C38_listing in I. destruct I as [A B].
    exists p. split; [exact A|]. split; [reflexivity|]. split; [apply W, B|]. apply RE, M.
  - intros (p & A & -> & B & C). exists p. split; [reflexivity|]. apply filter_In. split; [|apply RE, C].
    apply C38_listing. split; [exact A|]. apply W, B.
Qed.

(** ** The files of an aggregation *)
(** coordinate values of an element *)
Definition words_of (t : str) (v : option (list string)) : Prop :=
  match t with [] => v = None | _ => exists ts, tokenize t (s_ " ") = Ok ts /\ v = Some (map name_of ts) end.
(** the name made up for the n-th element *)
Definition made_up (n : nat) : str := s_ "location_" ++ number n.
Definition net_coord (k : AggModel.kind) (i : nat) (t : str) : str :=
  match t with [] => if join_new k then made_up i else [] | _ => t end.

(** the members of an aggregation, with their coordinate values: the <netcdf> elements, then for each
    <scan> the files that can be read *)
Inductive net_members (k : AggModel.kind) : nat -> list netel -> list (AggModel.file * option (list string)) -> Prop :=
| nm_nil : forall i, net_members k i [] []
| nm_cons : forall i e es f v ms, n_open e = Ok f -> words_of (net_coord k i (n_coord e)) v ->
    net_members k (S i) es ms -> net_members k i (e :: es) ((f, v) :: ms).
Inductive file_members (k : AggModel.kind) (create : str -> outcome AggModel.file) (i : nat)
  : list str -> list (AggModel.file * option (list string)) -> Prop :=
| fm_nil : file_members k create i [] []
| fm_read : forall p ps f ms, create p = Ok f -> file_members k create i ps ms ->
    file_members k create i (p :: ps)
      ((f, if join_new k then Some [name_of (made_up i)] else None) :: ms)
| fm_skip : forall p ps ms, create p = Throw -> file_members k create i ps ms -> file_members k create i (p :: ps) ms.
Inductive scan_members (fs : str -> tree) (create : str -> str -> str -> outcome AggModel.file)
    (regex : str -> outcome (str -> bool)) (k : AggModel.kind)
  : nat -> list scanel -> list (AggModel.file * option (list string)) -> Prop :=
| sm_nil : forall i, scan_members fs create regex k i [] []
| sm_cons : forall i e es type config files fm ms, scan_files fs regex e = Ok (type, config, files) ->
    file_members k (fun p => create type p config) i files fm ->
    scan_members fs create regex k (S i) es ms -> scan_members fs create regex k i (e :: es) (fm ++ ms).

Definition put (k : AggModel.kind) (st : option AggModel.agg) (m : AggModel.file * option (list string))
  : outcome (option AggModel.agg) :=
  match st with
  | None => do a <- AggModel.add_first k (fst m) (snd m); Ok (Some a)
  | Some a => do a' <- AggModel.add_other k a (fst m) (snd m); Ok (Some a')
  end.
Lemma add_put k st f t v : words_of t v -> add k st f t = put k st (f, v).
Proof.
  intro W. unfold add, put. cbn [fst snd]. destruct t as [|c t]; cbn [words_of] in W.
  - subst v. reflexivity.
  - destruct W as (ts & E & ->). rewrite E. reflexivity.
Qed.
Lemma put_aggregate k m0 ms a : AggModel.aggregate k m0 ms = Ok a -> ofold (put k) (m0 :: ms) None = Ok (Some a).
Proof.
  unfold AggModel.aggregate. cbn [ofold put]. destruct (AggModel.add_first k (fst m0) (snd m0)) as [a0| | |]; cbn [obind]; try discriminate.
  revert a0. induction ms as [|m ms IH]; intros a0 E; cbn [ofold obind] in *.
  - injection E as ->. reflexivity.
  - unfold put at 1. destruct (AggModel.add_other k a0 (fst m) (snd m)) as [a1| | |]; cbn [obind] in *; try discriminate. apply IH, E.
Qed.
Lemma fold_app {A S} (f : S -> A -> outcome S) : forall l1 l2 s,
  ofold f (l1 ++ l2) s = obind (ofold f l1 s) (ofold f l2).
Proof.
  induction l1 as [|a l1 IH]; intros l2 s; [reflexivity|]. cbn [List.app ofold]. destruct (f s a); cbn [obind]; try reflexivity. apply IH.
Qed.

Lemma nets_put k : forall es i ms, net_members k i es ms -> forall st st', ofold (put k) ms st = Ok st' ->
  ofold (add_net k) (combine (seq i (length es)) es) st = Ok st'.
Proof.
  induction es as [|e es IH]; intros i ms H st st' E; inversion H; subst; [exact E|].
  cbn [length seq combine ofold] in *. unfold add_net at 1. cbn [fst snd].
  match goal with O : n_open e = _ |- _ => rewrite O end. cbn [obind].
  match goal with |- context [add k st _ ?t] =>
    replace t with (net_coord k i (n_coord e)) by (unfold net_coord, made_up; destruct (n_coord e); reflexivity) end.
  match goal with W : words_of _ ?w, O : n_open e = Ok ?g |- _ => rewrite (add_put k st g _ w W) end.
  destruct (put k st _) as [s1| | |]; cbn [obind] in *; try discriminate. eapply IH; eassumption.
Qed.

Lemma number_blank n : ~ In " "%char (number n).
Proof.
  unfold number. intro I.
  assert (G : forall d, ~ In " "%char (list_ascii_of_string (NilEmpty.string_of_uint d))).
  { induction d; cbn; intuition discriminate. }
  destruct (Nat.to_uint n) eqn:E; cbn in I; try (destruct I as [I|I]; [discriminate I|]); try (eapply G; exact I); intuition discriminate.
Qed.
Lemma made_up_words n : words_of (made_up n) (Some [name_of (made_up n)]).
Proof.
  unfold made_up. change (s_ "location_" ++ number n) with ("l"%char :: (s_ "ocation_" ++ number n)). cbn [words_of].
  exists ["l"%char :: (s_ "ocation_" ++ number n)]. split; [|reflexivity].
  apply C18_tokenize_maximal_runs. apply (runs_last (s_ " ") []); [constructor|discriminate|].
  apply word_run. split; [discriminate|]. intros [I|I]; [discriminate I|].
  apply in_app_or in I. destruct I as [I|I]; [cbn in I; intuition discriminate|exact (number_blank n I)].
Qed.

Lemma files_put k i create : forall type config ps ms,
  file_members k (fun p => create type p config) i ps ms -> forall st st', ofold (put k) ms st = Ok st' ->
  ofold (add_file create k i type config) ps st = Ok st'.
Proof.
  intros type config. induction ps as [|p ps IH]; intros ms H st st' E; inversion H; subst; [exact E| |].
  - cbn [ofold] in *. unfold add_file at 1. match goal with O : create _ _ _ = _ |- _ => rewrite O end.
    assert (W : words_of (if join_new k then s_ "location_" ++ number i else [])
                  (if join_new k then Some [name_of (made_up i)] else None))
      by (destruct (join_new k); [apply made_up_words|reflexivity]).
    rewrite (add_put k st f _ _ W).
    destruct (put k st _) as [s1| | |]; cbn [obind] in *; try discriminate. eapply IH; eassumption.
  - cbn [ofold]. unfold add_file at 1. match goal with O : create _ _ _ = _ |- _ => rewrite O end. cbn [obind]. eapply IH; eassumption.
Qed.

Lemma scans_put fs create regex k : forall es i ms, scan_members fs create regex k i es ms ->
  forall st st', ofold (put k) ms st = Ok st' ->
  ofold (add_scan fs create regex k) (combine (seq i (length es)) es) st = Ok st'.
Proof.
  induction es as [|e es IH]; intros i ms H st st' E; inversion H; subst; [exact E|].
  cbn [length seq combine ofold]. unfold add_scan at 1. cbn [fst snd].
  match goal with O : scan_files _ _ e = _ |- _ => rewrite O end. cbn [obind].
  rewrite fold_app in E. destruct (ofold (put k) fm st) as [s1| | |] eqn:E1; cbn [obind] in E; try discriminate.
  rewrite (files_put k i create type config files fm ltac:(eassumption) st s1 E1). cbn [obind].
  eapply IH; eassumption.
Qed.

(** the aggregation is that of the members in this order (C28 says what its records and variables are) *)
Theorem C112_members : forall fs create regex id loc e k nets scans m0 ms a,
  kind_of e = Ok k -> net_members k 0 (ag_nets e) nets -> scan_members fs create regex k 0 (ag_scans e) scans ->
  nets ++ scans = m0 :: ms -> AggModel.aggregate k m0 ms = Ok a ->
  open fs create regex (Ncml id loc [e]) = Ok (Aggregated k (Some a)).
Proof.
  intros fs create regex id loc e k nets scans m0 ms a K N S E A. unfold open. cbn [nc_aggs]. rewrite K. cbn [obind].
  apply put_aggregate in A. rewrite <- E, fold_app in A.
  destruct (ofold (put k) nets None) as [s1| | |] eqn:E1; cbn [obind] in A; try discriminate.
  unfold numbered. rewrite (nets_put k _ _ _ N _ _ E1). cbn [obind]. rewrite (scans_put fs create regex k _ _ _ S _ _ A). reflexivity.
Qed.
Theorem C112_no_members : forall fs create regex id loc e k,
  kind_of e = Ok k -> ag_nets e = [] -> scan_members fs create regex k 0 (ag_scans e) [] ->
  open fs create regex (Ncml id loc [e]) = Ok (Aggregated k None).
Proof.
  intros fs create regex id loc e k K N S. unfold open. cbn [nc_aggs]. rewrite K, N. cbn [obind numbered length seq combine ofold].
  unfold numbered. rewrite (scans_put fs create regex k _ _ _ S None None eq_refl). reflexivity.
Qed.

(** joined along a new dimension: record i of a joined variable is that of member i *)
Theorem C112_new_records : forall fs create regex id loc e jd jv nets scans m0 ms a fill v s sf i f c,
  kind_of e = Ok (AggModel.JoinNew jd jv) -> net_members (AggModel.JoinNew jd jv) 0 (ag_nets e) nets ->
  scan_members fs create regex (AggModel.JoinNew jd jv) 0 (ag_scans e) scans ->
  nets ++ scans = m0 :: ms -> AggModel.aggregate (AggModel.JoinNew jd jv) m0 ms = Ok a ->
  In v jv -> AggModel.get_shape (AggModel.a_vars a) v = Some s -> nth_error (nets ++ scans) i = Some (f, c) ->
  AggModel.get_shape (AggModel.f_vars f) v = Some sf -> AggModel.check_new a f v = Ok true ->
  open fs create regex (Ncml id loc [e]) = Ok (Aggregated (AggModel.JoinNew jd jv) (Some a)) /\
  AggModel.get_slice (AggModel.JoinNew jd jv) fill a v i = Ok (Some (AggModel.f_part f v (AggModel.whole f sf))).
Proof.
  intros fs create regex id loc e jd jv nets scans [f0 c0] ms a fill v s sf i f c K N S E A V G I F C. split.
  - eapply C112_members; eassumption.
  - eapply AggProps.C28_new_record; try eassumption. rewrite E in I.
    change (f0 :: map fst ms) with (map fst ((f0, c0) :: ms)). rewrite nth_error_map, I. reflexivity.
Qed.

(** an element that cannot be read ends it, unlike a scanned file *)
Theorem C112_unreadable : forall fs create regex id loc e k es1 x es2 st,
  kind_of e = Ok k -> ag_nets e = es1 ++ x :: es2 -> n_open x = Throw ->
  ofold (add_net k) (combine (seq 0 (length es1)) es1) None = Ok st ->
  open fs create regex (Ncml id loc [e]) = Throw.
Proof.
  intros fs create regex id loc e k es1 x es2 st K N T O. unfold open. cbn [nc_aggs]. rewrite K. cbn [obind]. rewrite N.
  assert (X : forall l i s, ofold (add_net k) (combine (seq i (length l)) l) s = Ok st ->
              ofold (add_net k) (combine (seq i (length (l ++ x :: es2))) (l ++ x :: es2)) s = Throw).
  { induction l as [|y l IH]; intros i s E; cbn [List.app length seq combine ofold] in *.
    - unfold add_net at 1. cbn [fst snd]. rewrite T. reflexivity.
    - destruct (add_net k s (i, y)) as [s1| | |]; cbn [obind] in *; try discriminate. apply IH, E. }
  unfold numbered. rewrite (X es1 0 None O). reflexivity.
Qed.

(** the kinds of aggregations *)
Theorem C112_kinds : forall e,
  (kind_of e = Ok AggModel.JoinExisting <-> ag_type e = s_ "joinExisting") /\
  (kind_of e = Ok AggModel.Union <-> ag_type e = s_ "union") /\
  (forall d vs, kind_of e = Ok (AggModel.JoinNew d vs) <->
     ag_type e = s_ "joinNew" /\ d = name_of (ag_dim e) /\ vs = map name_of (ag_vars e)) /\
  (kind_of e = Throw <-> ~ In (ag_type e) [s_ "joinExisting"; s_ "joinNew"; s_ "union"]).
Proof.
  intro e. unfold kind_of.
  destruct (str_eqb (ag_type e) (s_ "joinExisting")) eqn:E1;
    [apply str_eqb_eq in E1; rewrite E1; repeat split; intros; try discriminate; try tauto; try (exfalso; cbn in *; tauto); intuition discriminate|].
  destruct (str_eqb (ag_type e) (s_ "joinNew")) eqn:E2.
  { apply str_eqb_eq in E2; rewrite E2; repeat split; intros; try discriminate; try congruence; try (exfalso; cbn in *; tauto).
    destruct H as (_ & -> & ->). reflexivity. }
  destruct (str_eqb (ag_type e) (s_ "union")) eqn:E3;
    [apply str_eqb_eq in E3; rewrite E3; repeat split; intros; try discriminate; try tauto; try (exfalso; cbn in *; tauto); intuition discriminate|].
  assert (N : forall t, str_eqb (ag_type e) t = false -> ag_type e <> t).
  { intros t F X. assert (str_eqb (ag_type e) t = true) by (apply str_eqb_eq; exact X). congruence. }
  apply N in E1, E2, E3. repeat split; intros; try discriminate; try contradiction; try tauto.
  intros [X|[X|[X|[]]]]; symmetry in X; contradiction.
Qed.

(** made-up coordinate values of different elements differ *)
Theorem C112_made_up : forall i j, made_up i = made_up j -> i = j.
Proof.
  intros i j E. unfold made_up in E. apply app_inv_head in E. unfold number in E.
  apply (f_equal string_of_list_ascii) in E. rewrite !string_of_list_ascii_of_string in E.
  assert (Some (Nat.to_uint i) = Some (Nat.to_uint j)).
  { assert (Q : forall n, NilZero.uint_of_string (NilZero.string_of_uint (Nat.to_uint n)) = Some (Nat.to_uint n)).
    { intro n. apply NilZero.usu. intro Z. assert (Y := f_equal Nat.of_uint Z). rewrite Unsigned.of_to in Y. cbn in Y. subst n. discriminate Z. }
    rewrite <- !Q, E. reflexivity. }
  injection H as H. apply Unsigned.to_uint_inj, H.
Qed.

(** ** Findings *)
Definition ex_file (dims : list AggModel.dim) (x : Z) : AggModel.file :=
  {| AggModel.f_dims := dims; AggModel.f_vars := [("t", ["x"])];
     AggModel.f_get := fun _ _ => [x]; AggModel.f_part := fun _ _ => [x] |}.
Definition dx := {| AggModel.d_name := "x"; AggModel.d_len := 1; AggModel.d_unlim := false |}.
Definition drun := {| AggModel.d_name := "run"; AggModel.d_len := 1; AggModel.d_unlim := false |}.
Definition ex_tree : tree := File (s_ "a.nc") (File (s_ "b.nc") (File (s_ "c.txt") End)).
Definition ex_agg : aggel := AggEl (s_ "joinNew") (s_ "run") [s_ "t"] [] [ScanEl (s_ "in") (s_ ".nc") [] []].
Definition ex_open (first : AggModel.file) : outcome source :=
  open (fun _ => ex_tree) (fun _ p _ => Ok (if str_eqb p (s_ "in/a.nc") then first else ex_file [dx] 2)) (fun _ => Throw)
    (Ncml (s_ "x.ncml") None [ex_agg]).

(** Finding: all files of one <scan> get the same coordinate value, that of the element *)
Theorem C112_coordinates_refuted : exists a,
  ex_open (ex_file [dx] 1) = Ok (Aggregated (AggModel.JoinNew "run" ["t"]) (Some a)) /\
  length (AggModel.a_files a) = 2 /\ AggModel.a_coords a = ["location_0"; "location_0"].
Proof. eexists. split; [vm_compute; reflexivity|]. split; reflexivity. Qed.

(** Finding: a scanned file with a dimension of the name of the new one is reported as not readable and
    stays in the list without a position: the only record is looked up in it, and the values of the
    second file are found nowhere *)
Theorem C112_half_added_refuted : exists a,
  ex_open (ex_file [dx; drun] 1) = Ok (Aggregated (AggModel.JoinNew "run" ["t"]) (Some a)) /\
  length (AggModel.a_files a) = 2 /\ AggModel.find_join (AggModel.a_pos a) 0 = Some (0, 0) /\
  AggModel.find_join (AggModel.a_pos a) 1 = None /\
  forall fill u, fill <> 2%Z -> AggModel.get_slice (AggModel.JoinNew "run" ["t"]) fill a "t" u <> Ok (Some [2%Z]).
Proof.
  eexists. split; [vm_compute; reflexivity|]. split; [reflexivity|]. split; [reflexivity|]. split; [reflexivity|].
  intros fill [|u] N; vm_compute; intro X; congruence.
Qed.

(** two elements, the second one with a coordinate value, then the files of a directory *)
Example C112_nonvacuous : exists a,
  open (fun _ => ex_tree) (fun _ p _ => if str_eqb p (s_ "in/a.nc") then Throw else Ok (ex_file [dx] 2)) (fun _ => Throw)
    (Ncml (s_ "x.ncml") None
       [AggEl (s_ "joinNew") (s_ "run") [s_ "t"]
          [NetEl [] (Ok (ex_file [dx] 7)); NetEl (s_ "late") (Ok (ex_file [dx] 8))]
          [ScanEl (s_ "in netcdf") (s_ ".nc") [] (s_ "false")]])
  = Ok (Aggregated (AggModel.JoinNew "run" ["t"]) (Some a)) /\
  AggModel.a_coords a = ["location_0"; "late"; "location_0"] /\
  AggModel.get_slice (AggModel.JoinNew "run" ["t"]) 0 a "t" 1 = Ok (Some [8%Z]) /\
  AggModel.get_slice (AggModel.JoinNew "run" ["t"]) 0 a "t" 2 = Ok (Some [2%Z]).
Proof. eexists. split; [vm_compute; reflexivity|]. repeat split; vm_compute; reflexivity. Qed.

Print Assumptions C112_location.
Print Assumptions C112_single.
Print Assumptions C112_several_refuted.
Print Assumptions C112_suffix.
Print Assumptions C112_scan.
Print Assumptions C112_members.
Print Assumptions C112_no_members.
Print Assumptions C112_new_records.
Print Assumptions C112_unreadable.
Print Assumptions C112_kinds.
Print Assumptions C112_made_up.
Print Assumptions C112_coordinates_refuted.
Print Assumptions C112_half_added_refuted.
Print Assumptions C112_nonvacuous.
