(** C102: the index file of GRIB files keeps the place of every message. *)
From Coq Require Import ZArith NArith Ascii String List Bool Lia Sorting.Sorted.
From Verif Require Import Base StdMap RegridModel StringModel StringProps ConvertModel CdmModel PbufModel PbufProofs PbufProps.
Import ListNotations.
Local Open Scope string_scope.
Local Open Scope list_scope.

(** what fits the messages: numbers of files and sizes of messages 32 bits, positions 64 bits; the variables
    are a map, sorted by name *)
Definition small (x : gmsg) : Prop := (g_file x < 2 ^ 32 /\ g_start x < 2 ^ 64 /\ g_size x < 2 ^ 32)%N.
Definition small_index (g : grib_indexed) : Prop :=
  ssorted (gi_vars g) /\ forall n v x, In (n, v) (gi_vars g) -> In x (g_msgs v) -> small x.

Lemma sput_last : forall A k (v : A) m, (forall k', In k' (skeys m) -> slt k' k) -> sput k v m = m ++ [(k, v)].
Proof.
  intros A k v m. induction m as [ | [k' v'] m IH ]; intros H; cbn [sput app]; [ reflexivity | ].
  assert (L : slt k' k) by (apply H; now left). unfold slt in L.
  rewrite String.compare_antisym, L. cbn [CompOpp]. rewrite IH; [ reflexivity | ]. intros k'' K. apply H. now right.
Qed.

Lemma read_vars : forall (l : list (string * gvar)) m,
  ssorted (m ++ l) -> (forall n v x, In (n, v) l -> In x (g_msgs v) -> small x) ->
  fold_left read_grib_var
    (map (fun e => mkMGVar (fst e) (g_scale (snd e)) (g_offset (snd e)) (map write_msg (g_msgs (snd e)))) l) m = m ++ l.
Proof.
  induction l as [ | [n v] l IH ]; intros m S B; cbn [map fold_left]; [ now rewrite app_nil_r | ].
  assert (LT : forall k, In k (skeys m) -> slt k n).
  { clear IH B. unfold ssorted, skeys in *. induction m as [ | [k' w] m IH ]; cbn [map app fst] in *; [ intros k [] | ].
    apply StronglySorted_inv in S. destruct S as (S & F). intros k [ <- | K ]; [ | now apply IH ].
    rewrite Forall_forall in F. apply F. rewrite map_app. apply in_or_app. right. now left. }
  assert (NF : sfind n m = None).
  { destruct (sfind n m) as [ w | ] eqn:F; [ | reflexivity ]. exfalso.
    assert (In n (skeys m)) by (apply sfind_In; now exists w). apply (slt_irrefl n). now apply LT. }
  unfold read_grib_var at 2. cbn [fst snd y_name y_scale y_offset y_chunks]. rewrite NF. cbn [app].
  assert (M : map write_msg (g_msgs v) = g_msgs v).
  { transitivity (map (fun x => x) (g_msgs v)); [ | apply map_id ]. apply map_ext_in. intros x X.
    destruct (B n v x (or_introl eq_refl) X) as (B1 & B2 & B3). unfold write_msg.
    change (4294967296)%N with (2 ^ 32)%N. change (18446744073709551616)%N with (2 ^ 64)%N.
    rewrite !N.mod_small by assumption. now destruct x. }
  rewrite M. rewrite sput_last by exact LT.
  rewrite IH.
  - rewrite <- app_assoc. cbn [app]. now destruct v.
  - rewrite <- app_assoc. cbn [app]. unfold ssorted, skeys in *. rewrite map_app in *. exact S.
  - intros n' v' x K. apply (B n' v' x). now right.
Qed.

(** the index file of metadata and messages: the metadata are read as C101 says, the messages of every
    variable and their scaling as they were, and of the files the names without directories; [ser] and
    [par] are the protobuf library's writing and reading *)
Theorem C102_round_trip : forall (ser : mgrib -> str) (par : str -> option mgrib) m g,
  (forall y, par (ser y) = Some y) -> indexable m -> small_index g ->
  exists bytes r, write_file ser m g = Ok bytes /\
    read_file par bytes = Ok (r, mkGI (map extract_filename (gi_files g)) (gi_vars g)) /\
    m_dims r = m_dims m /\
    m_vars r = map (fun v => mkVariable (va_name v) (va_type v) (va_shape v) (va_data v) None) (m_vars m) /\
    (forall n, n = global_ns \/ In n (names m) -> atts_of r n = atts_of m n).
Proof.
  intros ser par m g P X (S & B). destruct (C101_round_trip m X) as (c & r & W & R & D & V & A & _).
  eexists. exists r. unfold write_file. rewrite W. cbn [obind]. split; [ reflexivity | ].
  split; [ | split; [ exact D | split; [ exact V | exact A ] ] ].
  unfold read_file. set (y := write_grib c g).
  change (fimex_magic ++ grib_magic ++ ser y) with ((fimex_magic ++ grib_magic) ++ ser y).
  assert (L : length (fimex_magic ++ grib_magic) = 12%nat) by reflexivity.
  replace (length ((fimex_magic ++ grib_magic) ++ ser y) <? 12)%nat with false
    by (symmetry; apply Nat.ltb_ge; rewrite app_length, L; lia).
  rewrite <- L at 1. rewrite firstn_app, firstn_all, Nat.sub_diag. cbn [firstn]. rewrite app_nil_r.
  change (check_magic (fimex_magic ++ grib_magic)) with true. cbn [negb].
  rewrite <- L at 1. rewrite skipn_app, skipn_all, Nat.sub_diag. cbn [skipn app].
  rewrite P. cbn [y_cdm y write_grib]. rewrite R. cbn [obind]. f_equal. f_equal.
  unfold read_grib. cbn [y_files y_vars gi_files gi_vars app write_grib y]. f_equal.
  apply (read_vars (gi_vars g) []); [ exact S | exact B ].
Qed.

(** ** the names of the files *)

Lemma split_join : forall s d f, split_path s = Some (d, f) -> s = d ++ f /\ exists d', d = d' ++ ["/"%char].
Proof.
  induction s as [ | c s IH ]; intros d f H; cbn [split_path] in H; [ discriminate | ].
  destruct (split_path s) as [ [d' f'] | ] eqn:E.
  - injection H as <- <-. destruct (IH d' f' eq_refl) as (-> & (d'' & ->)). split; [ reflexivity | ]. now exists (c :: d'').
  - destruct (Ascii.eqb_spec c "/"%char) as [ -> | ]; [ | discriminate ]. injection H as <- <-.
    split; [ reflexivity | ]. now exists [].
Qed.

Lemma string_app : forall a b, string_of_list_ascii (a ++ b) = (string_of_list_ascii a ++ string_of_list_ascii b)%string.
Proof. induction a as [ | c a IH ]; intros b; cbn; [ reflexivity | ]. now rewrite IH. Qed.

(** the directory and the name of a file together are the file *)
Theorem C102_join : forall p, join_filename (remove_filename p) (extract_filename p) = p.
Proof.
  intros p. unfold remove_filename, extract_filename. destruct (split_path (list_ascii_of_string p)) as [ [d f] | ] eqn:E.
  - destruct (split_join _ _ _ E) as (F & (d' & ->)). unfold join_filename.
    rewrite list_ascii_of_string_of_list_ascii, rev_app_distr. cbn [rev app].
    change (Ascii.eqb "/" "/") with true. cbv iota.
    rewrite <- string_app, <- F. apply string_of_list_ascii_of_string.
  - reflexivity.
Qed.

(** a message of a file beside the index is read from that file *)
Theorem C102_place : forall index g x f,
  g_file x <> 0%N -> nth_error (gi_files g) (N.to_nat (g_file x)) = Some f ->
  remove_filename f = remove_filename index ->
  message_file (remove_filename index) (mkGI (map extract_filename (gi_files g)) (gi_vars g)) x = Ok (Some f).
Proof.
  intros index g x f N F E. unfold message_file. destruct (N.eqb_spec (g_file x) 0); [ contradiction | ].
  cbn [gi_files]. rewrite nth_error_map, F. cbn [option_map]. rewrite <- E. now rewrite C102_join.
Qed.

(** a missing message is missing after reading the index too, and no other message is *)
Theorem C102_missing : forall root g x,
  message_file root g x = Ok None <-> g_file x = 0%N.
Proof.
  intros root g x. unfold message_file. destruct (N.eqb_spec (g_file x) 0) as [ E | E ].
  - split; [ intros _; exact E | reflexivity ].
  - split; [ | contradiction ]. destruct (nth_error _ _); discriminate.
Qed.

(** ** the first bytes *)

(** a file is taken for an index exactly if its first seven bytes are FMXIDX and a zero, the ninth a G and
    the tenth a zero *)
Theorem C102_magic : forall l, check_magic l = true <->
  (12 <= length l)%nat /\ firstn 7 l = ["F"; "M"; "X"; "I"; "D"; "X"; "000"]%char /\ firstn 2 (skipn 8 l) = ["G"; "000"]%char.
Proof.
  intros l. destruct (Nat.leb_spec 12 (length l)) as [ L | L ].
  2:{ split; [ | intros (K & _); lia ]. intros H. unfold check_magic in H.
      replace (length l <? 12)%nat with true in H by (symmetry; apply Nat.ltb_lt; exact L). discriminate. }
  do 12 (destruct l as [ | ? l ]; [ cbn [length] in L; lia | ]).
  unfold check_magic. replace (length _ <? 12)%nat with false by (symmetry; apply Nat.ltb_ge; exact L).
  cbn [negb andb firstn skipn]. cbn [fimex_magic grib_magic strncmp_eq].
  change (Ascii.eqb "F" "000") with false. change (Ascii.eqb "M" "000") with false. change (Ascii.eqb "X" "000") with false.
  change (Ascii.eqb "I" "000") with false. change (Ascii.eqb "D" "000") with false. change (Ascii.eqb "G" "000") with false.
  change (Ascii.eqb "000" "000") with true. cbn [orb].
  rewrite !andb_true_iff, !Ascii.eqb_eq. split.
  - intros H. split; [ exact L | ]. decompose [and] H. subst. split; reflexivity.
  - intros (_ & A & C). injection A as -> -> -> -> -> -> ->. injection C as -> ->. repeat split.
Qed.

(** ** cases *)

Definition index2 : grib_indexed :=
  mkGI [""; "/data/a.grb"; "/data/b.grb"]
       [("t2m", mkGVar None None [mkGMsg 1 0 100; mkGMsg 0 0 0; mkGMsg 2 100 250])].

Example C102_nonvacuous : small_index index2 /\
  message_file (remove_filename "/data/all.fiidx") (mkGI (map extract_filename (gi_files index2)) (gi_vars index2)) (mkGMsg 2 100 250)
    = Ok (Some "/data/b.grb").
Proof.
  split; [ | vm_compute; reflexivity ]. split.
  - repeat constructor.
  - cbn. intros n v x [ E | [] ]. injection E as <- <-. cbn. intros [ <- | [ <- | [ <- | [] ] ] ]; unfold small; cbn; lia.
Qed.

(** Finding: files of the same name in two directories become one: every message is read from the file in
    the directory of the index. *)
Theorem C102_directories_refuted : forall g x y,
  gi_files g = [""; "/data/00/fc.grb"; "/data/12/fc.grb"] -> g_file x = 1%N -> g_file y = 2%N ->
  message_file "" g x = Ok (Some "/data/00/fc.grb") /\ message_file "" g y = Ok (Some "/data/12/fc.grb") /\
  message_file "/data/00/" (mkGI (map extract_filename (gi_files g)) (gi_vars g)) x
    = message_file "/data/00/" (mkGI (map extract_filename (gi_files g)) (gi_vars g)) y.
Proof.
  intros g x y F X Y. unfold message_file. rewrite X, Y. cbn [gi_files]. rewrite F. split; [ reflexivity | ]. split; reflexivity.
Qed.

(** Finding: the bytes that tell the kind of index (P for protobuf) and the last two of the three numbers of the version of the
    GRIB part are not compared: strncmp ends at the zero before them. *)
Theorem C102_version_refuted :
  check_magic ["F"; "M"; "X"; "I"; "D"; "X"; "000"; "Q"; "G"; "000"; "001"; "007"]%char = true.
Proof. vm_compute. reflexivity. Qed.

(** Finding: the size of a message of 4 GB or more is cut. *)
Theorem C102_size_refuted : g_size (write_msg (mkGMsg 1 0 4294967396)) = 100%N.
Proof. vm_compute. reflexivity. Qed.

Print Assumptions C102_round_trip.
Print Assumptions C102_join.
Print Assumptions C102_place.
Print Assumptions C102_missing.
Print Assumptions C102_magic.
Print Assumptions C102_nonvacuous.
Print Assumptions C102_directories_refuted.
Print Assumptions C102_version_refuted.
Print Assumptions C102_size_refuted.
