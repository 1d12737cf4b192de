(** C124: documents read in pieces, and the readers which are kept. *)
From Coq Require Import NArith ZArith PeanoNat Ascii String List Bool Lia.
From Verif Require Import Base AxesModel AxesProps PieceModel.
Import ListNotations.
Local Open Scope list_scope.
Local Open Scope nat_scope.

(** ** Statement *)
(** reading gives the bytes of [d], and leaves the rest of the buffer alone *)
Definition serves (read : N -> N -> list N -> outcome (list N)) (d : list N) : Prop :=
  forall off count buffer, 0 < count -> off + count <= length d -> count <= length buffer ->
    read (N.of_nat off) (N.of_nat count) buffer = Ok (firstn count (skipn off d) ++ skipn count buffer).
(** [d] in pieces of at most the given lengths *)
Fixpoint pieces (ns : list nat) (d : list N) : list (list N) :=
  match ns with [] => [] | n :: r => firstn n d :: pieces r (skipn n d) end.
(** the lengths a parser asks for are of type int; sizes are of type off_t *)
Definition ints (buffers : list (list N)) : Prop := Forall (fun b => (Z.of_nat (length b) < 2 ^ 31)%Z) buffers.
Definition off_t (n : nat) : Prop := (Z.of_nat n < 2 ^ 63)%Z.

(** ** Documents *)
Lemma xml_step s read off b : off_t s -> off <= s -> (Z.of_nat (length b) < 2 ^ 31)%Z ->
  let n := Nat.min (length b) (s - off) in
  xml_read (N.of_nat s) read (N.of_nat off) b (Z.of_nat (length b)) =
  if n =? 0 then Ok (0%Z, b, N.of_nat off)
  else match read (N.of_nat off) (N.of_nat n) b with
       | Ok b' => Ok (Z.of_nat n, b', N.of_nat (off + n))
       | Throw => Ok ((-1)%Z, b, N.of_nat off)
       | UB => UB
       | Hang => Hang
       end.
Proof.
  intros S O L n. unfold off_t in S. unfold xml_read.
  change (2 ^ 63)%Z with 9223372036854775808%Z in *. change (2 ^ 31)%Z with 2147483648%Z in *.
  assert (M : M64 = 18446744073709551616%N) by reflexivity.
  destruct (Z.ltb_spec (Z.of_nat (length b)) 0); [lia|].
  assert (E : add64 (N.of_nat off) (Z.to_N (Z.of_nat (length b))) = N.of_nat (off + length b)) by (rewrite add64_small by lia; lia).
  rewrite E, sub64_small by lia.
  assert (T : forall k, (0 <= k < 2147483648)%Z -> to_int k = k).
  { intros k K. unfold to_int. change (2 ^ 31)%Z with 2147483648%Z. change (2 ^ 32)%Z with 4294967296%Z. rewrite Z.mod_small; lia. }
  assert (F : (if (N.of_nat s <=? N.of_nat (off + length b))%N then to_int (Z.of_N (N.of_nat s - N.of_nat off)) else Z.of_nat (length b)) = Z.of_nat n).
  { subst n. destruct (N.leb_spec (N.of_nat s) (N.of_nat (off + length b))) as [A|A]; [rewrite T; lia|lia]. }
  cbv zeta. rewrite F. destruct (Z.eqb_spec (Z.of_nat n) 0) as [Z|Z]; destruct (Nat.eqb_spec n 0) as [Y|Y]; try lia; [reflexivity|].
  assert (G : size_of (Z.of_nat n) = N.of_nat n).
  { unfold size_of. change (2 ^ 64)%Z with 18446744073709551616%Z. rewrite Z.mod_small; lia. }
  rewrite G. destruct (read (N.of_nat off) (N.of_nat n) b); try reflexivity. rewrite add64_small by lia.
  rewrite <- Nat2N.inj_add. reflexivity.
Qed.
Lemma skipn_plus {A} a : forall b (l : list A), skipn b (skipn a l) = skipn (a + b) l.
Proof. induction a as [|a IH]; intros b [|x l]; cbn [skipn Nat.add]; auto. now destruct b. Qed.
Lemma min_piece {A} n (l : list A) : firstn (Nat.min n (length l)) l = firstn n l /\ skipn (Nat.min n (length l)) l = skipn n l.
Proof.
  destruct (Nat.min_spec n (length l)) as [(H & ->)|(H & ->)]; [auto|]. rewrite firstn_all, skipn_all. split; symmetry; [now apply firstn_all2|now apply skipn_all2].
Qed.
(** the parser gets the document, piece by piece, and an answer 0 for each further call *)
Lemma xml_run_at read d : serves read d -> off_t (length d) -> forall buffers off, ints buffers -> off <= length d ->
  xml_run (N.of_nat (length d)) read (N.of_nat off) buffers =
  Ok (map (fun p => (Z.of_nat (length p), p)) (pieces (map (@length N) buffers) (skipn off d))).
Proof.
  intros SV SZ. induction buffers as [|b r IH]; intros off I O; [reflexivity|].
  inversion I as [|? ? B R]; subst. cbn [xml_run map pieces]. rewrite xml_step by assumption.
  destruct (min_piece (length b) (skipn off d)) as (P & Q). rewrite skipn_length in P, Q.
  set (n := Nat.min (length b) (length d - off)) in *.
  assert (LN : length (firstn (length b) (skipn off d)) = n) by (rewrite firstn_length, skipn_length; reflexivity).
  destruct (Nat.eqb_spec n 0) as [Z|Z].
  - cbn [obind]. destruct (Z.ltb_spec 0 0); [lia|]. rewrite (IH off R O). cbn [obind]. do 2 f_equal.
    + rewrite LN, Z. cbn [Z.to_nat firstn]. rewrite <- P, Z. reflexivity.
    + f_equal. f_equal. rewrite <- Q, Z. reflexivity.
  - rewrite (SV off n b) by (subst n; lia). cbn [obind]. destruct (Z.ltb_spec (Z.of_nat n) 0); [lia|].
    rewrite (IH (off + n) R) by (subst n; lia). cbn [obind]. do 2 f_equal.
    + rewrite LN. f_equal. rewrite Nat2Z.id, <- P. rewrite firstn_app.
      assert (LP : length (firstn n (skipn off d)) = n) by (rewrite firstn_length, skipn_length; subst n; lia).
      rewrite LP, Nat.sub_diag. cbn [firstn]. rewrite app_nil_r, firstn_firstn, Nat.min_id. reflexivity.
    + f_equal. f_equal. rewrite <- Q, skipn_plus. reflexivity.
Qed.
Theorem C124_document : forall read d buffers, serves read d -> off_t (length d) -> ints buffers ->
  xml_run (N.of_nat (length d)) read 0 buffers = Ok (map (fun p => (Z.of_nat (length p), p)) (pieces (map (@length N) buffers) d)) /\
  concat (pieces (map (@length N) buffers) d) = firstn (list_sum (map (@length N) buffers)) d.
Proof.
  intros read d buffers SV SZ I. split.
  - exact (xml_run_at read d SV SZ buffers 0 I (Nat.le_0_l _)).
  - generalize (map (@length N) buffers) as ns. intro ns. revert d SV SZ. intros d _ _. revert d.
    induction ns as [|n ns IH]; intro d; cbn [pieces concat]; [reflexivity|]. rewrite IH. change (list_sum (n :: ns)) with (n + list_sum ns).
    rewrite <- (firstn_skipn n d) at 3. rewrite firstn_app. rewrite firstn_length.
    rewrite (firstn_all2 (firstn n d)) by (rewrite firstn_length; lia). f_equal.
    destruct (Nat.le_gt_cases n (length d)) as [H|H]; [f_equal; lia|].
    rewrite (skipn_all2 d) by lia. rewrite !firstn_nil. reflexivity.
Qed.
(** the document is a file, which may have grown since it was opened *)
Theorem C124_file : forall d more, off_t (length d) -> serves (file_read (d ++ more)) d.
Proof.
  intros d more S off count buffer C L B. unfold off_t in S. unfold file_read, put.
  change (2 ^ 63)%N with 9223372036854775808%N. change (2 ^ 63)%Z with 9223372036854775808%Z in S.
  destruct (N.leb_spec 9223372036854775808 (N.of_nat off)); [lia|]. rewrite !Nat2N.id.
  rewrite skipn_app, firstn_app, skipn_length. replace (off - length d) with 0 by lia. cbn [skipn].
  replace (count - (length d - off)) with 0 by lia. cbn [firstn]. rewrite app_nil_r.
  assert (LG : length (firstn count (skipn off d)) = count) by (rewrite firstn_length, skipn_length; lia).
  rewrite LG. destruct (Nat.ltb_spec (length buffer) count); [lia|]. cbn [obind]. rewrite N.eqb_refl. reflexivity.
Qed.
(** the document is at a server which sends what is asked for, in chunks of any lengths *)
Theorem C124_http : forall sv d, off_t (length d) ->
  (forall a z, a <= z -> z < length d ->
     exists chunks, sv_get sv (N.of_nat a) (N.of_nat z) = (chunks, true) /\ concat chunks = firstn (S z - a) (skipn a d)) ->
  serves (http_get sv (N.of_nat (length d))) d.
Proof.
  intros sv d S H off count buffer C L B. unfold off_t in S. change (2 ^ 63)%Z with 9223372036854775808%Z in S.
  assert (M : M64 = 18446744073709551616%N) by reflexivity.
  destruct (H off (off + count - 1)) as (chunks & E & CC); [lia|lia|]. replace (Datatypes.S (off + count - 1) - off) with count in CC by lia.
  assert (SB : sub64 (N.of_nat off + N.of_nat count) 1 = N.of_nat (off + count - 1)) by (rewrite sub64_small by lia; lia).
  assert (LG : length (concat chunks) = count) by (rewrite CC, firstn_length, skipn_length; lia).
  unfold http_get. rewrite C47_read; rewrite ?SB, ?E; cbn [fst]; try lia.
  - rewrite LG. destruct (N.leb_spec (N.of_nat count) (N.of_nat count)); [|lia]. cbn [obind].
    rewrite add64_small, SB, E by lia. cbn [snd]. rewrite CC. reflexivity.
  - apply Forall_forall. intros c I. apply in_split in I as (u & v & ->). rewrite concat_app in LG. cbn [concat] in LG. rewrite !app_length in LG. lia.
Qed.
(** a file which has become shorter: the parser gets an error, after bytes of the file *)
Theorem C124_shortened : forall c size buffers, length c < size -> off_t size -> ints buffers ->
  size <= list_sum (map (@length N) buffers) ->
  exists l, xml_run (N.of_nat size) (file_read c) 0 buffers = Ok (l ++ [((-1)%Z, [])]) /\
    concat (map snd l) = firstn (length (concat (map snd l))) c.
Proof.
  intros c size buffers LT SZ I SUM.
  assert (G : forall buffers off, ints buffers -> off <= length c -> size <= off + list_sum (map (@length N) buffers) ->
            exists l, xml_run (N.of_nat size) (file_read c) (N.of_nat off) buffers = Ok (l ++ [((-1)%Z, [])]) /\
              concat (map snd l) = firstn (length (concat (map snd l))) (skipn off c)).
  { clear I SUM buffers. induction buffers as [|b r IH]; intros off I O SUM; [cbn in SUM; lia|].
    inversion I as [|? ? B R]; subst. cbn [map] in SUM. change (list_sum (length b :: map (@length N) r)) with (length b + list_sum (map (@length N) r)) in SUM.
    cbn [xml_run]. rewrite xml_step by (auto; lia). set (n := Nat.min (length b) (size - off)).
    destruct (Nat.eqb_spec n 0) as [Z|Z].
    - cbn [obind]. destruct (Z.ltb_spec 0 0); [lia|]. destruct (IH off R O) as (l & E & P); [subst n; lia|]. rewrite E. cbn [obind Z.to_nat firstn].
      exists ((0%Z, []) :: l). split; [reflexivity|]. exact P.
    - destruct (Nat.le_gt_cases (off + n) (length c)) as [F|F].
      + assert (SV : file_read c (N.of_nat off) (N.of_nat n) b = Ok (firstn n (skipn off c) ++ skipn n b)).
        { rewrite <- (app_nil_r c) at 1. apply C124_file; try (subst n; lia). unfold off_t in *. lia. }
        rewrite SV. cbn [obind]. destruct (Z.ltb_spec (Z.of_nat n) 0); [lia|].
        destruct (Nat.le_gt_cases size (off + n)) as [K|K]; [lia|].
        destruct (IH (off + n) R) as (l & E & P); [lia|subst n; lia|]. rewrite E. cbn [obind].
        assert (LP : length (firstn n (skipn off c)) = n) by (rewrite firstn_length, skipn_length; lia).
        assert (FN : firstn (Z.to_nat (Z.of_nat n)) (firstn n (skipn off c) ++ skipn n b) = firstn n (skipn off c)).
        { rewrite Nat2Z.id, firstn_app, LP, Nat.sub_diag. cbn [firstn]. rewrite app_nil_r, firstn_firstn, Nat.min_id. reflexivity. }
        rewrite FN. eexists (_ :: l). split; [reflexivity|]. cbn [map snd concat].
        rewrite <- skipn_plus in P. rewrite app_length, LP. set (y := concat (map snd l)) in *. clearbody y.
        set (x := skipn off c) in *. transitivity (firstn (n + length y) (firstn n x ++ skipn n x)); [|rewrite firstn_skipn; reflexivity].
        rewrite firstn_app, LP. rewrite (firstn_all2 (firstn n x)) by lia. f_equal. rewrite P at 1. f_equal. lia.
      + assert (TH : file_read c (N.of_nat off) (N.of_nat n) b = Throw).
        { unfold file_read, put. unfold off_t in SZ. change (2 ^ 63)%Z with 9223372036854775808%Z in SZ. change (2 ^ 63)%N with 9223372036854775808%N.
          destruct (N.leb_spec 9223372036854775808 (N.of_nat off)); [lia|]. rewrite !Nat2N.id.
          assert (LG : length (firstn n (skipn off c)) = length c - off) by (rewrite firstn_length, skipn_length; lia). rewrite LG.
          destruct (Nat.ltb_spec (length b) (length c - off)); [subst n; lia|]. cbn [obind].
          destruct (N.eqb_spec (N.of_nat (length c - off)) (N.of_nat n)); [lia|reflexivity]. }
        rewrite TH. cbn [obind]. exists []. split; reflexivity. }
  exact (G buffers 0 I (Nat.le_0_l _) SUM).
Qed.
(** a negative length is refused, and nothing is read *)
Theorem C124_negative : forall size read off buffer len, (len < 0)%Z -> xml_read size read off buffer len = Ok ((-1)%Z, buffer, off).
Proof. intros size read off buffer len H. unfold xml_read. destruct (Z.ltb_spec len 0); [reflexivity|lia]. Qed.

(** ** Readers *)
(** the texts which name documents of servers, and the file which another text names *)
Definition web (url : string) : Prop := exists r, url = ("http://" ++ r)%string \/ url = ("https://" ++ r)%string.
Definition names_file (url p : string) : Prop :=
  ~ web url /\ (url = ("file:" ++ p)%string \/ ((forall r, url <> ("file:" ++ r)%string) /\ url = p)).
(** the program starts without readers, with some files *)
Definition begin (w : world) : Prop :=
  w_file w = None /\ w_http w = None /\ forall p i, d_names (w_disk w) p = Some i -> i < d_next (w_disk w).

Lemma prefix_exists p : forall s, prefix p s = true <-> exists r, s = (p ++ r)%string.
Proof.
  induction p as [|a p IH]; intros s.
  - split; [intros _; exists s; reflexivity|intros _; destruct s; reflexivity].
  - destruct s as [|b s]; [split; [discriminate|intros (r & E); discriminate E]|].
    change (prefix (String a p) (String b s)) with (if ascii_dec a b then prefix p s else false).
    destruct (ascii_dec a b) as [->|N].
    + rewrite IH. split; intros (r & E); exists r; [now rewrite E|now injection E].
    + split; [discriminate|]. intros (r & E). injection E as E _. congruence.
Qed.
Lemma web_iff url : prefix "http://" url || prefix "https://" url = true <-> web url.
Proof.
  rewrite orb_true_iff, !prefix_exists. unfold web. split.
  - intros [(r & E)|(r & E)]; exists r; auto.
  - intros (r & [E|E]); [left|right]; exists r; exact E.
Qed.
Lemma substring_all s : substring 0 (String.length s) s = s.
Proof. induction s as [|a s IH]; cbn; [reflexivity|]. now rewrite IH. Qed.
Lemma web_for w url : web url -> reader_for w url = http_for w url.
Proof. intro H. apply web_iff in H. unfold reader_for. now rewrite H. Qed.
Lemma not_web_for w url p : names_file url p -> reader_for w url = file_for w p.
Proof.
  intros (NW & H). unfold reader_for. destruct (prefix "http://" url || prefix "https://" url) eqn:E; [apply web_iff in E; contradiction|].
  destruct H as [-> | (N & ->)].
  - assert (P : prefix "file:" ("file:" ++ p) = true) by (apply prefix_exists; now exists p). rewrite P. f_equal.
    change (substring 5 (String.length ("file:" ++ p) - 5) ("file:" ++ p)) with (substring 0 (String.length p - 0) p).
    rewrite Nat.sub_0_r. apply substring_all.
  - destruct (prefix "file:" p) eqn:P; [|reflexivity]. apply prefix_exists in P as (r & P). now apply N in P.
Qed.
(** each text is one or the other, and names one file *)
Theorem C124_names : forall url, (web url \/ exists p, names_file url p) /\
  (forall p, names_file url p -> ~ web url) /\ (forall p q, names_file url p -> names_file url q -> p = q).
Proof.
  intro url. split; [|split].
  - destruct (prefix "http://" url || prefix "https://" url) eqn:E; [left; now apply web_iff|right].
    assert (NW : ~ web url) by (intro W; apply web_iff in W; congruence).
    destruct (prefix "file:" url) eqn:P.
    + apply prefix_exists in P as (r & ->). exists r. split; auto.
    + exists url. split; [exact NW|]. right. split; [|reflexivity]. intros r R. assert (X : prefix "file:" url = true) by (apply prefix_exists; now exists r). congruence.
  - intros p (H & _). exact H.
  - intros p q (_ & [A|(A & A')]) (_ & [B|(B & B')]).
    + rewrite A in B. cbn [append] in B. now injection B.
    + now apply B in A.
    + now apply A in B.
    + congruence.
Qed.

(** what is kept is of the right kind, and of a file which exists *)
Definition sound (w : world) : Prop :=
  match w_file w with Some (File _ _ i _) => i < d_next (w_disk w) | Some (Http _ _ _) => False | None => True end /\
  match w_http w with Some (File _ _ _ _) => False | _ => True end /\
  forall p i, d_names (w_disk w) p = Some i -> i < d_next (w_disk w).
Lemma file_for_cases w p r w' : sound w -> file_for w p = Ok (r, w') ->
  sound w' /\ w_disk w' = w_disk w /\ w_net w' = w_net w /\ w_http w' = w_http w /\ w_file w' = Some r /\
  exists id i n, r = File id p i n /\ i < d_next (w_disk w).
Proof.
  intros S H. unfold file_for, held in H. destruct S as (S1 & S2 & S3).
  assert (O : forall rr ww, (do r0 <- open_file w p; Ok (r0, mkW (w_disk w) (w_net w) (Some r0) (w_http w) (S (w_id w)))) = Ok (rr, ww) ->
      sound ww /\ w_disk ww = w_disk w /\ w_net ww = w_net w /\ w_http ww = w_http w /\ w_file ww = Some rr /\
      exists id i n, rr = File id p i n /\ i < d_next (w_disk w)).
  { intros rr ww E. unfold open_file in E. destruct (d_names (w_disk w) p) as [i|] eqn:D; [|discriminate E]. cbn [obind] in E. injection E as <- <-.
    cbn. assert (X := S3 _ _ D). repeat split; auto. eauto 6. }
  destruct (w_file w) as [x|] eqn:F; [|exact (O _ _ H)].
  destruct (String.eqb_spec (path_of x) p) as [E|E]; [|exact (O _ _ H)].
  injection H as <- <-. split; [unfold sound; rewrite F; auto|]. do 3 (split; [reflexivity|]). split; [exact F|].
  destruct x as [id q i n|]; [|destruct S1]. cbn [path_of] in E. subst q. eauto 6.
Qed.
Lemma http_for_cases w u r w' : sound w -> http_for w u = Ok (r, w') ->
  sound w' /\ w_disk w' = w_disk w /\ w_net w' = w_net w /\ w_file w' = w_file w /\ w_http w' = Some r /\ exists id n, r = Http id u n.
Proof.
  intros S H. unfold http_for, held in H. destruct S as (S1 & S2 & S3).
  assert (O : forall rr ww, (do r0 <- open_http w u; Ok (r0, mkW (w_disk w) (w_net w) (w_file w) (Some r0) (S (w_id w)))) = Ok (rr, ww) ->
      sound ww /\ w_disk ww = w_disk w /\ w_net ww = w_net w /\ w_file ww = w_file w /\ w_http ww = Some rr /\ exists id n, rr = Http id u n).
  { intros rr ww E. unfold open_http in E. destruct (w_net w u) as [sv|]; [|discriminate E]. destruct (sv_head sv) as [z|]; [|discriminate E].
    cbn [obind] in E. injection E as <- <-. unfold sound. cbn. repeat split; auto. eauto. }
  destruct (w_http w) as [x|] eqn:F; [|exact (O _ _ H)].
  destruct (String.eqb_spec (path_of x) u) as [E|E]; [|exact (O _ _ H)].
  injection H as <- <-. split; [unfold sound; rewrite F; auto|]. do 3 (split; [reflexivity|]). split; [exact F|].
  destruct x as [|id q n]; [destruct S2|]. cbn [path_of] in E. subst q. eauto.
Qed.
Lemma begin_sound w : begin w -> sound w.
Proof. intros (A & B & C). unfold sound. rewrite A, B. auto. Qed.
(** of each kind of request one sees only the last one *)
Lemma step_sound w o : sound w -> sound (step w o) /\ d_next (w_disk w) <= d_next (w_disk (step w o)).
Proof.
  intro S. destruct o as [u|p b|p b|p].
  - cbn [step]. destruct (reader_for w u) as [(r, w')| | |] eqn:E; auto.
    destruct (C124_names u) as ([W|(p & P)] & _).
    + rewrite (web_for _ _ W) in E. destruct (http_for_cases _ _ _ _ S E) as (S' & D & _). rewrite D. auto.
    + rewrite (not_web_for _ _ _ P) in E. destruct (file_for_cases _ _ _ _ S E) as (S' & D & _). rewrite D. auto.
  - cbn [step]. destruct S as (S1 & S2 & S3). destruct (d_names (w_disk w) p) as [i|] eqn:D; unfold sound, on_disk; cbn.
    + repeat split; auto.
    + split; [|lia]. split; [destruct (w_file w) as [[]|]; auto; lia|]. split; [exact S2|].
      intros q i. unfold fput. destruct (String.eqb q p); [intro E; injection E as <-; lia|]. intro E. apply S3 in E. lia.
  - cbn [step]. destruct S as (S1 & S2 & S3). unfold sound, on_disk; cbn.
    split; [|lia]. split; [destruct (w_file w) as [[]|]; auto; lia|]. split; [exact S2|].
    intros q i. unfold fput. destruct (String.eqb q p); [intro E; injection E as <-; lia|]. intro E. apply S3 in E. lia.
  - cbn [step]. destruct S as (S1 & S2 & S3). unfold sound, on_disk; cbn. repeat split; auto.
    intros q i. unfold fput. destruct (String.eqb q p); [discriminate|apply S3].
Qed.
Lemma run_sound ops : forall w, sound w -> sound (run ops w) /\ d_next (w_disk w) <= d_next (w_disk (run ops w)).
Proof.
  induction ops as [|o ops IH]; intros w S; cbn [run fold_left]; [auto|]. destruct (step_sound w o S) as (S' & L).
  destruct (IH _ S') as (S'' & L'). split; [exact S''|]. unfold run in L'. lia.
Qed.
(** a reader is one of what was asked for *)
Theorem C124_reader : forall ops w url r w', begin w -> reader_for (run ops w) url = Ok (r, w') ->
  (web url -> exists id n, r = Http id url n) /\ (forall p, names_file url p -> exists id i n, r = File id p i n).
Proof.
  intros ops w url r w' B H. apply begin_sound in B. destruct (run_sound ops w B) as (S & _). split.
  - intro W. rewrite (web_for _ _ W) in H. destruct (http_for_cases _ _ _ _ S H) as (_ & _ & _ & _ & _ & X). exact X.
  - intros p P. rewrite (not_web_for _ _ _ P) in H. destruct (file_for_cases _ _ _ _ S H) as (_ & _ & _ & _ & _ & id & i & n & X & _). eauto.
Qed.
Lemma opened v url p : names_file url p -> (forall r, w_file v = Some r -> path_of r <> p) ->
  match d_names (w_disk v) p with
  | None => reader_for v url = Throw
  | Some i => exists w', reader_for v url = Ok (File (w_id v) p i (N.of_nat (length (d_bytes (w_disk v) i))), w') /\ w_disk w' = w_disk v
  end.
Proof.
  intros P K. rewrite (not_web_for _ _ _ P). unfold file_for, held.
  destruct (w_file v) as [x|]; [destruct (String.eqb_spec (path_of x) p) as [E|E]; [exfalso; exact (K x eq_refl E)|]|];
    unfold open_file; destruct (d_names (w_disk v) p); cbn [obind]; eauto.
Qed.
(** none of the requests is one of another file *)
Definition no_other (p : string) (ops : list op) : Prop := forall u q, In (Ask u) ops -> names_file u q -> q = p.
Definition no_other_url (url : string) (ops : list op) : Prop := forall u, In (Ask u) ops -> web u -> u = url.
(** the reader asked for is kept until another file is asked for *)
Theorem C124_kept : forall ops w url p r w' ops', begin w -> names_file url p -> reader_for (run ops w) url = Ok (r, w') ->
  no_other p ops' -> reader_for (run ops' w') url = Ok (r, run ops' w').
Proof.
  intros ops w url p r w' ops' B P H N. apply begin_sound in B. destruct (run_sound ops w B) as (S & _).
  rewrite (not_web_for _ _ _ P) in H. rewrite (not_web_for _ _ _ P). destruct (file_for_cases _ _ _ _ S H) as (S' & _ & _ & _ & F & id & i & n & -> & _).
  assert (G : sound (run ops' w') /\ w_file (run ops' w') = Some (File id p i n)).
  { clear H. revert w' S' F N. induction ops' as [|o ops' IH]; intros v SV F N; [auto|].
    cbn [run fold_left]. apply IH.
    - apply step_sound, SV.
    - destruct o as [u|q b|q b|q]; cbn [step]; try exact F.
      + destruct (reader_for v u) as [(r, v')| | |] eqn:E; auto. destruct (C124_names u) as ([W|(q & Q)] & _).
        * rewrite (web_for _ _ W) in E. destruct (http_for_cases _ _ _ _ SV E) as (_ & _ & _ & -> & _). exact F.
        * assert (q = p) by (apply (N u q); [now left|exact Q]). subst q. rewrite (not_web_for _ _ _ Q) in E. unfold file_for, held in E. rewrite F in E.
          cbn [path_of] in E. rewrite String.eqb_refl in E. injection E as <- <-. exact F.
      + destruct (d_names (w_disk v) q); exact F.
    - intros u q I. apply N. now right. }
  destruct G as (_ & G). unfold file_for, held. rewrite G. cbn [path_of]. rewrite String.eqb_refl. reflexivity.
Qed.
Theorem C124_kept_url : forall ops w url r w' ops', begin w -> web url -> reader_for (run ops w) url = Ok (r, w') ->
  no_other_url url ops' -> reader_for (run ops' w') url = Ok (r, run ops' w').
Proof.
  intros ops w url r w' ops' B P H N. apply begin_sound in B. destruct (run_sound ops w B) as (S & _).
  rewrite (web_for _ _ P) in H. rewrite (web_for _ _ P). destruct (http_for_cases _ _ _ _ S H) as (S' & _ & _ & _ & F & id & n & ->).
  assert (G : sound (run ops' w') /\ w_http (run ops' w') = Some (Http id url n)).
  { clear H. revert w' S' F N. induction ops' as [|o ops' IH]; intros v SV F N; [auto|].
    cbn [run fold_left]. apply IH.
    - apply step_sound, SV.
    - destruct o as [u|q b|q b|q]; cbn [step]; try exact F.
      + destruct (reader_for v u) as [(r, v')| | |] eqn:E; auto. destruct (C124_names u) as ([W|(q & Q)] & _).
        * assert (u = url) by (apply (N u); [now left|exact W]). subst u. rewrite (web_for _ _ W) in E. unfold http_for, held in E. rewrite F in E.
          cbn [path_of] in E. rewrite String.eqb_refl in E. injection E as <- <-. exact F.
        * rewrite (not_web_for _ _ _ Q) in E. destruct (file_for_cases _ _ _ _ SV E) as (_ & _ & _ & -> & _). exact F.
      + destruct (d_names (w_disk v) q); exact F.
    - intros u I. apply N. now right. }
  destruct G as (_ & G). unfold http_for, held. rewrite G. cbn [path_of]. rewrite String.eqb_refl. reflexivity.
Qed.
(** a file asked for after another one is opened again, with the size it has then; one which does not exist is an exception *)
Theorem C124_opened : forall ops w u q r w' ops' url p, begin w -> names_file u q -> reader_for (run ops w) u = Ok (r, w') ->
  no_other q ops' -> names_file url p -> p <> q ->
  let v := run ops' w' in
  match d_names (w_disk v) p with
  | None => reader_for v url = Throw
  | Some i => exists w', reader_for v url = Ok (File (w_id v) p i (N.of_nat (length (d_bytes (w_disk v) i))), w') /\ w_disk w' = w_disk v
  end.
Proof.
  intros ops w u q r w' ops' url p B Q H N P D v. apply opened; [exact P|].
  assert (K := C124_kept ops w u q r w' ops' B Q H N). fold v in K. apply begin_sound in B. destruct (run_sound ops w B) as (S & _).
  rewrite (not_web_for _ _ _ Q) in H. destruct (file_for_cases _ _ _ _ S H) as (S' & _). destruct (run_sound ops' w' S') as (S'' & _). fold v in S''.
  rewrite (not_web_for _ _ _ Q) in K. destruct (file_for_cases _ _ _ _ S'' K) as (_ & _ & _ & _ & F & id & i & n & -> & _).
  intros r F'. rewrite F in F'. injection F' as <-. cbn [path_of]. congruence.
Qed.
(** the first request of a file opens it *)
Theorem C124_first : forall ops w url p, begin w -> names_file url p -> (forall u q, In (Ask u) ops -> ~ names_file u q) ->
  let v := run ops w in
  match d_names (w_disk v) p with
  | None => reader_for v url = Throw
  | Some i => exists w', reader_for v url = Ok (File (w_id v) p i (N.of_nat (length (d_bytes (w_disk v) i))), w') /\ w_disk w' = w_disk v
  end.
Proof.
  intros ops w url p B P N v. apply opened; [exact P|]. assert (F : w_file v = None); [|rewrite F; discriminate].
  assert (F := proj1 B). apply begin_sound in B. subst v. revert w B F N. induction ops as [|o ops IH]; intros w B F N; [exact F|].
  change (run (o :: ops) w) with (run ops (step w o)). apply IH; [apply step_sound, B| |intros u q I; apply N; now right].
  destruct o as [u|q b|q b|q]; cbn [step]; try exact F.
  - destruct (reader_for w u) as [(r, v')| | |] eqn:E; auto. destruct (C124_names u) as ([W|(q & Q)] & _).
    + rewrite (web_for _ _ W) in E. destruct (http_for_cases _ _ _ _ B E) as (_ & _ & _ & -> & _). exact F.
    + exfalso. exact (N u q (or_introl eq_refl) Q).
  - destruct (d_names (w_disk w) q); exact F.
Qed.
(** a request which fails changes nothing *)
Theorem C124_failed : forall w url, (forall x, reader_for w url <> Ok x) -> step w (Ask url) = w.
Proof. intros w url H. cbn [step]. destruct (reader_for w url) as [(r, w')| | |]; auto. now destruct (H (r, w')). Qed.
(** a file once opened stays readable as it is, whatever becomes of the names *)
Theorem C124_open_file : forall ops w url p r w' ops', begin w -> names_file url p -> reader_for (run ops w) url = Ok (r, w') ->
  (forall o, In o ops' -> match o with Rewrite _ _ => False | _ => True end) ->
  read_of (run ops' w') r = read_of (run ops w) r.
Proof.
  intros ops w url p r w' ops' B P H N. apply begin_sound in B. destruct (run_sound ops w B) as (S & _).
  rewrite (not_web_for _ _ _ P) in H. destruct (file_for_cases _ _ _ _ S H) as (S' & D & _ & _ & _ & id & i & n & -> & L).
  cbn [read_of]. rewrite <- D in L |- *. clear H D S. revert w' S' L N. induction ops' as [|o ops' IH]; intros v SV L N; [reflexivity|].
  change (run (o :: ops') v) with (run ops' (step v o)). destruct (step_sound v o SV) as (S1 & L1). rewrite (IH (step v o) S1); [|lia|intros x X; apply N; now right].
  assert (NO := N o (or_introl eq_refl)). f_equal. destruct o as [u|q b|q b|q]; [|destruct NO| |reflexivity]; cbn [step].
  - destruct (reader_for v u) as [(r, v')| | |] eqn:E; auto. destruct (C124_names u) as ([W|(q & Q)] & _).
    + rewrite (web_for _ _ W) in E. destruct (http_for_cases _ _ _ _ SV E) as (_ & -> & _). reflexivity.
    + rewrite (not_web_for _ _ _ Q) in E. destruct (file_for_cases _ _ _ _ SV E) as (_ & -> & _). reflexivity.
  - cbn. unfold fput. destruct (Nat.eqb_spec i (d_next (w_disk v))); [lia|reflexivity].
Qed.

(** ** Examples and findings *)
Definition disk1 : disk := mkDisk (fun p => if String.eqb p "a" then Some 0 else if String.eqb p "b" then Some 1 else None)
  (fun i => if i =? 0 then [10; 11; 12; 13; 14]%N else [20]%N) 2.
(** a server with five bytes, which sends them one by one; the same without a length; one which has only a short page *)
Definition five : list N := [1; 2; 3; 4; 5]%N.
Definition good : server := mkServer (Some 5%Z) (fun a z => (map (fun x => [x]) (firstn (N.to_nat (z + 1 - a)) (skipn (N.to_nat a) five)), true)).
Definition no_length : server := mkServer (Some (-1)%Z) (sv_get good).
Definition page : server := mkServer (Some 5%Z) (fun _ _ => ([[9; 9]%N], true)).
Definition world1 : world := mkW disk1
  (fun u => if String.eqb u "http://x/good" then Some good else if String.eqb u "http://x/none" then Some no_length
            else if String.eqb u "http://x/page" then Some page else None) None None 0.
Lemma begin1 : begin world1.
Proof.
  split; [reflexivity|]. split; [reflexivity|]. intros p i. cbn. destruct (String.eqb p "a"); [intro E; injection E as <-; lia|].
  destruct (String.eqb p "b"); [intro E; injection E as <-; lia|discriminate].
Qed.
(** the sizes and the bytes of the readers asked for one after another *)
Definition seen (ops : list op) (url : string) (buffers : list (list N)) : outcome (nat * N * list (Z * list N)) :=
  let w := run ops world1 in
  do (r, w') <- reader_for w url;
  do l <- xml_run (size_of_reader r) (read_of w' r) 0 buffers;
  Ok (match r with File id _ _ _ => id | Http id _ _ => id end, size_of_reader r, l).
Definition buf (n : nat) : list N := repeat 7%N n.
Example C124_nonvacuous :
  seen [] "a" [buf 2; buf 2; buf 4; buf 4] = Ok (0, 5%N, [(2%Z, [10; 11]%N); (2%Z, [12; 13]%N); (1%Z, [14]%N); (0%Z, [])]) /\
  seen [Ask "a"] "file:a" [buf 9] = Ok (0, 5%N, [(5%Z, [10; 11; 12; 13; 14]%N)]) /\
  seen [Ask "a"; Ask "b"] "a" [buf 9] = Ok (2, 5%N, [(5%Z, [10; 11; 12; 13; 14]%N)]) /\
  seen [Ask "a"; Ask "http://x/good"; Ask "c"] "a" [buf 1] = Ok (0, 5%N, [(1%Z, [10]%N)]) /\
  seen [] "http://x/good" [buf 2; buf 2; buf 4] = Ok (0, 5%N, [(2%Z, [1; 2]%N); (2%Z, [3; 4]%N); (1%Z, [5]%N)]) /\
  seen [Remove "a"] "a" [] = Throw /\ seen [] "http://x/other" [] = Throw.
Proof. repeat split; vm_compute; reflexivity. Qed.
Example C124_servers_nonvacuous : serves (http_get good 5) five /\ serves (file_read (five ++ [6]%N)) five /\ ints [buf 2; buf 4] /\
  xml_run 5 (file_read [1; 2; 3]%N) 0 [buf 2; buf 2; buf 4] = Ok [(2%Z, [1; 2]%N); ((-1)%Z, [])].
Proof.
  split; [|split; [|split]].
  - apply (C124_http good five); [unfold off_t; cbn; lia|]. intros a z A Z.
    eexists. split; [reflexivity|]. replace (N.to_nat (N.of_nat z + 1 - N.of_nat a)) with (S z - a) by lia. rewrite Nat2N.id.
    generalize (firstn (S z - a) (skipn a five)). intro l. induction l as [|x l IH]; [reflexivity|]. cbn [map concat List.app]. now rewrite IH.
  - apply C124_file. unfold off_t. cbn. lia.
  - repeat constructor; cbn; lia.
  - vm_compute. reflexivity.
Qed.
(** Finding: the reader which is kept is that of the file which had the name; a file which has got longer is read only as far
    as it was before, and one which has got shorter gives an error *)
Theorem C124_old_file_refuted :
  seen [Ask "a"; Replace "a" [30]%N] "a" [buf 9] = Ok (0, 5%N, [(5%Z, [10; 11; 12; 13; 14]%N)]) /\
  seen [Ask "a"; Remove "a"] "a" [buf 9] = Ok (0, 5%N, [(5%Z, [10; 11; 12; 13; 14]%N)]) /\
  seen [Ask "a"; Rewrite "a" [30; 31; 32; 33; 34; 35]%N] "a" [buf 9] = Ok (0, 5%N, [(5%Z, [30; 31; 32; 33; 34]%N)]) /\
  seen [Ask "a"; Rewrite "a" [30]%N] "a" [buf 9] = Ok (0, 5%N, [((-1)%Z, [])]) /\
  seen [Ask "a"; Rewrite "a" [30]%N; Ask "b"] "a" [buf 9] = Ok (2, 1%N, [(1%Z, [30]%N)]).
Proof. repeat split; vm_compute; reflexivity. Qed.
(** Finding: a server which names no length, or sends less than was asked for, gives bytes which were in the buffer before, and
    no error *)
Theorem C124_server_refuted :
  seen [] "http://x/none" [buf 3; buf 4; buf 2] = Ok (0, (2 ^ 64 - 1)%N, [(3%Z, [1; 2; 3]%N); (4%Z, [4; 5; 7; 7]%N); (2%Z, [7; 7]%N)]) /\
  seen [] "http://x/page" [buf 9] = Ok (0, 5%N, [(5%Z, [9; 9; 7; 7; 7]%N)]).
Proof. split; vm_compute; reflexivity. Qed.

Print Assumptions C124_document.
Print Assumptions C124_file.
Print Assumptions C124_http.
Print Assumptions C124_shortened.
Print Assumptions C124_negative.
Print Assumptions C124_names.
Print Assumptions C124_reader.
Print Assumptions C124_opened.
Print Assumptions C124_kept.
Print Assumptions C124_kept_url.
Print Assumptions C124_failed.
Print Assumptions C124_open_file.
Print Assumptions C124_old_file_refuted.
Print Assumptions C124_server_refuted.
Print Assumptions C124_first.
