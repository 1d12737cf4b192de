(** C111: the C interface. *)
From Coq Require Import PeanoNat ZArith NArith QArith Qcanon Ascii String List Bool Lia.
From Verif Require Import Base StdMap IndexSpec RegridModel SliceModel SliceProofs SliceBuilderProofs SliceProps
  ReaderModel ReaderProofs ReaderProps ConvertModel ConvertProps CapiModel.
Import ListNotations.
Local Open Scope string_scope.
Local Open Scope list_scope.
Local Open Scope nat_scope.

(** ** Memory *)
Lemma store_ok {A} (buf : list A) pos l : pos + length l <= length buf ->
  store buf pos l = Ok (firstn pos buf ++ l ++ skipn (pos + length l) buf).
Proof.
  intro H. unfold store. destruct l as [|x l].
  - cbn. rewrite Nat.add_0_r, firstn_skipn. reflexivity.
  - rewrite (proj2 (Nat.leb_le _ _) H). reflexivity.
Qed.
Lemma store_small {A} (buf : list A) pos l : l <> [] -> length buf < pos + length l -> store buf pos l = UB.
Proof.
  intros N H. unfold store. destruct l as [|x l]; [congruence|].
  destruct (Nat.leb_spec (pos + length (x :: l)) (length buf)); [lia|reflexivity].
Qed.

Lemma skip_skip {A} : forall n m (l : list A), skipn n (skipn m l) = skipn (m + n) l.
Proof.
  intros n m. induction m as [|m IH]; intros l; [reflexivity|]. destruct l as [|x l]; [rewrite !skipn_nil; reflexivity|].
  exact (IH l).
Qed.

(** ** Texts *)
Lemma to_size_small n : (0 <= n < 2 ^ 64)%Z -> to_size n = Z.to_N n.
Proof. intro H. unfold to_size. rewrite Z.mod_small by exact H. reflexivity. Qed.

(** a text is copied with a NUL and the rest of the n characters is NUL; if it does not fit, all n
    characters are NUL and the code is 0; nothing behind the n characters is written *)
Theorem C111_copy : forall src buf n,
  (0 <= n < 2 ^ 31)%Z -> Z.to_nat n <= length buf ->
  exists b code, string_cpy src buf n = Ok (b, code) /\ length b = length buf /\
    skipn (Z.to_nat n) b = skipn (Z.to_nat n) buf /\
    (S (length src) <= Z.to_nat n -> code = Z.of_nat (S (length src)) /\
       firstn (Z.to_nat n) b = src ++ repeat NUL (Z.to_nat n - length src)) /\
    (Z.to_nat n < S (length src) -> code = 0%Z /\ firstn (Z.to_nat n) b = repeat NUL (Z.to_nat n)).
Proof.
  intros src buf n Hn Hb. unfold string_cpy. rewrite to_size_small by lia.
  destruct (N.leb_spec (N.of_nat (length src) + 1) (Z.to_N n)) as [F|F].
  - rewrite store_ok by (rewrite app_length; cbn [length]; lia). cbn [obind firstn app].
    destruct (Z.ltb_spec n (Z.of_nat (S (length src)))); [lia|].
    set (k := Z.to_nat n) in *. assert (K : S (length src) <= k) by lia.
    replace (0 + length (src ++ [NUL])) with (S (length src)) by (rewrite app_length; cbn [length]; lia).
    assert (L1 : length ((src ++ [NUL]) ++ skipn (S (length src)) buf) = length buf)
      by (rewrite !app_length, skipn_length; cbn [length]; lia).
    rewrite store_ok by (rewrite L1, repeat_length; lia). cbn [obind].
    assert (F1 : firstn (S (length src)) ((src ++ [NUL]) ++ skipn (S (length src)) buf) = src ++ [NUL]).
    { rewrite firstn_app. replace (S (length src) - length (src ++ [NUL])) with 0 by (rewrite app_length; cbn [length]; lia).
      rewrite firstn_O, app_nil_r. apply firstn_all2. rewrite app_length. cbn [length]. lia. }
    rewrite F1, repeat_length. replace (S (length src) + (k - S (length src))) with k by lia.
    assert (S1 : skipn k ((src ++ [NUL]) ++ skipn (S (length src)) buf) = skipn k buf).
    { rewrite skipn_app. rewrite (skipn_all2 (src ++ [NUL])) by (rewrite app_length; cbn [length]; lia). cbn [app].
      rewrite skip_skip. f_equal. rewrite app_length. cbn [length]. lia. }
    rewrite S1.
    assert (E : (src ++ [NUL]) ++ repeat NUL (k - S (length src)) = src ++ repeat NUL (k - length src)).
    { rewrite <- app_assoc. f_equal. replace (k - length src) with (S (k - S (length src))) by lia. reflexivity. }
    rewrite app_assoc, E. eexists _, _. split; [reflexivity|].
    assert (LE : length (src ++ repeat NUL (k - length src)) = k) by (rewrite app_length, repeat_length; lia).
    split; [rewrite app_length, LE, skipn_length; lia|]. split.
    { rewrite skipn_app, LE, Nat.sub_diag. rewrite skipn_all2 by lia. reflexivity. }
    split; [intros _|lia]. split; [reflexivity|].
    rewrite firstn_app, LE, Nat.sub_diag, firstn_O, app_nil_r. apply firstn_all2. lia.
  - cbn [obind]. destruct (Z.ltb_spec n (Z.of_nat 0)); [lia|]. set (k := Z.to_nat n) in *.
    rewrite Nat.sub_0_r. rewrite store_ok by (rewrite repeat_length; lia). cbn [obind firstn app Nat.add].
    rewrite repeat_length. eexists _, _. split; [reflexivity|].
    split; [rewrite app_length, repeat_length, skipn_length; lia|]. split.
    { rewrite skipn_app, repeat_length, Nat.sub_diag. rewrite skipn_all2 by (rewrite repeat_length; lia). reflexivity. }
    split; [lia|]. intros _. split; [reflexivity|].
    rewrite firstn_app, repeat_length, Nat.sub_diag, firstn_O, app_nil_r. apply firstn_all2. rewrite repeat_length. lia.
Qed.

(** what a C program sees in the block *)
Theorem C111_copy_text : forall src buf n b code,
  (0 <= n < 2 ^ 31)%Z -> Z.to_nat n <= length buf -> string_cpy src buf n = Ok (b, code) ->
  ~ In NUL src -> (code <> 0%Z -> until_nul b = src) /\ (code = 0%Z -> (0 < n)%Z -> until_nul b = []).
Proof.
  intros src buf n b code Hn Hb H N. destruct (C111_copy src buf n Hn Hb) as (b' & code' & E & _ & _ & A & B).
  rewrite H in E. injection E as <- <-.
  assert (U : forall s t, ~ In NUL s -> until_nul (s ++ NUL :: t) = s).
  { induction s as [|x s IH]; intros t I; [reflexivity|]. cbn. destruct (Ascii.eqb_spec x NUL) as [->|_].
    - exfalso. apply I. cbn. auto.
    - f_equal. apply IH. intro X. apply I. cbn. auto. }
  destruct (le_lt_dec (S (length src)) (Z.to_nat n)) as [L|L].
  - destruct (A L) as [-> F]. split; [intros _|lia].
    rewrite <- (firstn_skipn (Z.to_nat n) b), F. replace (Z.to_nat n - length src) with (S (Z.to_nat n - S (length src))) by lia.
    cbn [repeat]. rewrite <- app_assoc. cbn [app]. apply U, N.
  - destruct (B L) as [-> F]. split; [congruence|]. intros _ P.
    rewrite <- (firstn_skipn (Z.to_nat n) b), F. replace (Z.to_nat n) with (S (Z.to_nat n - 1)) by lia. reflexivity.
Qed.

(** Finding: with a negative capacity memory is overwritten *)
Theorem C111_negative_refuted : forall src buf n, (n < 0)%Z -> string_cpy src buf n = UB.
Proof.
  intros src buf n H. unfold string_cpy.
  destruct (_ <=? _)%N.
  - destruct (store buf 0 (src ++ [NUL])) as [b| | |] eqn:E; cbn [obind]; try reflexivity.
    + destruct (Z.ltb_spec n (Z.of_nat (S (length src)))); [reflexivity|lia].
    + unfold store in E. destruct (src ++ [NUL]); [discriminate|]. destruct (_ <=? _); discriminate.
    + unfold store in E. destruct (src ++ [NUL]); [discriminate|]. destruct (_ <=? _); discriminate.
  - cbn [obind]. destruct (Z.ltb_spec n (Z.of_nat 0)); [reflexivity|lia].
Qed.

(** Finding: without longitudes the code is 1 and not -1, and the text is empty and not a null pointer *)
Theorem C111_no_longitude_refuted : forall buf n, (0 < n < 2 ^ 31)%Z -> Z.to_nat n <= length buf ->
  (exists b, longitude_cpy None buf n = Ok (b, 1%Z)) /\ (exists b, latitude_cpy None buf n = Ok (b, 1%Z)) /\
  longitude_dup None = Some [].
Proof.
  intros buf n H L. assert (X : exists b, string_cpy [] buf n = Ok (b, 1%Z)).
  { destruct (C111_copy [] buf n ltac:(lia) L) as (b & c & E & _ & _ & A & _).
    destruct A as [-> _]; [cbn; lia|]. exists b. exact E. }
  split; [exact X|]. split; [exact X|reflexivity].
Qed.

(** longitude and latitude are not mixed up *)
Theorem C111_longitude : forall lat lon buf n,
  longitude_cpy (Some (lat, lon)) buf n = string_cpy (list_ascii_of_string lon) buf n /\
  latitude_cpy (Some (lat, lon)) buf n = string_cpy (list_ascii_of_string lat) buf n.
Proof. split; reflexivity. Qed.

(** ** Requests *)
(** a request made for a variable and changed by any calls *)
Definition requested_by (names : list string) (sizes : list N) (unlim : list bool) (sb : slice_builder) : Prop :=
  NoDup names /\ Forall (fun m => (m < M64)%N) sizes /\
  exists sb0 ops, sb_init names sizes unlim = Ok sb0 /\ Forall no_wrap ops /\ sb = sb_run sb0 ops.

(** the names of the dimensions by position *)
Theorem C111_dimensions : forall names sizes unlim sb cs,
  requested_by names sizes unlim sb ->
  let h := Some (Handle sb cs) in
  ndims h = Z.of_nat (length names) /\
  forall pos d, (0 <= pos < 2 ^ 31)%Z -> nth_error names (Z.to_nat pos) = Some d ->
    dimname h pos = Ok d.
Proof.
  intros names sizes unlim sb cs (ND & S & sb0 & ops & I & NW & ->) h. unfold h, ndims, dimname. cbn [h_sb].
  pose proof (run_frame names sizes unlim sb0 I ND S ops NW) as (_ & _ & _ & _ & F5). rewrite F5.
  split; [reflexivity|]. intros pos d Hp E.
  rewrite (C02_dimension_names_stable names sizes unlim sb0 I ND S ops NW). cbn [obind].
  rewrite to_size_small by lia.
  assert (L : Z.to_nat pos < length names) by (apply nth_error_Some; congruence).
  destruct (N.ltb_spec (Z.to_N pos) (N.of_nat (length names))); [|lia].
  unfold at_. replace (N.to_nat (Z.to_N pos)) with (Z.to_nat pos) by lia. rewrite E. reflexivity.
Qed.

(** Finding: for a position outside of the dimensions a C++ exception leaves the C function, where
    an empty text is promised *)
Theorem C111_dimname_refuted : forall names sizes unlim sb cs pos buf n,
  requested_by names sizes unlim sb -> (Z.of_nat (length names) < 2 ^ 31)%Z ->
  (- 2 ^ 31 <= pos < 0 \/ Z.of_nat (length names) <= pos < 2 ^ 31)%Z ->
  dimname_dup (Some (Handle sb cs)) pos = Throw /\ dimname_cpy (Some (Handle sb cs)) pos buf n = Throw.
Proof.
  intros names sizes unlim sb cs pos buf n (ND & S & sb0 & ops & I & NW & ->) LN Hp.
  assert (X : dimname (Some (Handle (sb_run sb0 ops) cs)) pos = Throw).
  { unfold dimname. cbn [h_sb]. rewrite (C02_dimension_names_stable names sizes unlim sb0 I ND S ops NW). cbn [obind].
    unfold to_size. destruct Hp as [Hp|Hp].
    - replace (pos mod 2 ^ 64)%Z with (pos + 2 ^ 64)%Z.
      + destruct (N.ltb_spec (Z.to_N (pos + 2 ^ 64)) (N.of_nat (length names))); [lia|reflexivity].
      + rewrite <- (Z_mod_plus_full pos 1 (2 ^ 64)), Z.mul_1_l. rewrite Z.mod_small; lia.
    - rewrite Z.mod_small by lia. destruct (N.ltb_spec (Z.to_N pos) (N.of_nat (length names))); [lia|reflexivity]. }
  unfold dimname_dup, dimname_cpy. rewrite X. split; reflexivity.
Qed.

Lemma set_cases names sizes unlim sb d p m u s z :
  requested_by names sizes unlim sb -> nth_error names p = Some d ->
  nth_error sizes p = Some m -> nth_error unlim p = Some u -> (s < 2 ^ 32)%N -> (z < 2 ^ 32)%N ->
  sb_setStartAndSize sb d s z =
  if negb u && (m <? s + z)%N then Throw
  else Ok (mkSB (sb_dimPos sb) (upd (sb_start sb) p s) (upd (sb_size sb) p z)
             (sb_max sb) (sb_unlim sb) (sput d tt (sb_set sb))).
Proof.
  intros (ND & SZ & sb0 & ops & I & NW & ->) Hp Hm Hu Hs Hz.
  pose proof (run_frame names sizes unlim sb0 I ND SZ ops NW) as F.
  unfold sb_setStartAndSize. rewrite (getDimPos_in names sizes unlim ND _ d p F Hp). cbn [obind].
  destruct F as (F1 & F2 & F3 & _). unfold at_. rewrite F3, Hu. cbn [obind]. rewrite F2, Hm. cbn [obind].
  assert (W : (s + z < M64)%N) by (unfold M64; assert ((2 ^ 32 + 2 ^ 32 < 2 ^ 64)%N) by reflexivity; lia).
  rewrite add64_small by exact W. reflexivity.
Qed.

(** a part of a dimension can be set if it lies in the dimension, or if the dimension is unlimited; the
    request then has this part and is otherwise as before.  Since start and size have 32 bits the sum
    never wraps (as it does in C02) *)
Theorem C111_set : forall names sizes unlim sb cs d p m u s z,
  requested_by names sizes unlim sb -> nth_error names p = Some d ->
  nth_error sizes p = Some m -> nth_error unlim p = Some u -> (s < 2 ^ 32)%N -> (z < 2 ^ 32)%N ->
  u = true \/ (s + z <= m)%N ->
  exists sb', set_dim_start_size (Some (Handle sb cs)) d s z = Ok (Some (Handle sb' cs), 0%Z) /\
    requested_by names sizes unlim sb' /\
    forall a b, length names <= length a -> length names <= length b ->
    exists a' b', get_start_size (Some (Handle sb' cs)) a b = Ok (a', b', 0%Z) /\
      length a' = length a /\ length b' = length b /\
      nth_error a' p = Some s /\ nth_error b' p = Some z /\
      (forall q x, q <> p -> nth_error (sb_start sb) q = Some x -> nth_error a' q = Some (x mod 2 ^ 32)%N) /\
      (forall q x, q <> p -> nth_error (sb_size sb) q = Some x -> nth_error b' q = Some (x mod 2 ^ 32)%N) /\
      skipn (length names) a' = skipn (length names) a /\ skipn (length names) b' = skipn (length names) b.
Proof.
  intros names sizes unlim sb cs d p m u s z R Hp Hm Hu Hs Hz C.
  pose proof (set_cases names sizes unlim sb d p m u s z R Hp Hm Hu Hs Hz) as X.
  assert (CC : negb u && (m <? s + z)%N = false).
  { destruct u; [reflexivity|]. destruct C as [C|C]; [discriminate C|]. cbn. apply N.ltb_ge. exact C. }
  rewrite CC in X. unfold set_dim_start_size. cbn [h_sb h_cs]. rewrite X. cbn [obind].
  destruct R as (ND & SZ & sb0 & ops & I & NW & E).
  pose proof (run_frame names sizes unlim sb0 I ND SZ ops NW) as (_ & _ & _ & F4 & F5). rewrite <- E in F4, F5.
  assert (PL : p < length names) by (apply nth_error_Some; congruence).
  eexists. split; [reflexivity|]. split.
  { split; [exact ND|]. split; [exact SZ|]. exists sb0, (ops ++ [SetStartAndSize d s z]). split; [exact I|]. split.
    - apply Forall_app. split; [exact NW|]. constructor; [|constructor]. cbn.
      unfold M64. assert ((2 ^ 32 + 2 ^ 32 < 2 ^ 64)%N) by reflexivity. lia.
    - rewrite run_snoc, <- E. unfold sb_step, sb_apply. rewrite X. reflexivity. }
  intros a b La Lb. unfold get_start_size. cbn [h_sb sb_start sb_size].
  assert (L1 : length (map to_unsigned (upd (sb_start sb) p s)) = length names) by (rewrite map_length, length_upd; exact F4).
  assert (L2 : length (map to_unsigned (upd (sb_size sb) p z)) = length names) by (rewrite map_length, length_upd; exact F5).
  rewrite store_ok by lia. cbn [obind]. rewrite store_ok by lia. cbn [obind firstn app Nat.add].
  eexists _, _. split; [reflexivity|]. rewrite L1, L2.
  assert (N1 : forall q (l t : list N), length (map to_unsigned l) = length names -> q < length names ->
             nth_error (map to_unsigned l ++ t) q = option_map to_unsigned (nth_error l q)).
  { intros q l t L Hq. rewrite nth_error_app1 by lia. apply nth_error_map. }
  split; [rewrite app_length, L1, skipn_length; lia|]. split; [rewrite app_length, L2, skipn_length; lia|].
  split; [rewrite N1 by assumption; rewrite nth_error_upd_same by lia; cbn; unfold to_unsigned; rewrite N.mod_small by exact Hs; reflexivity|].
  split; [rewrite N1 by assumption; rewrite nth_error_upd_same by lia; cbn; unfold to_unsigned; rewrite N.mod_small by exact Hz; reflexivity|].
  split; [|split].
  - intros q x Nq Hx. assert (q < length (sb_start sb)) by (apply nth_error_Some; congruence).
    rewrite N1 by (assumption || lia). rewrite nth_error_upd_other by congruence. rewrite Hx. reflexivity.
  - intros q x Nq Hx. assert (q < length (sb_size sb)) by (apply nth_error_Some; congruence).
    rewrite N1 by (assumption || lia). rewrite nth_error_upd_other by congruence. rewrite Hx. reflexivity.
  - split; rewrite skipn_app; rewrite ?L1, ?L2, Nat.sub_diag; rewrite skipn_all2 by lia; reflexivity.
Qed.

(** Finding: a part outside of the dimension, or an unknown dimension, lets a C++ exception out of the C
    function, where a negative code is promised *)
Theorem C111_set_refuted : forall names sizes unlim sb cs d s z,
  requested_by names sizes unlim sb -> (s < 2 ^ 32)%N -> (z < 2 ^ 32)%N ->
  ~ In d names \/
  (exists p m, nth_error names p = Some d /\ nth_error sizes p = Some m /\ nth_error unlim p = Some false /\ (m < s + z)%N) ->
  set_dim_start_size (Some (Handle sb cs)) d s z = Throw.
Proof.
  intros names sizes unlim sb cs d s z R Hs Hz [N|(p & m & Hp & Hm & Hu & L)]; unfold set_dim_start_size; cbn [h_sb].
  - destruct R as (ND & SZ & sb0 & ops & I & NW & ->).
    rewrite (proj1 (proj2 (C02_unknown_dimension_throws names sizes unlim sb0 I ND SZ ops d NW N) s z)). reflexivity.
  - rewrite (set_cases names sizes unlim sb d p m false s z R Hp Hm Hu Hs Hz). cbn [negb andb].
    destruct (N.ltb_spec m (s + z)); [reflexivity|lia].
Qed.

(** Finding: a dimension of 2^32 or more is shown with its size modulo 2^32 *)
Theorem C111_long_dimension_refuted : exists sb cs,
  requested_by ["x"] [(2 ^ 32 + 5)%N] [false] sb /\
  get_start_size (Some (Handle sb cs)) [7%N] [7%N] = Ok ([0%N], [5%N], 0%Z).
Proof.
  destruct (sb_init ["x"] [(2 ^ 32 + 5)%N] [false]) as [sb| | |] eqn:I; try discriminate I.
  exists sb, None. split.
  - split; [constructor; [intros []|constructor]|]. split; [constructor; [reflexivity|constructor]|].
    exists sb, []. auto.
  - injection I as <-. reflexivity.
Qed.

(** codes for a null pointer, and without a coordinate system *)
Theorem C111_null : forall dim s z a b t pos buf n sb,
  has_cs None = 0%Z /\ ndims None = 0%Z /\ dimname None pos = Ok "" /\
  get_start_size None a b = Ok (a, b, (-1)%Z) /\ get_axistype None t = Ok (t, (-1)%Z) /\
  set_dim_start_size None dim s z = Ok (None, (-1)%Z) /\
  get_axistype (Some (Handle sb None)) t = Ok (t, (-1)%Z) /\
  proj4_cpy None buf n = string_cpy [] buf n /\ proj4_cpy (Some (Handle sb None)) buf n = string_cpy [] buf n /\
  (forall ty, proj4_cpy (Some (Handle sb (Some (CsInfo None ty)))) buf n = string_cpy [] buf n) /\
  (forall p ty, proj4_cpy (Some (Handle sb (Some (CsInfo (Some p) ty)))) buf n = string_cpy (list_ascii_of_string p) buf n
     /\ has_cs (Some (Handle sb (Some (CsInfo (Some p) ty)))) = 1%Z
     /\ (ty = Throw -> get_axistype (Some (Handle sb (Some (CsInfo (Some p) ty)))) t = Ok (t, (-2)%Z))).
Proof. intros. repeat split; intros; subst; reflexivity. Qed.

(** ** Callbacks *)
(** a value equal to the fill value is read as missing *)
Definition unfilled (fill v : value) : value := if veqb v fill then None else v.

Lemma scale_double p data : p_type p = DDouble -> p_scale p = 1%Qc -> p_offset p = 0%Qc ->
  scale_data p 1 0 data = Ok (map (unfilled (p_fill p)) data).
Proof.
  intros T S O. rewrite scale_data_spec by (rewrite T; reflexivity). f_equal. apply map_ext.
  intros [x|]; [|unfold unfilled; cbn; destruct (p_fill p); reflexivity]. unfold unfilled.
  destruct (veqb (Some x) (p_fill p)); [reflexivity|]. rewrite S, O. f_equal. ring.
Qed.

Lemma find_c_vars src cbs name : find_var (c_reader src cbs) name =
  option_map (fun v => match lookup cbs name with Some _ => as_double v | None => v end) (find_var src name).
Proof.
  unfold find_var, c_reader, c_vars. cbn [r_vars]. induction (r_vars src) as [|v l IH]; [reflexivity|].
  cbn [map find]. assert (N : v_name (match lookup cbs (v_name v) with Some _ => as_double v | None => v end) = v_name v)
    by (destruct (lookup cbs (v_name v)); reflexivity).
  rewrite N. destruct (String.eqb_spec (v_name v) name) as [E|_]; [|exact IH]. rewrite E. reflexivity.
Qed.

(** variables without a callback are read as from the source *)
Theorem C111_untouched : forall conv src cbs name,
  lookup cbs name = None ->
  (forall pos, get_double_dataslice (c_reader src cbs) name pos = get_double_dataslice src name pos) /\
  get_double_data (c_reader src cbs) name = get_double_data src name /\
  (forall sb units data, fill_dataslice conv (c_reader src cbs) name sb units data
                         = fill_dataslice conv src name sb units data) /\
  variable_type (c_reader src cbs) name = variable_type src name.
Proof.
  intros conv src cbs name L.
  assert (V : find_var (c_reader src cbs) name = find_var src name).
  { rewrite find_c_vars, L. destruct (find_var src name); reflexivity. }
  assert (G : get_var (c_reader src cbs) name = get_var src name) by (unfold get_var; rewrite V; reflexivity).
  assert (S : r_slice (c_reader src cbs) name = r_slice src name)
    by (unfold c_reader; cbn [r_slice]; unfold c_slice; rewrite L; reflexivity).
  assert (D : get_data (c_reader src cbs) name = get_data src name)
    by (unfold get_data; rewrite G, S; reflexivity).
  split; [|split; [|split]].
  - intro pos. unfold get_double_dataslice, scaled_slice. rewrite G, S. reflexivity.
  - unfold get_double_data. rewrite D, G. reflexivity.
  - intros sb units data. unfold fill_dataslice, scaled_request, data_slice. rewrite D, G, S. reflexivity.
  - unfold variable_type. rewrite V. reflexivity.
Qed.

(** the fill value of a variable with a callback *)
Definition double_fill (v : avar) : value := match v_fill v with Some f => f | None => default_fill DDouble end.

Lemma c_slice_ok src cbs name cb v pos d code d' :
  find_var src name = Some v -> v_mem v = None -> lookup cbs name = Some cb ->
  scaled_slice src name pos = Ok d -> cb name pos d = Ok (code, d') ->
  r_slice (c_reader src cbs) name pos = if Z.eqb code 0 then Ok d' else Throw.
Proof.
  intros V M L S C. unfold c_reader. cbn [r_slice]. unfold c_slice. rewrite L.
  pose proof (find_c_vars src cbs name) as F. unfold find_var at 1 in F. unfold c_reader in F. cbn [r_vars] in F.
  rewrite F, V, L. cbn [option_map as_double v_mem]. rewrite M, S. cbn [obind]. rewrite C. reflexivity.
Qed.

Lemma scale_as_double v data :
  scale_data (pack (as_double v)) 1 0 data = Ok (map (unfilled (double_fill v)) data).
Proof. apply scale_double; reflexivity. Qed.

(** a record of a variable with a callback is what the callback makes of the scaled values of the
    source; a code other than 0 is reported as failure *)
Theorem C111_callback : forall src cbs name cb v pos d code d',
  find_var src name = Some v -> v_mem v = None -> lookup cbs name = Some cb ->
  scaled_slice src name pos = Ok d -> cb name pos d = Ok (code, d') ->
  get_double_dataslice (c_reader src cbs) name pos
  = Ok (if Z.eqb code 0 then (0%Z, Some (map (unfilled (double_fill v)) d')) else ((-1)%Z, None)).
Proof.
  intros src cbs name cb v pos d code d' V M L S C.
  unfold get_double_dataslice, scaled_slice. rewrite (c_slice_ok _ _ _ _ _ _ _ _ _ V M L S C).
  destruct (Z.eqb code 0); [|reflexivity]. cbn [obind].
  unfold get_var. rewrite find_c_vars, V, L. cbn [option_map obind]. rewrite scale_as_double. reflexivity.
Qed.

Lemma ofold_ext_in {A S} (f g : S -> A -> outcome S) : forall l s,
  (forall a s, In a l -> f s a = g s a) -> ofold f l s = ofold g l s.
Proof.
  induction l as [|a l IH]; intros s H; [reflexivity|]. cbn [ofold]. rewrite H by (cbn; auto).
  destruct (g s a); cbn; auto. apply IH. intros b t I. apply H. cbn. auto.
Qed.

(** reading the whole variable calls the callback for every record in turn *)
Theorem C111_callback_all : forall src cbs name cb v (recs outs : nat -> list value) n c,
  find_var src name = Some v -> v_mem v = None -> v_unlim v = true -> lookup cbs name = Some cb ->
  v_nrec v = N.of_nat n -> v_cells v = N.of_nat c -> (N.of_nat (c * n) + N.of_nat c < M64)%N ->
  (forall k, k < n -> scaled_slice src name (N.of_nat k) = Ok (recs k)
     /\ cb name (N.of_nat k) (recs k) = Ok (0%Z, outs k) /\ length (outs k) = c) ->
  get_double_data (c_reader src cbs) name
  = Ok (0%Z, Some (map (unfilled (double_fill v)) (concat (map outs (seq 0 n))))).
Proof.
  intros src cbs name cb v recs outs n c V M U L Nn Nc B R.
  unfold get_double_data, get_data.
  assert (G : get_var (c_reader src cbs) name = Ok (as_double v))
    by (unfold get_var; rewrite find_c_vars, V, L; reflexivity).
  rewrite G. cbn [obind as_double v_mem v_unlim v_nrec v_cells]. rewrite M, U, Nn, Nc.
  assert (E : get_data_unlim (r_slice (c_reader src cbs) name) (Some 0%Qc) (N.of_nat n) (N.of_nat c)
            = get_data_unlim (fun u => Ok (outs (N.to_nat u))) (Some 0%Qc) (N.of_nat n) (N.of_nat c)).
  { unfold get_data_unlim. apply ofold_ext_in. intros a s I. apply in_map_iff in I. destruct I as (k & <- & I).
    apply in_seq in I. rewrite Nat2N.id in I. destruct (R k) as (R1 & R2 & _); [lia|].
    rewrite (c_slice_ok _ _ _ _ _ _ _ _ _ V M L R1 R2). rewrite Nat2N.id. reflexivity. }
  rewrite E, C04_get_data_is_all_records; [|intros k Hk; apply R, Hk|exact B].
  cbn [obind]. fold (as_double v). rewrite scale_as_double. reflexivity.
Qed.

(** a request is cut out of the records as the callback left them, and put at the beginning of the block *)
Theorem C111_callback_part : forall conv src cbs name cb v (recs outs : nat -> list value) ns unl start size max us un U sb buf,
  find_var src name = Some v -> v_mem v = None -> v_unlim v = true -> r_unl src = Some unl -> lookup cbs name = Some cb ->
  sb_getDimensionNames sb = Ok (ns ++ [unl]) -> sb_start sb = map N.of_nat (start ++ [us]) ->
  sb_size sb = map N.of_nat (size ++ [un]) -> sb_max sb = map N.of_nat (max ++ [U]) ->
  ~ In unl ns -> length ns = length max -> fits max start size ->
  (forall k d, nth_error max k = Some d -> (N.of_nat d < M64)%N) ->
  (N.of_nat (cells size * un) + N.of_nat (cells max) < M64)%N -> (N.of_nat (us + un) < M64)%N -> us + un <= U ->
  (forall k, k < us + un -> length (outs k) = cells max) ->
  (forall k, us <= k < us + un -> scaled_slice src name (N.of_nat k) = Ok (recs k)
     /\ cb name (N.of_nat k) (recs k) = Ok (0%Z, outs k)) ->
  cells (size ++ [un]) <= length buf ->
  exists out,
    fill_dataslice conv (c_reader src cbs) name sb "" (Some buf)
    = Ok (0%Z, Some (cells (size ++ [un])), Some (map (unfilled (double_fill v)) out ++ skipn (cells (size ++ [un])) buf)) /\
    length out = cells (size ++ [un]) /\
    (0 < cells max -> forall idx, inside (size ++ [un]) idx ->
      nth_error out (lin (size ++ [un]) idx)
      = nth_error (concat (map outs (seq 0 (us + un)))) (lin (max ++ [U]) (shift (start ++ [us]) idx))).
Proof.
  intros conv src cbs name cb v recs outs ns unl start size max us un U sb buf V M Ul Un L Nm St Sz Mx NI LN F MM B1 B2 UU LO R LB.
  assert (G : get_var (c_reader src cbs) name = Ok (as_double v))
    by (unfold get_var; rewrite find_c_vars, V, L; reflexivity).
  destruct (C04_slice_of_records value outs (fill_of (as_double v)) ns unl start size max us un U NI LN F MM B1 B2) as (out & E & LE & W).
  { intros k Hk. right. apply LO, Hk. }
  { exact UU. }
  exists out.
  assert (D : data_slice (c_reader src cbs) name sb = Ok out).
  { unfold data_slice. rewrite G. cbn [obind as_double v_mem v_unlim]. rewrite M, Ul.
    unfold c_reader at 1. cbn [r_unl]. rewrite Un, Nm. cbn [obind]. fold (as_double v).
    rewrite <- E, St, Sz, Mx. unfold get_data_slice_unlim.
    destruct (split_dims unl (ns ++ [unl]) (map N.of_nat (start ++ [us])) (map N.of_nat (size ++ [un]))
                (map N.of_nat (max ++ [U])) (mkSplit 0 0 [] [] [] 1)) as [sp| | |] eqn:ES; cbn [obind]; try reflexivity.
    assert (SU : u_start sp = N.of_nat us /\ u_size sp = N.of_nat un).
    { clear - ES NI LN F. destruct F as (F1 & F2 & _).
      assert (GG : forall ns start size max acc sp, ~ In unl ns -> length ns = length max -> length start = length max -> length size = length max ->
        split_dims unl (ns ++ [unl]) (map N.of_nat (start ++ [us])) (map N.of_nat (size ++ [un])) (map N.of_nat (max ++ [U])) acc = Ok sp ->
        u_start sp = N.of_nat us /\ u_size sp = N.of_nat un).
      { induction ns0 as [|x ns0 IH]; intros start0 size0 max0 acc sp0 A1 A2 A3 A4 A5.
        - destruct max0; [|discriminate A2]. destruct start0; [|discriminate A3]. destruct size0; [|discriminate A4].
          cbn in A5. rewrite String.eqb_refl in A5. injection A5 as <-. split; reflexivity.
        - destruct max0; [discriminate A2|]. destruct start0; [discriminate A3|]. destruct size0; [discriminate A4|].
          cbn [app map split_dims] in A5.
          eapply IH; [| | | |exact A5]; [intro X; apply A1; cbn; auto|cbn in *; lia..]. }
      eapply GG; [exact NI|exact LN| | |exact ES]; congruence. }
    destruct SU as [SU1 SU2]. destruct (u_size sp =? 0)%N eqn:Z0; [reflexivity|].
    apply ofold_ext_in. intros a s I. apply in_map_iff in I. destruct I as (k & <- & I). apply in_seq in I.
    rewrite SU2, Nat2N.id in I. unfold join_one. rewrite SU1.
    assert (AD : add64 (N.of_nat k) (N.of_nat us) = N.of_nat (us + k)) by (rewrite add64_small by lia; lia).
    rewrite AD. destruct (R (us + k)) as [R1 R2]; [lia|].
    rewrite (c_slice_ok _ _ _ _ _ _ _ _ _ V M L R1 R2). rewrite Nat2N.id. reflexivity. }
  split; [|split; [exact LE|]].
  - unfold fill_dataslice, scaled_request. rewrite D. cbn [obind]. rewrite G. cbn [obind String.eqb].
    rewrite scale_as_double. cbn [obind]. rewrite store_ok by (rewrite map_length; lia).
    cbn [obind catching firstn app Nat.add]. rewrite map_length, LE. reflexivity.
  - intros P idx I. rewrite (W idx I). f_equal. f_equal. apply map_ext_in. intros k Hk. apply in_seq in Hk.
    specialize (LO k ltac:(lia)). destruct (outs k); [cbn in LO; lia|reflexivity].
Qed.

(** Finding: for a variable whose data are in memory the callback is not called when the variable is
    read: the values come out unscaled.  Reading one record ends the program (assertion) *)
Theorem C111_memory_refuted : forall src cbs name cb v d pos,
  find_var src name = Some v -> v_mem v = Some d -> lookup cbs name = Some cb ->
  get_double_data (c_reader src cbs) name = Ok (0%Z, Some (map (unfilled (double_fill v)) d)) /\
  get_double_dataslice (c_reader src cbs) name pos = UB.
Proof.
  intros src cbs name cb v d pos V M L.
  assert (G : get_var (c_reader src cbs) name = Ok (as_double v))
    by (unfold get_var; rewrite find_c_vars, V, L; reflexivity).
  split.
  - unfold get_double_data, get_data. rewrite G. cbn [obind as_double v_mem]. rewrite M. cbn [obind]. fold (as_double v).
    rewrite scale_as_double. reflexivity.
  - unfold get_double_dataslice, scaled_slice, c_reader. cbn [r_slice]. unfold c_slice. rewrite L.
    pose proof (find_c_vars src cbs name) as F. unfold find_var at 1 in F. unfold c_reader in F. cbn [r_vars] in F.
    rewrite F, V, L. cbn [option_map as_double v_mem]. rewrite M. reflexivity.
Qed.

(** setting a callback: the variable is of type double from then on, the other variables stay as they
    are; an unknown variable is reported *)
Theorem C111_set_callback : forall src cbs name cb,
  (find_var src name = None -> set_callback (CReader src cbs) name cb = Ok (CReader src cbs, (-1)%Z)) /\
  (forall v, find_var src name = Some v ->
     exists a, set_callback (CReader src cbs) name cb = Ok (a, 0%Z) /\
       variable_type (reader_of a) name = DDouble /\
       (forall other, other <> name ->
          variable_type (reader_of a) other = variable_type (c_reader src cbs) other /\
          (forall pos, get_double_dataslice (reader_of a) other pos = get_double_dataslice (c_reader src cbs) other pos) /\
          get_double_data (reader_of a) other = get_double_data (c_reader src cbs) other)).
Proof.
  intros src cbs name cb. unfold set_callback. rewrite find_c_vars. split.
  - intros ->. reflexivity.
  - intros v V. rewrite V. cbn [option_map]. eexists. split; [reflexivity|]. cbn [reader_of].
    split.
    + unfold variable_type. rewrite find_c_vars, V. cbn [option_map]. unfold lookup. cbn [find fst].
      rewrite String.eqb_refl. reflexivity.
    + intros other N.
      assert (LK : lookup ((name, cb) :: cbs) other = lookup cbs other).
      { unfold lookup. cbn [find fst]. rewrite (proj2 (String.eqb_neq name other)) by congruence. reflexivity. }
      assert (VV : find_var (c_reader src ((name, cb) :: cbs)) other = find_var (c_reader src cbs) other)
        by (rewrite !find_c_vars, LK; reflexivity).
      assert (SS : r_slice (c_reader src ((name, cb) :: cbs)) other = r_slice (c_reader src cbs) other).
      { unfold c_reader. cbn [r_slice]. unfold c_slice. rewrite LK. destruct (lookup cbs other); [|reflexivity].
        unfold find_var, c_reader in VV. cbn [r_vars] in VV. rewrite VV. reflexivity. }
      split; [unfold variable_type; rewrite VV; reflexivity|]. split.
      * intro pos. unfold get_double_dataslice, scaled_slice, get_var. rewrite SS, VV. reflexivity.
      * unfold get_double_data, get_data, get_var. rewrite SS, VV. reflexivity.
Qed.

(** Finding: with a reader that takes no callbacks a null pointer is used, where the code -2 is meant *)
Theorem C111_other_reader_refuted : forall r name cb, set_callback (Other r) name cb = UB.
Proof. reflexivity. Qed.

(** ** Reading and writing *)
(** the values go to the beginning of the block; a failure is reported and the block is not written *)
Theorem C111_fill : forall conv r name sb units buf,
  (forall d, scaled_request conv r name units sb = Ok d -> length d <= length buf ->
     fill_dataslice conv r name sb units (Some buf) = Ok (0%Z, Some (length d), Some (d ++ skipn (length d) buf))) /\
  (scaled_request conv r name units sb = Throw ->
     fill_dataslice conv r name sb units (Some buf) = Ok ((-1)%Z, None, Some buf)) /\
  fill_dataslice conv r name sb units None = Ok ((-1)%Z, Some 0, None) /\
  (find_var r name = None -> fill_dataslice conv r name sb units (Some buf) = Ok ((-1)%Z, None, Some buf)).
Proof.
  intros conv r name sb units buf. split; [|split; [|split]].
  - intros d D L. unfold fill_dataslice. rewrite D. cbn [obind]. rewrite store_ok by lia. reflexivity.
  - intro D. unfold fill_dataslice. rewrite D. reflexivity.
  - reflexivity.
  - intro F. unfold fill_dataslice, scaled_request, data_slice, get_var. rewrite F. reflexivity.
Qed.

(** the units: those of the variable for "", otherwise converted *)
Theorem C111_units : forall conv r name sb v d,
  data_slice r name sb = Ok d -> find_var r name = Some v ->
  scaled_request conv r name "" sb = scale_data (pack v) 1 0 d /\
  forall units a b, units <> "" -> conv (v_units v) units = Ok (a, b) ->
    scaled_request conv r name units sb = scale_data (pack v) a b d.
Proof.
  intros conv r name sb v d D F. unfold scaled_request, get_var. rewrite D, F. cbn [obind]. split; [reflexivity|].
  intros units a b N C. rewrite (proj2 (String.eqb_neq units "") N), C. reflexivity.
Qed.

(** the types of the axes go to the beginning of the array *)
Theorem C111_axis_types : forall sb proj l t, length l <= length t ->
  get_axistype (Some (Handle sb (Some (CsInfo proj (Ok l))))) t = Ok (l ++ skipn (length l) t, 0%Z).
Proof. intros sb proj l t H. unfold get_axistype. cbn [h_cs ci_types]. rewrite store_ok by lia. reflexivity. Qed.

(** a request of a variable in memory, or without the unlimited dimension, is cut out of its values,
    which are unpacked afterwards *)
Theorem C111_part : forall conv r name v data sb start size max buf,
  find_var r name = Some v ->
  v_mem v = Some data \/ (v_mem v = None /\ v_unlim v = false /\ r_slice r name 0%N = Ok data) ->
  sb_start sb = map N.of_nat start -> sb_size sb = map N.of_nat size -> sb_max sb = map N.of_nat max ->
  fits max start size -> cells max = length data -> (N.of_nat (length data) < M64)%N ->
  (forall k d, nth_error max k = Some d -> (N.of_nat d < M64)%N) ->
  (forall f, v_fill v = Some f \/ (v_fill v = None /\ f = default_fill (v_type v)) -> static_cast (v_type v) f = Ok f) ->
  cells size <= length buf ->
  exists out out', length out = cells size /\
    fill_dataslice conv r name sb "" (Some buf)
    = Ok (0%Z, Some (cells size), Some (out' ++ skipn (cells size) buf)) /\
    (forall idx, inside size idx -> nth_error out (lin size idx) = nth_error data (lin max (shift start idx))) /\
    Forall2 (fun raw x => x = match raw with
                              | None => None
                              | Some q => if veqb raw (match v_fill v with Some f => f | None => default_fill (v_type v) end)
                                          then None else Some (q * v_scale v + v_offset v)%Qc
                              end) out out'.
Proof.
  intros conv r name v data sb start size max buf V W St Sz Mx F L B M T LB.
  destruct (C01_slice_returns_box value data max start size F L B M) as (out & E & LE & I).
  assert (D : data_slice r name sb = Ok out).
  { unfold data_slice, get_data, get_var. rewrite V. cbn [obind]. destruct W as [W|(W & U & S)].
    - rewrite W, St, Sz, Mx. exact E.
    - rewrite W, U, S. cbn [obind]. rewrite St, Sz, Mx. exact E. }
  exists out. eexists. split; [exact LE|].
  assert (SC : scale_data (pack v) 1 0 out = Ok (map (fun raw : value => match raw with
                              | None => None : value
                              | Some q => if veqb raw (fill_of v) then None else Some (q * v_scale v + v_offset v)%Qc end) out)).
  { rewrite scale_data_spec. 2:{ apply T. unfold pack, p_fill, fill_of. destruct (v_fill v); auto. }
    f_equal. apply map_ext. intros [x|]; [|cbn; destruct (fill_of v); reflexivity].
    unfold pack. cbn [p_fill p_scale p_offset]. destruct (veqb (Some x) (fill_of v)); [reflexivity|]. f_equal. ring. }
  split.
  - unfold fill_dataslice, scaled_request. rewrite D. cbn [obind]. unfold get_var. rewrite V. cbn [obind String.eqb].
    rewrite SC. cbn [obind]. rewrite store_ok by (rewrite (map_length (A := value) (B := value)); lia).
    cbn [obind catching firstn app Nat.add]. rewrite (map_length (A := value) (B := value)), LE. reflexivity.
  - split; [exact I|]. clear. induction out as [|x l IH]; constructor; [reflexivity|exact IH].
Qed.

(** Finding: the size of the block is not known to the function; more values than it can hold are
    written behind its end *)
Theorem C111_fill_refuted : forall conv r name sb units buf d,
  scaled_request conv r name units sb = Ok d -> length buf < length d ->
  fill_dataslice conv r name sb units (Some buf) = UB.
Proof.
  intros conv r name sb units buf d D L. unfold fill_dataslice. rewrite D. cbn [obind].
  rewrite store_small; [reflexivity| |lia]. intros ->. cbn in L. lia.
Qed.

(** writing: the codes, and what is written *)
Theorem C111_write : forall conv rw r name sb units,
  write_dataslice conv rw r name sb units (Some []) = Ok (0%Z, None) /\
  write_dataslice conv rw r name sb units None = Ok ((-99)%Z, None) /\
  (forall d, d <> [] -> write_dataslice conv None r name sb units (Some d) = Ok ((-98)%Z, None)) /\
  (forall put d v a b raw, d <> [] -> find_var r name = Some v -> conv units (v_units v) = Ok (a, b) ->
     unscale_data DDouble (pack v) a b d = Ok raw -> put name sb raw = Ok tt ->
     write_dataslice conv (Some put) r name sb units (Some d) = Ok (0%Z, Some raw)) /\
  (forall put d v a b raw, d <> [] -> find_var r name = Some v -> conv units (v_units v) = Ok (a, b) ->
     unscale_data DDouble (pack v) a b d = Ok raw -> put name sb raw = Throw ->
     write_dataslice conv (Some put) r name sb units (Some d) = Ok ((-1)%Z, None)) /\
  (forall put d, d <> [] -> find_var r name = None ->
     write_dataslice conv (Some put) r name sb units (Some d) = Ok ((-1)%Z, None)).
Proof.
  intros conv rw r name sb units. split; [reflexivity|]. split; [reflexivity|]. split; [|split; [|split]].
  - intros [|x d] N; [congruence|reflexivity].
  - intros put [|x d] v a b raw N F C U P; [congruence|]. unfold write_dataslice, get_var. rewrite F. cbn [obind].
    rewrite C. cbn [obind fst snd]. rewrite U. cbn [obind]. rewrite P. reflexivity.
  - intros put [|x d] v a b raw N F C U P; [congruence|]. unfold write_dataslice, get_var. rewrite F. cbn [obind].
    rewrite C. cbn [obind fst snd]. rewrite U. cbn [obind]. rewrite P. reflexivity.
  - intros put [|x d] N F; [congruence|]. unfold write_dataslice, get_var. rewrite F. reflexivity.
Qed.

(** Finding: units "" are said to mean no conversion, also for writing; but they are converted, which
    fails for every variable whose unit is not a number *)
Theorem C111_write_units_refuted : forall conv put r name sb d v,
  d <> [] -> find_var r name = Some v -> conv "" (v_units v) = Throw ->
  write_dataslice conv (Some put) r name sb "" (Some d) = Ok ((-1)%Z, None).
Proof.
  intros conv put r name sb [|x d] v N F C; [congruence|]. unfold write_dataslice, get_var. rewrite F. cbn [obind].
  rewrite C. reflexivity.
Qed.

(** the lists of variables and dimensions *)
Theorem C111_lists : forall r,
  (forall pos, pos < variable_number r <-> variable_name r pos <> None) /\
  (forall pos, pos < dimension_number r <-> dimension_name r pos <> None) /\
  (forall name, ~ In name (map v_name (r_vars r)) -> variable_type r name = DNat) /\
  (forall name, ~ In name (map fst (r_dims r)) -> dimension_size r name = 0%N) /\
  (NoDup (map fst (r_dims r)) -> forall pos name, dimension_name r pos = Some name ->
     exists n, nth_error (r_dims r) pos = Some (name, n) /\ dimension_size r name = n) /\
  (r_unl r = None -> unlimited_name r = Some "").
Proof.
  intro r. repeat split.
  - intro H. unfold variable_name. apply nth_error_Some in H. destruct (nth_error (r_vars r) pos); [discriminate|congruence].
  - unfold variable_name. intro H. apply nth_error_Some. destruct (nth_error (r_vars r) pos); [discriminate|exfalso; apply H; reflexivity].
  - intro H. unfold dimension_name. apply nth_error_Some in H. destruct (nth_error (r_dims r) pos); [discriminate|congruence].
  - unfold dimension_name. intro H. apply nth_error_Some. destruct (nth_error (r_dims r) pos); [discriminate|exfalso; apply H; reflexivity].
  - intros name N. unfold variable_type, find_var. destruct (find _ (r_vars r)) as [v|] eqn:E; [|reflexivity].
    apply find_some in E. destruct E as [I E]. apply String.eqb_eq in E. exfalso. apply N. rewrite <- E. apply in_map, I.
  - intros name N. unfold dimension_size. destruct (find _ (r_dims r)) as [v|] eqn:E; [|reflexivity].
    apply find_some in E. destruct E as [I E]. apply String.eqb_eq in E. exfalso. apply N. rewrite <- E. apply in_map, I.
  - intros ND pos name. unfold dimension_name, dimension_size. intro H.
    destruct (nth_error (r_dims r) pos) as [[k n]|] eqn:E; [|discriminate H]. cbn in H. injection H as ->.
    exists n. split; [reflexivity|]. apply nth_error_In in E. revert ND E.
    induction (r_dims r) as [|[k m] l IH]; intros ND I; [destruct I|]. cbn. inversion ND; subst.
    destruct I as [I|I].
    + injection I as -> ->. rewrite String.eqb_refl. reflexivity.
    + destruct (String.eqb_spec k name) as [->|_]; [|apply IH; assumption].
      exfalso. apply H1. apply in_map_iff. exists (name, n). auto.
  - intro H. unfold unlimited_name. rewrite H. reflexivity.
Qed.

(** Finding: behind the end of the list the name is a null pointer, where an empty text is promised *)
Theorem C111_name_refuted : forall r pos, variable_number r <= pos -> variable_name r pos = None.
Proof. intros r pos H. unfold variable_name. rewrite (proj2 (nth_error_None _ _) H). reflexivity. Qed.

(** a reader with a packed variable of two records and a callback that adds one to every value *)
Definition ex_src : reader :=
  Reader [AVar "t" DShort (Some (Some (z2q (-1)))) (z2q 2) (z2q 10) "K" true 2 2 None]
    [("x", 2%N); ("time", 2%N)] (Some "time")
    (fun _ k => Ok (if (k =? 0)%N then [Some (z2q 1); Some (z2q (-1))] else [Some (z2q 3); Some (z2q 4)])).
Definition ex_cb : callback := fun _ _ d => Ok (0%Z, map (option_map (fun q => (q + 1)%Qc)) d).
Example C111_nonvacuous :
  (exists b, string_cpy (chars "lon") (repeat "z"%char 6) 5 = Ok (b, 4%Z) /\ until_nul b = chars "lon"
     /\ nth_error b 5 = Some "z"%char) /\
  (exists b, string_cpy (chars "lon") (repeat "z"%char 6) 3 = Ok (b, 0%Z) /\ nth_error b 3 = Some "z"%char) /\
  (exists d, get_double_data (c_reader ex_src [("t", ex_cb)]) "t" = Ok (0%Z, Some d) /\
     map (option_map this) d = [Some (13 # 1)%Q; None; Some (17 # 1)%Q; Some (19 # 1)%Q]) /\
  (exists sb, requested_by ["x"; "time"] [2%N; 2%N] [false; true] sb).
Proof.
  split; [|split; [|split]].
  - eexists. split; [vm_compute; reflexivity|]. split; vm_compute; reflexivity.
  - eexists. split; [vm_compute; reflexivity|]. vm_compute; reflexivity.
  - eexists. split; [vm_compute; reflexivity|]. vm_compute; reflexivity.
  - destruct (sb_init ["x"; "time"] [2%N; 2%N] [false; true]) as [sb| | |] eqn:I; try discriminate I.
    exists sb. split; [repeat constructor; cbn; intuition discriminate|]. split; [repeat constructor|]. exists sb, []. auto.
Qed.

Print Assumptions C111_copy.
Print Assumptions C111_copy_text.
Print Assumptions C111_negative_refuted.
Print Assumptions C111_no_longitude_refuted.
Print Assumptions C111_longitude.
Print Assumptions C111_dimensions.
Print Assumptions C111_dimname_refuted.
Print Assumptions C111_set.
Print Assumptions C111_set_refuted.
Print Assumptions C111_long_dimension_refuted.
Print Assumptions C111_null.
Print Assumptions C111_untouched.
Print Assumptions C111_callback.
Print Assumptions C111_callback_all.
Print Assumptions C111_callback_part.
Print Assumptions C111_memory_refuted.
Print Assumptions C111_set_callback.
Print Assumptions C111_other_reader_refuted.
Print Assumptions C111_fill.
Print Assumptions C111_units.
Print Assumptions C111_fill_refuted.
Print Assumptions C111_write.
Print Assumptions C111_write_units_refuted.
Print Assumptions C111_lists.
Print Assumptions C111_name_refuted.
Print Assumptions C111_nonvacuous.
Print Assumptions C111_axis_types.
Print Assumptions C111_part.
