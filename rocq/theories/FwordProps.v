(** C116: words, index and fields of FELT files. *)
From Coq Require Import ZArith List Bool Lia.
From Verif Require Import Base TimeModel InstantModel InstantProps FwordModel.
Import ListNotations.
Local Open Scope Z_scope.

(** ** Byte order *)
Definition byte (b : Z) : Prop := 0 <= b < 256.
Fixpoint swap_pairs (l : list Z) : list Z :=
  match l with a :: b :: r => b :: a :: swap_pairs r | _ => l end.

Lemma words_swap : forall n l sw, (length l <= n)%nat -> words_of (negb sw) (swap_pairs l) = words_of sw l.
Proof.
  induction n as [ | n IH ]; intros l sw L.
  - destruct l; [ reflexivity | cbn [length] in L; lia ].
  - destruct l as [ | a [ | b r ] ]; try reflexivity. cbn [length] in L. cbn [swap_pairs words_of].
    rewrite IH by lia. destruct sw; reflexivity.
Qed.
Lemma short_is : forall a b, byte a -> byte b -> 997 <= short_of a b <= 999 -> b = 3 /\ 229 <= a <= 231.
Proof.
  intros a b A B H. unfold byte, short_of in *. change (2 ^ 15) with 32768 in *. change (2 ^ 16) with 65536 in *.
  assert (D : a + 256 * b + 32768 < 65536 \/ 65536 <= a + 256 * b + 32768) by lia.
  destruct D as [ D | D ].
  - rewrite Z.mod_small in H by lia. lia.
  - replace (a + 256 * b + 32768) with ((a + 256 * b - 32768) + 1 * 65536) in H by lia.
    rewrite Z.mod_add, Z.mod_small in H by lia. lia.
Qed.

(** a file gives the same words and fields in both byte orders *)
Theorem C116_byte_order : forall a b r, byte a -> byte b -> 997 <= short_of a b <= 999 ->
  open_file (swap_pairs (a :: b :: r)) = open_file (a :: b :: r).
Proof.
  intros a b r A B H. destruct (short_is a b A B H) as [ -> D ].
  assert (S1 : swapped (a :: 3 :: r) = Ok false).
  { cbn [swapped]. apply f_equal. apply orb_false_iff. split; apply Z.ltb_ge; lia. }
  assert (S2 : swapped (swap_pairs (a :: 3 :: r)) = Ok true).
  { cbn [swap_pairs swapped]. apply f_equal. apply orb_true_iff. left. apply Z.ltb_lt.
    unfold short_of. change (2 ^ 15) with 32768. change (2 ^ 16) with 65536. replace (3 + 256 * a + 32768) with ((3 + 256 * a - 32768) + 1 * 65536) by lia.
    rewrite Z.mod_add, Z.mod_small by lia. lia. }
  unfold open_file. rewrite S1, S2. cbn [obind].
  change true with (negb false). rewrite (words_swap (length (a :: 3 :: r))) by lia. reflexivity.
Qed.

(** ** The index *)
Lemma read_ok : forall ws from n, (from + n <= length ws)%nat -> read ws from n = Ok (firstn n (skipn from ws)).
Proof. intros ws from n H. unfold read. destruct (Nat.ltb_spec (length ws) (from + n)); [ lia | reflexivity ]. Qed.
Lemma skipn_add : forall {A} m n (l : list A), skipn n (skipn m l) = skipn (m + n) l.
Proof. induction m as [ | m IH ]; intros n l; [ reflexivity | ]. destruct l; [ destruct n; reflexivity | ]. cbn. apply IH. Qed.
Lemma firstn_skipn_firstn : forall {A} k m n (l : list A), (k + m <= n)%nat ->
  firstn m (skipn k (firstn n l)) = firstn m (skipn k l).
Proof.
  induction k as [ | k IH ]; intros m n l H.
  - cbn [skipn]. rewrite firstn_firstn. f_equal. lia.
  - destruct n as [ | n ]; [ lia | ]. destruct l as [ | x l ]; [ reflexivity | ]. cbn [firstn skipn]. apply IH. lia.
Qed.

Lemma nth_firstn_lt : forall {A} k n (l : list A) d, (k < n)%nat -> nth k (firstn n l) d = nth k l d.
Proof.
  induction k as [ | k IH ]; intros [ | n ] l d H; try lia; destruct l; try reflexivity. cbn [firstn nth]. apply IH. lia.
Qed.

Lemma block0 : forall k (l : list Z), (k < 1024)%nat -> nth k (firstn block_words (skipn (0 * block_words) l)) 0 = nth k l 0.
Proof. intros k l K. rewrite nth_firstn_lt; [ reflexivity | exact K ]. Qed.

(** entry number i: the 16 words from 2048 + 16 i, once its block is in the file *)
Theorem C116_entry : forall ws i, (1024 * (i / 64 + 3) <= length ws)%nat ->
  entry ws i = Ok (firstn 16 (skipn (2048 + 16 * i) ws)).
Proof.
  intros ws i H. unfold entry, block. rewrite read_ok by (unfold block_words; lia). cbn [obind]. apply f_equal.
  assert (M := Nat.mod_upper_bound i 64 ltac:(lia)). assert (D := Nat.div_mod i 64 ltac:(lia)).
  rewrite firstn_skipn_firstn by (unfold block_words; lia). rewrite skipn_add. f_equal. f_equal.
  unfold block_words. lia.
Qed.

(** the fields are the valid entries in the order of the index, as many as the first block says *)
Lemma load_spec : forall fuel ws count i fields r, (length fields <= count)%nat -> load fuel ws count i fields = Ok r ->
  exists hs, (forall k, (k < length hs)%nat -> entry ws (i + k) = Ok (nth k hs [])) /\
    r = fields ++ filter valid hs /\ length r = count.
Proof.
  induction fuel as [ | fuel IH ]; intros ws count i fields r L R; cbn [load] in R.
  - destruct (Nat.ltb_spec (length fields) count) as [ Q | Q ]; [ discriminate | ]. injection R as <-.
    exists []. cbn. split; [ intros; lia | ]. split; [ symmetry; apply app_nil_r | lia ].
  - destruct (Nat.ltb_spec (length fields) count) as [ Q | Q ].
    + destruct (entry ws i) as [ h | | | ] eqn:E; try discriminate. cbn [obind] in R.
      assert (L' : (length (if valid h then fields ++ [h] else fields) <= count)%nat).
      { destruct (valid h); [ rewrite app_length; cbn [length]; lia | lia ]. }
      destruct (IH _ _ _ _ _ L' R) as [ hs [ A [ B C ] ] ]. exists (h :: hs). split; [ | split ].
      * intros [ | k ] K; [ rewrite Nat.add_0_r; exact E | ]. cbn [nth length] in *.
        replace (i + S k)%nat with (S i + k)%nat by lia. apply A. lia.
      * rewrite B. cbn [filter]. destruct (valid h); [ rewrite <- app_assoc | ]; reflexivity.
      * exact C.
    + injection R as <-. exists []. cbn. split; [ intros; lia | ]. split; [ symmetry; apply app_nil_r | lia ].
Qed.
Theorem C116_fields : forall bytes ws fields, open_file bytes = Ok (ws, fields) ->
  exists sw hs, ws = words_of sw bytes /\ Z.of_nat (length fields) = w 9 ws /\ w 14 ws = 0 /\
    (forall k, (k < length hs)%nat -> entry ws k = Ok (nth k hs [])) /\ fields = filter valid hs.
Proof.
  intros bytes ws fields R. unfold open_file in R.
  destruct (swapped bytes) as [ sw | | | ]; try discriminate. cbn [obind] in R.
  destruct (block (words_of sw bytes) 0) as [ b1 | | | ] eqn:B; try discriminate. cbn [obind] in R.
  destruct (Z.eqb_spec (w 14 b1) 0) as [ U | U ]; [ | discriminate ]. cbn [negb] in R.
  destruct (Z.ltb_spec (w 9 b1) 0) as [ N | N ]; [ discriminate | ].
  destruct (load _ _ _ _ _) as [ fs | | | ] eqn:L; try discriminate. cbn [obind] in R. injection R as <- <-.
  destruct (load_spec _ _ _ _ [] _ (Nat.le_0_l _) L) as [ hs [ A [ C D ] ] ].
  assert (W : forall k, (k < 1024)%nat -> w k b1 = w k (words_of sw bytes)).
  { intros k K. unfold block, read in B. destruct (_ <? _)%nat in B; [ discriminate | ]. injection B as <-.
    unfold w. apply block0. exact K. }
  exists sw, hs. repeat (split; [ solve [ reflexivity ] | ]).
  split; [ rewrite <- W by lia; lia | ]. split; [ rewrite <- W by lia; exact U | ].
  split; [ exact A | exact C ].
Qed.

(** the loop does not go on for ever *)
Lemma entry_in : forall ws i h, entry ws i = Ok h -> (i < length ws)%nat.
Proof.
  intros ws i h E. unfold entry, block, read in E. destruct (Nat.ltb_spec (length ws) ((i / 64 + 2) * block_words + block_words)) as [ Q | Q ];
    [ discriminate | ].
  assert (M := Nat.mod_upper_bound i 64 ltac:(lia)). assert (D := Nat.div_mod i 64 ltac:(lia)).
  unfold block_words in Q. lia.
Qed.
Lemma load_ends : forall fuel ws count i fields, (i <= length ws)%nat -> (length ws < i + fuel)%nat ->
  load fuel ws count i fields <> Hang.
Proof.
  induction fuel as [ | fuel IH ]; intros ws count i fields I H; cbn [load]; [ lia | ].
  destruct (_ <? _)%nat; [ | discriminate ].
  destruct (entry ws i) as [ h | | | ] eqn:E; try discriminate.
  - cbn [obind]. apply IH; [ apply entry_in in E | ]; lia.
  - exfalso. unfold entry, block, read in E. destruct (_ <? _)%nat in E; discriminate.
Qed.
Theorem C116_ends : forall bytes, open_file bytes <> Hang.
Proof.
  intros bytes R. unfold open_file in R.
  destruct (swapped bytes) as [ sw | | | ] eqn:S; try discriminate.
  - cbn [obind] in R. destruct (block (words_of sw bytes) 0) as [ b1 | | | ] eqn:B; try discriminate.
    + cbn [obind] in R. destruct (negb (w 14 b1 =? 0)); [ discriminate | ]. destruct (w 9 b1 <? 0); [ discriminate | ].
      destruct (load _ _ _ _ _) as [ fs | | | ] eqn:L; try discriminate.
      revert L. apply load_ends; lia.
    + unfold block, read in B. destruct (_ <? _)%nat in B; discriminate.
  - destruct bytes as [ | ? [ | ? ? ] ]; discriminate.
Qed.

(** a file that is being updated is refused *)
Theorem C116_incomplete : forall bytes sw, swapped bytes = Ok sw -> (1024 <= length (words_of sw bytes))%nat ->
  w 14 (words_of sw bytes) <> 0 -> open_file bytes = Throw.
Proof.
  intros bytes sw S L U. unfold open_file. rewrite S. cbn [obind]. unfold block. rewrite read_ok by (unfold block_words; lia).
  cbn [obind]. replace (w 14 (firstn block_words (skipn (0 * block_words) (words_of sw bytes)))) with (w 14 (words_of sw bytes)).
  - destruct (Z.eqb_spec (w 14 (words_of sw bytes)) 0); [ contradiction | reflexivity ].
  - unfold w. symmetry. apply block0. lia.
Qed.

(** ** Where the words of a field are *)
(** A field of [total] words from word [first]: block number (from 1) and word (from 1) of the begin and the
    number of words are given in two digits to the base 32767 each. *)
Record placed (h : list Z) (first total : Z) : Prop := {
  p_block : exists n nx lx, w 5 h = n /\ 1 <= n <= 32767 /\ 0 <= nx < 100 /\ 0 <= lx /\ w 15 h = 100 * lx + nx /\
    first = (n - 1 + nx * 32767) * 1024 + (Z.max (w 6 h) 1 - 1) /\
    w 7 h <> undefined_word /\ total = w 7 h + lx * 32767;
  p_word : w 6 h <= 32767;
  p_total : 20 + extra_size h < total;
  p_words : w 15 h <= 32767 /\ w 7 h <= 32767
}.

Lemma get_ok : forall ws from n, 0 <= from -> 0 <= n <= 2 ^ 62 -> from + n <= Z.of_nat (length ws) ->
  get ws from n = Ok (firstn (Z.to_nat n) (skipn (Z.to_nat from) ws)).
Proof.
  intros ws from n F N L. unfold get. destruct (Z.ltb_spec (2 ^ 62) n); [ lia | ].
  destruct (Z.ltb_spec (Z.of_nat (length ws)) (from + n)); [ lia | reflexivity ].
Qed.
Lemma extra_bound : forall h, 0 <= extra_size h < 1000.
Proof.
  intros h. unfold extra_size. destruct (Z.ltb_spec 1000 (grid_type h)); [ | lia ].
  apply Z.rem_bound_pos; lia.
Qed.

Lemma placed_words : forall h first total, placed h first total ->
  start_word h = first /\ grid_size h = total - 20 - extra_size h /\ 0 <= first < 2 ^ 40 /\ 0 <= total < 2 ^ 40.
Proof.
  intros h first total [ [ n [ nx [ lx [ N [ Nb [ X [ LX [ E15 [ F [ U T ] ] ] ] ] ] ] ] ] ] W P Q ].
  assert (X' := extra_bound h).
  assert (D : Z.quot (w 15 h) 100 = lx /\ Z.rem (w 15 h) 100 = nx).
  { rewrite E15. rewrite Z.quot_div_nonneg, Z.rem_mod_nonneg by lia.
    replace (100 * lx + nx) with (nx + lx * 100) by lia.
    rewrite Z.div_add, Z.mod_add, Z.div_small, Z.mod_small by lia. lia. }
  destruct D as [ D1 D2 ]. assert (lx <= 327) by lia.
  assert (B7 : total < 2 ^ 40).
  { lia. }
  assert (F' : 0 <= first < 2 ^ 40) by lia.
  split; [ | split; [ | lia ] ].
  - unfold start_word, start_block. rewrite N, D2.
    destruct (Z.eqb_spec n undefined_word) as [ Z | Z ]; [ unfold undefined_word in Z; lia | ].
    unfold size. rewrite (Z.mod_small (n - 1 + nx * 32767)) by lia.
    destruct (Z.ltb_spec 1 (w 6 h)); rewrite Z.mod_small; lia.
  - unfold grid_size. destruct (Z.eqb_spec (w 7 h) undefined_word); [ contradiction | ].
    rewrite D1. unfold size. rewrite Z.mod_small; lia.
Qed.

(** header, grid and additional words of a field are the words of the field, one behind the other *)
Theorem C116_layout : forall ws h first total, placed h first total -> first + total <= Z.of_nat (length ws) ->
  exists g d e, grid_header ws h = Ok g /\ grid ws h = Ok d /\ extra ws h = Ok e /\
    g ++ d ++ e = firstn (Z.to_nat total) (skipn (Z.to_nat first) ws) /\
    length g = 20%nat /\ Z.of_nat (length e) = extra_size h.
Proof.
  intros ws h first total P L. destruct (placed_words h first total P) as [ S [ G [ F T ] ] ].
  assert (X := extra_bound h). assert (PT := p_total _ _ _ P).
  assert (H1 : grid_header ws h = Ok (firstn 20 (skipn (Z.to_nat first) ws))).
  { unfold grid_header. rewrite S, get_ok by lia. reflexivity. }
  assert (H2 : grid ws h = Ok (firstn (Z.to_nat (total - 20 - extra_size h)) (skipn (Z.to_nat first + 20) ws))).
  { unfold grid. rewrite H1. cbn [obind]. rewrite S, G. unfold size. rewrite Z.mod_small by lia. rewrite get_ok by lia.
    do 2 f_equal. f_equal. lia. }
  assert (H3 : extra ws h = Ok (firstn (Z.to_nat (extra_size h)) (skipn (Z.to_nat (first + total - extra_size h)) ws))).
  { unfold extra. destruct (Z.ltb_spec 1000 (grid_type h)) as [ Q | Q ].
    - destruct (Z.eqb_spec (extra_size h) 0) as [ E | E ]; [ rewrite E; reflexivity | ].
      rewrite S, G. unfold size. rewrite Z.mod_small by lia. rewrite get_ok by lia. do 2 f_equal. f_equal. lia.
    - assert (E : extra_size h = 0). { unfold extra_size. destruct (Z.ltb_spec 1000 (grid_type h)); lia. }
      rewrite E. reflexivity. }
  eexists _, _, _. split; [ exact H1 | ]. split; [ exact H2 | ]. split; [ exact H3 | ].
  split; [ | split; rewrite firstn_length, skipn_length; lia ].
  assert (A : forall m n (l : list Z), firstn m l ++ firstn n (skipn m l) = firstn (m + n) l).
  { induction m as [ | m IH ]; intros n l; [ reflexivity | ]. destruct l as [ | x l ]; [ destruct n; reflexivity | ].
    cbn [firstn skipn List.app Nat.add]. rewrite IH. reflexivity. }
  rewrite <- skipn_add.
  replace (skipn (Z.to_nat (first + total - extra_size h)) ws)
    with (skipn (Z.to_nat (total - 20 - extra_size h)) (skipn 20 (skipn (Z.to_nat first) ws)))
    by (rewrite !skipn_add; f_equal; lia).
  rewrite A. rewrite (A 20%nat). f_equal. lia.
Qed.

(** ** Parameter, levels and versions *)
Theorem C116_ensemble : forall h, 2000 <= w 11 h < 6000 ->
  parameter h = w 11 h mod 1000 /\ level2 h = 0 /\ data_version h = w 13 h /\ level1 h = w 12 h.
Proof.
  intros h H. assert (E : is_eps h = true). { unfold is_eps. apply andb_true_iff. split; [ apply Z.leb_le | apply Z.ltb_lt ]; lia. }
  unfold parameter, level2, data_version. rewrite E. split; [ apply Z.rem_mod_nonneg; lia | repeat split; reflexivity ].
Qed.
Theorem C116_no_ensemble : forall h, w 11 h < 2000 \/ 6000 <= w 11 h ->
  parameter h = w 11 h /\ level2 h = w 13 h /\ data_version h = 0 /\ level1 h = w 12 h.
Proof.
  intros h H. assert (E : is_eps h = false).
  { unfold is_eps. apply andb_false_iff. destruct H; [ left; apply Z.leb_gt | right; apply Z.ltb_ge ]; lia. }
  unfold parameter, level2, data_version. rewrite E. auto.
Qed.
(** a field without a first block starts in the first block of the file *)
Theorem C116_no_block : forall h, w 5 h = undefined_word -> 1 < w 6 h < 2 ^ 15 -> start_word h = w 6 h - 1.
Proof.
  intros h H R. unfold start_word, start_block. rewrite H, Z.eqb_refl. destruct (Z.ltb_spec 1 (w 6 h)); [ | lia ].
  unfold size. rewrite Z.mod_small; lia.
Qed.

(** ** Times *)
(** the valid time is the reference time and the hours behind it, in the calendar *)
Theorem C116_valid_time : forall h y m d ho mi,
  w 2 h = y -> w 3 h = 100 * m + d -> w 4 h = 100 * ho + mi ->
  date_ok y m d -> 0 <= y <= 32767 -> 0 <= ho < 24 -> 0 <= mi < 60 ->
  on_clock (days_from_civil y m d * 86400 + ho * 3600 + mi * 60 + w 9 h * 3600) ->
  exists y' m' d' ho' mi' s', valid_time h = Ok (y', m', d', (ho', mi', s')) /\ date_ok y' m' d' /\
    0 <= ho' < 24 /\ 0 <= mi' < 60 /\ s' = 0 /\
    days_from_civil y' m' d' * 86400 + ho' * 3600 + mi' * 60 =
    days_from_civil y m d * 86400 + ho * 3600 + mi * 60 + w 9 h * 3600.
Proof.
  intros h y m d ho mi Y MD HM D Yb H M C.
  assert (Dm : 1 <= m <= 12 /\ 1 <= d <= 31).
  { destruct D as [ ? ? ]. assert (B := month_days_bound y m). lia. }
  unfold valid_time, reference_time, parse_time, add_hours. rewrite Y, MD, HM.
  assert (Q : forall a b, 0 <= a -> 0 <= b < 100 -> Z.quot (100 * a + b) 100 = a /\ Z.rem (100 * a + b) 100 = b).
  { intros a b A B. rewrite Z.quot_div_nonneg, Z.rem_mod_nonneg by lia. replace (100 * a + b) with (b + a * 100) by lia.
    rewrite Z.div_add, Z.mod_add, Z.div_small, Z.mod_small by lia. lia. }
  destruct (Q m d ltac:(lia) ltac:(lia)) as [ -> -> ]. destruct (Q ho mi ltac:(lia) ltac:(lia)) as [ -> -> ].
  rewrite to_short_id by lia. rewrite utc_ok by exact C.
  revert C. generalize (days_from_civil y m d) as k. intros k C.
  set (p := k * 86400 + ho * 3600 + mi * 60 + w 9 h * 3600) in *.
  destruct (civil_from_days (p / 86400)) as [ [ y' m' ] d' ] eqn:E. destruct (days_civil _ _ _ _ E) as [ E' D' ].
  exists y', m', d', (p mod 86400 / 3600), (p mod 86400 mod 3600 / 60), (p mod 86400 mod 60).
  split; [ reflexivity | ]. split; [ exact D' | ].
  assert (P : p = 60 * (1440 * k + 60 * ho + mi + 60 * w 9 h)) by (unfold p; lia). clearbody p.
  rewrite E'. clear - P. set (q := 1440 * k + 60 * ho + mi + 60 * w 9 h) in *. clearbody q.
  assert (R : 0 <= p mod 86400 < 86400) by (apply Z.mod_pos_bound; lia).
  assert (V := Z.div_mod p 86400 ltac:(lia)). set (r := p mod 86400) in *. set (n := p / 86400) in *. clearbody r n.
  assert (Y : r mod 60 = 0). { replace r with ((q - 1440 * n) * 60) by lia. apply Z.mod_mul. lia. }
  assert (U1 := Z.div_mod r 3600 ltac:(lia)). assert (U2 := Z.mod_pos_bound r 3600 ltac:(lia)).
  set (t := r mod 3600) in *. set (ho' := r / 3600) in *. clearbody ho'.
  assert (W1 := Z.div_mod t 60 ltac:(lia)).
  assert (Y' : t mod 60 = 0). { replace t with (r + (- ho' * 60) * 60) by lia. rewrite Z.mod_add by lia. exact Y. }
  set (mi' := t / 60) in *. clearbody mi' t. rewrite Y. lia.
Qed.

(** Finding: a field with less than 20 words counts as valid, with a size near 2^64, and is never read *)
Theorem C116_short_field_refuted : forall ws h, 0 <= w 7 h < 20 -> w 15 h = 0 -> grid_type h <= 1000 ->
  valid h = true /\ grid_size h = 2 ^ 64 - (20 - w 7 h) /\ (forall d, grid ws h <> Ok d).
Proof.
  intros ws h L X T. assert (E : extra_size h = 0). { unfold extra_size. destruct (Z.ltb_spec 1000 (grid_type h)); lia. }
  assert (G : grid_size h = 2 ^ 64 - (20 - w 7 h)).
  { unfold grid_size. destruct (Z.eqb_spec (w 7 h) undefined_word) as [ Q | Q ]; [ unfold undefined_word in Q; lia | ].
    rewrite X, E. change (Z.quot 0 100) with 0. unfold size.
    replace (w 7 h + 0 * 32767 - (20 + 0)) with (2 ^ 64 - (20 - w 7 h) + (-1) * 2 ^ 64) by lia.
    rewrite Z.mod_add by lia. apply Z.mod_small. lia. }
  split; [ | split; [ exact G | ] ].
  - unfold valid. rewrite G. destruct (Z.eqb_spec (2 ^ 64 - (20 - w 7 h)) 0); [ lia | reflexivity ].
  - intros d R. unfold grid in R. destruct (grid_header ws h) as [ g | | | ]; try discriminate. cbn [obind] in R.
    unfold get in R. rewrite G in R. destruct (Z.ltb_spec (2 ^ 62) (2 ^ 64 - (20 - w 7 h))); [ discriminate | lia ].
Qed.

(** ** A small file *)
Definition bytes_of (ws : list Z) : list Z := flat_map (fun x => [x mod 256; x / 256 mod 256]) ws.
Definition first_block (count status : Z) : list Z :=
  [997; 2026; 1115; 600; 2026; 1115; 0; 0; 0; count; 0; 0; 0; 0; status] ++ repeat 0 1009.
(** a parameter of an ensemble, type 3 with 12 additional words, 4 values, from block 4 *)
Definition header : list Z := [88; 1; 2026; 1115; 1200; 4; 1; 36; 3; 36; 2; 2031; 1000; 3; 3012; 0].
Definition data : list Z := map Z.of_nat (seq 100 36).
Definition index : list Z := repeat (-32767) 16 ++ header ++ repeat (-32767) 992.
Definition small_file : list Z :=
  first_block 1 0 ++ repeat 0 1024 ++ index ++ data.

Example C116_nonvacuous : open_file (bytes_of small_file) = Ok (small_file, [header]) /\
  open_file (swap_pairs (bytes_of small_file)) = Ok (small_file, [header]) /\
  placed header 3072 36 /\ grid small_file header = Ok [120; 121; 122; 123] /\
  parameter header = 31 /\ data_version header = 3 /\ valid_time header = Ok (2026, 11, 17, (0, 0, 0)).
Proof.
  split; [ vm_compute; reflexivity | ]. split; [ vm_compute; reflexivity | ]. split.
  { constructor.
    - exists 4, 0, 0. unfold undefined_word. vm_compute. repeat split; discriminate.
    - vm_compute. discriminate.
    - vm_compute. reflexivity.
    - split; vm_compute; discriminate. }
  split; [ vm_compute; reflexivity | ]. split; [ vm_compute; reflexivity | ]. split; vm_compute; reflexivity.
Qed.

(** Finding: with fewer valid entries than the first block says the search for them leaves the index and then
    the file *)
Theorem C116_short_index_refuted :
  open_file (bytes_of (first_block 2 0 ++ repeat 0 1024 ++ index ++ data)) = UB.
Proof. vm_compute. reflexivity. Qed.

Print Assumptions C116_byte_order.
Print Assumptions C116_entry.
Print Assumptions C116_fields.
Print Assumptions C116_ends.
Print Assumptions C116_incomplete.
Print Assumptions C116_layout.
Print Assumptions C116_ensemble.
Print Assumptions C116_no_ensemble.
Print Assumptions C116_no_block.
Print Assumptions C116_valid_time.
Print Assumptions C116_short_field_refuted.
Print Assumptions C116_short_index_refuted.
