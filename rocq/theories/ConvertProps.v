(** C23 type names, C24 packing, C25 integer conversion, C51 missing values, C52 longitudes and
    clamping, C62 interpolation method names, C63 linear unit conversions. *)
From Coq Require Import NArith ZArith QArith Qround Qabs Qcanon Lqa Ascii String List Bool Lia Qfield.
From Coq Require Import ZifyBool ZifyNat ZifyN.
From Verif Require Import Base Rounding SearchModel SearchProofs RegridModel StringModel StringProofs
  TextProps ConvertModel ConvertProofs.
Import ListNotations.
Local Open Scope Z_scope.

(** * C23 *)

Theorem C23_name_round_trip : forall t, string2datatype (datatype2string t) = Ok t.
Proof. intros []; reflexivity. Qed.

Theorem C23_names_differ : forall t u, datatype2string t = datatype2string u -> t = u.
Proof.
  intros t u E. assert (A := C23_name_round_trip t). rewrite E, C23_name_round_trip in A. congruence.
Qed.

(** all names of a type, in any mixture of cases, and no others *)
Definition type_names (t : dtype) : list str :=
  match t with
  | DDouble => [s_ "double"] | DFloat => [s_ "float"] | DInt => [s_ "int"; s_ "long"]
  | DShort => [s_ "short"] | DChar => [s_ "char"; s_ "byte"] | DInt64 => [s_ "int64"]
  | DUInt64 => [s_ "uint64"] | DUInt => [s_ "uint"] | DUShort => [s_ "ushort"]
  | DUChar => [s_ "uchar"; s_ "ubyte"] | DString => [s_ "string"] | DStrings => [s_ "strings"]
  | DNat => []
  end.

Theorem C23_accepted_names : forall s t, is_ascii s -> t <> DNat ->
  (string2datatype s = Ok t <-> exists name, In name (type_names t) /\ spells s name).
Proof.
  intros s t A NT. unfold string2datatype. rewrite lower_ok by assumption. cbn [obind].
  assert (SP : forall name, forallb (fun c => (N_of_ascii c <? 65)%N || (90 <? N_of_ascii c)%N) name = true ->
               (spells s name <-> map lower1 s = name)).
  { intros name F. symmetry. apply spells_lower; [ assumption | ]. now apply no_upper. }
  assert (CAP : str_eqb (map lower1 s) (s_ "String") = false).
  { destruct (str_eqb (map lower1 s) (s_ "String")) eqn:E; [ | reflexivity ]. apply str_eqb_eq in E.
    exfalso. destruct (C60_lower_case s A) as (l & L & _ & U & _). rewrite lower_ok in L by assumption.
    injection L as <-. apply (U "S"%char); [ rewrite E; now left | unfold is_upper; cbn; lia ]. }
  rewrite CAP. clear CAP. rewrite orb_false_r.
  assert (G : forall name, str_eqb (map lower1 s) name = true <-> map lower1 s = name) by (intro; apply str_eqb_eq).
  set (l := map lower1 s) in *. clearbody l.
  split.
  - intro E.
    repeat match type of E with
    | Ok (if ?c then _ else _) = _ => destruct c eqn:?
    end; injection E as <-; try congruence;
    try match goal with H : (_ || _)%bool = true |- _ => apply orb_true_iff in H; destruct H as [ H | H ] end;
    match goal with H : str_eqb l ?n = true |- _ =>
      exists n; split; [ cbn; tauto | apply SP; [ reflexivity | now apply G ] ] end.
  - intros (name & I & S). apply SP in S.
    2:{ destruct t; cbn in I; decompose [or] I; subst; try contradiction; reflexivity. }
    subst l. destruct t; cbn in I; decompose [or] I; subst; try contradiction; reflexivity.
Qed.

(** NcML: name and unsigned flag round-trip for every type *)
Theorem C23_ncml_round_trip : forall t, ncml2cdm (cdm2ncml t) = t.
Proof. intros []; reflexivity. Qed.
Theorem C23_ncml_name_round_trip : forall t, ncml_name2cdm (fst (cdm2ncml t)) (snd (cdm2ncml t)) = t.
Proof. intros []; reflexivity. Qed.
(** what reading by name does not know is 'not a type' *)
Theorem C23_ncml_unknown : forall name u, ~ In (name, u) ncml_types -> ncml_name2cdm name u = DNat.
Proof.
  intros name u H. unfold ncml_name2cdm. destruct (find _ ncml_types) as [ n | ] eqn:F; [ | reflexivity ].
  apply find_some in F. destruct F as [I E]. exfalso. apply H. unfold ncml_eqb in E. apply andb_true_iff in E.
  destruct E as [E1 E2]. apply str_eqb_eq in E1. apply eqb_prop in E2. destruct n as [a b]. cbn in *. now subst.
Qed.
(** netCDF *)
Theorem C23_netcdf_round_trip : (forall t, nc2cdm (cdm2nc t) = t) /\ (forall n, cdm2nc (nc2cdm n) = n).
Proof. split; intros []; reflexivity. Qed.

(** the NcML type char is known by name but has no type *)
Theorem C23_ncml_char_refuted : forall u, ncml_name2cdm (s_ "char") u = DNat.
Proof. intros []; reflexivity. Qed.
(** attributes are written with the name only: the types that differ in the unsigned flag come back
    as the signed ones *)
Theorem C23_ncml_attribute_unsigned_refuted : forall t,
  ncml_name2cdm (fst (cdm2ncml t)) false <> t <-> In t [DUChar; DUShort; DUInt; DUInt64].
Proof.
  intro t. split.
  - intro H. destruct t; cbn; try tauto; exfalso; apply H; reflexivity.
  - intro H. cbn in H. decompose [or] H; subst; try contradiction; discriminate.
Qed.

Example C23_nonvacuous : string2datatype (s_ "Double") = Ok DDouble /\ string2datatype (s_ "LONG") = Ok DInt /\
  string2datatype (s_ "real") = Ok DNat /\ ncml_name2cdm (s_ "long") true = DUInt64.
Proof. repeat split; reflexivity. Qed.

(** * C25 *)

(** the nearest integer is unique *)
Theorem C25_nearest_unique : forall q a b, nearest_away q a -> nearest_away q b -> a = b.
Proof. exact nearest_away_unique. Qed.

(** types of up to 32 bits: the nearest integer, if the type can hold it *)
Theorem C25_rounds_to_nearest : forall t lo hi (q : Qc) z, small t -> int_range t = Some (lo, hi) ->
  nearest_away q z -> lo <= z <= hi -> data_cast DDouble t (Some q) = Ok (Some (z2q z)).
Proof.
  intros t lo hi q z S R N B. assert (E := nearest_away_unique q z (lround q) N (lround_away q)). subst z.
  destruct (small_range t S) as (lo' & hi' & R' & L & B1 & B2 & _). rewrite R in R'. injection R' as <- <-.
  rewrite (cast_small t lo hi) by (assumption || lia). now rewrite wrap_id.
Qed.

(** 64-bit types: only while the nearest integer fits an int *)
Theorem C25_rounds_to_nearest_64 : forall t lo hi (q : Qc) z, wide t -> int_range t = Some (lo, hi) ->
  nearest_away q z -> lo <= z <= hi -> - 2 ^ 31 <= z < 2 ^ 31 -> data_cast DDouble t (Some q) = Ok (Some (z2q z)).
Proof.
  intros t lo hi q z W R N B I. assert (E := nearest_away_unique q z (lround q) N (lround_away q)). subst z.
  now apply (cast_any t lo hi).
Qed.

(** beyond that the result is never the nearest integer *)
Theorem C25_64_bit_refuted : forall t (q : Qc) z, wide t -> nearest_away q z -> 2 ^ 31 <= z < 2 ^ 63 ->
  exists w, data_cast DDouble t (Some q) = Ok (Some (z2q w)) /\ w <> z.
Proof.
  intros t q z W N I. assert (E := nearest_away_unique q z (lround q) N (lround_away q)). subst z.
  assert (RI : round_int q = Ok (wrap (- 2 ^ 31) (2 ^ 31 - 1) (lround q))) by (apply round_int_ok; lia).
  assert (B := wrap_range (- 2 ^ 31) (2 ^ 31 - 1) (lround q) ltac:(lia)).
  unfold wide in W. cbn in W. destruct W as [ <- | [ <- | [] ] ]; unfold data_cast; cbn [int_range];
    rewrite RI; cbn [obind]; eexists; (split; [ reflexivity | ]).
  - rewrite (wrap_id (- 2 ^ 63)) by lia. lia.
  - intro E. set (w := wrap (- 2 ^ 31) (2 ^ 31 - 1) (lround q)) in *.
    destruct (Z.lt_ge_cases w 0) as [ L | L ].
    + assert (X := wrap_shift 0 (2 ^ 64 - 1) w 1 ltac:(lia)).
      rewrite <- X in E. rewrite wrap_id in E by lia. lia.
    + rewrite wrap_id in E by lia. lia.
Qed.

(** what does not fit wraps around, for every type of up to 32 bits *)
Theorem C25_out_of_range_wraps : forall t lo hi (q : Qc) z, small t -> int_range t = Some (lo, hi) ->
  nearest_away q z -> - 2 ^ 63 <= z < 2 ^ 63 ->
  exists w k, data_cast DDouble t (Some q) = Ok (Some (z2q w)) /\ lo <= w <= hi /\ w = z + k * (hi - lo + 1).
Proof.
  intros t lo hi q z S R N B. assert (E := nearest_away_unique q z (lround q) N (lround_away q)). subst z.
  destruct (small_range t S) as (lo' & hi' & R' & L & _). rewrite R in R'. injection R' as <- <-.
  destruct (wrap_congr lo hi (lround q) L) as [k K].
  exists (wrap lo hi (lround q)), k. split; [ now apply cast_small | ]. split; [ now apply wrap_range | assumption ].
Qed.

(** between integer types: unchanged if the target can hold the value *)
Theorem C25_integers_kept : forall t u v, int_range t <> None -> int_range u <> None ->
  has_type t v -> has_type u v -> data_cast t u v = Ok v.
Proof.
  intros t u v T U HT HU. unfold data_cast, has_type in *.
  destruct (int_range t) as [[lt ht]|]; [ | congruence ]. destruct (int_range u) as [[lu hu]|]; [ | congruence ].
  destruct HT as (z & -> & B). destruct HU as (z' & E & B').
  assert (z = z') by (apply z2q_inj; congruence). subst z'. rewrite floor_z2q, wrap_id by assumption. reflexivity.
Qed.
(** to floating point: unchanged (exact arithmetic) *)
Theorem C25_to_floating : forall t u v, int_range u = None -> data_cast t u v = Ok v.
Proof. intros t u v U. unfold data_cast. rewrite U. now destruct (int_range t). Qed.

(** index from a position: the nearest integer if it is in the interval, otherwise the substitute *)
Theorem C25_round_and_clamp : forall mini maxi invalid (d : Qc) z, nearest_away d z -> - 2 ^ 31 <= z < 2 ^ 31 ->
  (maxi < 2 ^ 63)%N ->
  round_and_clamp mini maxi invalid d =
  Ok (if (Z.of_N mini <=? z) && (z <=? Z.of_N maxi) then Z.to_N z else invalid).
Proof.
  intros mini maxi invalid d z N B M. assert (E := nearest_away_unique d z (lround d) N (lround_away d)). subst z.
  unfold round_and_clamp. rewrite round_int_ok by lia. cbn [obind]. rewrite wrap_id by lia.
  set (z := lround d) in *. f_equal.
  destruct (Z.lt_ge_cases z 0) as [ L | L ].
  - assert (z mod 2 ^ 64 = z + 2 ^ 64) as ->.
    { rewrite <- (Z.mod_add z 1) by lia. apply Z.mod_small. lia. }
    destruct (N.leb_spec mini (Z.to_N (z + 2 ^ 64))), (N.leb_spec (Z.to_N (z + 2 ^ 64)) maxi);
      destruct (Z.leb_spec (Z.of_N mini) z), (Z.leb_spec z (Z.of_N maxi)); cbn [andb]; lia.
  - rewrite Z.mod_small by lia.
    destruct (N.leb_spec mini (Z.to_N z)), (N.leb_spec (Z.to_N z) maxi);
      destruct (Z.leb_spec (Z.of_N mini) z), (Z.leb_spec z (Z.of_N maxi)); cbn [andb]; lia.
Qed.
(** a position far outside is taken for a valid index: 4294967301 for 5 *)
Theorem C25_round_and_clamp_far_refuted : forall mini maxi invalid k n, (mini <= n <= maxi)%N -> (n < 2 ^ 31)%N ->
  0 <= k < 2 ^ 30 ->
  round_and_clamp mini maxi invalid (z2q (Z.of_N n + k * 2 ^ 32)) = Ok n.
Proof.
  intros mini maxi invalid k n I B K. unfold round_and_clamp. rewrite round_int_ok; rewrite lround_z2q; [ | lia ].
  cbn [obind].
  replace (wrap (- 2 ^ 31) (2 ^ 31 - 1) (Z.of_N n + k * 2 ^ 32)) with (Z.of_N n).
  2:{ replace (k * 2 ^ 32) with (k * (2 ^ 31 - 1 - - 2 ^ 31 + 1)) by lia. rewrite wrap_shift by lia. now rewrite wrap_id by lia. }
  rewrite Z.mod_small by lia. rewrite N2Z.id. destruct (N.leb_spec mini n); [ | lia ].
  destruct (N.leb_spec n maxi); [ reflexivity | lia ].
Qed.

Example C25_nonvacuous : data_cast DDouble DShort (Some (Q2Qc (-5 # 2))) = Ok (Some (z2q (-3))) /\
  data_cast DDouble DUInt (Some (z2q 4000000000)) = Ok (Some (z2q 4000000000)) /\
  data_cast DDouble DInt64 (Some (z2q 4000000000)) = Ok (Some (z2q (-294967296))) /\
  data_cast DDouble DShort (Some (z2q 40000)) = Ok (Some (z2q (-25536))).
Proof. repeat split; reflexivity. Qed.

(** * C24 *)

Local Open Scope Qc_scope.

(** a packing whose type is an integer type of at most 32 bits and whose fill value is of that type *)
Definition usable (p : packing) : Prop := small (p_type p) /\ has_type (p_type p) (p_fill p) /\ p_scale p <> 0.

Lemma one_not_zero : 1 <> 0 :> Qc.
Proof. discriminate. Qed.

Lemma scale_data_spec : forall p us uo data, static_cast (p_type p) (p_fill p) = Ok (p_fill p) ->
  scale_data p us uo data =
  Ok (map (fun v => match v with
                    | None => None
                    | Some x => if veqb v (p_fill p) then None
                                else Some (us * (p_scale p * x + p_offset p) + uo)
                    end) data).
Proof.
  intros p us uo data SC. unfold scale_data, convert_data_type.
  assert (veqb (p_fill p) None = false) as -> by now destruct (p_fill p).
  cbn [andb numeric]. unfold scale_array. rewrite SC. cbn [obind static_cast int_range].
  rewrite (proj2 (Qc_eq_bool_false 1 0) one_not_zero).
  apply omapM_pointwise. intros [x|] _; [ | reflexivity ].
  destruct (veqb (Some x) (p_fill p)); [ reflexivity | ]. unfold data_cast. cbn [int_range]. do 2 f_equal.
  field. exact one_not_zero.
Qed.

(** reading: missing where the packed value is the fill value, otherwise scale * packed + offset,
    then converted to the wanted unit *)
Theorem C24_scaled_data : forall p us uo data, usable p -> Forall (has_type (p_type p)) data ->
  exists out, scale_data p us uo data = Ok out /\
    Forall2 (fun v o => (v = p_fill p -> o = None) /\
                        (forall x, v = Some x -> v <> p_fill p -> o = Some (us * (p_scale p * x + p_offset p) + uo)))
            data out.
Proof.
  intros p us uo data (S & F & Z) T. rewrite scale_data_spec by now apply static_cast_id.
  eexists. split; [ reflexivity | ]. clear T. induction data as [ | v data IH ]; constructor; [ | assumption ]. split.
  - intros ->. destruct (p_fill p) as [x|]; [ | reflexivity ].
    assert (veqb (Some x) (Some x) = true) as -> by (apply veqb_eq; eauto). reflexivity.
  - intros x -> N. destruct (veqb (Some x) (p_fill p)) eqn:E; [ | reflexivity ].
    apply veqb_eq in E. destruct E as (y & E1 & E2). congruence.
Qed.

(** writing: missing becomes the fill value, other values the nearest packed one *)
Lemma unscale_spec : forall p us uo data, p_scale p <> 0 -> static_cast (p_type p) (p_fill p) = Ok (p_fill p) ->
  numeric (p_type p) = true ->
  unscale_data DDouble p us uo data =
  omapM (fun v => match v with
                  | None => Ok (p_fill p)
                  | Some x => data_cast DDouble (p_type p) (Some ((us * x + uo - p_offset p) / p_scale p))
                  end) data.
Proof.
  intros p us uo data Z SC N. unfold unscale_data, convert_data_type. cbn [veqb andb]. rewrite N.
  unfold scale_array. cbn [static_cast int_range obind]. rewrite SC. cbn [obind].
  rewrite (proj2 (Qc_eq_bool_false _ _) Z).
  clear -Z. induction data as [ | v data IH ]; [ reflexivity | ]. cbn [omapM]. rewrite IH.
  destruct v as [x|]; [ | reflexivity ]. cbn [veqb].
  replace (us / p_scale p * x + (uo - p_offset p) / p_scale p) with ((us * x + uo - p_offset p) / p_scale p)
    by (field; exact Z).
  reflexivity.
Qed.

Lemma small_numeric : forall t, small t -> numeric t = true.
Proof. intros t S. unfold small in S. cbn in S. decompose [or] S; subst; try contradiction; reflexivity. Qed.

Theorem C24_unscaled_data : forall p lo hi (us uo : Qc) (data : list value), usable p -> int_range (p_type p) = Some (lo, hi) ->
  (forall x : Qc, In (Some x) data -> exists z, nearest_away ((us * x + uo - p_offset p) / p_scale p)%Qc z /\ (lo <= z <= hi)%Z) ->
  exists out, unscale_data DDouble p us uo data = Ok out /\
    Forall2 (fun v o => (v = None -> o = p_fill p) /\
                        (forall x : Qc, v = Some x -> exists z, o = Some (z2q z) /\
                           nearest_away ((us * x + uo - p_offset p) / p_scale p)%Qc z)) data out.
Proof.
  intros p lo hi us uo data (S & F & Z) R B. rewrite unscale_spec; [ | assumption | now apply static_cast_id | now apply small_numeric ].
  induction data as [ | v data IH ]; [ exists []; split; [ reflexivity | constructor ] | ].
  destruct IH as (out & E & FO); [ intros x I; apply B; now right | ].
  cbn [omapM]. destruct v as [x|].
  - destruct (B x (or_introl eq_refl)) as (z & N & I).
    rewrite (C25_rounds_to_nearest (p_type p) lo hi _ z S R N I). cbn [obind]. rewrite E. cbn [obind].
    eexists. split; [ reflexivity | ]. constructor; [ | assumption ]. split; [ discriminate | ].
    intros y Y. injection Y as <-. eauto.
  - cbn [obind]. rewrite E. cbn [obind]. eexists. split; [ reflexivity | ]. constructor; [ | assumption ].
    split; [ reflexivity | discriminate ].
Qed.

Lemma div_mult_c : forall a b : Qc, b <> 0 -> b * a / b = a.
Proof. intros. field. assumption. Qed.

(** unpacking and packing again, with a unit conversion and its inverse in between, returns the
    packed numbers *)
Theorem C24_round_trip : forall p us uo data, usable p -> us <> 0 -> Forall (has_type (p_type p)) data ->
  exists out, scale_data p us uo data = Ok out /\ unscale_data DDouble p (1 / us) (- uo / us) out = Ok data.
Proof.
  intros p us uo data (S & F & Z) U T. rewrite scale_data_spec by now apply static_cast_id.
  eexists. split; [ reflexivity | ].
  rewrite unscale_spec; [ | assumption | now apply static_cast_id | now apply small_numeric ].
  induction data as [ | v data IH ]; [ reflexivity | ]. inversion T as [ | ? ? Tv Td ]; subst. cbn [map omapM].
  rewrite (IH Td). clear IH Td T.
  destruct v as [x|].
  2:{ exfalso. destruct (small_range _ S) as (lo & hi & R & _). unfold has_type in Tv. rewrite R in Tv.
      destruct Tv as (z & Q & _). discriminate. }
  destruct (veqb (Some x) (p_fill p)) eqn:E.
  - apply veqb_eq in E. destruct E as (y & E1 & E2). rewrite E2. injection E1 as ->. reflexivity.
  - destruct (small_range _ S) as (lo & hi & R & L & _). assert (Tv' := Tv). unfold has_type in Tv. rewrite R in Tv.
    destruct Tv as (z & Q & I). injection Q as ->.
    replace ((1 / us * (us * (p_scale p * z2q z + p_offset p) + uo) + - uo / us - p_offset p) / p_scale p) with (z2q z)
      by (field; split; assumption).
    rewrite (C25_rounds_to_nearest (p_type p) lo hi (z2q z) z S R).
    + reflexivity.
    + left. rewrite z2q_val. setoid_replace (inject_Z z - inject_Z z)%Q with 0%Q by ring. reflexivity.
    + assumption.
Qed.

(** packing and unpacking a valid value changes it by at most half a step, unless it is packed into
    the fill value *)
Theorem C24_quantisation : forall p lo hi (x : Qc) z, usable p -> int_range (p_type p) = Some (lo, hi) ->
  nearest_away ((x - p_offset p) / p_scale p)%Qc z -> (lo <= z <= hi)%Z -> p_fill p <> Some (z2q z) ->
  exists packed y, unscale_data DDouble p 1 0 [Some x] = Ok packed /\ scale_data p 1 0 packed = Ok [Some y] /\
    (Qabs (y - x)%Qc <= Qabs (p_scale p) * (1#2))%Q.
Proof.
  intros p lo hi x z (S & F & Z) R N I NF. exists [Some (z2q z)], (p_scale p * z2q z + p_offset p).
  rewrite unscale_spec; [ | assumption | now apply static_cast_id | now apply small_numeric ]. cbn [omapM].
  replace (1 * x + 0 - p_offset p) with (x - p_offset p) by ring.
  rewrite (C25_rounds_to_nearest (p_type p) lo hi _ z S R N I). cbn [obind]. split; [ reflexivity | ].
  rewrite scale_data_spec by now apply static_cast_id. cbn [map].
  destruct (veqb (Some (z2q z)) (p_fill p)) eqn:E.
  { apply veqb_eq in E. destruct E as (y & E1 & E2). congruence. }
  split; [ do 3 f_equal; ring | ].
  assert (H : (Qabs ((x - p_offset p) / p_scale p)%Qc - inject_Z z <= 1#2)%Q \/ True) by now right. clear H.
  assert (H : (Qabs (((x - p_offset p) / p_scale p)%Qc - inject_Z z) <= 1#2)%Q).
  { destruct N as [ N | [N _] ]; lra. }
  assert (Q : (p_scale p * z2q z + p_offset p - x)%Qc = (- p_scale p * ((x - p_offset p) / p_scale p - z2q z))%Qc)
    by (field; exact Z).
  rewrite Q. set (d := ((x - p_offset p) / p_scale p)%Qc) in *.
  assert (EQ : (this (- p_scale p * (d - z2q z))%Qc == - p_scale p * (d - inject_Z z))%Q).
  { unfold Qcmult, Qcminus, Qcplus, Qcopp. cbn [this Q2Qc]. rewrite !Qred_correct, z2q_val. ring. }
  rewrite EQ. rewrite Qabs_Qmult, Qabs_opp.
  apply (Qmult_le_compat_r _ _ (Qabs (p_scale p))) in H; [ | apply Qabs_nonneg ].
  rewrite Qmult_comm. rewrite (Qmult_comm (Qabs (p_scale p))). exact H.
Qed.

(** floating-point variables: packing is exact except that a value equal to the fill value becomes
    missing *)
Theorem C24_float_round_trip : forall p x, In (p_type p) [DFloat; DDouble] -> p_scale p <> 0 ->
  exists packed, unscale_data DDouble p 1 0 [Some x] = Ok [packed] /\
    scale_data p 1 0 [packed] = Ok [if veqb packed (p_fill p) then None else Some x] /\
    packed = Some ((x - p_offset p) / p_scale p).
Proof.
  intros p x T Z. exists (Some ((x - p_offset p) / p_scale p)).
  assert (SC : static_cast (p_type p) (p_fill p) = Ok (p_fill p)).
  { unfold static_cast. destruct T as [ <- | [ <- | [] ] ]; reflexivity. }
  assert (NU : numeric (p_type p) = true) by (destruct T as [ <- | [ <- | [] ] ]; reflexivity).
  rewrite unscale_spec by assumption. cbn [omapM].
  assert (DC : forall v, data_cast DDouble (p_type p) v = Ok v).
  { intro v. apply C25_to_floating. destruct T as [ <- | [ <- | [] ] ]; reflexivity. }
  rewrite DC. cbn [obind]. split; [ do 4 f_equal; ring | ]. split; [ | reflexivity ].
  rewrite scale_data_spec by assumption. cbn [map].
  destruct (veqb (Some ((x - p_offset p) / p_scale p)) (p_fill p)); [ reflexivity | ].
  do 3 f_equal. field. assumption.
Qed.

(** one combined conversion equals scaling followed by the unit conversion *)
Theorem C24_units_compose : forall p us uo data out, usable p -> scale_data p 1 0 data = Ok out ->
  scale_data p us uo data = Ok (map (option_map (fun x => us * x + uo)) out).
Proof.
  intros p us uo data out (S & F & Z). rewrite !scale_data_spec by now apply static_cast_id.
  intro E. injection E as <-. f_equal. rewrite map_map. apply map_ext. intros [x|]; [ | reflexivity ].
  destruct (veqb (Some x) (p_fill p)); [ reflexivity | ]. cbn [option_map]. f_equal. ring.
Qed.
(** ... and the general converter used on linear units gives the same data as the fast path *)
Theorem C24_linear_units_agree : forall p us uo data, usable p ->
  scale_data_uc p (fun x => Some (us * x + uo)) data = scale_data p us uo data.
Proof.
  intros p us uo data (S & F & Z). rewrite scale_data_spec by now apply static_cast_id.
  unfold scale_data_uc, scale_array_units. rewrite static_cast_id by assumption. cbn [obind static_cast int_range].
  rewrite (proj2 (Qc_eq_bool_false 1 0) one_not_zero).
  apply omapM_pointwise. intros [x|] _; [ | reflexivity ].
  destruct (veqb (Some x) (p_fill p)); [ reflexivity | ]. unfold data_cast. cbn [int_range]. do 2 f_equal.
  field. exact one_not_zero.
Qed.

(** the same for writing *)
Theorem C24_linear_units_agree_write : forall p us uo data, usable p ->
  unscale_data_uc DDouble p (fun x => Some (us * x + uo)) data = unscale_data DDouble p us uo data.
Proof.
  intros p us uo data (S & F & Z). rewrite unscale_spec; [ | assumption | now apply static_cast_id | now apply small_numeric ].
  unfold unscale_data_uc, scale_array_units. rewrite (static_cast_id (p_type p)) by assumption. cbn [obind static_cast int_range].
  rewrite (proj2 (Qc_eq_bool_false _ _) Z). clear -Z.
  induction data as [ | v data IH ]; [ reflexivity | ]. cbn [omapM]. rewrite IH. destruct v as [x|]; [ | reflexivity ].
  cbn [veqb]. replace ((us * (1 * x + 0) + uo - p_offset p) * (1 / p_scale p)) with ((us * x + uo - p_offset p) / p_scale p)
    by (field; exact Z). reflexivity.
Qed.
(** any conversion and its inverse, linear or not *)
Theorem C24_units_round_trip : forall p uc cu data, usable p -> Forall (has_type (p_type p)) data ->
  (forall x, exists y, uc x = Some y /\ cu y = Some x) ->
  exists out, scale_data_uc p uc data = Ok out /\ unscale_data_uc DDouble p cu out = Ok data.
Proof.
  intros p uc cu data (S & F & Z) T I.
  exists (map (fun v => match v with None => None | Some x => if veqb v (p_fill p) then None else uc (p_scale p * x + p_offset p) end) data).
  split.
  - unfold scale_data_uc, scale_array_units. rewrite static_cast_id by assumption. cbn [obind static_cast int_range].
    rewrite (proj2 (Qc_eq_bool_false 1 0) one_not_zero).
    apply omapM_pointwise. intros [x|] _; [ | reflexivity ]. destruct (veqb (Some x) (p_fill p)); [ reflexivity | ].
    unfold data_cast. cbn [int_range]. destruct (I (p_scale p * x + p_offset p)) as (y & -> & _). do 2 f_equal.
    field. exact one_not_zero.
  - unfold unscale_data_uc, scale_array_units. rewrite (static_cast_id (p_type p)) by assumption. cbn [obind static_cast int_range].
    rewrite (proj2 (Qc_eq_bool_false _ _) Z).
    destruct (small_range _ S) as (lo & hi & R & L & _).
    induction data as [ | v data IH ]; [ reflexivity | ]. inversion T as [ | ? ? Tv Td ]; subst. cbn [map omapM].
    rewrite (IH Td). clear IH Td T. unfold has_type in Tv. rewrite R in Tv. destruct Tv as (z & -> & B).
    destruct (veqb (Some (z2q z)) (p_fill p)) eqn:E.
    + apply veqb_eq in E. destruct E as (y & E1 & E2). injection E1 as <-. rewrite E2. reflexivity.
    + destruct (I (p_scale p * z2q z + p_offset p)) as (y & -> & Y). cbn [veqb].
      replace (1 * y + 0) with y by ring. rewrite Y.
      replace ((p_scale p * z2q z + p_offset p - p_offset p) * (1 / p_scale p)) with (z2q z) by (field; exact Z).
      rewrite (C25_rounds_to_nearest (p_type p) lo hi (z2q z) z S R); [ reflexivity | | assumption ].
      left. rewrite z2q_val. setoid_replace (inject_Z z - inject_Z z)%Q with 0%Q by ring. reflexivity.
Qed.

(** a valid value that is packed into the fill value is lost *)
Theorem C24_valid_value_lost_refuted : forall p lo hi (x : Qc) z, usable p -> int_range (p_type p) = Some (lo, hi) ->
  nearest_away ((x - p_offset p) / p_scale p)%Qc z -> p_fill p = Some (z2q z) ->
  exists packed, unscale_data DDouble p 1 0 [Some x] = Ok packed /\ scale_data p 1 0 packed = Ok [None].
Proof.
  intros p lo hi x z (S & F & Z) R N NF. exists [Some (z2q z)].
  assert (I : (lo <= z <= hi)%Z).
  { unfold has_type in F. rewrite R, NF in F. destruct F as (z' & E & B).
    assert (z = z') by (apply z2q_inj; congruence). now subst. }
  rewrite unscale_spec; [ | assumption | now apply static_cast_id | now apply small_numeric ]. cbn [omapM].
  replace (1 * x + 0 - p_offset p) with (x - p_offset p) by ring.
  rewrite (C25_rounds_to_nearest (p_type p) lo hi _ z S R N I). cbn [obind]. split; [ reflexivity | ].
  rewrite scale_data_spec by now apply static_cast_id. cbn [map]. rewrite NF.
  assert (veqb (Some (z2q z)) (Some (z2q z)) = true) as -> by (apply veqb_eq; eauto). reflexivity.
Qed.

(** 64-bit variables do not survive: 2^31 comes back as -2^31 *)
Theorem C24_int64_refuted :
  let p := mkPack DInt64 (Some (z2q 0)) 1 0 in
  exists out, scale_data p 1 0 [Some (z2q (2 ^ 31))] = Ok out /\
    unscale_data DDouble p 1 0 out = Ok [Some (z2q (- 2 ^ 31))].
Proof. cbv zeta. eexists. split; [ reflexivity | ]. vm_compute. reflexivity. Qed.

(** writing integer data: the undefined value is converted to the integer type *)
Theorem C24_unscale_integers_refuted : forall tin p us uo data, int_range tin <> None ->
  numeric (p_type p) = true -> unscale_data tin p us uo data = UB.
Proof.
  intros tin p us uo data T N. unfold unscale_data, convert_data_type. cbn [veqb andb]. rewrite N.
  unfold scale_array, static_cast. destruct (int_range tin) as [[lo hi]|]; [ reflexivity | congruence ].
Qed.

(** default fill values: kept by the conversion to double for all types but the 64-bit ones, for
    which no data equals the fill value, or the conversion is undefined *)
Theorem C24_default_fill : forall t z, small t -> fill_constant t = Some z ->
  static_cast t (default_fill t) = Ok (Some (z2q z)) /\
  forall n, create_filled t n (default_fill t) = Ok (repeat (Some (z2q z)) n).
Proof.
  intros t z S E. unfold small in S. cbn in S.
  decompose [or] S; subst; try contradiction; cbn in E; injection E as <-; (split; [ reflexivity | ]); intro n; reflexivity.
Qed.
Theorem C24_default_fill_64_refuted :
  static_cast DInt64 (default_fill DInt64) = Ok (Some (z2q (-9223372036854775808))) /\
  (forall n, create_filled DInt64 n (default_fill DInt64) = Ok (repeat (Some (z2q 0)) n)) /\
  static_cast DUInt64 (default_fill DUInt64) = UB.
Proof. split; [ reflexivity | split; [ intro n | ]; reflexivity ]. Qed.

Example C24_nonvacuous :
  let p := mkPack DShort (Some (z2q (-32767))) (Q2Qc (1 # 100)) (z2q 273) in
  usable p /\ Forall (has_type DShort) [Some (z2q 1234); Some (z2q (-32767))] /\
  scale_data p 1 (z2q (-273)) [Some (z2q 1234); Some (z2q (-32767))] = Ok [Some (Q2Qc (617 # 50)); None].
Proof.
  cbv zeta. split; [ | split ].
  - split; [ cbn; tauto | split; [ exists (-32767)%Z; split; [ reflexivity | lia ] | discriminate ] ].
  - repeat constructor; unfold has_type; cbn [int_range]; eexists; split; try reflexivity; lia.
  - vm_compute. reflexivity.
Qed.

(** * C51 *)

(** fill values become undefined, nothing else changes *)
Theorem C51_bad2nan : forall b l, Forall2 (fun v o => (v = Some b -> o = None) /\ (v <> Some b -> o = v)) l (bad2nan (Some b) l).
Proof.
  intros b l. cbn [bad2nan]. induction l as [ | v l IH ]; constructor; [ | assumption ].
  destruct (veqb v (Some b)) eqn:E; split; intro H; try reflexivity.
  - apply veqb_eq in E. destruct E as (x & -> & E). congruence.
  - subst v. assert (veqb (Some b) (Some b) = true) by (apply veqb_eq; eauto). congruence.
Qed.
(** undefined values become the fill value, nothing else changes *)
Theorem C51_nan2bad : forall b l, Forall2 (fun v o => (v = None -> o = Some b) /\ (v <> None -> o = v)) l (nan2bad (Some b) l).
Proof.
  intros b l. cbn [nan2bad]. induction l as [ | v l IH ]; constructor; [ | assumption ].
  destruct v as [x|]; split; congruence.
Qed.
(** round trips *)
Theorem C51_round_trip : forall bad l, (bad <> None -> ~ In None l) -> nan2bad bad (bad2nan bad l) = l.
Proof.
  intros [b|] l H; [ | reflexivity ]. cbn [bad2nan nan2bad]. rewrite map_map.
  specialize (H ltac:(discriminate)). induction l as [ | v l IH ]; [ reflexivity | ]. cbn [map].
  rewrite IH by (intro I; apply H; now right). f_equal.
  destruct v as [x|]; [ | exfalso; apply H; now left ].
  destruct (veqb (Some x) (Some b)) eqn:E; [ | reflexivity ]. apply veqb_eq in E. destruct E as (y & A & B). congruence.
Qed.
Theorem C51_round_trip_back : forall bad l, ~ In bad l \/ bad = None -> bad2nan bad (nan2bad bad l) = l.
Proof.
  intros [b|] l H; [ | reflexivity ]. destruct H as [ H | H ]; [ | discriminate ].
  cbn [bad2nan nan2bad]. rewrite map_map.
  induction l as [ | v l IH ]; [ reflexivity | ]. cbn [map].
  rewrite IH by (intro I; apply H; now right). f_equal. destruct v as [x|].
  - destruct (veqb (Some x) (Some b)) eqn:E; [ | reflexivity ]. apply veqb_eq in E. destruct E as (y & A & B).
    exfalso. apply H. left. congruence.
  - assert (veqb (Some b) (Some b) = true) as -> by (apply veqb_eq; eauto). reflexivity.
Qed.
(** an undefined fill value changes nothing, in either direction *)
Theorem C51_undefined_fill : forall l, bad2nan None l = l /\ nan2bad None l = l.
Proof. split; reflexivity. Qed.
Example C51_nonvacuous :
  bad2nan (Some (z2q (-999))) [Some (z2q 1); Some (z2q (-999))] = [Some (z2q 1); None] /\
  nan2bad (Some (z2q (-999))) [Some (z2q 1); None] = [Some (z2q 1); Some (z2q (-999))].
Proof. split; reflexivity. Qed.

(** * C52 *)

Local Open Scope Q_scope.

Lemma archi : forall q, exists n : nat, q <= inject_Z (Z.of_nat n).
Proof.
  intro q. exists (Z.to_nat (Qceiling q)). apply Qle_trans with (inject_Z (Qceiling q)); [ apply Qle_ceiling | ].
  rewrite <- Zle_Qle. lia.
Qed.

Lemma norm_up_spec : forall n x, -180 <= x + inject_Z (Z.of_nat n) * 360 ->
  exists y k, norm_up n x = Ok y /\ -180 <= y /\ y == x + inject_Z k * 360 /\ (0 <= k)%Z /\ (y < 180 \/ k = 0%Z).
Proof.
  induction n as [ | n IH ]; intros x H; cbn [norm_up].
  - change (inject_Z (Z.of_nat 0)) with 0 in H. destruct (qltb x (-180)) eqn:E; [ apply qltb_spec in E; lra | ].
    exists x, 0%Z. apply qltb_false in E. change (inject_Z 0) with 0. split; [ reflexivity | split; [ lra | split; [ lra | split; [ lia | now right ] ] ] ].
  - destruct (qltb x (-180)) eqn:E.
    + apply qltb_spec in E. replace (Z.of_nat (S n)) with (Z.of_nat n + 1)%Z in H by lia.
      rewrite inject_Z_plus in H. change (inject_Z 1) with 1 in H.
      destruct (IH (x + 360)) as (y & k & A & B & C & D & F); [ lra | ].
      exists y, (k + 1)%Z. rewrite inject_Z_plus. change (inject_Z 1) with 1.
      repeat split; try assumption; try lra; try lia. left. destruct F as [ F | -> ]; [ assumption | ].
      change (inject_Z 0) with 0 in C. lra.
    + apply qltb_false in E. exists x, 0%Z. change (inject_Z 0) with 0. split; [ reflexivity | split; [ lra | split; [ lra | split; [ lia | now right ] ] ] ].
Qed.

Lemma norm_down_spec : forall n x, -180 <= x -> x - inject_Z (Z.of_nat n) * 360 <= 180 ->
  exists y k, norm_down n x = Ok y /\ -180 <= y <= 180 /\ y == x - inject_Z k * 360 /\ (0 <= k)%Z.
Proof.
  induction n as [ | n IH ]; intros x L H; cbn [norm_down].
  - change (inject_Z (Z.of_nat 0)) with 0 in H. destruct (qltb 180 x) eqn:E; [ apply qltb_spec in E; lra | ].
    exists x, 0%Z. apply qltb_false in E. change (inject_Z 0) with 0. repeat split; try lra; try lia.
  - destruct (qltb 180 x) eqn:E.
    + apply qltb_spec in E. replace (Z.of_nat (S n)) with (Z.of_nat n + 1)%Z in H by lia.
      rewrite inject_Z_plus in H. change (inject_Z 1) with 1 in H.
      destruct (IH (x - 360)) as (y & k & A & B & C & D); [ lra | lra | ].
      exists y, (k + 1)%Z. rewrite inject_Z_plus. change (inject_Z 1) with 1.
      repeat split; try assumption; try lra; try lia.
    + apply qltb_false in E. exists x, 0%Z. change (inject_Z 0) with 0. repeat split; try lra; try lia.
Qed.

(** both loops end, and the result is in [-180, 180] and differs by whole turns *)
Theorem C52_normalize : forall x, exists fuel y k, normalize180 fuel x = Ok y /\ -180 <= y <= 180 /\ y == x + inject_Z k * 360.
Proof.
  intro x. destruct (archi (Qabs x)) as [n N]. exists n.
  assert (N0 : 0 <= inject_Z (Z.of_nat n)) by (change 0 with (inject_Z 0); rewrite <- Zle_Qle; lia).
  assert (A1 : x <= inject_Z (Z.of_nat n)) by (assert (Q := Qle_Qabs x); lra).
  assert (A2 : - inject_Z (Z.of_nat n) <= x).
  { assert (Q := Qle_Qabs (- x)). rewrite Qabs_opp in Q. lra. }
  destruct (norm_up_spec n x) as (y & k & E & B & C & D & F); [ lra | ].
  destruct (norm_down_spec n y) as (w & j & E2 & B2 & C2 & D2); [ assumption | | ].
  { destruct F as [ F | -> ]; [ lra | ]. change (inject_Z 0) with 0 in C. lra. }
  exists w, (k - j)%Z. unfold normalize180. rewrite E. cbn [obind]. split; [ assumption | ]. split; [ assumption | ].
  unfold Z.sub. rewrite inject_Z_plus, inject_Z_opp. lra.
Qed.
(** values already in the interval are kept: so the function is idempotent *)
Theorem C52_normalize_fixed : forall fuel x, -180 <= x <= 180 -> normalize180 fuel x = Ok x.
Proof.
  intros fuel x H. unfold normalize180.
  assert (qltb x (-180) = false) as E1 by (apply qltb_false; lra).
  assert (qltb 180 x = false) as E2 by (apply qltb_false; lra).
  destruct fuel; cbn [norm_up]; rewrite E1; cbn [obind norm_down]; now rewrite E2.
Qed.
(** and more rounds do not change a result *)
Theorem C52_normalize_fuel : forall f g x y, normalize180 f x = Ok y -> (f <= g)%nat -> normalize180 g x = Ok y.
Proof.
  assert (U : forall f g x y, norm_up f x = Ok y -> (f <= g)%nat -> norm_up g x = Ok y).
  { induction f as [ | f IH ]; intros g x y E L; cbn [norm_up] in E.
    - destruct (qltb x (-180)) eqn:Q; [ discriminate | ]. destruct g; cbn [norm_up]; now rewrite Q.
    - destruct g as [ | g ]; [ lia | ]. cbn [norm_up]. destruct (qltb x (-180)); [ | assumption ].
      apply IH; [ assumption | lia ]. }
  assert (D : forall f g x y, norm_down f x = Ok y -> (f <= g)%nat -> norm_down g x = Ok y).
  { induction f as [ | f IH ]; intros g x y E L; cbn [norm_down] in E.
    - destruct (qltb 180 x) eqn:Q; [ discriminate | ]. destruct g; cbn [norm_down]; now rewrite Q.
    - destruct g as [ | g ]; [ lia | ]. cbn [norm_down]. destruct (qltb 180 x); [ | assumption ].
      apply IH; [ assumption | lia ]. }
  intros f g x y E L. unfold normalize180 in *. destruct (norm_up f x) as [ w | | | ] eqn:Ew; cbn [obind] in E; try discriminate.
  rewrite (U f g x w Ew L). cbn [obind]. now apply (D f).
Qed.

(** the nearest value of the interval; idempotent, monotone *)
Theorem C52_clamp_nearest : forall low v high w, low <= high -> low <= w <= high ->
  low <= clamp low v high <= high /\ Qabs (v - clamp low v high) <= Qabs (v - w).
Proof.
  intros low v high w H W. unfold clamp. destruct (qltb v low) eqn:E1.
  - apply qltb_spec in E1. split; [ lra | ]. rewrite (Qabs_neg (v - low)), (Qabs_neg (v - w)) by lra. lra.
  - apply qltb_false in E1. destruct (qltb v high) eqn:E2.
    + apply qltb_spec in E2. split; [ lra | ]. setoid_replace (v - v) with 0 by ring. apply Qabs_nonneg.
    + apply qltb_false in E2. split; [ lra | ]. rewrite (Qabs_pos (v - high)), (Qabs_pos (v - w)) by lra. lra.
Qed.
Theorem C52_clamp_inside : forall low v high, low <= v <= high -> clamp low v high == v.
Proof.
  intros low v high H. unfold clamp. assert (qltb v low = false) as -> by (apply qltb_false; lra).
  destruct (qltb v high) eqn:E; [ reflexivity | ]. apply qltb_false in E. lra.
Qed.
Theorem C52_clamp_monotone : forall low v w high, low <= high -> v <= w -> clamp low v high <= clamp low w high.
Proof.
  intros low v w high H L. unfold clamp.
  destruct (qltb v low) eqn:A; destruct (qltb w low) eqn:B; destruct (qltb v high) eqn:C; destruct (qltb w high) eqn:D;
    try apply qltb_spec in A; try apply qltb_spec in B; try apply qltb_spec in C; try apply qltb_spec in D;
    try apply qltb_false in A; try apply qltb_false in B; try apply qltb_false in C; try apply qltb_false in D; lra.
Qed.
Example C52_nonvacuous : normalize180 3 (-900) = Ok (-900 + 360 + 360)%Q /\ clamp 1 5 3 = 3.
Proof. split; reflexivity. Qed.

(** * C62 *)

(** the documented names *)
Definition method_names : list (str * imethod) :=
  [(s_ "bilinear", IBilinear); (s_ "nearestneighbor", INearest); (s_ "bicubic", IBicubic);
   (s_ "coord_nearestneighbor", ICoordNN); (s_ "coord_kdtree", ICoordKD);
   (s_ "forward_sum", IFwSum); (s_ "forward_mean", IFwMean); (s_ "forward_median", IFwMedian);
   (s_ "forward_max", IFwMax); (s_ "forward_min", IFwMin);
   (s_ "forward_undef_sum", IFwUSum); (s_ "forward_undef_mean", IFwUMean);
   (s_ "forward_undef_median", IFwUMedian); (s_ "forward_undef_max", IFwUMax)].

Theorem C62_known_names : forall name m, In (name, m) method_names -> string2method name = m.
Proof.
  intros name m H. cbn in H. decompose [or] H; try contradiction;
    match goal with H : (_, _) = (_, _) |- _ => injection H as <- <- end; reflexivity.
Qed.
Theorem C62_unknown_names : forall name, (forall m, ~ In (name, m) method_names) -> name <> s_ "forward_undef_min" ->
  string2method name = IUnknown.
Proof.
  intros name H N. unfold string2method.
  repeat match goal with
  | |- context [if str_eqb ?a name then ?m else _] =>
      destruct (str_eqb a name) eqn:E;
      [ apply str_eqb_eq in E; exfalso; subst name;
        first [ apply N; reflexivity | apply (H m); cbn; tauto ]
      | clear E ]
  end. reflexivity.
Qed.
(** the name of the minimum that treats undefined cells as undefined selects the other minimum; the
    method cannot be selected by any name *)
Theorem C62_undef_min_refuted : string2method (s_ "forward_undef_min") = IFwMin /\
  forall name, string2method name <> IFwUMin.
Proof.
  split; [ reflexivity | ]. intro name. unfold string2method.
  repeat match goal with |- context [if ?c then _ else _] => destruct c end; discriminate.
Qed.
Example C62_nonvacuous : string2method (s_ "coord_kdtree") = ICoordKD /\ string2method (s_ "Bilinear") = IUnknown.
Proof. split; reflexivity. Qed.

(** * C63 *)

Local Open Scope Qc_scope.

Lemma near_line_affine : forall f a b x, f x = Some (a * x + b) -> near_line f b a x = true.
Proof.
  intros f a b x E. unfold near_line. rewrite E. replace (a * x + b - (x * a + b)) with 0 by ring.
  reflexivity.
Qed.

(** an affine conversion is recognised, with its slope and offset *)
Theorem C63_affine_recognised : forall f a b, (forall x, f x = Some (a * x + b)) ->
  is_linear f = true /\ get_scale_offset f = Ok (a, b).
Proof.
  intros f a b H.
  assert (L : is_linear f = true).
  { unfold is_linear. rewrite !H. replace (a * 0 + b) with b by ring. replace (a * 1 + b - b) with a by ring.
    rewrite !near_line_affine by apply H. reflexivity. }
  split; [ assumption | ]. unfold get_scale_offset. rewrite L. cbn [negb]. rewrite !H.
  replace (a * 0 + b) with b by ring. replace (a * 1 + b - b) with a by ring.
  destruct (Qc_eq_bool a 0) eqn:A; [ reflexivity | ]. destruct (Qc_eq_bool b 0) eqn:B; [ reflexivity | ].
  apply Qc_eq_bool_false in A. apply Qc_eq_bool_false in B. cbn [negb andb].
  assert (NB : - b <> 0) by (intro X; apply B; replace b with (- - b) by ring; now rewrite X).
  replace ((a * (- b / a) + b - b) / (- b / a)) with a by (field; split; assumption).
  destruct (qltb _ _); reflexivity.
Qed.
(** what is accepted agrees with the line at the six test points up to 1e-5 *)
Theorem C63_accepted_near_line : forall f, is_linear f = true ->
  exists b c, f 0 = Some b /\ f 1 = Some c /\
    forall z, In z [10; 100; 1000; -1000]%Z -> exists y, f (z2q z) = Some y /\
      (Qabs (y - (z2q z * (c - b) + b))%Qc <= 1 # 100000)%Q.
Proof.
  intros f H. unfold is_linear in H. destruct (f 0) as [b|]; [ | discriminate ]. destruct (f 1) as [c|]; [ | discriminate ].
  exists b, c. split; [ reflexivity | ]. split; [ reflexivity | ].
  assert (G : forall z, near_line f b (c - b) (z2q z) = true -> exists y, f (z2q z) = Some y /\
      (Qabs (y - (z2q z * (c - b) + b))%Qc <= 1 # 100000)%Q).
  { intros z N. unfold near_line in N. destruct (f (z2q z)) as [y|]; [ | discriminate ]. exists y. split; [ reflexivity | ].
    apply negb_true_iff, qltb_false in N. exact N. }
  apply andb_true_iff in H. destruct H as [H H4]. apply andb_true_iff in H. destruct H as [H H3].
  apply andb_true_iff in H. destruct H as [H1 H2].
  intros z I. cbn in I. decompose [or] I; subst; try contradiction; apply G; assumption.
Qed.
(** a conversion with tiny values is taken as linear although it is not: 10^-12 * x^2 is replaced
    by 10^-12 * x *)
Theorem C63_small_values_refuted :
  let f := fun x => Some (Q2Qc (1 # 1000000000000) * x * x) in
  is_linear f = true /\ get_scale_offset f = Ok (Q2Qc (1 # 1000000000000), 0).
Proof. cbv zeta. split; vm_compute; reflexivity. Qed.
Example C63_nonvacuous : is_linear (fun x => Some (x * x)) = false /\
  get_scale_offset (fun x => Some (Q2Qc (9 # 5) * x + z2q 32)) = Ok (Q2Qc (9 # 5), z2q 32).
Proof. split; [ vm_compute; reflexivity | apply C63_affine_recognised; reflexivity ]. Qed.

Print Assumptions C23_name_round_trip.
Print Assumptions C23_names_differ.
Print Assumptions C23_accepted_names.
Print Assumptions C23_ncml_round_trip.
Print Assumptions C23_ncml_name_round_trip.
Print Assumptions C23_ncml_unknown.
Print Assumptions C23_netcdf_round_trip.
Print Assumptions C23_ncml_char_refuted.
Print Assumptions C23_ncml_attribute_unsigned_refuted.
Print Assumptions C25_nearest_unique.
Print Assumptions C25_rounds_to_nearest.
Print Assumptions C25_rounds_to_nearest_64.
Print Assumptions C25_64_bit_refuted.
Print Assumptions C25_out_of_range_wraps.
Print Assumptions C25_integers_kept.
Print Assumptions C25_to_floating.
Print Assumptions C25_round_and_clamp.
Print Assumptions C25_round_and_clamp_far_refuted.
Print Assumptions C24_scaled_data.
Print Assumptions C24_unscaled_data.
Print Assumptions C24_round_trip.
Print Assumptions C24_quantisation.
Print Assumptions C24_float_round_trip.
Print Assumptions C24_units_compose.
Print Assumptions C24_linear_units_agree.
Print Assumptions C24_linear_units_agree_write.
Print Assumptions C24_units_round_trip.
Print Assumptions C24_valid_value_lost_refuted.
Print Assumptions C24_int64_refuted.
Print Assumptions C24_unscale_integers_refuted.
Print Assumptions C24_default_fill.
Print Assumptions C24_default_fill_64_refuted.
Print Assumptions C51_bad2nan.
Print Assumptions C51_nan2bad.
Print Assumptions C51_round_trip.
Print Assumptions C51_round_trip_back.
Print Assumptions C51_undefined_fill.
Print Assumptions C52_normalize.
Print Assumptions C52_normalize_fixed.
Print Assumptions C52_normalize_fuel.
Print Assumptions C52_clamp_nearest.
Print Assumptions C52_clamp_inside.
Print Assumptions C52_clamp_monotone.
Print Assumptions C62_known_names.
Print Assumptions C62_unknown_names.
Print Assumptions C62_undef_min_refuted.
Print Assumptions C63_affine_recognised.
Print Assumptions C63_accepted_near_line.
Print Assumptions C63_small_values_refuted.
