(** C108: the values of vertical axes read from GRIB files. *)
From Coq Require Import PeanoNat String List Bool Lia Lqa QArith Qcanon Sorting.Sorted.
From Verif Require Import Base StdMap CdmProofs GwrModel GlevModel.
Import ListNotations.
Local Open Scope string_scope.
Local Open Scope list_scope.
Local Open Scope nat_scope.

Lemma omapM_map {A B} (f : A -> outcome B) (g : A -> B) l : (forall a, In a l -> f a = Ok (g a)) -> omapM f l = Ok (map g l).
Proof.
  induction l as [ | a l IH ]; intro H; cbn; auto. rewrite H by (cbn; auto). cbn. rewrite IH by (intros; apply H; cbn; auto). reflexivity.
Qed.
Lemma omapM_throw {A B} (f : A -> outcome B) l k : In k l -> (forall a, In a l -> f a = Throw \/ exists b, f a = Ok b) -> f k = Throw -> omapM f l = Throw.
Proof.
  induction l as [ | a l IH ]; intros I H T; [ contradiction | ]. cbn. destruct (H a) as [ -> | (b & E) ]; [ cbn; auto | auto | ]. rewrite E. cbn.
  destruct I as [ -> | I ]; [ congruence | ]. rewrite IH; auto. intros; apply H; cbn; auto.
Qed.
Lemma nth_err {A} (l : list A) d i : i < length l -> nth_error l i = Some (nth i l d).
Proof. intro H. apply nth_error_nth'. auto. Qed.
Lemma half_twice n : (n + n) / 2 = n.
Proof. replace (n + n) with (n * 2) by lia. apply Nat.div_mul. lia. Qed.

(** the coefficient of a full level: the mean of those of the half levels around it *)
Definition mean (l : list Qc) (k : nat) : Qc := ((nth (k - 1) l 0 + nth k l 0) / Q2Qc (2 # 1))%Qc.

Lemma half_first a b k : length a = length b -> 1 <= k < length a -> half_value (a ++ b) 0 k = Ok (mean a k).
Proof.
  intros L K. unfold half_value, mean. cbn [Nat.add]. rewrite app_length.
  destruct (Nat.eqb_spec k 0); [ lia | ]. destruct (Nat.ltb_spec (k - 1) (length a + length b)); [ | lia ].
  destruct (Nat.ltb_spec (k - 1 + 1) (length a + length b)); [ | lia ]. rewrite !nth_error_app1 by lia.
  rewrite (nth_err a 0%Qc), (nth_err a 0%Qc) by lia. cbn. replace (k - 1 + 1) with k by lia. reflexivity.
Qed.
Lemma half_second a b k : length a = length b -> 1 <= k < length a -> half_value (a ++ b) (length a) k = Ok (mean b k).
Proof.
  intros L K. unfold half_value, mean. rewrite app_length.
  destruct (Nat.eqb_spec (length a + k) 0); [ lia | ]. destruct (Nat.ltb_spec (length a + k - 1) (length a + length b)); [ | lia ].
  destruct (Nat.ltb_spec (length a + k - 1 + 1) (length a + length b)); [ | lia ]. rewrite !nth_error_app2 by lia.
  replace (length a + k - 1 - length a) with (k - 1) by lia. replace (length a + k - 1 + 1 - length a) with k by lia.
  rewrite (nth_err b 0%Qc), (nth_err b 0%Qc) by lia. reflexivity.
Qed.

(** Half levels: with coefficients a of the n half levels followed by b, a level k from 1 to n - 1
    gets the mean of half levels k and k + 1. *)
Theorem C108_half : forall vs ext a b levels, length a = length b -> length levels <= length a ->
  (forall k, In k levels -> 1 <= k < length a) ->
  read_values vs ext levels (a ++ b) [mkN Half1 None] = Ok (map (mean a) levels) /\
  read_values vs ext levels (a ++ b) [mkN Half2 None] = Ok (map (mean b) levels).
Proof.
  intros vs ext a b levels L C K. unfold read_values. cbn [ofold]. unfold node_step. cbn [n_mode n_scale node_values].
  rewrite app_length, <- L, half_twice. destruct (Nat.ltb_spec (length a) (length levels)); [ lia | ].
  rewrite (omapM_map _ (mean a)) by (intros; apply half_first; auto). rewrite (omapM_map _ (mean b)) by (intros; apply half_second; auto). split; reflexivity.
Qed.

(** the same values as in C105, for the coefficients that the writer makes *)
Theorem C108_half_written : forall vs ext second pv levels l,
  (forall k, In k levels -> 1 <= k) -> half_read second pv levels = Some l ->
  read_values vs ext levels pv [mkN (if second then Half2 else Half1) None] = Ok l.
Proof.
  intros vs ext second pv levels l K H. unfold half_read in H. destruct (length pv / 2 <? length levels) eqn:C; [ discriminate | ].
  set (off := if second then length pv / 2 else 0) in *.
  assert (omapM (half_value pv off) levels = Ok l) as E.
  { clear C. revert l H. induction levels as [ | k levels IH ]; cbn [fold_right omapM]; intros l H; [ injection H as <-; reflexivity | ].
    destruct (nth_error pv (off + k - 1)) as [ x | ] eqn:X; [ | discriminate ].
    assert (half_value pv off k = Ok match nth_error pv (S (off + k - 1)) with Some y => ((x + y) / Q2Qc (2 # 1))%Qc | None => x end) as HV.
    { unfold half_value. assert (off + k - 1 < length pv) by (apply nth_error_Some; congruence). assert (1 <= k) by (apply K; cbn; auto).
      destruct (Nat.eqb_spec (off + k) 0); [ lia | ]. destruct (Nat.ltb_spec (off + k - 1) (length pv)); [ | lia ].
      replace (S (off + k - 1)) with (off + k - 1 + 1) by lia. rewrite X. destruct (Nat.ltb_spec (off + k - 1 + 1) (length pv)) as [ Q | Q ].
      - rewrite (nth_err pv 0%Qc _ Q). reflexivity.
      - rewrite (proj2 (nth_error_None pv _) Q). replace (length pv - 1) with (off + k - 1) by lia. rewrite X. reflexivity. }
    rewrite HV. cbn [obind].
    destruct (nth_error pv (S (off + k - 1))) as [ y | ]; (destruct (fold_right _ _ levels) as [ qs | ]; [ | discriminate ]);
      injection H as <-; (rewrite (IH (fun j J => K j (or_intror J)) qs eq_refl); reflexivity). }
  unfold read_values. cbn [ofold]. unfold node_step. cbn [n_mode n_scale]. destruct second; cbn [node_values]; rewrite C; unfold off in E; rewrite E; reflexivity.
Qed.

(** Full levels: a level k gets coefficient k of the first half, and, but for the last, of the
    second half. *)
Theorem C108_full : forall vs ext a b levels, length a = length b ->
  ((forall k, In k levels -> 1 <= k <= length a) ->
   read_values vs ext levels (a ++ b) [mkN Extra1 None] = Ok (map (fun k => nth (k - 1) a 0%Qc) levels)) /\
  ((forall k, In k levels -> 1 <= k < length a) ->
   read_values vs ext levels (a ++ b) [mkN Extra2 None] = Ok (map (fun k => nth (k - 1) b 0%Qc) levels)).
Proof.
  intros vs ext a b levels L. unfold read_values. cbn [ofold]. unfold node_step. cbn [n_mode n_scale node_values]. split; intro K.
  - rewrite (omapM_map _ (fun k => nth (k - 1) a 0%Qc)); [ reflexivity | ]. intros k Hk. apply K in Hk. unfold extra_value. cbn [Nat.add]. rewrite app_length.
    destruct (Nat.ltb_spec k (length a + length b)); [ | lia ]. destruct (Nat.eqb_spec k 0); [ lia | ]. rewrite nth_error_app1, (nth_err a 0%Qc) by lia. reflexivity.
  - rewrite app_length, <- L, half_twice.
    rewrite (omapM_map _ (fun k => nth (k - 1) b 0%Qc)); [ reflexivity | ]. intros k Hk. apply K in Hk. unfold extra_value. rewrite app_length.
    destruct (Nat.ltb_spec (length a + k) (length a + length b)); [ | lia ]. destruct (Nat.eqb_spec (length a + k) 0); [ lia | ].
    rewrite nth_error_app2 by lia. replace (length a + k - 1 - length a) with (k - 1) by lia. rewrite (nth_err b 0%Qc) by lia. reflexivity.
Qed.

(** A scale multiplies the values of its element. *)
Theorem C108_scaled : forall vs ext levels pv m s l,
  read_values vs ext levels pv [mkN m None] = Ok l ->
  read_values vs ext levels pv [mkN m (Some (Some s))] = Ok (map (fun x => (x * s)%Qc) l).
Proof.
  intros vs ext levels pv m s l. unfold read_values. cbn [ofold]. unfold node_step. cbn [n_mode n_scale].
  destruct (node_values vs ext levels pv m); cbn; try discriminate. intro H. injection H as <-. reflexivity.
Qed.
Theorem C108_inline : forall vs ext levels pv l,
  read_values vs ext levels pv [mkN (Inline (map Some l)) None] = Ok l.
Proof.
  intros. unfold read_values. cbn [ofold]. unfold node_step. cbn [n_mode n_scale node_values].
  assert (omapM to_number (map Some l) = Ok l) as -> by (induction l as [ | x l IH ]; cbn; auto; rewrite IH; reflexivity). reflexivity.
Qed.

(** ** The hybrid axis as configured in share/etc/cdmGribReaderConfig.xml *)

Definition hybrid_axis : list vnode := [mkN Sigma None].
Definition hybrid_aux (p0 : Qc) : list aux :=
  [mkA "p0" ["units"] [mkN (Inline [Some p0]) None]; mkA "ap" ["units"] [mkN Half1 (Some (Some 1%Qc))]; mkA "b" ["units"] [mkN Half2 (Some (Some 1%Qc))]].

Lemma scale_one l : map (fun x => (x * 1)%Qc) l = l.
Proof. induction l as [ | x l IH ]; cbn; auto. rewrite IH, Qcmult_1_r. reflexivity. Qed.
Lemma append_eqb a b ext : String.eqb (a ++ ext)%string (b ++ ext)%string = true -> String.length a = String.length b -> a = b.
Proof.
  intros H. apply String.eqb_eq in H. revert b H. induction a as [ | c a IH ]; intros [ | d b ] H L; cbn in *; try discriminate; auto.
  injection H as -> H. f_equal. apply IH; auto.
Qed.

Definition fresh (vs : cvars) (ext : string) : Prop :=
  sfind ("p0" ++ ext)%string vs = None /\ sfind ("ap" ++ ext)%string vs = None /\ sfind ("b" ++ ext)%string vs = None.
(** the names do not collide: extensions are numbers *)
Definition apart (ext : string) : Prop := ("p0" ++ ext <> "ap" ++ ext)%string /\ ("p0" ++ ext <> "b" ++ ext)%string /\ ("ap" ++ ext <> "b" ++ ext)%string.
Lemma always_apart ext : apart ext.
Proof.
  split; [ | split ]; intro H; try discriminate.
Qed.

Lemma added ext levels pv vs a l : read_values vs ext levels pv (a_values a) = Ok l -> sfind (a_name a ++ ext)%string vs = None -> a_attributes a = ["units"] ->
  add_aux ext levels pv vs a = Ok (sput (a_name a ++ ext)%string (Some l, ["units"]) (sput (a_name a ++ ext)%string (Some l, []) vs)).
Proof.
  intros R F A. unfold add_aux. rewrite R. unfold smem. rewrite F. cbn [obind]. rewrite A. unfold add_attributes. cbn [ofold].
  rewrite sfind_sput, String.eqb_refl. reflexivity.
Qed.

Theorem C108_hybrid : forall p0 ext a b levels vs,
  p0 <> 0%Qc -> length a = length b -> length levels <= length a -> (forall k, In k levels -> 1 <= k < length a) -> fresh vs ext ->
  exists vs', special_levels hybrid_axis (hybrid_aux p0) ext levels (a ++ b) vs
              = Ok (vs', map (fun k => (mean a k / p0 + mean b k)%Qc) levels) /\
    (forall n, sfind n vs' = if String.eqb n ("p0" ++ ext) then Some (Some [p0], ["units"])
                             else if String.eqb n ("ap" ++ ext) then Some (Some (map (mean a) levels), ["units"])
                             else if String.eqb n ("b" ++ ext) then Some (Some (map (mean b) levels), ["units"])
                             else sfind n vs).
Proof.
  intros p0 ext a b levels vs NZ L C K (F1 & F2 & F3). unfold special_levels, hybrid_aux. cbn [ofold].
  destruct (always_apart ext) as (A1 & A2 & A3). apply String.eqb_neq in A1, A2, A3.
  assert (forall x y, String.eqb x y = String.eqb y x) as SY by apply String.eqb_sym.
  rewrite (added ext levels (a ++ b) vs _ [p0]); [ | apply (C108_inline vs ext levels (a ++ b) [p0]) | exact F1 | reflexivity ]. cbn [obind a_name].
  set (vs1 := sput ("p0" ++ ext)%string (Some [p0], ["units"]) _).
  rewrite (added ext levels (a ++ b) vs1 _ (map (mean a) levels)).
  2: { cbn [a_values]. rewrite <- (scale_one (map (mean a) levels)). apply C108_scaled. apply C108_half; auto. }
  2: { cbn [a_name]. unfold vs1. rewrite !sfind_sput, (SY ("ap" ++ ext)%string), A1. exact F2. }
  2: reflexivity.
  cbn [obind a_name]. set (vs2 := sput ("ap" ++ ext)%string (Some (map (mean a) levels), ["units"]) _).
  rewrite (added ext levels (a ++ b) vs2 _ (map (mean b) levels)).
  2: { cbn [a_values]. rewrite <- (scale_one (map (mean b) levels)). apply C108_scaled. apply C108_half; auto. }
  2: { cbn [a_name]. unfold vs2, vs1. rewrite !sfind_sput, (SY ("b" ++ ext)%string ("ap" ++ ext)%string), (SY ("b" ++ ext)%string ("p0" ++ ext)%string), A2, A3. exact F3. }
  2: reflexivity.
  cbn [obind a_name]. set (vs3 := sput ("b" ++ ext)%string (Some (map (mean b) levels), ["units"]) _).
  assert (forall n, sfind n vs3 = if String.eqb n ("p0" ++ ext) then Some (Some [p0], ["units"])
                             else if String.eqb n ("ap" ++ ext) then Some (Some (map (mean a) levels), ["units"])
                             else if String.eqb n ("b" ++ ext) then Some (Some (map (mean b) levels), ["units"])
                             else sfind n vs) as SF.
  { intro n. unfold vs3, vs2, vs1. rewrite !sfind_sput. destruct (String.eqb_spec n ("p0" ++ ext)) as [ -> | N1 ].
    - rewrite A2, A1. reflexivity.
    - destruct (String.eqb_spec n ("ap" ++ ext)) as [ -> | N2 ]; [ rewrite A3; reflexivity | ]. destruct (String.eqb_spec n ("b" ++ ext)); reflexivity. }
  assert (read_values vs3 ext levels (a ++ b) hybrid_axis = Ok (map (fun k => (mean a k / p0 + mean b k)%Qc) levels)) as ->; [ | exists vs3; split; auto ].
  unfold read_values, hybrid_axis. cbn [ofold]. unfold node_step. cbn [n_mode n_scale node_values]. unfold data_of. rewrite !SF.
  rewrite !String.eqb_refl. rewrite (SY ("ap" ++ ext)%string), A1. rewrite (SY ("b" ++ ext)%string ("ap" ++ ext)%string), (SY ("b" ++ ext)%string ("p0" ++ ext)%string), A2, A3.
  cbn [obind]. rewrite map_length.
  rewrite (omapM_map _ (fun i => (mean a (nth i levels 0%nat) / p0 + mean b (nth i levels 0%nat))%Qc)).
  - cbn. f_equal. clear. induction levels as [ | k l IH ]; auto. cbn [length seq map nth]. f_equal. rewrite <- seq_shift, map_map. exact IH.
  - intros i Hi. apply in_seq in Hi. rewrite (nth_err (map (mean a) levels) (mean a 0)), (nth_err (map (mean b) levels) (mean b 0)) by (rewrite map_length; lia). rewrite !map_nth. reflexivity.
Qed.

(** A hybrid coordinate that increases from half level to half level increases from level to level. *)
Theorem C108_increasing : forall p0 a b levels, (0 < p0)%Qc -> length a = length b -> (forall k, In k levels -> 1 <= k < length a) ->
  (forall i j, i < j < length a -> (nth i a 0 / p0 + nth i b 0 < nth j a 0 / p0 + nth j b 0)%Qc) ->
  StronglySorted Nat.lt levels -> StronglySorted Qclt (map (fun k => (mean a k / p0 + mean b k)%Qc) levels).
Proof.
  intros p0 a b levels P L K INC S. induction S as [ | k levels S IH F ]; cbn [map]; constructor.
  - apply IH. intros; apply K; cbn; auto.
  - apply Forall_forall. intros x Hx. apply in_map_iff in Hx as (j & <- & Hj). rewrite Forall_forall in F. specialize (F j Hj).
    assert (1 <= k < length a) as Bk by (apply K; cbn; auto). assert (1 <= j < length a) as Bj by (apply K; cbn; auto).
    pose proof (INC (k - 1) (j - 1) ltac:(lia)) as I1. pose proof (INC k j ltac:(lia)) as I2.
    assert (forall i, (mean a i / p0 + mean b i)%Qc = ((nth (i - 1) a 0 / p0 + nth (i - 1) b 0) + (nth i a 0 / p0 + nth i b 0)) * Q2Qc (1 # 2))%Qc as M.
    { intro i. unfold mean. assert (p0 <> 0%Qc) by (intro E; rewrite E in P; discriminate P).
      replace (Q2Qc (1 # 2)) with (/ Q2Qc (2 # 1))%Qc by (apply Qc_is_canon; reflexivity). field. split; auto. discriminate. }
    rewrite !M. generalize dependent (nth (k - 1) a 0 / p0 + nth (k - 1) b 0)%Qc. intros u1 I1. generalize dependent (nth (j - 1) a 0 / p0 + nth (j - 1) b 0)%Qc. intros u2 I1.
    generalize dependent (nth k a 0 / p0 + nth k b 0)%Qc. intros u3 I2. generalize dependent (nth j a 0 / p0 + nth j b 0)%Qc. intros u4 I2.
    unfold Qclt in *. cbn [this Qcplus Qcmult Q2Qc] in *. rewrite ?Qred_correct in *. change (Qred (1 # 2)) with (1 # 2)%Q. lra.
Qed.

(** Without further variables the values are the level numbers; an axis whose values cannot be
    calculated keeps them. *)
Theorem C108_numbers : forall axis ext levels pv vs,
  special_levels axis [] ext levels pv vs = Ok (vs, map (fun k => Q2Qc (inject_Z (Z.of_nat k))) levels) /\
  read_values vs ext levels pv [] = Ok (map (fun k => Q2Qc (inject_Z (Z.of_nat k))) levels).
Proof. split; reflexivity. Qed.
(** Several elements without scale give their values one after the other. *)
Theorem C108_several : forall vs ext levels pv m m' l l',
  read_values vs ext levels pv [mkN m None] = Ok l -> read_values vs ext levels pv [mkN m' None] = Ok l' ->
  read_values vs ext levels pv [mkN m None; mkN m' None] = Ok (l ++ l').
Proof.
  intros vs ext levels pv m m' l l'. unfold read_values. cbn [ofold]. unfold node_step. cbn [n_mode n_scale].
  destruct (node_values vs ext levels pv m); cbn; try discriminate. destruct (node_values vs ext levels pv m'); cbn; try discriminate. congruence.
Qed.

Theorem C108_kept : forall l ext levels pv vs u, sfind ("zz" ++ ext)%string vs = None ->
  special_levels [mkN Unknown None] [mkA "zz" [u] [mkN (Inline (map Some l)) None]] ext levels pv vs
  = Ok (sput ("zz" ++ ext)%string (Some l, [u]) (sput ("zz" ++ ext)%string (Some l, []) vs), map (fun k => Q2Qc (inject_Z (Z.of_nat k))) levels).
Proof.
  intros l ext levels pv vs u F. unfold special_levels. cbn [ofold]. unfold add_aux. cbn [a_values a_name a_attributes]. rewrite C108_inline.
  unfold smem. rewrite F. cbn [obind]. unfold add_attributes. cbn [ofold]. rewrite sfind_sput, String.eqb_refl. reflexivity.
Qed.

(** ** Findings *)

(** Finding: values configured for an axis without further variables are ignored. *)
Theorem C108_ignored_refuted : forall ext levels pv vs l,
  special_levels [mkN (Inline (map Some l)) None] [] ext levels pv vs = Ok (vs, map of_nat levels).
Proof. reflexivity. Qed.
(** Finding: the last full level is refused for the second half of the coefficients. *)
Theorem C108_last_refuted : forall vs ext a b, length a = length b ->
  read_values vs ext [length a] (a ++ b) [mkN Extra2 None] = Throw.
Proof.
  intros. unfold read_values. cbn [ofold]. unfold node_step. cbn [n_mode n_scale node_values omapM]. unfold extra_value.
  rewrite app_length, <- H, half_twice, Nat.ltb_irrefl. reflexivity.
Qed.
(** Finding: with half levels, level n (there are n - 1) gets the mean of the last a and the first b. *)
Theorem C108_beyond_refuted : forall vs ext a b x y, length a = length b ->
  read_values vs ext [S (length a)] ((a ++ [x]) ++ (y :: b)) [mkN Half1 None] = Ok [((x + y) / Q2Qc (2 # 1))%Qc].
Proof.
  intros vs ext a b x y L. unfold read_values. cbn [ofold]. unfold node_step. cbn [n_mode n_scale node_values omapM].
  replace (length ((a ++ [x]) ++ y :: b)) with (S (length a) + S (length a)) by (rewrite !app_length; cbn; lia). rewrite half_twice.
  cbn [length]. destruct (Nat.ltb_spec (S (length a)) 1); [ lia | ]. unfold half_value. cbn [Nat.add Nat.eqb].
  replace (length ((a ++ [x]) ++ y :: b)) with (S (length a) + S (length a)) by (rewrite !app_length; cbn; lia).
  replace (S (length a) - 1) with (length a) by lia.
  destruct (Nat.ltb_spec (length a) (S (length a) + S (length a))); [ | lia ]. destruct (Nat.ltb_spec (length a + 1) (S (length a) + S (length a))); [ | lia ].
  rewrite <- app_assoc. rewrite (nth_error_app2 a _ (n := length a)), (nth_error_app2 a _ (n := length a + 1)) by lia. rewrite Nat.sub_diag. replace (length a + 1 - length a) with 1 by lia. reflexivity.
Qed.
(** Finding: level 0 gets the last a as its b. *)
Theorem C108_zero_refuted : forall vs ext a b x, length b = S (length a) ->
  read_values vs ext [0] ((a ++ [x]) ++ b) [mkN Extra2 None] = Ok [x].
Proof.
  intros vs ext a b x L. unfold read_values. cbn [ofold]. unfold node_step. cbn [n_mode n_scale node_values omapM]. unfold extra_value.
  replace (length ((a ++ [x]) ++ b)) with (S (length a) + S (length a)) by (rewrite !app_length; cbn; lia). rewrite half_twice.
  destruct (Nat.ltb_spec (S (length a) + 0) (S (length a) + S (length a))); [ | lia ]. cbn [Nat.add Nat.eqb].
  replace (S (length a + 0) - 1) with (length a) by lia. rewrite <- app_assoc, nth_error_app2, Nat.sub_diag by lia. reflexivity.
Qed.
(** level 0 of full levels has the first coefficient; half levels have no level 0; pressure and coefficients must be there *)
Theorem C108_level_zero : forall vs ext x pv,
  read_values vs ext [0] (x :: pv) [mkN Extra1 None] = Ok [x] /\
  read_values vs ext [0] (x :: pv) [mkN Half1 None] = Throw /\
  (sfind ("p0" ++ ext)%string vs = None -> forall levels, read_values vs ext levels pv [mkN Sigma None] = Throw).
Proof.
  intros vs ext x pv. unfold read_values. cbn [ofold]. unfold node_step. cbn [n_mode n_scale node_values omapM]. split; [ | split ].
  - unfold extra_value. cbn [Nat.add Nat.eqb]. destruct (Nat.ltb_spec 0 (length (x :: pv))); [ reflexivity | cbn [length] in *; lia ].
  - destruct (_ <? _); reflexivity.
  - intros E levels. unfold data_of at 1. rewrite E. reflexivity.
Qed.
(** an attribute which the variable has already is refused *)
Theorem C108_attribute_twice : forall n a d as_ vs, sfind n vs = Some (d, as_) -> existsb (String.eqb a) as_ = true ->
  add_attributes n [a] vs = Throw.
Proof. intros n a d as_ vs F E. unfold add_attributes. cbn [ofold]. rewrite F, E. reflexivity. Qed.
(** Finding: a scale also applies to the values of the elements before it. *)
Theorem C108_scales_refuted : forall vs ext levels pv x y s,
  read_values vs ext levels pv [mkN (Inline [Some x]) None; mkN (Inline [Some y]) (Some (Some s))] = Ok [(x * s)%Qc; (y * s)%Qc].
Proof. reflexivity. Qed.
(** Finding: without enough coefficients the hybrid axis is not read with level numbers as the
    handling of the error intends, but the file is refused: the attributes of the missing variable
    are added nevertheless. *)
Theorem C108_missing_refuted : forall p0 ext levels pv vs, length pv / 2 < length levels -> fresh vs ext ->
  special_levels hybrid_axis (hybrid_aux p0) ext levels pv vs = Throw.
Proof.
  intros p0 ext levels pv vs C (F1 & F2 & F3). unfold special_levels, hybrid_aux. cbn [ofold].
  rewrite (added ext levels pv vs _ [p0]); [ | apply (C108_inline vs ext levels pv [p0]) | exact F1 | reflexivity ]. cbn [obind a_name].
  unfold add_aux at 1. cbn [a_values a_name a_attributes]. unfold read_values. cbn [ofold]. unfold node_step. cbn [n_mode n_scale node_values].
  apply Nat.ltb_lt in C. rewrite C. cbn [obind]. unfold add_attributes. cbn [ofold].
  rewrite !sfind_sput. destruct (always_apart ext) as (A1 & _). apply String.eqb_neq in A1. rewrite String.eqb_sym, A1, F2. reflexivity.
Qed.

Definition qn (n : Z) : Qc := Q2Qc (inject_Z n).
Example C108_nonvacuous :
  exists vs r, special_levels hybrid_axis (hybrid_aux (qn 100)) "1" [1; 3] (map qn [0; 20; 40; 0; 0; 1; 3; 5]%Z) [] = Ok (vs, r) /\
    map this r = [(3 # 5)%Q; (21 # 5)%Q] /\ map fst vs = ["ap1"; "b1"; "p01"].
Proof. eexists _, _. split; [ reflexivity | ]. split; reflexivity. Qed.

Print Assumptions C108_half.
Print Assumptions C108_half_written.
Print Assumptions C108_full.
Print Assumptions C108_scaled.
Print Assumptions C108_inline.
Print Assumptions C108_hybrid.
Print Assumptions C108_increasing.
Print Assumptions C108_numbers.
Print Assumptions C108_kept.
Print Assumptions C108_several.
Print Assumptions C108_ignored_refuted.
Print Assumptions C108_last_refuted.
Print Assumptions C108_beyond_refuted.
Print Assumptions C108_level_zero.
Print Assumptions C108_attribute_twice.
Print Assumptions C108_zero_refuted.
Print Assumptions C108_scales_refuted.
Print Assumptions C108_missing_refuted.
