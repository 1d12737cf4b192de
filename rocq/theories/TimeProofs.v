(** Lemmas on calendar times. *)
From Coq Require Import NArith ZArith List Bool Lia.
From Coq Require Import ZifyBool ZifyNat ZifyN.
From Verif Require Import Base TimeModel.
Import ListNotations.
Open Scope N_scope.

Lemma lor_add : forall a b n, b < 2 ^ n -> N.lor (N.shiftl a n) b = a * 2 ^ n + b.
Proof.
  intros a b n H. rewrite <- N.shiftl_mul_pow2.
  assert (D : N.land (N.shiftl a n) b = 0).
  { apply N.bits_inj. intro k. rewrite N.land_spec, N.bits_0.
    destruct (N.lt_ge_cases k n) as [L | L].
    - now rewrite N.shiftl_spec_low.
    - rewrite andb_comm. destruct (N.eq_dec b 0) as [-> | Z].
      + now rewrite N.bits_0.
      + rewrite N.bits_above_log2; [ reflexivity | ].
        apply N.lt_le_trans with n; [ | exact L ].
        apply N.log2_lt_pow2; lia. }
  rewrite <- (N.lxor_lor _ _ D). symmetry. apply N.add_nocarry_lxor. exact D.
Qed.

(** the packed number as a sum *)
Definition packed (t : ftime) : N :=
  ((((((year t) * 2 ^ 4 + month t) * 2 ^ 8 + mday t) * 2 ^ 8 + hour t) * 2 ^ 8 + minute t)
     * 2 ^ 8 + second t) * 2 ^ 16 + msecond t.

Definition packable (t : ftime) : Prop :=
  year t < 2 ^ 12 /\ month t < 2 ^ 4 /\ mday t < 2 ^ 8 /\ hour t < 2 ^ 8 /\
  minute t < 2 ^ 7 /\ second t < 2 ^ 8 /\ msecond t < 2 ^ 16.

Lemma shl64_small : forall v n k, v < 2 ^ k -> k + n <= 64 -> shl64 v n = N.shiftl v n.
Proof.
  intros v n k H K. unfold shl64. apply N.mod_small. rewrite N.shiftl_mul_pow2.
  apply N.lt_le_trans with (2 ^ k * 2 ^ n).
  - apply N.mul_lt_mono_pos_r; [ | exact H ]. apply N.neq_0_lt_0, N.pow_nonzero. lia.
  - rewrite <- N.pow_add_r. change M64 with (2 ^ 64). apply N.pow_le_mono_r; lia.
Qed.

Lemma shl_int_small : forall v n k, v < 2 ^ k -> k + n <= 31 -> shl_int v n = N.shiftl v n.
Proof.
  intros v n k H K. unfold shl_int.
  assert (B : N.shiftl v n < 2 ^ 31).
  { rewrite N.shiftl_mul_pow2. apply N.lt_le_trans with (2 ^ k * 2 ^ n).
    - apply N.mul_lt_mono_pos_r; [ | exact H ]. apply N.neq_0_lt_0, N.pow_nonzero. lia.
    - rewrite <- N.pow_add_r. apply N.pow_le_mono_r; lia. }
  rewrite N.mod_small.
  - replace (N.shiftl v n <? 2 ^ 31) with true; [ reflexivity | ].
    symmetry. apply N.ltb_lt. exact B.
  - eapply N.lt_trans; [ exact B | reflexivity ].
Qed.

Lemma lor_pair : forall a b n m, b < 2 ^ m -> m <= n ->
  N.lor (N.shiftl a (n)) (N.shiftl b (n - m)) = N.shiftl (a * 2 ^ m + b) (n - m).
Proof.
  intros a b n m H L. rewrite <- lor_add by exact H.
  rewrite N.shiftl_lor, N.shiftl_shiftl. do 2 f_equal. lia.
Qed.

Lemma encoded_packed : forall t, packable t -> to_encoded t = packed t.
Proof.
  intros t (Y & Mo & D & H & Mi & S & Ms). unfold to_encoded.
  rewrite (shl64_small _ 52 12), (shl64_small _ 48 4), (shl64_small _ 40 8), (shl64_small _ 32 8)
    by (assumption || lia).
  rewrite (shl_int_small _ 24 7), (shl_int_small _ 16 8) by (assumption || lia).
  unfold packed.
  change 48 with (52 - 4). rewrite (lor_pair _ _ 52 4) by (assumption || lia).
  change 40 with (52 - 4 - 8). rewrite (lor_pair _ _ (52 - 4) 8) by (assumption || lia).
  change 32 with (52 - 4 - 8 - 8). rewrite (lor_pair _ _ (52 - 4 - 8) 8) by (assumption || lia).
  change 24 with (52 - 4 - 8 - 8 - 8).
  rewrite (lor_pair _ _ (52 - 4 - 8 - 8) 8); [ | | lia ].
  2:{ eapply N.lt_trans; [ exact Mi | reflexivity ]. }
  change 16 with (52 - 4 - 8 - 8 - 8 - 8) at 1.
  rewrite (lor_pair _ _ (52 - 4 - 8 - 8 - 8) 8) by (assumption || lia).
  change (52 - 4 - 8 - 8 - 8 - 8) with 16.
  apply lor_add. assumption.
Qed.

Lemma field_div : forall e s w, field e s w = (e / 2 ^ s) mod 2 ^ w.
Proof.
  intros. unfold field. rewrite N.shiftr_div_pow2.
  replace (2 ^ w - 1) with (N.ones w) by (rewrite N.ones_equiv; lia).
  apply N.land_ones.
Qed.

Ltac pows :=
  change (2 ^ 4) with 16 in *; change (2 ^ 7) with 128 in *; change (2 ^ 8) with 256 in *;
  change (2 ^ 12) with 4096 in *; change (2 ^ 16) with 65536 in *;
  change (2 ^ 24) with 16777216 in *; change (2 ^ 32) with 4294967296 in *;
  change (2 ^ 40) with 1099511627776 in *; change (2 ^ 48) with 281474976710656 in *;
  change (2 ^ 52) with 4503599627370496 in *; change (2 ^ 64) with 18446744073709551616 in *.

Lemma field_low : forall a b s w, b < 2 ^ s -> field (a * 2 ^ s + b) s w = a mod 2 ^ w.
Proof.
  intros. rewrite field_div. f_equal.
  rewrite N.div_add_l by (apply N.pow_nonzero; lia).
  rewrite N.div_small by assumption. lia.
Qed.

(** dropping low bits *)
Lemma field_drop : forall a b s k w, b < 2 ^ k -> k <= s ->
  field (a * 2 ^ k + b) s w = field a (s - k) w.
Proof.
  intros. rewrite !field_div. f_equal.
  replace (2 ^ s) with (2 ^ k * 2 ^ (s - k)).
  2:{ rewrite <- N.pow_add_r. f_equal. lia. }
  rewrite <- N.div_div by (apply N.pow_nonzero; lia).
  rewrite N.div_add_l by (apply N.pow_nonzero; lia).
  rewrite (N.div_small b) by assumption. f_equal. lia.
Qed.

Lemma field_last : forall a b w, b < 2 ^ w -> field (a * 2 ^ w + b) 0 w = b.
Proof.
  intros. rewrite field_div. change (2 ^ 0) with 1. rewrite N.div_1_r.
  rewrite N.add_comm, N.mod_add by (apply N.pow_nonzero; lia).
  apply N.mod_small. assumption.
Qed.

Lemma field_all : forall a w, a < 2 ^ w -> field a 0 w = a.
Proof.
  intros. rewrite field_div. change (2 ^ 0) with 1. rewrite N.div_1_r.
  apply N.mod_small. assumption.
Qed.

Definition packable8 (t : ftime) : Prop :=
  year t < 2 ^ 12 /\ month t < 2 ^ 4 /\ mday t < 2 ^ 8 /\ hour t < 2 ^ 8 /\
  minute t < 2 ^ 8 /\ second t < 2 ^ 8 /\ msecond t < 2 ^ 16.

Lemma packable_8 : forall t, packable t -> packable8 t.
Proof. unfold packable, packable8. intros t H. pows. lia. Qed.

Lemma from_packed : forall t, packable8 t -> from_encoded (packed t) = t.
Proof.
  intros t (Y & Mo & D & H & Mi & S & Ms). unfold from_encoded, packed.
  destruct t as [y mo d h mi s ms]; cbn [year month mday hour minute second msecond] in *.
  f_equal.
  - do 6 (rewrite field_drop by (assumption || lia)).
    change (52 - 16 - 8 - 8 - 8 - 8 - 4) with 0. now apply field_all.
  - do 5 (rewrite field_drop by (assumption || lia)).
    change (48 - 16 - 8 - 8 - 8 - 8) with 0. now apply field_last.
  - do 4 (rewrite field_drop by (assumption || lia)).
    change (40 - 16 - 8 - 8 - 8) with 0. now apply field_last.
  - do 3 (rewrite field_drop by (assumption || lia)).
    change (32 - 16 - 8 - 8) with 0. now apply field_last.
  - do 2 (rewrite field_drop by (assumption || lia)).
    change (24 - 16 - 8) with 0. now apply field_last.
  - do 1 (rewrite field_drop by (assumption || lia)).
    change (16 - 16) with 0. now apply field_last.
  - now apply field_last.
Qed.

Lemma from_packable8 : forall e, e < M64 -> packable8 (from_encoded e).
Proof.
  intros e _. unfold packable8, from_encoded. cbn [year month mday hour minute second msecond].
  rewrite !field_div. repeat split; apply N.mod_lt; discriminate.
Qed.

Lemma packed_from : forall e, e < M64 -> packed (from_encoded e) = e.
Proof.
  intros e H. unfold packed, from_encoded. cbn [year month mday hour minute second msecond].
  rewrite !field_div. change M64 with (2 ^ 64) in H. change (2 ^ 0) with 1. rewrite N.div_1_r.
  assert (S : forall k w, (e / 2 ^ (k + w)) * 2 ^ w + (e / 2 ^ k) mod 2 ^ w = e / 2 ^ k).
  { intros k w. rewrite N.pow_add_r, <- N.div_div by (apply N.pow_nonzero; lia).
    rewrite (N.mul_comm _ (2 ^ w)). symmetry. apply N.div_mod. apply N.pow_nonzero. lia. }
  rewrite (N.mod_small (e / 2 ^ 52)).
  2:{ apply N.div_lt_upper_bound; [ discriminate | ]. exact H. }
  rewrite (S 48 4 : (e / 2 ^ 52) * 2 ^ 4 + _ = _).
  rewrite (S 40 8 : (e / 2 ^ 48) * 2 ^ 8 + _ = _).
  rewrite (S 32 8 : (e / 2 ^ 40) * 2 ^ 8 + _ = _).
  rewrite (S 24 8 : (e / 2 ^ 32) * 2 ^ 8 + _ = _).
  rewrite (S 16 8 : (e / 2 ^ 24) * 2 ^ 8 + _ = _).
  pose proof (S 0 16) as L. change (0 + 16) with 16 in L. change (2 ^ 0) with 1 in L.
  rewrite N.div_1_r in L. exact L.
Qed.

Lemma packed_lt : forall t, packable8 t -> packed t < M64.
Proof.
  intros t H. unfold packed. change M64 with (2 ^ 64). unfold packable8 in H. pows. nia.
Qed.
