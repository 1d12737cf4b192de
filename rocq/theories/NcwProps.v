(** C83: the metadata NetCDF_CDMWriter puts into a file and NetCDF_CDMReader finds there; C85: the chunks
    (src/io/netcdf/NetCDF_CDMWriter.cc, NetCDF_CDMReader.cc). *)
From Coq Require Import NArith ZArith QArith Qcanon Ascii String List Bool Arith Lia ZifyBool ZifyNat ZifyN.
From Verif Require Import Base StdMap RegridModel ConvertModel CdmModel CdmProofs NcModel NcProps NcwModel.
Import ListNotations.
Local Open Scope string_scope.
Local Open Scope list_scope.
Local Open Scope nat_scope.

(** ** lists *)

Lemma index_of_some {A} (name : A -> string) n : forall l k i, index_of name n k l = Some i ->
  k <= i /\ exists x, nth_error l (i - k) = Some x /\ name x = n.
Proof.
  induction l as [|v l IH]; intros k i H; [discriminate|]. cbn [index_of] in H. destruct (String.eqb_spec n (name v)).
  - injection H as ->. split; [lia|]. rewrite Nat.sub_diag. exists v. auto.
  - apply IH in H as (H1 & v' & H2 & H3). split; [lia|]. exists v'. replace (i - k) with (S (i - S k)) by lia. auto.
Qed.
Lemma index_of_nth {A} (name : A -> string) : forall l k i x, NoDup (map name l) -> nth_error l i = Some x -> index_of name (name x) k l = Some (k + i).
Proof.
  induction l as [|v l IH]; intros k [|i] x ND E; try discriminate.
  - injection E as ->. cbn [index_of]. rewrite String.eqb_refl. f_equal. lia.
  - cbn [nth_error] in E. cbn [map] in ND. inversion ND as [|? ? N1 N2]; subst. cbn [index_of].
    destruct (String.eqb_spec (name x) (name v)) as [Q|Q].
    + exfalso. apply N1. rewrite <- Q. apply in_map. now apply nth_error_In in E.
    + rewrite (IH (S k) i x N2 E). f_equal. lia.
Qed.
Lemma index_of_none {A} (name : A -> string) n : forall l k, index_of name n k l = None <-> ~ In n (map name l).
Proof.
  induction l as [|v l IH]; intro k; cbn [index_of map]; [now split|]. destruct (String.eqb_spec n (name v)) as [->|Q].
  - split; [discriminate|]. intro H. destruct H. now left.
  - rewrite IH. cbn [In]. intuition congruence.
Qed.
Lemma omapM_ok {A B} (f : A -> outcome B) : forall l r, omapM f l = Ok r <-> Forall2 (fun a b => f a = Ok b) l r.
Proof.
  induction l as [|a l IH]; intro r; cbn [omapM].
  - split; [intro H; injection H as <-; constructor|intro H; inversion H; reflexivity].
  - split.
    + intro H. destruct (f a) as [b| | |] eqn:E; try discriminate. cbn [obind] in H. destruct (omapM f l) as [x| | |] eqn:M; try discriminate.
      injection H as <-. constructor; [assumption|]. now apply IH.
    + intro H. inversion H as [|? b ? r' E F]; subst. rewrite E. cbn [obind]. apply IH in F. now rewrite F.
Qed.
Lemma existsb_name {A} (name : A -> string) n l : existsb (fun e => String.eqb n (name e)) l = true <-> In n (map name l).
Proof.
  rewrite existsb_exists, in_map_iff. split; intros (x & H1 & H2); exists x; split; auto; [apply String.eqb_eq in H2; congruence|apply String.eqb_eq; congruence].
Qed.
Lemma existsb_name_false {A} (name : A -> string) n l : existsb (fun e => String.eqb n (name e)) l = false <-> ~ In n (map name l).
Proof. rewrite <- existsb_name. destruct (existsb _ l); split; congruence. Qed.
Lemma Forall2_nth {A B} (R : A -> B -> Prop) l r : Forall2 R l r -> forall i a, nth_error l i = Some a -> exists b, nth_error r i = Some b /\ R a b.
Proof. induction 1 as [|a b l r H F IH]; intros [|i] x E; try discriminate; [injection E as <-; exists b; auto|]. now apply IH. Qed.
Lemma Forall2_nth_r {A B} (R : A -> B -> Prop) l r : Forall2 R l r -> forall i b, nth_error r i = Some b -> exists a, nth_error l i = Some a /\ R a b.
Proof. induction 1 as [|a b l r H F IH]; intros [|i] x E; try discriminate; [injection E as <-; exists a; auto|]. now apply IH. Qed.

(** ** dimensions *)

Definition at_most_one (l : list ncdim) : Prop := length (filter nd_unlim l) <= 1.

Lemma define_dims_gen f w : forall ds l0 l, NoDup (map nd_name l0) -> (f <> Nc4 -> at_most_one l0) ->
  (ofold (fun l d => do e <- nc_dim w d; def_dim f l e) ds l0 = Ok l <->
   exists r, l = l0 ++ r /\ Forall2 (fun d e => nc_dim w d = Ok e) ds r /\ NoDup (map nd_name l) /\ (f <> Nc4 -> at_most_one l)).
Proof.
  induction ds as [|d ds IH]; intros l0 l N0 U0; cbn [ofold].
  - split.
    + intro H. injection H as <-. exists []. rewrite app_nil_r. repeat split; auto.
    + intros (r & -> & F & _). inversion F. now rewrite app_nil_r.
  - destruct (nc_dim w d) as [e| | |] eqn:E; cbn [obind];
      [|split; [discriminate|intros (r & _ & F & _); inversion F as [|? ? ? ? X]; subst; congruence]..].
    unfold def_dim. destruct (existsb (fun x => String.eqb (nd_name e) (nd_name x)) l0) eqn:X.
    { split; [discriminate|]. intros (r & -> & F & N & _). inversion F as [|? e' ? r' Y]; subst. assert (e' = e) by congruence. subst e'.
      exfalso. apply existsb_name in X. rewrite map_app in N. cbn [map] in N. apply NoDup_remove_2 in N. apply N. apply in_or_app. now left. }
    assert (N1 : NoDup (map nd_name (l0 ++ [e]))).
    { apply nodup_app; [exact N0|]. now apply existsb_name_false in X. }
    destruct (nd_unlim e && negb (fmt_eqb f Nc4) && existsb nd_unlim l0) eqn:Y.
    { split; [discriminate|]. intros (r & -> & F & N & U). inversion F as [|? e' ? r' Z]; subst. assert (e' = e) by congruence. subst e'.
      exfalso. destruct (nd_unlim e) eqn:Ue; [|discriminate]. cbn [andb] in Y. apply andb_prop in Y as (Y1 & Y2).
      assert (NF : f <> Nc4) by (intros ->; discriminate). specialize (U NF). unfold at_most_one in U. rewrite filter_app, app_length in U. cbn [filter] in U.
      rewrite Ue in U. cbn [length] in U. apply existsb_exists in Y2 as (x & Y2 & Y3). assert (Q : In x (filter nd_unlim l0)) by now apply filter_In.
      destruct (filter nd_unlim l0); [destruct Q|]. cbn [length] in U. lia. }
    cbn [obind]. assert (U1 : f <> Nc4 -> at_most_one (l0 ++ [e])).
    { intro NF. specialize (U0 NF). unfold at_most_one in *. rewrite filter_app, app_length. cbn [filter]. destruct (nd_unlim e); cbn [length]; [|lia].
      assert (FE : fmt_eqb f Nc4 = false) by (destruct f; try reflexivity; congruence). rewrite FE in Y. cbn [andb negb] in Y.
      assert (Q : filter nd_unlim l0 = []).
      { destruct (filter nd_unlim l0) as [|x y] eqn:W; [reflexivity|]. assert (I : In x (filter nd_unlim l0)) by (rewrite W; now left).
        apply filter_In in I. assert (existsb nd_unlim l0 = true) by (apply existsb_exists; exists x; tauto). congruence. }
      rewrite Q. cbn. lia. }
    rewrite (IH _ _ N1 U1). split.
    + intros (r & -> & F & N & U). exists (e :: r). rewrite <- app_assoc. cbn [app]. repeat split; auto.
      * rewrite <- app_assoc in N. exact N.
      * rewrite <- app_assoc in U. exact U.
    + intros (r & -> & F & N & U). inversion F as [|? e' ? r' Z]; subst. assert (e' = e) by congruence. subst e'.
      exists r'. rewrite <- app_assoc. cbn [app]. repeat split; auto.
Qed.
Lemma define_dims_spec f w l : define_dims f w = Ok l <->
  Forall2 (fun d e => nc_dim w d = Ok e) (dims (w_cdm w)) l /\ NoDup (map nd_name l) /\ (f <> Nc4 -> at_most_one l).
Proof.
  unfold define_dims. rewrite define_dims_gen; [|constructor|intros; cbv; lia]. cbn [app]. split.
  - intros (r & -> & H). exact H.
  - intro H. exists l. split; [reflexivity|exact H].
Qed.
Lemma nc_dim_ok w d e : nc_dim w d = Ok e -> nd_name e = out_name (w_dnames w) (d_name d) /\ nd_unlim e = d_unlim d /\
  (d_unlim d = false -> (1 <= nd_len e < 2 ^ 31)%N /\ nd_len e = N.max 1 (d_len d mod 2 ^ 32)).
Proof.
  unfold nc_dim. destruct (d_unlim d).
  - intro H. injection H as <-. repeat split; discriminate.
  - set (x := (d_len d mod 2 ^ 32)%N). change (2 ^ 31)%N with 2147483648%N.
    destruct (2147483648 <=? x)%N eqn:B; [discriminate|]. intro H. injection H as <-. repeat split; cbn [nd_len]; destruct (N.eqb_spec x 0); lia.
Qed.

(** ** chunks *)

(** One step never leaves the range of the conversion to unsigned int; if the running product is not zero, the
    chunk length is between 1 and the length of the dimension. *)
Lemma chunk_dim_spec conf size total : (size < 2 ^ 32)%N -> exists t k, chunk_dim conf size total = Ok (t, k) /\
  (t <> 0%N -> total <> 0%N /\ (1 <= k <= N.max 1 size)%N).
Proof.
  intro S. change (2 ^ 32)%N with 4294967296%N in S. unfold chunk_dim. destruct conf as [c|].
  - eexists. eexists. split; [reflexivity|]. intro T. assert (K : total <> 0%N /\ clampN 1 size c <> 0%N).
    { split; intro Z; apply T; rewrite Z; unfold mul64, w64; rewrite ?N.mul_0_r, ?N.mul_0_l; reflexivity. }
    destruct K as (K1 & K2). split; [exact K1|]. unfold clampN in *. destruct (size <? 1)%N eqn:A; [lia|]. destruct (size <? c)%N eqn:B; lia.
  - set (t := mul64 total size). assert (T : t <> 0%N -> total <> 0%N /\ size <> 0%N).
    { intro H. split; intro Z; apply H; unfold t; rewrite Z; unfold mul64, w64; rewrite ?N.mul_0_r, ?N.mul_0_l; reflexivity. }
    destruct (t <? DEFAULT_CHUNK)%N.
    { eexists. eexists. split; [reflexivity|]. intro H. destruct (T H) as (H1 & H2). split; [exact H1|lia]. }
    destruct ((1 <? size)%N && (total <? MIN_CHUNK)%N) eqn:B.
    + apply andb_prop in B as (B1 & B2). unfold MIN_CHUNK in *. change (2 ^ 17)%N with 131072%N in *.
      assert (E : t = (total * size)%N). { unfold t. apply mul64_small. unfold M64. change (2 ^ 64)%N with 18446744073709551616%N. nia. }
      assert (Q : (t / 131072 < 4294967296)%N). { apply N.div_lt_upper_bound; [lia|]. rewrite E. nia. }
      change (2 ^ 32)%N with 4294967296%N.
      destruct (4294967296 <=? t / 131072)%N eqn:C; [lia|]. eexists. eexists. split; [reflexivity|]. intro H. destruct (T H) as (H1 & H2). split; [exact H1|].
      unfold clampN. set (z := (t / 131072)%N) in *. destruct (z <? 1)%N eqn:A1; [lia|]. destruct (z <? size)%N eqn:A2; lia.
    + eexists. eexists. split; [reflexivity|]. intro H. destruct (T H) as (H1 & H2). split; [exact H1|lia].
Qed.

Definition csize (d : cdim) : N := if d_unlim d then 1%N else (d_len d mod 2 ^ 32)%N.
Lemma csize_lt d : (csize d < 2 ^ 32)%N.
Proof. unfold csize. destruct (d_unlim d); [reflexivity|]. apply N.mod_lt. discriminate. Qed.

Lemma chunk_loop_spec conf c : forall shape total, (forall n, In n shape -> has_dim c n = true) -> exists t ch,
  chunk_loop conf c shape total = Ok (t, ch) /\ length ch = length shape /\
  (t <> 0%N -> total <> 0%N /\ Forall2 (fun n k => exists d, find_dim n (dims c) = Some d /\ (1 <= k <= N.max 1 (csize d))%N) shape ch).
Proof.
  induction shape as [|n shape IH]; intros total H; cbn [chunk_loop].
  - exists total, []. repeat split; auto.
  - pose proof (H n (or_introl eq_refl)) as D. unfold has_dim in D. destruct (find_dim n (dims c)) as [d|] eqn:E; [|discriminate].
    fold (csize d). destruct (chunk_dim_spec (conf n) (csize d) total (csize_lt d)) as (t & k & -> & K). cbn [obind fst snd].
    destruct (IH t (fun m M => H m (or_intror M))) as (t' & ch & -> & L & F). cbn [obind fst snd].
    exists t', (k :: ch). split; [reflexivity|]. split; [cbn; lia|]. intro T. destruct (F T) as (F1 & F2). destruct (K F1) as (K1 & K2).
    split; [exact K1|]. constructor; [exists d; auto|exact F2].
Qed.

Lemma forallb2 {A B} (P : A * B -> bool) l r : Forall2 (fun a b => P (a, b) = true) l r -> forallb P (combine l r) = true.
Proof. induction 1; [reflexivity|]. cbn [combine forallb]. now rewrite H. Qed.
Lemma Forall2_rev {A B} (R : A -> B -> Prop) l r : Forall2 R l r -> Forall2 R (rev l) (rev r).
Proof. induction 1; [constructor|]. cbn [rev]. apply Forall2_app; [assumption|]. now constructor. Qed.
Lemma Forall2_len {A B} (R : A -> B -> Prop) l r : Forall2 R l r -> length l = length r.
Proof. induction 1; cbn; congruence. Qed.
Lemma Forall2_compose {A B C} (R : A -> B -> Prop) (S : A -> C -> Prop) (T : B -> C -> Prop) l r s :
  (forall a b c, R a b -> S a c -> T b c) -> Forall2 R l r -> Forall2 S l s -> Forall2 T r s.
Proof.
  intros H F. revert s. induction F as [|a b l r H1 F IH]; intros s G; inversion G; subst; constructor; eauto.
Qed.

Section Chunks.
  Variables (f : ncfmt) (w : writer) (l : list ncdim) (v : cvar) (ids : list nat).
  Hypothesis D : define_dims f w = Ok l.
  Hypothesis ND : NoDup (dnames (w_cdm w)).
  Hypothesis K : forall n, In n (v_shape v) -> has_dim (w_cdm w) n = true.
  Hypothesis I : omapM (fun n => rd (dim_id (w_cdm w) n)) (rev (v_shape v)) = Ok ids.

  Lemma id_dim n i d : rd (dim_id (w_cdm w) n) = Ok i -> find_dim n (dims (w_cdm w)) = Some d ->
    exists e, nth_error l i = Some e /\ nc_dim w d = Ok e.
  Proof.
    intros R F. unfold dim_id, rd in R. destruct (index_of d_name n 0 (dims (w_cdm w))) as [j|] eqn:E; [|discriminate]. injection R as ->.
    apply index_of_some in E as (_ & d' & E & N). rewrite Nat.sub_0_r in E.
    assert (d' = d). { pose proof (fnd_unique d_name (dims (w_cdm w)) d' ND (nth_error_In _ _ E)) as Q. unfold find_dim in F. rewrite N in Q. congruence. } subst d'.
    apply define_dims_spec in D as (F2 & _). exact (Forall2_nth _ _ _ F2 _ _ E).
  Qed.

  (** The chunk lengths are accepted by the library whatever the lengths of the dimensions and the configured
      chunk sizes: none is 0 or larger than its dimension. *)
  Theorem C85_accepted t ch :
    chunk_loop (fun n => sfind n (w_chunks w)) (w_cdm w) (v_shape v) 1 = Ok (t, ch) -> t <> 0%N ->
    chunk_ok l ids (rev ch) = true.
  Proof.
    intros E T. destruct (chunk_loop_spec (fun n => sfind n (w_chunks w)) (w_cdm w) (v_shape v) 1 K) as (t' & ch' & E' & L & F).
    rewrite E in E'. injection E' as <- <-. destruct (F T) as (_ & F2). apply omapM_ok in I. unfold chunk_ok. apply andb_true_intro. split.
    - apply Nat.eqb_eq. rewrite <- (Forall2_len _ _ _ I), !rev_length. lia.
    - apply forallb2. refine (Forall2_compose _ _ _ _ _ _ _ I (Forall2_rev _ _ _ F2)).
      intros n i k R (d & Fd & B). cbn [snd fst]. destruct (id_dim n i d R Fd) as (e & Ne & Ed). rewrite Ne. apply nc_dim_ok in Ed as (_ & U & Len).
      unfold csize in B. destruct (d_unlim d) eqn:Ud.
      + rewrite U. lia.
      + destruct (Len eq_refl) as (L1 & L2). rewrite U. lia.
  Qed.

  (** Whether a variable is compressed: not in the classic formats, not with level 0, not a scalar; otherwise
      always, with levels 1 to 9 and, for 11 to 19, with shuffling. *)
  Theorem C85_compress :
    let lv := match sfind (v_name v) (w_levels w) with Some x => x | None => 0%N end in
    (f = Classic \/ lv = 0%N \/ v_shape v = [] -> compress f w l v ids = Ok (None, None)) /\
    (f <> Classic -> v_shape v <> [] ->
       ((1 <= lv <= 9)%N -> exists ch, compress f w l v ids = Ok (ch, Some (lv, false))) /\
       ((11 <= lv <= 19)%N -> exists ch, compress f w l v ids = Ok (ch, Some ((lv - 10)%N, true))) /\
       ((lv = 10 \/ 20 <= lv)%N -> compress f w l v ids = Throw)).
  Proof.
    cbn zeta. set (lv := match sfind (v_name v) (w_levels w) with Some x => x | None => 0%N end).
    assert (LV : level_of (sfind (v_name v) (w_levels w)) = if (10 <? lv)%N then ((lv - 10)%N, true) else (lv, false)).
    { unfold level_of, lv. destruct (sfind (v_name v) (w_levels w)); reflexivity. }
    unfold compress. rewrite LV. split.
    - intros [ -> | [ -> | E ] ].
      + reflexivity.
      + cbn [fst N.ltb N.compare N.eqb]. now rewrite orb_true_r.
      + rewrite E. destruct (fmt_eqb f Classic || _); reflexivity.
    - intros NF NS. assert (FE : fmt_eqb f Classic = false) by (destruct f; try reflexivity; congruence). rewrite FE. cbn [orb].
      destruct (chunk_loop_spec (fun n => sfind n (w_chunks w)) (w_cdm w) (v_shape v) 1 K) as (t & ch & E & _). pose proof (C85_accepted t ch E) as A.
      assert (C : exists x, (if N.eqb t 0 then Ok None else if chunk_ok l ids (rev ch) then Ok (Some (rev ch)) else Throw) = Ok x).
      { destruct (N.eqb_spec t 0); [eauto|]. rewrite A by assumption. eauto. }
      destruct C as (x & C). destruct (v_shape v) as [|n0 sh] eqn:SH; [congruence|]. rewrite <- SH in *.
      repeat split.
      + intro R. replace (10 <? lv)%N with false by lia. cbn [fst]. replace (lv =? 0)%N with false by lia. rewrite E. cbn [obind fst snd]. rewrite C. cbn [obind].
        replace (9 <? lv)%N with false by lia. eauto.
      + intro R. replace (10 <? lv)%N with true by lia. cbn [fst]. replace (lv - 10 =? 0)%N with false by lia. rewrite E. cbn [obind fst snd]. rewrite C. cbn [obind].
        replace (9 <? lv - 10)%N with false by lia. eauto.
      + intro R. destruct (10 <? lv)%N eqn:B; cbn [fst].
        * replace (lv - 10 =? 0)%N with false by lia. rewrite E. cbn [obind fst snd]. rewrite C. cbn [obind].
          replace (9 <? lv - 10)%N with true by lia. reflexivity.
        * replace (lv =? 0)%N with false by lia. rewrite E. cbn [obind fst snd]. rewrite C. cbn [obind].
          replace (9 <? lv)%N with true by lia. reflexivity.
  Qed.
End Chunks.

(** A small variable (less than 2^21 values per record) without configured chunk sizes is one chunk per record. *)
Theorem C85_small c : forall shape total, (forall n, In n shape -> has_dim c n = true) ->
  (total * nprod (map (fun n => match find_dim n (dims c) with Some d => csize d | None => 1%N end) shape) < 2 ^ 21)%N ->
  (forall n d, In n shape -> find_dim n (dims c) = Some d -> (1 <= csize d)%N) ->
  chunk_loop (fun _ => None) c shape total = Ok ((total * nprod (map (fun n => match find_dim n (dims c) with Some d => csize d | None => 1%N end) shape))%N,
    map (fun n => match find_dim n (dims c) with Some d => csize d | None => 1%N end) shape).
Proof.
  induction shape as [|n shape IH]; intros total H L P; cbn [chunk_loop map].
  - unfold nprod. cbn [fold_right]. now rewrite N.mul_1_r.
  - pose proof (H n (or_introl eq_refl)) as D. unfold has_dim in D. destruct (find_dim n (dims c)) as [d|] eqn:E; [|discriminate].
    cbn [map] in L. rewrite E in L. unfold nprod in L. cbn [fold_right] in L. fold (nprod (map (fun n => match find_dim n (dims c) with Some d => csize d | None => 1%N end) shape)) in L.
    set (r := nprod (map (fun n => match find_dim n (dims c) with Some d => csize d | None => 1%N end) shape)) in *.
    assert (R : (1 <= r)%N).
    { unfold r. clear -P. assert (Q : forall n d, In n shape -> find_dim n (dims c) = Some d -> (1 <= csize d)%N) by (intros; eapply P; [right|]; eassumption). clear P.
      induction shape as [|m shape IH]; [cbv; discriminate|]. unfold nprod. cbn [map fold_right].
      fold (nprod (map (fun n => match find_dim n (dims c) with Some d => csize d | None => 1%N end) shape)).
      specialize (IH (fun x y X Y => Q x y (or_intror X) Y)). destruct (find_dim m (dims c)) as [d|] eqn:E; [specialize (Q m d (or_introl eq_refl) E)|]; nia. }
    change (2 ^ 21)%N with 2097152%N in L. fold (csize d). unfold chunk_dim. rewrite mul64_small.
    2:{ unfold M64. change (2 ^ 64)%N with 18446744073709551616%N. nia. }
    unfold DEFAULT_CHUNK. change (2 ^ 21)%N with 2097152%N. assert (B : (total * csize d <? 2097152)%N = true) by nia. rewrite B. cbn [obind fst snd].
    rewrite IH.
    + cbn [obind fst snd]. fold r. unfold nprod at 1. cbn [fold_right]. fold (nprod (map (fun n => match find_dim n (dims c) with Some d => csize d | None => 1%N end) shape)). fold r.
      f_equal. f_equal. lia.
    + intros; apply H; now right.
    + fold r. change (2 ^ 21)%N with 2097152%N. lia.
    + intros; eapply P; [right|]; eassumption.
Qed.

(** A configured chunk size is used for its dimension, at most the length of the dimension. *)
Theorem C85_configured k size total : (1 <= size)%N -> chunk_dim (Some k) size total = Ok (mul64 total (N.min size k), N.min size k).
Proof. intro S. unfold chunk_dim, clampN. destruct (size <? 1)%N eqn:A; [lia|]. destruct (size <? k)%N eqn:B; do 2 f_equal; try (f_equal; lia); lia. Qed.

Definition two_dims (a b : N) : cdm := mkCdm [] [mkDim "x" a false; mkDim "y" b false] [].
(** Finding: the number meant to bring a large chunk to about 2^17 values is the number of such chunks, not the
    length: a vector of 2^22 values gets chunks of 32 values, and 100000 x 1000 values get chunks of 76 million. *)
Theorem C85_chunk_length_refuted :
  chunk_loop (fun _ => None) (two_dims (2 ^ 22) 1) ["x"] 1 = Ok ((2 ^ 22)%N, [32]%N) /\
  chunk_loop (fun _ => None) (two_dims 100000 1000) ["x"; "y"] 1 = Ok (100000000%N, [100000; 762]%N) /\
  (100000 * 762 = 76200000)%N.
Proof. repeat split. Qed.
(** Finding: the product of the lengths may wrap to 0, then no chunks are set although the variable is
    compressed. *)
Theorem C85_product_wraps_refuted :
  chunk_loop (fun _ => None) (mkCdm [] [mkDim "x" (2 ^ 22) false; mkDim "y" (2 ^ 22) false; mkDim "z" (2 ^ 20) false] []) ["x"; "y"; "z"] 1 =
  Ok (0%N, [32; 1; 1048576]%N).
Proof. reflexivity. Qed.
Definition ex_w : writer :=
  mkW (mkCdm [mkVar "t" DShort ["x"; "time"] "" None] [mkDim "time" 3 true; mkDim "x" 500 false] []) [] [] [] [("t", 13%N)] [("x", 100%N)].
Example C85_nonvacuous :
  exists l, define_dims Nc4 ex_w = Ok l /\
    compress Nc4 ex_w l (mkVar "t" DShort ["x"; "time"] "" None) [0; 1] = Ok (Some [1; 100]%N, Some (3%N, true)) /\
    chunk_loop (fun _ => None) (w_cdm ex_w) ["x"; "time"] 1 = Ok (500%N, [500; 1]%N).
Proof. eexists. split; [reflexivity|]. split; reflexivity. Qed.

(** ** variables and attributes *)

Definition vname (w : writer) (n : string) : string := out_name (w_vnames w) n.
Definition dname (w : writer) (n : string) : string := out_name (w_dnames w) n.

Definition defined_var (f : ncfmt) (w : writer) (l : list ncdim) (v : cvar) (e : ncvar) : Prop :=
  nv_name e = vname w (v_name v) /\ nv_type e = cdm2nc (var_type w v) /\
  omapM (fun n => rd (dim_id (w_cdm w) n)) (rev (v_shape v)) = Ok (nv_dims e) /\
  type_ok f (nv_type e) = true /\ shape_ok f l (nv_dims e) = true /\ compress f w l v (nv_dims e) = Ok (nv_chunk e, nv_deflate e) /\ nv_atts e = [].

Lemma define_vars_gen f w l : forall vs0 es0 es, NoDup (map nv_name es0) ->
  (ofold (nc_var f w l) vs0 es0 = Ok es <->
   exists r, es = es0 ++ r /\ Forall2 (defined_var f w l) vs0 r /\ NoDup (map nv_name es)).
Proof.
  induction vs0 as [|v vs0 IH]; intros es0 es N0; cbn [ofold].
  - split.
    + intro H. injection H as <-. exists []. rewrite app_nil_r. auto.
    + intros (r & -> & F & _). inversion F. now rewrite app_nil_r.
  - unfold nc_var at 1. destruct (omapM (fun n => rd (dim_id (w_cdm w) n)) (rev (v_shape v))) as [ids| | |] eqn:I; cbn [obind];
      [|split; [discriminate|intros (r & _ & F & _); inversion F as [|? ? ? ? X]; subst; destruct X as (_ & _ & X & _); congruence]..].
    fold (vname w (v_name v)).
    destruct (existsb (fun e => String.eqb (vname w (v_name v)) (nv_name e)) es0) eqn:X; cbn [orb].
    { cbn [obind]. split; [discriminate|]. intros (r & -> & F & N). inversion F as [|? e ? r' Y]; subst. destruct Y as (Y & _).
      exfalso. apply existsb_name in X. rewrite <- Y in X. rewrite map_app in N. cbn [map] in N. apply NoDup_remove_2 in N. apply N. apply in_or_app. now left. }
    destruct (type_ok f (cdm2nc (var_type w v))) eqn:T; cbn [negb orb].
    2:{ cbn [obind]. split; [discriminate|]. intros (r & _ & F & _). inversion F as [|? e ? r' Y]; subst. destruct Y as (_ & Y1 & _ & Y2 & _). congruence. }
    destruct (shape_ok f l ids) eqn:Sh; cbn [negb].
    2:{ cbn [obind]. split; [discriminate|]. intros (r & _ & F & _). inversion F as [|? e ? r' Y]; subst. destruct Y as (_ & _ & Y1 & _ & Y2 & _). congruence. }
    destruct (compress f w l v ids) as [x| | |] eqn:C; cbn [obind];
      [|split; [discriminate|intros (r & _ & F & _); inversion F as [|? ? ? ? Y]; subst; destruct Y as (_ & _ & Y1 & _ & _ & Y2 & _); congruence]..].
    set (e := mkNv (vname w (v_name v)) (cdm2nc (var_type w v)) ids (fst x) (snd x) []).
    assert (DE : defined_var f w l v e). { unfold defined_var, e. cbn. repeat split; auto. now destruct x. }
    assert (N1 : NoDup (map nv_name (es0 ++ [e]))). { apply nodup_app; [exact N0|]. now apply existsb_name_false in X. }
    rewrite (IH _ _ N1). split.
    + intros (r & -> & F & N). exists (e :: r). rewrite <- app_assoc in *. cbn [app] in *. repeat split; auto.
    + intros (r & -> & F & N). inversion F as [|? e' ? r' Z]; subst.
      assert (e' = e). { destruct Z as (Z1 & Z2 & Z3 & _ & _ & Z4 & Z5). destruct e' as [a b c d g h]. cbn in *. unfold e.
        assert (c = ids) by congruence. subst c. rewrite C in Z4. injection Z4 as ->. cbn. congruence. }
      subst e'. exists r'. rewrite <- app_assoc. cbn [app]. repeat split; auto.
Qed.

(** an attribute as it comes back: one string in a format without strings becomes text *)
Definition faithful_att (f : ncfmt) (a : cattr) : Prop := strip_nul (a_text a) = a_text a /\ (a_type a = DStrings -> f = Nc4).
Lemma nc_att_read f a x : nc_att f a = Ok x -> faithful_att f a -> read_att x = a.
Proof.
  intros E (N & S). unfold nc_att in E. destruct a as [n t nums text]. cbn [a_type a_name a_nums a_text] in *.
  destruct t; try discriminate; try (injection E as <-; unfold read_att; cbn; rewrite ?N; reflexivity).
  rewrite (S eq_refl) in E. injection E as <-. reflexivity.
Qed.
Lemma nc_atts_read f v l r : nc_atts f v l = Ok r -> Forall (faithful_att f) l -> map read_att r = l.
Proof.
  unfold nc_atts. intros E F. apply omapM_ok in E. induction E as [|a x l r H E IH]; [reflexivity|]. inversion F; subst. cbn [map]. rewrite IH by assumption. f_equal.
  destruct (nc_att f a) as [y| | |] eqn:Y; try discriminate. cbn [obind] in H. destruct (att_ok f v y); [|discriminate]. injection H as <-.
  now apply (nc_att_read f).
Qed.
Lemma nc_atts_names f v l r : nc_atts f v l = Ok r -> map na_name r = map a_name l.
Proof.
  unfold nc_atts. intros E. apply omapM_ok in E. induction E as [|a x l r H E IH]; [reflexivity|]. cbn [map]. rewrite IH. f_equal.
  destruct (nc_att f a) as [y| | |] eqn:Y; try discriminate. cbn [obind] in H. destruct (att_ok f v y); [|discriminate]. injection H as <-.
  unfold nc_att in Y. destruct (a_type a); try discriminate; try (now injection Y as <-).
  destruct (fmt_eqb f Nc4); [now injection Y as <-|]. destruct (_ =? 1); [now injection Y as <-|discriminate].
Qed.

Definition final_var (f : ncfmt) (w : writer) (l : list ncdim) (v : cvar) (e : ncvar) : Prop :=
  nv_name e = vname w (v_name v) /\ nv_type e = cdm2nc (var_type w v) /\
  omapM (fun n => rd (dim_id (w_cdm w) n)) (rev (v_shape v)) = Ok (nv_dims e) /\
  type_ok f (nv_type e) = true /\ shape_ok f l (nv_dims e) = true /\ compress f w l v (nv_dims e) = Ok (nv_chunk e, nv_deflate e) /\
  nc_atts f (Some (nv_type e)) (attrs_of (w_cdm w) (v_name v)) = Ok (nv_atts e).

Lemma set_atts_spec f w l : forall vs es es', Forall2 (defined_var f w l) vs es ->
  (omapM (fun p => do a <- nc_atts f (Some (nv_type (snd p))) (attrs_of (w_cdm w) (v_name (fst p)));
                  let v := snd p in Ok (mkNv (nv_name v) (nv_type v) (nv_dims v) (nv_chunk v) (nv_deflate v) a)) (combine vs es) = Ok es' ->
   Forall2 (final_var f w l) vs es' /\ map nv_name es' = map nv_name es).
Proof.
  induction vs as [|v vs IH]; intros es es' F; inversion F as [|? e ? es2 H F2]; subst; cbn [combine omapM].
  - intro E. injection E as <-. split; [constructor|reflexivity].
  - cbn [fst snd]. destruct (nc_atts f (Some (nv_type e)) (attrs_of (w_cdm w) (v_name v))) as [a| | |] eqn:A; try discriminate. cbn [obind].
    destruct (omapM _ (combine vs es2)) as [r| | |] eqn:M; try discriminate. cbn [obind]. intro E. injection E as <-.
    destruct (IH es2 r F2 M) as (I1 & I2). split; [|cbn [map nv_name]; now f_equal]. constructor; [|exact I1].
    destruct H as (H1 & H2 & H3 & H4 & H5 & H6 & _). unfold final_var. cbn [nv_name nv_type nv_dims nv_chunk nv_deflate nv_atts]. repeat split; assumption.
Qed.

Lemma define_spec f w m : define f w = Ok m -> nm_fmt m = f /\
  Forall2 (fun d e => nc_dim w d = Ok e) (dims (w_cdm w)) (nm_dims m) /\ NoDup (map nd_name (nm_dims m)) /\ (f <> Nc4 -> at_most_one (nm_dims m)) /\
  Forall2 (final_var f w (nm_dims m)) (vars (w_cdm w)) (nm_vars m) /\ NoDup (map nv_name (nm_vars m)) /\
  nc_atts f None (attrs_of (w_cdm w) global_ns) = Ok (nm_atts m).
Proof.
  unfold define. destruct (define_dims f w) as [l| | |] eqn:D; try discriminate. cbn [obind].
  destruct (define_vars f w l) as [vs| | |] eqn:V; try discriminate. cbn [obind]. destruct (stray_atts (w_cdm w)); [discriminate|].
  destruct (set_atts f w vs) as [vs2| | |] eqn:A; try discriminate. cbn [obind].
  destruct (nc_atts f None (attrs_of (w_cdm w) global_ns)) as [g| | |] eqn:G; try discriminate. intro E. injection E as <-.
  cbn [nm_fmt nm_dims nm_vars nm_atts]. apply define_dims_spec in D as (D1 & D2 & D3). unfold define_vars in V. apply define_vars_gen in V; [|constructor].
  destruct V as (r & -> & V1 & V2). cbn [app] in *. apply (set_atts_spec f w l) in A as (A1 & A2); [|exact V1]. rewrite <- A2 in V2. repeat split; assumption.
Qed.

(** ** reading the file *)

Lemma read_dims_spec m s : forall l i c, NoDup (map nd_name l) -> (forall d, In d l -> has_dim c (nd_name d) = false) ->
  exists ds, read_dims m s i l c = Ok (mkCdm (vars c) (dims c ++ ds) (attrs c)) /\
    ds = map (fun p => mkDim (nd_name (snd p)) (if nd_unlim (snd p) then ns_recs s (fst p) else nd_len (snd p)) (is_rec m (fst p))) (combine (seq i (length l)) l).
Proof.
  induction l as [|d l IH]; intros i c ND H; cbn [read_dims].
  - exists []. rewrite app_nil_r. destruct c. split; reflexivity.
  - rewrite (H d (or_introl eq_refl)). inversion ND as [|? ? N1 N2]; subst.
    destruct (IH (S i) (mkCdm (vars c) (dims c ++ [mkDim (nd_name d) (if nd_unlim d then ns_recs s i else nd_len d) (is_rec m i)]) (attrs c)) N2) as (ds & E1 & E2).
    + intros e He. apply has_dim_false. unfold dnames. cbn [dims]. rewrite map_app. intro I. apply in_app_or in I as [I|I].
      * apply (has_dim_false c (nd_name e)); [|exact I]. apply H. now right.
      * cbn in I. destruct I as [I|[]]. apply N1. rewrite I. now apply in_map.
    + eexists. rewrite E1. cbn [vars dims attrs]. rewrite <- app_assoc. split; [reflexivity|]. cbn [length seq combine map fst snd app]. f_equal. exact E2.
Qed.

Lemma read_atts_spec : forall l c n, consistent c -> n = global_ns \/ In n (vnames c) -> NoDup (map a_name (attrs_of c n) ++ map na_name l) ->
  exists c', read_atts c n l = Ok c' /\ consistent c' /\ vars c' = vars c /\ dims c' = dims c /\
    forall x, attrs_of c' x = if String.eqb x n then attrs_of c n ++ map read_att l else attrs_of c x.
Proof.
  induction l as [|a l IH]; intros c n C O N; cbn [read_atts].
  - exists c. split; [reflexivity|]. split; [exact C|]. split; [reflexivity|]. split; [reflexivity|]. intro x. destruct (String.eqb_spec x n) as [->|]; [now rewrite app_nil_r|reflexivity].
  - cbn [map] in N. rewrite (add_attr_ok c n (read_att a) O).
    2:{ cbn [a_name read_att]. apply NoDup_remove_2 in N. intro I. apply N. apply in_or_app. now left. }
    set (c1 := mkCdm (vars c) (dims c) (sput n (attrs_of c n ++ [read_att a]) (attrs c))).
    assert (A1 : forall x, attrs_of c1 x = if String.eqb x n then attrs_of c n ++ [read_att a] else attrs_of c x) by (intro; apply attrs_of_put).
    destruct (IH c1 n) as (c' & E & C' & V & D & A).
    + apply consistent_put; [exact C|exact O|]. apply nodup_app; [apply (c_attrs c C)|]. cbn [read_att a_name]. apply NoDup_remove_2 in N. intro I. apply N. apply in_or_app. now left.
    + exact O.
    + rewrite A1, String.eqb_refl, map_app, <- app_assoc. exact N.
    + exists c'. split; [exact E|]. split; [exact C'|]. split; [exact V|]. split; [exact D|]. intro x. rewrite A, !A1, String.eqb_refl.
      destruct (String.eqb x n); [|reflexivity]. rewrite <- app_assoc. reflexivity.
Qed.

Lemma no_attrs' c n : consistent c -> n <> global_ns -> has_var c n = false -> attrs_of c n = [].
Proof.
  intros C G H. destruct (attrs_of_none c n) as [E|E]; [exact E|]. exfalso.
  destruct (c_owner c C n) as [X|X]; [|contradiction|].
  - apply sfind_In. eauto.
  - apply has_var_in in X. congruence.
Qed.
Lemma consistent_add_var' c v : consistent c -> has_var c (v_name v) = false -> consistent (mkCdm (vars c ++ [v]) (dims c) (attrs c)).
Proof.
  intros [A B C D E] H. constructor; try assumption.
  - apply has_var_false in H. now apply (nodup_app v_name).
  - intros n N. destruct (D n N) as [X|X]; [now left|right]. unfold vnames in *. cbn [vars]. rewrite map_app. apply in_or_app. now left.
Qed.

(** the variable as the reader gives it *)
Definition nc_shape (m : ncmeta) (v : ncvar) : list string := map (fun i => match nth_error (nm_dims m) i with Some d => nd_name d | None => "" end) (rev (nv_dims v)).
Definition read_cvar (m : ncmeta) (v : ncvar) : cvar := mkVar (nv_name v) (nc2cdm (nv_type v)) (nc_shape m v) "" None.

Lemma read_vars_spec m : forall l c, consistent c -> NoDup (vnames c ++ map nv_name l) ->
  (forall v, In v l -> nv_name v <> global_ns /\ NoDup (map na_name (nv_atts v)) /\ forall i, In i (nv_dims v) -> i < length (nm_dims m)) ->
  exists c', ofold (read_var m) l c = Ok c' /\ consistent c' /\ vars c' = vars c ++ map (read_cvar m) l /\ dims c' = dims c /\
    (forall v, In v l -> attrs_of c' (nv_name v) = map read_att (nv_atts v)) /\ (forall x, ~ In x (map nv_name l) -> attrs_of c' x = attrs_of c x).
Proof.
  induction l as [|v l IH]; intros c C ND H; cbn [ofold].
  - exists c. rewrite app_nil_r. split; [reflexivity|]. split; [exact C|]. split; [reflexivity|]. split; [reflexivity|]. split; [easy|reflexivity].
  - destruct (H v (or_introl eq_refl)) as (G & NA & I). unfold read_var at 1.
    assert (E : omapM (fun i => match nth_error (nm_dims m) i with Some d => Ok (nd_name d) | None => Throw end) (rev (nv_dims v)) = Ok (nc_shape m v)).
    { apply omapM_ok. unfold nc_shape. assert (I' : forall i, In i (rev (nv_dims v)) -> i < length (nm_dims m)) by (intros i Hi; apply I; now apply in_rev in Hi).
      induction (rev (nv_dims v)) as [|i r IHr]; [constructor|]. cbn [map]. constructor; [|apply IHr; intros; apply I'; now right].
      destruct (nth_error (nm_dims m) i) as [d|] eqn:Ed; [reflexivity|]. apply nth_error_None in Ed. specialize (I' i (or_introl eq_refl)). lia. }
    rewrite E. cbn [obind]. cbn [map] in ND. assert (HV : has_var c (nv_name v) = false).
    { apply has_var_false. apply NoDup_remove_2 in ND. intro X. apply ND. apply in_or_app. now left. }
    rewrite HV. set (c1 := mkCdm (vars c ++ [mkVar (nv_name v) (nc2cdm (nv_type v)) (nc_shape m v) "" None]) (dims c) (attrs c)).
    assert (C1 : consistent c1) by now apply (consistent_add_var' c (read_cvar m v)).
    destruct (read_atts_spec (nv_atts v) c1 (nv_name v) C1) as (c2 & E2 & C2 & V2 & D2 & A2).
    + right. unfold vnames, c1. cbn [vars]. rewrite map_app. apply in_or_app. right. now left.
    + change (attrs_of c1 (nv_name v)) with (attrs_of c (nv_name v)). rewrite (no_attrs' c _ C G HV). exact NA.
    + rewrite E2. cbn [obind]. destruct (IH c2 C2) as (c' & E' & C' & V' & D' & A' & X').
      * unfold vnames. rewrite V2. unfold c1. cbn [vars]. rewrite map_app. cbn [map v_name]. rewrite <- app_assoc. exact ND.
      * intros; apply H; now right.
      * exists c'. split; [exact E'|]. split; [exact C'|]. split; [rewrite V', V2; unfold c1; cbn [vars map]; now rewrite <- app_assoc|]. split; [now rewrite D', D2|].
        assert (NI : ~ In (nv_name v) (map nv_name l)). { apply NoDup_remove_2 in ND. intro X. apply ND. apply in_or_app. now right. }
        split.
        -- intros u [<-|U]; [|now apply A']. rewrite (X' _ NI), A2, String.eqb_refl.
           change (attrs_of c1 (nv_name v)) with (attrs_of c (nv_name v)). now rewrite (no_attrs' c _ C G HV).
        -- intros x NX. rewrite X' by (intro Q; apply NX; now right). rewrite A2. destruct (String.eqb_spec x (nv_name v)) as [->|]; [|reflexivity].
           destruct NX. now left.
Qed.

Lemma first_unlim_spec : forall l k i, first_unlim k l = Some i <->
  k <= i /\ (exists d, nth_error l (i - k) = Some d /\ nd_unlim d = true) /\ existsb nd_unlim (firstn (i - k) l) = false.
Proof.
  induction l as [|d l IH]; intros k i; cbn [first_unlim].
  - split; [discriminate|]. intros (_ & (x & X & _) & _). destruct (i - k); discriminate.
  - destruct (nd_unlim d) eqn:U.
    + split.
      * intro H. injection H as ->. rewrite Nat.sub_diag. split; [lia|]. split; [exists d; auto|reflexivity].
      * intros (L & (x & X & Y) & F). destruct (i - k) as [|n] eqn:E; [f_equal; lia|]. cbn [firstn existsb] in F. rewrite U in F. discriminate.
    + rewrite IH. split.
      * intros (L & (x & X & Y) & F). split; [lia|]. replace (i - k) with (S (i - S k)) by lia. cbn [nth_error firstn existsb]. rewrite U. split; [exists x; auto|exact F].
      * intros (L & (x & X & Y) & F). destruct (Nat.eq_dec i k) as [->|NE].
        { rewrite Nat.sub_diag in X. cbn in X. congruence. }
        replace (i - k) with (S (i - S k)) in X, F by lia. cbn [nth_error firstn existsb] in X, F. rewrite U in F. split; [lia|]. split; [exists x; auto|exact F].
Qed.
Lemma first_unlim_none : forall l k, first_unlim k l = None <-> existsb nd_unlim l = false.
Proof. induction l as [|d l IH]; intro k; cbn [first_unlim existsb]; [easy|]. destruct (nd_unlim d); cbn [orb]; [split; discriminate|apply IH]. Qed.
Lemma is_rec_spec m i d : nth_error (nm_dims m) i = Some d -> is_rec m i = nd_unlim d && negb (existsb nd_unlim (firstn i (nm_dims m))).
Proof.
  intro E. unfold is_rec, rec_id. destruct (first_unlim 0 (nm_dims m)) as [j|] eqn:F.
  - destruct (Nat.eqb_spec j i) as [->|NE].
    + apply first_unlim_spec in F as (_ & (x & X & Y) & Z). rewrite Nat.sub_0_r in *. assert (x = d) by congruence. subst x. now rewrite Y, Z.
    + destruct (nd_unlim d) eqn:U; [|reflexivity]. destruct (existsb nd_unlim (firstn i (nm_dims m))) eqn:X; [reflexivity|]. exfalso.
      assert (first_unlim 0 (nm_dims m) = Some i). { apply first_unlim_spec. rewrite Nat.sub_0_r. split; [lia|]. split; [exists d; auto|exact X]. } congruence.
  - apply first_unlim_none in F. destruct (nd_unlim d) eqn:U; [|reflexivity]. exfalso.
    assert (existsb nd_unlim (nm_dims m) = true) by (apply existsb_exists; exists d; split; [now apply nth_error_In in E|exact U]). congruence.
Qed.
Lemma existsb_firstn w : forall ds es i, Forall2 (fun d e => nc_dim w d = Ok e) ds es ->
  existsb nd_unlim (firstn i es) = existsb d_unlim (firstn i ds).
Proof.
  intros ds es i F. revert i. induction F as [|d e ds es H F IH]; intro i; [now rewrite !firstn_nil|]. destruct i; [reflexivity|]. cbn [firstn existsb].
  rewrite IH. apply nc_dim_ok in H as (_ & -> & _). reflexivity.
Qed.
Lemma nc2cdm_cdm2nc t : nc2cdm (cdm2nc t) = t.
Proof. now destruct t. Qed.
Lemma Forall2_map_eq {A B C} (g : A -> C) (h : B -> C) (R : A -> B -> Prop) l r : Forall2 R l r -> (forall a b, In a l -> In b r -> R a b -> h b = g a) -> map h r = map g l.
Proof.
  induction 1 as [|a b l r H F IH]; intro K; [reflexivity|]. cbn [map]. rewrite IH by (intros; apply K; auto; now right). f_equal. apply K; auto; now left.
Qed.
Lemma nth_combine_seq {A} : forall (l : list A) k i x, nth_error l i = Some x -> nth_error (combine (seq k (length l)) l) i = Some (k + i, x).
Proof.
  induction l as [|a l IH]; intros k [|i] x E; try discriminate; cbn [length seq combine nth_error] in *.
  - injection E as ->. do 2 f_equal. lia.
  - rewrite (IH (S k) i x E). do 2 f_equal. lia.
Qed.

(** A file written and read again has the dimensions, variables, types, shapes and attributes of the writer,
    under the new names; in the same order.  The unlimited dimension has the length of what was written; of
    several unlimited dimensions only the first is reported as such; a dimension of length 0 has length 1. *)
Theorem C83_roundtrip f w m s : consistent (w_cdm w) -> define f w = Ok m ->
  (forall v, In v (vars (w_cdm w)) -> vname w (v_name v) <> global_ns /\ Forall (faithful_att f) (attrs_of (w_cdm w) (v_name v))) ->
  Forall (faithful_att f) (attrs_of (w_cdm w) global_ns) ->
  exists c, read_file m s = Ok c /\ consistent c /\
    length (dims c) = length (dims (w_cdm w)) /\
    (forall i d, nth_error (dims (w_cdm w)) i = Some d ->
       nth_error (dims c) i = Some (mkDim (dname w (d_name d)) (if d_unlim d then ns_recs s i else N.max 1 (d_len d mod 2 ^ 32))
                                          (d_unlim d && negb (existsb d_unlim (firstn i (dims (w_cdm w))))))) /\
    vars c = map (fun v => mkVar (vname w (v_name v)) (var_type w v) (map (dname w) (v_shape v)) "" None) (vars (w_cdm w)) /\
    (forall v, In v (vars (w_cdm w)) -> attrs_of c (vname w (v_name v)) = attrs_of (w_cdm w) (v_name v)) /\
    attrs_of c global_ns = attrs_of (w_cdm w) global_ns.
Proof.
  intros C D G GA. apply define_spec in D as (D0 & D1 & D2 & D3 & D4 & D5 & D6). unfold read_file.
  destruct (read_dims_spec m s (nm_dims m) 0 empty_cdm D2 (fun _ _ => eq_refl)) as (ds & E1 & E2). rewrite E1. cbn [obind empty_cdm vars dims attrs app].
  assert (ND : NoDup (map d_name ds)).
  { rewrite E2. rewrite map_map. cbn [d_name]. replace (map (fun x => nd_name (snd x)) (combine (seq 0 (length (nm_dims m))) (nm_dims m))) with (map nd_name (nm_dims m)); [exact D2|].
    generalize 0. clear. induction (nm_dims m) as [|d l IH]; intro k; [reflexivity|]. cbn [length seq combine map snd]. f_equal. apply IH. }
  assert (C1 : consistent (mkCdm [] ds [])).
  { constructor; [constructor|exact ND|constructor|intros n []|intro n; constructor]. }
  assert (ID : forall v e, final_var f w (nm_dims m) v e -> Forall2 (fun n i => exists d, nth_error (nm_dims m) i = Some d /\ nd_name d = dname w n) (rev (v_shape v)) (nv_dims e)).
  { intros v e (_ & _ & H & _). apply omapM_ok in H. revert H. generalize (rev (v_shape v)) (nv_dims e). intros sh ids H. induction H as [|n i sh ids R H IH]; [constructor|].
    constructor; [|exact IH]. unfold dim_id, rd in R. destruct (index_of d_name n 0 (dims (w_cdm w))) as [j|] eqn:Ej; [|discriminate]. injection R as ->.
    apply index_of_some in Ej as (_ & d & Ed & Nd). rewrite Nat.sub_0_r in Ed. destruct (Forall2_nth _ _ _ D1 _ _ Ed) as (x & X1 & X2).
    exists x. split; [exact X1|]. apply nc_dim_ok in X2 as (X2 & _). rewrite X2, Nd. reflexivity. }
  destruct (read_vars_spec m (nm_vars m) (mkCdm [] ds []) C1) as (c2 & R2 & C2 & V2 & Dm2 & A2 & X2).
  - exact D5.
  - intros e He. apply In_nth_error in He as (i & He). destruct (Forall2_nth_r _ _ _ D4 _ _ He) as (v & Hv & F). destruct (G v (nth_error_In _ _ Hv)) as (G1 & G2). 
    pose proof (ID v e F) as IDe. destruct F as (F1 & F2 & F3 & F4 & F5 & F6 & F7). split; [congruence|]. split.
    + rewrite (nc_atts_names _ _ _ _ F7). apply (c_attrs _ C).
    + intros j Hj. apply In_nth_error in Hj as (k & Hj). destruct (Forall2_nth_r _ _ _ IDe _ _ Hj) as (n & _ & d & Hd & _). apply nth_error_Some. congruence.
  - rewrite R2. cbn [obind]. assert (GN : ~ In global_ns (map nv_name (nm_vars m))).
    { intro I. apply in_map_iff in I as (e & I1 & I2). apply In_nth_error in I2 as (i & I2). destruct (Forall2_nth_r _ _ _ D4 _ _ I2) as (v & Hv & F).
      destruct (G v (nth_error_In _ _ Hv)) as (G1 & _). destruct F as (F & _). congruence. }
    assert (AG : attrs_of c2 global_ns = []) by now rewrite (X2 _ GN).
    destruct (read_atts_spec (nm_atts m) c2 global_ns C2 (or_introl eq_refl)) as (c3 & R3 & C3 & V3 & Dm3 & A3).
    { rewrite AG. cbn [map app]. rewrite (nc_atts_names _ _ _ _ D6). apply (c_attrs _ C). }
    exists c3. split; [exact R3|]. split; [exact C3|]. rewrite Dm3, Dm2, V3, V2. cbn [dims vars app].
    split; [|split; [|split; [|split]]].
    + rewrite E2, map_length, combine_length, seq_length, Nat.min_id. symmetry. apply (Forall2_len _ _ _ D1).
    + intros i d E. destruct (Forall2_nth _ _ _ D1 _ _ E) as (e & Ee & En). rewrite E2.
      rewrite (map_nth_error _ i _ (nth_combine_seq (nm_dims m) 0 i e Ee)). cbn [fst snd Nat.add]. rewrite (is_rec_spec _ _ _ Ee), (existsb_firstn w _ _ i D1).
      apply nc_dim_ok in En as (N1 & N2 & N3). rewrite N1, N2. f_equal. f_equal. destruct (d_unlim d); [reflexivity|]. now apply N3.
    + refine (Forall2_map_eq _ _ _ _ _ D4 _). intros v e _ _ F. pose proof (ID v e F) as IDe. destruct F as (F1 & F2 & _). unfold read_cvar. rewrite F1, F2, nc2cdm_cdm2nc. f_equal.
      unfold nc_shape. apply Forall2_rev in IDe. rewrite rev_involutive in IDe. refine (Forall2_map_eq _ _ _ _ _ IDe _). intros n i _ _ (d & -> & Hd). exact Hd.
    + intros v Hv. destruct (G v Hv) as (G1 & G2). rewrite A3. destruct (String.eqb_spec (vname w (v_name v)) global_ns); [congruence|].
      apply In_nth_error in Hv as (i & Hv). destruct (Forall2_nth _ _ _ D4 _ _ Hv) as (e & He & F). destruct F as (F1 & _ & _ & _ & _ & _ & F7). rewrite <- F1.
      rewrite (A2 e (nth_error_In _ _ He)). now apply (nc_atts_read _ _ _ _ F7).
    + rewrite A3, String.eqb_refl, AG. cbn [app]. now apply (nc_atts_read _ _ _ _ D6).
Qed.

(** ** when the definitions succeed *)

Lemma Forall2_exists {A B} (R : A -> B -> Prop) l : (forall a, In a l -> exists b, R a b) -> exists r, Forall2 R l r.
Proof.
  induction l as [|a l IH]; intro H; [exists []; constructor|]. destruct (H a (or_introl eq_refl)) as (b & Hb).
  destruct IH as (r & Hr); [intros; apply H; now right|]. exists (b :: r). now constructor.
Qed.
(** an attribute the format can hold; [t] is the type of its variable *)
Definition writable_att (f : ncfmt) (t : option dtype) (a : cattr) : Prop :=
  a_type a <> DNat /\ (a_type a = DStrings -> f = Nc4 \/ length (a_nums a) = 1) /\
  (f <> Nc4 -> In (a_type a) [DChar; DString; DShort; DInt; DFloat; DDouble; DStrings]) /\
  (forall t', t = Some t' -> a_name a = "_FillValue" -> a_type a = t' /\ a_type a <> DStrings /\ (if dtype_eqb t' DString then String.length (a_text a) = 1 else length (a_nums a) = 1)).
Lemma dtype_eqb_refl t : dtype_eqb t t = true.
Proof. now destruct t. Qed.
Lemma writable_ok f t l : Forall (writable_att f t) l -> exists r, nc_atts f (option_map cdm2nc t) l = Ok r.
Proof.
  intro F. destruct (Forall2_exists (fun a b => (do x <- nc_att f a; if att_ok f (option_map cdm2nc t) x then Ok x else Throw) = Ok b) l) as (r & H).
  - intros a Ha. rewrite Forall_forall in F. destruct (F a Ha) as (W1 & W2 & W3 & W4).
    assert (X : exists x, nc_att f a = Ok x /\ att_ok f (option_map cdm2nc t) x = true).
    { unfold nc_att. destruct a as [n ty nums text]. cbn [a_type a_name a_nums a_text] in *.
      assert (FV : forall x, na_name x = n -> na_type x = cdm2nc ty -> na_nums x = nums -> na_text x = text -> ty <> DStrings ->
                     type_ok f (cdm2nc ty) = true -> att_ok f (option_map cdm2nc t) x = true).
      { intros x X1 X2 X3 X4 X5 X6. unfold att_ok. rewrite X1, X2, X3, X4, X6. cbn [andb]. destruct t as [t'|]; cbn [option_map]; [|reflexivity].
        destruct (String.eqb_spec n "_FillValue") as [E|]; cbn [negb orb]; [|reflexivity]. destruct (W4 t' eq_refl E) as (<- & Y1 & Y2).
        unfold nctype_eqb. rewrite dtype_eqb_refl. cbn [andb]. destruct ty; cbn in Y2 |- *; try (rewrite Y2; reflexivity); try congruence; try reflexivity. }
      destruct ty; try (eexists; split; [reflexivity|]; apply FV; try reflexivity; try discriminate; cbn [cdm2nc type_ok]; try reflexivity;
        destruct f; try reflexivity; exfalso; assert (Q : Classic <> Nc4) by discriminate; assert (Q' : Nc4Classic <> Nc4) by discriminate; 
        first [specialize (W3 Q)|specialize (W3 Q')]; cbn in W3; intuition discriminate).
      - congruence.
      - destruct (fmt_eqb f Nc4) eqn:FE.
        + destruct f; try discriminate. eexists. split; [reflexivity|]. unfold att_ok. cbn [na_type na_name type_ok fmt_eqb andb].
          destruct t as [t'|]; cbn [option_map]; [|reflexivity]. destruct (String.eqb_spec n "_FillValue") as [E|]; cbn [negb orb]; [|reflexivity].
          destruct (W4 t' eq_refl E) as (_ & Y & _). congruence.
        + destruct (W2 eq_refl) as [->|L]; [discriminate|]. rewrite L. cbn [Nat.eqb]. eexists. split; [reflexivity|]. unfold att_ok. cbn [na_type na_name type_ok andb].
          destruct t as [t'|]; cbn [option_map]; [|reflexivity]. destruct (String.eqb_spec n "_FillValue") as [E|]; cbn [negb orb]; [|reflexivity].
          destruct (W4 t' eq_refl E) as (_ & Y & _). congruence. }
    destruct X as (x & -> & X). cbn [obind]. rewrite X. exists x. reflexivity.
  - exists r. now apply omapM_ok.
Qed.

Definition level_ok (w : writer) (v : cvar) : Prop :=
  match sfind (v_name v) (w_levels w) with Some x => (x <= 9)%N \/ (11 <= x <= 19)%N | None => True end.
Definition unlimited_named (c : cdm) (n : string) : bool := match find_dim n (dims c) with Some d => d_unlim d | None => false end.

(** Metadata that fit the format are always written: lengths below 2^31, distinct names, one unlimited dimension
    outside netCDF-4, in the classic formats always the slowest one of a variable, types and attributes of the format,
    compression levels 0 to 9 and 11 to 19. *)
Theorem C83_defined f w : consistent (w_cdm w) ->
  (forall d, In d (dims (w_cdm w)) -> d_unlim d = false -> (d_len d < 2 ^ 31)%N) ->
  NoDup (map (fun d => dname w (d_name d)) (dims (w_cdm w))) -> NoDup (map (fun v => vname w (v_name v)) (vars (w_cdm w))) ->
  (f <> Nc4 -> length (filter d_unlim (dims (w_cdm w))) <= 1) ->
  (forall v, In v (vars (w_cdm w)) ->
     (forall n, In n (v_shape v) -> has_dim (w_cdm w) n = true) /\ type_ok f (cdm2nc (var_type w v)) = true /\
     (f = Classic -> forall n, In n (tl (rev (v_shape v))) -> unlimited_named (w_cdm w) n = false) /\ (f <> Classic -> level_ok w v) /\
     Forall (writable_att f (Some (var_type w v))) (attrs_of (w_cdm w) (v_name v))) ->
  Forall (writable_att f None) (attrs_of (w_cdm w) global_ns) ->
  exists m, define f w = Ok m.
Proof.
  intros C HL ND NV UN HV HG. unfold define.
  destruct (Forall2_exists (fun d e => nc_dim w d = Ok e) (dims (w_cdm w))) as (l & FL).
  { intros d Hd. unfold nc_dim. destruct (d_unlim d) eqn:U; [eauto|]. specialize (HL d Hd U).
    assert (E : (d_len d mod 2 ^ 32 = d_len d)%N) by (apply N.mod_small; change (2 ^ 31)%N with 2147483648%N in HL; change (2 ^ 32)%N with 4294967296%N; lia).
    rewrite E. destruct (2 ^ 31 <=? d_len d)%N eqn:B; [lia|]. eauto. }
  assert (D : define_dims f w = Ok l).
  { apply define_dims_spec. split; [exact FL|]. split.
    - replace (map nd_name l) with (map (fun d => dname w (d_name d)) (dims (w_cdm w))); [exact ND|]. symmetry. refine (Forall2_map_eq _ _ _ _ _ FL _).
      intros d e _ _ E. apply nc_dim_ok in E as (E & _). exact E.
    - intro NF. specialize (UN NF). unfold at_most_one. enough (E : length (filter nd_unlim l) = length (filter d_unlim (dims (w_cdm w)))) by lia.
      clear -FL. induction FL as [|d e ds l E F IH]; [reflexivity|]. cbn [filter]. apply nc_dim_ok in E as (_ & -> & _). destruct (d_unlim d); cbn [length]; lia. }
  rewrite D. cbn [obind].
  assert (FV : exists es, Forall2 (defined_var f w l) (vars (w_cdm w)) es).
  { apply Forall2_exists. intros v Hv. destruct (HV v Hv) as (H1 & H2 & H3 & H4 & _).
    assert (I : exists ids, omapM (fun n => rd (dim_id (w_cdm w) n)) (rev (v_shape v)) = Ok ids).
    { destruct (Forall2_exists (fun n i => rd (dim_id (w_cdm w) n) = Ok i) (rev (v_shape v))) as (ids & F); [|exists ids; now apply omapM_ok].
      intros n Hn. apply in_rev in Hn. specialize (H1 n Hn). unfold dim_id. destruct (index_of d_name n 0 (dims (w_cdm w))) as [i|] eqn:E; [exists i; reflexivity|].
      apply index_of_none in E. apply has_dim_in in H1. contradiction. }
    destruct I as (ids & I).
    assert (SH : shape_ok f l ids = true).
    { unfold shape_ok. pose proof I as I2. apply omapM_ok in I2. destruct (rev (v_shape v)) as [|n0 sh] eqn:R; inversion I2 as [|? i0 ? ids' X1 X2]; subst; [reflexivity|].
      destruct (fmt_eqb f Classic) eqn:FC; [|reflexivity]. cbn [negb orb]. assert (f = Classic) by (destruct f; try discriminate; reflexivity). subst f.
      specialize (H3 eq_refl). cbn [tl] in H3. apply negb_true_iff.
      destruct (existsb (fun i => match nth_error l i with Some d => nd_unlim d | None => false end) ids') eqn:EX; [|reflexivity]. exfalso.
      apply existsb_exists in EX as (i & Hi & Q). apply In_nth_error in Hi as (k & Hk). destruct (Forall2_nth_r _ _ _ X2 _ _ Hk) as (n & Hn & Rn).
      specialize (H3 n (nth_error_In _ _ Hn)). unfold unlimited_named in H3. 
      assert (KN : has_dim (w_cdm w) n = true). { apply H1. apply in_rev. rewrite R. right. now apply nth_error_In in Hn. }
      unfold has_dim in KN. destruct (find_dim n (dims (w_cdm w))) as [d|] eqn:Fd; [|discriminate].
      destruct (id_dim Classic w l D (c_dims _ C) n i d Rn Fd) as (e & Ne & En). rewrite Ne in Q. apply nc_dim_ok in En as (_ & En & _). congruence. }
    assert (CP : exists x, compress f w l v ids = Ok x).
    { destruct (C85_compress f w l v ids D (c_dims _ C) H1 I) as (P1 & P2). cbn zeta in *. set (lv := match sfind (v_name v) (w_levels w) with Some x => x | None => 0%N end) in *.
      destruct (fmt_eqb f Classic) eqn:FC; [assert (f = Classic) by (destruct f; try discriminate; reflexivity); eexists; apply P1; now left|].
      assert (NF : f <> Classic) by (intros ->; discriminate). specialize (H4 NF). unfold level_ok in H4.
      destruct (v_shape v) as [|n0 sh] eqn:R; [eexists; apply P1; auto|]. destruct (P2 NF) as (Q1 & Q2 & _); [discriminate|].
      assert (LV : (lv <= 9 \/ 11 <= lv <= 19)%N). { unfold lv. destruct (sfind (v_name v) (w_levels w)); [exact H4|lia]. }
      destruct (N.eq_dec lv 0) as [Z|Z]; [eexists; apply P1; auto|]. destruct LV as [LV|LV]; [destruct Q1 as (ch & Q1); [lia|]; eauto|destruct Q2 as (ch & Q2); [lia|]; eauto]. }
    destruct CP as (x & CP). exists (mkNv (vname w (v_name v)) (cdm2nc (var_type w v)) ids (fst x) (snd x) []). unfold defined_var. cbn. repeat split; auto. now destruct x. }
  destruct FV as (es & FV).
  assert (V : define_vars f w l = Ok es).
  { unfold define_vars. apply define_vars_gen; [constructor|]. exists es. split; [reflexivity|]. split; [exact FV|].
    replace (map nv_name es) with (map (fun v => vname w (v_name v)) (vars (w_cdm w))); [exact NV|]. symmetry. refine (Forall2_map_eq _ _ _ _ _ FV _). intros v e _ _ (E & _). exact E. }
  rewrite V. cbn [obind].
  assert (ST : stray_atts (w_cdm w) = false).
  { unfold stray_atts. destruct (existsb _ (attrs (w_cdm w))) eqn:E; [|reflexivity]. exfalso. apply existsb_exists in E as (p & P1 & P2). apply andb_prop in P2 as (P2 & P3).
    destruct (c_owner _ C (fst p)) as [X|X]; [unfold skeys; now apply in_map| |].
    - rewrite X, String.eqb_refl in P2. discriminate.
    - apply has_var_in in X. rewrite X in P3. discriminate. }
  rewrite ST.
  assert (A : exists vs2, set_atts f w es = Ok vs2).
  { unfold set_atts.
    destruct (Forall2_exists (fun p e => (do a <- nc_atts f (Some (nv_type (snd p))) (attrs_of (w_cdm w) (v_name (fst p)));
       let v := snd p in Ok (mkNv (nv_name v) (nv_type v) (nv_dims v) (nv_chunk v) (nv_deflate v) a)) = Ok e) (combine (vars (w_cdm w)) es)) as (r & R); [|exists r; now apply omapM_ok].
    intros (v & e) P. apply In_nth_error in P as (k & P). assert (Q : nth_error (vars (w_cdm w)) k = Some v /\ nth_error es k = Some e).
    { clear -P. revert k P. generalize (vars (w_cdm w)). induction es as [|e0 es IH]; intros [|v0 vs] [|k] P; try discriminate; cbn in *; [injection P as -> ->; auto|now apply IH]. }
    destruct Q as (Q1 & Q2). destruct (Forall2_nth _ _ _ FV _ _ Q1) as (e' & Q3 & Q4). assert (e' = e) by congruence. subst e'. destruct Q4 as (_ & Q4 & _).
    destruct (HV v (nth_error_In _ _ Q1)) as (_ & _ & _ & _ & HA). cbn [fst snd]. rewrite Q4. destruct (writable_ok f (Some (var_type w v)) _ HA) as (a & Ha). cbn [option_map] in Ha. rewrite Ha. cbn [obind]. eauto. }
  destruct A as (vs2 & ->). cbn [obind]. destruct (writable_ok f None _ HG) as (g & Hg). cbn [option_map] in Hg. rewrite Hg. cbn [obind]. eauto.
Qed.

(** ** the configuration *)

Definition used (c : cdm) (n : string) : bool := existsb (check_dim n) (vars c).
Lemma drop_dims_spec : forall ns c, let c' := fold_left drop_dim ns c in
  vars c' = vars c /\ attrs c' = attrs c /\ dims c' = filter (fun d => used c (d_name d) || negb (existsb (String.eqb (d_name d)) ns)) (dims c).
Proof.
  induction ns as [|n ns IH]; intro c; cbn [fold_left].
  - repeat split. cbn [existsb negb]. rewrite <- (filter_ext (fun _ => true)) by (intro; now rewrite orb_true_r). clear. induction (dims c) as [|d l IH]; [reflexivity|]. cbn. now f_equal.
  - destruct (IH (drop_dim c n)) as (I1 & I2 & I3). cbn zeta in *. rewrite I1, I2, I3. unfold drop_dim. unfold dim_in_use. fold (used c n).
    destruct (has_dim c n && used c n) eqn:U.
    + repeat split. apply filter_ext. intro d. cbn [existsb]. destruct (String.eqb_spec (d_name d) n) as [->|]; [|reflexivity].
      apply andb_prop in U as (_ & ->). reflexivity.
    + unfold remove_dim. unfold dim_in_use. fold (used c n). rewrite U. cbn [negb andb fst vars dims attrs]. unfold used. cbn [vars]. fold (used c). repeat split.
      assert (K : forall d, In d (dims c) -> d_name d = n -> used c n = false).
      { intros d Hd E. destruct (used c n); [|reflexivity]. rewrite andb_true_r in U. apply has_dim_false in U. destruct U. subst n. now apply in_map. }
      revert K. generalize (dims c). clear. induction l as [|d l IH]; intro K; [reflexivity|]. cbn [filter existsb].
      specialize (IH (fun e E => K e (or_intror E))). destruct (String.eqb_spec n (d_name d)) as [E|E].
      * cbn [negb]. symmetry in E. fold (used c (d_name d)). rewrite E in *. specialize (K d (or_introl eq_refl) E). rewrite K, String.eqb_refl. cbn [orb negb]. exact IH.
      * cbn [negb]. fold (used c (d_name d)). destruct (String.eqb_spec (d_name d) n); [congruence|]. cbn [orb filter]. rewrite IH. reflexivity.
Qed.
Lemma rm_vars_spec : forall ns c, let c' := fold_left remove_var ns c in
  vars c' = filter (fun v => negb (existsb (String.eqb (v_name v)) ns)) (vars c) /\ dims c' = dims c /\
  forall n, attrs_of c' n = if existsb (String.eqb n) ns then [] else attrs_of c n.
Proof.
  induction ns as [|n ns IH]; intro c; cbn [fold_left].
  - repeat split. clear. induction (vars c) as [|d l IH]; [reflexivity|]. cbn in *. now f_equal.
  - destruct (IH (remove_var c n)) as (I1 & I2 & I3). cbn zeta in *. rewrite I1, I2. cbn [remove_var vars dims]. repeat split.
    + generalize (vars c). clear. induction l as [|v l IH]; [reflexivity|]. cbn [filter existsb]. rewrite (String.eqb_sym n (v_name v)).
      destruct (String.eqb (v_name v) n); cbn [negb orb filter]; rewrite IH; reflexivity.
    + intro m. rewrite I3, attrs_of_removed. cbn [existsb]. destruct (String.eqb m n); cbn [orb]; [|reflexivity]. now destruct (existsb (String.eqb m) ns).
Qed.
Lemma rm_attrs_spec {A} (nm at_ : A -> string) : forall l c, let c' := fold_left (fun c p => remove_attr c (nm p) (at_ p)) l c in
  vars c' = vars c /\ dims c' = dims c /\
  forall n, attrs_of c' n = filter (fun a => negb (existsb (fun p => String.eqb n (nm p) && String.eqb (a_name a) (at_ p)) l)) (attrs_of c n).
Proof.
  induction l as [|p l IH]; intro c; cbn [fold_left].
  - repeat split. intro n. cbn [existsb negb]. clear. induction (attrs_of c n) as [|d r IH]; [reflexivity|]. cbn in *. now f_equal.
  - destruct (IH (remove_attr c (nm p) (at_ p))) as (I1 & I2 & I3). cbn zeta in *. rewrite I1, I2.
    assert (E : vars (remove_attr c (nm p) (at_ p)) = vars c /\ dims (remove_attr c (nm p) (at_ p)) = dims c) by (unfold remove_attr; destruct (sfind _ _); auto).
    destruct E as (-> & ->). repeat split. intro n. rewrite I3, attrs_of_remove_attr. destruct (String.eqb_spec n (nm p)) as [E|E].
    + rewrite E. generalize (attrs_of c (nm p)). clear -E. induction l0 as [|a r IH]; [reflexivity|]. cbn [filter]. cbn [existsb] in *. rewrite String.eqb_refl in *. cbn [andb] in *. rewrite (String.eqb_sym (at_ p) (a_name a)).
      destruct (String.eqb (a_name a) (at_ p)); cbn [negb orb filter]; rewrite IH; reflexivity.
    + apply filter_ext. intro a. cbn [existsb]. destruct (String.eqb_spec n (nm p)); [congruence|]. reflexivity.
Qed.

(** What is removed: the variables named, their attributes and the attributes named; a dimension named, or any one
    if unused dimensions are to be removed, unless a remaining variable has it. *)
Theorem C83_removed k c : let c' := init_remove k c in
  vars c' = filter (fun v => negb (existsb (String.eqb (v_name v)) (k_rm_vars k))) (vars c) /\
  dims c' = filter (fun d => used c' (d_name d) || negb (k_auto k || existsb (String.eqb (d_name d)) (k_rm_dims k))) (dims c) /\
  forall n, attrs_of c' n =
    if existsb (String.eqb n) (k_rm_vars k) then []
    else filter (fun a => negb ((String.eqb n global_ns && existsb (String.eqb (a_name a)) (k_rm_gatts k)) ||
                                existsb (fun p => String.eqb n (fst p) && String.eqb (a_name a) (snd p)) (k_rm_vatts k))) (attrs_of c n).
Proof.
  cbn zeta. unfold init_remove. 
  destruct (rm_attrs_spec (fun _ : string => global_ns) (fun n => n) (k_rm_gatts k) c) as (A1 & A2 & A3). cbn zeta in *.
  set (c1 := fold_left (fun c n => remove_attr c global_ns n) (k_rm_gatts k) c) in *.
  destruct (rm_attrs_spec (@fst string string) snd (k_rm_vatts k) c1) as (B1 & B2 & B3). cbn zeta in *.
  set (c2 := fold_left (fun c p => remove_attr c (fst p) (snd p)) (k_rm_vatts k) c1) in *.
  destruct (rm_vars_spec (k_rm_vars k) c2) as (C1 & C2 & C3). cbn zeta in *. set (c3 := fold_left remove_var (k_rm_vars k) c2) in *.
  destruct (drop_dims_spec (k_rm_dims k) c3) as (D1 & D2 & D3). cbn zeta in *. set (c4 := fold_left drop_dim (k_rm_dims k) c3) in *.
  assert (AT : forall n, attrs_of c3 n = if existsb (String.eqb n) (k_rm_vars k) then []
    else filter (fun a => negb ((String.eqb n global_ns && existsb (String.eqb (a_name a)) (k_rm_gatts k)) ||
                                existsb (fun p => String.eqb n (fst p) && String.eqb (a_name a) (snd p)) (k_rm_vatts k))) (attrs_of c n)).
  { intro n. rewrite C3, B3, A3. destruct (existsb (String.eqb n) (k_rm_vars k)); [reflexivity|]. generalize (attrs_of c n). induction l as [|a r IH]; [reflexivity|].
    cbn [filter]. 
    assert (E : existsb (fun p => String.eqb n global_ns && String.eqb (a_name a) p) (k_rm_gatts k) = String.eqb n global_ns && existsb (String.eqb (a_name a)) (k_rm_gatts k)).
    { clear. induction (k_rm_gatts k) as [|g l IH]; cbn [existsb]; [now rewrite andb_false_r|]. rewrite IH. destruct (String.eqb n global_ns); reflexivity. }
    rewrite E. destruct (String.eqb n global_ns && existsb (String.eqb (a_name a)) (k_rm_gatts k)); cbn [negb orb filter]; [exact IH|].
    destruct (existsb (fun p => String.eqb n (fst p) && String.eqb (a_name a) (snd p)) (k_rm_vatts k)); cbn [negb]; rewrite IH; reflexivity. }
  assert (V3 : vars c3 = filter (fun v => negb (existsb (String.eqb (v_name v)) (k_rm_vars k))) (vars c)) by (rewrite C1, B1, A1; reflexivity).
  assert (M3 : dims c3 = dims c) by (rewrite C2, B2, A2; reflexivity).
  destruct (k_auto k).
  - destruct (drop_dims_spec (map d_name (dims c4)) c4) as (E1 & E2 & E3). cbn zeta in *. set (c5 := fold_left drop_dim (map d_name (dims c4)) c4) in *.
    assert (U : forall n, used c5 n = used c3 n) by (intro; unfold used; now rewrite E1, D1).
    assert (U4 : forall n, used c4 n = used c3 n) by (intro; unfold used; now rewrite D1).
    split; [now rewrite E1, D1|]. split.
    + rewrite E3, D3, M3. cbn [orb negb].
      transitivity (filter (fun d => used c3 (d_name d)) (filter (fun d => used c3 (d_name d) || negb (existsb (String.eqb (d_name d)) (k_rm_dims k))) (dims c))).
      * apply filter_ext_in. intros d Hd. rewrite U4. destruct (used c3 (d_name d)); [reflexivity|]. cbn [orb]. apply negb_false_iff. apply existsb_exists. exists (d_name d). split; [|apply String.eqb_refl].
        apply in_map_iff. exists d. split; [reflexivity|]. exact Hd.
      * generalize (dims c). induction l as [|d r IH]; [reflexivity|]. cbn [filter]. rewrite U. destruct (used c3 (d_name d)) eqn:X; cbn [orb filter].
        -- rewrite X. now f_equal.
        -- destruct (negb _); cbn [filter]; [rewrite X|]; exact IH.
    + intro n. rewrite <- AT. unfold attrs_of. now rewrite E2, D2.
  - cbn [orb]. split; [now rewrite D1|]. split.
    + rewrite D3, M3. apply filter_ext. intro d. unfold used. now rewrite D1.
    + intro n. rewrite <- AT. unfold attrs_of. now rewrite D2.
Qed.

(** Without a configuration nothing is renamed or retyped, and only unused dimensions are left out. *)
Theorem C83_default c : exists w, configure no_conf c = Ok w /\ vars (w_cdm w) = vars c /\ attrs (w_cdm w) = attrs c /\
  dims (w_cdm w) = filter (fun d => used c (d_name d)) (dims c) /\ (forall n, vname w n = n) /\ (forall n, dname w n = n) /\
  (forall v, In v (vars c) -> sfind (v_name v) (w_levels w) = Some 13%N) /\ (forall v, var_type w v = match v_type v, v_shape v with DNat, [] => DInt | t, _ => t end).
Proof.
  unfold configure, init_vars, init_dims, init_atts, no_conf. cbn [k_vnames k_vtypes k_levels k_level k_chunks k_dnames k_atts ofold obind fst snd fold_left].
  eexists. split; [reflexivity|]. cbn [w_cdm w_levels w_types]. unfold init_remove. cbn [k_rm_gatts k_rm_vatts k_rm_vars k_rm_dims k_auto fold_left].
  destruct (drop_dims_spec (map d_name (dims c)) c) as (D1 & D2 & D3). cbn zeta in *. rewrite D1. split; [reflexivity|]. split; [exact D2|]. split.
  - rewrite D3. apply filter_ext_in. intros d Hd. destruct (used c (d_name d)); [reflexivity|]. cbn [orb]. apply negb_false_iff. apply existsb_exists. exists (d_name d). split; [now apply in_map|apply String.eqb_refl].
  - split; [reflexivity|]. split; [reflexivity|]. split.
    + assert (G : forall l m0 n, sfind n (fold_left (fun m v => sput (v_name v) 13%N m) l m0) = if existsb (fun v => String.eqb n (v_name v)) l then Some 13%N else sfind n m0).
      { induction l as [|v l IH]; intros m0 n; [reflexivity|]. cbn [fold_left existsb]. rewrite IH, sfind_sput. destruct (String.eqb n (v_name v)); cbn [orb]; [now destruct (existsb _ l)|reflexivity]. }
      intros v Hv. rewrite G. replace (existsb _ (vars c)) with true; [reflexivity|]. symmetry. apply existsb_exists. exists v. split; [exact Hv|apply String.eqb_refl].
    + intro v. unfold var_type. cbn [w_types sfind]. now destruct (v_type v), (v_shape v).
Qed.

Definition last_of {A} (l : list (string * A)) (n : string) : option A := sfind n (rev l).
Lemma sfind_app {A} n (l r : list (string * A)) : sfind n (l ++ r) = match sfind n l with Some x => Some x | None => sfind n r end.
Proof. induction l as [|[a b] l IH]; cbn; [reflexivity|]. destruct (String.eqb n a); auto. Qed.

(** The new names: for a variable the one given for it (the last), else the first one given for the dimension of its
    name; for a dimension the last one given. *)
Theorem C83_renamed k c w : configure k c = Ok w -> forall n,
  dname w n = match last_of (k_dnames k) n with Some x => x | None => n end /\
  vname w n = match last_of (k_vnames k) n with Some x => x | None => match sfind n (k_dnames k) with Some x => x | None => n end end.
Proof.
  unfold configure. intros H n. unfold init_vars in H.
  destruct (ofold (fun m p => if has_var (init_remove k c) (fst p) then Ok (sput (fst p) (snd p) m) else Throw) (k_vnames k) []) as [vn| | |] eqn:V; try discriminate. cbn [obind] in H.
  assert (VN : forall n, sfind n vn = last_of (k_vnames k) n).
  { assert (G : forall (l : list (string * string)) (m0 m1 : smap string), ofold (fun m p => if has_var (init_remove k c) (fst p) then Ok (sput (fst p) (snd p) m) else Throw) l m0 = Ok m1 ->
       forall n, sfind n m1 = match last_of l n with Some x => Some x | None => sfind n m0 end).
    { induction l as [|[a b] l IH]; intros m0 m1 E x; cbn [ofold] in E; [injection E as <-; reflexivity|]. cbn [fst snd] in E. destruct (has_var _ a); [|discriminate]. cbn [obind] in E.
      rewrite (IH _ _ E x). unfold last_of. cbn [rev]. rewrite sfind_app, sfind_sput. cbn [sfind]. destruct (sfind x (rev l)); [reflexivity|]. now destruct (String.eqb x a). }
    intro x. rewrite (G _ _ _ V x). now destruct (last_of (k_vnames k) x). }
  match type of H with context [ofold ?g (k_vtypes k) ?s0] => destruct (ofold g (k_vtypes k) s0) as [ct| | |]; try discriminate end. cbn [obind] in H.
  set (w0 := mkW _ vn _ _ _ _) in H. destruct (init_dims k w0) as [w2| | |] eqn:D; try discriminate. cbn [obind] in H. unfold init_atts in H.
  destruct (ofold edit_attr (k_atts k) (w_cdm w2)) as [c3| | |]; try discriminate. cbn [obind] in H. injection H as <-. unfold dname, vname, out_name. cbn [w_dnames w_vnames].
  assert (G : forall (l : list (string * string)) (a b : writer), ofold (fun w p =>
    if has_dim (w_cdm w) (fst p)
    then Ok (mkW (w_cdm w) (if smem (fst p) (w_vnames w) then w_vnames w else sput (fst p) (snd p) (w_vnames w))
                 (sput (fst p) (snd p) (w_dnames w)) (w_types w) (w_levels w) (w_chunks w))
    else Throw) l a = Ok b -> forall x,
    sfind x (w_dnames b) = match last_of l x with Some y => Some y | None => sfind x (w_dnames a) end /\
    sfind x (w_vnames b) = match sfind x (w_vnames a) with Some y => Some y | None => sfind x l end).
  { induction l as [|[p r] l IH]; intros a b E x; cbn [ofold] in E.
    - injection E as <-. split; [reflexivity|]. cbn [sfind]. now destruct (sfind x (w_vnames a)).
    - cbn [fst snd] in E. destruct (has_dim (w_cdm a) p); [|discriminate]. cbn [obind] in E. destruct (IH _ _ E x) as (I1 & I2). cbn [w_dnames w_vnames] in *. split.
      + rewrite I1. unfold last_of. cbn [rev]. rewrite sfind_app, sfind_sput. cbn [sfind]. destruct (sfind x (rev l)); [reflexivity|]. now destruct (String.eqb x p).
      + rewrite I2. cbn [sfind]. unfold smem. destruct (sfind p (w_vnames a)) as [y|] eqn:Y.
        * destruct (String.eqb_spec x p) as [->|]; [now rewrite Y|reflexivity].
        * rewrite sfind_sput. destruct (String.eqb_spec x p) as [->|]; [now rewrite Y|reflexivity]. }
  unfold init_dims in D. destruct (G _ _ _ D n) as (G1 & G2). rewrite G1, G2. unfold w0. cbn [w_dnames w_vnames]. rewrite VN. split.
  - destruct (last_of (k_dnames k) n); reflexivity.
  - destruct (last_of (k_vnames k) n); reflexivity.
Qed.

(** An attribute edited keeps or gets its content under the (new) name, as the last one of the variable; all others stay.
    It is an error if the variable or (without a content) the attribute does not exist, or the new name is taken. *)
Theorem C83_attribute c e : consistent c ->
  let n := if String.eqb (e_new e) "" then e_name e else e_new e in
  let a := match e_content e with
           | Some (t, l, s) => Some (mkAttr n t l s)
           | None => option_map (fun o => mkAttr n (a_type o) (a_nums o) (a_text o)) (get_attr c (e_var e) (e_name e))
           end in
  let rest := filter (fun x => negb (String.eqb (e_name e) (a_name x))) (attrs_of c (e_var e)) in
  (forall c', edit_attr c e = Ok c' -> exists a', a = Some a' /\ vars c' = vars c /\ dims c' = dims c /\
     (forall x, attrs_of c' x = if String.eqb x (e_var e) then rest ++ [a'] else attrs_of c x)) /\
  (edit_attr c e = Throw <-> (e_var e <> global_ns /\ has_var c (e_var e) = false) \/ a = None \/ In n (map a_name rest)).
Proof.
  intro C. cbn zeta. set (n := if String.eqb (e_new e) "" then e_name e else e_new e).
  set (a := match e_content e with
           | Some (t, l, s) => Some (mkAttr n t l s)
           | None => option_map (fun o => mkAttr n (a_type o) (a_nums o) (a_text o)) (get_attr c (e_var e) (e_name e))
           end).
  set (rest := filter (fun x => negb (String.eqb (e_name e) (a_name x))) (attrs_of c (e_var e))).
  assert (AN : forall a', a = Some a' -> a_name a' = n).
  { unfold a. intros a' H. destruct (e_content e) as [[[t l] s]|]; [now injection H as <-|]. destruct (get_attr c (e_var e) (e_name e)); [now injection H as <-|discriminate]. }
  assert (E : edit_attr c e = if negb (String.eqb (e_var e) global_ns) && negb (has_var c (e_var e)) then Throw else
     match a with None => Throw | Some a' => match add_attr (remove_attr c (e_var e) (e_name e)) (e_var e) a' with Some c' => Ok c' | None => Throw end end).
  { unfold edit_attr, a. fold n. destruct (negb _ && negb _); [reflexivity|]. destruct (e_content e) as [[[t l] s]|]; [reflexivity|]. destruct (get_attr c (e_var e) (e_name e)); reflexivity. }
  rewrite E. clear E.
  assert (VD : vars (remove_attr c (e_var e) (e_name e)) = vars c /\ dims (remove_attr c (e_var e) (e_name e)) = dims c) by (unfold remove_attr; destruct (sfind _ _); auto).
  destruct VD as (V & D).
  assert (AR : attrs_of (remove_attr c (e_var e) (e_name e)) (e_var e) = rest) by (rewrite attrs_of_remove_attr, String.eqb_refl; reflexivity).
  destruct (negb (String.eqb (e_var e) global_ns) && negb (has_var c (e_var e))) eqn:O.
  { split; [discriminate|]. split; [intros _; left|reflexivity]. apply andb_prop in O as (O1 & O2). destruct (String.eqb_spec (e_var e) global_ns); [discriminate|]. split; [assumption|]. now destruct (has_var c (e_var e)). }
  assert (OW : e_var e = global_ns \/ In (e_var e) (vnames (remove_attr c (e_var e) (e_name e)))).
  { unfold vnames. rewrite V. destruct (String.eqb_spec (e_var e) global_ns); [now left|right]. cbn [negb andb] in O. apply has_var_in. now destruct (has_var c (e_var e)). }
  destruct a as [a'|] eqn:A.
  - destruct (in_dec string_dec n (map a_name rest)) as [I|I].
    + assert (X : add_attr (remove_attr c (e_var e) (e_name e)) (e_var e) a' = None).
      { destruct (add_attr _ _ a') as [c'|] eqn:X; [|reflexivity]. apply add_attr_some in X as (_ & X & _). rewrite AR, (AN a' eq_refl) in X. contradiction. }
      rewrite X. split; [discriminate|]. split; auto.
    + rewrite (add_attr_ok _ _ a' OW) by (rewrite AR, (AN a' eq_refl); exact I). split.
      * intros c' H. injection H as <-. exists a'. split; [reflexivity|]. split; [exact V|]. split; [exact D|]. intro x. rewrite attrs_of_put, AR. destruct (String.eqb_spec x (e_var e)); [reflexivity|].
        rewrite attrs_of_remove_attr. destruct (String.eqb_spec x (e_var e)); [congruence|reflexivity].
      * split; [discriminate|]. intros [(H1 & H2)|[H|H]]; [|discriminate|contradiction]. destruct (String.eqb_spec (e_var e) global_ns); [contradiction|]. rewrite H2 in O. discriminate.
  - split; [discriminate|]. split; auto.
Qed.

Lemma edit_shape l : forall c c', ofold edit_attr l c = Ok c' -> vars c' = vars c /\ dims c' = dims c.
Proof.
  induction l as [|e l IH]; intros c c' H; cbn [ofold] in H; [injection H as <-; auto|].
  destruct (edit_attr c e) as [c1| | |] eqn:E; try discriminate. cbn [obind] in H. destruct (IH _ _ H) as (-> & ->). unfold edit_attr in E.
  destruct (negb _ && negb _) in E; [discriminate|].
  assert (X : forall a c1, match add_attr (remove_attr c (e_var e) (e_name e)) (e_var e) a with Some c' => Ok c' | None => Throw end = Ok c1 -> vars c1 = vars c /\ dims c1 = dims c).
  { intros a c2 X. destruct (add_attr _ _ a) as [c3|] eqn:A; [|discriminate]. injection X as ->. apply add_attr_some in A as (_ & _ & ->). cbn [vars dims]. unfold remove_attr. destruct (sfind _ _); auto. }
  destruct (e_content e) as [[[t n] s]|]; cbn [obind] in E; [now apply X in E|].
  destruct (get_attr c (e_var e) (e_name e)); [|discriminate]. cbn [obind] in E. now apply X in E.
Qed.

(** The variables and dimensions written are those left, in their order, the variables with the type given. *)
Theorem C83_retyped k c w : configure k c = Ok w ->
  dims (w_cdm w) = dims (init_remove k c) /\ (forall n, sfind n (w_types w) = last_of (k_vtypes k) n) /\
  vars (w_cdm w) = map (fun v => match last_of (k_vtypes k) (v_name v) with
                                 | Some t => mkVar (v_name v) t (v_shape v) (v_counterpart v) (v_data v)
                                 | None => v
                                 end) (vars (init_remove k c)).
Proof.
  unfold configure, init_vars. intro H. set (c0 := init_remove k c) in *.
  match type of H with context [ofold ?g (k_vnames k) ?s0] => destruct (ofold g (k_vnames k) s0) as [vn| | |]; try discriminate end. cbn [obind] in H.
  match type of H with context [ofold ?g (k_vtypes k) ?s0] => destruct (ofold g (k_vtypes k) s0) as [ct| | |] eqn:T; try discriminate end. cbn [obind] in H.
  set (w0 := mkW _ vn _ _ _ _) in H. destruct (init_dims k w0) as [w2| | |] eqn:D; try discriminate. cbn [obind] in H. unfold init_atts in H.
  destruct (ofold edit_attr (k_atts k) (w_cdm w2)) as [c3| | |] eqn:A; try discriminate. cbn [obind] in H. injection H as <-. cbn [w_cdm w_types].
  apply edit_shape in A as (-> & ->).
  assert (DD : w_cdm w2 = w_cdm w0 /\ w_types w2 = w_types w0).
  { revert D. unfold init_dims. generalize (k_dnames k) w0. clear. induction l as [|p l IH]; intros w0 E; cbn [ofold] in E; [injection E as <-; auto|].
    destruct (has_dim (w_cdm w0) (fst p)); [|discriminate]. cbn [obind] in E. now apply IH in E. }
  destruct DD as (-> & ->). unfold w0. cbn [w_cdm w_types].
  assert (G : forall (l : list (string * dtype)) (a b : cdm * smap dtype),
     ofold (fun s p => if has_var (fst s) (fst p) then Ok (set_type (fst p) (snd p) (fst s), sput (fst p) (snd p) (snd s)) else Throw) l a = Ok b ->
     dims (fst b) = dims (fst a) /\ (forall n, sfind n (snd b) = match last_of l n with Some x => Some x | None => sfind n (snd a) end) /\
     vars (fst b) = map (fun v => match last_of l (v_name v) with
                                  | Some t => mkVar (v_name v) t (v_shape v) (v_counterpart v) (v_data v)
                                  | None => v
                                  end) (vars (fst a))).
  { induction l as [|[n t] l IH]; intros a b E; cbn [ofold] in E.
    - injection E as <-. split; [reflexivity|]. split; [reflexivity|]. unfold last_of. cbn. now rewrite map_id.
    - cbn [fst snd] in E. destruct (has_var (fst a) n); [|discriminate]. cbn [obind] in E. destruct (IH _ _ E) as (I1 & I2 & I3). cbn [fst snd] in *. split; [exact I1|]. split.
      + intro x. rewrite I2. unfold last_of. cbn [rev]. rewrite sfind_app, sfind_sput. cbn [sfind]. destruct (sfind x (rev l)); [reflexivity|]. now destruct (String.eqb x n).
      + rewrite I3. cbn [set_type vars]. rewrite map_map. apply map_ext. intro v. unfold last_of. cbn [rev]. rewrite sfind_app. cbn [sfind]. rewrite (String.eqb_sym (v_name v) n).
        destruct (String.eqb_spec n (v_name v)) as [->|]; cbn [v_name v_shape v_counterpart v_data].
        * destruct (sfind (v_name v) (rev l)); reflexivity.
        * destruct (sfind (v_name v) (rev l)); reflexivity. }
  destruct (G _ _ _ T) as (G1 & G2 & G3). cbn [fst snd] in *. split; [exact G1|]. split; [|exact G3].
  intro n. rewrite G2. now destruct (last_of (k_vtypes k) n).
Qed.

(** ** examples *)

Definition txt (n s : string) : cattr := mkAttr n DString [] s.
Definition ex_cdm : cdm :=
  mkCdm [mkVar "t" DDouble ["x"; "time"] "" None; mkVar "time" DInt ["time"] "" None; mkVar "lat" DFloat ["x"] "" None; mkVar "p" DNat [] "" None]
        [mkDim "time" 3 true; mkDim "x" 500 false; mkDim "y" 10 false]
        [("_GLOBAL", [txt "title" "old"]); ("t", [txt "coordinates" "lat"; mkAttr "_FillValue" DDouble [q 9] ""])].
Definition ex_conf : wconf :=
  mkConf [] [] [] [] true [("lat", "latitude")] [("t", DShort)] 13 [] [] [("x", "rlon")]
         [mkEdit "t" "_FillValue" "" (Some (DShort, [q 7], "")); mkEdit global_ns "title" "name" None].

(** A file with a variable renamed and one retyped, a dimension renamed and one removed, two attributes changed. *)
Example C83_nonvacuous :
  exists w m, configure ex_conf ex_cdm = Ok w /\ define Nc4 w = Ok m /\
    read_file m (mkNs (fun _ => 3%N) (fun _ _ => None)) =
    Ok (mkCdm [mkVar "t" DShort ["rlon"; "time"] "" None; mkVar "time" DInt ["time"] "" None; mkVar "latitude" DFloat ["rlon"] "" None; mkVar "p" DInt [] "" None]
              [mkDim "time" 3 true; mkDim "rlon" 500 false]
              [("_GLOBAL", [txt "name" "old"]); ("t", [txt "coordinates" "lat"; mkAttr "_FillValue" DShort [q 7] ""])]).
Proof. eexists. eexists. split; [vm_compute; reflexivity|]. split; [vm_compute; reflexivity|]. vm_compute. reflexivity. Qed.

(** Finding: attributes that refer to a variable by name (coordinates, grid_mapping, bounds) keep the old name when
    the variable is renamed. *)
Theorem C83_reference_refuted :
  exists w m c, configure ex_conf ex_cdm = Ok w /\ define Nc4 w = Ok m /\ read_file m new_file = Ok c /\
    get_attr c "t" "coordinates" = Some (txt "coordinates" "lat") /\ has_var c "lat" = false.
Proof. eexists. eexists. eexists. split; [vm_compute; reflexivity|]. split; [vm_compute; reflexivity|]. split; [vm_compute; reflexivity|]. split; reflexivity. Qed.

(** Finding: changing the type of a variable with a fill value is an error unless the fill value is changed too. *)
Theorem C83_retype_fill_refuted :
  exists w, configure (mkConf [] [] [] [] true [] [("t", DShort)] 13 [] [] [] []) ex_cdm = Ok w /\ define Nc4 w = Throw.
Proof. eexists. split; [vm_compute; reflexivity|]. vm_compute. reflexivity. Qed.

(** Finding: a dimension of length 0 is written with length 1. *)
Theorem C83_zero_length_refuted w n : nc_dim w (mkDim n 0 false) = Ok (mkNd (dname w n) false 1).
Proof. reflexivity. Qed.
(** Finding: lengths are reduced to 32 bits, so a length of 2^32 + 5 is written as 5. *)
Theorem C83_length_refuted w n : nc_dim w (mkDim n (2 ^ 32 + 5) false) = Ok (mkNd (dname w n) false 5).
Proof. reflexivity. Qed.
(** Finding: a variable with a dimension that is not in the metadata is undefined behaviour, since the iterator of the
    failed search is used. *)
Theorem C83_unknown_dimension_refuted f w l vs v n : In n (v_shape v) -> has_dim (w_cdm w) n = false -> nc_var f w l vs v = UB.
Proof.
  intros H N. unfold nc_var.
  assert (G : forall sh, In n sh -> omapM (fun n => rd (dim_id (w_cdm w) n)) sh = UB).
  { induction sh as [|a sh IH]; intros []; cbn [omapM].
    - subst a. unfold dim_id. destruct (index_of d_name n 0 (dims (w_cdm w))) eqn:E; [|reflexivity]. apply index_of_some in E as (_ & d & E & F).
      apply has_dim_false in N. destruct N. rewrite <- F. apply in_map. now apply nth_error_In in E.
    - unfold rd at 1. destruct (dim_id (w_cdm w) a); [cbn [obind]; now rewrite IH|reflexivity]. }
  rewrite G; [reflexivity|]. now apply -> in_rev.
Qed.
(** Finding: without netCDF-4 an attribute of type strings comes back as a string, and a trailing NUL character is
    lost in every format. *)
Theorem C83_strings_refuted : exists x, nc_att Classic (mkAttr "a" DStrings [q 1] "b") = Ok x /\ read_att x = mkAttr "a" DString [q 1] "b".
Proof. eexists. split; reflexivity. Qed.
Theorem C83_nul_refuted f : exists x, nc_att f (mkAttr "a" DString [] (String "b" (String zero ""))) = Ok x /\ read_att x = mkAttr "a" DString [] "b".
Proof. eexists. split; reflexivity. Qed.

Print Assumptions C85_accepted.
Print Assumptions C85_compress.
Print Assumptions C85_small.
Print Assumptions C85_configured.
Print Assumptions C85_chunk_length_refuted.
Print Assumptions C85_product_wraps_refuted.
Print Assumptions C83_roundtrip.
Print Assumptions C83_defined.
Print Assumptions C83_removed.
Print Assumptions C83_default.
Print Assumptions C83_renamed.
Print Assumptions C83_attribute.
Print Assumptions C83_retyped.
Print Assumptions C83_reference_refuted.
Print Assumptions C83_retype_fill_refuted.
Print Assumptions C83_zero_length_refuted.
Print Assumptions C83_length_refuted.
Print Assumptions C83_unknown_dimension_refuted.
Print Assumptions C83_strings_refuted.
Print Assumptions C83_nul_refuted.
