(** Specification and proofs for CDMReader's piecewise reading and for DataIndex. *)
From Coq Require Import NArith ZArith String List Bool Lia Arith.
From Coq Require Import ZifyBool ZifyNat ZifyN.
From Verif Require Import Base StdMap IndexSpec SliceModel SliceProofs ReaderModel.
Import ListNotations.
Local Open Scope nat_scope.

Lemma length_concat_blocks {A} c (bs : list (list A)) :
  Forall (fun b => length b = c) bs -> length (concat bs) = c * length bs.
Proof.
  induction 1 as [|b bs H HF IH]; cbn; [lia|]. rewrite app_length, IH, H. lia.
Qed.

Lemma nth_error_concat_blocks {A} c (bs : list (list A)) i b k :
  Forall (fun b => length b = c) bs -> nth_error bs i = Some b -> k < c ->
  nth_error (concat bs) (k + c * i) = nth_error b k.
Proof.
  intros HF; revert i; induction HF as [|b0 bs H HF IH]; intros i E K; [destruct i; discriminate|].
  destruct i as [|i]; cbn in *.
  - injection E as ->. rewrite nth_error_app1 by lia. f_equal. lia.
  - rewrite nth_error_app2 by lia. rewrite <- (IH i E K). f_equal. lia.
Qed.

Lemma copy_data_full {A} (this other : list A) pos last :
  pos + length other <= length this ->
  (ofN (length this) + ofN (length other) < M64)%N ->
  (ofN (length other) <= last)%N ->
  copy_data this other (ofN pos) 0 last
  = Ok (firstn pos this ++ other ++ skipn (pos + length other) this).
Proof.
  intros H1 H2 H3. unfold copy_data.
  replace (ofN (length other) <? 0)%N with false by (symmetry; apply N.ltb_ge; lia).
  rewrite sub64_small by lia. rewrite add64_small by lia.
  replace (N.min last (ofN (length other))) with (ofN (length other)) by lia.
  replace (N.min _ _) with (ofN (length other)) by lia.
  destruct (N.ltb_spec 0 (ofN (length other))) as [C|C].
  - unfold write_block. cbn [skipn N.to_nat]. rewrite firstn_all2 by lia.
    replace (_ <=? _)%N with true by (symmetry; apply N.leb_le; lia).
    rewrite Nat2N.id. reflexivity.
  - destruct other; [|cbn in C; lia]. cbn. rewrite Nat.add_0_r, firstn_skipn. reflexivity.
Qed.

(** *** splitting the request at the unlimited dimension *)

Lemma split_dims_other unl ns start size max acc :
  ~ In unl ns ->
  length ns = length start -> length ns = length size -> length ns = length max ->
  forall rest rs rz rm,
  split_dims unl (ns ++ rest) (map ofN start ++ rs) (map ofN size ++ rz) (map ofN max ++ rm) acc =
  split_dims unl rest rs rz rm
    (mkSplit (u_start acc) (u_size acc) (o_start acc ++ map ofN start) (o_size acc ++ map ofN size)
             (o_max acc ++ map ofN max) (fold_left mul64 (map ofN size) (o_cells acc))).
Proof.
  revert start size max acc; induction ns as [|n ns IH]; intros [|s ss] [|z zs] [|m ms] acc NI L1 L2 L3 rest rs rz rm;
    try discriminate.
  - cbn. rewrite !app_nil_r. destruct acc; reflexivity.
  - cbn [app map split_dims]. destruct (String.eqb_spec n unl) as [->|NE].
    + exfalso. apply NI. left; auto.
    + rewrite IH by (try (intro; apply NI; right; auto); cbn in *; lia).
      f_equal. cbn. rewrite <- !app_assoc. reflexivity.
Qed.

Lemma fold_mul64 l a : fold_left mul64 (map ofN l) (w64 a) = w64 (a * ofN (cells l)).
Proof.
  revert a; induction l as [|x l IH]; intro a; cbn; [f_equal; lia|].
  rewrite mul64_wl, IH. f_equal. nia.
Qed.

Section Read.
  Context {A : Type}.
  Variable records : nat -> list A.
  Variable fill : A.
  Variables ns : list string.
  Variable unl : string.
  Variables start size max : list nat.
  Variables us un U : nat.
  Hypothesis Hns : ~ In unl ns.
  Hypothesis Hlen : length ns = length max.
  Hypothesis Hfit : fits max start size.

  (** what the reader's own getDataSlice(varName, u) returns *)
  Definition record_fn (u : N) : outcome (list A) := Ok (records (N.to_nat u)).

  (** the record a user sees: fill values when it is missing *)
  Definition logical (u : nat) : list A :=
    match records u with [] => repeat fill (cells max) | r => r end.

  (** the complete variable with [n] records *)
  Definition whole (n : nat) : list A := concat (map logical (seq 0 n)).

  Hypothesis Hmax : forall k d, nth_error max k = Some d -> (ofN d < M64)%N.
  Hypothesis Htot : (ofN (cells size * un) + ofN (cells max) < M64)%N.
  Hypothesis Hend : (ofN (us + un) < M64)%N.

  Definition sp : split :=
    mkSplit (ofN us) (ofN un) (map ofN start) (map ofN size) (map ofN max) (w64 (ofN (cells size))).

  Lemma split_dims_full :
    split_dims unl (ns ++ [unl]) (map ofN (start ++ [us])) (map ofN (size ++ [un])) (map ofN (max ++ [U]))
               (mkSplit 0 0 [] [] [] 1) = Ok sp.
  Proof using Hfit Hns Hlen.
    clear Htot Hend Hmax records fill.
    destruct Hfit as (L1 & L2 & _).
    rewrite !map_app. rewrite split_dims_other by (auto; lia). cbn [map].
    cbn [split_dims u_start u_size o_start o_size o_max o_cells]. rewrite String.eqb_refl.
    cbn. change 1%N with (w64 1). rewrite fold_mul64. rewrite N.mul_1_l. reflexivity.
  Qed.

  Lemma logical_length u : (records u = [] \/ length (records u) = cells max) ->
    length (logical u) = cells max.
  Proof.
    intros [E|E]; unfold logical.
    - rewrite E. apply repeat_length.
    - destruct (records u); [rewrite repeat_length|]; auto.
  Qed.

  Lemma lin_lt_fit idx : inside size idx -> lin max (shift start idx) < cells max.
  Proof. intro H. apply lin_lt. eapply shift_inside; eauto. Qed.

  (** one iteration: writes the box of record [us + i] at block [i] *)
  Lemma join_one_ok i pre post :
    let c := cells size in
    i < un -> length pre = c * i -> length post = c * (un - S i) ->
    (records (us + i) = [] \/ length (records (us + i)) = cells max) ->
    exists b, join_one record_fn sp (pre ++ repeat fill c ++ post) (ofN i) = Ok (pre ++ b ++ post)
      /\ is_box (logical (us + i)) max start size b.
  Proof.
    intros c Hi Lpre Lpost Hrec.
    assert (c * i + c <= c * un) as Hc by nia.
    assert (ofN c < M64)%N as Hc64 by (unfold c in *; nia).
    unfold join_one, sp, record_fn. cbn [u_start o_max o_start o_size o_cells].
    rewrite (w64_small (ofN (cells size))) by exact Hc64.
    rewrite add64_small by lia.
    replace (N.to_nat (ofN i + ofN us)) with (us + i) by lia. cbn [obind].
    unfold logical. destruct (records (us + i)) as [|x r] eqn:ER.
    - exists (repeat fill c). split; auto. split; [apply repeat_length|].
      intros idx Hin. pose proof (lin_lt _ _ Hin) as H1. pose proof (lin_lt_fit _ Hin) as H2.
      rewrite !nth_error_repeat. apply Nat.ltb_lt in H1, H2. unfold c. rewrite H1, H2. reflexivity.
    - destruct Hrec as [E|E]; [discriminate|].
      destruct (slice_ok (x :: r) max start size Hfit (eq_sym E)) as (b & Eb & Hb).
      + rewrite E. lia.
      + auto.
      + exists b. split; auto. rewrite Eb. cbn [obind].
        destruct Hb as [Lb Hb]. rewrite Lb. fold c. rewrite N.eqb_refl. cbn [negb].
        rewrite mul64_small by nia.
        replace (ofN i * ofN c)%N with (ofN (c * i)) by lia.
        rewrite copy_data_full.
        * rewrite Lb. fold c. f_equal.
          rewrite <- Lpre at 1. rewrite firstn_app, firstn_all, Nat.sub_diag. cbn [firstn]. rewrite app_nil_r.
          f_equal. f_equal.
          rewrite !skipn_app. rewrite (skipn_all2 pre) by lia.
          rewrite (skipn_all2 (repeat _ _)) by (rewrite repeat_length; lia).
          rewrite repeat_length.
          replace (c * i + c - length pre - c) with 0 by lia. reflexivity.
        * rewrite !app_length, repeat_length, Lb. fold c. lia.
        * rewrite !app_length, repeat_length, Lb. fold c.
          pose proof (cells_fits _ _ _ Hfit). fold c in H. nia.
        * rewrite Lb. fold c. lia.
  Qed.

  Lemma join_loop n i pre :
    let c := cells size in
    i + n = un -> length pre = c * i ->
    (forall k, us + i <= k < us + un -> records k = [] \/ length (records k) = cells max) ->
    exists bs, ofold (join_one record_fn sp) (map ofN (seq i n)) (pre ++ repeat fill (c * n))
        = Ok (pre ++ concat bs) /\
      length bs = n /\
      forall k b, nth_error bs k = Some b -> is_box (logical (us + i + k)) max start size b.
  Proof.
    intro c. revert i pre; induction n as [|n IH]; intros i pre Hn Lp Hrec.
    - exists []. cbn. rewrite Nat.mul_0_r. cbn. split; auto. split; auto.
      intros [|k] b E; discriminate.
    - replace (c * S n) with (c + c * n) by lia. rewrite repeat_app.
      destruct (join_one_ok i pre (repeat fill (c * n))) as (b & Eb & Hb).
      + lia.
      + auto.
      + rewrite repeat_length. unfold c. f_equal. lia.
      + apply Hrec. lia.
      + cbn [seq map ofold]. fold c in Eb. rewrite Eb. cbn [obind].
        destruct (IH (S i) (pre ++ b)) as (bs & E & L & H).
        * lia.
        * rewrite app_length. destruct Hb as [Lb _]. rewrite Lb. fold c. lia.
        * intros k Hk. apply Hrec. lia.
        * rewrite <- app_assoc in E. rewrite E. exists (b :: bs). cbn. rewrite <- app_assoc.
          split; auto. split; [lia|]. intros [|k] b' Ek; cbn in Ek.
          -- injection Ek as <-. rewrite Nat.add_0_r. auto.
          -- replace (us + i + S k) with (us + S i + k) by lia. auto.
  Qed.

  Lemma inside_snoc sz z idx : inside (sz ++ [z]) idx ->
    exists j i, idx = j ++ [i] /\ inside sz j /\ i < z.
  Proof.
    intro H. apply Forall2_app_inv_l in H as (j & l & H1 & H2 & ->).
    inversion H2 as [|? i ? ? Hi H3]; subst. inversion H3; subst. exists j, i. auto.
  Qed.

  Hypothesis Hrec : forall k, k < us + un -> records k = [] \/ length (records k) = cells max.

  Theorem read_slice_ok :
    us + un <= U ->
    exists out,
      get_data_slice_unlim record_fn fill unl (ns ++ [unl])
        (map ofN (start ++ [us])) (map ofN (size ++ [un])) (map ofN (max ++ [U])) = Ok out /\
      is_box (whole (us + un)) (max ++ [U]) (start ++ [us]) (size ++ [un]) out.
  Proof.
    intro HU.
    unfold get_data_slice_unlim. rewrite split_dims_full. cbn [obind].
    unfold sp at 1. cbn [u_size].
    destruct (N.eqb_spec (ofN un) 0) as [E0|E0].
    - exists []. split; auto. split.
      + rewrite cells_app. cbn. lia.
      + intros idx H. apply inside_snoc in H as (j & i & _ & _ & H). lia.
    - cbn [u_size o_cells sp].
      destruct (join_loop un 0 []) as (bs & E & L & H); auto; try lia.
      { intros k Hk. apply Hrec. lia. }
      cbn [app] in E.
      assert (ofN (cells size) < M64)%N by nia.
      rewrite (w64_small (ofN (cells size))) by auto.
      rewrite mul64_small by nia. rewrite Nat2N.id.
      replace (N.to_nat (ofN (cells size) * ofN un)) with (cells size * un) by lia.
      rewrite E. exists (concat bs). split; auto.
      assert (Forall (fun b => length b = cells size) bs) as HF.
      { apply Forall_forall. intros b Hb. apply In_nth_error in Hb as [k Hk].
        destruct (H k b Hk) as [Lb _]. exact Lb. }
      split.
      + rewrite (length_concat_blocks (cells size)) by auto. rewrite cells_app, L. cbn. lia.
      + intros idx Hin. apply inside_snoc in Hin as (j & i & -> & Hj & Hi).
        pose proof (inside_length _ _ Hj) as Lj.
        destruct Hfit as (L1 & L2 & _).
        rewrite lin_app by auto. cbn [lin]. rewrite Nat.mul_0_r, Nat.add_0_r.
        destruct (nth_error bs i) as [b|] eqn:Eb; [|apply nth_error_None in Eb; lia].
        rewrite (nth_error_concat_blocks _ _ _ b) by (auto using lin_lt).
        destruct (H i b Eb) as [_ Hb]. rewrite (Hb j Hj).
        rewrite shift_app by lia. cbn [shift].
        rewrite lin_app by (rewrite shift_length; lia). cbn [lin].
        rewrite Nat.mul_0_r, Nat.add_0_r.
        unfold whole. symmetry.
        apply nth_error_concat_blocks.
        * apply Forall_forall. intros l Hl. apply in_map_iff in Hl as (k & <- & Hk).
          apply in_seq in Hk. apply logical_length. apply Hrec. lia.
        * rewrite nth_error_map, nth_error_seq.
          replace (_ <? us + un) with true by (symmetry; apply Nat.ltb_lt; lia).
          cbn. f_equal. f_equal. lia.
        * apply lin_lt_fit; auto.
  Qed.
End Read.

(** *** a record of the wrong length *)
Section Wrong.
  Context {A : Type}.
  Variable records : nat -> list A.
  Variable fill : A.
  Variables ns : list string.
  Variable unl : string.
  Variables start size max : list nat.
  Variables us un U : nat.
  Hypothesis Hns : ~ In unl ns.
  Hypothesis Hlen : length ns = length max.
  Hypothesis Hfit : fits max start size.
  Hypothesis Hmax : forall k d, nth_error max k = Some d -> (ofN d < M64)%N.
  Hypothesis Hcm : (ofN (cells max) < M64)%N.
  Hypothesis Htot : (ofN (cells size * un) + ofN (cells max) < M64)%N.
  Hypothesis Hend : (ofN (us + un) < M64)%N.
  Variable bad : nat.
  Hypothesis Hbad : us <= bad < us + un.
  Hypothesis Hne : records bad <> [].
  Hypothesis Hwrong : length (records bad) <> cells max.
  Hypothesis Hb64 : (ofN (length (records bad)) < M64)%N.
  Hypothesis Hgood : forall k, k < bad -> records k = [] \/ length (records k) = cells max.

  Lemma join_one_wrong ret :
    join_one (record_fn records) (sp start size max us un) ret (ofN (bad - us)) = Throw.
  Proof.
    unfold join_one, sp, record_fn. cbn [u_start o_max o_start o_size o_cells].
    rewrite add64_small by lia.
    replace (N.to_nat (ofN (bad - us) + ofN us)) with bad by lia. cbn [obind].
    destruct (records bad) as [|x r] eqn:E; [congruence|].
    destruct max as [|m ms] eqn:EM.
    - cbn [map slice obind]. destruct Hfit as (L1 & L2 & _).
      destruct size; [|discriminate]. cbn [cells] in *.
      rewrite w64_small by lia.
      replace (ofN (length (x :: r)) =? ofN 1)%N with false; auto.
      symmetry. apply N.eqb_neq. lia.
    - rewrite slice_throw_mismatch; auto; discriminate.
  Qed.

  Lemma ofold_app {S B} (f : S -> B -> outcome S) l1 l2 s :
    ofold f (l1 ++ l2) s = do s' <- ofold f l1 s; ofold f l2 s'.
  Proof.
    revert s; induction l1 as [|a l1 IH]; intro s; cbn; auto.
    destruct (f s a); cbn; auto.
  Qed.

  Theorem read_slice_wrong_length :
    get_data_slice_unlim (record_fn records) fill unl (ns ++ [unl])
      (map ofN (start ++ [us])) (map ofN (size ++ [un])) (map ofN (max ++ [U])) = Throw.
  Proof.
    unfold get_data_slice_unlim. rewrite (split_dims_full ns unl start size max us un U) by auto.
    cbn [obind]. unfold sp at 1. cbn [u_size].
    destruct (N.eqb_spec (ofN un) 0) as [E0|E0]; [lia|].
    cbn [u_size o_cells sp]. rewrite Nat2N.id.
    assert (ofN (cells size) < M64)%N by nia.
    rewrite (w64_small (ofN (cells size))) by auto.
    rewrite mul64_small by nia.
    replace (N.to_nat (ofN (cells size) * ofN un)) with (cells size * un) by lia.
    replace (seq 0 un) with (seq 0 ((bad - us) + S (un - (bad - us) - 1))) by (f_equal; lia).
    rewrite seq_app, map_app, ofold_app.
    cbn [seq map ofold Nat.add].
    assert (forall n i ret, i + n <= bad - us -> length ret = cells size * un ->
       exists r, ofold (join_one (record_fn records) (sp start size max us un)) (map ofN (seq i n)) ret = Ok r
                 /\ length r = cells size * un) as HL.
    { induction n as [|n IH]; intros i ret Hi HLr; [exists ret; auto|].
      cbn [seq map ofold].
      assert (exists r, join_one (record_fn records) (sp start size max us un) ret (ofN i) = Ok r
                 /\ length r = cells size * un) as (r & Er & Lr).
      { unfold join_one, sp, record_fn. cbn [u_start o_max o_start o_size o_cells].
        rewrite add64_small by lia.
        replace (N.to_nat (ofN i + ofN us)) with (us + i) by lia. cbn [obind].
        destruct (Hgood (us + i)) as [E|E]; [lia|rewrite E; eauto|].
        destruct (records (us + i)) as [|x r] eqn:ER; [eauto|].
        destruct (slice_ok (x :: r) max start size Hfit (eq_sym E)) as (b & Eb & Lb & _); auto.
        { rewrite E. auto. }
        rewrite Eb. cbn [obind]. rewrite Lb. rewrite w64_small by auto. rewrite N.eqb_refl. cbn [negb].
        rewrite mul64_small by nia.
        replace (ofN i * ofN (cells size))%N with (ofN (cells size * i)) by lia.
        pose proof (cells_fits _ _ _ Hfit).
        rewrite copy_data_full by nia.
        eexists; split; [reflexivity|].
        rewrite !app_length, firstn_length, skipn_length. nia. }
      rewrite Er. cbn [obind]. apply IH; auto. lia. }
    destruct (HL (bad - us) 0 (repeat fill (cells size * un))) as (r & Er & Lr); [lia|apply repeat_length|].
    rewrite Er. cbn [obind]. rewrite join_one_wrong. reflexivity.
  Qed.
End Wrong.

(** *** getData *)
Section GetData.
  Context {A : Type}.
  Variable records : nat -> list A.
  Variable zero : A.
  Variables n c : nat.
  Hypothesis Hrec : forall k, k < n -> length (records k) = c.
  Hypothesis Htot : (ofN (c * n) + ofN c < M64)%N.

  Theorem get_data_ok :
    get_data_unlim (record_fn records) zero (ofN n) (ofN c) = Ok (concat (map records (seq 0 n))).
  Proof.
    unfold get_data_unlim. rewrite mul64_small by nia. rewrite Nat2N.id.
    replace (N.to_nat (ofN n * ofN c)) with (c * n) by lia.
    assert (forall m i pre, i + m = n -> length pre = c * i ->
      ofold (fun ret i => do r <- record_fn records i; copy_data ret r (mul64 i (ofN c)) 0 (ofN c))
        (map ofN (seq i m)) (pre ++ repeat zero (c * m)) = Ok (pre ++ concat (map records (seq i m)))) as HL.
    { induction m as [|m IH]; intros i pre Hm Lp.
      - cbn. rewrite Nat.mul_0_r. reflexivity.
      - cbn [seq map ofold concat]. unfold record_fn at 1. cbn [obind]. rewrite Nat2N.id.
        rewrite mul64_small by nia. replace (ofN i * ofN c)%N with (ofN (c * i)) by lia.
        assert (length (records i) = c) as Lr by (apply Hrec; lia).
        assert (c * i + c <= c * n) by nia.
        rewrite copy_data_full.
        + cbn [obind].
          replace (c * S m) with (c + c * m) by lia. rewrite repeat_app.
          rewrite <- Lp at 1. rewrite firstn_app, firstn_all, Nat.sub_diag. cbn [firstn]. rewrite app_nil_r.
          rewrite !skipn_app. rewrite (skipn_all2 pre) by lia.
          rewrite (skipn_all2 (repeat _ _)) by (rewrite repeat_length; lia).
          rewrite repeat_length. rewrite Lr.
          replace (c * i + c - length pre - c) with 0 by lia. cbn [skipn app].
          rewrite app_assoc. rewrite IH; [|lia|rewrite app_length; lia].
          rewrite <- app_assoc. reflexivity.
        + rewrite !app_length, repeat_length. nia.
        + rewrite !app_length, repeat_length. nia.
        + lia. }
    apply (HL n 0 []); cbn; lia.
  Qed.
End GetData.

(** *** slicing data held in memory *)
Lemma all_init_map {A} (l : list A) : all_init (map Some l) = Ok l.
Proof. induction l as [|a l IH]; cbn; auto. rewrite IH. reflexivity. Qed.

Lemma create_data_slice_ok {A} (data : list A) pos len :
  pos + len <= length data -> (ofN (length data) + ofN len < M64)%N ->
  create_data_slice data (ofN pos) (ofN len) = Ok (firstn len (skipn pos data)).
Proof.
  intros H1 H2. unfold create_data_slice. rewrite Nat2N.id. rewrite add64_small by lia.
  destruct (copy_data_ok (repeat (@None A) len) (map Some data) 0 pos (ofN pos + ofN len)%N) as (r & E & Lr & Hr).
  - rewrite repeat_length. lia.
  - rewrite map_length. lia.
  - rewrite repeat_length, map_length. lia.
  - change (ofN 0) with 0%N in E. rewrite E. cbn [obind].
    replace r with (map Some (firstn len (skipn pos data))); [apply all_init_map|].
    apply nth_error_ext. intro i. rewrite Hr.
    rewrite !repeat_length, !map_length in *.
    replace (Nat.min _ _) with len by lia.
    rewrite nth_error_map, nth_error_firstn, nth_error_skipn, nth_error_map, nth_error_repeat.
    rewrite Nat.sub_0_r. cbn [Nat.leb andb Nat.add].
    destruct (i <? len); auto.
Qed.

(** one past the last record: nothing is copied, the cells stay indeterminate *)
Lemma create_data_slice_past {A} (data : list A) len :
  0 < len -> (ofN (length data) + ofN len < M64)%N ->
  create_data_slice data (ofN (length data)) (ofN len) = UB.
Proof.
  intros H1 H2. unfold create_data_slice. rewrite Nat2N.id. rewrite add64_small by lia.
  unfold copy_data. rewrite !repeat_length, !map_length.
  rewrite N.ltb_irrefl. rewrite sub64_small by lia. rewrite add64_small by lia.
  replace (N.min _ _) with (ofN (length data)) by lia.
  rewrite N.ltb_irrefl. cbn [obind]. destruct len; [lia|]. reflexivity.
Qed.

Lemma slice_from_memory_ok {A} (records : list (list A)) c i b :
  Forall (fun r => length r = c) records -> nth_error records i = Some b -> 0 < c ->
  (ofN (c * length records) + ofN c < M64)%N ->
  slice_from_memory (concat records) (ofN c) (ofN i) = Ok b.
Proof.
  intros HF E Hc H64. unfold slice_from_memory.
  pose proof (length_concat_blocks c records HF) as L.
  assert (i < length records) as Hi by (apply nth_error_Some; congruence).
  destruct (concat records) as [|x l] eqn:EC; [cbn in L; nia|]. rewrite <- EC in *.
  rewrite mul64_small by nia.
  replace (ofN i * ofN c)%N with (ofN (c * i)) by lia.
  rewrite create_data_slice_ok by nia. f_equal.
  assert (length b = c) as Lb.
  { rewrite Forall_forall in HF. apply HF. eapply nth_error_In; eauto. }
  apply nth_error_ext. intro k. rewrite nth_error_firstn, nth_error_skipn.
  destruct (Nat.ltb_spec k c).
  - rewrite Nat.add_comm. apply nth_error_concat_blocks; auto.
  - rewrite nth_error_None_ge; auto. lia.
Qed.

(** *** DataIndex *)

Lemma di_slices_length dims : length (slice_sizes 1 dims) = length dims.
Proof. generalize 1%N. induction dims as [|d ds IH]; intro a; cbn; auto. Qed.

(** positions for the first dimensions only; the others count as 0 *)
Lemma di_loop_ok acc p dims idx rest :
  length idx <= length dims ->
  di_getPos_loop (slice_sizes (w64 acc) (map ofN dims) ++ rest) (map ofN idx) (w64 p)
  = Ok (w64 (p + acc * ofN (lin dims (idx ++ repeat 0 (length dims - length idx))))).
Proof.
  revert idx acc p; induction dims as [|d ds IH]; intros [|i is] acc p L; cbn in L; try lia.
  - cbn [map di_getPos_loop lin]. change (ofN 0) with 0%N. rewrite N.mul_0_r, N.add_0_r.
    destruct rest; reflexivity.
  - assert (forall ds : list nat, lin ds (repeat 0 (length ds)) = 0) as Z.
    { clear. induction ds; cbn; auto. rewrite IHds. lia. }
    cbn [map di_getPos_loop app length Nat.sub lin repeat].
    rewrite Z, Nat.mul_0_r. change (ofN (0 + 0)) with 0%N. rewrite N.mul_0_r, N.add_0_r. reflexivity.
  - cbn [map di_getPos_loop slice_sizes app length Nat.sub lin].
    rewrite mul64_wl, mul64_w, add64_w.
    replace (w64 (p + w64 (ofN i * acc)))%N with (w64 (p + ofN i * acc))%N
      by (unfold w64; rewrite N.add_mod_idemp_r by discriminate; reflexivity).
    rewrite IH by lia.
    f_equal. f_equal. nia.
Qed.

Lemma di_getPos_prefix dims idx :
  (ofN (cells dims) < M64)%N ->
  inside dims (idx ++ repeat 0 (length dims - length idx)) ->
  di_getPos (map ofN dims) (map ofN idx)
  = Ok (ofN (lin dims (idx ++ repeat 0 (length dims - length idx)))).
Proof.
  intros H Hin. unfold di_getPos, di_slices.
  pose proof (inside_length _ _ Hin) as L. rewrite app_length, repeat_length in L.
  pose proof (di_loop_ok 1 0 dims idx (repeat 0%N (10 - length (map ofN dims))) ltac:(lia)) as E.
  change (w64 1) with 1%N in E. change (w64 0) with 0%N in E. rewrite E.
  pose proof (lin_lt _ _ Hin). rewrite w64_small by lia. f_equal. lia.
Qed.

Lemma di_getPos_ok dims idx :
  (ofN (cells dims) < M64)%N ->
  inside dims idx ->
  di_getPos (map ofN dims) (map ofN idx) = Ok (ofN (lin dims idx)).
Proof.
  intros H Hin. pose proof (inside_length _ _ Hin) as L.
  pose proof (di_getPos_prefix dims idx H) as E.
  rewrite L, Nat.sub_diag in E. cbn in E. rewrite app_nil_r in E. auto.
Qed.

(** extra positions up to ten dimensions are ignored *)
Lemma di_loop_zeros n pos p :
  length pos <= n -> (p < M64)%N -> di_getPos_loop (repeat 0%N n) pos p = Ok p.
Proof.
  revert n; induction pos as [|x pos IH]; intros [|n] L H; cbn in L; try lia; auto.
  cbn. unfold mul64. rewrite N.mul_0_r. change (w64 0) with 0%N. rewrite add64_small by lia.
  rewrite N.add_0_r. apply IH; auto. lia.
Qed.

Lemma di_loop_app s1 s2 p1 p2 p q :
  length s1 = length p1 -> di_getPos_loop s1 p1 p = Ok q ->
  di_getPos_loop (s1 ++ s2) (p1 ++ p2) p = di_getPos_loop s2 p2 q.
Proof.
  revert p1 p; induction s1 as [|s s1 IH]; intros [|x p1] p L E; try discriminate; cbn in *.
  - congruence.
  - apply IH; auto.
Qed.

Lemma di_getPos_extra dims idx extra :
  (ofN (cells dims) < M64)%N ->
  inside dims idx -> length dims + length extra <= 10 ->
  di_getPos (map ofN dims) (map ofN idx ++ extra) = Ok (ofN (lin dims idx)).
Proof.
  intros H Hin Hx. pose proof (inside_length _ _ Hin) as L.
  pose proof (di_loop_ok 1 0 dims idx [] ltac:(lia)) as E.
  change (w64 1) with 1%N in E. change (w64 0) with 0%N in E.
  rewrite L, Nat.sub_diag in E. cbn [repeat] in E. rewrite !app_nil_r in E.
  pose proof (lin_lt _ _ Hin). rewrite w64_small in E by lia.
  unfold di_getPos, di_slices.
  assert (length (slice_sizes 1 (map ofN dims)) = length (map ofN idx)) as LL
    by (rewrite di_slices_length, !map_length; lia).
  rewrite (di_loop_app _ _ _ _ _ _ LL E).
  rewrite map_length. rewrite di_loop_zeros by lia. f_equal. lia.
Qed.

Lemma di_too_many dims pos :
  Nat.max (length dims) 10 < length pos -> di_getPos dims pos = Throw.
Proof.
  intro H. unfold di_getPos.
  assert (length (di_slices dims) < length pos) as H2.
  { unfold di_slices. rewrite app_length, di_slices_length, repeat_length. lia. }
  clear H. revert H2. generalize (di_slices dims) 0%N.
  induction pos as [|x pos IH]; intros [|s l] p H; cbn in *; try lia; auto.
  apply IH. lia.
Qed.

Lemma di_slices_head dims : 0 < length dims ->
  exists s1 s2 s3 rest, di_slices dims = 1%N :: s1 :: s2 :: s3 :: rest.
Proof.
  intro H. unfold di_slices.
  destruct dims as [|a [|b [|c [|d dims]]]]; cbn [length] in *; [lia| | | |];
    cbn [slice_sizes app repeat Nat.sub]; do 4 eexists; reflexivity.
Qed.

Lemma w64_add_l a b : w64 (w64 a + b) = w64 (a + b).
Proof. unfold w64. apply N.add_mod_idemp_l. discriminate. Qed.

Lemma w64_idem a : w64 (w64 a) = w64 a.
Proof. unfold w64. apply N.mod_mod. discriminate. Qed.

Lemma di_first a : add64 0 (mul64 a 1) = w64 a.
Proof. unfold add64, mul64. rewrite N.mul_1_r, N.add_0_l. apply w64_idem. Qed.

Lemma di_getPos1_eq dims a : 0 < length dims -> di_getPos dims [a] = di_getPos1 dims (w64 a).
Proof.
  intro H. destruct (di_slices_head dims H) as (s1 & s2 & s3 & rest & E).
  unfold di_getPos, di_getPos1. rewrite E. cbn [di_getPos_loop]. rewrite di_first. reflexivity.
Qed.

Lemma di_getPos2_eq dims a b : 0 < length dims -> di_getPos dims [a; b] =
  di_getPos2 dims (w64 a) b.
Proof.
  intro H. destruct (di_slices_head dims H) as (s1 & s2 & s3 & rest & E).
  unfold di_getPos, di_getPos2, at_. rewrite E. cbn [di_getPos_loop nth_error obind].
  rewrite di_first. reflexivity.
Qed.

Lemma di_getPos3_eq dims a b c : 0 < length dims -> di_getPos dims [a; b; c] =
  di_getPos3 dims (w64 a) b c.
Proof.
  intro H. destruct (di_slices_head dims H) as (s1 & s2 & s3 & rest & E).
  unfold di_getPos, di_getPos3, at_. rewrite E. cbn [di_getPos_loop nth_error obind].
  rewrite di_first. reflexivity.
Qed.

Lemma di_getPos4_eq dims a b c d : 0 < length dims -> di_getPos dims [a; b; c; d] =
  di_getPos4 dims (w64 a) b c d.
Proof.
  intro H. destruct (di_slices_head dims H) as (s1 & s2 & s3 & rest & E).
  unfold di_getPos, di_getPos4, at_. rewrite E. cbn [di_getPos_loop nth_error obind].
  rewrite di_first. destruct rest; reflexivity.
Qed.

Lemma product64_spec dims : product64 (map ofN dims) = w64 (ofN (cells dims)).
Proof. unfold product64. change 1%N with (w64 1). rewrite fold_mul64. f_equal. lia. Qed.
