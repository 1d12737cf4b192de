(** Proofs about slice requests (SliceBuilder). *)
From Coq Require Import NArith ZArith String List Bool Lia Arith.
From Coq Require Import ZifyBool ZifyNat ZifyN.
From Verif Require Import Base StdMap SliceModel.
Import ListNotations.
Local Open Scope nat_scope.

(** ** Specification: what a history of calls means for one dimension *)

(** Does the call name dimension [d] and is it acceptable for a dimension of maximum length [m]? *)
Definition acceptable (d : string) (m : N) (unl : bool) (op : sb_op) : bool :=
  match op with
  | SetStartAndSize d' s z => String.eqb d' d && (unl || (s + z <=? m)%N)
  | SetAll d' => String.eqb d' d
  end.

Definition requested (m : N) (op : sb_op) : N * N :=
  match op with
  | SetStartAndSize _ s z => (s, z)
  | SetAll _ => (0%N, m)
  end.

(** The last acceptable request for the dimension, the full extent if there is none. *)
Definition last_request (d : string) (m : N) (unl : bool) (ops : list sb_op) : N * N :=
  last (map (requested m) (filter (acceptable d m unl) ops)) (0%N, m).

(** The machine sum of the request does not wrap. *)
Definition no_wrap (op : sb_op) : Prop :=
  match op with
  | SetStartAndSize _ s z => (s + z < M64)%N
  | SetAll _ => True
  end.

(** ** Lemmas *)
Lemma sfind_sb_fill names d pos m :
  NoDup names ->
  sfind d (sb_fill names pos m) =
  match List.find (fun p => match nth_error names p with Some n => String.eqb n d | None => false end)
             (seq 0 (length names)) with
  | Some p => Some (pos + p)
  | None => sfind d m
  end.
Proof.
  revert pos m; induction names as [|n ns IH]; intros pos m ND; cbn; auto.
  inversion ND as [|? ? Hni Hnd]; subst.
  rewrite IH by auto. rewrite sfind_sput.
  rewrite <- seq_shift.
  assert (forall l, find (fun p => match nth_error (n :: ns) p with
                              | Some n0 => String.eqb n0 d | None => false end) (map S l)
          = option_map S (find (fun p => match nth_error ns p with
                              | Some n0 => String.eqb n0 d | None => false end) l)) as EF.
  { induction l as [|a l IHl]; cbn; auto. destruct (nth_error ns a) as [x|]; auto.
    destruct (String.eqb x d); auto. }
  rewrite EF. clear EF.
  destruct (String.eqb_spec n d) as [->|Hnd2].
  - destruct (find _ (seq 0 (length ns))) as [p|] eqn:E.
    + apply find_some in E as [_ E]. destruct (nth_error ns p) as [x|] eqn:Ex; [|discriminate].
      apply String.eqb_eq in E as ->. apply nth_error_In in Ex. tauto.
    + rewrite String.eqb_refl. f_equal. lia.
  - destruct (find _ (seq 0 (length ns))) as [p|] eqn:E; cbn.
    + f_equal; lia.
    + destruct (String.eqb_spec d n); congruence.
Qed.

Lemma find_nth_in names d p :
  NoDup names -> nth_error names p = Some d ->
  find (fun q => match nth_error names q with Some n => String.eqb n d | None => false end)
       (seq 0 (length names)) = Some p.
Proof.
  intros ND H.
  destruct (find _ _) as [q|] eqn:E.
  - apply find_some in E as [_ E]. destruct (nth_error names q) as [x|] eqn:Ex; [|discriminate].
    apply String.eqb_eq in E as ->. f_equal.
    eapply NoDup_nth_error; eauto.
    + apply nth_error_Some; congruence.
    + congruence.
  - assert (p < length names) as Hp by (apply nth_error_Some; congruence).
    eapply find_none with (x := p) in E; [|apply in_seq; lia].
    cbn in E. rewrite H, String.eqb_refl in E. discriminate.
Qed.

Lemma find_nth_notin names d :
  ~ In d names ->
  find (fun q => match nth_error names q with Some n => String.eqb n d | None => false end)
       (seq 0 (length names)) = None.
Proof.
  intro H. destruct (find _ _) as [q|] eqn:E; auto.
  apply find_some in E as [_ E]. destruct (nth_error names q) as [x|] eqn:Ex; [|discriminate].
  apply String.eqb_eq in E as ->. apply nth_error_In in Ex. tauto.
Qed.

Section Builder.
  Variables (names : list string) (sizes : list N) (unlim : list bool) (sb0 : slice_builder).
  Hypothesis Hinit : sb_init names sizes unlim = Ok sb0.
  Hypothesis Hnodup : NoDup names.
  Hypothesis Hsizes : Forall (fun m => (m < M64)%N) sizes.

  Lemma init_inv : length names = length sizes /\ length names = length unlim /\
    sb0 = mkSB (sb_fill names 0 []) (map (fun _ => 0%N) sizes) sizes sizes unlim [].
  Proof.
    unfold sb_init in Hinit.
    destruct (Nat.eqb_spec (length names) (length sizes)); [|discriminate].
    destruct (Nat.eqb_spec (length names) (length unlim)); [|discriminate].
    cbn in Hinit. injection Hinit as <-. auto.
  Qed.

  Definition frame (sb : slice_builder) : Prop :=
    sb_dimPos sb = sb_fill names 0 [] /\ sb_max sb = sizes /\ sb_unlim sb = unlim /\
    length (sb_start sb) = length names /\ length (sb_size sb) = length names.

  Lemma frame0 : frame sb0.
  Proof.
    destruct init_inv as (L1 & L2 & ->). repeat split; cbn; auto. rewrite map_length; auto.
  Qed.

  Lemma getDimPos_in sb d p : frame sb -> nth_error names p = Some d -> sb_getDimPos sb d = Ok p.
  Proof.
    intros (F & _) H. unfold sb_getDimPos. rewrite F, sfind_sb_fill by auto.
    rewrite (find_nth_in _ _ p) by auto. reflexivity.
  Qed.

  Lemma getDimPos_notin sb d : frame sb -> ~ In d names -> sb_getDimPos sb d = Throw.
  Proof.
    intros (F & _) H. unfold sb_getDimPos. rewrite F, sfind_sb_fill by auto.
    rewrite find_nth_notin by auto. reflexivity.
  Qed.

  Lemma nth_max p d : nth_error names p = Some d ->
    exists m u, nth_error sizes p = Some m /\ nth_error unlim p = Some u /\ (m < M64)%N.
  Proof.
    intro H. assert (p < length names) by (apply nth_error_Some; congruence).
    destruct init_inv as (L1 & L2 & _).
    destruct (nth_error sizes p) as [m|] eqn:E1; [|apply nth_error_None in E1; lia].
    destruct (nth_error unlim p) as [u|] eqn:E2; [|apply nth_error_None in E2; lia].
    exists m, u. repeat split; auto. rewrite Forall_forall in Hsizes. eapply Hsizes, nth_error_In; eauto.
  Qed.

  (** effect of one call *)
  Lemma step_in sb op d p m u :
    frame sb -> no_wrap op ->
    nth_error names p = Some d -> nth_error sizes p = Some m -> nth_error unlim p = Some u ->
    (match op with SetStartAndSize d' _ _ => d' = d | SetAll d' => d' = d end) ->
    sb_step sb op =
      if acceptable d m u op
      then mkSB (sb_dimPos sb) (upd (sb_start sb) p (fst (requested m op)))
                (upd (sb_size sb) p (snd (requested m op)))
                (sb_max sb) (sb_unlim sb) (sput d tt (sb_set sb))
      else sb.
  Proof.
    intros F NW Hp Hm Hu Hd.
    assert ((m < M64)%N) as Hm64
      by (rewrite Forall_forall in Hsizes; eapply Hsizes, nth_error_In; eauto).
    pose proof F as (F1 & F2 & F3 & F4 & F5).
    unfold sb_step, sb_apply.
    destruct op as [d' s z|d']; subst d'; cbn [acceptable requested fst snd].
    - unfold sb_setStartAndSize. rewrite (getDimPos_in sb d p) by auto. cbn [obind].
      unfold at_. rewrite F3, Hu, F2, Hm. cbn [obind]. rewrite String.eqb_refl. cbn [andb].
      cbn in NW. rewrite add64_small by auto.
      destruct u; cbn [negb andb orb]; auto.
      rewrite N.leb_antisym. destruct (m <? s + z)%N; reflexivity.
    - unfold sb_setAll, sb_setStartAndSize. rewrite (getDimPos_in sb d p) by auto. cbn [obind].
      unfold at_. rewrite F3, Hu, F2, Hm. cbn [obind]. rewrite String.eqb_refl.
      rewrite add64_small by lia. cbn [N.add].
      replace (m <? m)%N with false by (symmetry; apply N.ltb_ge; lia).
      rewrite andb_false_r. reflexivity.
  Qed.

  Lemma step_notin sb op d' :
    frame sb -> (match op with SetStartAndSize d _ _ => d = d' | SetAll d => d = d' end) ->
    ~ In d' names -> sb_step sb op = sb.
  Proof.
    intros F Hd Hn. unfold sb_step, sb_apply.
    destruct op as [d s z|d]; subst d.
    - unfold sb_setStartAndSize. rewrite getDimPos_notin by auto. reflexivity.
    - unfold sb_setAll. rewrite getDimPos_notin by auto. reflexivity.
  Qed.

  Definition op_dim op := match op with SetStartAndSize d _ _ => d | SetAll d => d end.

  Lemma step_cases sb op :
    frame sb -> no_wrap op ->
    (exists p m u, nth_error names p = Some (op_dim op) /\ nth_error sizes p = Some m /\
       nth_error unlim p = Some u /\ acceptable (op_dim op) m u op = true /\
       sb_step sb op = mkSB (sb_dimPos sb) (upd (sb_start sb) p (fst (requested m op)))
                (upd (sb_size sb) p (snd (requested m op)))
                (sb_max sb) (sb_unlim sb) (sput (op_dim op) tt (sb_set sb)))
    \/ (sb_step sb op = sb /\
        forall p m u, nth_error names p = Some (op_dim op) -> nth_error sizes p = Some m ->
          nth_error unlim p = Some u -> acceptable (op_dim op) m u op = false).
  Proof.
    intros F NW. destruct (in_dec String.string_dec (op_dim op) names) as [Hin|Hni].
    - apply In_nth_error in Hin as [p Hp]. destruct (nth_max p _ Hp) as (m & u & Hm & Hu & _).
      pose proof (step_in sb op (op_dim op) p m u F NW Hp Hm Hu) as E.
      assert (match op with SetStartAndSize d' _ _ => d' = op_dim op | SetAll d' => d' = op_dim op end) as Hd
          by (destruct op; reflexivity).
      specialize (E Hd). destruct (acceptable (op_dim op) m u op) eqn:A.
      + left. exists p, m, u. auto.
      + right. split; auto. intros p' m' u' Hp' Hm' Hu'.
        assert (p' = p) as ->.
        { eapply NoDup_nth_error; eauto; [apply nth_error_Some|]; congruence. }
        congruence.
    - right. split.
      + apply (step_notin sb op (op_dim op)); auto. destruct op; reflexivity.
      + intros p m u Hp. apply nth_error_In in Hp. tauto.
  Qed.

  Lemma frame_step sb op : frame sb -> no_wrap op -> frame (sb_step sb op).
  Proof.
    intros F NW. destruct (step_cases sb op F NW) as [(p & m & u & _ & _ & _ & _ & ->)|[-> _]]; auto.
    destruct F as (F1 & F2 & F3 & F4 & F5).
    repeat split; cbn; auto; rewrite length_upd; auto.
  Qed.

  Lemma acceptable_other d m u op : op_dim op <> d -> acceptable d m u op = false.
  Proof.
    destruct op as [d' s z|d']; cbn; intro H; apply String.eqb_neq in H; rewrite H; reflexivity.
  Qed.

  Lemma last_request_snoc d m u ops op :
    last_request d m u (ops ++ [op]) =
    if acceptable d m u op then requested m op else last_request d m u ops.
  Proof.
    unfold last_request. rewrite filter_app, map_app. cbn.
    destruct (acceptable d m u op); cbn.
    - apply last_last.
    - rewrite app_nil_r. reflexivity.
  Qed.

  Lemma run_snoc sb ops op : sb_run sb (ops ++ [op]) = sb_step (sb_run sb ops) op.
  Proof. unfold sb_run. rewrite fold_left_app. reflexivity. Qed.

  Lemma run_frame ops : Forall no_wrap ops -> frame (sb_run sb0 ops).
  Proof.
    induction ops as [|op ops IH] using rev_ind; intro H.
    - apply frame0.
    - apply Forall_app in H as [H1 H2]. inversion H2; subst.
      rewrite run_snoc. apply frame_step; auto.
  Qed.

  Lemma run_get ops d p m u :
    Forall no_wrap ops ->
    nth_error names p = Some d -> nth_error sizes p = Some m -> nth_error unlim p = Some u ->
    nth_error (sb_start (sb_run sb0 ops)) p = Some (fst (last_request d m u ops)) /\
    nth_error (sb_size (sb_run sb0 ops)) p = Some (snd (last_request d m u ops)).
  Proof.
    intros NW Hp Hm Hu. induction ops as [|op ops IH] using rev_ind.
    - destruct init_inv as (L1 & L2 & ->). cbn. rewrite nth_error_map, Hm. auto.
    - apply Forall_app in NW as [NW1 NW2]. inversion NW2; subst.
      specialize (IH NW1). pose proof (run_frame ops NW1) as F.
      rewrite run_snoc, last_request_snoc.
      assert (p < length names) as Hlt by (apply nth_error_Some; congruence).
      destruct (step_cases (sb_run sb0 ops) op F ltac:(auto))
        as [(p' & m' & u' & Hp' & Hm' & Hu' & A & ->)|[-> A]]; cbn.
      + destruct (String.string_dec (op_dim op) d) as [E|NE].
        * subst d. assert (p' = p) as ->.
          { eapply NoDup_nth_error; eauto; [apply nth_error_Some|]; congruence. }
          assert (m' = m) as -> by congruence. assert (u' = u) as -> by congruence.
          rewrite A. destruct F as (_ & _ & _ & F4 & F5).
          rewrite !nth_error_upd_same by lia. auto.
        * rewrite acceptable_other by auto.
          rewrite !nth_error_upd_other by congruence. auto.
      + destruct (String.string_dec (op_dim op) d) as [E|NE].
        * subst d. rewrite (A p m u) by auto. auto.
        * rewrite acceptable_other by auto. auto.
  Qed.

  Lemma sb_refines ops d p m u :
    Forall no_wrap ops ->
    nth_error names p = Some d -> nth_error sizes p = Some m -> nth_error unlim p = Some u ->
    sb_get (sb_run sb0 ops) d = Ok (last_request d m u ops).
  Proof.
    intros NW Hp Hm Hu. destruct (run_get ops d p m u NW Hp Hm Hu) as [E1 E2].
    unfold sb_get. rewrite (getDimPos_in _ d p) by (auto using run_frame). cbn [obind].
    unfold at_. rewrite E1. cbn [obind]. rewrite E2. cbn [obind].
    destruct (last_request d m u ops); reflexivity.
  Qed.

  Lemma sb_unknown ops d : Forall no_wrap ops -> ~ In d names -> sb_get (sb_run sb0 ops) d = Throw.
  Proof.
    intros NW H. unfold sb_get. rewrite getDimPos_notin by auto using run_frame. reflexivity.
  Qed.

  Lemma last_request_in_range d m ops :
    (fst (last_request d m false ops) + snd (last_request d m false ops) <= m)%N.
  Proof.
    induction ops as [|op ops IH] using rev_ind.
    - cbn. lia.
    - rewrite last_request_snoc. destruct (acceptable d m false op) eqn:A; auto.
      destruct op as [d' s z|d']; cbn in *.
      + apply andb_prop in A as [_ A]. apply N.leb_le in A. auto.
      + lia.
  Qed.

  Lemma run_set ops d :
    Forall no_wrap ops ->
    (smem d (sb_set (sb_run sb0 ops)) = true <->
     exists op p m u, In op ops /\ op_dim op = d /\ nth_error names p = Some d /\
       nth_error sizes p = Some m /\ nth_error unlim p = Some u /\ acceptable d m u op = true).
  Proof.
    intro NW. induction ops as [|op ops IH] using rev_ind.
    - destruct init_inv as (_ & _ & ->). cbn. split; [discriminate|]. intros (? & ? & ? & ? & [] & _).
    - apply Forall_app in NW as [NW1 NW2]. inversion NW2; subst.
      specialize (IH NW1). pose proof (run_frame ops NW1) as F. rewrite run_snoc.
      destruct (step_cases (sb_run sb0 ops) op F ltac:(auto))
        as [(p' & m' & u' & Hp' & Hm' & Hu' & A & ->)|[-> A]]; cbn.
      + unfold smem. rewrite sfind_sput. destruct (String.eqb_spec d (op_dim op)) as [->|NE].
        * split; auto. intros _. exists op, p', m', u'. rewrite in_app_iff. cbn. tauto.
        * unfold smem in IH. rewrite IH. split.
          -- intros (o & p & m & u & Hin & R). exists o, p, m, u. rewrite in_app_iff. tauto.
          -- intros (o & p & m & u & Hin & R). apply in_app_iff in Hin as [Hin|[<-|[]]].
             ++ exists o, p, m, u. tauto.
             ++ destruct R as (E & _). congruence.
      + rewrite IH. split.
        * intros (o & p & m & u & Hin & R). exists o, p, m, u. rewrite in_app_iff. tauto.
        * intros (o & p & m & u & Hin & R). apply in_app_iff in Hin as [Hin|[<-|[]]].
          -- exists o, p, m, u. tauto.
          -- destruct R as (E & Hp & Hm & Hu & A'). subst d. rewrite (A p m u) in A' by auto. discriminate.
  Qed.

  Lemma sorted_fill ns pos m : ssorted m -> ssorted (sb_fill ns pos m).
  Proof.
    revert pos m; induction ns as [|n ns IH]; intros pos m H; cbn; auto.
    apply IH, sput_sorted, H.
  Qed.

  Lemma fill_keys d : In d (skeys (sb_fill names 0 [])) <-> In d names.
  Proof.
    rewrite sfind_In, sfind_sb_fill by auto. destruct (in_dec String.string_dec d names) as [H|H].
    - split; auto. intros _. apply In_nth_error in H as [p Hp].
      rewrite (find_nth_in _ _ p) by auto. eauto.
    - rewrite find_nth_notin by auto. split; [intros [v Hv]; discriminate|tauto].
  Qed.

  Lemma unset_spec ops d :
    Forall no_wrap ops ->
    (In d (sb_getUnset (sb_run sb0 ops)) <->
     In d names /\ forall op p m u, In op ops -> nth_error names p = Some d ->
        nth_error sizes p = Some m -> nth_error unlim p = Some u -> acceptable d m u op = false).
  Proof.
    intro NW. unfold sb_getUnset. rewrite filter_In.
    destruct (run_frame ops NW) as (F & _). rewrite F, fill_keys.
    rewrite negb_true_iff. split.
    - intros [H1 H2]. split; auto. intros op p m u Hin Hp Hm Hu.
      destruct (acceptable d m u op) eqn:A; auto.
      assert (smem d (sb_set (sb_run sb0 ops)) = true); [|congruence].
      apply run_set; auto. exists op, p, m, u. repeat split; auto.
      destruct (String.string_dec (op_dim op) d); auto. rewrite acceptable_other in A by auto. discriminate.
    - intros [H1 H2]. split; auto.
      destruct (smem d (sb_set (sb_run sb0 ops))) eqn:E; auto.
      apply run_set in E; auto. destruct E as (op & p & m & u & Hin & _ & Hp & Hm & Hu & A).
      rewrite (H2 op p m u) in A by auto. discriminate.
  Qed.

  Lemma unset_NoDup ops : Forall no_wrap ops -> NoDup (sb_getUnset (sb_run sb0 ops)).
  Proof.
    intro NW. unfold sb_getUnset. apply NoDup_filter.
    destruct (run_frame ops NW) as (F & _). rewrite F.
    apply ssorted_NoDup, sorted_fill. constructor.
  Qed.

  (** getDimensionNames *)
  Lemma names_loop_spec m : forall acc,
    NoDup (skeys m) ->
    (forall n p, In (n, p) m -> nth_error names p = Some n) ->
    length acc = length names ->
    (forall p, (exists n, In (n, p) m) \/ nth_error acc p = nth_error names p) ->
    sb_names_loop m acc = Ok names.
  Proof.
    induction m as [|[n p] m IH]; intros acc ND Hm Hl Hp; cbn.
    - f_equal. apply nth_error_ext. intro i. destruct (Hp i) as [[x []]|E]; auto.
    - assert (nth_error names p = Some n) as En by (apply Hm; left; auto).
      assert (p < length names) as Hlt by (apply nth_error_Some; congruence).
      replace (p <? length acc) with true by (symmetry; apply Nat.ltb_lt; lia).
      inversion ND as [|? ? Hni Hnd]; subst. apply IH; auto.
      + intros n' p' H. apply Hm; right; auto.
      + rewrite length_upd; auto.
      + intro q. destruct (Nat.eq_dec p q) as [->|NE].
        * right. rewrite nth_error_upd_same by lia. auto.
        * rewrite nth_error_upd_other by auto.
          destruct (Hp q) as [[x [E|Hin]]|E]; auto.
          -- congruence.
          -- left. eauto.
  Qed.

  Lemma In_sorted_find {A} (m : smap A) n v : NoDup (skeys m) -> (In (n, v) m <-> sfind n m = Some v).
  Proof.
    induction m as [|[k w] m IH]; cbn; intro ND; [split; [tauto|discriminate]|].
    inversion ND as [|? ? Hni Hnd]; subst. destruct (String.eqb_spec n k) as [->|NE].
    - split.
      + intros [E|H]; [congruence|]. destruct Hni. apply in_map_iff. exists (k, v); auto.
      + intro E. left. congruence.
    - rewrite <- IH by auto. split; [intros [E|H]; [congruence|auto]|tauto].
  Qed.

  Lemma getDimensionNames_spec ops :
    Forall no_wrap ops -> sb_getDimensionNames (sb_run sb0 ops) = Ok names.
  Proof.
    intro NW. destruct (run_frame ops NW) as (F & _). unfold sb_getDimensionNames. rewrite F.
    assert (NoDup (skeys (sb_fill names 0 []))) as ND by (apply ssorted_NoDup, sorted_fill; constructor).
    assert (length (sb_fill names 0 []) = length names) as L.
    { rewrite <- (map_length fst). apply Nat.le_antisymm; apply NoDup_incl_length; auto.
      - intros x Hx. apply fill_keys; auto.
      - intros x Hx. apply fill_keys in Hx; auto. }
    apply names_loop_spec; auto.
    - intros n p H. apply In_sorted_find in H; auto.
      rewrite sfind_sb_fill in H by auto. destruct (find _ _) as [q|] eqn:E; [|discriminate].
      injection H as <-. apply find_some in E as [_ E]. cbn.
      destruct (nth_error names q) as [x|]; [|discriminate]. apply String.eqb_eq in E as ->. auto.
    - rewrite repeat_length; auto.
    - intro p. destruct (nth_error names p) as [n|] eqn:E.
      + left. exists n. apply In_sorted_find; auto. rewrite sfind_sb_fill by auto.
        rewrite (find_nth_in _ _ p) by auto. reflexivity.
      + right. apply nth_error_None in E. rewrite nth_error_repeat, L.
        replace (p <? length names) with false by (symmetry; apply Nat.ltb_ge; lia). auto.
  Qed.
End Builder.
