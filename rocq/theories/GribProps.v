(** Theorems about GRIB slices, the message index, step units, written and read times. *)
From Coq Require Import ZArith NArith String List Bool Lia Arith.
From Coq Require Import ZifyBool ZifyNat ZifyN.
From Verif Require Import Base IndexSpec SliceModel SliceProofs GribModel.
Import ListNotations.
Local Open Scope list_scope.
Local Open Scope nat_scope.

(** ** C31: placement of messages *)

Section Blocks.
  Context {A I : Type}.
  Variables (f : list A -> I -> outcome (list A)) (pos : I -> nat) (b : I -> option (list A)) (n : nat).

  Lemma put_block_spec (out : list A) p blk : p + length blk <= length out ->
    exists out', put_block out p blk = Ok out' /\ length out' = length out /\
      forall i, nth_error out' i = if (p <=? i) && (i <? p + length blk) then nth_error blk (i - p) else nth_error out i.
  Proof.
    intro H. unfold put_block. apply Nat.leb_le in H as H'. rewrite H'. eexists. split; [ reflexivity | ]. split.
    - rewrite !app_length, firstn_length, skipn_length. lia.
    - intro i. destruct (Nat.leb_spec p i); cbn [andb].
      + rewrite nth_error_app2 by (rewrite firstn_length; lia). rewrite firstn_length, Nat.min_l by lia.
        destruct (Nat.ltb_spec i (p + length blk)).
        * rewrite nth_error_app1 by lia. reflexivity.
        * rewrite nth_error_app2 by lia. rewrite nth_error_skipn. f_equal. lia.
      + rewrite nth_error_app1 by (rewrite firstn_length; lia). rewrite nth_error_firstn.
        destruct (Nat.ltb_spec i p); [ reflexivity | lia ].
  Qed.

  Lemma blocks cnt (l : list I) : forall out,
    (forall i o, In i l -> length o = length out -> f o i = match b i with None => Ok o | Some blk => put_block o (pos i * n) blk end) ->
    (forall i blk, In i l -> b i = Some blk -> length blk = n) ->
    (forall i, In i l -> pos i < cnt) -> NoDup (map pos l) -> length out = cnt * n ->
    exists out', ofold f l out = Ok out' /\ length out' = length out /\
      (forall i blk j, In i l -> b i = Some blk -> j < n -> nth_error out' (pos i * n + j) = nth_error blk j) /\
      (forall k j, j < n -> (forall i, In i l -> pos i = k -> b i = None) -> nth_error out' (k * n + j) = nth_error out (k * n + j)).
  Proof.
    induction l as [ | x l IH ]; intros out St Bl Ps ND Len.
    - exists out. cbn. repeat split; auto. intros ? ? ? [].
    - cbn [ofold]. rewrite (St x out) by (cbn; auto). cbn [map] in ND. inversion ND as [ | ? ? NI ND' ]; subst.
      assert (exists o1, match b x with None => Ok out | Some blk => put_block out (pos x * n) blk end = Ok o1 /\ length o1 = length out /\
                (forall blk j, b x = Some blk -> j < n -> nth_error o1 (pos x * n + j) = nth_error blk j) /\
                (forall k j, j < n -> (k <> pos x \/ b x = None) -> nth_error o1 (k * n + j) = nth_error out (k * n + j))) as (o1 & E1 & L1 & S1 & K1).
      { destruct (b x) as [ blk | ] eqn:Eb.
        - assert (length blk = n) as LB by (apply (Bl x blk); cbn; auto). assert (pos x < cnt) as P by (apply Ps; cbn; auto).
          destruct (put_block_spec out (pos x * n) blk) as (o1 & E & L & N); [ rewrite LB, Len; nia | ].
          exists o1. repeat split; auto.
          + intros blk' j Q J. injection Q as <-. rewrite N.
            replace (_ && _) with true by lia. f_equal. lia.
          + intros k j J [ K | K ]; [ | discriminate ]. rewrite N.
            replace (_ && _) with false; [ reflexivity | ]. symmetry. apply andb_false_iff. rewrite LB.
            assert (k < pos x \/ pos x < k) as [ H | H ] by lia; [ left | right ]; nia.
        - exists out. repeat split; auto. congruence. }
      rewrite E1. cbn [obind].
      destruct (IH o1) as (o2 & E2 & L2 & S2 & K2); auto.
      + intros i o Hi Lo. apply St; cbn; auto. congruence.
      + intros; eapply Bl; cbn; eauto.
      + intros; apply Ps; cbn; auto.
      + congruence.
      + exists o2. repeat split; auto; [ congruence | | ].
        * intros i blk j [ -> | Hi ] Eb J.
          -- rewrite K2; auto. intros i' Hi' Ep. contradict NI. apply in_map_iff. eauto.
          -- apply S2; auto.
        * intros k j J N. rewrite K2; auto.
          -- apply K1; auto. destruct (Nat.eq_dec k (pos x)) as [ -> | ]; auto. right. apply N; cbn; auto.
          -- intros i Hi Ep. apply N; cbn; auto.
  Qed.
End Blocks.

Lemma NoDup_flat {X Y} (g : X -> list Y) (l : list X) : NoDup l -> (forall x, In x l -> NoDup (g x)) ->
  (forall x y z, In x l -> In y l -> In z (g x) -> In z (g y) -> x = y) -> NoDup (flat_map g l).
Proof.
  induction l as [ | x l IH ]; intros ND H1 H2; cbn; [ constructor | ]. inversion ND; subst.
  assert (NoDup (flat_map g l)) as N by (apply IH; auto; [ intros; apply H1; cbn; auto | intros; eapply H2; cbn; eauto ]).
  assert (forall z, In z (g x) -> ~ In z (flat_map g l)) as D.
  { intros z Hz Q. apply in_flat_map in Q as (y & Hy & Hz'). assert (x = y) by (eapply H2; cbn; eauto). congruence. }
  specialize (H1 x (or_introl eq_refl)). clear - H1 N D. induction (g x) as [ | z l' IH ]; cbn; auto.
  inversion H1; subst. constructor.
  - rewrite in_app_iff. intros [ Q | Q ]; auto. apply (D z); cbn; auto.
  - apply IH; auto. intros; apply D; cbn; auto.
Qed.

Lemma NoDup_map_inj {X Y} (g : X -> Y) l : (forall a b, In a l -> In b l -> g a = g b -> a = b) -> NoDup l -> NoDup (map g l).
Proof.
  induction l as [ | x l IH ]; intros Inj ND; cbn; [ constructor | ]. inversion ND; subst. constructor.
  - intro Q. apply in_map_iff in Q as (y & Q & Hy). assert (x = y) by (apply Inj; cbn; auto). congruence.
  - apply IH; auto. intros; apply Inj; cbn; auto.
Qed.

Lemma mixed a b c a' b' c' m n : a < m -> a' < m -> b < n -> b' < n -> a + m * (b + n * c) = a' + m * (b' + n * c') -> a = a' /\ b = b' /\ c = c'.
Proof.
  intros H1 H2 H3 H4 Q.
  assert (a = a' /\ b + n * c = b' + n * c') as [ -> Q' ].
  { assert (a = a') as ->. { rewrite <- (Nat.mod_small a m), <- (Nat.mod_small a' m) by lia.
      rewrite <- (Nat.mod_add a (b + n * c) m), <- (Nat.mod_add a' (b' + n * c') m) by lia. f_equal. lia. }
    split; auto. nia. }
  assert (b = b') as ->. { rewrite <- (Nat.mod_small b n), <- (Nat.mod_small b' n) by lia.
      rewrite <- (Nat.mod_add b c n), <- (Nat.mod_add b' c' n) by lia. f_equal. lia. }
  repeat split; auto. nia.
Qed.

Section Place.
  Context {A : Type} (missing : A).
  Variables (mx my x0 y0 sx sy E e0 se L l0 sl T t0 st : nat) (msgs : list (option (list A))).
  Hypothesis FX : x0 + sx <= mx. Hypothesis FY : y0 + sy <= my.
  Hypothesis FE : e0 + se <= E. Hypothesis FL : l0 + sl <= L. Hypothesis FT : t0 + st <= T.
  Hypothesis SM : (N.of_nat (mx * my) < M64)%N.
  Hypothesis SX : (N.of_nat mx < M64)%N. Hypothesis SY : (N.of_nat my < M64)%N.
  Hypothesis ML : length msgs = E * L * T.

  (** the value of cell (ix, iy) of the requested part of a message *)
  Definition cell_of (m : option (list A)) (ix iy : nat) : option A :=
    match m with
    | Some field => if length field =? mx * my then nth_error field (lin [mx; my] [x0 + ix; y0 + iy]) else Some missing
    | None => Some missing
    end.

  Lemma grib_block_ok field : exists blk, grib_block missing (negb (mx * my =? sx * sy)) mx my x0 y0 sx sy field = Ok blk /\
    length blk = sx * sy /\ forall ix iy, ix < sx -> iy < sy -> nth_error blk (ix + sx * iy) = cell_of (Some field) ix iy.
  Proof.
    unfold grib_block, cell_of. destruct (Nat.eqb_spec (length field) (mx * my)) as [ Hl | Hl ]; cbn [negb].
    - destruct (Nat.eqb_spec (mx * my) (sx * sy)) as [ Hs | Hs ]; cbn [negb].
      + exists field. repeat split; [ congruence | ]. intros ix iy X Y. f_equal. cbn. 
        assert (sx = mx) by nia. assert (sy = my) by nia. subst. nia.
      + destruct (slice_ok field [mx; my] [x0; y0] [sx; sy]) as (blk & Eb & Lb & Cb).
        * rewrite !fits_cons. repeat split; auto. cbn. intros [] ? ? ?; discriminate.
        * cbn. lia.
        * rewrite Hl. exact SM.
        * intros [ | [ | [ | k ] ] ] d; cbn; intro Q; inversion Q; subst; assumption.
        * unfold slice in Eb. cbn [map] in Eb. destruct (slice_check _ _ _ _ _) as [ [ oS gS ] | | | ] eqn:Ec; cbn [obind] in Eb; try discriminate.
          destruct (negb _); [ discriminate | ].
          assert (oS = N.of_nat (sx * sy)) as ->.
          { cbn [slice_check] in Ec. rewrite !(add64_small (N.of_nat _) (N.of_nat _)) in Ec by lia.
            destruct (_ <? _)%N in Ec; [ discriminate | ]. destruct (_ <? _)%N in Ec; [ discriminate | ].
            assert (sx * sy <= mx * my) by nia.
            rewrite (mul64_small 1 (N.of_nat sx)) in Ec by lia. rewrite N.mul_1_l in Ec. rewrite (mul64_small (N.of_nat sx)) in Ec by nia.
            injection Ec as <- _. nia. }
          cbn [length Nat.sub] in Eb. cbn [slice_sizes] in Eb. rewrite (mul64_small 1) in Eb by lia. rewrite N.mul_1_l in Eb.
          destruct (copy_rec _ _ _ _ _ _ _ _) as [ [ q out ] | | | ] eqn:Er; cbn [obind] in Eb |- *; try discriminate.
          destruct (_ =? _)%N; [ | discriminate ]. injection Eb as ->. exists blk. cbn [snd]. repeat split.
          -- rewrite Lb. cbn. lia.
          -- intros ix iy X Y. specialize (Cb [ix; iy]). cbn [lin shift] in Cb.
             replace (ix + sx * (iy + sy * 0)) with (ix + sx * iy) in Cb by nia. rewrite Cb; [ cbn; f_equal; nia | ].
             repeat constructor; auto.
    - exists (repeat missing (sx * sy)). rewrite repeat_length. repeat split.
      intros ix iy X Y. rewrite nth_error_repeat. assert (ix + sx * iy < sx * sy) as H by nia.
      apply Nat.ltb_lt in H. rewrite H. reflexivity.
  Qed.

  Definition blk_of (tle : nat * nat * nat) : option (list A) :=
    let '(t, l, e) := tle in
    match nth_error msgs (t * L * E + l * E + e) with
    | Some (Some field) =>
        match grib_block missing (negb (mx * my =? sx * sy)) mx my x0 y0 sx sy field with Ok b => Some b | _ => None end
    | _ => None
    end.
  Definition pos_of (tle : nat * nat * nat) : nat :=
    let '(t, l, e) := tle in (t - t0) * L * E + (l - l0) * E + (e - e0).

  Lemma order_in t l e : In (t, l, e) (grib_order t0 st l0 sl e0 se) <->
    t0 <= t < t0 + st /\ l0 <= l < l0 + sl /\ e0 <= e < e0 + se.
  Proof.
    unfold grib_order. rewrite in_flat_map. split.
    - intros (t' & Ht & H). apply in_flat_map in H as (l' & Hl & H). apply in_map_iff in H as (e' & Q & He).
      injection Q as -> -> ->. rewrite in_seq in *. lia.
    - intros (Ht & Hl & He). exists t. rewrite in_seq. split; [ lia | ]. apply in_flat_map. exists l. rewrite in_seq. split; [ lia | ].
      apply in_map_iff. exists e. rewrite in_seq. split; [ reflexivity | lia ].
  Qed.

  Lemma step_is i o : In i (grib_order t0 st l0 sl e0 se) ->
    grib_step missing mx my x0 y0 sx sy E e0 L l0 t0 msgs o i =
    match blk_of i with None => Ok o | Some blk => put_block o (pos_of i * (sx * sy)) blk end.
  Proof.
    destruct i as [ [ t l ] e ]. rewrite order_in. intros (Ht & Hl & He). unfold grib_step, blk_of, pos_of.
    destruct (nth_error msgs _) as [ [ field | ] | ] eqn:Em.
    - destruct (grib_block_ok field) as (blk & -> & _ & _). reflexivity.
    - reflexivity.
    - apply nth_error_None in Em. rewrite ML in Em. exfalso. assert (t * L + l < T * L) by nia. nia.
  Qed.

  Lemma blk_len i blk : blk_of i = Some blk -> length blk = sx * sy.
  Proof.
    destruct i as [ [ t l ] e ]. unfold blk_of. destruct (nth_error msgs _) as [ [ field | ] | ]; try discriminate.
    destruct (grib_block_ok field) as (b & -> & Lb & _). congruence.
  Qed.

  Definition guard : Prop := (se = E \/ (sl = 1 /\ st = 1)) /\ (sl = L \/ st = 1).

  Lemma pos_guard it il ie : guard -> it < st -> il < sl -> ie < se ->
    pos_of (t0 + it, l0 + il, e0 + ie) = ie + se * (il + sl * it).
  Proof.
    intros [ G1 G2 ] H1 H2 H3. unfold pos_of.
    replace (t0 + it - t0) with it by lia. replace (l0 + il - l0) with il by lia. replace (e0 + ie - e0) with ie by lia.
    destruct G2 as [ -> | -> ].
    - destruct G1 as [ -> | [ -> -> ] ]; [ nia | ]. assert (it = 0) by lia. assert (il = 0) by lia. subst. nia.
    - assert (it = 0) by lia. subst it. destruct G1 as [ -> | [ -> _ ] ]; [ nia | ]. assert (il = 0) by lia. subst. nia.
  Qed.

  Lemma order_nodup : NoDup (grib_order t0 st l0 sl e0 se).
  Proof.
    unfold grib_order. apply NoDup_flat; [ apply seq_NoDup | | ].
    - intros t _. apply NoDup_flat; [ apply seq_NoDup | | ].
      + intros l _. apply FinFun.Injective_map_NoDup; [ intros a b Q; congruence | apply seq_NoDup ].
      + intros x y z _ _ H1 H2. apply in_map_iff in H1 as (? & <- & _). apply in_map_iff in H2 as (? & Q & _). congruence.
    - intros x y z _ _ H1 H2. apply in_flat_map in H1 as (? & _ & H1). apply in_flat_map in H2 as (? & _ & H2).
      apply in_map_iff in H1 as (? & <- & _). apply in_map_iff in H2 as (? & Q & _). congruence.
  Qed.

  Lemma split_in i : In i (grib_order t0 st l0 sl e0 se) -> exists it il ie, i = (t0 + it, l0 + il, e0 + ie) /\ it < st /\ il < sl /\ ie < se.
  Proof.
    destruct i as [ [ t l ] e ]. rewrite order_in. intro H. exists (t - t0), (l - l0), (e - e0).
    repeat split; try lia. repeat f_equal; lia.
  Qed.

  Lemma loop_ok : guard -> exists out,
    grib_loop missing mx my x0 y0 sx sy E e0 se L l0 sl t0 st msgs = Ok out /\ length out = sx * sy * st * sl * se /\
    forall ix iy ie il it, ix < sx -> iy < sy -> ie < se -> il < sl -> it < st ->
      nth_error out (lin [sx; sy; se; sl; st] [ix; iy; ie; il; it]) =
      match nth_error msgs (lin [E; L; T] [e0 + ie; l0 + il; t0 + it]) with
      | Some m => cell_of m ix iy
      | None => None
      end.
  Proof.
    intro G. unfold grib_loop.
    destruct (blocks (grib_step missing mx my x0 y0 sx sy E e0 L l0 t0 msgs) pos_of blk_of (sx * sy) (st * sl * se)
                (grib_order t0 st l0 sl e0 se) (repeat missing (sx * sy * st * sl * se))) as (out & Eo & Lo & So & Ko).
    - intros i o Hi _. apply step_is; auto.
    - intros i blk _ Hb. eapply blk_len; eauto.
    - intros i Hi. apply split_in in Hi as (it & il & ie & -> & H1 & H2 & H3). rewrite pos_guard by auto.
      assert (il + sl * it < sl * st) by nia. nia.
    - apply NoDup_map_inj; [ | apply order_nodup ]. intros a b Ha Hb Q.
      apply split_in in Ha as (it & il & ie & -> & H1 & H2 & H3). apply split_in in Hb as (it' & il' & ie' & -> & H1' & H2' & H3').
      rewrite !pos_guard in Q by auto. apply mixed in Q as (-> & -> & ->); auto.
    - rewrite repeat_length. nia.
    - exists out. rewrite repeat_length in Lo. repeat split; auto.
      intros ix iy ie il it X Y He Hl Ht.
      assert (In (t0 + it, l0 + il, e0 + ie) (grib_order t0 st l0 sl e0 se)) as Hin by (apply order_in; lia).
      assert (ix + sx * iy < sx * sy) as J by nia.
      replace (lin [sx; sy; se; sl; st] [ix; iy; ie; il; it]) with (pos_of (t0 + it, l0 + il, e0 + ie) * (sx * sy) + (ix + sx * iy))
        by (rewrite pos_guard by auto; cbn; nia).
      replace (lin [E; L; T] [e0 + ie; l0 + il; t0 + it]) with ((t0 + it) * L * E + (l0 + il) * E + (e0 + ie)) by (cbn; nia).
      assert (forall i, In i (grib_order t0 st l0 sl e0 se) -> pos_of i = pos_of (t0 + it, l0 + il, e0 + ie) -> i = (t0 + it, l0 + il, e0 + ie)) as Inj.
      { intros i Hi Q. apply split_in in Hi as (it' & il' & ie' & -> & H1' & H2' & H3'). rewrite !pos_guard in Q by auto.
        apply mixed in Q as (-> & -> & ->); auto. }
      destruct (nth_error msgs _) as [ [ field | ] | ] eqn:Em.
      + destruct (grib_block_ok field) as (blk & Eb & Lb & Cb). rewrite (So _ blk); auto.
        unfold blk_of. rewrite Em, Eb. reflexivity.
      + rewrite Ko; auto.
        * rewrite nth_error_repeat, pos_guard by auto.
          assert ((ie + se * (il + sl * it)) * (sx * sy) + (ix + sx * iy) < sx * sy * st * sl * se) as H.
          { assert (ie + se * (il + sl * it) < se * (sl * st)) by (assert (il + sl * it < sl * st) by nia; nia). nia. }
          apply Nat.ltb_lt in H. rewrite H. reflexivity.
        * intros i Hi Q. apply Inj in Q; auto. subst i. unfold blk_of. rewrite Em. reflexivity.
      + apply nth_error_None in Em. rewrite ML in Em. exfalso.
        assert ((t0 + it) * L + (l0 + il) < T * L) by nia. nia.
  Qed.

  Lemma ofold_len (l : list (nat * nat * nat)) : (forall i, In i l -> In i (grib_order t0 st l0 sl e0 se)) -> forall o,
    (exists o', ofold (grib_step missing mx my x0 y0 sx sy E e0 L l0 t0 msgs) l o = Ok o' /\ length o' = length o) \/
    ofold (grib_step missing mx my x0 y0 sx sy E e0 L l0 t0 msgs) l o = UB.
  Proof.
    induction l as [ | i l IH ]; intros H o; cbn [ofold]; [ left; eauto | ].
    rewrite step_is by (apply H; cbn; auto).
    destruct (blk_of i) as [ blk | ] eqn:Eb; cbn [obind].
    - unfold put_block at 1 2. destruct (Nat.leb_spec (pos_of i * (sx * sy) + length blk) (length o)) as [ Hle | ]; cbn [obind]; [ | right; reflexivity ].
      destruct (IH (fun j Hj => H j (or_intror Hj)) (firstn (pos_of i * (sx * sy)) o ++ blk ++ skipn (pos_of i * (sx * sy) + length blk) o)) as [ (o' & E' & L') | E' ].
      + left. exists o'. split; auto. rewrite L', !app_length, firstn_length, skipn_length. lia.
      + right. exact E'.
    - apply IH. intros; apply H; cbn; auto.
  Qed.

  Lemma order_last : 0 < st -> 0 < sl -> 0 < se -> exists pre,
    grib_order t0 st l0 sl e0 se = pre ++ [(t0 + (st - 1), l0 + (sl - 1), e0 + (se - 1))].
  Proof.
    intros H1 H2 H3. unfold grib_order.
    assert (forall s n, 0 < n -> seq s n = seq s (n - 1) ++ [s + (n - 1)]) as Sq.
    { intros s n H. replace n with ((n - 1) + 1) at 1 by lia. rewrite seq_app. reflexivity. }
    rewrite (Sq t0 st), flat_map_app by auto. cbn [flat_map]. rewrite app_nil_r.
    generalize (flat_map (fun t => flat_map (fun l => map (fun e => (t, l, e)) (seq e0 se)) (seq l0 sl)) (seq t0 (st - 1))) as P1. intro P1.
    rewrite (Sq l0 sl), flat_map_app by auto. cbn [flat_map]. rewrite app_nil_r.
    generalize (flat_map (fun l => map (fun e => (t0 + (st - 1), l, e)) (seq e0 se)) (seq l0 (sl - 1))) as P2. intro P2.
    rewrite (Sq e0 se), map_app by auto. cbn [map]. rewrite !app_assoc. eexists. reflexivity.
  Qed.

  Lemma loop_ub : ~ guard -> 0 < sx -> 0 < sy -> 0 < se -> 0 < sl -> 0 < st ->
    (exists field, nth_error msgs (lin [E; L; T] [e0 + (se - 1); l0 + (sl - 1); t0 + (st - 1)]) = Some (Some field)) ->
    grib_loop missing mx my x0 y0 sx sy E e0 se L l0 sl t0 st msgs = UB.
  Proof.
    intros G PX PY PE PL PT (field & Hm). unfold grib_loop.
    destruct order_last as (pre & Eo); auto. rewrite Eo.
    assert (forall (g : list A -> nat * nat * nat -> outcome (list A)) l1 l2 s, ofold g (l1 ++ l2) s = obind (ofold g l1 s) (ofold g l2)) as App.
    { induction l1 as [ | a l1 IH ]; intros l2 s; cbn; auto. destruct (g s a); cbn; auto. }
    rewrite App.
    destruct (ofold_len pre) with (o := repeat missing (sx * sy * st * sl * se)) as [ (o & Ep & Lp) | Ep ].
    - intros i Hi. rewrite Eo. apply in_app_iff; auto.
    - rewrite Ep. cbn [obind ofold]. rewrite step_is by (rewrite Eo; apply in_app_iff; cbn; auto).
      unfold blk_of. replace (_ + _ + _) with (lin [E; L; T] [e0 + (se - 1); l0 + (sl - 1); t0 + (st - 1)]) by (cbn; nia).
      rewrite Hm. destruct (grib_block_ok field) as (blk & -> & Lb & _).
      unfold put_block, pos_of. rewrite Lp, repeat_length, Lb.
      replace (t0 + (st - 1) - t0) with (st - 1) by lia. replace (l0 + (sl - 1) - l0) with (sl - 1) by lia. replace (e0 + (se - 1) - e0) with (se - 1) by lia.
      assert (st * sl * se < (st - 1) * L * E + (sl - 1) * E + (se - 1) + 1) as H.
      { assert (exists a b c, st = S a /\ sl = S b /\ se = S c) as (a & b & c & Qa & Qb & Qc)
          by (exists (st - 1), (sl - 1), (se - 1); lia).
        assert (exists d, E = se + d) as (d & Qd) by (exists (E - se); lia).
        assert (exists k, L = sl + k) as (k & Qk) by (exists (L - sl); lia).
        unfold guard in G. rewrite Qa, Qb, Qc in *. rewrite Qd, Qk in *.
        replace (S a - 1) with a by lia. replace (S b - 1) with b by lia. replace (S c - 1) with c by lia.
        assert ((d > 0 /\ (b > 0 \/ a > 0)) \/ (k > 0 /\ a > 0)) as [ [ D [ B | B ] ] | [ D B ] ] by lia; nia. }
      destruct (Nat.leb_spec (((st - 1) * L * E + (sl - 1) * E + (se - 1)) * (sx * sy) + sx * sy) (sx * sy * st * sl * se)); [ | reflexivity ].
      exfalso. assert (0 < sx * sy) by nia. nia.
    - rewrite Ep. reflexivity.
  Qed.
End Place.

(** The dimensions of a variable: x, y, [ensemble], level, [time]. *)
Definition shape (he ht : bool) (x y e l t : nat) : list nat :=
  [x; y] ++ (if he then [e] else []) ++ [l] ++ (if ht then [t] else []).

Lemma grib_slice_loop {A} (missing : A) he ht mx my x0 y0 sx sy E e0 se L l0 sl T t0 st msgs :
  (he = false -> E = 1 /\ e0 = 0 /\ se = 1) -> (ht = false -> T = 1 /\ t0 = 0 /\ st = 1) ->
  grib_slice missing ht (shape he ht mx my E L T) (shape he ht x0 y0 e0 l0 t0) (shape he ht sx sy se sl st) msgs =
  grib_loop missing mx my x0 y0 sx sy E e0 se L l0 sl t0 st msgs.
Proof.
  intros H1 H2. destruct he, ht; unfold grib_slice; cbn;
    try (destruct (H1 eq_refl) as (-> & -> & ->)); try (destruct (H2 eq_refl) as (-> & -> & ->)); reflexivity.
Qed.

(** If every dimension before the last one with more than one element is requested completely
    (ensemble, level, time in this order), each message is at its place, other cells are missing. *)
Theorem C31_slice_places_messages :
  forall (A : Type) (missing : A) he ht mx my x0 y0 sx sy E e0 se L l0 sl T t0 st (msgs : list (option (list A))),
    (he = false -> E = 1 /\ e0 = 0 /\ se = 1) -> (ht = false -> T = 1 /\ t0 = 0 /\ st = 1) ->
    x0 + sx <= mx -> y0 + sy <= my -> e0 + se <= E -> l0 + sl <= L -> t0 + st <= T ->
    (N.of_nat (mx * my) < M64)%N -> (N.of_nat mx < M64)%N -> (N.of_nat my < M64)%N ->
    length msgs = E * L * T ->
    (se = E \/ (sl = 1 /\ st = 1)) -> (sl = L \/ st = 1) ->
    exists out,
      grib_slice missing ht (shape he ht mx my E L T) (shape he ht x0 y0 e0 l0 t0) (shape he ht sx sy se sl st) msgs = Ok out /\
      length out = sx * sy * st * sl * se /\
      forall ix iy ie il it, ix < sx -> iy < sy -> ie < se -> il < sl -> it < st ->
        nth_error out (lin [sx; sy; se; sl; st] [ix; iy; ie; il; it]) =
        match nth_error msgs (lin [E; L; T] [e0 + ie; l0 + il; t0 + it]) with
        | Some (Some field) =>
            if length field =? mx * my then nth_error field (lin [mx; my] [x0 + ix; y0 + iy]) else Some missing
        | Some None => Some missing
        | None => None
        end.
Proof.
  intros A missing he ht mx my x0 y0 sx sy E e0 se L l0 sl T t0 st msgs HE HT FX FY FE FL FT SM SX SY ML G1 G2.
  rewrite grib_slice_loop by auto.
  apply (loop_ok missing mx my x0 y0 sx sy E e0 se L l0 sl T t0 st msgs); auto. split; auto.
Qed.

(** Any other request writes behind the end of the result if its last message exists. *)
Theorem C31_partial_request_refuted :
  forall (A : Type) (missing : A) he ht mx my x0 y0 sx sy E e0 se L l0 sl T t0 st (msgs : list (option (list A))),
    (he = false -> E = 1 /\ e0 = 0 /\ se = 1) -> (ht = false -> T = 1 /\ t0 = 0 /\ st = 1) ->
    x0 + sx <= mx -> y0 + sy <= my -> e0 + se <= E -> l0 + sl <= L -> t0 + st <= T ->
    (N.of_nat (mx * my) < M64)%N -> (N.of_nat mx < M64)%N -> (N.of_nat my < M64)%N ->
    length msgs = E * L * T ->
    ~ ((se = E \/ (sl = 1 /\ st = 1)) /\ (sl = L \/ st = 1)) ->
    0 < sx -> 0 < sy -> 0 < se -> 0 < sl -> 0 < st ->
    (exists field, nth_error msgs (lin [E; L; T] [e0 + (se - 1); l0 + (sl - 1); t0 + (st - 1)]) = Some (Some field)) ->
    grib_slice missing ht (shape he ht mx my E L T) (shape he ht x0 y0 e0 l0 t0) (shape he ht sx sy se sl st) msgs = UB.
Proof.
  intros A missing he ht mx my x0 y0 sx sy E e0 se L l0 sl T t0 st msgs HE HT FX FY FE FL FT SM SX SY ML G PX PY PE PL PT Hm.
  rewrite grib_slice_loop by auto.
  apply (loop_ub missing mx my x0 y0 sx sy E e0 se L l0 sl T t0 st msgs); auto.
Qed.

(** A variable with two levels and three times, read at the upper level for all times, the last
    message absent: the field of the second time is returned as that of the third. *)
Theorem C31_misplaced_refuted :
  exists msgs : list (option (list nat)),
    length msgs = 1 * 2 * 3 /\
    nth_error msgs (lin [2; 3] [0; 1]) = Some (Some [7]) /\
    grib_slice 99 true (shape false true 1 1 1 2 3) (shape false true 0 0 0 0 0) (shape false true 1 1 1 1 3) msgs = Ok [5; 99; 7].
Proof.
  exists [Some [5]; None; Some [7]; None; None; None]. repeat split.
Qed.

(** A shape with too many dimensions is refused. *)
Theorem C31_bad_shape :
  forall (A : Type) (missing : A) (ht : bool) (maxs start sizes : list nat) msgs,
    length start = length maxs -> length sizes = length maxs ->
    (if ht then 5 else 4) < length maxs ->
    grib_slice missing ht maxs start sizes msgs = Throw.
Proof.
  intros A missing ht maxs start sizes msgs L1 L2 H.
  assert (forall k, k < length maxs -> exists a b c, rd3 maxs start sizes k = Ok (a, b, c)) as R.
  { intros k K. unfold rd3. destruct (nth_error maxs k) eqn:Q1; [ | apply nth_error_None in Q1; lia ].
    destruct (nth_error start k) eqn:Q2; [ | apply nth_error_None in Q2; lia ].
    destruct (nth_error sizes k) eqn:Q3; [ | apply nth_error_None in Q3; lia ]. cbn. eauto. }
  unfold grib_slice. destruct ht.
  - replace (length maxs =? 5) with false by lia. cbn [obind].
    destruct (R 2) as (? & ? & ? & ->); [ lia | ]. cbn [obind Nat.add]. destruct (R 3) as (? & ? & ? & ->); [ lia | ]. cbn [obind].
    replace (4 =? length maxs) with false by lia. reflexivity.
  - replace (length maxs =? 4) with false by lia. cbn [obind].
    destruct (R 2) as (? & ? & ? & ->); [ lia | ]. cbn [obind Nat.add].
    replace (3 =? length maxs) with false by lia. reflexivity.
Qed.

(** Two members, two levels, two times; the second time, part of the grid. *)
Example C31_nonvacuous :
  grib_slice 99 true [2; 2; 2; 2; 2] [1; 0; 0; 0; 1] [1; 2; 2; 2; 1]
    [None; None; None; None; Some [1; 2; 3; 4]; None; Some [5; 6]; Some [9; 10; 11; 12]] = Ok [2; 4; 99; 99; 99; 99; 10; 12].
Proof. reflexivity. Qed.

(** ** C67: index of messages *)

Lemma find_index_ok {K} (eqb : K -> K -> bool) (EQ : forall a b, eqb a b = true <-> a = b) l k :
  In k l -> exists i, find_index eqb l k = Ok i /\ nth_error l i = Some k.
Proof.
  induction l as [ | x l IH ]; intro H; [ contradiction | ]. cbn. destruct (eqb x k) eqn:Q.
  - exists 0. apply EQ in Q. subst. auto.
  - destruct H as [ -> | H ]; [ rewrite (proj2 (EQ k k) eq_refl) in Q; discriminate | ].
    destruct (IH H) as (i & -> & N). exists (S i). auto.
Qed.
Lemma find_index_none {K} (eqb : K -> K -> bool) (EQ : forall a b, eqb a b = true <-> a = b) l k :
  ~ In k l -> find_index eqb l k = Throw.
Proof.
  induction l as [ | x l IH ]; intro H; [ reflexivity | ]. cbn. destruct (eqb x k) eqn:Q.
  - apply EQ in Q. subst. contradict H. cbn; auto.
  - rewrite IH; [ reflexivity | ]. contradict H. cbn; auto.
Qed.

(** The message found last among those of a time, level and member. *)
Definition last_message {B} (ms : list (gmsg B)) (t : N) (l : Z) (e : nat) : option B :=
  fold_left (fun acc (m : gmsg B) => if (g_time m =? t)%N && (g_level m =? l)%Z && (g_ens m =? e) then Some (g_msg m) else acc) ms None.

Theorem C67_index_holds_last_message :
  forall (B : Type) (times : list N) (levels : list Z) (E : nat) (ms : list (gmsg B)),
    NoDup times -> NoDup levels ->
    (forall m, In m ms -> In (g_time m) times /\ In (g_level m) levels /\ g_ens m < E) ->
    exists idx,
      grib_index times levels E (length times) ms = Ok idx /\
      length idx = E * length levels * length times /\
      forall it il ie t l, nth_error times it = Some t -> nth_error levels il = Some l -> ie < E ->
        nth_error idx (lin [E; length levels; length times] [ie; il; it]) = Some (last_message ms t l ie).
Proof.
  intros B times levels E ms NT NL. unfold grib_index, last_message.
  induction ms as [ | m ms IH ] using rev_ind; intro H.
  - cbn [ofold]. eexists. split; [ reflexivity | ]. rewrite repeat_length. split; auto.
    intros it il ie t l Ht Hl He. cbn [fold_left]. rewrite nth_error_repeat.
    assert (it < length times) by (apply nth_error_Some; congruence). assert (il < length levels) by (apply nth_error_Some; congruence).
    assert (lin [E; length levels; length times] [ie; il; it] < E * length levels * length times) as Q.
    { cbn. assert (il + length levels * it < length levels * length times) by nia. nia. }
    apply Nat.ltb_lt in Q. rewrite Q. reflexivity.
  - destruct IH as (idx & Ei & Li & Ci); [ intros; apply H; apply in_app_iff; auto | ].
    destruct (H m) as (Ht & Hl & He); [ apply in_app_iff; cbn; auto | ].
    destruct (find_index_ok N.eqb N.eqb_eq times (g_time m) Ht) as (it0 & Et & Nt).
    destruct (find_index_ok Z.eqb Z.eqb_eq levels (g_level m) Hl) as (il0 & El & Nl).
    assert (it0 < length times) as Bt by (apply nth_error_Some; congruence). assert (il0 < length levels) as Bl by (apply nth_error_Some; congruence).
    assert (forall (g : list (option B) -> gmsg B -> outcome (list (option B))) l1 l2 s, ofold g (l1 ++ l2) s = obind (ofold g l1 s) (ofold g l2)) as App.
    { induction l1 as [ | a l1 IH1 ]; intros l2 s; cbn; auto. destruct (g s a); cbn; auto. }
    rewrite App, Ei. cbn [obind ofold]. rewrite Et. cbn [obind]. rewrite El. cbn [obind].
    destruct (Nat.leb_spec (E * length levels * length times) ((it0 * length levels + il0) * E + g_ens m)) as [ Q | _ ].
    { exfalso. assert (it0 * length levels + il0 < length levels * length times) by nia. nia. }
    cbn [obind]. eexists. split; [ reflexivity | ]. rewrite length_upd. split; auto.
    intros it il ie t l Pt Pl Pe. rewrite nth_error_upd, fold_left_app. cbn [fold_left].
    assert (it < length times) as B1 by (apply nth_error_Some; congruence). assert (il < length levels) as B2 by (apply nth_error_Some; congruence).
    cbn [lin]. rewrite Nat.mul_0_r, Nat.add_0_r.
    destruct (Nat.eqb_spec ((it0 * length levels + il0) * E + g_ens m) (ie + E * (il + length levels * it))) as [ Q | Q ].
    + destruct (mixed (g_ens m) il0 it0 ie il it E (length levels)) as (Qe & Ql & Qt); auto; [ nia | ]. subst ie il0 it0.
      assert (g_time m = t) by congruence. assert (g_level m = l) by congruence. subst t l.
      rewrite N.eqb_refl, Z.eqb_refl, Nat.eqb_refl. cbn [andb].
      replace (_ <? _) with true; auto. symmetry. apply Nat.ltb_lt. rewrite Li.
      assert (it * length levels + il < length levels * length times) by nia. nia.
    + cbn [andb]. replace ((g_time m =? t)%N && (g_level m =? l)%Z && (g_ens m =? ie)) with false.
      * rewrite <- (Ci it il ie t l) by auto. cbn [lin]. rewrite Nat.mul_0_r, Nat.add_0_r. reflexivity.
      * symmetry. apply not_true_iff_false. rewrite !andb_true_iff, N.eqb_eq, Z.eqb_eq, Nat.eqb_eq. intros [ [ Q1 Q2 ] Q3 ].
        apply Q. rewrite Q3. rewrite Q1 in Nt. rewrite Q2 in Nl.
        assert (it0 = it) as -> by (apply (proj1 (NoDup_nth_error times) NT); congruence).
        assert (il0 = il) as -> by (apply (proj1 (NoDup_nth_error levels) NL); congruence). nia.
Qed.

(** Reading a complete variable through its index: every cell has the value of the last message
    of its time, level and member. *)
Theorem C67_complete_read :
  forall (A : Type) (missing : A) mx my (times : list N) (levels : list Z) (E : nat) (ms : list (gmsg (list A))),
    NoDup times -> NoDup levels ->
    (forall m, In m ms -> In (g_time m) times /\ In (g_level m) levels /\ g_ens m < E /\ length (g_msg m) = mx * my) ->
    (N.of_nat (mx * my) < M64)%N -> (N.of_nat mx < M64)%N -> (N.of_nat my < M64)%N ->
    let dims := [mx; my; E; length levels; length times] in
    exists idx out,
      grib_index times levels E (length times) ms = Ok idx /\
      grib_slice missing true dims [0; 0; 0; 0; 0] dims idx = Ok out /\
      forall ix iy ie il it t l, ix < mx -> iy < my -> ie < E -> nth_error levels il = Some l -> nth_error times it = Some t ->
        nth_error out (lin dims [ix; iy; ie; il; it]) =
        match last_message ms t l ie with
        | Some field => nth_error field (lin [mx; my] [ix; iy])
        | None => Some missing
        end.
Proof.
  intros A missing mx my times levels E ms NT NL H SM SX SY dims.
  destruct (C67_index_holds_last_message (list A) times levels E ms NT NL) as (idx & Ei & Li & Ci).
  { intros m Hm. destruct (H m Hm) as (? & ? & ? & _). auto. }
  destruct (C31_slice_places_messages A missing true true mx my 0 0 mx my E 0 E (length levels) 0 (length levels) (length times) 0 (length times) idx) as (out & Eo & _ & Co);
    auto; try discriminate.
  exists idx, out. split; [ exact Ei | ]. split; [ exact Eo | ].
  intros ix iy ie il it t l X Y He Hl Ht.
  assert (it < length times) as B1 by (apply nth_error_Some; congruence). assert (il < length levels) as B2 by (apply nth_error_Some; congruence).
  unfold dims. rewrite Co by auto. cbn [Nat.add]. rewrite (Ci it il ie t l) by auto.
  destruct (last_message ms t l ie) as [ field | ] eqn:Q; [ | reflexivity ].
  replace (length field =? mx * my) with true; [ reflexivity | ]. symmetry. apply Nat.eqb_eq.
  unfold last_message in Q. clear - H Q.
  revert Q. assert (forall ms0 acc, (forall m, In m ms0 -> length (g_msg m) = mx * my) -> (forall b, acc = Some b -> length b = mx * my) ->
     fold_left (fun acc (m : gmsg (list A)) => if (g_time m =? t)%N && (g_level m =? l)%Z && (g_ens m =? ie) then Some (g_msg m) else acc) ms0 acc = Some field ->
     length field = mx * my) as F.
  { induction ms0 as [ | m ms0 IH ]; cbn; intros acc H1 H2 Q; [ auto | ]. apply (IH _ (fun x Hx => H1 x (or_intror Hx))) in Q; auto.
    destruct (_ && _); auto. intros b Eb. injection Eb as <-. apply H1; auto. }
  apply F; [ | discriminate ]. intros m Hm. apply H; auto.
Qed.

(** A message of a variable without time has encoded time 0, which is not among the times: the
    index cannot be built, whatever else the file contains. *)
Theorem C67_variable_without_time_refuted :
  forall (B : Type) (all : list (bool * gmsg B)) levels E T (ms : list (gmsg B)) (m : gmsg B),
    (forall q, In (true, q) all -> g_time q <> 0%N) -> g_time m = 0%N ->
    grib_index (grib_times all) levels E T (m :: ms) = Throw.
Proof.
  intros B all levels E T ms m H Hm. unfold grib_index. cbn [ofold]. rewrite Hm.
  rewrite (find_index_none N.eqb N.eqb_eq); [ reflexivity | ].
  unfold grib_times.
  assert (forall x l y, In y (set_insert x l) -> y = x \/ In y l) as I.
  { intros x. induction l as [ | z l IH ]; cbn; intros y Hy; [ destruct Hy as [ <- | [] ]; auto | ].
    destruct (_ <? _)%N; [ cbn in Hy; destruct Hy as [ <- | Hy ]; auto | ]. destruct (_ =? _)%N; [ auto | ]. destruct Hy as [ <- | Hy ]; auto.
    destruct (IH _ Hy); auto. }
  assert (forall al acc, (forall q, In (true, q) al -> g_time q <> 0%N) -> ~ In 0%N acc ->
     ~ In 0%N (fold_left (fun acc (m : bool * gmsg B) => if fst m then set_insert (g_time (snd m)) acc else acc) al acc)) as F.
  { induction al as [ | [ b q ] al IH ]; cbn; intros acc H1 H2; auto. apply IH; [ intros; apply H1; auto | ].
    destruct b; auto. intro Q. apply I in Q as [ Q | Q ]; auto. apply (H1 q); auto. }
  apply F; auto.
Qed.

Example C67_nonvacuous :
  grib_index [10%N; 20%N] [100%Z; 500%Z] 2 2 [mkG 20%N 100%Z 1 7; mkG 10%N 500%Z 0 8; mkG 20%N 100%Z 1 9]
  = Ok [None; None; Some 8; None; None; Some 9; None; None].
Proof. reflexivity. Qed.

(** ** C32: step units *)

(** The step units: text, code of GRIB table 4.4, seconds. *)
Definition table : list (string * N * N) :=
  [("s", 13, 1); ("m", 0, 60); ("h", 1, 3600); ("3h", 10, 10800); ("6h", 11, 21600); ("12h", 12, 43200);
   ("D", 2, 86400); ("M", 3, 2592000); ("Y", 4, 31536000); ("10Y", 5, 315360000); ("30Y", 6, 946080000);
   ("C", 7, 3153600000)]%string%N.

Theorem C32_table :
  forall u c n, In (u, c, n) table -> units_seconds u = Ok n /\ units_code u = Ok c /\ code_units c = Ok u.
Proof. intros u c n H. cbn in H. repeat (destruct H as [ Q | H ]; [ injection Q as <- <- <-; repeat split; reflexivity | ]). contradiction. Qed.

Theorem C32_other_text : forall u, ~ In u (map (fun x => fst (fst x)) table) -> units_seconds u = Throw /\ units_code u = Throw.
Proof.
  intros u H. cbn in H. unfold units_seconds, units_code.
  repeat match goal with |- context [String.eqb u ?s] => destruct (String.eqb_spec u s) as [ -> | _ ]; [ exfalso; apply H; tauto | ] end. auto.
Qed.

Theorem C32_other_code : forall c, ~ In c (map (fun x => snd (fst x)) table) -> code_units c = Throw.
Proof.
  intros c H. cbn in H. unfold code_units. destruct c as [ | p ]; [ exfalso; apply H; tauto | ].
  do 4 (destruct p as [ p | p | ]; try reflexivity; try (exfalso; apply H; tauto)).
Qed.

Theorem C32_texts_and_codes_are_inverse :
  forall u c, units_code u = Ok c <-> code_units c = Ok u.
Proof.
  intros u c. split; intro H.
  - destruct (in_dec string_dec u (map (fun x => fst (fst x)) table)) as [ I | I ].
    + apply in_map_iff in I as ([ [ u' c' ] n ] & <- & I). apply C32_table in I as (_ & E1 & E2). cbn in *. congruence.
    + apply C32_other_text in I as (_ & I). congruence.
  - destruct (in_dec N.eq_dec c (map (fun x => snd (fst x)) table)) as [ I | I ].
    + apply in_map_iff in I as ([ [ u' c' ] n ] & <- & I). apply C32_table in I as (_ & E1 & E2). cbn in *. congruence.
    + apply C32_other_code in I. congruence.
Qed.

Lemma unit_hit s t c k (r : outcome string) :
  r = Ok t -> (s mod k = 0)%N -> k <> 0%N -> In (t, c, k) table ->
  (forall u' c' n', In (u', c', n') table -> (k < n')%N -> (s mod n' <> 0)%N) ->
  exists u c n, In (u, c, n) table /\ r = Ok u /\ N.divide n s /\ (n * (s / n) = s)%N /\
    forall u' c' n', In (u', c', n') table -> N.divide n' s -> (n' <= n)%N.
Proof.
  intros -> H K I A. exists t, c, k. split; auto. split; auto. split; [ apply N.mod_divide; auto | ].
  split; [ pose proof (N.div_mod s k K); lia | ].
  intros u' c' n' I' D. destruct (N.le_gt_cases n' k) as [ | Q ]; auto. exfalso. apply (A _ _ _ I' Q).
  destruct (N.eq_dec n' 0) as [ -> | Z ]; [ lia | ]. apply N.mod_divide; auto.
Qed.

Theorem C32_largest_unit :
  forall s, (0 < s)%N ->
    exists u c n, In (u, c, n) table /\ seconds_units s = Ok u /\ N.divide n s /\ (n * (s / n) = s)%N /\
      forall u' c' n', In (u', c', n') table -> N.divide n' s -> (n' <= n)%N.
Proof.
  intros s P. unfold seconds_units. replace (s <=? 0)%N with false by lia.
  change (24 * 60 * 60 * 365 * 100)%N with 3153600000%N.
  change (24 * 60 * 60 * 365 * 30)%N with 946080000%N.
  change (24 * 60 * 60 * 365 * 10)%N with 315360000%N.
  change (24 * 60 * 60 * 365)%N with 31536000%N.
  change (24 * 60 * 60 * 30)%N with 2592000%N.
  change (24 * 60 * 60)%N with 86400%N.
  change (12 * 60 * 60)%N with 43200%N.
  change (6 * 60 * 60)%N with 21600%N.
  change (3 * 60 * 60)%N with 10800%N.
  change (60 * 60)%N with 3600%N.
  destruct (N.eqb_spec (s mod 3153600000) 0);
    [ eapply (unit_hit s "C" 7 3153600000); [ reflexivity | assumption | discriminate | cbn; tauto |
    intros u' c' n' I G; cbn in I; repeat (destruct I as [ Q | I ]; [ injection Q as <- <- <-; first [ assumption | discriminate ] | ]); contradiction ] | ].
  destruct (N.eqb_spec (s mod 946080000) 0);
    [ eapply (unit_hit s "30Y" 6 946080000); [ reflexivity | assumption | discriminate | cbn; tauto |
    intros u' c' n' I G; cbn in I; repeat (destruct I as [ Q | I ]; [ injection Q as <- <- <-; first [ assumption | discriminate ] | ]); contradiction ] | ].
  destruct (N.eqb_spec (s mod 315360000) 0);
    [ eapply (unit_hit s "10Y" 5 315360000); [ reflexivity | assumption | discriminate | cbn; tauto |
    intros u' c' n' I G; cbn in I; repeat (destruct I as [ Q | I ]; [ injection Q as <- <- <-; first [ assumption | discriminate ] | ]); contradiction ] | ].
  destruct (N.eqb_spec (s mod 31536000) 0);
    [ eapply (unit_hit s "Y" 4 31536000); [ reflexivity | assumption | discriminate | cbn; tauto |
    intros u' c' n' I G; cbn in I; repeat (destruct I as [ Q | I ]; [ injection Q as <- <- <-; first [ assumption | discriminate ] | ]); contradiction ] | ].
  destruct (N.eqb_spec (s mod 2592000) 0);
    [ eapply (unit_hit s "M" 3 2592000); [ reflexivity | assumption | discriminate | cbn; tauto |
    intros u' c' n' I G; cbn in I; repeat (destruct I as [ Q | I ]; [ injection Q as <- <- <-; first [ assumption | discriminate ] | ]); contradiction ] | ].
  destruct (N.eqb_spec (s mod 86400) 0);
    [ eapply (unit_hit s "D" 2 86400); [ reflexivity | assumption | discriminate | cbn; tauto |
    intros u' c' n' I G; cbn in I; repeat (destruct I as [ Q | I ]; [ injection Q as <- <- <-; first [ assumption | discriminate ] | ]); contradiction ] | ].
  destruct (N.eqb_spec (s mod 43200) 0);
    [ eapply (unit_hit s "12h" 12 43200); [ reflexivity | assumption | discriminate | cbn; tauto |
    intros u' c' n' I G; cbn in I; repeat (destruct I as [ Q | I ]; [ injection Q as <- <- <-; first [ assumption | discriminate ] | ]); contradiction ] | ].
  destruct (N.eqb_spec (s mod 21600) 0);
    [ eapply (unit_hit s "6h" 11 21600); [ reflexivity | assumption | discriminate | cbn; tauto |
    intros u' c' n' I G; cbn in I; repeat (destruct I as [ Q | I ]; [ injection Q as <- <- <-; first [ assumption | discriminate ] | ]); contradiction ] | ].
  destruct (N.eqb_spec (s mod 10800) 0);
    [ eapply (unit_hit s "3h" 10 10800); [ reflexivity | assumption | discriminate | cbn; tauto |
    intros u' c' n' I G; cbn in I; repeat (destruct I as [ Q | I ]; [ injection Q as <- <- <-; first [ assumption | discriminate ] | ]); contradiction ] | ].
  destruct (N.eqb_spec (s mod 3600) 0);
    [ eapply (unit_hit s "h" 1 3600); [ reflexivity | assumption | discriminate | cbn; tauto |
    intros u' c' n' I G; cbn in I; repeat (destruct I as [ Q | I ]; [ injection Q as <- <- <-; first [ assumption | discriminate ] | ]); contradiction ] | ].
  destruct (N.eqb_spec (s mod 60) 0);
    [ eapply (unit_hit s "m" 0 60); [ reflexivity | assumption | discriminate | cbn; tauto |
    intros u' c' n' I G; cbn in I; repeat (destruct I as [ Q | I ]; [ injection Q as <- <- <-; first [ assumption | discriminate ] | ]); contradiction ] | ].
  eapply (unit_hit s "s" 13 1); [ reflexivity | apply N.mod_1_r | discriminate | cbn; tauto |
    intros u' c' n' I G; cbn in I; repeat (destruct I as [ Q | I ]; [ injection Q as <- <- <-; first [ assumption | discriminate ] | ]); contradiction ].
Qed.

Theorem C32_zero : seconds_units 0 = Throw.
Proof. reflexivity. Qed.

Example C32_nonvacuous : seconds_units 64800 = Ok "6h"%string /\ seconds_units 172800 = Ok "D"%string /\ seconds_units 90 = Ok "s"%string.
Proof. repeat split. Qed.

(** ** C68: times written as steps and read back *)

Local Open Scope Z_scope.

Lemma units_of_seconds s u : seconds_units s = Ok u -> exists c n, In (u, c, n) table /\ N.divide n s /\
  forall u' c' n', In (u', c', n') table -> N.divide n' s -> (n' <= n)%N.
Proof.
  intro E. destruct (N.eq_dec s 0) as [ -> | Z ]; [ discriminate | ].
  destruct (C32_largest_unit s) as (u' & c & n & I & E' & D & _ & M); [ lia | ]. assert (u = u') by congruence. subst. eauto.
Qed.

(** units for which the reader knows the length: less than a day *)
Lemma valid_short u c n x : In (u, c, n) table -> (n < 86400)%N -> valid_offset c x = Ok (Z.of_N n * x).
Proof.
  intros I L. cbn in I.
  repeat (destruct I as [ Q | I ]; [ injection Q as <- <- <-; first [ discriminate | cbn [valid_offset]; f_equal; lia ] | ]). contradiction.
Qed.
Lemma valid_long u c n x : In (u, c, n) table -> (86400 <= n)%N -> valid_offset c x = UB.
Proof.
  intros I L. cbn in I.
  repeat (destruct I as [ Q | I ]; [ injection Q as <- <- <-; first [ reflexivity | exfalso; apply L; reflexivity ] | ]). contradiction.
Qed.

Lemma short_div : forall u c n, In (u, c, n) table -> (n < 86400)%N -> N.divide n 86400.
Proof.
  intros u c n I L. cbn in I.
  repeat (destruct I as [ Q | I ]; [ injection Q as <- <- <-; first [ discriminate | apply N.mod_divide; [ discriminate | reflexivity ] ] | ]). contradiction.
Qed.
Lemma long_div : forall u c n, In (u, c, n) table -> (86400 <= n)%N -> N.divide 86400 n.
Proof.
  intros u c n I L. cbn in I.
  repeat (destruct I as [ Q | I ]; [ injection Q as <- <- <-; first [ apply N.mod_divide; [ discriminate | reflexivity ] | exfalso; apply L; reflexivity ] | ]). contradiction.
Qed.

Lemma to_ulong_small z : 0 <= z < 2 ^ 64 -> Z.of_N (to_ulong z) = z.
Proof. intro H. unfold to_ulong. rewrite Z.mod_small by lia. lia. Qed.

Lemma table_pos u c n : In (u, c, n) table -> (0 < n)%N.
Proof. intro I. cbn in I. repeat (destruct I as [ Q | I ]; [ injection Q as <- <- <-; lia | ]). contradiction. Qed.

Lemma write_step_ok u c n d : In (u, c, n) table -> 0 <= d < 2 ^ 52 -> write_step u d = Ok (d / Z.of_N n).
Proof.
  intros I H. unfold write_step. pose proof (table_pos _ _ _ I) as P. destruct (C32_table _ _ _ I) as (-> & _ & _). cbn [obind].
  assert (Z.of_N (to_ulong d / n) = d / Z.of_N n) as ->. { rewrite N2Z.inj_div, to_ulong_small by lia. reflexivity. }
  assert (d / Z.of_N n <= d) by (apply Z.div_le_upper_bound; nia).
  assert (d / Z.of_N n <? 2 ^ 52 = true) as -> by (apply Z.ltb_lt; lia). reflexivity.
Qed.

Lemma write_steps_ok u c n times : In (u, c, n) table -> (forall t, In t times -> 0 <= t < 2 ^ 52) ->
  omapM (write_step u) times = Ok (map (fun t => t / Z.of_N n) times).
Proof.
  intros I H. induction times as [ | t l IH ]; [ reflexivity | ]. cbn [omapM map].
  rewrite (write_step_ok u c n) by (auto; apply H; cbn; auto). cbn [obind]. rewrite IH by (intros; apply H; cbn; auto). reflexivity.
Qed.

Lemma omapM_valid u c n l : In (u, c, n) table -> (n < 86400)%N -> omapM (valid_offset c) l = Ok (map (fun x => Z.of_N n * x) l).
Proof.
  intros I L. induction l as [ | x l IH ]; [ reflexivity | ]. cbn [omapM map]. rewrite (valid_short u c n) by auto. cbn [obind]. rewrite IH. reflexivity.
Qed.

(** the unit chosen for a time axis *)
Definition unit_of (times : list Z) (u : string) (c n : N) : Prop :=
  In (u, c, n) table /\ step_unit times = Ok u /\
  match times with
  | t0 :: t1 :: _ => (Z.of_N n | t1 - t0) /\ (forall u' c' n', In (u', c', n') table -> (Z.of_N n' | t1 - t0) -> (n' <= n)%N)
  | _ => n = 1%N
  end.

Lemma divide_NZ n d : 0 <= d < 2 ^ 64 -> (Z.of_N n | d) <-> N.divide n (to_ulong d).
Proof.
  intro H. rewrite <- (to_ulong_small d H) at 1. split; intros (q & Q).
  - exists (Z.to_N q). destruct (Z_lt_le_dec q 0); [ | nia ].
    assert (to_ulong d = 0%N) by nia. destruct (N.eq_dec n 0); nia.
  - exists (Z.of_N q). nia.
Qed.

Theorem C68_unit_is_largest_of_first_step :
  forall times,
    match times with t0 :: t1 :: _ => 0 < t1 - t0 < 2 ^ 64 | _ => True end ->
    exists u c n, unit_of times u c n.
Proof.
  intros [ | t0 [ | t1 r ] ] H; try (exists "s"%string, 13%N, 1%N; repeat split; cbn; tauto).
  unfold unit_of, step_unit.
  destruct (C32_largest_unit (to_ulong (t1 - t0))) as (u & c & n & I & E & D & _ & M).
  { pose proof (to_ulong_small (t1 - t0)). lia. }
  exists u, c, n. repeat split; auto.
  - apply divide_NZ; [ lia | auto ].
  - intros u' c' n' I' D'. apply (M u' c'); auto. apply divide_NZ; [ lia | auto ].
Qed.

(** Times not before the reference time, written with a unit shorter than a day, are read back
    rounded down to a multiple of the unit. *)
Theorem C68_read_back :
  forall times u c n,
    unit_of times u c n -> (n < 86400)%N -> (forall t, In t times -> 0 <= t < 2 ^ 52) ->
    write_read times = Ok (map (fun t => Z.of_N n * (t / Z.of_N n)) times).
Proof.
  intros times u c n (I & E & _) L H. unfold write_read, write_steps. rewrite E. cbn [obind].
  rewrite (write_steps_ok u c n) by auto. cbn [obind]. destruct (C32_table _ _ _ I) as (_ & -> & _). cbn [obind].
  rewrite (omapM_valid u c n) by auto. rewrite map_map. reflexivity.
Qed.

(** In particular times that are multiples of the unit are read back unchanged; and this holds for
    every axis with constant step that starts at a multiple of the step and is not a whole number
    of days. *)
Theorem C68_regular_axis :
  forall t0 d k,
    0 < d -> ~ (86400 | d) -> (d | t0) -> 0 <= t0 -> t0 + d * Z.of_nat k < 2 ^ 52 ->
    let times := map (fun i => t0 + d * Z.of_nat i) (seq 0 (S (S k))) in
    t0 + d * Z.of_nat (S k) < 2 ^ 52 ->
    write_read times = Ok times.
Proof.
  intros t0 d k D ND DT P0 B1 times B2.
  assert (times = t0 + d * 0 :: t0 + d * 1 :: map (fun i => t0 + d * Z.of_nat i) (seq 2 k)) as Et by reflexivity.
  destruct (C68_unit_is_largest_of_first_step times) as (u & c & n & U).
  { rewrite Et. nia. }
  pose proof U as (I & _ & UD). rewrite Et in UD. destruct UD as (UD & UM).
  replace (t0 + d * 1 - (t0 + d * 0)) with d in * by lia. pose proof (table_pos _ _ _ I) as NP.
  assert (n < 86400)%N as L.
  { destruct (N.lt_ge_cases n 86400) as [ | G ]; auto. contradict ND. apply (long_div u c n I) in G as (q & G).
    apply (Z.divide_trans _ (Z.of_N n)); auto. exists (Z.of_N q). lia. }
  rewrite (C68_read_back times u c n U L).
  - f_equal. rewrite <- (map_id times) at 2. apply map_ext_in. intros t Ht.
    unfold times in Ht. apply in_map_iff in Ht as (i & <- & _).
    symmetry. apply Z.div_exact; [ lia | ]. apply Z.mod_divide; [ lia | ].
    apply Z.divide_add_r; [ apply (Z.divide_trans _ d); auto | apply Z.divide_mul_l; auto ].
  - intros t Ht. unfold times in Ht. apply in_map_iff in Ht as (i & <- & Hi). apply in_seq in Hi. nia.
Qed.

(** Steps of whole days (months, years) use a unit whose length the reader does not assign. *)
Theorem C68_daily_steps_refuted :
  forall t0 t1 r,
    0 < t1 - t0 -> (86400 | t1 - t0) -> (forall t, In t (t0 :: t1 :: r) -> 0 <= t < 2 ^ 52) ->
    write_read (t0 :: t1 :: r) = UB.
Proof.
  intros t0 t1 r D DV H. set (times := t0 :: t1 :: r).
  destruct (C68_unit_is_largest_of_first_step times) as (u & c & n & U).
  { cbn. pose proof (H t0 (or_introl eq_refl)). pose proof (H t1 (or_intror (or_introl eq_refl))). lia. }
  pose proof U as (I & E & _ & UM).
  assert (86400 <= n)%N as L by (apply (UM "D"%string 2%N 86400%N); [ cbn; tauto | exact DV ]).
  unfold write_read, write_steps. rewrite E. cbn [obind]. rewrite (write_steps_ok u c n) by auto. cbn [obind].
  destruct (C32_table _ _ _ I) as (_ & -> & _). cbn [obind]. unfold times. cbn [map omapM]. rewrite (valid_long u c n) by auto. reflexivity.
Qed.

(** The unit comes from the first two times only: a later time that is no multiple is moved. *)
Theorem C68_irregular_axis_refuted : write_read [0; 21600; 32400] = Ok [0; 21600; 21600].
Proof. reflexivity. Qed.

(** A time before the reference time becomes a step of more than 10^15. *)
Theorem C68_time_before_reference_refuted : write_read [-10800; 0] = Ok [10800 * 1708031858676809; 0].
Proof. reflexivity. Qed.

(** Equal first two times cannot be written. *)
Theorem C68_equal_times_throw : forall t r, write_read (t :: t :: r) = Throw.
Proof. intros. unfold write_read, write_steps, step_unit. rewrite Z.sub_diag. reflexivity. Qed.

Example C68_nonvacuous : write_read [10800; 21600; 32400; 54000] = Ok [10800; 21600; 32400; 54000] /\ write_read [77] = Ok [77].
Proof. split; reflexivity. Qed.

(** ** C69: encoding of times *)

Local Open Scope N_scope.

(** Every field fits its bits. *)
Definition ft_fits (t : ftime) : Prop :=
  f_year t < 4096 /\ f_month t < 16 /\ f_mday t < 256 /\ f_hour t < 256 /\ f_minute t < 128 /\ f_second t < 256 /\ f_msecond t < 65536.

Lemma lor_shift a b k : b < 2 ^ k -> N.lor (N.shiftl a k) b = a * 2 ^ k + b.
Proof.
  intro H. rewrite N.shiftl_mul_pow2. symmetry. rewrite <- N.lxor_lor, N.add_nocarry_lxor; auto.
  all: apply N.bits_inj_0; intro n; rewrite N.land_spec; destruct (N.lt_ge_cases n k) as [ L | L ];
    [ rewrite N.mul_pow2_bits_low by auto; reflexivity
    | replace (N.testbit b n) with false; [ apply andb_false_r | ]; symmetry; destruct (N.eq_dec b 0) as [ -> | Z ]; [ apply N.bits_0 | ];
      apply N.bits_above_log2; apply N.log2_lt_pow2; [ lia | ]; apply N.lt_le_trans with (2 ^ k); auto; apply N.pow_le_mono_r; lia ].
Qed.

Lemma ft_encode_sum t : ft_fits t ->
  ft_encode t = f_year t * 2 ^ 52 + (f_month t * 2 ^ 48 + (f_mday t * 2 ^ 40 + (f_hour t * 2 ^ 32 + (f_minute t * 2 ^ 24 + (f_second t * 2 ^ 16 + f_msecond t))))).
Proof.
  intros (H1 & H2 & H3 & H4 & H5 & H6 & H7). unfold ft_encode. rewrite <- !N.lor_assoc.
  rewrite w64_small by (rewrite N.shiftl_mul_pow2; unfold M64; change (2 ^ 52) with 4503599627370496; change (2 ^ 64) with 18446744073709551616; lia).
  rewrite (lor_shift (f_second t)) by (change (2 ^ 16) with 65536; lia).
  rewrite (lor_shift (f_minute t)) by (change (2 ^ 16) with 65536; change (2 ^ 24) with 16777216; lia).
  rewrite (lor_shift (f_hour t)) by (change (2 ^ 16) with 65536; change (2 ^ 24) with 16777216; change (2 ^ 32) with 4294967296; lia).
  rewrite (lor_shift (f_mday t)) by (change (2 ^ 16) with 65536; change (2 ^ 24) with 16777216; change (2 ^ 32) with 4294967296; change (2 ^ 40) with 1099511627776; lia).
  rewrite (lor_shift (f_month t)) by (change (2 ^ 16) with 65536; change (2 ^ 24) with 16777216; change (2 ^ 32) with 4294967296; change (2 ^ 40) with 1099511627776; change (2 ^ 48) with 281474976710656; lia).
  rewrite (lor_shift (f_year t)) by (change (2 ^ 16) with 65536; change (2 ^ 24) with 16777216; change (2 ^ 32) with 4294967296; change (2 ^ 40) with 1099511627776; change (2 ^ 48) with 281474976710656; change (2 ^ 52) with 4503599627370496; lia).
  reflexivity.
Qed.

Lemma field k w a r b e : e = (a * 2 ^ w + b) * 2 ^ k + r -> b < 2 ^ w -> r < 2 ^ k -> N.land (N.shiftr e k) (2 ^ w - 1) = b.
Proof.
  intros -> B R. rewrite N.shiftr_div_pow2. rewrite N.div_add_l by (apply N.pow_nonzero; discriminate).
  rewrite (N.div_small r) by auto. rewrite N.add_0_r.
  replace (2 ^ w - 1) with (N.ones w) by (rewrite N.ones_equiv; lia).
  rewrite N.land_ones. rewrite N.add_comm, N.mod_add by (apply N.pow_nonzero; discriminate). apply N.mod_small; auto.
Qed.

Ltac powers := change (2 ^ 4) with 16 in *; change (2 ^ 8) with 256 in *; change (2 ^ 12) with 4096 in *; change (2 ^ 16) with 65536 in *;
  change (2 ^ 24) with 16777216 in *; change (2 ^ 32) with 4294967296 in *; change (2 ^ 40) with 1099511627776 in *;
  change (2 ^ 48) with 281474976710656 in *; change (2 ^ 52) with 4503599627370496 in *.

Theorem C69_decode_encode : forall t, ft_fits t -> ft_decode (ft_encode t) = t.
Proof.
  intros t F. rewrite ft_encode_sum by auto. destruct t as [ y mo d h mi s ms ]. unfold ft_fits in F. cbn [f_year f_month f_mday f_hour f_minute f_second f_msecond] in *.
  destruct F as (H1 & H2 & H3 & H4 & H5 & H6 & H7). unfold ft_decode. 
  f_equal.
  - apply (field 52 12 0 (mo * 2 ^ 48 + (d * 2 ^ 40 + (h * 2 ^ 32 + (mi * 2 ^ 24 + (s * 2 ^ 16 + ms)))))); powers; lia.
  - apply (field 48 4 y (d * 2 ^ 40 + (h * 2 ^ 32 + (mi * 2 ^ 24 + (s * 2 ^ 16 + ms))))); powers; lia.
  - apply (field 40 8 (y * 2 ^ 4 + mo) (h * 2 ^ 32 + (mi * 2 ^ 24 + (s * 2 ^ 16 + ms)))); powers; lia.
  - apply (field 32 8 ((y * 2 ^ 4 + mo) * 2 ^ 8 + d) (mi * 2 ^ 24 + (s * 2 ^ 16 + ms))); powers; lia.
  - apply (field 24 8 (((y * 2 ^ 4 + mo) * 2 ^ 8 + d) * 2 ^ 8 + h) (s * 2 ^ 16 + ms)); powers; lia.
  - apply (field 16 8 ((((y * 2 ^ 4 + mo) * 2 ^ 8 + d) * 2 ^ 8 + h) * 2 ^ 8 + mi) ms); powers; lia.
  - pose proof (field 0 16 (((((y * 2 ^ 4 + mo) * 2 ^ 8 + d) * 2 ^ 8 + h) * 2 ^ 8 + mi) * 2 ^ 8 + s) 0 ms) as Q.
    specialize (Q (y * 2 ^ 52 + (mo * 2 ^ 48 + (d * 2 ^ 40 + (h * 2 ^ 32 + (mi * 2 ^ 24 + (s * 2 ^ 16 + ms))))))).
    rewrite N.shiftr_0_r in Q. apply Q; powers; change (2 ^ 0) with 1; lia.
Qed.

(** The fields in order of significance, compared one after the other. *)
Definition fields (t : ftime) : list N := [f_year t; f_month t; f_mday t; f_hour t; f_minute t; f_second t; f_msecond t].
Fixpoint lex (a b : list N) : Prop :=
  match a, b with
  | x :: a', y :: b' => x < y \/ (x = y /\ lex a' b')
  | _, _ => False
  end.

Theorem C69_order : forall a b, ft_fits a -> ft_fits b -> (ft_encode a < ft_encode b <-> lex (fields a) (fields b)).
Proof.
  intros a b FA FB. rewrite !ft_encode_sum by auto.
  destruct a as [ y mo d h mi s ms ], b as [ y' mo' d' h' mi' s' ms' ]. unfold ft_fits, fields in *. cbn [f_year f_month f_mday f_hour f_minute f_second f_msecond lex] in *.
  powers. lia.
Qed.

Theorem C69_injective : forall a b, ft_fits a -> ft_fits b -> ft_encode a = ft_encode b -> a = b.
Proof. intros a b FA FB Q. rewrite <- (C69_decode_encode a FA), <- (C69_decode_encode b FB), Q. reflexivity. Qed.

(** No valid time is encoded as 0, the code of "no time". *)
Theorem C69_valid_is_not_zero : forall t, ft_fits t -> ft_invalid t = false -> ft_encode t <> 0.
Proof.
  intros t F I. rewrite ft_encode_sum by auto. unfold ft_invalid in I. apply orb_false_iff in I as (I & _). powers. lia.
Qed.

(** From the year 4096 on the upper bits are lost: different times have equal encodings. *)
Theorem C69_large_year_refuted :
  ft_encode (mkT 4096 1 1 0 0 0 0) < ft_encode (mkT 2000 1 1 0 0 0 0) /\
  ft_encode (mkT 6096 1 1 0 0 0 0) = ft_encode (mkT 2000 1 1 0 0 0 0).
Proof. split; reflexivity. Qed.

Example C69_nonvacuous : ft_fits (mkT 2026 11 15 23 59 59 999) /\ ft_decode (ft_encode (mkT 2026 11 15 23 59 59 999)) = mkT 2026 11 15 23 59 59 999.
Proof. repeat split. Qed.

Print Assumptions C31_slice_places_messages.
Print Assumptions C31_partial_request_refuted.
Print Assumptions C31_misplaced_refuted.
Print Assumptions C31_bad_shape.
Print Assumptions C67_index_holds_last_message.
Print Assumptions C67_complete_read.
Print Assumptions C67_variable_without_time_refuted.
Print Assumptions C32_table.
Print Assumptions C32_other_text.
Print Assumptions C32_other_code.
Print Assumptions C32_texts_and_codes_are_inverse.
Print Assumptions C32_largest_unit.
Print Assumptions C32_zero.
Print Assumptions C68_unit_is_largest_of_first_step.
Print Assumptions C68_read_back.
Print Assumptions C68_regular_axis.
Print Assumptions C68_daily_steps_refuted.
Print Assumptions C68_irregular_axis_refuted.
Print Assumptions C68_time_before_reference_refuted.
Print Assumptions C68_equal_times_throw.
Print Assumptions C69_decode_encode.
Print Assumptions C69_order.
Print Assumptions C69_injective.
Print Assumptions C69_valid_is_not_zero.
Print Assumptions C69_large_year_refuted.
