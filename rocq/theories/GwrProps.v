(** C105: the messages written to a GRIB file. *)
From Coq Require Import ZArith NArith String List Bool QArith Qcanon Lia Lqa.
From Verif Require Import Base GribModel GwrModel GwrProofs.
Import ListNotations.
Local Open Scope list_scope.
Local Open Scope nat_scope.
Local Open Scope act_scope.

(** ** What is to be written *)

(** the means of neighbouring half levels are the full levels *)
Definition half_levels (full half : list Qc) : Prop :=
  length half = S (length full) /\
  forall i, i < length full ->
    (nth i half 0 + nth (S i) half 0 = Q2Qc (2 # 1) * nth i full 0)%Qc.

Section Spec.
  Variable conv : string -> string -> option (Qc * Qc).
  Variables date_of time_of : Z -> Z.
  Variable cf : wconf.
  Variable unique : option Z.

  (** the configuration elements of a variable: those with its name, or without any such, those with
      its standard name *)
  Definition entry (v : wvar) (p : pnode) : Prop :=
    p_name p = Some (v_name v)
    \/ ((forall q, In q (c_params cf) -> p_name q <> Some (v_name v))
        /\ exists s, v_std v = Some s /\ p_std p = Some s).

  (** the configuration elements of a vertical axis: those with its standard name, or if it has
      none, those for lengths or pressures by its units; for variables without vertical axis those
      with an empty standard name *)
  Definition axis_for (z : option vaxis) (a : anode) : Prop :=
    match z with
    | None => a_std a = Some ""%string
    | Some ax =>
        (exists s, z_std ax = Some s /\ a_std a = Some s)
        \/ (z_std ax = None /\ exists u, z_unit ax = Some u /\
              ((conv u "m" <> None /\ a_compat a = Some "m"%string)
               \/ (conv u "m" = None /\ conv u "Pa" <> None /\ a_compat a = Some "Pa"%string)))
    end.

  (** an element with a level is for this level only *)
  Definition level_fits (p : pnode) (lv : Qc) : Prop :=
    p_level p = None
    \/ exists x, p_level p = Some (Some x) /\
         (lv - Q2Qc (1 # 1000000) * lv < x)%Qc /\ (x < lv + Q2Qc (1 # 1000000) * lv)%Qc.

  (** the numbers of the parameter *)
  Definition param_keys (p : pnode) (m : handle) : Prop :=
    if c_edition2 cf then
      exists n c d, p_number p = Some (Some n) /\ p_category p = Some (Some c) /\
        p_discipline p = Some (Some d) /\
        m "parameterNumber"%string = Some (KL n) /\ m "parameterCategory"%string = Some (KL c) /\
        m "discipline"%string = Some (KL d)
    else
      exists n t, p_number p = Some (Some n) /\ p_table p = Some (Some t) /\
        m "indicatorOfParameter"%string = Some (KL n) /\
        m "gribTablesVersionNo"%string = Some (KL t).
  Definition numbers (p : pnode) : Prop :=
    if c_edition2 cf then p_number p <> None /\ p_category p <> None /\ p_discipline p <> None
    else True.

  Definition units_ok (v : wvar) (p : pnode) : Prop :=
    v_unit v = ""%string \/ p_units p = ""%string \/ conv (v_unit v) (p_units p) <> None.

  Definition hybrid (id : Z) : Prop := c_edition2 cf = true /\ id = 105%Z.

  Definition pv_fits (z : option vaxis) (id : Z) : Prop :=
    hybrid id -> forall ax ap b, z = Some ax -> z_hybrid ax = Some (ap, b) -> length b = length ap.

  (** what is needed to write variable [v] at level [lv], position [k] *)
  Record plan (cs : wcs) (tpos : nat) (v : wvar) (k : nat) (lv : Qc)
              (a : anode) (p : pnode) (id : Z) (data : list Qc) : Prop := mkPlan {
    pl_axis : only (axis_for (s_z cs)) (c_axes cf) a;
    pl_id : a_id a = Some (Some id);
    pl_pv : pv_fits (s_z cs) id;
    pl_entry : only (entry v) (c_params cf) p;
    pl_fits : level_fits p lv;
    pl_num : numbers p;
    pl_attrs : Forall attr_ok (p_attrs p ++ p_vattrs p);
    pl_data : v_field v 0 tpos (match s_z cs with Some _ => k | None => 0 end) = Some data;
    pl_some : data <> [];
    pl_valid : c_omit cf = true -> exists x, In x data /\ x <> v_fill v;
    pl_units : units_ok v p }.

  (** factor and summand of the conversion to the configured units *)
  Definition factor (v : wvar) (p : pnode) : Qc * Qc :=
    if String.eqb (v_unit v) "" then (1%Qc, 0%Qc)
    else if String.eqb (p_units p) "" then (1%Qc, 0%Qc)
    else match conv (v_unit v) (p_units p) with Some f => f | None => (1%Qc, 0%Qc) end.
  Definition converted (v : wvar) (p : pnode) (x : Qc) : Qc :=
    if Qc_eq_dec x (v_fill v) then v_fill v
    else ((x * v_scale v + v_offset v) * fst (factor v p) + snd (factor v p))%Qc.

  (** the keys of the time: [rt] the reference time, [vt] the time *)
  Definition time_keys (rt vt : option Z) (ut : string) (m : handle) : Prop :=
    m "stepUnits"%string = Some (KS ut) /\
    exists d t st,
      m "dataDate"%string = Some (KL d) /\ m "dataTime"%string = Some (KL t) /\
      m "startStep"%string = Some (KL st) /\ m "endStep"%string = Some (KL st) /\
      match rt, vt with
      | Some r, Some v => d = date_of r /\ t = time_of r /\ write_step ut (v - r) = Ok st
      | None, Some v => d = date_of v /\ t = time_of v /\ st = 0%Z
      | None, None => d = 10101%Z /\ t = 0%Z /\ st = 0%Z
      | Some _, None => False
      end.

  Definition level_keys (z : option vaxis) (id : Z) (k : nat) (lv : Qc) (m : handle) : Prop :=
    m (if c_edition2 cf then "levelType" else "indicatorOfTypeOfLevel")%string = Some (KL id) /\
    (hybrid id -> m "level"%string = Some (KL (Z.of_nat k + 1))) /\
    (~ hybrid id -> m "level"%string = Some (KL (trunc lv))) /\
    (hybrid id -> forall ax ap b, z = Some ax -> z_hybrid ax = Some (ap, b) ->
       m "PVPresent"%string = Some (KL 1) /\
       exists pa pb, m "pv"%string = Some (KA (pa ++ pb)) /\ half_levels ap pa /\ half_levels b pb).

  Record describes (cs : wcs) (rt vt : option Z) (ut : string) (v : wvar) (k : nat) (lv : Qc)
                   (p : pnode) (id : Z) (data : list Qc) (m : handle) : Prop := mkD {
    d_values : m "values"%string = Some (KA (map (converted v p) data));
    d_missing : m "missingValue"%string = Some (KD (v_fill v));
    d_bitmap : m "bitmapPresent"%string = Some (KL 1);
    d_level : level_keys (s_z cs) id k lv m;
    d_param : param_keys p m;
    d_attrs : forall n x, In (n, ASet x) (p_attrs p ++ p_vattrs p) -> m n = Some x;
    d_time : time_keys rt vt ut m;
    d_proj : forall n x, In (n, x) (s_proj cs) -> m n = Some x }.

  Definition level_key (k : string) : Prop :=
    In k ["levelType"; "indicatorOfTypeOfLevel"; "level"; "PVPresent"; "pv"]%string.
  Definition param_key (k : string) : Prop :=
    In k ["parameterNumber"; "parameterCategory"; "discipline"; "indicatorOfParameter";
          "gribTablesVersionNo"]%string.
  Definition time_key (k : string) : Prop :=
    In k ["dataDate"; "dataTime"; "stepUnits"; "startStep"; "endStep"]%string.
  Definition data_key (k : string) : Prop :=
    In k ["missingValue"; "bitmapPresent"; "values"]%string.
  Definition reserved (k : string) : Prop :=
    level_key k \/ param_key k \/ time_key k \/ data_key k.
  Definition attr_names (p : pnode) : list string := map fst (p_attrs p ++ p_vattrs p).

  (** the extra attributes of a parameter and the keys of the grid are not keys the writer sets
      itself, and none is given twice *)
  Definition well_named (css : list wcs) : Prop :=
    (forall p, In p (c_params cf) ->
       NoDup (attr_names p) /\ forall n, In n (attr_names p) -> ~ reserved n) /\
    (forall cs, In cs css ->
       NoDup (map fst (s_proj cs)) /\
       forall n, In n (map fst (s_proj cs)) ->
         ~ reserved n /\ forall p, In p (c_params cf) -> ~ In n (attr_names p)).

  (** ** Elements of the configuration *)

  Lemma nodes_only v p : nodes_of cf v = [p] <-> only (entry v) (c_params cf) p.
  Proof.
    unfold nodes_of.
    destruct (filter (fun p => oseqb (p_name p) (v_name v)) (c_params cf)) as [|q l] eqn:E.
    - pose proof (proj1 (filter_nil_iff _ _) E) as Hn.
      assert (Hn' : forall q, In q (c_params cf) -> p_name q <> Some (v_name v)).
      { intros q Hq Hc. specialize (Hn q Hq). cbn beta in Hn. rewrite Hc in Hn. cbn in Hn.
        rewrite String.eqb_refl in Hn. discriminate. }
      destruct (v_std v) as [s|] eqn:Es.
      + apply filter_one. intros q Hq. rewrite oseqb_spec. unfold entry. split.
        * intros H. right. split; [assumption|]. exists s. split; assumption.
        * intros [H|(_ & s' & H1 & H2)]; [exfalso; exact (Hn' q Hq H)|]. congruence.
      + split; [discriminate|]. intros (l1 & l2 & Hl & [Hp|(_ & s & Hs & _)] & _).
        * exfalso. apply (Hn' p); [rewrite Hl; apply in_elt | assumption].
        * congruence.
    - rewrite <- E. apply filter_one. intros b Hb. rewrite oseqb_spec. unfold entry.
      split; [now left|]. intros [H|[H _]]; [assumption|]. exfalso.
      assert (Hq : In q (filter (fun p => oseqb (p_name p) (v_name v)) (c_params cf)))
        by (rewrite E; now left).
      apply filter_In in Hq. destruct Hq as [Hq Hf]. apply (H q Hq). now apply oseqb_spec.
  Qed.

  Lemma axis_only z a : axis_nodes conv cf z = inl [a] <-> only (axis_for z) (c_axes cf) a.
  Proof.
    unfold axis_nodes, axis_for. destruct z as [ax|].
    - destruct (z_std ax) as [s|] eqn:Es.
      + rewrite <- (filter_one (fun a => oseqb (a_std a) s)).
        * split; [now inversion 1 | now intros ->].
        * intros b _. rewrite oseqb_spec. split.
          -- intros H. left. exists s. now split.
          -- intros [(s' & H1 & H2)|[H _]]; [congruence | discriminate].
      + destruct (z_unit ax) as [u|] eqn:Eu.
        * unfold convertible. destruct (conv u "m") as [c|] eqn:Em.
          -- rewrite <- (filter_one (fun a => oseqb (a_compat a) "m")).
             ++ split; [now inversion 1 | now intros ->].
             ++ intros b _. rewrite oseqb_spec. split.
                ** intros H. right. split; [reflexivity|]. exists u. split; [reflexivity|].
                   left. split; [congruence | assumption].
                ** intros [(s & H & _)|(_ & u' & Hu & [[_ H]|[H _]])]; congruence.
          -- destruct (conv u "Pa") as [c|] eqn:Ep.
             ++ rewrite <- (filter_one (fun a => oseqb (a_compat a) "Pa")).
                ** split; [now inversion 1 | now intros ->].
                ** intros b _. rewrite oseqb_spec. split.
                   --- intros H. right. split; [reflexivity|]. exists u. split; [reflexivity|].
                       right. split; [assumption|]. split; [congruence | assumption].
                   --- intros [(s & H & _)|(_ & u' & Hu & [[H1 H2]|(_ & _ & H)])]; congruence.
             ++ split; [discriminate|]. intros (l1 & l2 & _ & [(s & H & _)|(_ & u' & Hu & H)] & _);
                  [discriminate|]. inversion Hu; subst u'.
                destruct H as [[H _]|(_ & H & _)]; congruence.
        * split; [discriminate|]. intros (l1 & l2 & _ & [(s & H & _)|(_ & u' & Hu & _)] & _);
            discriminate.
    - rewrite <- (filter_one (fun a => oseqb (a_std a) "")).
      + split; [now inversion 1 | now intros ->].
      + intros b _. apply oseqb_spec.
  Qed.

  (** ** Hybrid coefficients *)

  Lemma nth_upd_same (l : list Qc) i x : i < length l -> nth i (upd l i x) 0%Qc = x.
  Proof. revert i. induction l as [|a l IH]; intros [|i] H; cbn in *; [lia | lia | reflexivity |]. apply IH. lia. Qed.
  Lemma nth_upd_other (l : list Qc) i j x : i <> j -> nth j (upd l i x) 0%Qc = nth j l 0%Qc.
  Proof.
    revert i j. induction l as [|a l IH]; intros [|i] [|j] H; cbn; try reflexivity; [lia|].
    apply IH. lia.
  Qed.

  Lemma rdz_nth l i : i < length l -> rdz l (Z.of_nat i) = inl (nth i l 0%Qc).
  Proof.
    intros H. unfold rdz. destruct (Z.ltb_spec (Z.of_nat i) 0); [lia|].
    rewrite Nat2Z.id, (nth_error_nth' l 0%Qc H). reflexivity.
  Qed.
  Lemma rdz_out l i : length l <= i -> rdz l (Z.of_nat i) = inr Undef.
  Proof.
    intros H. unfold rdz. destruct (Z.ltb_spec (Z.of_nat i) 0); [lia|].
    rewrite Nat2Z.id. apply nth_error_None in H. rewrite H. reflexivity.
  Qed.
  Lemma wrz_upd l i q : i < length l -> wrz l (Z.of_nat i) q = inl (upd l i q).
  Proof.
    intros H. unfold wrz. destruct (Z.ltb_spec (Z.of_nat i) 0); [lia|].
    rewrite Nat2Z.id. apply Nat.ltb_lt in H. rewrite H. reflexivity.
  Qed.

  (** the part of the half levels computed so far *)
  Definition done_from (j : nat) (full half : list Qc) : Prop :=
    length half = S (length full) /\
    forall i, j <= i < length full ->
      (nth i half 0 + nth (S i) half 0 = Q2Qc (2 # 1) * nth i full 0)%Qc.

  Lemma put_back j src pv : j < length src -> done_from (S j) src pv ->
    exists pv', pv_put src (Z.of_nat j) (-1) pv = inl pv' /\ done_from j src pv'.
  Proof.
    intros Hj [Hl Hd]. unfold pv_put, ebind. rewrite rdz_nth by assumption.
    replace (Z.of_nat j - -1)%Z with (Z.of_nat (S j)) by lia.
    rewrite rdz_nth by lia. rewrite wrz_upd by lia.
    eexists. split; [reflexivity|]. split; [now rewrite length_upd|].
    intros i Hi. destruct (Nat.eq_dec i j) as [->|Hne].
    - rewrite nth_upd_same by lia. rewrite nth_upd_other by lia. ring.
    - rewrite !nth_upd_other by lia. apply Hd. lia.
  Qed.

  Lemma loop_back ap b : length b = length ap -> forall j pa pb, j <= length ap ->
    done_from j ap pa -> done_from j b pb ->
    exists pa' pb', pv_loop j (Z.of_nat j - 1) (-1) ap b pa pb = inl (pa', pb') /\
                    half_levels ap pa' /\ half_levels b pb'.
  Proof.
    intros Hlen. induction j as [|j IH]; intros pa pb Hj Ha Hb.
    - exists pa, pb. split; [reflexivity|].
      destruct Ha as [La Ha], Hb as [Lb Hb]. split; split; try assumption; intros i Hi.
      + apply Ha. lia.
      + apply Hb. lia.
    - cbn [pv_loop]. replace (Z.of_nat (S j) - 1)%Z with (Z.of_nat j) by lia.
      destruct (put_back j ap pa) as (pa' & Ea & Ha'); [lia | assumption |].
      destruct (put_back j b pb) as (pb' & Eb & Hb'); [lia | assumption |].
      rewrite Ea, Eb. cbn [ebind]. replace (Z.of_nat j + -1)%Z with (Z.of_nat j - 1)%Z by lia.
      apply IH; [lia | assumption | assumption].
  Qed.

  Lemma loop_fwd ap b : length b = length ap -> forall j i pa pb,
    1 <= j -> 1 <= i -> i + j = S (length ap) ->
    length pa = S (length ap) -> length pb = S (length ap) ->
    pv_loop j (Z.of_nat i) 1 ap b pa pb = inr Undef.
  Proof.
    intros Hlen. induction j as [|j IH]; intros i pa pb Hj Hi Hs La Lb; [lia|].
    cbn [pv_loop]. unfold pv_put. destruct (Nat.lt_ge_cases i (length ap)) as [H|H].
    - rewrite !rdz_nth by lia. cbn [ebind].
      replace (Z.of_nat i - 1)%Z with (Z.of_nat (i - 1)) by lia.
      rewrite !rdz_nth by lia. cbn [ebind]. rewrite !wrz_upd by lia. cbn [ebind].
      replace (Z.of_nat i + 1)%Z with (Z.of_nat (S i)) by lia.
      apply IH; try lia; now rewrite length_upd.
    - rewrite rdz_out by lia. reflexivity.
  Qed.

  Lemma done_zero full n : n = length full -> done_from n full (repeat 0%Qc (S n)).
  Proof. intros ->. split; [apply repeat_length|]. intros i Hi. lia. Qed.

  Lemma pv_spec ap b :
    match pv_of ap b with
    | inl pv => length b = length ap /\
                exists pa pb, pv = pa ++ pb /\ half_levels ap pa /\ half_levels b pb
    | inr Cdm => length b <> length ap
    | inr Other => False
    | inr Undef => length b = length ap
    end.
  Proof.
    unfold pv_of. cbv zeta. destruct (Nat.eqb_spec (length b) (length ap)) as [E|E]; cbn [negb];
      [|assumption].
    destruct (Nat.eq_dec (length ap) 0) as [E0|E0].
    { destruct ap; [|discriminate]. destruct b; [reflexivity | discriminate]. }
    assert (Hn : 1 <= length ap) by lia. clear E0.
    change (rdz b 0) with (rdz b (Z.of_nat 0)). rewrite rdz_nth by lia. cbn [ebind].
    replace (Z.of_nat (length ap) - 1)%Z with (Z.of_nat (length ap - 1)) by lia.
    rewrite rdz_nth by lia. cbn [ebind].
    destruct (qltb _ _); cbv beta iota.
    - replace (Z.of_nat (length ap - 1)) with (Z.of_nat (length ap) - 1)%Z by lia.
      destruct (loop_back ap b E (length ap) (repeat 0%Qc (S (length ap)))
                  (repeat 0%Qc (S (length ap)))) as (pa & pb & El & Ha & Hb).
      + lia.
      + now apply done_zero.
      + apply done_zero. now symmetry.
      + rewrite El. cbn [ebind]. split; [assumption|]. exists pa, pb. split; [reflexivity|].
        split; assumption.
    - change (pv_loop (length ap) 1) with (pv_loop (length ap) (Z.of_nat 1)). rewrite (loop_fwd ap b E (length ap) 1); try lia; try apply repeat_length.
      cbn [ebind]. assumption.
  Qed.

  (** ** The keys of the level *)

  Lemma level_touches z lv k : touches level_key (set_level conv cf z lv k).
  Proof.
    unfold set_level. apply touches_bnd; [apply touches_lift|]. intros nodes.
    destruct nodes as [|a [|? ?]]; try apply touches_fail.
    apply touches_bnd; [apply touches_need|]. intros id.
    apply touches_bnd.
    { apply touches_setk. unfold level_key. destruct (c_edition2 cf); cbn; tauto. }
    intros _. destruct (c_edition2 cf && (id =? 105)%Z).
    - apply touches_bnd.
      + unfold set_hybrid. destruct z as [ax|]; [|apply touches_ret].
        destruct (z_hybrid ax) as [[ap b]|]; [|apply touches_ret].
        apply touches_bnd; [apply touches_lift|]. intros pv.
        apply touches_bnd; [apply touches_setk; unfold level_key; cbn; tauto|]. intros _.
        apply touches_setk. unfold level_key. cbn. tauto.
      + intros _. apply touches_setk. unfold level_key. cbn. tauto.
    - apply touches_bnd; [apply touches_lift|]. intros n.
      apply touches_setk. unfold level_key. cbn. tauto.
  Qed.

  Lemma hybrid_dec id : (c_edition2 cf && (id =? 105)%Z) = true <-> hybrid id.
  Proof. unfold hybrid. rewrite andb_true_iff, Z.eqb_eq. tauto. Qed.

  Definition level_ready z (a : anode) (id : Z) : Prop :=
    only (axis_for z) (c_axes cf) a /\ a_id a = Some (Some id) /\ pv_fits z id.

  Ltac keys := repeat first [rewrite hset_same | rewrite hset_other by discriminate].

  Lemma level_spec z lv k s :
    match set_level conv cf z lv k s with
    | (s', inl _) => exists a id, level_ready z a id /\ level_keys z id k lv (w_h s')
    | (_, inr Cdm) => ~ exists a id, level_ready z a id
    | _ => True
    end.
  Proof.
    unfold set_level. destruct (axis_nodes conv cf z) as [nodes|e] eqn:En.
    2: { cbn. destruct e; trivial. intros (a & id & (Ho & _)).
         apply axis_only in Ho. congruence. }
    cbn [lift]. unfold bnd at 1, ret at 1.
    assert (Hbad : forall ns, axis_nodes conv cf z = inl ns -> (forall a, ns <> [a]) ->
              ~ exists a id, level_ready z a id).
    { intros ns E H (a & id & (Ho & _)). apply axis_only in Ho. apply (H a). congruence. }
    destruct nodes as [|a [|a2 nodes]].
    - cbn. apply (Hbad _ En). intros; discriminate.
    - apply axis_only in En.
      destruct (a_id a) as [[id|]|] eqn:Eid; cbn [need]; try exact I.
      unfold bnd at 1, ret at 1. unfold bnd at 1, setk at 1.
      destruct (c_edition2 cf && (id =? 105)%Z) eqn:Eh.
      + apply hybrid_dec in Eh. pose proof Eh as [E2 _].
        unfold set_hybrid. rewrite E2. destruct z as [ax|].
        * destruct (z_hybrid ax) as [[ap b]|] eqn:Ez.
          -- pose proof (pv_spec ap b) as Hp. destruct (pv_of ap b) as [pv|e].
             ++ destruct Hp as (Hl & pa & pb & -> & Ha & Hb).
                cbn. exists a, id. split.
                ** split; [assumption|]. split; [assumption|].
                   intros _ ax' ap' b' H1 H2. inversion H1; subst ax'. rewrite Ez in H2.
                   inversion H2; subst. assumption.
                ** unfold level_keys. rewrite E2. keys.
                   split; [reflexivity|]. split; [reflexivity|]. split; [intros H; contradiction|].
                   intros _ ax' ap' b' H1 H2. inversion H1; subst ax'. rewrite Ez in H2.
                   inversion H2; subst. keys. split; [reflexivity|]. exists pa, pb.
                   split; [reflexivity|]. split; assumption.
             ++ cbn. destruct e; trivial. intros (a' & id' & Ho & Hid & Hf).
                pose proof (only_unique _ _ _ _ En Ho); subst a'. rewrite Eid in Hid.
                inversion Hid; subst id'. apply Hp. exact (Hf Eh ax ap b eq_refl Ez).
          -- cbn. exists a, id. split.
             ++ split; [assumption|]. split; [assumption|].
                intros _ ax' ap' b' H1 H2. inversion H1; subst ax'. congruence.
             ++ unfold level_keys. rewrite E2. keys.
                split; [reflexivity|]. split; [reflexivity|]. split; [intros H; contradiction|].
                intros _ ax' ap' b' H1 H2. inversion H1; subst ax'. congruence.
        * cbn. exists a, id. split.
          -- split; [assumption|]. split; [assumption|]. intros _ ax' ap' b' H1 H2. discriminate.
          -- unfold level_keys. rewrite E2. keys.
             split; [reflexivity|]. split; [reflexivity|]. split; [intros H; contradiction|].
             intros _ ax' ap' b' H1 H2. discriminate.
      + assert (Hnh : ~ hybrid id) by (rewrite <- hybrid_dec; congruence).
        unfold to_long. cbv zeta. destruct ((- 2 ^ 63 <=? trunc lv)%Z && (trunc lv <? 2 ^ 63)%Z);
          cbn [lift]; [|exact I].
        cbn. exists a, id. split.
        * split; [assumption|]. split; [assumption|]. intros H; contradiction.
        * unfold level_keys. destruct (c_edition2 cf); keys;
            (split; [reflexivity|]; split; [intros H; contradiction|];
             split; [reflexivity|]; intros H; contradiction).
    - cbn. apply (Hbad _ En). intros; discriminate.
  Qed.

  (** ** The keys of the parameter *)

  Lemma qabs_fits lv x : qltb (qabs (lv - x)) (Q2Qc (1 # 1000000) * lv) = true <->
    (lv - Q2Qc (1 # 1000000) * lv < x)%Qc /\ (x < lv + Q2Qc (1 # 1000000) * lv)%Qc.
  Proof.
    unfold qltb, qabs.
    destruct (Qclt_le_dec (lv - x) 0) as [H|H];
      match goal with |- (if ?c then _ else _) = _ <-> _ => destruct c as [G|G] end;
      unfold Qcle, Qclt, Qcminus in *; cbn [this Qcopp Qcplus Qcmult Q2Qc] in *;
      rewrite ?Qred_correct in *; cbn [this] in *; split; intros; try discriminate; try reflexivity;
      try (split; lra); exfalso; lra.
  Qed.

  Lemma node_spec v lv s :
    match get_node cf v lv s with
    | (s', inl p) => s' = s /\ only (entry v) (c_params cf) p /\ level_fits p lv
    | (s', inr Cdm) => s' = s /\ ~ exists p, only (entry v) (c_params cf) p /\ level_fits p lv
    | (s', inr _) => s' = s
    end.
  Proof.
    unfold get_node. destruct (nodes_of cf v) as [|p [|p2 l]] eqn:E.
    - cbn. split; [reflexivity|]. intros (p & Ho & _). apply nodes_only in Ho. congruence.
    - apply nodes_only in E. destruct (p_level p) as [[x|]|] eqn:El.
      + destruct (qltb _ _) eqn:Ef; cbn.
        * split; [reflexivity|]. split; [assumption|]. right. exists x.
          split; [assumption|]. now apply qabs_fits.
        * split; [reflexivity|]. intros (p' & Ho & Hf).
          pose proof (only_unique _ _ _ _ E Ho); subst p'.
          destruct Hf as [Hf|(x' & Hx & Hf)]; [congruence|].
          rewrite El in Hx. inversion Hx; subst x'. apply qabs_fits in Hf. congruence.
      + reflexivity.
      + cbn. split; [reflexivity|]. split; [assumption|]. now left.
    - cbn. split; [reflexivity|]. intros (p' & Ho & _). apply nodes_only in Ho. congruence.
  Qed.

  Lemma each_app {A} (f : A -> act unit) l1 l2 s :
    each f (l1 ++ l2) s = bnd (each f l1) (fun _ => each f l2) s.
  Proof.
    revert s. induction l1 as [|a l1 IH]; intros s; [reflexivity|].
    cbn [each app]. unfold bnd. destruct (f a s) as [s' [u|e]]; [|reflexivity].
    rewrite IH. reflexivity.
  Qed.

  Lemma bnd_ext {A B} (m : act A) (f g : A -> act B) s :
    (forall a s', f a s' = g a s') -> bnd m f s = bnd m g s.
  Proof. intros H. unfold bnd. destruct (m s) as [s' [a|e]]; [apply H | reflexivity]. Qed.

  Definition attr_key (k : string) : Prop :=
    exists p, In p (c_params cf) /\ In k (attr_names p).

  Lemma only_in {A} (P : A -> Prop) l a : only P l a -> In a l.
  Proof. intros (l1 & l2 & -> & _). apply in_elt. Qed.

  Lemma attrs_touch p : In p (c_params cf) ->
    touches attr_key (each set_attr (p_attrs p ++ p_vattrs p)).
  Proof.
    intros Hp. apply touches_each. intros [n x] Hx. unfold set_attr. cbn [fst snd].
    destruct x; [|apply touches_fail|apply touches_fail].
    apply touches_setk. exists p. split; [assumption|]. unfold attr_names.
    apply in_map_iff. exists (n, ASet v). now split.
  Qed.

  (** the numbers, before the attributes *)
  Definition set_numbers (p : pnode) : act unit :=
    if c_edition2 cf then
      if is_absent (p_number p) || is_absent (p_category p) || is_absent (p_discipline p)
      then fail Cdm
      else
        run n <- need (p_number p);
        run _ <- setk "parameterNumber" (KL n);
        run c <- need (p_category p);
        run _ <- setk "parameterCategory" (KL c);
        run d <- need (p_discipline p);
        setk "discipline" (KL d)
    else
      run n <- need (p_number p);
      run _ <- setk "indicatorOfParameter" (KL n);
      run t <- need (p_table p);
      setk "gribTablesVersionNo" (KL t).

  Lemma set_parameter_eq v lv s :
    set_parameter cf v lv s =
    bnd (get_node cf v lv) (fun p =>
      bnd (set_numbers p) (fun _ => each set_attr (p_attrs p ++ p_vattrs p))) s.
  Proof.
    change (set_parameter cf v lv s) with
      (bnd (get_node cf v lv) (fun p => bnd (set_numbers p) (fun _ =>
         bnd (each set_attr (p_attrs p)) (fun _ => each set_attr (p_vattrs p)))) s).
    apply bnd_ext. intros p s1. apply bnd_ext. intros _ s2. symmetry. apply each_app.
  Qed.

  Lemma numbers_touch p : touches param_key (set_numbers p).
  Proof.
    unfold set_numbers. destruct (c_edition2 cf).
    - destruct (_ || _ || _); [apply touches_fail|].
      repeat first [apply touches_bnd; [first [apply touches_need | apply touches_setk; cbn; tauto] | intros ?]
                   | apply touches_setk; cbn; tauto].
    - repeat first [apply touches_bnd; [first [apply touches_need | apply touches_setk; cbn; tauto] | intros ?]
                   | apply touches_setk; cbn; tauto].
  Qed.

  Lemma numbers_spec p s :
    match set_numbers p s with
    | (s', inl _) => numbers p /\ param_keys p (w_h s')
    | (_, inr Cdm) => ~ numbers p
    | _ => True
    end.
  Proof.
    unfold set_numbers, numbers, param_keys. destruct (c_edition2 cf).
    - destruct (p_number p) as [[n|]|] eqn:En; destruct (p_category p) as [[c|]|] eqn:Ec;
        destruct (p_discipline p) as [[d|]|] eqn:Ed; cbn;
        try exact I; try (intros (H1 & H2 & H3); congruence).
      split; [repeat split; discriminate|]. exists n, c, d. keys. repeat split; reflexivity.
    - destruct (p_number p) as [[n|]|] eqn:En; destruct (p_table p) as [[c|]|] eqn:Ec;
        cbn; try exact I.
      split; [exact I|]. exists n, c. keys. repeat split; reflexivity.
  Qed.

  Definition param_ready v lv (p : pnode) : Prop :=
    only (entry v) (c_params cf) p /\ level_fits p lv /\ numbers p /\
    Forall attr_ok (p_attrs p ++ p_vattrs p).

  Lemma param_touches v lv :
    touches (fun k => param_key k \/ attr_key k) (set_parameter cf v lv).
  Proof.
    intros s. rewrite set_parameter_eq. unfold bnd at 1 3.
    pose proof (node_spec v lv s) as Hn. destruct (get_node cf v lv s) as [s' [p|e]].
    - destruct Hn as (-> & Ho & _).
      assert (T : touches (fun k => param_key k \/ attr_key k)
                   (bnd (set_numbers p) (fun _ => each set_attr (p_attrs p ++ p_vattrs p)))).
      { apply touches_bnd.
        - eapply touches_weaken; [|apply numbers_touch]. intros k Hk. now left.
        - intros _. eapply touches_weaken; [|apply attrs_touch; eapply only_in; eassumption].
          intros k Hk. now right. }
      apply T.
    - assert (s' = s) by (destruct e; intuition). subst s'. cbn. split; reflexivity.
  Qed.

  Lemma param_spec v lv s css : well_named css ->
    match set_parameter cf v lv s with
    | (s', inl _) => exists p, param_ready v lv p /\ param_keys p (w_h s') /\
                       forall n x, In (n, ASet x) (p_attrs p ++ p_vattrs p) -> w_h s' n = Some x
    | (_, inr Cdm) => ~ exists p, param_ready v lv p
    | _ => True
    end.
  Proof.
    intros [WN _]. rewrite set_parameter_eq. unfold bnd at 1.
    pose proof (node_spec v lv s) as Hn. destruct (get_node cf v lv s) as [s' [p|e]].
    2: { destruct e; try exact I. destruct Hn as [_ Hn]. intros (p & Ho & Hf & _).
         apply Hn. exists p. now split. }
    destruct Hn as (-> & Ho & Hf). unfold bnd at 1.
    pose proof (numbers_spec p s) as Hs. destruct (set_numbers p s) as [s1 [u|e]].
    2: { destruct e; try exact I. intros (p' & Ho' & _ & Hnum & _).
         pose proof (only_unique _ _ _ _ Ho Ho'); subst p'. contradiction. }
    destruct Hs as [Hnum Hk].
    destruct (WN p (only_in _ _ _ Ho)) as [ND Hres].
    pose proof (each_attr_other (p_attrs p ++ p_vattrs p) s1) as Hoth.
    destruct (each set_attr (p_attrs p ++ p_vattrs p) s1) as [s2 [[]|e]] eqn:Ea.
    2: { destruct e; try exact I. intros (p' & Ho' & _ & _ & Hat).
         pose proof (only_unique _ _ _ _ Ho Ho'); subst p'. exact (each_attr_bad _ _ _ _ Ea Hat). }
    exists p. split; [|split].
    - split; [assumption|]. split; [assumption|]. split; [assumption|].
      eapply each_attr_inl; eassumption.
    - cbn [fst] in Hoth. assert (Hp : forall k, param_key k -> w_h s2 k = w_h s1 k).
      { intros k Hpk. apply Hoth. intros Hin. apply (Hres k Hin). right. now left. }
      unfold param_keys in *. destruct (c_edition2 cf).
      + destruct Hk as (n & c & d & H1 & H2 & H3 & H4 & H5 & H6). exists n, c, d.
        rewrite !Hp by (cbn; tauto). repeat split; assumption.
      + destruct Hk as (n & t & H1 & H2 & H3 & H4). exists n, t.
        rewrite !Hp by (cbn; tauto). repeat split; assumption.
    - intros n x Hx. eapply each_attr_val; eassumption.
  Qed.

  (** ** Values *)

  Lemma type_spec v lv data s p :
    only (entry v) (c_params cf) p -> level_fits p lv ->
    match handle_type conv cf v lv data s with
    | (s', inl out) => units_ok v p /\ out = map (converted v p) data /\
        w_h s' "missingValue"%string = Some (KD (v_fill v)) /\
        w_h s' "bitmapPresent"%string = Some (KL 1)
    | (_, inr Cdm) => ~ units_ok v p
    | _ => True
    end.
  Proof.
    intros Ho Hf. unfold handle_type. unfold bnd at 1, setk at 1. unfold bnd at 1, setk at 1.
    unfold units_ok. set (s1 := mkW _ _).
    assert (K1 : w_h s1 "missingValue"%string = Some (KD (v_fill v))) by reflexivity.
    assert (K2 : w_h s1 "bitmapPresent"%string = Some (KL 1)) by reflexivity.
    clearbody s1.
    assert (Hconv : forall sc off, (forall x, scale sc off x =
              ((x * v_scale v + v_offset v) * fst (factor v p) + snd (factor v p))%Qc) ->
              map (fun x => if qeqb x (v_fill v) then v_fill v else scale sc off x) data
              = map (converted v p) data).
    { intros sc off H. apply map_ext. intros x. unfold converted, qeqb.
      destruct (Qc_eq_dec x (v_fill v)); [reflexivity | apply H]. }
    unfold factor in Hconv. unfold bnd at 1.
    destruct (String.eqb_spec (v_unit v) "") as [Ev|Ev].
    - cbn. split; [now left|]. split; [|split; assumption].
      apply Hconv. intros x. unfold scale. cbn [fst snd]. ring.
    - unfold bnd at 1. pose proof (node_spec v lv s1) as Hn.
      destruct (get_node cf v lv s1) as [s2 [p'|e]].
      + destruct Hn as (-> & Ho' & _). pose proof (only_unique _ _ _ _ Ho Ho'); subst p'.
        destruct (String.eqb_spec (p_units p) "") as [Ep|Ep].
        * cbn. split; [right; now left|]. split; [|split; assumption].
          apply Hconv. intros x. unfold scale. cbn [fst snd]. ring.
        * destruct (conv (v_unit v) (p_units p)) as [[sl uo]|] eqn:Ec; cbn.
          -- split; [right; right; discriminate|]. split; [|split; assumption].
             apply Hconv. intros x. unfold scale. cbn [fst snd]. ring.
          -- intros [H|[H|H]]; congruence.
      + destruct e; try exact I. exfalso. destruct Hn as [_ Hn]. apply Hn. exists p. now split.
  Qed.

  Lemma type_touches v lv data : touches data_key (handle_type conv cf v lv data).
  Proof.
    unfold handle_type.
    apply touches_bnd; [apply touches_setk; cbn; tauto|]. intros _.
    apply touches_bnd; [apply touches_setk; cbn; tauto|]. intros _.
    apply touches_bnd.
    - destruct (String.eqb (v_unit v) ""); [apply touches_ret|].
      apply touches_bnd.
      + intros s. pose proof (node_spec v lv s) as Hn.
        destruct (get_node cf v lv s) as [s2 [p|e]].
        * destruct Hn as (-> & _). split; reflexivity.
        * assert (s2 = s) by (destruct e; intuition). subst. split; reflexivity.
      + intros p. destruct (String.eqb (p_units p) ""); [apply touches_ret|].
        destruct (conv (v_unit v) (p_units p)) as [[sl uo]|]; [apply touches_ret | apply touches_fail].
    - intros [sc off]. apply touches_ret.
  Qed.

  (** ** One message *)

  Definition ready_keys (cs : wcs) (rt vt : option Z) (ut : string) (h : handle) : Prop :=
    time_keys rt vt ut h /\ forall n x, In (n, x) (s_proj cs) -> h n = Some x.

  Definition inner_key (k : string) : Prop :=
    level_key k \/ param_key k \/ attr_key k \/ data_key k.

  Lemma time_apart css k : well_named css -> time_key k -> ~ inner_key k.
  Proof.
    intros [WN _] Ht [H|[H|[(p & Hp & Hin)|H]]].
    - unfold time_key, level_key in *. cbn in *. intuition congruence.
    - unfold time_key, param_key in *. cbn in *. intuition congruence.
    - destruct (WN p Hp) as [_ Hr]. apply (Hr k Hin). right. right. now left.
    - unfold time_key, data_key in *. cbn in *. intuition congruence.
  Qed.

  Lemma proj_apart css cs k : well_named css -> In cs css -> In k (map fst (s_proj cs)) ->
    ~ inner_key k /\ ~ time_key k.
  Proof.
    intros [_ WN] Hcs Hk. destruct (WN cs Hcs) as [_ Hr]. destruct (Hr k Hk) as [Hn Ha].
    unfold reserved in Hn. split; [|tauto].
    intros [H|[H|[(p & Hp & Hin)|H]]]; try tauto. exact (Ha p Hp Hin).
  Qed.

  Lemma ready_stable css cs rt vt ut h h' : well_named css -> In cs css ->
    (forall k, ~ inner_key k -> h' k = h k) ->
    ready_keys cs rt vt ut h -> ready_keys cs rt vt ut h'.
  Proof.
    intros WN Hcs He [[Hu (d & t & st & H1 & H2 & H3 & H4 & H5)] Hp].
    assert (Ht : forall k, time_key k -> h' k = h k).
    { intros k Hk. apply He. eapply time_apart; eassumption. }
    split.
    - split; [rewrite Ht by (cbn; tauto); assumption|]. exists d, t, st.
      rewrite !Ht by (cbn; tauto). repeat split; assumption.
    - intros n x Hx. rewrite He; [now apply Hp|].
      apply (proj_apart css cs n WN Hcs). apply in_map_iff. exists (n, x). now split.
  Qed.

  Lemma level_stable css z id k lv h h' : well_named css ->
    (forall n, ~ (param_key n \/ attr_key n \/ data_key n) -> h' n = h n) ->
    level_keys z id k lv h -> level_keys z id k lv h'.
  Proof.
    intros [WN _] He (H1 & H2 & H3 & H4).
    assert (Hl : forall n, level_key n -> h' n = h n).
    { intros n Hn. apply He. intros [H|[(p & Hp & Hin)|H]].
      - unfold level_key, param_key in *. cbn in *. intuition congruence.
      - destruct (WN p Hp) as [_ Hr]. apply (Hr n Hin). now left.
      - unfold level_key, data_key in *. cbn in *. intuition congruence. }
    unfold level_keys. rewrite (Hl "level"%string) by (cbn; tauto).
    rewrite (Hl "PVPresent"%string), (Hl "pv"%string) by (cbn; tauto).
    rewrite Hl by (destruct (c_edition2 cf); cbn; tauto).
    split; [assumption|]. split; [assumption|]. split; assumption.
  Qed.

  Lemma param_stable css p h h' : well_named css ->
    (forall n, ~ data_key n -> h' n = h n) -> param_keys p h -> param_keys p h'.
  Proof.
    intros _ He. assert (Hl : forall n, param_key n -> h' n = h n).
    { intros n Hn. apply He. unfold param_key, data_key in *. cbn in *. intuition congruence. }
    unfold param_keys. destruct (c_edition2 cf).
    - intros (n & c & d & H). exists n, c, d. now rewrite !Hl by (cbn; tauto).
    - intros (n & t & H). exists n, t. now rewrite !Hl by (cbn; tauto).
  Qed.

  Lemma forallb_fill (fill : Qc) data :
    forallb (fun x => qeqb x fill) data = true <-> forall x, In x data -> x = fill.
  Proof.
    rewrite forallb_forall. split; intros H x Hx; specialize (H x Hx); unfold qeqb in *.
    - destruct (Qc_eq_dec x fill); [assumption | discriminate].
    - destruct (Qc_eq_dec x fill); [reflexivity | contradiction].
  Qed.

  Definition body (cs : wcs) (tpos : nat) (v : wvar) (k : nat) (lv : Qc) : act unit :=
    run _ <- set_level conv cf (s_z cs) lv k;
    run _ <- set_parameter cf v lv;
    match v_field v 0 tpos (match s_z cs with Some _ => k | None => 0 end) with
    | None => fail Cdm
    | Some [] => ret tt
    | Some data =>
        if c_omit cf && forallb (fun x => qeqb x (v_fill v)) data then ret tt
        else
          run out <- handle_type conv cf v lv data;
          run _ <- setk "values" (KA out);
          emit
    end.

  (** the message is written, or cannot be *)
  Definition level_result (cs : wcs) (rt vt : option Z) (ut : string) (tpos : nat) (v : wvar)
             (k : nat) (lv : Qc) (s s' : wstate) : Prop :=
    (exists a p id data m, plan cs tpos v k lv a p id data /\
       describes cs rt vt ut v k lv p id data m /\ w_out s' = w_out s ++ [m])
    \/ ((~ exists a p id data, plan cs tpos v k lv a p id data) /\ w_out s' = w_out s).

  Lemma body_spec css cs rt vt ut tpos v k lv s s' r : well_named css -> In cs css ->
    ready_keys cs rt vt ut (w_h s) -> body cs tpos v k lv s = (s', r) ->
    (forall n, ~ inner_key n -> w_h s' n = w_h s n) /\
    match r with
    | inl _ => level_result cs rt vt ut tpos v k lv s s'
    | inr Cdm => (~ exists a p id data, plan cs tpos v k lv a p id data) /\ w_out s' = w_out s
    | inr _ => w_out s' = w_out s
    end.
  Proof.
    intros WN Hcs Hr E. unfold body in E. unfold bnd at 1 in E.
    pose proof (level_spec (s_z cs) lv k s) as HL.
    destruct (level_touches (s_z cs) lv k s) as [HLo HLh].
    destruct (set_level conv cf (s_z cs) lv k s) as [s1 [u1|e1]]; cbn [fst] in HLo, HLh.
    2: { inversion E; subst. split; [intros n Hn; apply HLh; unfold inner_key in Hn; tauto|].
         destruct e1; try assumption. split; [|assumption].
         intros (a & p & id & data & P). apply HL. exists a, id.
         destruct P. split; [assumption|]. now split. }
    destruct HL as (a & id & (Ha & Hid & Hpv) & HLk).
    unfold bnd at 1 in E. pose proof (param_spec v lv s1 css WN) as HP.
    destruct (param_touches v lv s1) as [HPo HPh].
    destruct (set_parameter cf v lv s1) as [s2 [u2|e2]]; cbn [fst] in HPo, HPh.
    2: { inversion E; subst. split.
         - intros n Hn. rewrite HPh by (unfold inner_key in Hn; tauto).
           apply HLh. unfold inner_key in Hn. tauto.
         - assert (w_out s' = w_out s) by congruence. destruct e2; try assumption.
           split; [|assumption]. intros (a' & p & id' & data & P). apply HP. exists p.
           destruct P. split; [assumption|]. split; [assumption|]. now split. }
    destruct HP as (p & (Ho & Hf & Hnum & Hat) & HPk & HPa).
    assert (Hout2 : w_out s2 = w_out s) by congruence.
    assert (Hh2 : forall n, ~ inner_key n -> w_h s2 n = w_h s n).
    { intros n Hn. rewrite HPh by (unfold inner_key in Hn; tauto).
      apply HLh. unfold inner_key in Hn. tauto. }
    assert (Huniq : forall a' p' id' data', plan cs tpos v k lv a' p' id' data' ->
              a' = a /\ p' = p /\ id' = id /\
              v_field v 0 tpos (match s_z cs with Some _ => k | None => 0 end) = Some data').
    { intros a' p' id' data' P. destruct P as [P1 P2 P3 P4 P5 P6 P7 P8 P9 P10 P11].
      pose proof (only_unique _ _ _ _ P1 Ha); subst a'.
      pose proof (only_unique _ _ _ _ P4 Ho); subst p'.
      rewrite Hid in P2. inversion P2; subst.
      split; [reflexivity|]. split; [reflexivity|]. split; [reflexivity | assumption]. }
    destruct (v_field v 0 tpos _) as [data|] eqn:Ef.
    2: { inversion E; subst. split; [assumption|]. split; [|assumption].
         intros (a' & p' & id' & data' & P). apply Huniq in P. destruct P as (_ & _ & _ & P).
         discriminate. }
    destruct data as [|x data].
    { inversion E; subst. split; [assumption|]. right. split; [|assumption].
      intros (a' & p' & id' & data' & P). pose proof (Huniq _ _ _ _ P) as (_ & _ & _ & U).
      inversion U; subst. now apply (pl_some _ _ _ _ _ _ _ _ _ P). }
    destruct (c_omit cf && forallb (fun y => qeqb y (v_fill v)) (x :: data)) eqn:Eo.
    { inversion E; subst. split; [assumption|]. right. split; [|assumption].
      apply andb_true_iff in Eo. destruct Eo as [Eo1 Eo2].
      pose proof (proj1 (forallb_fill _ _) Eo2) as Eo3.
      intros (a' & p' & id' & data' & P). pose proof (Huniq _ _ _ _ P) as (_ & _ & _ & U).
      inversion U; subst data'.
      destruct (pl_valid _ _ _ _ _ _ _ _ _ P Eo1) as (y & Hy & Hne). apply Hne. now apply Eo3. }
    unfold bnd at 1 in E. pose proof (type_spec v lv (x :: data) s2 p Ho Hf) as HT.
    destruct (type_touches v lv (x :: data) s2) as [HTo HTh].
    destruct (handle_type conv cf v lv (x :: data) s2) as [s3 [out|e3]]; cbn [fst] in HTo, HTh.
    2: { inversion E; subst. split.
         - intros n Hn. rewrite HTh by (unfold inner_key in Hn; tauto). now apply Hh2.
         - assert (w_out s' = w_out s) by congruence. destruct e3; try assumption.
           split; [|assumption]. intros (a' & p' & id' & data' & P).
           pose proof (Huniq _ _ _ _ P) as (_ & -> & _ & U).
           apply HT. now apply (pl_units _ _ _ _ _ _ _ _ _ P). }
    destruct HT as (Hun & -> & K1 & K2). cbn in E. inversion E; subst s' r. clear E. cbn [w_h w_out].
    set (m := hset (w_h s3) "values" (KA (map (converted v p) (x :: data)))).
    assert (Hm : forall n, ~ data_key n -> m n = w_h s2 n).
    { intros n Hn. unfold m. rewrite hset_other.
      - now apply HTh.
      - intros <-. apply Hn. cbn. tauto. }
    split.
    { intros n Hn. change (m n = w_h s n). rewrite Hm by (unfold inner_key in Hn; tauto). now apply Hh2. }
    left. exists a, p, id, (x :: data), m. split; [|split].
    - constructor; try assumption; try discriminate.
      intros Hom. rewrite Hom in Eo. cbn [andb] in Eo.
      destruct (Exists_dec (fun y => y <> v_fill v) (x :: data)) as [H|H].
      + intros y. destruct (Qc_eq_dec y (v_fill v)); [right | left]; tauto.
      + apply Exists_exists in H. exact H.
      + exfalso. assert (F : forallb (fun y => qeqb y (v_fill v)) (x :: data) = true).
        { apply forallb_fill. intros y Hy. destruct (Qc_eq_dec y (v_fill v)) as [|Hne]; [assumption|].
          exfalso. apply H. apply Exists_exists. exists y. now split. }
        congruence.
    - assert (Hra : ready_keys cs rt vt ut m).
      { eapply ready_stable; [eassumption | eassumption | | eassumption].
        intros n Hn. rewrite Hm by (unfold inner_key in Hn; tauto). now apply Hh2. }
      destruct Hra as [Hti Hpr]. constructor.
      + unfold m. apply hset_same.
      + unfold m. rewrite hset_other by discriminate. assumption.
      + unfold m. rewrite hset_other by discriminate. assumption.
      + eapply level_stable; [eassumption | | exact HLk].
        intros n Hn. rewrite Hm by tauto. apply HPh. tauto.
      + eapply param_stable; [eassumption | exact Hm | assumption].
      + intros n y Hy. rewrite Hm; [now apply HPa|]. intros Hd.
        destruct WN as [WN _]. destruct (WN p (only_in _ _ _ Ho)) as [_ Hres].
        apply (Hres n); [|right; right; now right].
        unfold attr_names. apply in_map_iff. exists (n, ASet y). now split.
      + assumption.
      + assumption.
    - rewrite HTo, Hout2. reflexivity.
  Qed.

  (** ** All messages *)

  (** a place a message can be written for: the coordinate system, reference time, time, unit of
      the steps, position of the time, variable, position and value of the level *)
  Record slot := mkSlot { sl_cs : wcs; sl_rt : option Z; sl_vt : option Z; sl_ut : string;
                          sl_t : nat; sl_var : wvar; sl_k : nat; sl_lv : Qc }.

  Definition writable (x : slot) : Prop :=
    exists a p id data, plan (sl_cs x) (sl_t x) (sl_var x) (sl_k x) (sl_lv x) a p id data.
  Definition message_for (x : slot) (m : handle) : Prop :=
    exists a p id data, plan (sl_cs x) (sl_t x) (sl_var x) (sl_k x) (sl_lv x) a p id data /\
      describes (sl_cs x) (sl_rt x) (sl_vt x) (sl_ut x) (sl_var x) (sl_k x) (sl_lv x) p id data m.

  (** one message for each writable slot, in order, and none for the others *)
  Inductive messages : list slot -> list handle -> Prop :=
  | M_none : messages [] []
  | M_skip x l ms : ~ writable x -> messages l ms -> messages (x :: l) ms
  | M_one x l m ms : message_for x m -> messages l ms -> messages (x :: l) (m :: ms).

  Lemma messages_app l1 m1 l2 m2 : messages l1 m1 -> messages l2 m2 -> messages (l1 ++ l2) (m1 ++ m2).
  Proof.
    induction 1; intros H2; cbn; [assumption | apply M_skip; auto | apply M_one; auto].
  Qed.

  (** an action that writes the messages of [sl], or of the first ones if it ends by an exception *)
  Definition writes (I : handle -> Prop) (m : act unit) (I' : handle -> Prop) (sl : list slot) : Prop :=
    forall s s' r, I (w_h s) -> m s = (s', r) ->
      exists ls rest ms, sl = ls ++ rest /\ w_out s' = w_out s ++ ms /\ messages ls ms /\
        (r = inl tt -> rest = [] /\ I' (w_h s')).

  Lemma writes_nothing (I : handle -> Prop) (m : act unit) (I' : handle -> Prop) :
    (forall s s' r, I (w_h s) -> m s = (s', r) -> w_out s' = w_out s /\ (r = inl tt -> I' (w_h s'))) ->
    writes I m I' [].
  Proof.
    intros H s s' r HI E. destruct (H s s' r HI E) as [Ho Hr]. exists [], [], [].
    split; [reflexivity|]. split; [now rewrite app_nil_r|]. split; [constructor|].
    intros Hx. split; [reflexivity | auto].
  Qed.

  Lemma writes_bnd I (m : act unit) I1 sl1 (f : act unit) I2 sl2 :
    writes I m I1 sl1 -> writes I1 f I2 sl2 -> writes I (bnd m (fun _ => f)) I2 (sl1 ++ sl2).
  Proof.
    intros H1 H2 s s' r HI E. unfold bnd in E.
    destruct (m s) as [s1 [[]|e]] eqn:Em.
    - destruct (H1 s s1 _ HI Em) as (ls1 & rest1 & ms1 & E1 & O1 & M1 & R1).
      destruct (R1 eq_refl) as [-> HI1].
      destruct (H2 s1 s' r HI1 E) as (ls2 & rest2 & ms2 & E2 & O2 & M2 & R2).
      exists (ls1 ++ ls2), rest2, (ms1 ++ ms2).
      split; [rewrite E1, E2, app_nil_r, app_assoc; reflexivity|].
      split; [rewrite O2, O1, app_assoc; reflexivity|].
      split; [now apply messages_app | assumption].
    - inversion E; subst. destruct (H1 s s' _ HI Em) as (ls1 & rest1 & ms1 & E1 & O1 & M1 & R1).
      exists ls1, (rest1 ++ sl2), ms1. split; [rewrite E1, app_assoc; reflexivity|].
      split; [assumption|]. split; [assumption | discriminate].
  Qed.

  Lemma writes_each {A} I (f : A -> act unit) g l :
    (forall a, In a l -> writes I (f a) I (g a)) -> writes I (each f l) I (flat_map g l).
  Proof.
    induction l as [|a l IH]; intros H; cbn [each flat_map].
    - apply writes_nothing. intros s s' r HI E. inversion E; subst. split; auto.
    - eapply writes_bnd; [apply H; now left|]. apply IH. intros b Hb. apply H. now right.
  Qed.

  Lemma writes_weaken (I : handle -> Prop) m (I' : handle -> Prop) sl (J J' : handle -> Prop) :
    (forall h, J h -> I h) -> (forall h, I' h -> J' h) -> writes I m I' sl -> writes J m J' sl.
  Proof.
    intros H1 H2 H s s' r HJ E. destruct (H s s' r (H1 _ HJ) E) as (ls & rest & ms & A & B & C & D).
    exists ls, rest, ms. split; [assumption|]. split; [assumption|]. split; [assumption|].
    intros Hr. destruct (D Hr). split; auto.
  Qed.

  Lemma one_level_writes css cs rt vt ut tpos v kl : well_named css -> In cs css ->
    writes (ready_keys cs rt vt ut) (one_level conv cf cs tpos v kl) (ready_keys cs rt vt ut)
           [mkSlot cs rt vt ut tpos v (fst kl) (snd kl)].
  Proof.
    intros WN Hcs s s' r HI E. destruct kl as [k lv]. cbn [fst snd].
    change (one_level conv cf cs tpos v (k, lv)) with (try_cdm (body cs tpos v k lv)) in E.
    unfold try_cdm in E. destruct (body cs tpos v k lv s) as [s1 r1] eqn:Eb.
    destruct (body_spec css cs rt vt ut tpos v k lv s s1 r1 WN Hcs HI Eb) as [Hst Hres].
    assert (Hr1 : ready_keys cs rt vt ut (w_h s1)) by (eapply ready_stable; eassumption).
    set (x := mkSlot cs rt vt ut tpos v k lv).
    assert (Hskip : (~ exists a p id data, plan cs tpos v k lv a p id data) ->
              w_out s1 = w_out s -> s' = s1 ->
              exists ls rest ms, [x] = ls ++ rest /\ w_out s' = w_out s ++ ms /\ messages ls ms /\
                (r = inl tt -> rest = [] /\ ready_keys cs rt vt ut (w_h s'))).
    { intros Hn Ho ->. exists [x], [], []. split; [reflexivity|]. split; [now rewrite app_nil_r|].
      split; [apply M_skip; [exact Hn | constructor]|]. intros _. now split. }
    assert (Hexc : w_out s1 = w_out s -> s' = s1 -> r <> inl tt ->
              exists ls rest ms, [x] = ls ++ rest /\ w_out s' = w_out s ++ ms /\ messages ls ms /\
                (r = inl tt -> rest = [] /\ ready_keys cs rt vt ut (w_h s'))).
    { intros Ho -> Hr. exists [], [x], []. split; [reflexivity|]. split; [now rewrite app_nil_r|].
      split; [constructor|]. intros H. contradiction. }
    destruct r1 as [[]|[]].
    - inversion E; subst s1 r. destruct Hres as [(a & p & id & data & m & HP & HD & Ho)|[Hn Ho]].
      + exists [x], [], [m]. split; [reflexivity|]. split; [assumption|].
        split; [apply M_one; [exists a, p, id, data; now split | constructor]|].
        intros _. now split.
      + now apply Hskip.
    - inversion E; subst s1 r. destruct Hres as [Hn Ho]. now apply Hskip.
    - inversion E; subst s1 r. apply Hexc; [assumption | reflexivity | discriminate].
    - inversion E; subst s1 r. apply Hexc; [assumption | reflexivity | discriminate].
  Qed.

  Definition proj_keys (cs : wcs) (h : handle) : Prop :=
    forall n x, In (n, x) (s_proj cs) -> h n = Some x.

  Lemma set_time_writes css cs rt vt ut : well_named css -> In cs css ->
    writes (proj_keys cs) (set_time date_of time_of rt vt ut) (ready_keys cs rt vt ut) [].
  Proof.
    intros WN Hcs. apply writes_nothing. intros s s' r HI E.
    assert (Hproj : forall h, (forall k, ~ time_key k -> h k = w_h s k) -> proj_keys cs h).
    { intros h Hh n x Hx. rewrite Hh; [now apply HI|].
      apply (proj_apart css cs n WN Hcs). apply in_map_iff. exists (n, x). now split. }
    assert (T : touches time_key (set_time date_of time_of rt vt ut)).
    { unfold set_time. apply touches_bnd.
      - destruct rt, vt; try apply touches_ret; try apply touches_fail.
        destruct (write_step _ _); try apply touches_ret; apply touches_fail.
      - intros [[d t] st].
        repeat first [apply touches_bnd; [apply touches_setk; cbn; tauto | intros ?]
                     | apply touches_setk; cbn; tauto]. }
    destruct (T s) as [Ho Hh]. rewrite E in Ho, Hh. cbn [fst] in Ho, Hh.
    split; [assumption|]. intros ->. split; [|now apply Hproj].
    unfold set_time in E. unfold bnd at 1 in E. unfold time_keys.
    destruct rt as [r|], vt as [v|].
    - destruct (write_step ut (v - r)) as [st| | |] eqn:Ew; cbn in E; try discriminate.
      inversion E; subst s'. cbn [w_h]. keys. split; [reflexivity|].
      exists (date_of r), (time_of r), st. keys. repeat split; assumption || reflexivity.
    - discriminate.
    - cbn in E. inversion E; subst s'. cbn [w_h]. keys. split; [reflexivity|].
      exists (date_of v), (time_of v), 0%Z. keys. repeat split; reflexivity.
    - cbn in E. inversion E; subst s'. cbn [w_h]. keys. split; [reflexivity|].
      exists 10101%Z, 0%Z, 0%Z. keys. repeat split; reflexivity.
  Qed.

  (** the slots of a coordinate system: for each reference time, time, variable and level *)
  Definition slots_at (cs : wcs) (refs vts : list (option Z)) (ut : string) (vars : list wvar)
             (levels : list Qc) : list slot :=
    flat_map (fun rt =>
      flat_map (fun it : nat * option Z =>
        flat_map (fun v =>
          flat_map (fun kl : nat * Qc =>
            [mkSlot cs rt (snd it) ut (if 1 <? length vts then fst it else 0) v (fst kl) (snd kl)])
            (number 0 levels)) vars) (number 0 vts)) refs.

  Definition slots_of (cs : wcs) : list slot :=
    if s_gridded cs && s_projok cs then
      match cs_times unique cs, get_levels conv cf (s_z cs) with
      | inl (refs, vts0, ut), inl levels =>
          slots_at cs refs (again cs refs vts0) ut (filter (has_node cf) (s_vars cs)) levels
      | _, _ => []
      end
    else [].

  Lemma flat_map_none {A B} (f : A -> list B) l : (forall a, f a = []) -> flat_map f l = [].
  Proof. intros H. induction l as [|a l IH]; [reflexivity|]. cbn [flat_map]. now rewrite H, IH. Qed.

  Lemma slots_no_vars cs refs vts ut levels : slots_at cs refs vts ut [] levels = [].
  Proof.
    unfold slots_at. apply flat_map_none. intros rt. apply flat_map_none. intros it. reflexivity.
  Qed.

  Lemma one_cs_writes css cs : well_named css -> In cs css ->
    writes (fun _ => True) (one_cs conv date_of time_of cf unique cs) (fun _ => True) (slots_of cs).
  Proof.
    intros WN Hcs. unfold one_cs, slots_of.
    assert (Hnil : forall (m : act unit), (forall s, exists s' r, m s = (s', r) /\ w_out s' = w_out s) ->
              writes (fun _ => True) m (fun _ => True) []).
    { intros m Hm. apply writes_nothing. intros s s' r _ E. destruct (Hm s) as (s1 & r1 & E1 & Ho).
      rewrite E in E1. inversion E1; subst. split; auto. }
    assert (Hret : writes (fun _ => True) (ret tt) (fun _ => True) []).
    { apply Hnil. intros s. exists s, (inl tt). split; reflexivity. }
    destruct (s_gridded cs); cbn [negb andb]; [|exact Hret].
    destruct (filter (has_node cf) (s_vars cs)) as [|v0 vars] eqn:Ev.
    { destruct (s_projok cs); [|exact Hret].
      destruct (cs_times unique cs) as [[[refs vts0] ut]|e]; [|exact Hret].
      destruct (get_levels conv cf (s_z cs)) as [levels|e]; [|exact Hret].
      rewrite slots_no_vars. exact Hret. }
    change (if s_projok cs then match cs_times unique cs with
                      | inl (refs, vts0, ut) => match get_levels conv cf (s_z cs) with
                          | inl levels => slots_at cs refs (again cs refs vts0) ut (v0 :: vars) levels
                          | inr _ => [] end
                      | inr _ => [] end else [])
      with ([] ++ (if s_projok cs then match cs_times unique cs with
                      | inl (refs, vts0, ut) => match get_levels conv cf (s_z cs) with
                          | inl levels => slots_at cs refs (again cs refs vts0) ut (v0 :: vars) levels
                          | inr _ => [] end
                      | inr _ => [] end else [])).
    eapply (writes_bnd _ _ (proj_keys cs)).
    { apply writes_nothing. intros s s' r _ E.
      destruct (each_set_run (s_proj cs) s) as (s1 & E1 & Ho). rewrite E in E1.
      inversion E1; subst. split; [assumption|]. intros _ n x Hx.
      eapply each_set_val; [eassumption | | eassumption].
      destruct WN as [_ WN]. now apply WN. }
    assert (Hret' : forall e, writes (proj_keys cs) (fail e) (fun _ => True) []).
    { intros e. apply writes_nothing. intros s s' r _ E. inversion E; subst. split; auto. }
    destruct (s_projok cs); cbn [negb].
    2: { apply (writes_weaken (fun _ => True) _ (fun _ => True));
         [intros; exact I | intros; exact I | exact Hret]. }
    destruct (cs_times unique cs) as [[[refs vts0] ut]|e]; cbn [lift].
    2: { intros s s' r HI E. eapply (Hret' e s s' r HI). exact E. }
    destruct (get_levels conv cf (s_z cs)) as [levels|e]; cbn [lift].
    2: { intros s s' r HI E. eapply (Hret' e s s' r HI). exact E. }
    set (A := v0 :: vars) in *.
    assert (W : writes (proj_keys cs)
               (each (fun rt => each (one_time conv date_of time_of cf cs A levels ut rt
                                        (1 <? length (again cs refs vts0)))
                                     (number 0 (again cs refs vts0))) refs)
               (proj_keys cs) (slots_at cs refs (again cs refs vts0) ut A levels)).
    { unfold slots_at. apply writes_each. intros rt _. apply writes_each. intros [i vt] _.
      unfold one_time. cbn [fst snd]. apply writes_each. intros v _.
      match goal with |- writes _ _ _ ?sl => change sl with ([] ++ sl) end.
      eapply writes_bnd; [eapply set_time_writes; eassumption|].
      eapply writes_weaken with (I := ready_keys cs rt vt ut) (I' := ready_keys cs rt vt ut);
        [trivial | intros h [_ H]; exact H |].
      apply writes_each. intros kl _. eapply one_level_writes; eassumption. }
    intros s s' r HI E. destruct (W s s' r HI E) as (ls & rest & ms & H1 & H2 & H3 & H4).
    exists ls, rest, ms. split; [assumption|]. split; [assumption|]. split; [assumption|].
    intros Hr. split; [now apply H4 | exact I].
  Qed.

  (** ** The theorem: the file holds, in the order of the coordinate systems, reference times,
      times, variables and levels, exactly one message for each slot that can be written; if the
      writer ends by an exception, the file holds those of the first slots. *)
  Theorem C105_messages css s' r : well_named css ->
    write_grib conv date_of time_of cf unique css (mkW (fun _ => None) []) = (s', r) ->
    exists ls rest, flat_map slots_of css = ls ++ rest /\ messages ls (w_out s') /\
      (r = inl tt -> rest = []).
  Proof.
    intros WN E.
    assert (W : writes (fun _ => True) (write_grib conv date_of time_of cf unique css) (fun _ => True)
                  ([] ++ ([] ++ flat_map slots_of css))).
    { assert (Hat : forall l, writes (fun _ => True) (each set_attr l) (fun _ => True) []).
      { intros l. apply writes_nothing. intros s s1 r1 _ E1. split; [|auto].
        assert (T : touches (fun _ => True) (each set_attr l)).
        { apply touches_each. intros [n x] _. unfold set_attr. cbn.
          destruct x; [now apply touches_setk | apply touches_fail | apply touches_fail]. }
        destruct (T s) as [Ho _]. rewrite E1 in Ho. exact Ho. }
      unfold write_grib. eapply writes_bnd; [apply Hat|]. eapply writes_bnd; [apply Hat|].
      apply writes_each. intros cs Hcs. now apply one_cs_writes with (css := css). }
    destruct (W _ s' r I E) as (ls & rest & ms & H1 & H2 & H3 & H4).
    cbn [w_out app] in H2. exists ls, rest. rewrite H2. split; [exact H1|]. split; [exact H3|].
    intros Hr. now apply H4.
  Qed.

  (** ** Times, variables and levels of a coordinate system *)

  Lemma number_In {A} (l : list A) k0 : forall k a,
    In (k, a) (number k0 l) <-> k0 <= k /\ nth_error l (k - k0) = Some a.
  Proof.
    revert k0. induction l as [|b l IH]; intros k0 k a; cbn [number In].
    - split; [intros [] | intros [_ H]; destruct (k - k0); discriminate].
    - rewrite IH. split.
      + intros [E|[H1 H2]].
        * inversion E; subst. split; [lia|]. now rewrite Nat.sub_diag.
        * split; [lia|]. replace (k - k0) with (S (k - S k0)) by lia. exact H2.
      + intros [H1 H2]. destruct (Nat.eq_dec k k0) as [->|Hne].
        * left. rewrite Nat.sub_diag in H2. inversion H2. reflexivity.
        * right. split; [lia|]. replace (k - k0) with (S (k - S k0)) in H2 by lia. exact H2.
  Qed.

  Lemma has_node_entry v : has_node cf v = true <-> exists p, In p (c_params cf) /\ entry v p.
  Proof.
    unfold has_node, nodes_of.
    destruct (filter (fun p => oseqb (p_name p) (v_name v)) (c_params cf)) as [|q l] eqn:E.
    - pose proof (proj1 (filter_nil_iff _ _) E) as Hn.
      assert (Hn' : forall q, In q (c_params cf) -> p_name q <> Some (v_name v)).
      { intros q Hq Hc. specialize (Hn q Hq). cbn beta in Hn. rewrite Hc in Hn. cbn in Hn.
        rewrite String.eqb_refl in Hn. discriminate. }
      destruct (v_std v) as [s|] eqn:Es.
      + destruct (filter (fun p => oseqb (p_std p) s) (c_params cf)) as [|q l] eqn:E2.
        * split; [discriminate|]. intros (p & Hp & [H|(_ & s' & H1 & H2)]).
          -- exfalso. exact (Hn' p Hp H).
          -- pose proof (proj1 (filter_nil_iff _ _) E2 p Hp) as Hf. cbn beta in Hf.
             rewrite H2, Es in *. inversion H1; subst. cbn in Hf.
             rewrite String.eqb_refl in Hf. discriminate.
        * split; [|reflexivity]. intros _.
          assert (Hq : In q (filter (fun p => oseqb (p_std p) s) (c_params cf))) by (rewrite E2; now left).
          apply filter_In in Hq. destruct Hq as [Hq Hf]. exists q. split; [assumption|]. right.
          split; [assumption|]. exists s. split; [assumption|]. now apply oseqb_spec.
      + split; [discriminate|]. intros (p & Hp & [H|(_ & s & H & _)]); [|congruence].
        exfalso. exact (Hn' p Hp H).
    - split; [|reflexivity]. intros _.
      assert (Hq : In q (filter (fun p => oseqb (p_name p) (v_name v)) (c_params cf)))
        by (rewrite E; now left).
      apply filter_In in Hq. destruct Hq as [Hq Hf]. exists q. split; [assumption|]. left.
      now apply oseqb_spec.
  Qed.

  Lemma in_slots_at cs refs vts ut vars levels x :
    In x (slots_at cs refs vts ut vars levels) <->
    exists rt i vt v k lv, In rt refs /\ nth_error vts i = Some vt /\ In v vars /\
      nth_error levels k = Some lv /\ x = mkSlot cs rt vt ut i v k lv.
  Proof.
    unfold slots_at. rewrite in_flat_map. split.
    - intros (rt & Hrt & H). apply in_flat_map in H. destruct H as ([i vt] & Hi & H).
      apply in_flat_map in H. destruct H as (v & Hv & H). apply in_flat_map in H.
      destruct H as ([k lv] & Hk & [H|[]]). apply number_In in Hi. apply number_In in Hk.
      rewrite Nat.sub_0_r in *. destruct Hi as [_ Hi], Hk as [_ Hk]. cbn [fst snd] in H.
      exists rt, i, vt, v, k, lv. split; [assumption|]. split; [assumption|].
      split; [assumption|]. split; [assumption|]. subst x.
      destruct (Nat.ltb_spec 1 (length vts)) as [Hl|Hl]; [reflexivity|].
      assert (i < length vts) by (apply nth_error_Some; congruence).
      replace i with 0 by lia. reflexivity.
    - intros (rt & i & vt & v & k & lv & Hrt & Hi & Hv & Hk & ->).
      exists rt. split; [assumption|]. apply in_flat_map. exists (i, vt).
      split; [apply number_In; rewrite Nat.sub_0_r; split; [lia | assumption]|].
      apply in_flat_map. exists v. split; [assumption|]. apply in_flat_map. exists (k, lv).
      split; [apply number_In; rewrite Nat.sub_0_r; split; [lia | assumption]|].
      left. cbn [fst snd]. destruct (Nat.ltb_spec 1 (length vts)) as [Hl|Hl]; [reflexivity|].
      assert (i < length vts) by (apply nth_error_Some; congruence).
      replace i with 0 by lia. reflexivity.
  Qed.

  (** a coordinate system with a time axis and one reference time: there is a slot for each time,
      each variable with an entry and each level, at the positions of the time and level *)
  Theorem C105_slots cs ts rt ut levels : 
    s_gridded cs = true -> s_projok cs = true -> s_tset cs = true ->
    s_times cs = Some ts -> ts 0 <> [] -> step_unit (ts 0) = Ok ut ->
    (s_ref cs = None /\ rt = unique \/ exists r, s_ref cs = Some [r] /\ rt = Some r) ->
    get_levels conv cf (s_z cs) = inl levels ->
    forall x, In x (slots_of cs) <->
      exists i t v k lv, nth_error (ts 0) i = Some t /\ In v (s_vars cs) /\
        (exists p, In p (c_params cf) /\ entry v p) /\ nth_error levels k = Some lv /\
        x = mkSlot cs rt (Some t) ut i v k lv.
  Proof.
    intros Hg Hp Ht Hts Hne Hu Href Hl x. unfold slots_of. rewrite Hg, Hp. cbn [andb].
    assert (Ec : cs_times unique cs = inl ([rt], map Some (ts 0), ut)).
    { unfold cs_times. rewrite Hts. cbv zeta.
      destruct (ts 0) as [|t0 l] eqn:E0; [congruence|].
      destruct Href as [[-> ->]|(r & -> & ->)]; cbn [map]; rewrite Hu, Ht; reflexivity. }
    rewrite Ec, Hl. unfold again. rewrite Hts.
    change (1 <? length [rt]) with false. cbv iota.
    rewrite in_slots_at. split.
    - intros (rt' & i & vt & v & k & lv & [<-|[]] & Hi & Hv & Hk & ->).
      rewrite nth_error_map in Hi. destruct (nth_error (ts 0) i) as [t|] eqn:Ei; [|discriminate].
      inversion Hi; subst vt. apply filter_In in Hv. destruct Hv as [Hv Hn].
      apply has_node_entry in Hn. exists i, t, v, k, lv. repeat split; assumption.
    - intros (i & t & v & k & lv & Hi & Hv & Hn & Hk & ->).
      exists rt, i, (Some t), v, k, lv. split; [now left|].
      split; [rewrite nth_error_map, Hi; reflexivity|].
      split; [apply filter_In; split; [assumption | now apply has_node_entry]|].
      split; [assumption | reflexivity].
  Qed.

  (** a coordinate system without time: one slot for each variable and level, with the reference
      time of the file as time *)
  Theorem C105_slots_no_time cs levels :
    s_gridded cs = true -> s_projok cs = true -> s_times cs = None ->
    get_levels conv cf (s_z cs) = inl levels ->
    forall x, In x (slots_of cs) <->
      exists v k lv, In v (s_vars cs) /\ (exists p, In p (c_params cf) /\ entry v p) /\
        nth_error levels k = Some lv /\ x = mkSlot cs unique unique "s" 0 v k lv.
  Proof.
    intros Hg Hp Hts Hl x. unfold slots_of. rewrite Hg, Hp. cbn [andb].
    unfold cs_times. rewrite Hts, Hl. unfold again. rewrite Hts. rewrite in_slots_at. split.
    - intros (rt' & i & vt & v & k & lv & [<-|[]] & Hi & Hv & Hk & ->).
      destruct i as [|[|i]]; cbn in Hi; inversion Hi; subst vt.
      apply filter_In in Hv. destruct Hv as [Hv Hn].
      apply has_node_entry in Hn. exists v, k, lv. repeat split; assumption.
    - intros (v & k & lv & Hv & Hn & Hk & ->).
      exists unique, 0, unique, v, k, lv. split; [now left|]. split; [reflexivity|].
      split; [apply filter_In; split; [assumption | now apply has_node_entry]|].
      split; [assumption | reflexivity].
  Qed.

  (** no messages: projection not supported, no horizontal grid, or no configured variable *)
  Theorem C105_no_slots cs :
    s_gridded cs = false \/ s_projok cs = false
    \/ (forall v, In v (s_vars cs) -> ~ exists p, In p (c_params cf) /\ entry v p) ->
    slots_of cs = [].
  Proof.
    intros H. unfold slots_of. destruct H as [->|[->|H]]; [reflexivity | now rewrite andb_false_r |].
    destruct (_ && _); [|reflexivity]. destruct (cs_times unique cs) as [[[refs vts0] ut]|e]; [|reflexivity].
    destruct (get_levels conv cf (s_z cs)) as [levels|e]; [|reflexivity].
    replace (filter (has_node cf) (s_vars cs)) with (@nil wvar); [apply slots_no_vars|].
    symmetry. apply filter_nil_iff. intros v Hv. destruct (has_node cf v) eqn:E; [|reflexivity].
    exfalso. apply (H v Hv). now apply has_node_entry.
  Qed.

  (** the factors given in the configuration of an axis *)
  Definition given (t : option (option Qc)) (d q : Qc) : Prop :=
    t = Some (Some q) \/ (t = None /\ q = d).

  Lemma ndef_given t d q : given t d q -> ndef t d = inl q.
  Proof. intros [->|[-> ->]]; reflexivity. Qed.

  (** the values of the levels: those of the axis in the units of the configuration, less the
      configured offset, divided by the configured factor *)
  Theorem C105_levels ax a sl uo sf off :
    only (axis_for (Some ax)) (c_axes cf) a -> z_data ax <> [] ->
    (((a_units a = ""%string \/ z_unit ax = None) /\ sl = 1%Qc /\ uo = 0%Qc)
     \/ (a_units a <> ""%string /\ exists u, z_unit ax = Some u /\ conv u (a_units a) = Some (sl, uo))) ->
    given (a_scale a) 1 sf -> given (a_offset a) 0 off -> sf <> 0%Qc ->
    get_levels conv cf (Some ax) =
    inl (map (fun x => ((((x * z_scale ax + z_offset ax) * sl + uo) - off) / sf)%Qc) (z_data ax)).
  Proof.
    intros Ho Hne Hu Hs Hof Hsf. unfold get_levels. apply axis_only in Ho. rewrite Ho. cbv zeta.
    rewrite (ndef_given _ _ _ Hs), (ndef_given _ _ _ Hof).
    assert (Hm : exists y ys, map (scale (z_scale ax) (z_offset ax)) (z_data ax) = y :: ys).
    { destruct (z_data ax) as [|y ys]; [congruence|]. cbn [map]. eauto. }
    destruct Hm as (y & ys & Hm). rewrite Hm. rewrite <- Hm. cbv iota.
    destruct (Qc_eq_dec sf 0) as [E|_]; [contradiction|].
    assert (Hcase : (if String.eqb (a_units a) "" then inl (map (scale (z_scale ax) (z_offset ax)) (z_data ax))
              else match z_unit ax with
                   | Some u => match conv u (a_units a) with
                               | Some (sl0, off0) =>
                                   inl (map (scale sl0 off0) (map (scale (z_scale ax) (z_offset ax)) (z_data ax)))
                               | None => inr Cdm end
                   | None => inl (map (scale (z_scale ax) (z_offset ax)) (z_data ax)) end)
            = @inl (list Qc) exc (map (fun x => ((x * z_scale ax + z_offset ax) * sl + uo)%Qc) (z_data ax))).
    { destruct Hu as [([E|E] & -> & ->)|(E & u & Eu & Ec)].
      - rewrite E. cbn [String.eqb]. f_equal. apply map_ext. intros x. unfold scale. ring.
      - rewrite E. destruct (String.eqb (a_units a) ""); f_equal; apply map_ext; intros x; unfold scale; ring.
      - apply String.eqb_neq in E. rewrite E, Eu, Ec. f_equal. rewrite map_map. apply map_ext.
        intros x. unfold scale. reflexivity. }
    rewrite Hcase. f_equal. rewrite map_map. apply map_ext. intros x. unfold scale.
    unfold Qcdiv. ring.
  Qed.

  (** variables without vertical axis get the configured level *)
  Theorem C105_default_level a q sf off :
    only (axis_for None) (c_axes cf) a -> a_value a = Some (Some q) ->
    given (a_scale a) 1 sf -> given (a_offset a) 0 off -> sf <> 0%Qc ->
    get_levels conv cf None = inl [((q - off) / sf)%Qc].
  Proof.
    intros Ho Hv Hs Hof Hsf. unfold get_levels. apply axis_only in Ho. rewrite Ho. cbv zeta.
    rewrite (ndef_given _ _ _ Hs), (ndef_given _ _ _ Hof), Hv.
    destruct (Qc_eq_dec sf 0) as [E|_]; [contradiction|].
    destruct (String.eqb (a_units a) ""); cbn [map]; f_equal; f_equal; unfold scale, Qcdiv; ring.
  Qed.

  (** Finding: without an element for variables without vertical axis nothing of them is written,
      and nothing is reported but a warning *)
  Theorem C105_no_default_refuted cs :
    s_z cs = None -> (forall a, In a (c_axes cf) -> a_std a <> Some ""%string) ->
    slots_of cs = [].
  Proof.
    intros Hz H. unfold slots_of. destruct (_ && _); [|reflexivity].
    assert (E : get_levels conv cf (s_z cs) = inl []).
    { rewrite Hz. unfold get_levels, axis_nodes.
      replace (filter (fun a => oseqb (a_std a) "") (c_axes cf)) with (@nil anode); [reflexivity|].
      symmetry. apply filter_nil_iff. intros a Ha. destruct (oseqb _ _) eqn:E; [|reflexivity].
      exfalso. apply (H a Ha). now apply oseqb_spec. }
    rewrite E. destruct (cs_times unique cs) as [[[refs vts0] ut]|e]; [|reflexivity].
    destruct (slots_at _ _ _ _ _ _) as [|x l] eqn:Es; [reflexivity|]. exfalso.
    assert (Hx : In x (x :: l)) by now left. rewrite <- Es in Hx. apply in_slots_at in Hx.
    destruct Hx as (rt & i & vt & v & k & lv & _ & _ & _ & Hk & _). destruct k; discriminate.
  Qed.

  (** Finding: with several reference times only the first time of the first reference time is
      written, once for each reference time *)
  Theorem C105_references_refuted cs ts r1 r2 refs :
    s_times cs = Some ts -> s_ref cs = Some (r1 :: r2 :: refs) ->
    forall x, In x (slots_of cs) ->
      sl_t x = 0 /\ sl_vt x = match ts 0 with t :: _ => Some t | [] => None end.
  Proof.
    intros Hts Hr x Hx. unfold slots_of in Hx. destruct (_ && _); [|contradiction].
    unfold cs_times in Hx. rewrite Hts, Hr in Hx. cbv zeta in Hx. cbn [map] in Hx.
    destruct (step_unit (ts 0)); try contradiction. destruct (_ && _); [|contradiction].
    destruct (get_levels conv cf (s_z cs)); [|contradiction].
    unfold again in Hx. rewrite Hts in Hx.
    change (1 <? length (Some r1 :: Some r2 :: map Some refs)) with true in Hx. cbv iota in Hx.
    apply in_slots_at in Hx. destruct Hx as (rt & i & vt & v & k & lv & _ & Hi & _ & _ & ->).
    cbn [sl_t sl_vt]. destruct (ts 0) as [|t tl]; [destruct i; discriminate|].
    destruct i as [|[|i]]; cbn in Hi; inversion Hi. split; reflexivity.
  Qed.

  (** Finding: a variable with two elements for different levels is never written *)
  Theorem C105_split_refuted x l1 p1 l2 p2 l3 :
    c_params cf = l1 ++ p1 :: l2 ++ p2 :: l3 ->
    entry (sl_var x) p1 -> entry (sl_var x) p2 -> ~ writable x.
  Proof.
    intros E H1 H2 (a & p & id & data & P). pose proof (pl_entry _ _ _ _ _ _ _ _ _ P) as Ho.
    apply nodes_only in Ho.
    assert (Hl : forall (f : pnode -> bool), f p1 = true -> f p2 = true ->
              2 <= length (filter f (c_params cf))).
    { intros f F1 F2. rewrite E, filter_app. cbn [filter]. rewrite F1, filter_app. cbn [filter].
      rewrite F2. rewrite app_length. cbn [length]. rewrite app_length. cbn [length]. lia. }
    assert (I1 : In p1 (c_params cf)) by (rewrite E; apply in_elt).
    assert (I2 : In p2 (c_params cf)).
    { rewrite E. apply in_or_app. right. right. apply in_elt. }
    unfold nodes_of in Ho.
    destruct (filter (fun p => oseqb (p_name p) (v_name (sl_var x))) (c_params cf)) as [|q l] eqn:Ef.
    - pose proof (proj1 (filter_nil_iff _ _) Ef) as Hn.
      assert (N : forall q, In q (c_params cf) -> p_name q <> Some (v_name (sl_var x))).
      { intros q Hq Hc. specialize (Hn q Hq). cbn beta in Hn. apply oseqb_spec in Hc. congruence. }
      destruct H1 as [H1|(_ & s1 & S1 & T1)]; [exact (N p1 I1 H1)|].
      destruct H2 as [H2|(_ & s2 & S2 & T2)]; [exact (N p2 I2 H2)|].
      rewrite S1 in Ho. rewrite S1 in S2. inversion S2; subst s2.
      specialize (Hl (fun p => oseqb (p_std p) s1)). rewrite Ho in Hl. cbn [length] in Hl.
      assert (2 <= 1) by (apply Hl; now apply oseqb_spec). lia.
    - assert (Hq : In q (filter (fun p => oseqb (p_name p) (v_name (sl_var x))) (c_params cf)))
        by (rewrite Ef; now left).
      apply filter_In in Hq. destruct Hq as [Hq Hqf]. apply oseqb_spec in Hqf.
      destruct H1 as [H1|(N & _)]; [|exact (N q Hq Hqf)].
      destruct H2 as [H2|(N & _)]; [|exact (N q Hq Hqf)].
      specialize (Hl (fun p => oseqb (p_name p) (v_name (sl_var x)))).
      rewrite Ef, Ho in Hl. cbn [length] in Hl.
      assert (2 <= 1) by (apply Hl; now apply oseqb_spec). lia.
  Qed.

  (** Finding: an element for level 0, or for a negative level, matches no level *)
  Theorem C105_level_zero_refuted p x lv :
    p_level p = Some (Some x) -> (x <= 0)%Qc -> ~ level_fits p lv.
  Proof.
    intros E Hx [H|(y & Hy & H1 & H2)]; [congruence|]. rewrite E in Hy. inversion Hy; subst y.
    unfold Qcle, Qclt, Qcminus in *; cbn [this Qcopp Qcplus Qcmult Q2Qc] in *;
      rewrite ?Qred_correct in *; cbn [this] in *. lra.
  Qed.
End Spec.

(** ** Hybrid levels *)

(** the coefficients written for an axis from top to surface are read back unchanged *)
Theorem C105_hybrid ap b pv : pv_of ap b = inl pv ->
  half_read false pv (seq 1 (length ap)) = Some ap /\ half_read true pv (seq 1 (length ap)) = Some b.
Proof.
  intros E. pose proof (pv_spec (fun z => z) (fun z => z) ap b) as H. rewrite E in H.
  destruct H as (Hl & pa & pb & -> & [La Ha] & [Lb Hb]).
  assert (Hlen : length (pa ++ pb) = 2 * S (length ap)) by (rewrite app_length; lia).
  assert (Hhalf : length (pa ++ pb) / 2 = S (length ap)).
  { rewrite Hlen, Nat.mul_comm. apply Nat.div_mul. lia. }
  assert (G : forall off full half rest pre, pa ++ pb = pre ++ half ++ rest -> length pre = off ->
     length half = S (length full) ->
     (forall i, i < length full ->
        (nth i half 0 + nth (S i) half 0 = Q2Qc (2 # 1) * nth i full 0)%Qc) ->
     forall n k, k + n = length full ->
     fold_right (fun l acc =>
        match (match nth_error (pa ++ pb) (off + l - 1) with
               | Some x => match nth_error (pa ++ pb) (S (off + l - 1)) with
                           | Some y => Some ((x + y) / Q2Qc (2 # 1))%Qc
                           | None => Some x
                           end
               | None => None
               end), acc with
        | Some q, Some qs => Some (q :: qs)
        | _, _ => None
        end) (Some []) (seq (S k) n) = Some (skipn k full)).
  { intros off full half rest pre Epre Hoff Hlh Hm n. induction n as [|n IH]; intros k Hk.
    - cbn. rewrite skipn_all2 by lia. reflexivity.
    - cbn [seq fold_right]. rewrite (IH (S k)) by lia. rewrite Epre.
      replace (off + S k - 1) with (length pre + k) by lia.
      replace (S (length pre + k)) with (length pre + S k) by lia.
      assert (Ea : forall j, j < length half ->
                nth_error (pre ++ half ++ rest) (length pre + j) = nth_error half j).
      { intros j Hj. rewrite nth_error_app2 by lia.
        replace (length pre + j - length pre) with j by lia. now rewrite nth_error_app1 by lia. }
      assert (E1 : nth_error half k = Some (nth k half 0%Qc)) by (apply nth_error_nth'; lia).
      assert (E2 : nth_error half (S k) = Some (nth (S k) half 0%Qc)) by (apply nth_error_nth'; lia).
      rewrite !Ea, E1, E2, Hm by lia.
      replace (Q2Qc (2 # 1) * nth k full 0 / Q2Qc (2 # 1))%Qc with (nth k full 0%Qc).
      + f_equal. clear - Hk. revert k Hk. induction full as [|x l IHl]; intros k Hk; [cbn in Hk; lia|].
        destruct k as [|k]; [reflexivity|]. cbn [length] in Hk. apply (IHl k). lia.
      + field. intros C. discriminate C. }
  unfold half_read. rewrite Hhalf, !seq_length.
  destruct (Nat.ltb_spec (S (length ap)) (length ap)); [lia|]. cbv zeta. split.
  - rewrite (G 0 ap pa pb []); try assumption; try reflexivity.
  - rewrite <- Hl. rewrite (G (S (length b)) b pb [] pa); try assumption; try reflexivity.
    + now rewrite app_nil_r.
    + lia.
Qed.

(** and always given when b increases from the first to the last level *)
Theorem C105_hybrid_total ap b : length b = length ap -> ap <> [] ->
  (nth 0 b 0 < nth (length b - 1) b 0)%Qc -> exists pv, pv_of ap b = inl pv.
Proof.
  intros E Hne Hlt. rewrite E in Hlt. assert (Hn : 1 <= length ap) by (destruct ap; [congruence | cbn; lia]).
  unfold pv_of. cbv zeta. rewrite E, Nat.eqb_refl. cbn [negb].
  change (rdz b 0) with (rdz b (Z.of_nat 0)). rewrite rdz_nth by lia. cbn [ebind].
  replace (Z.of_nat (length ap) - 1)%Z with (Z.of_nat (length ap - 1)) by lia.
  rewrite rdz_nth by lia. cbn [ebind]. unfold qltb.
  destruct (Qclt_le_dec _ _) as [_|H]; cbv beta iota.
  - replace (Z.of_nat (length ap - 1)) with (Z.of_nat (length ap) - 1)%Z by lia.
    destruct (loop_back ap b E (length ap) (repeat 0%Qc (S (length ap)))
                (repeat 0%Qc (S (length ap)))) as (pa & pb & El & Ha & Hb).
    + lia.
    + now apply done_zero.
    + apply done_zero. now symmetry.
    + rewrite El. cbn [ebind]. eauto.
  - exfalso. apply (Qclt_not_le _ _ Hlt). exact H.
Qed.

(** Finding: an axis from surface to top, or with one level only, makes the writer read behind the
    end of ap and b *)
Theorem C105_surface_first_refuted ap b : length b = length ap -> ap <> [] ->
  (nth (length b - 1) b 0 <= nth 0 b 0)%Qc -> pv_of ap b = inr Undef.
Proof.
  intros E Hne Hle. rewrite E in Hle. assert (Hn : 1 <= length ap) by (destruct ap; [congruence | cbn; lia]).
  unfold pv_of. cbv zeta. rewrite E, Nat.eqb_refl. cbn [negb].
  change (rdz b 0) with (rdz b (Z.of_nat 0)). rewrite rdz_nth by lia. cbn [ebind].
  replace (Z.of_nat (length ap) - 1)%Z with (Z.of_nat (length ap - 1)) by lia.
  rewrite rdz_nth by lia. cbn [ebind]. unfold qltb.
  destruct (Qclt_le_dec _ _) as [H|_]; cbv beta iota.
  - exfalso. apply (Qclt_not_le _ _ H). exact Hle.
  - change (pv_loop (length ap) 1) with (pv_loop (length ap) (Z.of_nat 1)).
    rewrite (loop_fwd (fun z => z) (fun z => z) ap b E (length ap) 1); try lia; try apply repeat_length. reflexivity.
Qed.

(** ** Examples *)

Definition xconv (a b : string) : option (Qc * Qc) :=
  if String.eqb a b then Some (1%Qc, 0%Qc)
  else if String.eqb a "hPa" && String.eqb b "Pa" then Some (Q2Qc (100 # 1), 0%Qc)
  else if String.eqb a "celsius" && String.eqb b "K" then Some (1%Qc, Q2Qc (27315 # 100))
  else None.
Definition xdate (z : Z) : Z := (20000101 + z / 86400)%Z.
Definition xtime (z : Z) : Z := (z mod 86400 / 3600 * 100)%Z.
Definition q (z : Z) : Qc := Q2Qc (inject_Z z).

(** two parameters, the second with an additional attribute; levels in Pa *)
Definition xp1 : pnode := mkP None (Some "air_temperature"%string) None (Some (Some 11%Z)) (Some (Some 2%Z))
                              None None "K" [] [].
Definition xp2 : pnode := mkP (Some "precip"%string) None None (Some (Some 61%Z)) (Some (Some 2%Z))
                              None None "" [("timeRangeIndicator"%string, ASet (KL 4))] [].
Definition xa : anode := mkA (Some "air_pressure"%string) None (Some (Some 100%Z)) None "Pa"
                             (Some (Some (q 100))) None.
Definition xc : wconf := mkC false true [("centre"%string, ASet (KL 88))] [] [xp1; xp2] [xa].
Definition xfield (t : nat) (k : nat) : option (list Qc) :=
  if Nat.eqb t 1 && Nat.eqb k 0 then Some [q (-999); q (-999)]%Z
  else Some [q (Z.of_nat t); q (-999)%Z].
Definition xv1 : wvar := mkV "t" (Some "air_temperature"%string) "celsius" (q (-999)) 1 0 (fun _ => xfield).
Definition xv2 : wvar := mkV "precip" None "mm" (q (-999)) 1 0 (fun _ _ _ => Some [q 5; q 6]).
Definition xz : vaxis := mkZ (Some "air_pressure"%string) (Some "hPa"%string) [q 500; q 850] 1 0 None.
Definition xcs (vars : list wvar) : wcs :=
  mkCS true vars [("Ni"%string, KL 2)] true None (Some (fun _ => [3600; 7200]%Z)) true (Some xz).
Definition xrun (cf : wconf) (css : list wcs) : wstate * (unit + exc) :=
  write_grib xconv xdate xtime cf (Some 0%Z) css (mkW (fun _ => None) []).

Ltac notin := cbn; intros H; repeat (destruct H as [H|H]; [discriminate|]); try contradiction.

Lemma xnamed css : (forall cs, In cs css -> s_proj cs = [("Ni"%string, KL 2)]) -> well_named xc css.
Proof.
  intros Hcs. split.
  - intros p [<-|[<-|[]]]; cbn.
    + split; [constructor | intros n []].
    + split; [constructor; [intros [] | constructor]|]. intros n [<-|[]] H.
      unfold reserved, level_key, param_key, time_key, data_key in H. cbn in H.
      repeat (destruct H as [H|H]; try discriminate); contradiction.
  - intros cs H. rewrite (Hcs cs H). cbn. split; [constructor; [intros [] | constructor]|].
    intros n [<-|[]]. split.
    + intros H1. unfold reserved, level_key, param_key, time_key, data_key in H1. cbn in H1.
      repeat (destruct H1 as [H1|H1]; try discriminate); contradiction.
    + intros p [<-|[<-|[]]]; cbn; intros H1; repeat (destruct H1 as [H1|H1]; try discriminate); contradiction.
Qed.

(** two variables at two times and two levels; one field has no valid value: 7 messages *)
Example C105_nonvacuous :
  well_named xc [xcs [xv1; xv2]] /\
  exists s, xrun xc [xcs [xv1; xv2]] = (s, inl tt) /\
    length (flat_map (slots_of xconv xc (Some 0%Z)) [xcs [xv1; xv2]]) = 8 /\
    map (fun m => (m "indicatorOfParameter"%string, m "level"%string, m "startStep"%string))
        (w_out s) =
    [(Some (KL 11), Some (KL 500), Some (KL 1)); (Some (KL 11), Some (KL 850), Some (KL 1));
     (Some (KL 61), Some (KL 500), Some (KL 1)); (Some (KL 61), Some (KL 850), Some (KL 1));
     (Some (KL 11), Some (KL 850), Some (KL 2));
     (Some (KL 61), Some (KL 500), Some (KL 2)); (Some (KL 61), Some (KL 850), Some (KL 2))] /\
    map (fun m => match m "values"%string with Some (KA l) => map this l | _ => [] end)
        (firstn 1 (w_out s)) = [[(5463 # 20)%Q; (-999 # 1)%Q]].
Proof.
  split; [apply xnamed; intros cs [<-|[]]; reflexivity|].
  eexists. split; [vm_compute; reflexivity|].
  split; [vm_compute; reflexivity|]. split; vm_compute; reflexivity.
Qed.

(** Finding: an additional attribute of a parameter stays in the messages of all later variables:
    the temperature of the second time is written as an accumulated value *)
Theorem C105_sticky_refuted :
  exists s, xrun xc [xcs [xv1; xv2]] = (s, inl tt) /\
    map (fun m => (m "indicatorOfParameter"%string, m "timeRangeIndicator"%string)) (w_out s) =
    [(Some (KL 11), None); (Some (KL 11), None);
     (Some (KL 61), Some (KL 4)); (Some (KL 61), Some (KL 4));
     (Some (KL 11), Some (KL 4));
     (Some (KL 61), Some (KL 4)); (Some (KL 61), Some (KL 4))].
Proof. eexists. split; vm_compute; reflexivity. Qed.

(** Finding: so do the coefficients of hybrid levels: the messages at pressure levels written
    afterwards keep them *)
Definition xh : anode := mkA (Some "hybrid"%string) None (Some (Some 105%Z)) None "" None None.
Definition xp3 : pnode := mkP None (Some "air_temperature"%string) None (Some (Some 0%Z)) None
                              (Some (Some 0%Z)) (Some (Some 0%Z)) "K" [] [].
Definition xc2 : wconf := mkC true false [] [] [xp3] [xa; xh].
Definition xzh : vaxis := mkZ (Some "hybrid"%string) None [q 1; q 2] 1 0 (Some ([q 1; q 3], [q 2; q 6])).
Definition xcsh : wcs :=
  mkCS true [xv1] [] true None (Some (fun _ => [3600; 7200]%Z)) true (Some xzh).
Theorem C105_sticky_pv_refuted :
  exists s, xrun xc2 [xcsh; xcs [xv1]] = (s, inl tt) /\
    map (fun m => (m "levelType"%string, m "PVPresent"%string,
                   match m "pv"%string with Some (KA l) => length l | _ => 0 end)) (w_out s) =
    repeat (Some (KL 105), Some (KL 1), 6) 4 ++ repeat (Some (KL 100), Some (KL 1), 6) 4.
Proof. eexists. split; vm_compute; reflexivity. Qed.

(** Finding: levels lose their fraction: two levels of one variable get the same keys *)
Definition xz2 : vaxis := mkZ (Some "air_pressure"%string) (Some "hPa"%string)
                              [Q2Qc (5 # 2); q 2] 1 0 None.
Theorem C105_fraction_refuted :
  exists s, xrun xc [mkCS true [xv2] [] true None (Some (fun _ => [3600; 7200]%Z)) true (Some xz2)]
            = (s, inl tt) /\
    map (fun m => (m "startStep"%string, m "level"%string)) (w_out s) =
    [(Some (KL 1), Some (KL 2)); (Some (KL 1), Some (KL 2));
     (Some (KL 2), Some (KL 2)); (Some (KL 2), Some (KL 2))].
Proof. eexists. split; vm_compute; reflexivity. Qed.

(** Finding: a vertical axis of another unit (here of salinity) ends the writer: nothing of the
    coordinate systems after it is written *)
Definition xz3 : vaxis := mkZ None (Some "psu"%string) [q 1] 1 0 None.
Theorem C105_vertical_unit_refuted :
  exists s, xrun xc [mkCS true [xv1] [] true None (Some (fun _ => [3600; 7200]%Z)) true (Some xz3);
                     xcs [xv1; xv2]] = (s, inr Cdm) /\ w_out s = [].
Proof. eexists. split; vm_compute; reflexivity. Qed.

(** Finding: a parameter of GRIB1 without table number ends the writer, too *)
Definition xp4 : pnode := mkP None (Some "air_temperature"%string) None (Some (Some 11%Z)) None
                              None None "K" [] [].
Theorem C105_table_refuted :
  exists s, xrun (mkC false false [] [] [xp4; xp2] [xa]) [xcs [xv1; xv2]] = (s, inr Other) /\
            w_out s = [].
Proof. eexists. split; vm_compute; reflexivity. Qed.

(** Finding: two reference times give the first field twice *)
Definition xcsr : wcs :=
  mkCS true [xv1] [] true (Some [0; 3600]%Z)
       (Some (fun r => [Z.of_nat r * 3600 + 3600; Z.of_nat r * 3600 + 7200]%Z)) true (Some xz).
Theorem C105_references_example_refuted :
  exists s, xrun xc [xcsr] = (s, inl tt) /\
    map (fun m => (m "dataTime"%string, m "startStep"%string, m "level"%string)) (w_out s) =
    [(Some (KL 0), Some (KL 1), Some (KL 500)); (Some (KL 0), Some (KL 1), Some (KL 850));
     (Some (KL 100), Some (KL 0), Some (KL 500)); (Some (KL 100), Some (KL 0), Some (KL 850))].
Proof. eexists. split; vm_compute; reflexivity. Qed.

(** whole levels are written: the value without its fraction *)
Theorem C105_rounding q :
  ((0 <= q)%Qc -> (inject_Z (trunc q) <= this q < inject_Z (trunc q + 1))%Q) /\
  ((q <= 0)%Qc -> (inject_Z (trunc q - 1) < this q <= inject_Z (trunc q))%Q).
Proof.
  unfold trunc, Qcle, Qle, Qlt, inject_Z. destruct (this q) as [n d]. cbn [this Q2Qc Qred Qnum Qden].
  change (Qnum (this 0%Qc)) with 0%Z. change (Qden (this 0%Qc)) with 1%positive.
  pose proof (Z.quot_rem' n (Z.pos d)) as E.
  split; intros H; rewrite ?Z.mul_1_r, ?Z.mul_0_l in *; cbn [Qnum Qden] in *.
  - pose proof (Z.rem_bound_pos n (Z.pos d)) as B. split; nia.
  - pose proof (Z.rem_bound_neg_pos n (Z.pos d)) as B. split; nia.
Qed.

Print Assumptions C105_messages.
Print Assumptions C105_slots.
Print Assumptions C105_slots_no_time.
Print Assumptions C105_no_slots.
Print Assumptions C105_levels.
Print Assumptions C105_default_level.
Print Assumptions C105_hybrid.
Print Assumptions C105_hybrid_total.
Print Assumptions C105_no_default_refuted.
Print Assumptions C105_references_refuted.
Print Assumptions C105_split_refuted.
Print Assumptions C105_level_zero_refuted.
Print Assumptions C105_surface_first_refuted.
Print Assumptions C105_sticky_refuted.
Print Assumptions C105_sticky_pv_refuted.
Print Assumptions C105_fraction_refuted.
Print Assumptions C105_vertical_unit_refuted.
Print Assumptions C105_table_refuted.
Print Assumptions C105_references_example_refuted.
Print Assumptions C105_nonvacuous.
Print Assumptions C105_rounding.
