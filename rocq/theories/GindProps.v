(** C107: from the messages of GRIB files to variables and dimensions. *)
From Coq Require Import PeanoNat ZArith NArith Ascii String List Bool Lia QArith Qcanon Sorting.Sorted.
From Verif Require Import Base StdMap StringModel TextModel TextProofs CdmModel CdmProofs CdmProps IndexSpec GribModel GribProps GindModel GindProofs.
Import ListNotations.
Local Open Scope string_scope.
Local Open Scope list_scope.
Local Open Scope nat_scope.

Section File.
  Variable G : Type.
  Variable geqb : G -> G -> bool.
  Variable B : Type.
  Notation message := (message G B).

  (** ** The configuration of a message *)

  (** the numbers a message carries for the keys of a condition *)
  Inductive carries (m : message) : string -> Z -> Prop :=
  | c_table1 : m_edition G B m = 1%Z -> carries m "gribTablesVersionNo" (snd (fst (m_ids G B m)))
  | c_centre1 : m_edition G B m = 1%Z -> carries m "identificationOfOriginatingGeneratingCentre" (snd (m_ids G B m))
  | c_category2 : m_edition G B m <> 1%Z -> carries m "parameterCategory" (snd (fst (m_ids G B m)))
  | c_discipline2 : m_edition G B m <> 1%Z -> carries m "discipline" (snd (m_ids G B m))
  | c_type : carries m "typeOfLevel" (m_ltype G B m)
  | c_level : carries m "levelNo" (m_level G B m)
  | c_range : carries m "timeRangeIndicator" (m_range G B m)
  | c_stat : carries m "typeOfStatisticalProcessing" (m_stat G B m)
  | c_other : forall k v, In (k, v) (m_other G B m) -> carries m k v.
  (** an element of the configuration allows a message *)
  Definition allows (p : pconf) (m : message) : Prop :=
    (forall k v l, carries m k v -> sfind k (pc_long p) = Some l -> l = [] \/ In v l) /\
    (forall l, sfind "stepType" (pc_text p) = Some l -> l = [] \/ In (m_step G B m) l).

  Lemma has_long_iff p k v : has_long p k v = true <-> forall l, sfind k (pc_long p) = Some l -> l = [] \/ In v l.
  Proof.
    unfold has_long. destruct (sfind k (pc_long p)) as [ [ | a l ] | ].
    - split; auto. intros _ l H. injection H as <-. auto.
    - rewrite existsb_exists. split.
      + intros (x & Hx & E) l' H. injection H as <-. apply Z.eqb_eq in E. subst. auto.
      + intro H. destruct (H _ eq_refl) as [ | H' ]; [ discriminate | ]. exists v. rewrite Z.eqb_refl. auto.
    - split; auto; discriminate.
  Qed.
  Lemma has_text_iff p k v : has_text p k v = true <-> forall l, sfind k (pc_text p) = Some l -> l = [] \/ In v l.
  Proof.
    unfold has_text. destruct (sfind k (pc_text p)) as [ [ | a l ] | ].
    - split; auto. intros _ l H. injection H as <-. auto.
    - rewrite existsb_exists. split.
      + intros (x & Hx & E) l' H. injection H as <-. apply String.eqb_eq in E. subst. auto.
      + intro H. destruct (H _ eq_refl) as [ | H' ]; [ discriminate | ]. exists v. rewrite String.eqb_refl. auto.
    - split; auto; discriminate.
  Qed.
  Lemma fits_iff m p : fits G B m p = true <-> allows p m.
  Proof.
    unfold fits, allows. destruct (m_ids G B m) as [ [ n a ] b ] eqn:I. rewrite !andb_true_iff, !has_long_iff, has_text_iff, forallb_forall.
    split.
    - intros [ [ [ [ [ [ [ H1 H2 ] H3 ] H4 ] H5 ] H6 ] H7 ] H8 ]. split; auto. intros k v l C. destruct C as [ E | E | E | E | | | | | k v H ]; rewrite ?I in *; cbn; auto.
      + rewrite E in H1. auto.
      + rewrite E in H2. auto.
      + apply Z.eqb_neq in E. rewrite E in H1. auto.
      + apply Z.eqb_neq in E. rewrite E in H2. auto.
      + specialize (H8 _ H). cbn in H8. intro F. apply (proj1 (has_long_iff p k v) H8). auto.
    - intros [ H1 H2 ]. repeat split; auto.
      + intros l F. apply (H1 _ _ _) with (2 := F). destruct (Z.eqb_spec (m_edition G B m) 1); [ pose proof (c_table1 m e) as C | pose proof (c_category2 m n0) as C ]; rewrite I in C; exact C.
      + intros l F. apply (H1 _ _ _) with (2 := F). destruct (Z.eqb_spec (m_edition G B m) 1); [ pose proof (c_centre1 m e) as C | pose proof (c_discipline2 m n0) as C ]; rewrite I in C; exact C.
      + intros l. apply H1. constructor.
      + intros l. apply H1. constructor.
      + intros l. apply H1. constructor.
      + intros l. apply H1. constructor.
      + intros [ k v ] H. apply has_long_iff. intro l. apply H1. apply c_other. auto.
  Qed.

  (** The configuration of a message is that of the first element with its parameter number that
      allows it. *)
  Theorem C107_config : forall (cf : gconf) (m : message) v,
    let elements := if Z.eq_dec (m_edition G B m) 1 then gc_one cf else gc_two cf in
    let n := fst (fst (m_ids G B m)) in
    find_config G B cf m = Some v <->
    exists before p after, elements = before ++ (n, p) :: after /\ allows p m /\ pc_var p = v /\
      forall q, In (n, q) before -> ~ allows q m.
  Proof.
    intros cf m v elements n. unfold find_config.
    replace (if (m_edition G B m =? 1)%Z then gc_one cf else gc_two cf) with elements
      by (unfold elements; destruct (Z.eq_dec (m_edition G B m) 1) as [ -> | E ]; [ reflexivity | apply Z.eqb_neq in E; rewrite E; reflexivity ]).
    unfold n. destruct (m_ids G B m) as [ [ k a ] b ] eqn:I. cbn [fst]. generalize elements as l. clear elements n. intro l.
    induction l as [ | [ k' p ] l IH ].
    - cbn. split; [ discriminate | ]. intros (bf & p & af & E & _). destruct bf; discriminate.
    - cbn [filter fst]. destruct (Z.eqb_spec k' k) as [ -> | NK ].
      + cbn [map snd find]. destruct (fits G B m p) eqn:F.
        * cbn [option_map]. split.
          -- intro H. injection H as <-. exists [], p, l. cbn. split; auto. split; [ apply fits_iff; auto | ]. auto.
          -- intros (bf & q & af & E & A & V & N). destruct bf as [ | z bf ]; cbn in E.
             ++ injection E as -> _. rewrite V. auto.
             ++ injection E as <- _. exfalso. apply (N p); [ cbn; auto | apply fits_iff; auto ].
        * rewrite IH. split; intros (bf & q & af & E & A & V & N).
          -- exists ((k, p) :: bf), q, af. cbn. rewrite E. split; auto. split; auto. split; auto. intros q' [ H | H ]; [ | auto ].
             injection H as <-. rewrite <- fits_iff, F. discriminate.
          -- destruct bf as [ | z bf ]; cbn in E; [ injection E as -> _; apply fits_iff in A; congruence | ]. injection E as <- E.
             exists bf, q, af. repeat split; auto; try apply A. intros q' H. apply N. cbn. auto.
      + rewrite IH. split; intros (bf & q & af & E & A & V & N).
        * exists ((k', p) :: bf), q, af. cbn. rewrite E. split; auto. split; auto. split; auto. intros q' [ H | H ]; [ congruence | auto ].
        * destruct bf as [ | z bf ]; cbn in E; [ congruence | ]. injection E as <- E.
          exists bf, q, af. repeat split; auto; try apply A. intros q' H. apply N. cbn. auto.
  Qed.

  (** ** Loading *)

  Hypothesis GE : forall a b, geqb a b = true <-> a = b.

  Theorem C107_refused : forall (cf : gconf) (l : list message),
    distinct_axes cf -> (forall m, In m l -> used G B cf m = true -> gc_axes cf (m_gtype G B m) <> None) ->
    (grib_file G geqb B cf l = Throw \/ exists s, load G geqb B cf l = Ok s) /\
    ((exists s, load G geqb B cf l = Ok s) <->
     forall a b, In a l -> In b l -> used G B cf a = true -> used G B cf b = true -> name_of G B cf a = name_of G B cf b -> agree G B cf a b).
  Proof.
    intros cf l D A. split.
    - destruct (load_total G geqb B cf l) as [ H | H ]; auto. left. unfold grib_file. rewrite H. reflexivity.
    - split; [ | apply load_success; auto ].
      intros (s & E) a b Ha Hb Ua Ub N. apply load_inv in E; auto. pose proof (i_vars _ _ _ _ _ E (name_of G B cf a)) as IV.
      assert (forall m, In m l -> used G B cf m = true -> name_of G B cf m = name_of G B cf a -> In m (of_var G B cf (name_of G B cf a) l)) as OV by (intros; apply of_var_in; auto).
      pose proof (OV a Ha Ua eq_refl) as Oa. pose proof (OV b Hb Ub (eq_sym N)) as Ob.
      destruct (sfind _ _) as [ v | ]; [ | rewrite IV in Oa; contradiction ]. destruct IV as (m & ms & OF & _ & _ & _ & _ & _ & _ & _ & _ & AG).
      rewrite OF in Oa, Ob.
      assert (forall q, m = q \/ In q ms -> agree G B cf q m) as AM by (intros q [ <- | H ]; [ unfold agree; auto | auto ]).
      apply AM in Oa. apply AM in Ob. unfold agree in *. intuition congruence.
  Qed.

  (** ** The file *)

  Lemma levels_built (vars : smap (vhas G)) lm ps : build_levels G vars = (lm, ps) ->
    lwf lm /\ map fst ps = map fst vars /\
    (forall v p, In (v, p) (combine vars ps) -> fst p = fst v /\ exists pv, at_level (h_ltype G (snd v)) (snd p) lm = Some (pv, h_levels G (snd v))) /\
    (forall t p x, at_level t p lm = Some x -> exists v, In v vars /\ h_ltype G (snd v) = t /\ x = (h_pv G (snd v), h_levels G (snd v))).
  Proof.
    intro BL. assert (lwf []) as W0 by (split; constructor). pose proof (build_levels_spec G vars [] [] W0) as S. cbv zeta in S.
    change (fold_left _ vars ([], [])) with (build_levels G vars) in S. rewrite BL in S. cbn [fst snd app] in S.
    destruct S as (qs & -> & Q2 & Q3 & _ & Q5 & Q6). split; auto. split; auto. split; auto.
    intros t p x H. destruct (Q6 t p x H) as [ Q | Q ]; auto. unfold at_level in Q. cbn in Q. discriminate.
  Qed.

  Theorem C107_file : forall (cf : gconf) (l : list message),
    distinct_axes cf -> (forall m, In m l -> used G B cf m = true -> gc_axes cf (m_gtype G B m) <> None) ->
    (forall a b, In a l -> In b l -> used G B cf a = true -> used G B cf b = true -> name_of G B cf a = name_of G B cf b -> agree G B cf a b) ->
    (forall m, In m l -> used G B cf m = true -> time_of G B cf m <> None) ->
    (forall t x y k, gc_axes cf t = Some (x, y) -> forall d, In d [gc_time cf; "ensemble_member"] -> d <> (x ++ suffix k)%string /\ d <> (y ++ suffix k)%string) ->
    gc_time cf <> "ensemble_member" ->
    exists f (axes : G -> string * string) (level_dim : Z * Z -> list Z -> string),
      grib_file G geqb B cf l = Ok f /\
      NoDup (f_dims B f) /\
      (* times and members *)
      StronglySorted N.lt (f_times B f) /\ (forall t, In t (f_times B f) <-> exists m, In m l /\ used G B cf m = true /\ time_of G B cf m = Some t) /\
      (forall m, In m l -> used G B cf m = true -> ens G B m = true -> m_total G B m <= f_members B f /\ m_pert G B m < f_members B f) /\
      (f_members B f <> 0 -> exists m, In m l /\ used G B cf m = true /\ ens G B m = true /\ f_members B f = Nat.max (m_total G B m) (m_pert G B m + 1)) /\
      (* variables *)
      (forall n, (exists v, In (n, v) (f_vars B f)) <-> exists m, In m l /\ used G B cf m = true /\ name_of G B cf m = n) /\
      NoDup (map fst (f_vars B f)) /\
      (forall n v, In (n, v) (f_vars B f) ->
         exists m, hd_error (of_var G B cf n l) = Some m /\
           v_shape B v = [fst (axes (m_grid G B m)); snd (axes (m_grid G B m))] ++ (if ens G B m then ["ensemble_member"] else [])
                         ++ [level_dim (ltype G B m) (v_levels B v)] ++ [gc_time cf] /\
           (forall d, In d (v_shape B v) -> In d (f_dims B f)) /\
           StronglySorted Z.lt (v_levels B v) /\ (forall z, In z (v_levels B v) <-> exists q, In q (of_var G B cf n l) /\ m_level G B q = z) /\
           (exists n' v' q, In (n', v') (f_vars B f) /\ hd_error (of_var G B cf n' l) = Some q /\ ltype G B q = ltype G B m /\
              v_levels B v' = v_levels B v /\ v_pv B v = m_pv G B q) /\
           let E := if ens G B m then f_members B f else 1 in
           length (v_index B v) = E * length (v_levels B v) * length (f_times B f) /\
           forall it il ie t z, nth_error (f_times B f) it = Some t -> nth_error (v_levels B v) il = Some z -> ie < E ->
             nth_error (v_index B v) (lin [E; length (v_levels B v); length (f_times B f)] [ie; il; it])
             = Some (last_message (map (entry G B cf) (of_var G B cf n l)) t z ie)) /\
      (* grids and levels have their own dimensions *)
      (forall a b, In a l -> In b l -> used G B cf a = true -> used G B cf b = true ->
         fst (axes (m_grid G B a)) = fst (axes (m_grid G B b)) \/ snd (axes (m_grid G B a)) = snd (axes (m_grid G B b)) -> m_grid G B a = m_grid G B b) /\
      (forall n v n' v' m m', In (n, v) (f_vars B f) -> In (n', v') (f_vars B f) ->
         hd_error (of_var G B cf n l) = Some m -> hd_error (of_var G B cf n' l) = Some m' ->
         level_dim (ltype G B m) (v_levels B v) = level_dim (ltype G B m') (v_levels B v') -> ltype G B m = ltype G B m' /\ v_levels B v = v_levels B v').
  Proof.
    intros cf l D A AG TM FR TE. destruct (load_success G geqb GE B cf l D A AG) as (s & LS). pose proof (load_inv G geqb GE B cf l s LS) as I.
    unfold grib_file. rewrite LS. cbn [obind]. unfold build.
    destruct (build_levels G (s_vars G B s)) as [ lm ps ] eqn:BL.
    destruct (levels_built _ _ _ BL) as (Q2 & Q3 & Q5 & Q6).
    assert (forall d, In d (s_dims G B s) -> d <> gc_time cf /\ d <> "ensemble_member") as FD.
    { intros d H. apply (dim_of_grid G B cf l s) in H as (k & g & x & y & Hk & HD); auto. destruct (i_axes _ _ _ _ _ I k g x y Hk) as (q & a & b & _ & _ & _ & Q & -> & ->).
      destruct (FR _ _ _ k Q (gc_time cf)) as [ F1 F2 ]; [ cbn; auto | ]. destruct (FR _ _ _ k Q "ensemble_member") as [ F3 F4 ]; [ cbn; auto | ].
      destruct HD as [ -> | -> ]; split; auto. }
    destruct (i_dims _ _ _ _ _ I) as [ _ DN ].
    rewrite add_dim_ok by (intro H; apply FD in H; tauto). cbn [obind].
    set (d2 := (s_dims G B s ++ [gc_time cf]) ++ if s_max G B s <=? 1 then [] else ["ensemble_member"]).
    assert (NoDup d2) as N2.
    { unfold d2. assert (NoDup (s_dims G B s ++ [gc_time cf])) by (apply nodup_snoc; auto; intro H; apply FD in H; tauto).
      destruct (s_max G B s <=? 1); [ rewrite app_nil_r; auto | ]. apply nodup_snoc; auto. intro H'. apply in_app_iff in H' as [ H' | [ H' | [] ] ]; auto. apply FD in H'. tauto. }
    assert ((if s_max G B s <=? 1 then Ok (s_dims G B s ++ [gc_time cf]) else add_dim "ensemble_member" (s_dims G B s ++ [gc_time cf])) = Ok d2) as ->.
    { unfold d2. destruct (s_max G B s <=? 1); [ rewrite app_nil_r; auto | ]. apply add_dim_ok. intro H'. apply in_app_iff in H' as [ H' | [ H' | [] ] ]; auto. apply FD in H'. tauto. }
    cbn [obind]. destruct (name_levels_ok cf lm d2 N2) as (nm & -> & K1 & K2 & N3). cbn [obind fst snd].
    set (dims := d2 ++ concat (map snd nm)) in *.
    assert (NoDup (concat (map snd nm))) as N4. { clear - N3. unfold dims in N3. revert N3. generalize d2. intro d. induction d as [ | x d IH ]; auto. cbn. intro H. inversion_clear H. auto. }
    assert (length (s_vars G B s) = length ps) as LP by (rewrite <- (map_length fst ps), Q3, map_length; auto).
    (* one variable *)
    set (vok := fun (n : string) (g : gvar B) => exists v m ms p pv,
        In (n, v) (s_vars G B s) /\ of_var G B cf n l = m :: ms /\ h_ltype G v = ltype G B m /\ h_levels G v = v_levels B g /\
        at_level (ltype G B m) p lm = Some (pv, v_levels B g) /\ v_pv B g = pv /\
        at_level (ltype G B m) p nm = Some (level_name lm nm (ltype G B m) (v_levels B g)) /\
        v_shape B g = [fst (axes_of G geqb B s (m_grid G B m)); snd (axes_of G geqb B s (m_grid G B m))] ++ (if ens G B m then ["ensemble_member"] else [])
                      ++ [level_name lm nm (ltype G B m) (v_levels B g)] ++ [gc_time cf] /\
        StronglySorted Z.lt (v_levels B g) /\ (forall z, In z (v_levels B g) <-> exists q, In q (of_var G B cf n l) /\ m_level G B q = z) /\
        let E := if ens G B m then s_max G B s else 1 in
        length (v_index B g) = E * length (v_levels B g) * length (s_times G B s) /\
        forall it il ie t z, nth_error (s_times G B s) it = Some t -> nth_error (v_levels B g) il = Some z -> ie < E ->
          nth_error (v_index B g) (lin [E; length (v_levels B g); length (s_times G B s)] [ie; il; it])
          = Some (last_message (map (entry G B cf) (of_var G B cf n l)) t z ie)).
    assert (forall vp, In vp (combine (s_vars G B s) ps) -> exists g, one_var G geqb B s cf lm nm (snd (fst vp)) (snd (snd vp)) (fst (fst vp)) = Ok g /\ vok (fst (fst vp)) g) as ONE.
    { intros [ [ n v ] [ n' p ] ] H. cbn [fst snd]. pose proof (Q5 _ _ H) as (_ & pv & AL). cbn [fst snd] in AL.
      assert (In (n, v) (s_vars G B s)) as HV by (apply in_combine_l in H; auto).
      pose proof (i_vars _ _ _ _ _ I n) as IV. rewrite (pair_find n v) in IV by (auto; apply (i_sorted _ _ _ _ _ I)).
      destruct IV as (m & ms & OF & E1 & E2 & E3 & E4 & E5 & E6 & E7 & E8 & E9).
      assert (In m l /\ used G B cf m = true /\ name_of G B cf m = n) as (Hm & Um & Nm) by (apply (of_var_in G B cf n l m); rewrite OF; cbn; auto).
      assert (timed G B cf m = true) as T1. { unfold timed. destruct (time_of G B cf m) eqn:Q; auto. destruct (TM m Hm Um Q). }
      unfold one_var. rewrite E3. destruct (axes_find G geqb GE B cf l s (m_grid G B m) I) as [ -> _ ]; [ eauto | ]. cbn [obind snd fst].
      rewrite E4 in AL. rewrite E4.
      assert (at_level (ltype G B m) p nm <> None) as AN by (apply (proj1 (names_parallel nm lm _ _ K1 K2)); congruence).
      destruct (at_level (ltype G B m) p nm) as [ ln | ] eqn:LN; [ | congruence ]. cbn [obind]. rewrite AL. cbn [obind fst snd].
      rewrite E1, E2, T1. rewrite (i_box _ _ _ _ _ I), box_of_var.
      pose proof (i_times _ _ _ _ _ I) as [ ST IT ].
      destruct (C67_index_holds_last_message B (s_times G B s) (h_levels G v) (if ens G B m then s_max G B s else 1) (map (entry G B cf) (of_var G B cf n l))) as (idx & -> & LI & CI).
      { apply (sorted_nodup N.lt); auto. intro; lia. }
      { apply (sorted_nodup Z.lt); auto. intro; lia. }
      { intros e He. apply in_map_iff in He as (q & <- & Hq). pose proof Hq as Hq'. apply of_var_in in Hq' as (Lq & Uq & Nq). unfold entry. cbn [g_time g_level g_ens].
        destruct (time_of G B cf q) as [ t | ] eqn:Tq; [ | destruct (TM q Lq Uq Tq) ]. split; [ apply IT; eauto | ]. split; [ apply E8; eauto | ].
        replace (ens G B m) with (ens G B q).
        - destruct (ens G B q) eqn:En; [ | lia ]. pose proof (need_le G B cf l s q I Lq Uq) as LE. unfold need in LE. rewrite En in LE. lia.
        - rewrite OF in Hq. destruct Hq as [ <- | Hq ]; auto. apply E9. auto. }
      cbn [obind]. eexists. split; [ reflexivity | ]. exists v, m, ms, p, pv. cbn.
      rewrite (level_name_at lm nm _ p pv _ ln Q2 AL LN).
      repeat (split; [ solve [ auto ] | ]). exact CI. }
    destruct (omapM_forall2 (fun vp : string * vhas G * (string * nat) => do g <- one_var G geqb B s cf lm nm (snd (fst vp)) (snd (snd vp)) (fst (fst vp)); Ok (fst (fst vp), g)) (combine (s_vars G B s) ps)) as (vs & -> & F2).
    { intros vp H. destruct (ONE vp H) as (g & -> & _). cbn. eauto. }
    cbn [obind].
    assert (forall n g, In (n, g) vs -> vok n g) as VOK.
    { intros n g H. destruct (forall2_in _ _ _ _ F2 H) as (vp & Hv & E). destruct (ONE vp Hv) as (g' & E' & V). rewrite E' in E. cbn in E. injection E as <- <-. exact V. }
    assert (map fst vs = map fst (s_vars G B s)) as MF.
    { assert (map (fun vp : string * vhas G * (string * nat) => fst (fst vp)) (combine (s_vars G B s) ps) = map fst (s_vars G B s)) as <-.
      { clear - LP. revert ps LP. induction (s_vars G B s) as [ | a r IH ]; intros [ | b ps ] L; cbn in *; try discriminate; auto. rewrite IH; auto. }
      clear - F2. induction F2 as [ | vp [ n g ] a b H F IH ]; cbn; auto. rewrite IH. f_equal.
      destruct (one_var _ _ _ _ _ _ _ _ _ _); cbn in H; try discriminate. injection H as <- _. reflexivity. }
    eexists (mkF B dims _ _ vs), (axes_of G geqb B s), (level_name lm nm). split; [ reflexivity | ]. cbn.
    split; [ exact N3 | ]. destruct (i_times _ _ _ _ _ I) as [ ST IT ]. split; [ exact ST | ]. split; [ exact IT | ].
    split. { intros m Hm Um Em. pose proof (need_le G B cf l s m I Hm Um) as LE. unfold need in LE. rewrite Em in LE. lia. }
    split. { rewrite (i_max _ _ _ _ _ I). clear. intro H.
      assert (forall k a, fold_left Nat.max k a = a \/ In (fold_left Nat.max k a) k) as FM.
      { induction k as [ | x k IH ]; intro a; cbn; auto. destruct (IH (Nat.max a x)) as [ E | E ]; auto. rewrite E. destruct (Nat.max_dec a x) as [ -> | -> ]; auto. }
      destruct (FM (map (need G B) (filter (used G B cf) l)) 0) as [ E | E ]; [ congruence | ]. apply in_map_iff in E as (m & E & Hm). apply filter_In in Hm as (Hm & Um).
      exists m. rewrite <- E in *. unfold need in *. destruct (ens G B m); auto. congruence. }
    split. { intro n. transitivity (In n (map fst (s_vars G B s))).
      - rewrite <- MF, in_map_iff. split; [ intros (v & Hv); exists (n, v); auto | intros ([ n' v ] & <- & Hv); eauto ].
      - change (map fst (s_vars G B s)) with (skeys (s_vars G B s)). rewrite sfind_In. pose proof (i_vars _ _ _ _ _ I n) as IV. split.
        + intros (v & F). rewrite F in IV. destruct IV as (m & ms & OF & _). exists m. apply of_var_in. rewrite OF. cbn; auto.
        + intros (m & Hm). apply of_var_in in Hm. destruct (sfind n (s_vars G B s)); eauto. rewrite IV in Hm. contradiction. }
    split. { rewrite MF. apply (ssorted_NoDup (s_vars G B s)). apply (i_sorted _ _ _ _ _ I). }
    split.
    { intros n v H. destruct (VOK n v H) as (w & m & ms & p & pv & V1 & V2 & V3 & V4 & V5 & V6 & V7 & V8 & V9 & V10 & V11).
      assert (In m l /\ used G B cf m = true /\ name_of G B cf m = n) as (Hm & Um & Nm) by (apply (of_var_in G B cf n l m); rewrite V2; cbn; auto).
      exists m. rewrite V2 at 1. split; [ reflexivity | ]. split; [ exact V8 | ]. split; [ | split; [ exact V9 | split; [ exact V10 | split; [ | exact V11 ] ] ] ].
      - rewrite V8. destruct (axes_dims G geqb GE B cf l s (m_grid G B m) I) as [ X Y ]; [ eauto | ]. unfold dims, d2. intros d Hd.
        apply in_app_iff in Hd as [ [ <- | [ <- | [] ] ] | Hd ]; [ rewrite !in_app_iff; auto | rewrite !in_app_iff; auto | ].
        apply in_app_iff in Hd as [ Hd | Hd ].
        + destruct (ens G B m) eqn:Em; [ | contradiction ]. pose proof (need_le G B cf l s m I Hm Um) as LE. unfold need in LE. rewrite Em in LE. unfold ens in Em. apply Nat.ltb_lt in Em.
          rewrite !in_app_iff. left. right. destruct (Nat.leb_spec (s_max G B s) 1); [ lia | auto ].
        + apply in_app_iff in Hd as [ [ <- | [] ] | Hd ]; [ rewrite in_app_iff; right; apply (at_level_in (ltype G B m) p); auto | ].
          destruct Hd as [ <- | [] ]. rewrite !in_app_iff. cbn. auto.
      - destruct (Q6 _ _ _ V5) as (u & Hu & T & E). destruct u as [ n' u ]. cbn in T, E.
        pose proof (i_vars _ _ _ _ _ I n') as IV. rewrite (pair_find n' u) in IV by (auto; apply (i_sorted _ _ _ _ _ I)).
        destruct IV as (q & qs & OF & _ & _ & _ & E4 & E5 & _).
        assert (In n' (map fst vs)) as Hn' by (rewrite MF; apply (in_map fst) in Hu; exact Hu). apply in_map_iff in Hn' as ([ n2 v' ] & En & Hv'). cbn in En. subst n2.
        destruct (VOK n' v' Hv') as (w' & m' & ms' & p' & pv' & U1 & U2 & U3 & U4 & _).
        apply (pair_find n' w') in U1; [ | apply (i_sorted _ _ _ _ _ I) ]. apply (pair_find n' u) in Hu; [ | apply (i_sorted _ _ _ _ _ I) ]. rewrite U1 in Hu. injection Hu as ->.
        exists n', v', q. rewrite OF. split; auto. split; auto. split; [ congruence | ]. split; [ congruence | ]. rewrite V6, <- E5. congruence. }
    split. { intros a b Ha Hb Ua Ub. apply (axes_inj G geqb GE B cf l s); eauto. }
    intros n v n' v' m m' H H' Hm Hm' EQ.
    destruct (VOK n v H) as (w & m0 & ms & p & pv & V1 & V2 & V3 & V4 & V5 & V6 & V7 & _). destruct (VOK n' v' H') as (w' & m0' & ms' & p' & pv' & V1' & V2' & V3' & V4' & V5' & V6' & V7' & _).
    rewrite V2 in Hm. rewrite V2' in Hm'. cbn in Hm, Hm'. injection Hm as ->. injection Hm' as ->. rewrite <- EQ in V7'.
    destruct (names_inj nm _ _ _ _ _ N4 V7 V7') as [ ET -> ]. split; auto. rewrite ET, V5' in V5. injection V5 as _ ->. auto.
  Qed.

  (** ** Findings *)

  Lemma omapM_ok {X Y} (h : X -> outcome Y) k : forall r, omapM h k = Ok r -> Forall2 (fun a b => h a = Ok b) k r.
  Proof.
    induction k as [ | a k IH ]; cbn; intros r H; [ injection H as <-; constructor | ].
    destruct (h a) eqn:E; cbn in H; try discriminate. destruct (omapM h k); cbn in H; try discriminate. injection H as <-. constructor; auto.
  Qed.
  Lemma built cf l f n v : grib_file G geqb B cf l = Ok f -> In (n, v) (f_vars B f) ->
    exists s w p lm nm, load G geqb B cf l = Ok s /\ inv G B cf l s /\ sfind n (s_vars G B s) = Some w /\ one_var G geqb B s cf lm nm w p n = Ok v.
  Proof.
    unfold grib_file. destruct (load G geqb B cf l) as [ s | | | ] eqn:LS; try discriminate. cbn [obind]. pose proof (load_inv G geqb GE B cf l s LS) as I.
    unfold build. destruct (build_levels G (s_vars G B s)) as [ lm ps ].
    destruct (add_dim _ _); try discriminate. cbn [obind]. destruct (if s_max G B s <=? 1 then _ else _); try discriminate. cbn [obind].
    destruct (name_levels _ _ _) as [ nm | | | ]; try discriminate. cbn [obind]. destruct (omapM _ _) as [ vs | | | ] eqn:OM; try discriminate. cbn [obind].
    intro H. injection H as <-. cbn. apply omapM_ok in OM. intro H. destruct (forall2_in _ _ _ _ OM H) as ([ [ n' w ] [ n2 p ] ] & Hv & E). cbn [fst snd] in E.
    destruct (one_var _ _ _ _ _ _ _ _ _ _) as [ g | | | ] eqn:OV; try discriminate. cbn in E. injection E as <- <-.
    exists s, w, p, lm, (fst nm). split; auto. split; auto. split; auto. apply in_combine_l in Hv. apply pair_find; auto. apply (i_sorted _ _ _ _ _ I).
  Qed.

  (** Finding: a variable whose configuration names its counterpart in a vector is not marked as
      part of a vector: the condition of line 944 is inverted. *)
  Theorem C107_vector_refuted : forall cf l f n v m c,
    grib_file G geqb B cf l = Ok f -> In (n, v) (f_vars B f) -> hd_error (of_var G B cf n l) = Some m ->
    find_config G B cf m = Some c -> vc_counterpart c <> "" -> v_vector B v = None.
  Proof.
    intros cf l f n v m c F H HD FC NE. destruct (built cf l f n v F H) as (s & w & p & lm & nm & _ & I & SF & OV).
    pose proof (i_vars _ _ _ _ _ I n) as IV. rewrite SF in IV. destruct IV as (m' & ms & OF & _ & _ & _ & _ & _ & HC & _). rewrite OF in HD. cbn in HD. injection HD as ->.
    unfold one_var in OV. destruct (match find _ _ with Some x => _ | None => _ end); try discriminate. cbn [obind] in OV.
    destruct (match at_level _ _ nm with Some x => _ | None => _ end); try discriminate. cbn [obind] in OV.
    destruct (match at_level _ _ lm with Some x => _ | None => _ end); try discriminate. cbn [obind] in OV.
    destruct (grib_index _ _ _ _ _); try discriminate. cbn [obind] in OV. injection OV as <-. cbn. rewrite HC, FC.
    apply String.eqb_neq in NE. rewrite NE. reflexivity.
  Qed.

  Lemma index_times {C} times levels E T (ms : list (gmsg C)) : forall acc idx,
    ofold (fun msgs m => do t <- find_index N.eqb times (g_time m); do l <- find_index Z.eqb levels (g_level m);
             let idx := (t * length levels + l) * E + g_ens m in
             if E * length levels * T <=? idx then Throw else Ok (upd msgs idx (Some (g_msg m)))) ms acc = Ok idx ->
    forall m, In m ms -> In (g_time m) times.
  Proof.
    induction ms as [ | a ms IH ]; cbn [ofold]; intros acc idx H m Hm; [ contradiction | ].
    destruct (in_dec N.eq_dec (g_time a) times) as [ IN | NI ].
    - destruct (find_index N.eqb times (g_time a)) as [ t | | | ]; cbn [obind] in H; try discriminate. destruct (find_index Z.eqb levels (g_level a)) as [ z | | | ]; cbn [obind] in H; try discriminate. cbv zeta in H.
      destruct (_ <=? _); try discriminate. cbn [obind] in H. destruct Hm as [ <- | Hm ]; auto. eapply IH; eauto.
    - rewrite (find_index_none N.eqb N.eqb_eq) in H by auto. discriminate.
  Qed.
  (** the time of a message is its own, except of a variable configured with constantTime: none *)
  Theorem C107_time : forall cf m,
    (forall v, find_config G B cf m = Some v -> vc_const v = true -> time_of G B cf m = None) /\
    ((forall v, find_config G B cf m = Some v -> vc_const v = false) -> time_of G B cf m = m_time G B m).
  Proof.
    intros cf m. unfold time_of. split.
    - intros v E C. rewrite E. unfold valid_time. rewrite C. reflexivity.
    - intros H. destruct (find_config G B cf m) as [ v | ]; [ | reflexivity ]. unfold valid_time. rewrite (H v eq_refl). reflexivity.
  Qed.
  (** Finding: one message without time (or of a variable configured with constantTime) makes the
      whole file unreadable. *)
  Theorem C107_constant_refuted : forall cf l m,
    In m l -> used G B cf m = true -> time_of G B cf m = None ->
    (forall q, In q l -> time_of G B cf q <> Some 0%N) ->
    forall f, grib_file G geqb B cf l <> Ok f.
  Proof.
    intros cf l m Hm Um Tm NZ f F.
    assert (exists v, In (name_of G B cf m, v) (f_vars B f)) as (v & H).
    { unfold grib_file in F. destruct (load G geqb B cf l) as [ s | | | ] eqn:LS; try discriminate. cbn [obind] in F. pose proof (load_inv G geqb GE B cf l s LS) as I.
      unfold build in F. destruct (build_levels G (s_vars G B s)) as [ lm ps ] eqn:BL. destruct (levels_built _ _ _ BL) as (_ & Q3 & _).
      destruct (add_dim _ _); try discriminate. cbn [obind] in F. destruct (if s_max G B s <=? 1 then _ else _); try discriminate. cbn [obind] in F.
      destruct (name_levels _ _ _) as [ nm | | | ]; try discriminate. cbn [obind] in F. destruct (omapM _ _) as [ vs | | | ] eqn:OM; try discriminate. cbn [obind] in F.
      injection F as <-. cbn. apply omapM_ok in OM.
      assert (In m (of_var G B cf (name_of G B cf m) l)) as OV by (apply of_var_in; auto).
      pose proof (i_vars _ _ _ _ _ I (name_of G B cf m)) as IV. destruct (sfind _ _) as [ w | ] eqn:SF; [ | rewrite IV in OV; contradiction ]. apply find_pair in SF.
      destruct (in_combine_both (s_vars G B s) ps _ (eq_trans (eq_sym (map_length fst _)) (eq_trans (f_equal (@length _) (eq_sym Q3)) (map_length fst _))) SF) as (y & Hy).
      destruct (forall2_in' _ _ _ _ OM Hy) as ([ n g ] & Hg & E). cbn [fst snd] in E. destruct (one_var _ _ _ _ _ _ _ _ _ _); cbn in E; try discriminate. injection E as <- <-. eauto. }
    destruct (built cf l f _ v F H) as (s & w & p & lm & nm & _ & I & SF & OV).
    unfold one_var in OV. destruct (match find _ _ with Some x => _ | None => _ end); try discriminate. cbn [obind] in OV.
    destruct (match at_level _ _ nm with Some x => _ | None => _ end); try discriminate. cbn [obind] in OV.
    destruct (match at_level _ _ lm with Some x => _ | None => _ end); try discriminate. cbn [obind] in OV.
    rewrite (i_box _ _ _ _ _ I), box_of_var in OV. destruct (grib_index _ _ _ _ _) as [ idx | | | ] eqn:GI; try discriminate. unfold grib_index in GI.
    apply index_times with (m := entry G B cf m) in GI; [ | apply in_map; apply of_var_in; auto ].
    unfold entry in GI. cbn [g_time] in GI. rewrite Tm in GI. apply (i_times _ _ _ _ _ I) in GI as (q & Hq & _ & Q). apply (NZ q Hq Q).
  Qed.
(** the only axis of a configured level type has the configured name, unless a dimension has it already *)
Theorem C107_level_name : forall (cf : gconf) t s pl d, gc_level cf t = Some s -> existsb (String.eqb s) d = false ->
  name_levels cf [(t, [pl])] d = Ok ([(t, [s])], d ++ [s]).
Proof.
  intros cf t s pl d L N. assert (A : forall x, String.append x "" = x) by (induction x as [ | ? x IH ]; [ reflexivity | cbn [String.append]; rewrite IH; reflexivity ]).
  cbn [name_levels name_each length]. unfold level_id. rewrite L. change (1 <? 1) with false. cbv iota zeta. rewrite A.
  replace (count_up _ s s 0 (length d)) with (Ok s) by (destruct (length d); cbn [count_up]; rewrite N; reflexivity).
  cbn [obind]. unfold add_dim. rewrite N. reflexivity.
Qed.
End File.

(** ** Examples *)

(** x and y axes; the wind components are a vector, the element of parameter 3 needs the key "k" *)
Definition conf0 : gconf :=
  mkGC [] [(1%Z, mkPC [] [] (mkVC "u" false "x" "v")); (2%Z, mkPC [] [] (mkVC "v" false "y" "u"));
           (3%Z, mkPC [("k", [5%Z])] [] (mkVC "special" false "" "")); (3%Z, mkPC [] [] (mkVC "plain" false "" ""))]
       false (fun _ => None) (fun _ => Some ("x", "y")) "time".
Definition msg0 (par level : Z) (t : N) (g : nat) (pv : list Qc) (total pert ptr : nat) : message nat nat :=
  mkM nat nat 2%Z (par, 0%Z, 0%Z) 105%Z level 0%Z 0%Z "instant" [] "n" (Some t) total pert g "g" pv ptr.

Lemma conf0_axes : distinct_axes conf0.
Proof.
  assert (forall j k, suffix j = suffix k -> j = k) as SI.
  { intros [ | j ] [ | k ] E; auto.
    - assert (dec (N.of_nat (S k)) = []) as Z by (rewrite <- (list_ascii_of_string_of_list_ascii (dec _)); change (string_of_list_ascii (dec (N.of_nat (S k)))) with (suffix (S k)); rewrite <- E; reflexivity).
      pose proof (undec_dec (N.of_nat (S k))) as Y. rewrite Z in Y. discriminate.
    - assert (dec (N.of_nat (S j)) = []) as Z by (rewrite <- (list_ascii_of_string_of_list_ascii (dec _)); change (string_of_list_ascii (dec (N.of_nat (S j)))) with (suffix (S j)); rewrite E; reflexivity).
      pose proof (undec_dec (N.of_nat (S j))) as Y. rewrite Z in Y. discriminate.
    - apply number_inj in E. lia. }
  intros t t' x y x' y' j k H H'. cbn in H, H'. injection H as <- <-. injection H' as <- <-.
  split; [ discriminate | ]. split; intro E; apply append_inj in E; auto.
Qed.
(** Two grids, an ensemble, two level sets of one type, one of them shared. *)
Example C107_nonvacuous :
  grib_file nat Nat.eqb nat conf0
    [msg0 1 2 20 0 [] 2 1 7; msg0 1 1 10 0 [] 2 0 8; msg0 2 1 10 1 [] 1 9 9; msg0 2 2 10 1 [] 1 0 10; msg0 9 1 20 0 [] 1 0 11]
  = Ok (mkF nat ["x"; "y"; "x1"; "y1"; "time"; "ensemble_member"; "grib2_vLevel1050"; "grib2_vLevel1051"] [10%N; 20%N] 2
      [("ga_n_105", mkGV nat ["x"; "y"; "grib2_vLevel1050"; "time"] [1%Z] [] (Some ("", "")) [None; Some 11]);
       ("u", mkGV nat ["x"; "y"; "ensemble_member"; "grib2_vLevel1051"; "time"] [1%Z; 2%Z] [] None [Some 8; None; None; None; None; None; None; Some 7]);
       ("v", mkGV nat ["x1"; "y1"; "grib2_vLevel1051"; "time"] [1%Z; 2%Z] [] None [Some 9; Some 10; None; None])]).
Proof. reflexivity. Qed.
Example C107_refused_nonvacuous :
  load nat Nat.eqb nat conf0 [msg0 1 2 20 0 [] 2 1 7; msg0 1 1 10 0 [] 1 0 8] = Throw /\
  load nat Nat.eqb nat conf0 [msg0 1 2 20 0 [] 1 1 7; msg0 1 1 10 1 [] 1 0 8] = Throw.
Proof. split; reflexivity. Qed.

(** Finding: variables with the same type and numbers of levels share one axis, with the vertical
    coefficients of the first of them by name; the others' are lost. *)
Theorem C107_coefficients_refuted : exists l f u v,
  grib_file nat Nat.eqb nat conf0 l = Ok f /\ f_vars nat f = [("u", u); ("v", v)] /\
  map this (v_pv nat v) = [(1 # 1)%Q] /\ Forall (fun m => name_of nat nat conf0 m = "v" -> map this (m_pv nat nat m) = [(2 # 1)%Q]) l.
Proof.
  exists [msg0 2 1 10 0 [Q2Qc 2] 1 0 7; msg0 1 1 10 0 [Q2Qc 1] 1 0 8]. eexists _, _, _. split; [ reflexivity | ]. split; [ reflexivity | ].
  split; [ reflexivity | ].
  constructor; [ intros _; reflexivity | ]. constructor; [ intro H; discriminate | constructor ].
Qed.
(** Finding: a condition on a further key is not checked for messages without the key. *)
Theorem C107_extra_refuted :
  find_config nat nat conf0 (msg0 3 1 10 0 [] 1 0 7) = Some (mkVC "special" false "" "").
Proof. reflexivity. Qed.

Print Assumptions C107_config.
Print Assumptions C107_level_name.
Print Assumptions C107_refused.
Print Assumptions C107_file.
Print Assumptions C107_vector_refuted.
Print Assumptions C107_time.
Print Assumptions C107_constant_refuted.
Print Assumptions C107_coefficients_refuted.
Print Assumptions C107_extra_refuted.
