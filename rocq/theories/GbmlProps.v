(** C119: index files of GRIB files. *)
From Coq Require Import ZArith NArith PeanoNat Ascii String List Bool Lia QArith Lqa Permutation.
From Verif Require Import Base StringModel StringProofs TextModel TextProofs IofModel GbmlModel.
Import ListNotations.
Local Open Scope list_scope.
Local Open Scope nat_scope.

(** ** Numbers *)
Lemma digits_value_undec : forall s acc n, undec_loop s acc = Some n -> digits_value s acc = n.
Proof.
  induction s as [|c s IH]; intros acc n H; cbn in *; [congruence|].
  destruct (digit_value c); [apply IH; exact H | discriminate].
Qed.
Lemma digits_dec : forall n, digits_value (dec n) 0 = n.
Proof.
  intro n. apply digits_value_undec. pose proof (undec_dec n) as H. unfold undec in H.
  destruct (dec n); [discriminate | exact H].
Qed.
Lemma digit_not_minus : forall c d, digit_value c = Some d -> Ascii.eqb c "-" = false.
Proof.
  intros c d H. destruct (Ascii.eqb c "-") eqn:E; [|reflexivity].
  apply Ascii.eqb_eq in E. subst c. discriminate H.
Qed.
Definition in_long (z : Z) : Prop := (LMIN <= z <= LMAX)%Z.
Lemma atol_show : forall z, in_long z -> atol (show_z z) = Ok z.
Proof.
  intros z H. unfold atol, show_z.
  destruct (z <? 0)%Z eqn:Z0.
  - cbn [Ascii.eqb Bool.eqb]. rewrite digits_dec.
    replace (- Z.of_N (Z.to_N (- z)))%Z with z by lia.
    unfold in_long in H. destruct H as [H1 H2].
    apply Z.leb_le in H1, H2. rewrite H1, H2. reflexivity.
  - pose proof (digits_dec (Z.to_N z)) as Dg. pose proof (undec_dec (Z.to_N z)) as U.
    destruct (dec (Z.to_N z)) as [|c r] eqn:E; [discriminate U|].
    assert (Ascii.eqb c "-" = false) as M.
    { unfold undec in U. cbn in U. destruct (digit_value c) eqn:Dc; [|discriminate]. eapply digit_not_minus; eauto. }
    rewrite M, Dg. replace (Z.of_N (Z.to_N z)) with z by lia.
    unfold in_long in H. destruct H as [H1 H2].
    apply Z.leb_le in H1, H2. rewrite H1, H2. reflexivity.
Qed.
Lemma show_nonempty : forall z, show_z z <> [].
Proof.
  intros z. unfold show_z. destruct (z <? 0)%Z; [discriminate|]. apply dec_nonempty.
Qed.
Definition in_int (z : Z) : Prop := (- 2 ^ 31 <= z < 2 ^ 31)%Z.
Lemma to_int_id : forall z, in_int z -> to_int z = z.
Proof. intros z H. unfold to_int, in_int in *. rewrite Z.mod_small by lia. lia. Qed.
Lemma int_long : forall z, in_int z -> in_long z.
Proof. unfold in_int, in_long, LMIN, LMAX. intros. lia. Qed.
Lemma to_size_id : forall z, (0 <= z)%Z -> in_long z -> to_size z = z.
Proof. intros z H L. unfold to_size. unfold in_long, LMIN, LMAX in L. apply Z.mod_small. lia. Qed.

Lemma units_cases : forall u, In u (map fst unit_table) ->
  exists s, units_text u = Ok s /\ units_of_text s = Ok u.
Proof.
  intros u H. cbn in H.
  repeat (destruct H as [<- | H]; [eexists; split; [reflexivity | vm_compute; reflexivity]|]). contradiction.
Qed.

(** ** A message *)
Section Doubles.
Variable D : Type.
Variable showD : D -> str.
Variable readD : str -> D.
Variable norm : D -> D.
Variables zero thousand : D.

Notation msg := (message D).
Notation readE := (read_events D readD norm zero thousand).
Notation eventsOf := (message_events D showD).

(** a number that its text gives back *)
Definition exact (d : D) : Prop := readD (showD d) = d.

(** a message whose members all are set to values the text keeps *)
Record complete (m : msg) : Prop := mkC {
  c_url : m_url m <> [];
  c_pos : exists z, m_pos m = Some z /\ in_long z;
  c_size : exists z, m_size m = Some z /\ in_long z /\ (0 <= z)%Z;
  c_ed : m_edition m = Some 1%Z \/ m_edition m = Some 2%Z;
  c_ids : let '(a, b, c) := m_ids m in in_int a /\ in_int b /\ in_int c;
  c_ltype : exists z, m_ltype m = Some z /\ in_long z;
  c_lno : exists z, m_lno m = Some z /\ in_long z;
  c_members : (0 < m_total m)%Z /\ in_long (m_total m) /\ in_long (m_pert m) \/ m_total m = 0%Z /\ m_pert m = 0%Z;
  c_keys : NoDup (map fst (m_keys m)) /\ Forall (fun k => in_long (snd k)) (m_keys m);
  c_date : exists z, m_date m = Some z /\ in_long z;
  c_time : exists z, m_time m = Some z /\ in_long z;
  c_units : exists z, m_units m = Some z /\ In z (map fst unit_table);
  c_range : exists z, m_range m = Some z /\ in_long z;
  c_stat : exists z, m_stat m = Some z /\ in_long z;
  c_start : exists z, m_start m = Some z /\ in_long z;
  c_end : exists z, m_end m = Some z /\ in_long z;
  c_nx : in_long (g_nx (m_grid m)) /\ (0 <= g_nx (m_grid m))%Z;
  c_ny : in_long (g_ny (m_grid m)) /\ (0 <= g_ny (m_grid m))%Z;
  c_scan : in_long (g_scan (m_grid m));
  c_doubles : exact (g_dx (m_grid m)) /\ exact (g_dy (m_grid m)) /\ exact (g_x (m_grid m)) /\ exact (g_y (m_grid m)) /\
    exact (g_lon (m_grid m)) /\ exact (g_lat (m_grid m)) /\ norm (g_lon (m_grid m)) = g_lon (m_grid m);
  c_res : g_res (m_grid m) = match m_edition m with Some 1%Z => Res3 | _ => Res6 end }.

Lemma put_new : forall l k v, ~ In k (map fst l) -> put l k v = l ++ [(k, v)].
Proof.
  induction l as [|[k' v'] l IH]; intros k v H; [reflexivity|]. cbn [put map fst In] in *.
  destruct (str_eqb k' k) eqn:E.
  - apply str_eqb_eq in E. exfalso. apply H. left. exact E.
  - rewrite IH by tauto. reflexivity.
Qed.

Definition els (evs : list event) (mh : msg * bool) : outcome (msg * bool) :=
  ofold (fun s e => match e with Start n a _ => element D readD norm zero thousand n a s | _ => Ok s end) evs mh.

Definition inner (evs : list event) : Prop :=
  Forall (fun e => match e with End n => is n "gribMessage" = false | _ => True end) evs.

Lemma read_inner : forall evs r good u ms mh mh', inner evs -> els evs mh = Ok mh' ->
  readE (evs ++ r) good (mkSt u ms (Some mh)) = readE r good (mkSt u ms (Some mh')).
Proof.
  induction evs as [|e evs IH]; intros r good u ms mh mh' I E.
  - cbn in E. injection E as <-. reflexivity.
  - inversion I as [|? ? I1 I2]; subst. unfold els in E. cbn [ofold] in E.
    cbn [List.app read_events st_cur st_url st_msgs].
    destruct e as [n a em | n | ].
    + destruct (element D readD norm zero thousand n a mh) as [x | | | ] eqn:X; try discriminate E.
      cbn [obind] in E. apply IH; assumption.
    + rewrite I1. cbn [obind] in E. apply IH; assumption.
    + cbn [obind] in E. apply IH; assumption.
Qed.

Lemma els_app : forall a b mh, els (a ++ b) mh = obind (els a mh) (els b).
Proof.
  unfold els. induction a as [|e a IH]; intros b mh; [reflexivity|]. cbn [List.app ofold].
  destruct e as [n at_ em | n | ]; cbn [obind]; try apply IH.
  destruct (element D readD norm zero thousand n at_ mh); cbn [obind]; try reflexivity. apply IH.
Qed.

Lemma els_keys : forall ks m h, NoDup (map fst (m_keys m) ++ map fst ks) -> Forall (fun k => in_long (snd k)) ks ->
  els (map key_event ks) (m, h) = Ok (set_keys m (m_keys m ++ ks), h).
Proof.
  induction ks as [|[k v] ks IH]; intros m h ND F.
  - cbn. rewrite app_nil_r. destruct m; reflexivity.
  - inversion F as [|? ? F1 F2]; subst. cbn [map]. unfold els. cbn [ofold key_event fst snd].
    unfold element. cbn [is]. 
    change (is (s_ "extraKey") "parameter") with false. change (is (s_ "extraKey") "grib1") with false.
    change (is (s_ "extraKey") "grib2") with false. change (is (s_ "extraKey") "level") with false.
    change (is (s_ "extraKey") "time") with false. change (is (s_ "extraKey") "typeOfGrid") with false.
    change (is (s_ "extraKey") "ensemble") with false. change (is (s_ "extraKey") "extraKey") with true.
    cbv iota. cbn [ofold att key_attr fst snd].
    change (is (s_ "name") "name") with true. change (is (s_ "value") "name") with false.
    change (is (s_ "value") "value") with true. cbv iota. cbn [obind fst snd].
    rewrite atol_show by exact F1. cbn [obind fst snd].
    assert (~ In k (map fst (m_keys m))) as NI.
    { cbn [map fst] in ND. apply NoDup_remove_2 in ND. intro X. apply ND. apply in_or_app. left. exact X. }
    rewrite put_new by exact NI.
    fold (els (map key_event ks) (set_keys m (m_keys m ++ [(k, v)]), h)).
    rewrite IH; cycle 1.
    + cbn [m_keys set_keys]. rewrite map_app. cbn [map fst]. rewrite <- app_assoc. exact ND.
    + exact F2.
    + cbn [m_keys set_keys]. rewrite <- app_assoc. reflexivity.
Qed.

Ltac names :=
  repeat (match goal with |- context [is (s_ ?a) ?b] =>
    let v := eval vm_compute in (is (s_ a) b) in change (is (s_ a) b) with v end; cbv iota).
Ltac attrs := unfold att; repeat (progress (cbn [ofold obind fst snd]; names)).

Lemma el_param : forall m h s n, element D readD norm zero thousand (s_ "parameter") [att "shortName" s; att "name" n] (m, h) =
  Ok (set_names m n s, h).
Proof. intros. unfold element. names. unfold name_attr. attrs. destruct m; reflexivity. Qed.
Lemma el_ids1 : forall m h a b c, in_int a -> in_int b -> in_int c ->
  element D readD norm zero thousand (s_ "grib1")
    [att "indicatorOfParameter" (show_z a); att "gribTablesVersionNo" (show_z b);
     att "identificationOfOriginatingGeneratingCentre" (show_z c)] (m, h) = Ok (set_ids m 1 (a, b, c), true).
Proof.
  intros m h a b c A B C. unfold element. names. unfold id_attr. attrs.
  rewrite !atol_show by (apply int_long; assumption). attrs. rewrite !to_int_id by assumption. reflexivity.
Qed.
Lemma el_ids2 : forall m h a b c, in_int a -> in_int b -> in_int c ->
  element D readD norm zero thousand (s_ "grib2")
    [att "parameterNumber" (show_z a); att "parameterCategory" (show_z b); att "discipline" (show_z c)] (m, h) =
  Ok (set_ids m 2 (a, b, c), true).
Proof.
  intros m h a b c A B C. unfold element. names. unfold id_attr. attrs.
  rewrite !atol_show by (apply int_long; assumption). attrs. rewrite !to_int_id by assumption. reflexivity.
Qed.
Lemma el_level : forall m h t n, in_long t -> in_long n ->
  element D readD norm zero thousand (s_ "level") [att "type" (show_z t); att "no" (show_z n)] (m, h) =
  Ok (set_level m (Some t) (Some n), h).
Proof.
  intros m h t n T N. unfold element. names. unfold level_attr. attrs. rewrite !atol_show by assumption.
  attrs. destruct m; reflexivity.
Qed.
Lemma el_member : forall m h p t, in_long p -> in_long t ->
  element D readD norm zero thousand (s_ "ensemble") [att "no" (show_z p); att "total" (show_z t)] (m, h) =
  Ok (set_member m p t, h).
Proof.
  intros m h t n T N. unfold element. names. unfold member_attr. attrs. rewrite !atol_show by assumption.
  attrs. destruct m; reflexivity.
Qed.
Lemma el_gtype : forall m h t, element D readD norm zero thousand (s_ "typeOfGrid") [att "name" t] (m, h) = Ok (set_gtype m t, h).
Proof. intros. unfold element. names. unfold gtype_attr. attrs. reflexivity. Qed.
Lemma el_time : forall m h d t us u sty r st a b, in_long d -> in_long t -> units_of_text us = Ok u -> in_long r -> in_long st ->
  in_long a -> in_long b ->
  element D readD norm zero thousand (s_ "time")
    [att "dataDate" (show_z d); att "dataTime" (show_z t); att "stepUnits" us; att "stepType" sty;
     att "timeRangeIndicator" (show_z r); att "typeOfStatisticalProcessing" (show_z st); att "stepStart" (show_z a);
     att "stepEnd" (show_z b)] (m, h) =
  Ok (set_steps (set_range (set_step (set_time (set_date m d) t) (Some u) sty) (Some r) (Some st)) (Some a) (Some b), h).
Proof.
  intros m h d t us u sty r st a b H1 H2 H3 H4 H5 H6 H7. unfold element. names. unfold time_attr. attrs.
  do 9 (rewrite ?atol_show by assumption; rewrite ?H3; attrs).
  destruct m; reflexivity.
Qed.
Lemma el_grid : forall m h g e, m_edition m = Some e ->
  in_long (g_nx g) /\ (0 <= g_nx g)%Z -> in_long (g_ny g) /\ (0 <= g_ny g)%Z -> in_long (g_scan g) ->
  exact (g_dx g) /\ exact (g_dy g) /\ exact (g_x g) /\ exact (g_y g) /\ exact (g_lon g) /\ exact (g_lat g) /\ norm (g_lon g) = g_lon g ->
  g_res g = resolution_of e ->
  (match grid_event D showD g with Start n a _ => element D readD norm zero thousand n a (m, h) | _ => UB end) = Ok (set_grid m g, h).
Proof.
  intros m h [p d nx ny dx dy x y lon lat r s] e E NX NY SC (X1 & X2 & X3 & X4 & X5 & X6 & X7) R. cbn [g_nx g_ny g_scan g_dx g_dy g_x g_y g_lon g_lat g_res] in *.
  unfold grid_event, element. names. cbn [g_proj g_degree g_nx g_ny g_scan g_dx g_dy g_x g_y g_lon g_lat g_res].
  assert (atol (s_ (if d then "1" else "0")) = Ok (if d then 1 else 0)%Z) as DG by (destruct d; reflexivity).
  assert (negb (to_int (if d then 1 else 0) =? 0)%Z = d) as DN by (destruct d; reflexivity).
  unfold exact in *.
  unfold att. cbn [ofold].
  repeat (unfold grid_attr at 1; unfold gx0; unfold with_grid; cbn [obind x_grid x_lon x_lat]; names;
          cbn [obind x_grid x_lon x_lat];
          try rewrite DG; try rewrite !atol_show by tauto; cbn [obind x_grid x_lon x_lat]).
  rewrite DN, X1, X2, X3, X4, X5, X6, !to_size_id by tauto.
  unfold finish_grid. cbn [x_grid x_lon x_lat andb]. rewrite E. cbn [rd obind]. rewrite X7, <- R. reflexivity.
Qed.

Lemma head_read : forall u p s, u <> [] -> in_long p -> in_long s -> (0 <= s)%Z ->
  ofold (head_attr D) [att "url" u; att "seekPos" (show_z p); att "messagePos" (s_ "0"); att "messageSize" (show_z s)] (blank D zero) =
  Ok (set_head (blank D zero) u (Some p) (Some s)).
Proof.
  intros u p s U P S S0. unfold head_attr. attrs.
  destruct u as [|c u]; [congruence|]. attrs.
  destruct (show_z p) as [|x xs] eqn:Ep; [destruct (show_nonempty _ Ep)|]. rewrite <- Ep, atol_show by assumption. attrs.
  destruct (show_z s) as [|y ys] eqn:Es; [destruct (show_nonempty _ Es)|]. rewrite <- Es, atol_show by assumption. attrs.
  rewrite to_size_id by assumption. reflexivity.
Qed.

Definition flat (evs : list event) : Prop := Forall (fun e => match e with Start _ _ true => True | _ => False end) evs.
Definition shape (evs : list event) (a b : list (str * str)) (f1 f2 : list event) : Prop :=
  evs = [Start (s_ "gribMessage") a false; Start (s_ "parameter") b false] ++ f1 ++ [End (s_ "parameter")] ++ f2 ++
        [End (s_ "gribMessage")] /\ flat f1 /\ flat f2.

Lemma flat_inner : forall f, flat f -> inner f.
Proof. unfold flat, inner. intros f H. eapply Forall_impl; [|exact H]. intros [? ? [|]|?|]; tauto. Qed.
Lemma flat_keys : forall ks, flat (map key_event ks).
Proof. intros ks. unfold flat. rewrite Forall_map. apply Forall_forall. intros; exact I. Qed.

Lemma els_one : forall n a e mh, els [Start n a e] mh = element D readD norm zero thousand n a mh.
Proof. intros. unfold els. cbn [ofold]. destruct (element D readD norm zero thousand n a mh); reflexivity. Qed.
Lemma els_cons : forall n a e r mh mh', element D readD norm zero thousand n a mh = Ok mh' -> els (Start n a e :: r) mh = els r mh'.
Proof. intros. unfold els. cbn [ofold]. rewrite H. reflexivity. Qed.

Theorem C119_message : forall m, complete m ->
  exists evs, eventsOf m = Ok evs /\
    (exists a b f1 f2, shape evs a b f1 f2) /\
    forall r good u ms, readE (evs ++ r) good (mkSt u ms None) = readE r good (mkSt u (ms ++ [m]) None).
Proof.
  intros m C. destruct C as [C1 (pos & C2 & C2') (size & C3 & C3' & C3'') C4 C5 (lt & C6 & C6') (ln & C7 & C7') C8 [C9 C9'] (date & C10 & C10')
    (time & C11 & C11') (u & C12 & C12') (range & C13 & C13') (stat & C14 & C14') (st & C15 & C15') (en & C16 & C16') C17 C18 C19 C20 C21].
  destruct (units_cases u C12') as (us & U1 & U2).
  destruct (m_ids m) as [[ia ib] ic] eqn:IDS. destruct C5 as (I1 & I2 & I3).
  assert (exists e, m_edition m = Some e /\ (e = 1 \/ e = 2)%Z /\ g_res (m_grid m) = resolution_of e) as (e & ED & EC & RES).
  { destruct C4 as [E | E]; rewrite E in *; eexists; (split; [reflexivity|]); (split; [lia | exact C21]). }
  unfold message_events. rewrite C2, C3, ED, C6, C7, C10, C11, C12, C13, C14, C15, C16. cbn [rd obind]. rewrite U1. cbn [obind].
  unfold parameter_events. rewrite IDS.
  set (H0 := [att "url" (m_url m); att "seekPos" (show_z pos); att "messagePos" (s_ "0"); att "messageSize" (show_z size)]).
  set (par := [att "shortName" (m_short m); att "name" (m_name m)]).
  set (tim := [att "dataDate" (show_z date); att "dataTime" (show_z time); att "stepUnits" us;
                          att "stepType" (m_stype m); att "timeRangeIndicator" (show_z range);
                          att "typeOfStatisticalProcessing" (show_z stat); att "stepStart" (show_z st);
                          att "stepEnd" (show_z en)]).
  set (ens := if (0 <? m_total m)%Z
       then [Start (s_ "ensemble") [att "no" (show_z (m_pert m)); att "total" (show_z (m_total m))] true] else []).
  set (f2 := Start (s_ "level") [att "type" (show_z lt); att "no" (show_z ln)] true :: ens ++ map key_event (m_keys m) ++
      [Start (s_ "time") tim true; Start (s_ "typeOfGrid") [att "name" (m_gtype m)] true; grid_event D showD (m_grid m)]).
  assert (flat f2) as F2.
  { unfold f2, flat. constructor; [exact I|]. apply Forall_app. split.
    { unfold ens. destruct (0 <? m_total m)%Z; repeat constructor. }
    apply Forall_app. split; [apply flat_keys|]. repeat constructor. }
  assert (exists f1, (if (e =? 1)%Z
     then Ok [Start (s_ "grib1") [att "indicatorOfParameter" (show_z ia); att "gribTablesVersionNo" (show_z ib);
                att "identificationOfOriginatingGeneratingCentre" (show_z ic)] true]
     else if (e =? 2)%Z
     then Ok [Start (s_ "grib2") [att "parameterNumber" (show_z ia); att "parameterCategory" (show_z ib); att "discipline" (show_z ic)] true]
     else Throw) = Ok f1 /\ flat f1 /\ forall m0 h0, els f1 (m0, h0) = Ok (set_ids m0 e (ia, ib, ic), true)) as (f1 & G1 & G2 & G3).
  { destruct EC as [-> | ->]; cbn [Z.eqb Pos.eqb]; eexists; (split; [reflexivity|]); (split; [repeat constructor|]);
      intros; rewrite els_one; [apply el_ids1 | apply el_ids2]; assumption. }
  rewrite G1. cbn [obind].
  match goal with |- exists evs, Ok ?x = Ok evs /\ _ => assert (x = [Start (s_ "gribMessage") H0 false; Start (s_ "parameter") par false] ++ f1 ++ [End (s_ "parameter")] ++ f2 ++
        [End (s_ "gribMessage")]) as EQ end.
  { unfold f2. cbn [List.app]. rewrite <- !app_assoc. reflexivity. }
  eexists. split; [reflexivity|]. rewrite EQ. split.
  { exists H0, par, f1, f2. split; [reflexivity|]. split; assumption. }
  intros r good u0 ms. rewrite <- !app_assoc. cbn [List.app]. cbn [read_events st_cur]. names.
  unfold H0. rewrite head_read by assumption. cbn [read_events st_cur st_url st_msgs].
  unfold par. rewrite el_param. 
  rewrite read_inner with (mh' := (set_ids (set_names (set_head (blank D zero) (m_url m) (Some pos) (Some size)) (m_name m) (m_short m)) e (ia, ib, ic), true));
    [| apply flat_inner; exact G2 | apply G3].
  cbn [read_events st_cur]. names.
  rewrite read_inner with (mh' := (m, true)); [| apply flat_inner; exact F2 |].
  - cbn [read_events st_cur]. names. cbn [snd negb fst]. destruct (m_url m) eqn:MU; [congruence | reflexivity].
  - unfold f2. erewrite els_cons; [|apply el_level; assumption].
    rewrite els_app.
    match goal with |- obind (els ens (?x, true)) _ = _ => 
      assert (els ens (x, true) = Ok (set_member x (m_pert m) (m_total m), true)) as EN end.
    { unfold ens. destruct C8 as [(T1 & T2 & T3) | (T1 & T2)].
      - destruct (0 <? m_total m)%Z eqn:T; [|lia]. rewrite els_one. apply el_member; assumption.
      - rewrite T1. cbn [Z.ltb Z.compare]. rewrite T2. reflexivity. }
    rewrite EN. cbn [obind]. rewrite els_app.
    rewrite els_keys; [| cbn; exact C9 | exact C9']. cbn [obind].
    erewrite els_cons; [| unfold tim; apply el_time; eassumption].
    erewrite els_cons; [| apply el_gtype].
    unfold grid_event. erewrite els_cons.
    2: { match goal with |- element _ _ _ _ _ _ _ (?x, _) = _ => exact (el_grid x true (m_grid m) e eq_refl C17 C18 C19 C20 RES) end. }
    unfold els. cbn [ofold]. f_equal. f_equal. clear -C2 C3 ED C6 C7 C10 C11 C12 C13 C14 C15 C16 IDS. destruct m. unfold blank. cbn in *. subst. reflexivity.
Qed.

(** ** Texts *)
Lemma parse_kept : forall evs r, parse_pieces (map (fun e => (e, false)) evs ++ r) =
  (evs ++ fst (parse_pieces r), snd (parse_pieces r)).
Proof.
  induction evs as [|e evs IH]; intro r; cbn [map List.app parse_pieces].
  - destruct (parse_pieces r); reflexivity.
  - rewrite IH. destruct e; reflexivity.
Qed.

Definition special (c : ascii) : bool := existsb (Ascii.eqb c) ["<"; "&"; ascii_of_N 34; ascii_of_N 9; ascii_of_N 10; ascii_of_N 13]%char.
Definition plain (s : str) : Prop := Forall (fun c => special c = false) s.

Lemma unescape_loop_plain : forall f s, length s <= f -> plain s -> unescape_loop f s = Some s.
Proof.
  induction f as [|f IH]; intros s L P.
  - destruct s; [reflexivity | cbn in L; lia].
  - destruct s as [|c s]; [reflexivity|]. inversion P as [|? ? P1 P2]; subst. cbn [length] in L.
    cbn [unescape_loop]. unfold special in P1. cbn [existsb] in P1.
    repeat (apply orb_false_elim in P1; let H := fresh "N" in destruct P1 as [H P1]).
    rewrite N, N0, N1, N2, N3, N4. cbn [orb]. rewrite IH by (try lia; assumption). reflexivity.
Qed.
Lemma unescape_plain : forall s, plain s -> unescape s = Some s.
Proof. intros. apply unescape_loop_plain; [lia | assumption]. Qed.

Definition plain_attrs (a : list (str * str)) : Prop := Forall (fun p => plain (snd p)) a.
Definition plain_event (e : event) : Prop := match e with Start _ a _ => plain_attrs a | _ => True end.
Lemma unescape_attrs_plain : forall a, plain_attrs a -> unescape_attrs a = Some a.
Proof.
  induction a as [|[n v] a IH]; intro P; [reflexivity|]. inversion P; subst. cbn [unescape_attrs].
  cbn [snd] in *. rewrite unescape_plain, IH by assumption. reflexivity.
Qed.
Definition rawp (e : event) : piece := (e, match e with Start _ _ _ => true | _ => false end).
Lemma parse_raw : forall evs r, Forall plain_event evs -> parse_pieces (map rawp evs ++ r) =
  (evs ++ fst (parse_pieces r), snd (parse_pieces r)).
Proof.
  induction evs as [|e evs IH]; intros r P; cbn [map List.app parse_pieces].
  - destruct (parse_pieces r); reflexivity.
  - inversion P; subst. unfold rawp at 1. destruct e as [n a em | n |]; cbn [parse_pieces].
    + rewrite unescape_attrs_plain by assumption. cbn [option_map]. rewrite IH by assumption. reflexivity.
    + rewrite IH by assumption. reflexivity.
    + rewrite IH by assumption. reflexivity.
Qed.
Lemma xmlns_plain : unescape (snd xmlns) = Some (snd xmlns).
Proof. vm_compute. reflexivity. Qed.
Definition head_event (url : str) : event := Start (s_ "gribFileIndex") [att "url" url; xmlns] false.
Lemma parse_header : forall url r, plain url -> parse_pieces (header url ++ r) =
  (head_event url :: Other :: fst (parse_pieces r), snd (parse_pieces r)).
Proof.
  intros url r P. unfold header. cbn [List.app parse_pieces]. unfold att, xmlns. cbn [unescape_attrs].
  rewrite unescape_plain by exact P. change (s_ "http://www.met.no/schema/fimex/gribFileIndex") with (snd xmlns).
  rewrite xmlns_plain. cbn [option_map]. destruct (parse_pieces r). reflexivity.
Qed.

Lemma messages_read : forall ms, Forall complete ms ->
  exists pss evs, omapM (message_pieces D showD) ms = Ok pss /\ concat pss = map (fun e => (e, false)) evs /\
    forall r good u acc, readE (evs ++ r) good (mkSt u acc None) = readE r good (mkSt u (acc ++ ms) None).
Proof.
  induction ms as [|m ms IH]; intro C.
  - exists [], []. repeat split. intros. rewrite app_nil_r. reflexivity.
  - inversion C as [|? ? C1 C2]; subst. destruct (IH C2) as (pss & evs & E1 & E2 & E3).
    destruct (C119_message m C1) as (e1 & M1 & _ & M2).
    exists (map (fun e => (e, false)) e1 :: pss), (e1 ++ evs). cbn [omapM]. unfold message_pieces at 1. rewrite M1.
    cbn [obind]. rewrite E1. cbn [obind concat]. rewrite E2, map_app. repeat split.
    intros. rewrite <- app_assoc, M2, E3, <- app_assoc. reflexivity.
Qed.

Theorem C119_index : forall url ms, plain url -> Forall complete ms ->
  exists text, write_index D showD url ms = Ok text /\ open_grbml D readD norm zero thousand (Some (parse text)) = Ok (url, ms).
Proof.
  intros url ms P C. destruct (messages_read ms C) as (pss & evs & E1 & E2 & E3).
  unfold write_index. rewrite E1. cbn [obind]. eexists. split; [reflexivity|].
  change (parse (header url ++ concat pss ++ footer)) with (parse_pieces (header url ++ concat pss ++ footer)).
  rewrite parse_header by exact P. rewrite E2, parse_kept. cbn [fst snd].
  unfold footer. cbn [parse_pieces fst snd]. unfold open_grbml, read_grbml, head_event. cbn [read_events st_cur st_msgs]. names.
  unfold att. cbn [lookup]. names. cbn [read_events st_cur]. rewrite E3. cbn [read_events st_cur]. names.
  reflexivity.
Qed.

(** ** Concatenation *)
Definition plain_message (m : msg) : Prop :=
  plain (m_url m) /\ plain (m_name m) /\ plain (m_short m) /\ plain (m_stype m) /\ plain (m_gtype m) /\ plain (g_proj (m_grid m)) /\
  Forall (fun k => plain (fst k)) (m_keys m) /\
  Forall (fun d => plain (showD d)) [g_x (m_grid m); g_y (m_grid m); g_dx (m_grid m); g_dy (m_grid m); g_lon (m_grid m); g_lat (m_grid m)].

Lemma dec_plain : forall n, plain (dec n).
Proof.
  intro n. destruct (undec_digits (dec n) n (undec_dec n)) as [_ H]. unfold plain. eapply Forall_impl; [|exact H].
  intros c [d I]. destruct (special c) eqn:S0; [|reflexivity]. unfold special in S0.
  apply existsb_exists in S0. destruct S0 as (x & X & E). apply Ascii.eqb_eq in E. subst x. cbn in X.
  repeat (destruct X as [<- | X]; [vm_compute in I; discriminate I|]). contradiction.
Qed.
Lemma show_plain : forall z, plain (show_z z).
Proof. intro z. unfold show_z. destruct (z <? 0)%Z; [constructor; [reflexivity|]|]; apply dec_plain. Qed.
Lemma units_plain : forall u s, units_text u = Ok s -> plain s.
Proof.
  intros u s H. unfold units_text in H. destruct (find _ unit_table) as [p|] eqn:F; [|discriminate]. injection H as <-.
  apply find_some in F. destruct F as [F _]. cbn in F.
  repeat (destruct F as [<- | F]; [repeat (constructor; [reflexivity|]); constructor|]). contradiction.
Qed.

Lemma message_plain : forall m evs, plain_message m -> eventsOf m = Ok evs -> Forall plain_event evs.
Proof.
  intros m evs (P1 & P2 & P3 & P4 & P5 & P6 & P7 & P8) H. unfold message_events in H.
  repeat match type of H with obind (rd ?x) _ = _ => destruct x; [cbn [rd obind] in H | discriminate H] end.
  unfold parameter_events in H. destruct (m_ids m) as [[ia ib] ic].
  assert (forall a r, plain a -> plain_attrs r -> forall n, plain_attrs (att n a :: r)) as CA
    by (intros; constructor; assumption).
  assert (plain_attrs []) as NA by constructor.
  match type of H with obind ?o _ = _ => destruct o as [ps| | |] eqn:PS; try discriminate H end.
  cbn [obind] in H.
  repeat match type of H with obind (rd ?x) _ = _ => destruct x; [cbn [rd obind] in H | discriminate H] end.
  match type of H with obind ?o _ = _ => destruct o as [us| | |] eqn:US; try discriminate H end.
  cbn [obind] in H.
  repeat match type of H with obind (rd ?x) _ = _ => destruct x; [cbn [rd obind] in H | discriminate H] end.
  injection H as <-. apply units_plain in US.
  assert (Forall plain_event ps) as FP.
  { destruct (z1 =? 1)%Z; [injection PS as <-|destruct (z1 =? 2)%Z; [injection PS as <-|discriminate]];
      (constructor; [|constructor]); cbn [plain_event]; repeat (apply CA; [apply show_plain|]); exact NA. }
  inversion P8 as [|? ? G1 P8a]; subst. inversion P8a as [|? ? G2 P8b]; subst. inversion P8b as [|? ? G3 P8c]; subst.
  inversion P8c as [|? ? G4 P8d]; subst. inversion P8d as [|? ? G5 P8e]; subst. inversion P8e as [|? ? G6 _]; subst.
  constructor. { cbn [plain_event]. repeat (apply CA; [first [exact P1 | apply show_plain | repeat constructor]|]). exact NA. }
  constructor. { cbn [plain_event]. repeat (apply CA; [first [exact P2 | exact P3]|]). exact NA. }
  apply Forall_app. split; [exact FP|].
  constructor; [exact I|].
  constructor. { cbn [plain_event]. repeat (apply CA; [apply show_plain|]). exact NA. }
  apply Forall_app. split.
  { destruct (0 <? m_total m)%Z; [|constructor]. constructor; [|constructor]. cbn [plain_event]. repeat (apply CA; [apply show_plain|]). exact NA. }
  apply Forall_app. split.
  { rewrite Forall_map. eapply Forall_impl; [|exact P7]. intros k K. unfold key_event. cbn [plain_event].
    apply CA; [exact K|]. apply CA; [apply show_plain | exact NA]. }
  constructor. { cbn [plain_event]. repeat (apply CA; [first [exact US | exact P4 | apply show_plain]|]). exact NA. }
  constructor. { cbn [plain_event]. repeat (apply CA; [first [exact P5 | apply show_plain]|]). exact NA. }
  constructor. { unfold grid_event. cbn [plain_event].
    repeat (apply CA; [first [exact P6 | assumption | apply show_plain | destruct (g_degree (m_grid m)); repeat constructor]|]). exact NA. }
  constructor; [exact I | constructor].
Qed.

(** fiGrbmlCat copies a message *)
Lemma cat_flat : forall f r out first o os, flat f ->
  cat_events (f ++ r) (mkCat out first (o :: os)) = cat_events r (mkCat (out ++ map rawp f) first (o :: os)).
Proof.
  induction f as [|e f IH]; intros r out first o os F.
  - cbn [map List.app]. rewrite app_nil_r. reflexivity.
  - inversion F as [|? ? F1 F2]; subst. destruct e as [n a [|]|n|]; try contradiction.
    cbn [List.app cat_events c_open c_out c_first]. rewrite IH by exact F2. cbn [map].
    rewrite <- app_assoc. reflexivity.
Qed.
Lemma cat_message : forall evs a b f1 f2 r out first, shape evs a b f1 f2 ->
  cat_events (evs ++ r) (mkCat out first []) = cat_events r (mkCat (out ++ map rawp evs) first []).
Proof.
  intros evs a b f1 f2 r out first (-> & F1 & F2). rewrite <- !app_assoc. cbn [List.app cat_events c_open c_out c_first]. names.
  cbn [List.app cat_events c_open c_out c_first].
  rewrite cat_flat by exact F1. cbn [List.app cat_events c_open c_out c_first].
  rewrite cat_flat by exact F2. cbn [List.app cat_events c_open c_out c_first].
  f_equal. f_equal. cbn [map]. rewrite ?map_app. cbn [map]. rewrite ?map_app. cbn [map List.app]. rewrite ?map_app, <- ?app_assoc. cbn [map List.app]. rewrite <- ?app_assoc. reflexivity.
Qed.

Lemma messages_cat : forall ms, Forall complete ms -> Forall plain_message ms ->
  exists pss evs, omapM (message_pieces D showD) ms = Ok pss /\ concat pss = map (fun e => (e, false)) evs /\
    Forall plain_event evs /\
    (forall r good u acc, readE (evs ++ r) good (mkSt u acc None) = readE r good (mkSt u (acc ++ ms) None)) /\
    forall r out first, cat_events (evs ++ r) (mkCat out first []) = cat_events r (mkCat (out ++ map rawp evs) first []).
Proof.
  induction ms as [|m ms IH]; intros C P.
  - exists [], []. repeat split; try constructor; intros; cbn [map List.app]; rewrite app_nil_r; reflexivity.
  - inversion C as [|? ? C1 C2]; subst. inversion P as [|? ? P1 P2]; subst. destruct (IH C2 P2) as (pss & evs & E1 & E2 & E3 & E4 & E5).
    destruct (C119_message m C1) as (e1 & M1 & (a & b & f1 & f2 & SH) & M2).
    exists (map (fun e => (e, false)) e1 :: pss), (e1 ++ evs). cbn [omapM]. unfold message_pieces at 1. rewrite M1.
    cbn [obind]. rewrite E1. cbn [obind concat]. rewrite E2, map_app. repeat split.
    + apply Forall_app. split; [eapply message_plain; eauto | exact E3].
    + intros. rewrite <- app_assoc, M2, E4, <- app_assoc. reflexivity.
    + intros. rewrite <- app_assoc. erewrite cat_message by exact SH. rewrite E5, map_app, <- app_assoc. reflexivity.
Qed.

(** a file that holds an index *)
Definition holds (f : option document) (url : str) (ms : list msg) : Prop :=
  exists text, write_index D showD url ms = Ok text /\ f = Some (parse text).

Lemma cat_file : forall f url ms out first, holds f url ms -> plain url -> Forall complete ms -> Forall plain_message ms ->
  exists evs, Forall plain_event evs /\
    (forall r good u acc, readE (evs ++ r) good (mkSt u acc None) = readE r good (mkSt u (acc ++ ms) None)) /\
    match f with Some d => cat_events (fst d) (mkCat out first []) | None => UB end =
    Ok (mkCat (out ++ (if first then header url else []) ++ map rawp evs) false []).
Proof.
  intros f url ms out first (text & W & ->) PU C P.
  destruct (messages_cat ms C P) as (pss & evs & E1 & E2 & E3 & E4 & E5).
  exists evs. split; [exact E3|]. split; [exact E4|].
  unfold write_index in W. rewrite E1 in W. cbn [obind] in W. assert (text = header url ++ concat pss ++ footer) as -> by congruence. clear W.
  change (parse (header url ++ concat pss ++ footer)) with (parse_pieces (header url ++ concat pss ++ footer)).
  rewrite parse_header by exact PU. rewrite E2, parse_kept. cbn [fst snd].
  unfold footer. cbn [parse_pieces fst snd]. unfold head_event. cbn [cat_events c_open c_first c_out]. names.
  unfold att. cbn [lookup]. names.
  destruct first; cbn [cat_events c_open c_first c_out]; rewrite E5; cbn [cat_events c_open c_first c_out]; names;
    rewrite <- ?app_assoc; reflexivity.
Qed.

Theorem C119_cat : forall fs u1 ms1 rest,
  fs = (u1, ms1) :: rest ->
  Forall (fun f => plain (fst f) /\ Forall complete (snd f) /\ Forall plain_message (snd f)) fs ->
  forall docs, Forall2 (fun d f => holds d (fst f) (snd f)) docs fs ->
  exists text, cat docs = Ok text /\
    open_grbml D readD norm zero thousand (Some (parse text)) = Ok (u1, concat (map snd fs)).
Proof.
  intros fs u1 ms1 rest -> F docs H2. inversion H2 as [|d ? ds ? Hd Hds]; subst. clear H2.
  inversion F as [|? ? (F1 & F2 & F3) FR]; subst. cbn [fst snd] in *.
  assert (forall ds rest, Forall (fun f => plain (fst f) /\ Forall complete (snd f) /\ Forall plain_message (snd f)) rest ->
    Forall2 (fun d f => holds d (fst f) (snd f)) ds rest -> forall out,
    exists evs, Forall plain_event evs /\
    (forall r good u acc, readE (evs ++ r) good (mkSt u acc None) = readE r good (mkSt u (acc ++ concat (map snd rest)) None)) /\
    ofold (fun s f => match f with Some d => cat_events (fst d) s | None => Ok s end) ds (mkCat out false []) =
      Ok (mkCat (out ++ map rawp evs) false [])) as AUX.
  { clear. induction ds as [|d ds IH]; intros rest F H2 out.
    - inversion H2; subst. exists []. split; [constructor|]. split; [intros; cbn [map concat List.app]; rewrite app_nil_r; reflexivity|].
      cbn [map ofold]. rewrite app_nil_r. reflexivity.
    - inversion H2 as [|? f ? fs' Hd Hds]; subst. inversion F as [|? ? (F1 & F2 & F3) FR]; subst.
      destruct (cat_file d (fst f) (snd f) out false Hd F1 F2 F3) as (e1 & A1 & A2 & A3).
      destruct (IH _ FR Hds (out ++ map rawp e1)) as (e2 & B1 & B2 & B3).
      exists (e1 ++ e2). split; [apply Forall_app; split; assumption|]. split.
      + intros. rewrite <- app_assoc, A2, B2. cbn [map concat]. rewrite <- app_assoc. reflexivity.
      + cbn [ofold]. destruct d as [d|]; [|discriminate A3]. rewrite A3. cbn [obind List.app]. rewrite B3.
        rewrite map_app, <- app_assoc. reflexivity. }
  destruct (cat_file d u1 ms1 [] true Hd F1 F2 F3) as (e1 & A1 & A2 & A3).
  destruct (AUX _ _ FR Hds (header u1 ++ map rawp e1)) as (e2 & B1 & B2 & B3).
  unfold cat. cbn [ofold]. destruct d as [d|]; [|discriminate A3]. rewrite A3. cbn [obind List.app].
  rewrite B3. cbn [obind c_out c_first]. eexists. split; [reflexivity|].
  rewrite <- app_assoc. rewrite <- app_assoc.
  match goal with |- context [parse (header u1 ++ ?x)] => change (parse (header u1 ++ x)) with (parse_pieces (header u1 ++ x)) end.
  rewrite parse_header by exact F1. rewrite parse_raw by exact A1. rewrite parse_raw by exact B1. cbn [fst snd].
  unfold footer. cbn [parse_pieces fst snd]. unfold open_grbml, read_grbml, head_event. cbn [read_events st_cur st_msgs]. names.
  unfold att. cbn [lookup]. names. cbn [read_events st_cur]. rewrite A2, B2. cbn [read_events st_cur]. names. reflexivity.
Qed.

(** ** Appending *)
Lemma holds_read : forall f url ms, holds f url ms -> plain url -> Forall complete ms ->
  read_grbml D readD norm zero thousand f = Ok (url, ms, true).
Proof.
  intros f url ms (text & W & ->) P C. destruct (C119_index url ms P C) as (text' & W' & O).
  assert (text' = text) by congruence. subst text'. unfold open_grbml in O.
  destruct (read_grbml D readD norm zero thousand (Some (parse text))) as [[[u l] ok]| | |]; try discriminate O.
  cbn [obind] in O. destruct ok; [|discriminate O]. congruence.
Qed.

Theorem C119_append : forall f url ms input new, holds f url ms -> plain url -> Forall complete ms ->
  append_index D readD norm zero thousand f input (Ok new) = Ok (filter (fun m => negb (str_eqb (m_url m) input)) ms ++ new) /\
  (forall f' url', Forall (fun m => m_url m = input) new -> Forall complete new ->
     holds f' url' (filter (fun m => negb (str_eqb (m_url m) input)) ms ++ new) -> plain url' ->
     append_index D readD norm zero thousand f' input (Ok new) = Ok (filter (fun m => negb (str_eqb (m_url m) input)) ms ++ new)).
Proof.
  intros f url ms input new H P C. split.
  - unfold append_index. rewrite (holds_read f url ms H P C). reflexivity.
  - intros f' url' N CN H' P'. unfold append_index.
    rewrite (holds_read f' url' _ H' P').
    + cbn [obind]. f_equal. f_equal. rewrite filter_app.
      replace (filter (fun m : msg => negb (str_eqb (m_url m) input)) new) with (@nil msg).
      * rewrite app_nil_r. clear. induction ms as [|m ms IH]; [reflexivity|]. cbn [filter].
        destruct (negb (str_eqb (m_url m) input)) eqn:E; [cbn [filter]; rewrite E, IH; reflexivity | exact IH].
      * symmetry. clear -N. induction N as [|m l U N IH]; [reflexivity|]. cbn [filter].
        replace (str_eqb (m_url m) input) with true by (symmetry; apply str_eqb_eq; exact U). exact IH.
    + apply Forall_app. split; [|exact CN]. apply Forall_forall. intros m I. apply filter_In in I.
      rewrite Forall_forall in C. apply C. tauto.
Qed.

(** Finding: an index which is damaged, or missing, is not noticed when it is appended to; the program writes the new
    index over it, and the messages after the damage are lost. *)
Theorem C119_append_damaged_refuted : forall url ms input new, Forall complete ms ->
  exists evs, let f := Some (head_event url :: evs, false) in
    open_grbml D readD norm zero thousand f = Throw /\
    append_index D readD norm zero thousand f input (Ok new) = Ok (filter (fun m => negb (str_eqb (m_url m) input)) ms ++ new) /\
    open_grbml D readD norm zero thousand None = Throw /\ append_index D readD norm zero thousand None input (Ok new) = Ok new.
Proof.
  intros url ms input new C. destruct (messages_read ms C) as (pss & evs & _ & _ & E). exists evs.
  assert (read_grbml D readD norm zero thousand (Some (head_event url :: evs, false)) = Ok (url, ms, false)) as R.
  { unfold read_grbml, head_event. cbn [read_events st_cur st_msgs]. names. unfold att. cbn [lookup]. names.
    rewrite <- (app_nil_r evs), E. reflexivity. }
  cbv zeta. unfold open_grbml, append_index. rewrite R. repeat split.
Qed.

(** a document with an error before the end of the index is refused *)
Theorem C119_damaged : forall evs, (forall n, In (End n) evs -> is n "gribFileIndex" = false) ->
  forall r, open_grbml D readD norm zero thousand (Some (evs, false)) <> Ok r.
Proof.
  assert (forall evs s r, (forall n, In (End n) evs -> is n "gribFileIndex" = false) ->
    readE evs false s = Ok r -> snd r = false) as A.
  { induction evs as [|e evs IH]; intros s r N H; cbn [read_events] in H.
    - injection H as <-. cbn. destruct (st_cur s); reflexivity.
    - assert (forall n, In (End n) evs -> is n "gribFileIndex" = false) as N' by (intros n X; apply N; right; exact X).
      destruct (st_cur s) as [mh|]; destruct e as [n a em | n |].
      + destruct (element D readD norm zero thousand n a mh); try discriminate H; [eapply IH; eauto | injection H as <-; reflexivity].
      + destruct (is n "gribMessage"); [|eapply IH; eauto]. destruct (negb (snd mh)); [injection H as <-; reflexivity|].
        destruct (m_url (fst mh)); [injection H as <-; reflexivity | eapply IH; eauto].
      + eapply IH; eauto.
      + destruct (is n "gribFileIndex"); [destruct (lookup "url" a); [eapply IH; eauto | discriminate H]|].
        destruct (is n "gribMessage"); [|eapply IH; eauto].
        destruct (ofold (head_attr D) a (blank D zero)); try discriminate H; [eapply IH; eauto | injection H as <-; reflexivity].
      + rewrite (N n (or_introl eq_refl)) in H. eapply IH; eauto.
      + eapply IH; eauto. }
  intros evs N r H. unfold open_grbml, read_grbml in H.
  destruct (readE evs false (mkSt [] [] None)) as [[[u l] ok]| | |] eqn:E; try discriminate H.
  apply A in E; [|exact N]. cbn in E. subst ok. discriminate H.
Qed.

(** a document that ends inside of a message is refused, whatever comes before and whatever the message holds *)
Theorem C119_truncated : forall before attrs e after good,
  (forall n, In (End n) before -> is n "gribFileIndex" = false) ->
  (forall n, In (End n) after -> is n "gribMessage" = false) ->
  forall r, open_grbml D readD norm zero thousand (Some (before ++ Start (s_ "gribMessage") attrs e :: after, good)) <> Ok r.
Proof.
  assert (forall evs good s mh r, st_cur s = Some mh -> (forall n, In (End n) evs -> is n "gribMessage" = false) ->
    readE evs good s = Ok r -> snd r = false) as A.
  { induction evs as [|e evs IH]; intros good s mh r S N H; cbn [read_events] in H; rewrite S in H.
    - injection H as <-. reflexivity.
    - assert (forall n, In (End n) evs -> is n "gribMessage" = false) as N' by (intros n X; apply N; right; exact X).
      destruct e as [n a em | n |].
      + destruct (element D readD norm zero thousand n a mh) as [mh'| | |]; try discriminate H;
          [refine (IH good _ mh' r _ N' H); reflexivity | injection H as <-; reflexivity].
      + rewrite (N n (or_introl eq_refl)) in H. eapply IH; eauto.
      + eapply IH; eauto. }
  assert (forall before attrs e after good s r, (forall n, In (End n) before -> is n "gribFileIndex" = false) ->
    (forall n, In (End n) after -> is n "gribMessage" = false) ->
    readE (before ++ Start (s_ "gribMessage") attrs e :: after) good s = Ok r -> snd r = false) as B.
  { induction before as [|ev evs IH]; intros attrs e after good s r N N2 H; cbn [List.app read_events] in H.
    - destruct (st_cur s) as [mh|] eqn:SC.
      + destruct (element D readD norm zero thousand (s_ "gribMessage") attrs mh) as [mh'| | |]; try discriminate H;
          [refine (A after good _ mh' r _ N2 H); reflexivity | injection H as <-; reflexivity].
      + change (is (s_ "gribMessage") "gribFileIndex") with false in H. change (is (s_ "gribMessage") "gribMessage") with true in H.
        cbv iota in H. destruct (ofold (head_attr D) attrs (blank D zero)) as [m| | |]; try discriminate H;
          [refine (A after good _ (m, false) r _ N2 H); reflexivity | injection H as <-; reflexivity].
    - assert (forall n, In (End n) evs -> is n "gribFileIndex" = false) as N' by (intros n X; apply N; right; exact X).
      destruct (st_cur s) as [mh|]; destruct ev as [n a em | n |].
      + destruct (element D readD norm zero thousand n a mh); try discriminate H; [eapply IH; eauto | injection H as <-; reflexivity].
      + destruct (is n "gribMessage"); [|eapply IH; eauto]. destruct (negb (snd mh)); [injection H as <-; reflexivity|].
        destruct (m_url (fst mh)); [injection H as <-; reflexivity | eapply IH; eauto].
      + eapply IH; eauto.
      + destruct (is n "gribFileIndex"); [destruct (lookup "url" a); [eapply IH; eauto | discriminate H]|].
        destruct (is n "gribMessage"); [|eapply IH; eauto].
        destruct (ofold (head_attr D) a (blank D zero)); try discriminate H; [eapply IH; eauto | injection H as <-; reflexivity].
      + rewrite (N n (or_introl eq_refl)) in H. eapply IH; eauto.
      + eapply IH; eauto. }
  intros before attrs e after good N N2 r H. unfold open_grbml, read_grbml in H.
  destruct (readE (before ++ Start (s_ "gribMessage") attrs e :: after) good (mkSt [] [] None)) as [[[u l] ok]| | |] eqn:E; try discriminate H.
  apply B in E; [|exact N|exact N2]. cbn in E. subst ok. discriminate H.
Qed.

(** what follows the end of the index is not read: the index is good even if the rest is damaged; without the end, the
    text itself has to be good *)
Theorem C119_tail : forall url rest good,
  open_grbml D readD norm zero thousand
    (Some (Start (s_ "gribFileIndex") [att "url" url] false :: End (s_ "gribFileIndex") :: rest, good)) = Ok (url, []) /\
  open_grbml D readD norm zero thousand (Some ([Start (s_ "gribFileIndex") [att "url" url] false], true)) = Ok (url, []) /\
  open_grbml D readD norm zero thousand (Some (parse [])) = Throw.
Proof. intros. repeat split. Qed.

(** the texts of indexes end with the end of the index, exactly once *)
Theorem C119_closed : forall url ms text, write_index D showD url ms = Ok text ->
  exists t, text = t ++ [(End (s_ "gribFileIndex"), false)].
Proof.
  intros url ms text W. unfold write_index in W. destruct (omapM (message_pieces D showD) ms) as [ps| | |]; try discriminate W.
  cbn [obind] in W. exists (header url ++ concat ps). assert (text = header url ++ concat ps ++ footer) as -> by congruence.
  rewrite <- app_assoc. reflexivity.
Qed.

(** a local key given again has its last value; the others keep theirs *)
Theorem C119_keys : forall l k v,
  (forall k', find (fun e => str_eqb (fst e) k') (put l k v) =
    if str_eqb k k' then Some (k, v) else find (fun e => str_eqb (fst e) k') l) /\
  (NoDup (map fst l) -> NoDup (map fst (put l k v))).
Proof.
  intros l k v. split.
  - intro k'. induction l as [|(k0, v0) l IH]; cbn [put find fst].
    + destruct (str_eqb k k'); reflexivity.
    + destruct (str_eqb k0 k) eqn:E; cbn [find fst].
      * apply str_eqb_eq in E. subst k0. destruct (str_eqb k k'); reflexivity.
      * destruct (str_eqb k0 k') eqn:E2; [|exact IH].
        destruct (str_eqb k k') eqn:E3; [|reflexivity].
        apply str_eqb_eq in E2, E3. subst. exfalso. assert (str_eqb k' k' = true) by (apply str_eqb_eq; reflexivity). congruence.
  - induction l as [|(k0, v0) l IH]; cbn [put map fst]; intro ND.
    + constructor; [intros [] | constructor].
    + destruct (str_eqb k0 k) eqn:E; cbn [map fst]; [exact ND|].
      inversion ND as [|? ? N1 N2]; subst. constructor; [|apply IH; exact N2].
      intro I. apply N1. clear - I E. induction l as [|(k1, v1) l IH]; cbn [put map fst] in *.
      * destruct I as [<-|[]]. assert (str_eqb k k = true) by (apply str_eqb_eq; reflexivity). congruence.
      * destruct (str_eqb k1 k); cbn [map fst] in I; destruct I as [I|I]; solve [left; exact I | right; exact I | right; exact (IH I)].
Qed.

(** a grid without its first longitude or latitude has no resolution, in every edition *)
Theorem C119_no_corner : forall m x, x_lon x && x_lat x = false ->
  exists m', finish_grid D norm m x = Ok m' /\ g_res (m_grid m') = NoRes /\ m_url m' = m_url m.
Proof.
  intros m [g xl yl] H. unfold finish_grid. cbn [x_grid x_lon x_lat] in *. rewrite H. destruct g. cbn [obind].
  eexists. split; [reflexivity|]. destruct m. split; reflexivity.
Qed.

(** sizes are stored without a sign *)
Theorem C119_sizes : forall x v z, atol v = Ok z -> exists y,
  grid_attr D readD x (s_ "sizeX", v) = Ok y /\ g_nx (x_grid y) = (z mod 2 ^ 64)%Z /\ g_ny (x_grid y) = g_ny (x_grid x).
Proof.
  intros [[]] v z A. unfold grid_attr. cbn [x_grid]. names. rewrite A. cbn [obind]. eexists. split; [reflexivity|].
  split; reflexivity.
Qed.

(** a message without the text of its url, position or size ends the reading, and the index is refused *)
Theorem C119_empty_head : forall k attrs e r good u ms, In k ["url"; "seekPos"; "messageSize"]%string ->
  readE (Start (s_ "gribMessage") ((s_ k, []) :: attrs) e :: r) good (mkSt u ms None) = Ok (u, ms, false).
Proof. intros k attrs e r good u ms [<-|[<-|[<-|[]]]]; reflexivity. Qed.

(** ** Indexing a file *)
Variable decode : list N -> nat -> nat -> decoded D.

(** the bytes of one message: 16 bytes or more, the edition in byte 7, and the length in the bytes 4-6 of edition 1
    and 8-15 of edition 2 *)
Definition well_formed (b : list N) : Prop :=
  16 <= length b /\
  (nth 7 b 0%N = 1%N /\ N.of_nat (length b) = (nth 4 b 0 * 2 ^ 16 + nth 5 b 0 * 2 ^ 8 + nth 6 b 0)%N \/
   nth 7 b 0%N = 2%N /\ N.of_nat (length b) =
     (nth 8 b 0 * 2 ^ 56 + nth 9 b 0 * 2 ^ 48 + nth 10 b 0 * 2 ^ 40 + nth 11 b 0 * 2 ^ 32 +
      nth 12 b 0 * 2 ^ 24 + nth 13 b 0 * 2 ^ 16 + nth 14 b 0 * 2 ^ 8 + nth 15 b 0)%N).

(** the messages one after the other: those the decoder refuses are left out *)
Fixpoint expected (off : nat) (chunks : list (list N)) : option (list msg) :=
  match chunks with
  | [] => Some []
  | c :: r =>
      match decode c off (length c), expected (off + length c) r with
      | Good m, Some l => Some (m :: l)
      | Ignored, Some l => Some l
      | _, _ => None
      end
  end.

Lemma size_wf : forall pre b post, well_formed b -> message_size (pre ++ b ++ post) (length pre) = Ok (length b).
Proof.
  intros pre b post (L & H). unfold message_size.
  rewrite skipn_app, skipn_all, Nat.sub_diag. cbn [skipn List.app].
  do 16 (destruct b as [|? b]; [cbn in L; lia|]).
  cbn [List.app firstn length Nat.ltb Nat.leb nth skipn] in *.
  change (16 <? 16) with false. cbv iota.
  destruct H as [(E & H) | (E & H)]; rewrite E; cbn [N.eqb Pos.eqb big_endian]; f_equal; apply Nat2N.inj; rewrite N2Nat.id, H; lia.
Qed.

Theorem C119_scan : forall chunks, Forall well_formed chunks ->
  index_file D decode (concat chunks) = match expected 0 chunks with Some l => Ok l | None => Throw end.
Proof.
  intros chunks W. unfold index_file.
  assert (forall chunks pre fuel, Forall well_formed chunks -> length (concat chunks) < fuel ->
    match expected (length pre) chunks with
    | Some l => index_loop D fuel decode (pre ++ concat chunks) (length pre) = Ok l
    | None => index_loop D fuel decode (pre ++ concat chunks) (length pre) = Throw
    end) as A.
  { clear W chunks. induction chunks as [|c chunks IH]; intros pre fuel W L.
    - cbn [expected]. destruct fuel as [|f]; [cbn in L; lia|]. cbn [index_loop concat]. rewrite app_nil_r, Nat.leb_refl. reflexivity.
    - inversion W as [|? ? W1 W2]; subst. cbn [expected concat] in *. rewrite app_length in L.
      assert (16 <= length c) as LC by apply W1.
      destruct fuel as [|f]; [lia|]. cbn [index_loop].
      assert (length (pre ++ c ++ concat chunks) = length pre + length c + length (concat chunks)) as LL
        by (rewrite !app_length; lia).
      replace (length (pre ++ c ++ concat chunks) <=? length pre) with false by (symmetry; apply Nat.leb_gt; lia).
      rewrite (size_wf pre c (concat chunks) W1). cbn [obind].
      replace (length (pre ++ c ++ concat chunks) <? length pre + length c) with false by (symmetry; apply Nat.ltb_ge; lia).
      rewrite skipn_app, skipn_all, Nat.sub_diag. cbn [skipn List.app].
      rewrite firstn_app, firstn_all, Nat.sub_diag, firstn_O, app_nil_r.
      specialize (IH (pre ++ c) f W2 ltac:(lia)). rewrite app_length, <- app_assoc in IH.
      destruct (decode c (length pre) (length c)) as [m| |].
      + destruct (expected (length pre + length c) chunks); rewrite IH; reflexivity.
      + destruct (expected (length pre + length c) chunks); exact IH.
      + reflexivity. }
  specialize (A chunks [] (S (length (concat chunks))) W ltac:(lia)). cbn [length List.app] in A.
  destruct (expected 0 chunks); exact A.
Qed.

(** the scan ends, unless a message of length 0 is accepted by the decoder; the length of a message which is neither
    of edition 1 nor of edition 2 is undefined *)
Theorem C119_scan_ends : (forall off, decode [] off 0 = Fatal) -> forall file, index_file D decode file <> Hang.
Proof.
  intros Z file. unfold index_file.
  assert (forall fuel off, length file < fuel + off -> 0 < fuel -> index_loop D fuel decode file off <> Hang) as A.
  { induction fuel as [|f IH]; intros off L P; [lia|]. cbn [index_loop].
    destruct (length file <=? off) eqn:E; [discriminate|]. apply Nat.leb_gt in E.
    unfold message_size at 1. destruct (length (firstn 16 (skipn off file)) <? 16); [discriminate|].
    match goal with |- obind ?o _ <> _ => assert (o <> Hang) as NH; [|destruct o as [n| | |]; try discriminate; try congruence] end.
    { destruct (_ =? 1)%N; [discriminate|]. destruct (_ =? 2)%N; discriminate. }
    cbn [obind]. destruct (length file <? off + n) eqn:E2; [discriminate|].
    destruct n as [|n].
    - cbn [firstn]. rewrite Z. discriminate.
    - destruct (decode _ off (S n)) as [m| |]; [|apply IH; lia|discriminate].
      specialize (IH (off + S n) ltac:(lia)). destruct f as [|f].
      + apply Nat.ltb_ge in E2. lia.
      + specialize (IH ltac:(lia)). destruct (index_loop D (S f) decode file (off + S n)); cbn [obind]; congruence. }
  apply A; lia.
Qed.
(** Finding: the length of such a message is computed from variables without a value. *)
Theorem C119_edition_refuted : forall file, 16 <= length file -> nth 7 file 0%N <> 1%N -> nth 7 file 0%N <> 2%N ->
  index_file D decode file = UB.
Proof.
  intros file L N1 N2. unfold index_file. cbn [index_loop].
  replace (length file <=? 0) with false by (symmetry; apply Nat.leb_gt; lia).
  unfold message_size. cbn [skipn].
  replace (length (firstn 16 file) <? 16) with false by (symmetry; rewrite firstn_length; apply Nat.ltb_ge; lia).
  do 16 (destruct file as [|? file]; [cbn in L; lia|]). cbn [firstn nth] in *.
  apply N.eqb_neq in N1, N2. rewrite N1, N2. reflexivity.
Qed.

End Doubles.

(** ** The digits of a number *)
(** a number from 0.1 to 1 is shown by the 16 digits of the nearest multiple of 10^-16 *)
Definition shown16 (x : Q) (n : Z) : Prop := (Qabs.Qabs (x * inject_Z (10 ^ 16) - inject_Z n) < 1 # 2)%Q.
(** Finding: 16 digits do not tell two neighbouring doubles apart: the start or the step of a grid may change when the
    index is written and read. *)
Theorem C119_digits_refuted : exists m : Z, (2 ^ 52 <= m /\ m + 1 < 2 ^ 53)%Z /\
  exists n, shown16 (m # 2 ^ 54) n /\ shown16 (m + 1 # 2 ^ 54) n.
Proof.
  exists 5404319552844595%Z. split; [lia|]. exists 3000000000000000%Z. split; reflexivity.
Qed.

(** ** Options of fiIndexGribs *)
Definition runs (o : options) : Prop := o_none o = false /\ o_help o = false /\ o_version o = false.

Theorem C119_options : forall o, runs o ->
  (forall i a, fi_index o = Append i a <->
     o_append o = Some a /\ o_output o = None /\ o_inputs o = [i] /\ (o_otype o = None \/ o_otype o = Some (s_ "grbml"))) /\
  (forall is f, fi_index o = CreateGrbml is f <->
     o_append o = None /\ o_inputs o = is /\ is <> [] /\
     (forall t, o_itype o = Some t -> isGribType t = false) /\
     (o_output o = None /\ f = hd [] is ++ s_ ".grbml" \/
      o_output o = Some f /\ (o_otype o = Some (s_ "grbml") \/ o_otype o = None /\ finishes f "grbml" = true))) /\
  (forall f, o_append o = None -> o_output o = Some f -> o_otype o = Some (s_ "gribfp") -> fi_index o = Exit 1).
Proof.
  intros o (R1 & R2 & R3). unfold fi_index. rewrite R1, R2, R3. cbn [orb].
  assert (forall t s, is t s = true <-> t = s_ s) as IS by (intros; apply str_eqb_eq).
  split; [|split].
  - intros i a. destruct (o_append o) as [a'|]; destruct (o_output o) as [f|].
    + split; [discriminate | intros (_ & H & _); discriminate].
    + destruct (o_otype o) as [t|]; [destruct (is t "grbml") eqn:T; cbn [negb]|].
      * apply IS in T. subst t. destruct (o_inputs o) as [|x [|y l]]; split; try discriminate; try (intros (_ & _ & H & _); discriminate).
        -- intros H. injection H as -> ->. repeat split; auto.
        -- intros (H & _ & H' & _). congruence.
      * split; [discriminate|]. intros (_ & _ & _ & [H | H]); [discriminate|].
        injection H as ->. vm_compute in T. discriminate T.
      * destruct (o_inputs o) as [|x [|y l]]; split; try discriminate; try (intros (_ & _ & H & _); discriminate).
        -- intros H. injection H as -> ->. repeat split; auto.
        -- intros (H & _ & H' & _). congruence.
    + split; [|intros (H & _); discriminate]. destruct (o_inputs o); [discriminate|].
      destruct (is _ "grbml"); [destruct (match o_itype o with Some t => isGribType t | None => false end); discriminate|].
      destruct (is _ "grbfp"); [|discriminate]. destruct (_ && _); [discriminate|]. destruct (match o_itype o with Some t => _ | None => true end); discriminate.
    + split; [|intros (H & _); discriminate]. destruct (o_inputs o); [discriminate|].
      destruct (is _ "grbml"); [destruct (match o_itype o with Some t => isGribType t | None => false end); discriminate|].
      destruct (is _ "grbfp"); [|discriminate]. destruct (_ && _); [discriminate|]. destruct (match o_itype o with Some t => _ | None => true end); discriminate.
  - intros is0 f. destruct (o_append o) as [a'|].
    { split; [|intros (H & _); discriminate]. destruct (o_output o); [discriminate|].
      destruct (match o_otype o with Some t => _ | None => false end); [discriminate|].
      destruct (o_inputs o) as [|x [|y l]]; discriminate. }
    destruct (o_inputs o) as [|x l].
    { split; [discriminate | intros (_ & <- & H & _); congruence]. }
    assert (forall g ty, is ty "grbml" = true ->
      ((if is ty "grbml" then if match o_itype o with Some t => isGribType t | None => false end then Exit 1 else CreateGrbml (x :: l) g
        else if is ty "grbfp" then
          if (length (x :: l) =? 1) && (match o_itype o with Some t => is t "grbml" | None => false end || finishes x "grbml")
          then CreateFpFromGrbml x g
          else if match o_itype o with Some t => isGribType t | None => true end then CreateFp (x :: l) g else Exit 1
        else Exit 1) = CreateGrbml is0 f <->
       (forall t, o_itype o = Some t -> isGribType t = false) /\ is0 = x :: l /\ f = g)) as Y.
    { intros g ty T. rewrite T. destruct (o_itype o) as [t|].
      - destruct (isGribType t) eqn:GT.
        + split; [discriminate|]. intros (H & _). specialize (H t eq_refl). congruence.
        + split; [intro H; injection H as <- <-; repeat split; intros ? H; injection H as <-; exact GT | intros (_ & -> & ->); reflexivity].
      - split; [intro H; injection H as <- <-; repeat split; intros ? H; discriminate H | intros (_ & -> & ->); reflexivity]. }
    assert (forall g ty, is ty "grbml" = false ->
      (if is ty "grbml" then if match o_itype o with Some t => isGribType t | None => false end then Exit 1 else CreateGrbml (x :: l) g
        else if is ty "grbfp" then
          if (length (x :: l) =? 1) && (match o_itype o with Some t => is t "grbml" | None => false end || finishes x "grbml")
          then CreateFpFromGrbml x g
          else if match o_itype o with Some t => isGribType t | None => true end then CreateFp (x :: l) g else Exit 1
        else Exit 1) <> CreateGrbml is0 f) as X.
    { intros g ty T. rewrite T. destruct (is ty "grbfp"); [|discriminate]. destruct (_ && _); [discriminate|].
      destruct (match o_itype o with Some t => _ | None => true end); discriminate. }
    destruct (o_output o) as [g|].
    + destruct (o_otype o) as [t|].
      * assert (is t "grbml" = true \/ is t "grbml" = false) as [T | T] by (destruct (is t "grbml"); auto).
        -- pose proof T as T'. apply IS in T'. rewrite (Y g t T). split.
           ++ intros (H & -> & ->). repeat split; auto; try discriminate. right. split; [reflexivity|]. left. congruence.
           ++ intros (_ & H & _ & HG & [[HH _] | [HH _]]); [discriminate|]. split; [exact HG | split; congruence].
        -- split; [intro H; exfalso; revert H; apply X; exact T|].
           intros (_ & _ & _ & _ & [[HH _] | [_ [HH | [HH _]]]]); try discriminate. injection HH as ->. vm_compute in T. discriminate T.
      * destruct (finishes g "grbml") eqn:FG.
        -- rewrite (Y g (s_ "grbml") eq_refl). split.
           ++ intros (H & -> & ->). repeat split; auto; try discriminate.
           ++ intros (_ & H & _ & HG & [[HH _] | [HH _]]); [discriminate|]. split; [exact HG | split; congruence].
        -- split.
           ++ intro H. exfalso. revert H. destruct (finishes g "grbfp"); apply X; reflexivity.
           ++ intros (_ & _ & _ & _ & [[HH _] | [HH [H | [_ H]]]]); try discriminate. injection HH as ->. congruence.
    + rewrite (Y (x ++ s_ ".grbml") (s_ "grbml") eq_refl). split.
      * intros (H & -> & ->). repeat split; auto; try discriminate.
      * intros (_ & <- & _ & HG & [[_ HH] | [HH _]]); [|discriminate]. cbn [hd] in HH. repeat split; auto.
  - intros f HA HO HT. rewrite HA, HO, HT. destruct (o_inputs o); [reflexivity|]. reflexivity.
Qed.

(** Finding: --input.type=grib is refused for an index of the type grbml with the words that only GRIB input is
    supported, while --input.type=grbml is accepted and the file is read as GRIB messages; without a name of the
    output, the type of the output is ignored. *)
Theorem C119_input_type_refuted : forall o i is, runs o -> o_append o = None -> o_output o = None -> o_inputs o = i :: is ->
  (forall t, o_itype o = Some t -> isGribType t = true -> fi_index o = Exit 1) /\
  (o_itype o = Some (s_ "grbml") -> fi_index o = CreateGrbml (i :: is) (i ++ s_ ".grbml")).
Proof.
  intros o i is0 (R1 & R2 & R3) A O I. unfold fi_index. rewrite R1, R2, R3, A, O, I. split.
  - intros t T G. rewrite T. change (is (s_ "grbml") "grbml") with true. cbv iota. rewrite G. reflexivity.
  - intros T. rewrite T. reflexivity.
Qed.

(** the address of an index has a scheme *)
Theorem C119_scheme : forall u, begins "http://" (ensure_scheme u) || begins "https://" (ensure_scheme u) || begins "file:" (ensure_scheme u) = true.
Proof.
  intro u. unfold ensure_scheme.
  destruct (begins "http://" u) eqn:H1; [cbn [orb]; rewrite H1; reflexivity|].
  destruct (begins "https://" u) eqn:H2; [cbn [orb]; rewrite H2; apply orb_true_iff; left; apply orb_true_r|].
  destruct (begins "file://" u) eqn:H3; cbn [orb].
  - apply orb_true_iff. right. unfold begins in *. apply str_eqb_eq in H3. apply str_eqb_eq.
    cbn [String.length] in *. change 5 with (Nat.min 5 7). rewrite <- firstn_firstn, H3. reflexivity.
  - replace (begins "file:" (s_ "file:" ++ u)) with true; [apply orb_true_r|]. reflexivity.
Qed.

(** a path without a scheme becomes the address of that file *)
Theorem C119_scheme_file : forall u,
  begins "http://" u = false -> begins "https://" u = false -> begins "file://" u = false -> ensure_scheme u = s_ "file:" ++ u.
Proof. intros u H1 H2 H3. unfold ensure_scheme. rewrite H1, H2, H3. reflexivity. Qed.

Theorem C119_finishes : forall s e, finishes s e = true <-> exists t, s = t ++ s_ e.
Proof.
  intros s e. unfold finishes. rewrite andb_true_iff, Nat.leb_le. split.
  - intros (L & E). apply str_eqb_eq in E. exists (firstn (length s - String.length e) s). rewrite <- E. symmetry. apply firstn_skipn.
  - intros (t & ->). assert (length (s_ e) = String.length e) as LE by (clear; induction e as [|a e IH]; [reflexivity | cbn [String.length]; rewrite <- IH; reflexivity]).
    rewrite app_length, LE. split; [lia|]. apply str_eqb_eq. replace (length t + String.length e - String.length e) with (length t) by lia.
    rewrite skipn_app, skipn_all, Nat.sub_diag. reflexivity.
Qed.

(** fiGrbmlCat writes nothing if no file can be opened or none holds an index *)
Theorem C119_cat_nothing : forall n, cat (repeat None n) = Ok [] /\ cat [Some ([], true)] = Ok [].
Proof.
  intro n. split; [|reflexivity]. induction n as [|n IH]; [reflexivity|]. rewrite <- IH. reflexivity.
Qed.

(** ** Examples *)
Definition readZ (s : str) : Z := match atol s with Ok z => z | _ => 0%Z end.
Definition ex_grid : grid Z := (mkGrid (s_ "+proj=stere") true 3 2 1 (-1) 10 60 10 60 Res3 64)%Z.
Definition ex_message (url : string) : message Z :=
  (mkMsg (s_ url) (Some 0) (Some 178) (s_ "Temperature") (s_ "t") (Some 1) (11, 1, 88) (Some 105) (Some 2) 3 5
    [(s_ "localKey", 7); (s_ "other", -1)] (Some 20260101) (Some 1200) (Some 1) (s_ "instant") (Some 0) (Some 255)
    (Some 0) (Some 6) (s_ "regular_ll") ex_grid)%Z.
Lemma ex_complete : forall u, u <> ""%string -> complete Z show_z readZ (fun z => z) (ex_message u).
Proof.
  intros u U.
  assert (forall z, in_long z -> exact Z show_z readZ z) as EX by (intros z L; unfold exact, readZ; rewrite atol_show by exact L; reflexivity).
  assert (forall z, (-1 <= z <= 99999999)%Z -> in_long z) as L by (unfold in_long, LMIN, LMAX; lia).
  assert (forall z, (-1 <= z <= 99999999)%Z -> in_int z) as LI by (unfold in_int; lia).
  constructor; cbn [ex_message ex_grid m_url m_pos m_size m_edition m_ids m_ltype m_lno m_total m_pert m_keys m_date m_time m_units
      m_range m_stat m_start m_end m_grid g_nx g_ny g_scan g_dx g_dy g_x g_y g_lon g_lat g_res].
  - destruct u; [congruence | discriminate].
  - eexists; split; [reflexivity | apply L; lia].
  - eexists; split; [reflexivity|]. split; [apply L|]; lia.
  - left; reflexivity.
  - repeat split; apply LI; lia.
  - eexists; split; [reflexivity | apply L; lia].
  - eexists; split; [reflexivity | apply L; lia].
  - left. repeat split; apply L; lia.
  - split; [|repeat constructor; apply L; cbn [snd]; lia].
    cbn [map fst]. constructor; [intros [H | []]; discriminate H | constructor; [intros [] | constructor]].
  - eexists; split; [reflexivity | apply L; lia].
  - eexists; split; [reflexivity | apply L; lia].
  - eexists; split; [reflexivity | cbn; auto].
  - eexists; split; [reflexivity | apply L; lia].
  - eexists; split; [reflexivity | apply L; lia].
  - eexists; split; [reflexivity | apply L; lia].
  - eexists; split; [reflexivity | apply L; lia].
  - split; [apply L|]; lia.
  - split; [apply L|]; lia.
  - apply L; lia.
  - repeat split; apply EX; apply L; lia.
  - reflexivity.
Qed.
Definition readI := open_grbml Z readZ (fun z => z) 0%Z 1000%Z.
Definition textI (u : string) (ms : list (message Z)) : list piece := match write_index Z show_z (s_ u) ms with Ok t => t | _ => [] end.

Example C119_nonvacuous :
  readI (Some (parse (textI "file:a.grb" [ex_message "a.grb"; ex_message "b.grb"]))) = Ok (s_ "file:a.grb", [ex_message "a.grb"; ex_message "b.grb"]) /\
  (do t <- cat [Some (parse (textI "file:a" [ex_message "a"])); None; Some (parse (textI "file:b" [ex_message "b"; ex_message "c"]))];
   readI (Some (parse t))) = Ok (s_ "file:a", [ex_message "a"; ex_message "b"; ex_message "c"]) /\
  plain (s_ "file:a.grb") /\ plain_message Z show_z (ex_message "a.grb").
Proof.
  split; [vm_compute; reflexivity|]. split; [vm_compute; reflexivity|].
  split; [repeat constructor|]. unfold plain_message. repeat split; repeat constructor.
Qed.

(** Finding: the address in the head of an index is written without escapes: with an ampersand, the index cannot be
    read.  The messages of an index are written with escapes, but fiGrbmlCat writes them without. *)
Theorem C119_escape_refuted :
  readI (Some (parse (textI "http://host/x?a=1&b=2" [ex_message "a"]))) = Throw /\
  readI (Some (parse (textI "file:a" [ex_message "http://host/x?a=1&b=2"]))) = Ok (s_ "file:a", [ex_message "http://host/x?a=1&b=2"]) /\
  (do t <- cat [Some (parse (textI "file:a" [ex_message "http://host/x?a=1&b=2"]))]; Ok (readI (Some (parse t)))) = Ok Throw.
Proof. split; [vm_compute; reflexivity|]. split; vm_compute; reflexivity. Qed.

Definition evsI (m : message Z) : list event := match message_events Z show_z m with Ok l => l | _ => [] end.
Definition named (n : string) (e : event) : bool := match e with Start m _ _ => is m n | _ => false end.
(** Finding: an element which a message lacks is not noticed: the members keep values that were never set. *)
Theorem C119_missing_refuted :
  (do r <- readI (Some (head_event (s_ "u") :: filter (fun e => negb (named "level" e || named "time" e)) (evsI (ex_message "a")) ++ [End (s_ "gribFileIndex")], true));
   Ok (map (fun m => (m_url m, m_lno m, m_date m, m_units m)) (snd r))) = Ok [(s_ "a", None, None, None)].
Proof. vm_compute. reflexivity. Qed.
(** Finding: a message written as an empty element takes the contents of the next one, which is lost. *)
Theorem C119_empty_refuted :
  (do r <- readI (Some (head_event (s_ "u") :: Start (s_ "gribMessage") [att "url" (s_ "x")] true :: evsI (ex_message "a") ++ [End (s_ "gribFileIndex")], true));
   Ok (map (fun m => (m_url m, m_pos m, m_short m)) (snd r))) = Ok [(s_ "x", None, s_ "t")].
Proof. vm_compute. reflexivity. Qed.

(** the units of steps and their texts *)
Theorem C119_units : forall u t,
  In (u, t) [(13, "s"); (0, "m"); (1, "h"); (10, "3h"); (11, "6h"); (12, "12h"); (2, "D"); (3, "M"); (4, "Y");
             (5, "10Y"); (6, "30Y"); (7, "C")]%Z%string ->
  units_text u = Ok (s_ t) /\ units_of_text (s_ t) = Ok u.
Proof.
  intros u t H. cbn [In] in H.
  repeat (destruct H as [E | H]; [injection E as <- <-; split; vm_compute; reflexivity|]). contradiction.
Qed.

(** fiGrbmlCat: a file which ends inside of a message leaves that message open in the output; the next file is read
    from its start *)
Example C119_cat_truncated :
  let a := Start (s_ "gribFileIndex") [att "url" (s_ "file:a")] false in
  let m := Start (s_ "gribMessage") [att "url" (s_ "file:a")] false in
  cat [Some ([a; m], false); Some ([a; End (s_ "gribFileIndex")], true)] =
  Ok (header (s_ "file:a") ++ [(m, true)] ++ [(End (s_ "gribFileIndex"), false)]).
Proof. reflexivity. Qed.

Print Assumptions C119_empty_head.
Print Assumptions C119_units.
Print Assumptions C119_message.
Print Assumptions C119_index.
Print Assumptions C119_cat.
Print Assumptions C119_append.
Print Assumptions C119_append_damaged_refuted.
Print Assumptions C119_damaged.
Print Assumptions C119_scan.
Print Assumptions C119_scan_ends.
Print Assumptions C119_edition_refuted.
Print Assumptions C119_digits_refuted.
Print Assumptions C119_options.
Print Assumptions C119_input_type_refuted.
Print Assumptions C119_scheme.
Print Assumptions C119_nonvacuous.
Print Assumptions C119_escape_refuted.
Print Assumptions C119_missing_refuted.
Print Assumptions C119_empty_refuted.
Print Assumptions C119_truncated.
Print Assumptions C119_tail.
Print Assumptions C119_closed.
Print Assumptions C119_keys.
Print Assumptions C119_no_corner.
Print Assumptions C119_sizes.
Print Assumptions C119_scheme_file.
Print Assumptions C119_finishes.
Print Assumptions C119_cat_nothing.
