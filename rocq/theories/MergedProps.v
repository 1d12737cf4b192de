(** Theorem C82: the metadata of merged files and where their data come from. *)
From Coq Require Import NArith ZArith QArith String List Bool Arith Lia ZifyBool ZifyNat ZifyN.
From Verif Require Import Base StdMap ConvertModel TextModel CdmModel CdmProofs VmetaProps SelectModel SelectProps MergedModel.
Import ListNotations.
Local Open Scope string_scope.
Local Open Scope list_scope.
Local Open Scope nat_scope.

(** ** compatible variables *)

(** length of a dimension (0 if unknown) *)
Definition dlen (c : cdm) (n : string) : N := match find_dim n (dims c) with Some d => d_len d | None => 0%N end.
Lemma dim_length_known c n : has_dim c n = true -> dim_length c n = Ok (dlen c n).
Proof. unfold has_dim, dim_length, dlen. now destruct (find_dim n (dims c)). Qed.
(** the dimensions of a shape that count: length other than one *)
Definition real_dims (c : cdm) (s : list string) : list string := filter (fun d => negb (N.eqb (dlen c d) 1)) s.
(** all dimensions exist *)
Definition known (c : cdm) (s : list string) : Prop := forall d, In d s -> has_dim c d = true.
(** two axes of a type go together: both missing, or of one length (a missing one counting as one value) *)
Definition axes_agree (cB cT : cdm) (a b : option string) : Prop :=
  match a, b with
  | None, None => True
  | Some x, Some y => dlen cB x = dlen cT y
  | Some x, None => dlen cB x = 1%N
  | None, Some y => dlen cT y = 1%N
  end.
(** two dimensions correspond: both x, both y, or neither and of the same length *)
Definition corresponds (cB cT : cdm) (xB yB xT yT : string) (d e : string) : Prop :=
  (d = xB <-> e = xT) /\ (d = yB <-> e = yT) /\ (d <> xB -> d <> yB -> dlen cB d = dlen cT e).

Lemma hop_ones_spec c s : known c s ->
  exists s', hop_ones c s = Ok s' /\ known c s' /\ length s' <= length s /\
    match s' with [] => real_dims c s = [] | d :: r => real_dims c s = d :: real_dims c r end.
Proof.
  induction s as [|d s IH]; intro K; cbn [hop_ones]; [now exists []|].
  rewrite dim_length_known by (apply K; now left). cbn [obind].
  destruct (N.eqb (dlen c d) 1) eqn:E.
  - destruct IH as (s' & H1 & H2 & H3 & H4); [intros x X; apply K; now right|].
    exists s'. split; [exact H1|]. split; [exact H2|]. split; [cbn; lia|].
    unfold real_dims in *. cbn [filter]. rewrite E. exact H4.
  - exists (d :: s). split; [reflexivity|]. split; [exact K|]. split; [lia|]. unfold real_dims. cbn [filter]. now rewrite E.
Qed.

Lemma shapes_fit_spec cB cT sB sT xB yB xT yT :
  mc_x sB = Some xB -> mc_y sB = Some yB -> mc_x sT = Some xT -> mc_y sT = Some yT ->
  forall fuel b t, length b <= fuel -> known cB b -> known cT t ->
  exists r, shapes_fit fuel cB cT sB sT b t = Ok r /\
    (length (real_dims cB b) = length (real_dims cT t) -> (r = true <-> Forall2 (corresponds cB cT xB yB xT yT) (real_dims cB b) (real_dims cT t))).
Proof.
  intros XB YB XT YT. induction fuel as [|f IH]; intros b t F KB KT.
  - destruct b; [|cbn in F; lia]. exists true. split; [reflexivity|]. change (real_dims cB []) with (@nil string). intro L.
    destruct (real_dims cT t); [|discriminate L]. easy.
  - cbn [shapes_fit]. destruct b as [|b0 b].
    { exists true. split; [reflexivity|]. change (real_dims cB []) with (@nil string). intro L. destruct (real_dims cT t); [|discriminate L]. easy. }
    destruct t as [|t0 t].
    { exists true. split; [reflexivity|]. change (real_dims cT []) with (@nil string). intro L.
      destruct (real_dims cB (b0 :: b)); [easy|discriminate L]. }
    set (B := b0 :: b) in *. set (T := t0 :: t) in *.
    destruct (hop_ones_spec cB B KB) as (b' & HB & KB' & LB & RB). destruct (hop_ones_spec cT T KT) as (t' & HT & KT' & LT & RT).
    rewrite HB, HT. cbn [obind]. destruct b' as [|db rb], t' as [|dt rt].
    + exists true. split; [reflexivity|]. rewrite RB, RT. easy.
    + exists false. split; [reflexivity|]. rewrite RB, RT. discriminate.
    + exists false. split; [reflexivity|]. rewrite RB, RT. discriminate.
    + rewrite XB, YB, XT, YT. cbn [is_axis obind].
      rewrite RB, RT.
      assert (KD : has_dim cB db = true) by (apply KB'; now left). assert (KE : has_dim cT dt = true) by (apply KT'; now left).
      destruct (IH rb rt) as (r & R & RS).
      { cbn in LB, F. lia. }
      { intros d D. apply KB'. now right. }
      { intros d D. apply KT'. now right. }
      assert (P : corresponds cB cT xB yB xT yT db dt <->
        (if negb (Bool.eqb (String.eqb db xB) (String.eqb dt xT)) || negb (Bool.eqb (String.eqb db yB) (String.eqb dt yT)) then false
         else if String.eqb db xB || String.eqb db yB then true else N.eqb (dlen cB db) (dlen cT dt)) = true).
      { unfold corresponds. destruct (String.eqb_spec db xB), (String.eqb_spec dt xT), (String.eqb_spec db yB), (String.eqb_spec dt yT); cbn [negb Bool.eqb orb];
          rewrite ?N.eqb_eq; intuition congruence. }
      destruct (negb _ || negb _).
      { exists false. split; [reflexivity|]. intros _. split; [discriminate|]. intro Q. inversion Q as [|? ? ? ? Q1 Q2]; subst. apply P in Q1. discriminate. }
      destruct (String.eqb db xB || String.eqb db yB).
      * cbn [obind]. exists r. split; [exact R|]. cbn [length]. intro L. rewrite RS by lia. split; intro Q; [constructor; [now apply P|exact Q]|now inversion Q].
      * rewrite !dim_length_known by assumption. cbn [obind]. destruct (N.eqb (dlen cB db) (dlen cT dt)).
        -- exists r. split; [exact R|]. cbn [length]. intro L. rewrite RS by lia. split; intro Q; [constructor; [now apply P|exact Q]|now inversion Q].
        -- exists false. split; [reflexivity|]. intros _. split; [discriminate|]. intro Q. inversion Q as [|? ? ? ? Q1 Q2]; subst. apply P in Q1. discriminate.
Qed.

Lemma axis_fits_spec cB cT a b : (forall n, a = Some n -> has_dim cB n = true) -> (forall n, b = Some n -> has_dim cT n = true) ->
  exists la lb, axis_len cB a = Ok la /\ axis_len cT b = Ok lb /\ (axis_fits la lb = true <-> axes_agree cB cT a b).
Proof.
  intros A B. destruct a as [a|], b as [b|]; cbn [axis_len].
  - rewrite (dim_length_known cB a), (dim_length_known cT b) by auto. cbn [omap]. eexists. eexists. split; [reflexivity|]. split; [reflexivity|].
    cbn. apply N.eqb_eq.
  - rewrite (dim_length_known cB a) by auto. cbn [omap]. eexists. eexists. split; [reflexivity|]. split; [reflexivity|]. cbn. apply N.eqb_eq.
  - rewrite (dim_length_known cT b) by auto. cbn [omap]. eexists. eexists. split; [reflexivity|]. split; [reflexivity|]. cbn. apply N.eqb_eq.
  - exists None, None. easy.
Qed.
Lemma axes_fit_spec cB cT sB sT ts :
  (forall t n, mc_axis sB t = Some n -> has_dim cB n = true) -> (forall t n, mc_axis sT t = Some n -> has_dim cT n = true) ->
  exists r, axes_fit cB cT sB sT ts = Ok r /\ (r = true <-> forall t, In t ts -> axes_agree cB cT (mc_axis sB t) (mc_axis sT t)).
Proof.
  intros A B. induction ts as [|t ts IH]; cbn [axes_fit]; [now exists true|].
  destruct (axis_fits_spec cB cT (mc_axis sB t) (mc_axis sT t) (A t) (B t)) as (la & lb & -> & -> & P). cbn [obind].
  destruct IH as (r & R & RS). destruct (axis_fits la lb).
  - exists r. split; [exact R|]. rewrite RS. split.
    + intros H t' [<-|I]; [now apply P|now apply H].
    + intros H t' I. apply H. now right.
  - exists false. split; [reflexivity|]. split; [discriminate|]. intro H. apply P. apply H. now left.
Qed.

(** A variable with a coordinate system in both files, all axes and dimensions known: it is compatible
    exactly if the axes of every type agree and the shapes are the same or correspond. *)
Theorem C82_compatible cB cT csB csT n vB vT sB sT xB yB xT yT :
  find_var n (vars cB) = Some vB -> find_var n (vars cT) = Some vT -> sys_of csB n = Some sB -> sys_of csT n = Some sT ->
  mc_x sB = Some xB -> mc_y sB = Some yB -> mc_x sT = Some xT -> mc_y sT = Some yT ->
  (forall t a, mc_axis sB t = Some a -> has_dim cB a = true) -> (forall t a, mc_axis sT t = Some a -> has_dim cT a = true) ->
  known cB (v_shape vB) -> known cT (v_shape vT) ->
  exists r, is_compatible cB cT csB csT n = Ok r /\
    (length (real_dims cB (v_shape vB)) = length (real_dims cT (v_shape vT)) ->
     (r = true <-> (forall t, axes_agree cB cT (mc_axis sB t) (mc_axis sT t)) /\
        (v_shape vB = v_shape vT \/ Forall2 (corresponds cB cT xB yB xT yT) (real_dims cB (v_shape vB)) (real_dims cT (v_shape vT))))).
Proof.
  intros VB VT SB ST XB YB XT YT AB AT KB KT. unfold is_compatible. rewrite VB, VT, SB, ST.
  destruct (axes_fit_spec cB cT sB sT mtypes AB AT) as (a & -> & A). cbn [obind].
  assert (A' : a = true <-> forall t, axes_agree cB cT (mc_axis sB t) (mc_axis sT t)).
  { rewrite A. split; intros H t; [|auto]. apply H. destruct t; cbn; tauto. }
  destruct a; cbn [negb].
  - destruct (list_eq_dec string_dec (v_shape vB) (v_shape vT)) as [E|E].
    + exists true. split; [reflexivity|]. intros _. split; [|auto]. intros _. split; [now apply A'|now left].
    + destruct (shapes_fit_spec cB cT sB sT xB yB xT yT XB YB XT YT (length (v_shape vB)) (v_shape vB) (v_shape vT) (le_n _) KB KT) as (r & R & RS).
      exists r. split; [exact R|]. intro L. rewrite RS by exact L. split.
      * intro Q. split; [now apply A'|now right].
      * intros (_ & [Q|Q]); [contradiction|exact Q].
  - exists false. split; [reflexivity|]. intros _. split; [discriminate|]. intros (Q & _). apply A' in Q. discriminate.
Qed.

(** Without coordinate system in both files it is compatible; missing in one file, or with a coordinate
    system in only one of them, it is not. *)
Theorem C82_compatible_other cB cT csB csT n :
  (has_var cB n = false \/ has_var cT n = false -> is_compatible cB cT csB csT n = Ok false) /\
  (has_var cB n = true -> has_var cT n = true -> sys_of csB n = None -> sys_of csT n = None -> is_compatible cB cT csB csT n = Ok true) /\
  (has_var cB n = true -> has_var cT n = true -> (sys_of csB n = None <-> sys_of csT n <> None) -> is_compatible cB cT csB csT n = Ok false).
Proof.
  unfold is_compatible, has_var. destruct (find_var n (vars cB)) as [vB|], (find_var n (vars cT)) as [vT|]; cbn [is_some].
  2:{ split; [reflexivity|]. split; discriminate. }
  2:{ split; [reflexivity|]. split; discriminate. }
  2:{ split; [reflexivity|]. split; discriminate. }
  split; [intros [Q|Q]; discriminate|]. split; intros _ _.
  - now intros -> ->.
  - destruct (sys_of csB n), (sys_of csT n); try reflexivity; intros (Q1 & Q2); exfalso.
    + assert (X : Some m = None); [|discriminate]. apply Q2. discriminate.
    + now apply Q1.
Qed.

(** ** the merged metadata *)

Lemma add_auxiliary_more : forall fuel c css s r, add_auxiliary fuel c css s = Ok r -> forall fuel', fuel <= fuel' -> add_auxiliary fuel' c css s = Ok r.
Proof.
  induction fuel as [|f IH]; intros c css s r H fuel' L; cbn [add_auxiliary] in H; [discriminate|].
  destruct fuel' as [|f']; [lia|]. cbn [add_auxiliary]. destruct (length s <? length (aux_round c css s)); [|exact H].
  apply IH; [exact H|lia].
Qed.
Lemma select_more fuel c css s b r : select_variables fuel c css s b = Ok r -> forall fuel', fuel <= fuel' -> select_variables fuel' c css s b = Ok r.
Proof.
  unfold select_variables. intros H fuel' L. destruct b; [|exact H].
  destruct (add_auxiliary fuel c css s) eqn:E; try discriminate. now rewrite (add_auxiliary_more _ _ _ _ _ E).
Qed.

Lemma compatible_vars_spec compat l k : compatible_vars compat l = Ok k ->
  (forall n, In n k <-> In n l /\ compat n = Ok true) /\ (NoDup l -> NoDup k) /\ (forall n, In n l -> exists b, compat n = Ok b).
Proof.
  revert k. induction l as [|a l IH]; intros k H; cbn [compatible_vars] in H.
  - injection H as <-. split; [cbn; tauto|]. split; [easy|]. intros n [].
  - destruct (compat a) as [b| | |] eqn:E; try discriminate. cbn [obind] in H. destruct (compatible_vars compat l) as [k'| | |]; try discriminate. cbn [obind] in H.
    injection H as <-. destruct (IH k' eq_refl) as (I & N & B). split; [|split].
    + intro n. destruct b; cbn [In]; rewrite ?I; split.
      * intros [<-|(X & Y)]; auto.
      * intros ([<-|X] & Y); auto.
      * intros (X & Y). auto.
      * intros ([<-|X] & Y); [congruence|auto].
    + intro D. inversion D as [|? ? D1 D2]; subst. destruct b; [|auto]. constructor; [|auto]. rewrite I. tauto.
    + intros n [<-|X]; eauto.
Qed.
Lemma compatible_vars_ok compat l : (forall n, In n l -> exists b, compat n = Ok b) -> exists k, compatible_vars compat l = Ok k.
Proof.
  induction l as [|a l IH]; intro H; cbn [compatible_vars]; [now exists []|].
  destruct (H a) as (b & ->); [now left|]. cbn [obind]. destruct IH as (k & ->); [intros n N; apply H; now right|]. cbn [obind]. eauto.
Qed.

Lemma add_dims_spec l : forall c, vars (add_dims c l) = vars c /\ attrs (add_dims c l) = attrs c /\
  (forall n, find_dim n (dims (add_dims c l)) = match find_dim n (dims c) with Some d => Some d | None => find_dim n l end) /\
  (NoDup (dnames c) -> NoDup (dnames (add_dims c l))).
Proof.
  unfold add_dims. induction l as [|d l IH]; intro c; cbn [fold_left].
  - split; [reflexivity|]. split; [reflexivity|]. split; [|easy]. intro n. cbn. now destruct (find_dim n (dims c)).
  - destruct (has_dim c (d_name d)) eqn:H.
    + destruct (IH c) as (A & B & C & D). split; [exact A|]. split; [exact B|]. split; [|exact D]. intro n. rewrite C.
      cbn [find_dim find]. unfold has_dim in H. destruct (String.eqb_spec n (d_name d)) as [->|N]; [|reflexivity]. now destruct (find_dim (d_name d) (dims c)).
    + destruct (IH (mkCdm (vars c) (dims c ++ [d]) (attrs c))) as (A & B & C & D). split; [exact A|]. split; [exact B|]. split.
      * intro n. rewrite C. cbn [dims]. unfold find_dim. rewrite (fnd_app d_name). cbn [find]. fold (find_dim n (dims c)). fold (find_dim n l).
        destruct (find_dim n (dims c)); [reflexivity|]. destruct (String.eqb n (d_name d)); reflexivity.
      * intro N. apply D. unfold dnames. cbn [dims]. apply has_dim_false in H. now apply (nodup_app d_name).
Qed.

Lemma no_attrs c n : consistent c -> n <> global_ns -> has_var c n = false -> attrs_of c n = [].
Proof.
  intros C G H. destruct (attrs_of_none c n) as [E|E]; [exact E|]. exfalso.
  destruct (c_owner c C n) as [X|X]; [|contradiction|].
  - apply sfind_In. eauto.
  - apply has_var_in in X. congruence.
Qed.
Lemma consistent_add_var c v : consistent c -> has_var c (v_name v) = false -> consistent (mkCdm (vars c ++ [v]) (dims c) (attrs c)).
Proof.
  intros [A B C D E] H. constructor; try assumption.
  - apply has_var_false in H. now apply (nodup_app v_name).
  - intros n N. destruct (D n N) as [X|X]; [now left|right]. unfold vnames in *. cbn [vars]. rewrite map_app. apply in_or_app. now left.
Qed.

Lemma add_outer_spec cI cO : consistent cO -> has_var cO global_ns = false ->
  forall l c, NoDup (map v_name l) -> (forall v, In v l -> has_var cO (v_name v) = true) ->
  consistent c -> (forall v, In v l -> has_var cI (v_name v) = false -> has_var c (v_name v) = false) ->
  exists r, ofold (add_outer_var cI cO) l c = Ok r /\ consistent r /\ dims r = dims c /\
    forall n, (has_var cI n = false -> is_some (find_var n l) = true -> find_var n (vars r) = find_var n l /\ attrs_of r n = attrs_of cO n) /\
              (has_var cI n = true \/ find_var n l = None -> find_var n (vars r) = find_var n (vars c) /\ attrs_of r n = attrs_of c n).
Proof.
  intros CO G. induction l as [|v l IH]; intros c N F C M; cbn [ofold].
  - exists c. split; [reflexivity|]. split; [exact C|]. split; [reflexivity|]. intro n. split; [discriminate|easy].
  - inversion N as [|? ? N1 N2]; subst. unfold add_outer_var at 1. destruct (has_var cI (v_name v)) eqn:HI.
    + cbn [obind]. destruct (IH c) as (r & R1 & R2 & R3 & R4); try assumption.
      { intros w W. apply F. now right. }
      { intros w W. apply M. now right. }
      exists r. split; [exact R1|]. split; [exact R2|]. split; [exact R3|]. intro n. destruct (R4 n) as (R5 & R6). cbn [find_var find].
      destruct (String.eqb_spec n (v_name v)) as [->|X].
      * rewrite HI in *. split; [discriminate|]. intros _. apply R6. now left.
      * fold (find_var n l). split; [exact R5|exact R6].
    + assert (HC : has_var c (v_name v) = false) by (apply M; [now left|exact HI]).
      assert (NG : v_name v <> global_ns) by (intro X; rewrite <- X, F in G; [discriminate|now left]).
      unfold add_var. rewrite HC. cbn [obind].
      set (c1 := mkCdm (vars c ++ [v]) (dims c) (attrs c)).
      assert (C1 : consistent c1) by now apply consistent_add_var.
      assert (A0 : attrs_of c (v_name v) = []) by now apply no_attrs.
      destruct (add_attrs_spec (attrs_of cO (v_name v)) c1 (v_name v)) as (c2 & E2 & C2 & V2 & D2 & A2).
      { exact C1. }
      { right. unfold vnames, c1. cbn [vars]. rewrite map_app. apply in_or_app. right. now left. }
      { change (attrs_of c1 (v_name v)) with (attrs_of c (v_name v)). rewrite A0. cbn. apply (c_attrs cO CO). }
      rewrite E2. change (attrs_of c1 (v_name v)) with (attrs_of c (v_name v)) in A2. rewrite A0 in A2. cbn [app] in A2.
      destruct (IH c2) as (r & R1 & R2 & R3 & R4); try assumption.
      { intros w W. apply F. now right. }
      { intros w W HW. unfold has_var. rewrite V2. unfold c1, find_var. cbn [vars]. rewrite (fnd_app v_name). cbn [find].
        assert (HW' : has_var c (v_name w) = false) by (apply M; [now right|exact HW]). unfold has_var, find_var in HW'.
        destruct (find _ (vars c)); [discriminate|]. destruct (String.eqb_spec (v_name w) (v_name v)) as [X|X]; [|reflexivity].
        exfalso. apply N1. rewrite <- X. now apply in_map. }
      exists r. split; [exact R1|]. split; [exact R2|]. split; [rewrite R3, D2; reflexivity|].
      assert (FV : forall n, find_var n (vars c2) = match find_var n (vars c) with Some w => Some w | None => if String.eqb n (v_name v) then Some v else None end).
      { intro n. rewrite V2. unfold c1, find_var. cbn [vars]. rewrite (fnd_app v_name). reflexivity. }
      intro n. destruct (R4 n) as (R5 & R6). cbn [find_var find]. fold (find_var n l).
      assert (NL : find_var (v_name v) l = None) by now apply (fnd_none v_name).
      destruct (String.eqb_spec n (v_name v)) as [->|X].
      * split.
        -- intros _ _. destruct (R6 (or_intror NL)) as (Q1 & Q2). rewrite Q1, Q2, FV, A2, String.eqb_refl. unfold has_var in HC.
           now destruct (find_var (v_name v) (vars c)).
        -- intros [Q|Q]; [congruence|discriminate].
      * split; [exact R5|]. intro Q. destruct (R6 Q) as (Q1 & Q2). rewrite Q1, Q2, FV, A2. apply String.eqb_neq in X. rewrite X.
        unfold c1. split; [|reflexivity]. now destruct (find_var n (vars c)).
Qed.

Section Merged.
  Variable axis_values : string -> string -> outcome (option (list Q)).
  Variable interpolate : target -> outcome (cdm * list msys).

  (** the names kept from the inner file: the compatible ones and what they need *)
  Definition kept (cI cO : cdm) (csI csO : list msys) (n : string) : Prop :=
    exists k, (forall m, In m k <-> has_var cI m = true /\ is_compatible cI cO csI csO m = Ok true) /\ reach cI (map dsys_of csI) k n.

  Lemma reach_iff c css k k' n : (forall m, In m k <-> In m k') -> reach c css k n -> reach c css k' n.
  Proof. intros E R. induction R as [n I|n m R IH N]; [apply reach_in; now apply E|now apply (reach_step c css k' n)]. Qed.

  (** Every variable of the merged file: a variable of the inner file is kept unchanged if it is compatible
      or needed by a kept one, and is absent otherwise; the other variables are those of the interpolated
      outer file if these were asked for.  Dimensions of the inner file go before those of the outer. *)
  Theorem C82_merged fuel cI cO csI keep r cO' :
    merged axis_values interpolate fuel cI cO csI keep = Ok (r, cO') -> consistent cI -> consistent cO' ->
    has_var cI global_ns = false -> has_var cO' global_ns = false ->
    exists t csO', interpolate t = Ok (cO', csO') /\ consistent r /\
      (forall n, has_var cI n = true ->
         (kept cI cO' csI csO' n -> find_var n (vars r) = find_var n (vars cI) /\ attrs_of r n = attrs_of cI n) /\
         (~ kept cI cO' csI csO' n -> find_var n (vars r) = None /\ attrs_of r n = [])) /\
      (forall n, has_var cI n = false -> find_var n (vars r) = if keep then find_var n (vars cO') else None) /\
      (forall n, has_var cI n = false -> has_var cO' n = true -> keep = true -> attrs_of r n = attrs_of cO' n) /\
      (forall n, find_dim n (dims r) = match find_dim n (dims cI) with Some d => Some d | None => if keep then find_dim n (dims cO') else None end) /\
      attrs_of r global_ns = attrs_of cI global_ns.
  Proof.
    intros H CI CO GI GO. unfold merged in H. destruct (first_grid cO csI (vars cI)) as [g|]; [|discriminate].
    destruct (target_of axis_values cI g) as [t| | |]; try discriminate. cbn [obind] in H. destruct (interpolate t) as [[cO2 csO]| | |] eqn:IT; try discriminate.
    cbn [obind] in H. destruct (compatible_vars _ _) as [k| | |] eqn:KV; try discriminate. cbn [obind] in H.
    destruct (select_variables fuel cI (map dsys_of csI) k true) as [c| | |] eqn:SV; try discriminate. cbn [obind] in H.
    apply compatible_vars_spec in KV as (KI & KN & _).
    assert (ND : NoDup k) by (apply KN; apply (c_vars cI CI)).
    destruct (C79_selected cI (map dsys_of csI) k true (S (length (universe cI (map dsys_of csI) k)) + fuel) ND ltac:(lia)) as (c' & SV' & DC & SC).
    rewrite (select_more _ _ _ _ _ _ SV) in SV' by lia. injection SV' as <-. cbn beta iota in SC.
    assert (CC : consistent c).
    { unfold select_variables in SV. destruct (add_auxiliary fuel cI _ k); try discriminate. cbn [obind] in SV. injection SV as <-. now apply consistent_removed_all. }
    assert (KK : forall m, In m k <-> has_var cI m = true /\ is_compatible cI cO2 csI csO m = Ok true).
    { intro m. rewrite KI. fold (vnames cI). now rewrite has_var_in. }
    assert (KE : forall n, kept cI cO2 csI csO n <-> reach cI (map dsys_of csI) k n).
    { intro n. split.
      - intros (k' & E & R). apply (reach_iff _ _ k'); [|exact R]. intro m. now rewrite E, KK.
      - intro R. now exists k. }
    (* the selected part *)
    assert (S1 : forall n, has_var cI n = true -> (kept cI cO2 csI csO n -> find_var n (vars c) = find_var n (vars cI) /\ attrs_of c n = attrs_of cI n) /\
         (~ kept cI cO2 csI csO n -> find_var n (vars c) = None /\ attrs_of c n = [])).
    { intros n V. destruct (SC n) as (A & B). rewrite KE. split; [exact A|]. intro NR. destruct (B NR) as (B1 & B2). split; [exact B1|]. apply B2. fold (vnames cI). now apply has_var_in. }
    assert (S2 : forall n, has_var cI n = false -> find_var n (vars c) = None).
    { intros n V. unfold select_variables in SV. destruct (add_auxiliary fuel cI _ k) as [s| | |]; try discriminate. cbn [obind] in SV. injection SV as <-.
      destruct (removed_all (filter (fun n => negb (has n s)) (map v_name (vars cI))) cI n) as (A & _). rewrite A. destruct (existsb _ _); [reflexivity|].
      unfold has_var in V. now destruct (find_var n (vars cI)). }
    assert (S3 : attrs_of c global_ns = attrs_of cI global_ns).
    { unfold select_variables in SV. destruct (add_auxiliary fuel cI _ k) as [s| | |]; try discriminate. cbn [obind] in SV. injection SV as <-.
      destruct (removed_all (filter (fun n => negb (has n s)) (map v_name (vars cI))) cI global_ns) as (_ & A & _). rewrite A.
      replace (existsb _ _) with false; [reflexivity|]. symmetry. apply not_true_is_false. intro X. apply existsb_exists in X as (y & Y & E).
      apply String.eqb_eq in E as <-. apply filter_In in Y as (Y & _). fold (vnames cI) in Y. apply has_var_in in Y. congruence. }
    destruct keep.
    - destruct (ofold _ _ _) as [r'| | |] eqn:OF; try discriminate. cbn [obind] in H. injection H as -> <-.
      destruct (add_dims_spec (dims cO2) c) as (AV & AA & AD & AN).
      assert (CD : consistent (add_dims c (dims cO2))).
      { replace (add_dims c (dims cO2)) with (mkCdm (vars c) (dims (add_dims c (dims cO2))) (attrs c)).
        - apply consistent_dims; [exact CC|]. apply AN. apply CC.
        - rewrite <- AV, <- AA. now destruct (add_dims c (dims cO2)). }
      assert (FD : forall n, find_var n (vars (add_dims c (dims cO2))) = find_var n (vars c)) by (intro n; now rewrite AV).
      assert (AT : forall n, attrs_of (add_dims c (dims cO2)) n = attrs_of c n) by (intro n; unfold attrs_of; now rewrite AA).
      destruct (add_outer_spec cI cO2 CO GO (vars cO2) (add_dims c (dims cO2))) as (r'' & R1 & R2 & R3 & R4).
      { apply (c_vars cO2 CO). }
      { intros v V. apply has_var_in. now apply in_map. }
      { exact CD. }
      { intros v V HV. unfold has_var. now rewrite FD, S2. }
      rewrite OF in R1. injection R1 as <-.
      exists t, csO. split; [exact IT|]. split; [exact R2|]. split; [|split; [|split; [|split]]].
      + intros n V. destruct (R4 n) as (_ & Q). destruct (Q (or_introl V)) as (-> & ->). rewrite FD, AT. now apply S1.
      + intros n V. destruct (R4 n) as (Q1 & Q2). unfold has_var in *. destruct (find_var n (vars cO2)) as [w|] eqn:W.
        * now destruct (Q1 V eq_refl) as (-> & _).
        * destruct (Q2 (or_intror eq_refl)) as (-> & _). rewrite FD. now apply S2.
      + intros n V W _. destruct (R4 n) as (Q1 & _). now destruct (Q1 V W) as (_ & ->).
      + intro n. rewrite R3, AD. now rewrite DC.
      + destruct (R4 global_ns) as (_ & Q). destruct Q as (_ & ->); [|rewrite AT; exact S3]. right. unfold has_var in GO. now destruct (find_var global_ns (vars cO2)).
    - injection H as -> <-. exists t, csO. split; [exact IT|]. split; [exact CC|]. split; [exact S1|]. split; [exact S2|]. split; [discriminate|]. split.
      + intro n. rewrite DC. now destruct (find_dim n (dims cI)).
      + exact S3.
  Qed.

  (** Merging succeeds as soon as an inner variable gives a grid, its axes can be read, the outer file can be
      interpolated and the comparison of no variable throws; it throws if no variable gives a grid. *)
  Theorem C82_defined cI cO csI keep :
    (first_grid cO csI (vars cI) = None -> forall fuel, merged axis_values interpolate fuel cI cO csI keep = Throw) /\
    (forall g t cO' csO', first_grid cO csI (vars cI) = Some g -> target_of axis_values cI g = Ok t -> interpolate t = Ok (cO', csO') ->
       consistent cI -> consistent cO' -> has_var cO' global_ns = false ->
       (forall n, has_var cI n = true -> exists b, is_compatible cI cO' csI csO' n = Ok b) ->
       exists fuel0 r, forall fuel, fuel0 <= fuel -> merged axis_values interpolate fuel cI cO csI keep = Ok (r, cO')).
  Proof.
    split.
    - intros H fuel. unfold merged. now rewrite H.
    - intros g t cO' csO' H1 H2 H3 CI CO GO HB. unfold merged.
      destruct (compatible_vars_ok (is_compatible cI cO' csI csO') (map v_name (vars cI))) as (k & K).
      { intros n N. apply HB. now apply has_var_in. }
      destruct (compatible_vars_spec _ _ _ K) as (KI & KN & _). assert (ND : NoDup k) by (apply KN; apply (c_vars cI CI)).
      destruct (C79_selected cI (map dsys_of csI) k true (S (length (universe cI (map dsys_of csI) k))) ND ltac:(lia)) as (c & SV & DC & SC).
      assert (E : exists r, (if keep then do r <- ofold (add_outer_var cI cO') (vars cO') (add_dims c (dims cO')); Ok (r, cO') else Ok (c, cO')) = Ok (r, cO')).
      { destruct keep; [|now exists c]. destruct (add_dims_spec (dims cO') c) as (AV & AA & AD & AN).
        assert (CC : consistent c).
        { unfold select_variables in SV. destruct (add_auxiliary _ cI _ k); try discriminate. cbn [obind] in SV. injection SV as <-. now apply consistent_removed_all. }
        destruct (add_outer_spec cI cO' CO GO (vars cO') (add_dims c (dims cO'))) as (r & R1 & _).
        { apply (c_vars cO' CO). }
        { intros v V. apply has_var_in. now apply in_map. }
        { replace (add_dims c (dims cO')) with (mkCdm (vars c) (dims (add_dims c (dims cO'))) (attrs c)).
          - apply consistent_dims; [exact CC|]. apply AN. apply CC.
          - rewrite <- AV, <- AA. now destruct (add_dims c (dims cO')). }
        { intros v V HV. unfold has_var. rewrite AV. unfold select_variables in SV. destruct (add_auxiliary _ cI _ k) as [s| | |]; try discriminate. cbn [obind] in SV. injection SV as <-.
          destruct (removed_all (filter (fun n => negb (has n s)) (map v_name (vars cI))) cI (v_name v)) as (A & _). rewrite A. destruct (existsb _ _); [reflexivity|exact HV]. }
        exists r. now rewrite R1. }
      destruct E as (r & E). exists (S (length (universe cI (map dsys_of csI) k))), r. intros fuel F.
      rewrite H1, H2. cbn [obind]. rewrite H3. cbn [obind]. rewrite K. cbn [obind]. rewrite (select_more _ _ _ _ _ _ SV) by exact F. cbn [obind]. exact E.
  Qed.
End Merged.

(** ** the grid *)

(** The grid is that of the first inner variable that is also in the outer file and has a complete
    coordinate system with projection and simple horizontal axes; with its projection and the values of its
    axes in the unit of the file. *)
Theorem C82_grid axis_values cI cO csI g : first_grid cO csI (vars cI) = Some g ->
  exists pre v post, vars cI = pre ++ v :: post /\ has_var cO (v_name v) = true /\ sys_of csI (v_name v) = Some (fst g) /\
    mc_proj (fst g) = Some (snd g) /\ mc_simple (fst g) = true /\ (forall w, In w pre -> gives_grid cO csI w = None) /\
    forall t, target_of axis_values cI g = Ok t ->
      exists x y, mc_x (fst g) = Some x /\ mc_y (fst g) = Some y /\ t_proj t = snd g /\
        axis_values x (get_units cI x) = Ok (Some (t_xs t)) /\ axis_values y (get_units cI y) = Ok (Some (t_ys t)) /\
        2 <= length (t_xs t) /\ 2 <= length (t_ys t) /\ t_xunit t = get_units cI x /\
        (get_units cI x = get_units cI y -> t_yunit t = get_units cI y).
Proof.
  intro H.
  assert (G : forall l, first_grid cO csI l = Some g -> exists pre v post, l = pre ++ v :: post /\ gives_grid cO csI v = Some g /\ forall w, In w pre -> gives_grid cO csI w = None).
  { induction l as [|v l IH]; cbn [first_grid]; [discriminate|]. destruct (gives_grid cO csI v) as [g'|] eqn:E.
    - intros [= ->]. exists [], v, l. repeat split; [exact E|easy].
    - intro F. destruct (IH F) as (pre & w & post & -> & W & P). exists (v :: pre), w, post. repeat split; [exact W|]. intros u [<-|U]; auto. }
  destruct (G _ H) as (pre & v & post & E & W & P). exists pre, v, post. split; [exact E|].
  unfold gives_grid in W. destruct (has_var cO (v_name v)); [|discriminate]. destruct (sys_of csI (v_name v)) as [cs|]; [|discriminate].
  destruct (mc_proj cs) as [p|] eqn:PR; [|discriminate]. destruct (mc_simple cs) eqn:S; [|discriminate]. injection W as <-. cbn [fst snd].
  split; [reflexivity|]. split; [reflexivity|]. split; [exact PR|]. split; [exact S|]. split; [exact P|].
  intros t T. unfold target_of in T. destruct (mc_x cs) as [x|]; [|discriminate]. destruct (mc_y cs) as [y|]; [|discriminate].
  assert (AX : forall n u l, axis_of axis_values cI n u = Ok l -> axis_values n u = Ok (Some l) /\ 2 <= length l).
  { intros n u l A. unfold axis_of in A. destruct (find_dim n (dims cI)) as [d|]; [|discriminate]. destruct (d_unlim d); [discriminate|].
    destruct (axis_values n u) as [[l'|]| | |]; try discriminate. cbn [obind] in A. destruct (length l' <? 2) eqn:LT; [discriminate|]. injection A as <-. split; [reflexivity|lia]. }
  destruct (axis_of axis_values cI x _) as [xs| | |] eqn:X; try discriminate. cbn [obind] in T.
  destruct (axis_of axis_values cI y _) as [ys| | |] eqn:Y; try discriminate. cbn [obind] in T. injection T as <-. cbn [t_proj t_xs t_ys t_xunit t_yunit].
  apply AX in X as (X1 & X2). apply AX in Y as (Y1 & Y2). exists x, y. split; [reflexivity|]. split; [reflexivity|]. split; [reflexivity|]. split; [exact X1|].
  split; [exact Y1|]. split; [exact X2|]. split; [exact Y2|]. split; [reflexivity|]. now intros ->.
Qed.
(** An unlimited or unknown horizontal axis is rejected. *)
Theorem C82_axis_rejected axis_values cI cs p x y : mc_x cs = Some x -> mc_y cs = Some y ->
  (has_dim cI x = false \/ (exists d, find_dim x (dims cI) = Some d /\ d_unlim d = true)) -> target_of axis_values cI (cs, p) = Throw.
Proof.
  intros X Y H. unfold target_of. rewrite X, Y. cbn zeta. unfold axis_of at 1. destruct H as [H|(d & -> & ->)]; [|reflexivity].
  unfold has_dim in H. now destruct (find_dim x (dims cI)).
Qed.

(** ** where the data come from *)

(** Border smoothing: every variable of the merged metadata can be read; coordinate variables and variables
    the outer file does not have are those of the inner file. *)
Theorem C82_smoothing_source c cO n : has_var c n = true ->
  exists s, smoothing_source c cO n = Ok s /\ (s = FromBoth <-> has_dim c n = false /\ has_var cO n = true) /\ s <> FromOuter.
Proof.
  intro H. unfold smoothing_source. rewrite H. cbn [negb]. destruct (has_dim c n), (has_var cO n); cbn [orb negb];
    eexists; (split; [reflexivity|]); split; try discriminate; intuition discriminate.
Qed.
(** Overlay: dimension variables come from the top file, variables missing there from the base file, all
    others from both; reading throws exactly for a variable of the top file that is no dimension and
    not in the base file. *)
Theorem C82_overlay_source c cT cB n :
  (overlay_source c cT cB n = Throw <-> has_var cT n = true /\ has_dim c n = false /\ has_var cB n = false) /\
  (overlay_source c cT cB n = Ok FromInner <-> has_var cT n = true /\ has_dim c n = true) /\
  (overlay_source c cT cB n = Ok FromOuter <-> has_var cT n = false) /\
  (overlay_source c cT cB n = Ok FromBoth <-> has_var cT n = true /\ has_dim c n = false /\ has_var cB n = true).
Proof.
  unfold overlay_source. destruct (has_dim c n), (has_var cT n), (has_var cB n); cbn [andb negb]; intuition discriminate.
Qed.

(** ** the target grid of a merger *)

(** setTargetGridFromInner: the first inner variable that is in both files, is no dimension and has in both
    a complete coordinate system with simple axes and projections both in degrees or both not. *)
Theorem C82_target cI cO csI csO sI sO :
  target_systems cI cO csI csO (vars cI) = Some (sI, sO) <->
  exists pre v post, vars cI = pre ++ v :: post /\ gives_target cI cO csI csO v = Some (sI, sO) /\ forall w, In w pre -> gives_target cI cO csI csO w = None.
Proof.
  generalize (vars cI) at 1 2. induction l as [|v l IH]; cbn [target_systems].
  - split; [discriminate|]. intros ([|a pre] & v & post & E & _); discriminate.
  - destruct (gives_target cI cO csI csO v) as [g|] eqn:E.
    + split.
      * intros [= ->]. exists [], v, l. repeat split; [exact E|easy].
      * intros ([|a pre] & w & post & Q & W & P); cbn in Q; injection Q as -> ->; [congruence|]. rewrite P in E; [discriminate|now left].
    + rewrite IH. split.
      * intros (pre & w & post & -> & W & P). exists (v :: pre), w, post. repeat split; [exact W|]. intros u [<-|U]; auto.
      * intros ([|a pre] & w & post & Q & W & P); cbn in Q; injection Q as -> ->; [congruence|]. exists pre, w, post. repeat split; [exact W|]. intros u U. apply P. now right.
Qed.
Theorem C82_target_variable cI cO csI csO v sI sO : gives_target cI cO csI csO v = Some (sI, sO) <->
  has_var cO (v_name v) = true /\ has_dim cI (v_name v) = false /\ has_dim cO (v_name v) = false /\
  sys_of csI (v_name v) = Some sI /\ sys_of csO (v_name v) = Some sO /\ mc_simple sI = true /\ mc_simple sO = true /\
  mc_proj sI <> None /\ mc_proj sO <> None /\ mc_degree sI = mc_degree sO.
Proof.
  unfold gives_target. destruct (has_var cO (v_name v)), (has_dim cI (v_name v)), (has_dim cO (v_name v)); cbn [negb orb]; try (intuition discriminate).
  destruct (sys_of csI (v_name v)) as [tI|], (sys_of csO (v_name v)) as [tO|]; try (intuition discriminate).
  destruct (mc_simple tI) eqn:S1, (mc_simple tO) eqn:S2; cbn [andb negb];
    try (split; [discriminate|]; intros (_ & _ & _ & [= ->] & [= ->] & ? & ? & _); congruence).
  destruct (mc_proj tI) eqn:P1; [destruct (mc_proj tO) eqn:P2|];
    try (split; [discriminate|]; intros (_ & _ & _ & [= ->] & [= ->] & ? & ? & ? & ? & _); congruence).
  destruct (Bool.eqb (mc_degree tI) (mc_degree tO)) eqn:D.
  - apply Bool.eqb_prop in D. split.
    + intros [= -> ->]. repeat split; congruence.
    + intros (_ & _ & _ & [= ->] & [= ->] & _). reflexivity.
  - apply Bool.eqb_false_iff in D. split; [discriminate|]. intros (_ & _ & _ & [= ->] & [= ->] & ? & ? & ? & ? & X). contradiction.
Qed.

(** ** examples and findings *)

Definition mvar (n : string) (s : list string) : cvar := mkVar n DFloat s "" None.
Definition msys0 (vars_ deps : list string) (x y : string) (h : option string) : msys :=
  mkMsys (fun n => has n vars_) deps (Some "+proj=longlat") true true (Some x) (Some y) (fun t => match t with MHeight => h | _ => None end).
Definition units_attr (u : string) : list cattr := [mkAttr "units" DString [] u].
(** inner: t(lon,lat), q(lon,lat,k) and the grid mapping *)
Definition ex_inner : cdm :=
  mkCdm [mvar "lon" ["lon"]; mvar "lat" ["lat"]; mvar "map" []; mvar "t" ["lon"; "lat"]; mvar "q" ["lon"; "lat"; "k"]]
        [mkDim "lon" 4 false; mkDim "lat" 3 false; mkDim "k" 3 false]
        [("lat", units_attr "degrees_north"); ("lon", units_attr "degrees_east")].
Definition ex_csI : list msys := [msys0 ["t"; "q"] ["lon"; "lat"; "map"] "lon" "lat" None].
(** outer, interpolated: q has 5 levels there; w is only in the outer file *)
Definition ex_outer : cdm :=
  mkCdm [mvar "lon" ["lon"]; mvar "lat" ["lat"]; mvar "t" ["lon"; "lat"]; mvar "q" ["lon"; "lat"; "k"; "n"]; mvar "w" ["lon"; "lat"; "k"]]
        [mkDim "lon" 4 false; mkDim "lat" 3 false; mkDim "k" 5 false; mkDim "n" 2 true] [("w", units_attr "m")].
Definition ex_csO : list msys := [msys0 ["t"; "q"; "w"] ["lon"; "lat"] "lon" "lat" None].
Definition ex_values (n u : string) : outcome (option (list Q)) := Ok (Some (if String.eqb n "lon" then [1; 2; 3; 4]%Q else [1; 2; 3]%Q)).
Definition ex_merged (keep : bool) : outcome (cdm * cdm) := merged ex_values (fun _ => Ok (ex_outer, ex_csO)) 60 ex_inner ex_outer ex_csI keep.
Definition ex_names (o : outcome (cdm * cdm)) : list string := match o with Ok (r, _) => map v_name (vars r) | _ => [] end.

Ltac names_consistent :=
  constructor;
  [ cbn; repeat constructor; cbn; intuition discriminate
  | cbn; repeat constructor; cbn; intuition discriminate
  | unfold ssorted; cbn; repeat constructor
  | cbn; intuition (subst; cbn; tauto)
  | let n := fresh "n" in intro n; unfold attrs_of; cbn; repeat match goal with |- context [String.eqb n ?x] => destruct (String.eqb n x) end; cbn; repeat constructor; cbn; tauto ].
Lemma ex_inner_consistent : consistent ex_inner.
Proof. names_consistent. Qed.
Lemma ex_outer_consistent : consistent ex_outer.
Proof. names_consistent. Qed.

Example C82_nonvacuous :
  ex_names (ex_merged false) = ["lon"; "lat"; "map"; "t"] /\ consistent ex_inner /\ consistent ex_outer /\
  has_var ex_inner global_ns = false /\ has_var ex_outer global_ns = false /\
  is_compatible ex_inner ex_outer ex_csI ex_csO "t" = Ok true.
Proof.
  split; [vm_compute; reflexivity|]. split; [exact ex_inner_consistent|]. split; [exact ex_outer_consistent|]. repeat split; vm_compute; reflexivity.
Qed.
(** Finding: both units handed to the interpolation of the outer file are the unit of the x axis; with
    degrees_east and degrees_north, or km and m, the y axis has the wrong one. *)
Theorem C82_y_unit_refuted :
  exists g t, first_grid ex_outer ex_csI (vars ex_inner) = Some g /\ target_of ex_values ex_inner g = Ok t /\
    get_units ex_inner "lat" = "degrees_north" /\ t_yunit t = "degrees_east".
Proof. eexists. eexists. repeat split. Qed.
(** Finding: with all outer variables asked for, a variable that is in both files but not compatible is
    missing, and a variable taken from the outer file gets dimensions of the length of the inner file: w has 5
    levels, k has 3. *)
Theorem C82_keep_outer_refuted :
  ex_names (ex_merged true) = ["lon"; "lat"; "map"; "t"; "w"] /\ has_var ex_inner "q" = true /\ has_var ex_outer "q" = true /\
  match ex_merged true with Ok (r, _) => dlen r "k" = 3%N /\ find_var "w" (vars r) = find_var "w" (vars ex_outer) | _ => False end /\ dlen ex_outer "k" = 5%N.
Proof. split; [vm_compute; reflexivity|]. split; [reflexivity|]. split; [reflexivity|]. split; [vm_compute; split; reflexivity|reflexivity]. Qed.
(** Finding: the grid mapping and other auxiliary variables are kept from the top file, but reading them
    throws if the base file does not have them. *)
Theorem C82_auxiliary_unreadable_refuted :
  match ex_merged false with Ok (r, o) => has_var r "map" = true /\ overlay_source r ex_inner o "map" = Throw /\ smoothing_source r o "map" = Ok FromInner | _ => False end.
Proof. vm_compute. repeat split. Qed.
(** Finding: an axis that is no dimension, such as a single height as a scalar variable, makes the whole merge
    throw. *)
Definition ex_scalar (h : string) : list msys := [msys0 ["t"; "q"] ["lon"; "lat"] "lon" "lat" (Some h)].
Theorem C82_scalar_axis_refuted :
  merged ex_values (fun _ => Ok (ex_outer, ex_csO)) 60 ex_inner ex_outer (ex_scalar "height") false = Throw /\
  merged ex_values (fun _ => Ok (ex_outer, ex_scalar "height")) 60 ex_inner ex_outer ex_csI false = Throw.
Proof. split; vm_compute; reflexivity. Qed.
(** Finding: dimensions added from the outer file may give the result a second unlimited dimension. *)
Theorem C82_two_unlimited_refuted :
  match merged ex_values (fun _ => Ok (ex_outer, ex_csO)) 60 (mkCdm (vars ex_inner) (dims ex_inner ++ [mkDim "time" 7 true]) (attrs ex_inner)) ex_outer ex_csI true with
  | Ok (r, _) => filter d_unlim (dims r) = [mkDim "time" 7 true; mkDim "n" 2 true]
  | _ => False
  end.
Proof. vm_compute. reflexivity. Qed.
(** Finding: shapes that differ and a coordinate system without x or y axis: a null pointer is followed. *)
Theorem C82_no_horizontal_refuted :
  is_compatible ex_inner ex_outer [mkMsys (fun n => has n ["q"]) [] None false false None None (fun _ => None)] ex_csO "q" = UB.
Proof. vm_compute. reflexivity. Qed.

Example C82_nonvacuous_target :
  target_systems ex_inner ex_outer ex_csI ex_csO (vars ex_inner) = Some (msys0 ["t"; "q"] ["lon"; "lat"; "map"] "lon" "lat" None, msys0 ["t"; "q"; "w"] ["lon"; "lat"] "lon" "lat" None) /\
  real_dims ex_inner ["lon"; "lat"; "k"] = ["lon"; "lat"; "k"] /\
  corresponds ex_inner ex_outer "lon" "lat" "lon" "lat" "lon" "lon".
Proof. split; [reflexivity|]. split; [reflexivity|]. unfold corresponds. repeat split; congruence. Qed.
Print Assumptions C82_compatible.
Print Assumptions C82_compatible_other.
Print Assumptions C82_merged.
Print Assumptions C82_defined.
Print Assumptions C82_grid.
Print Assumptions C82_axis_rejected.
Print Assumptions C82_smoothing_source.
Print Assumptions C82_overlay_source.
Print Assumptions C82_target.
Print Assumptions C82_target_variable.
Print Assumptions C82_y_unit_refuted.
Print Assumptions C82_keep_outer_refuted.
Print Assumptions C82_auxiliary_unreadable_refuted.
Print Assumptions C82_scalar_axis_refuted.
Print Assumptions C82_two_unlimited_refuted.
Print Assumptions C82_no_horizontal_refuted.
