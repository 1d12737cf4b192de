(** C123: which converter a vertical transformation gives, and the columns of levels read through it. *)
From Coq Require Import PeanoNat NArith ZArith String List Bool Lia.
From Verif Require Import Base StdMap SliceModel SliceBuilderProofs SliceProps ShapeModel ShapeProps VselModel.
Import ListNotations.
Local Open Scope list_scope.
Local Open Scope nat_scope.

(** ** Statement *)
(** the first element with a property *)
Definition first_such {A} (P : A -> Prop) (l : list A) (x : A) : Prop :=
  exists a b, l = a ++ x :: b /\ P x /\ forall y, In y a -> ~ P y.
Definition none_such {A} (P : A -> Prop) (l : list A) : Prop := forall y, In y l -> ~ P y.
(** variables have names, and no name twice *)
Definition named (w : world) : Prop := (forall v, In v (w_vars w) -> v_name v <> ""%string) /\ NoDup (map v_name (w_vars w)).
(** the variable lives on the coordinate system and has one of the standard names *)
Definition here (names : list string) (v : var) : Prop := v_here v = true /\ exists s, v_std v = Some s /\ In s names.
(** the variable has the standard name and all the dimensions *)
Definition over (name : string) (dims : list string) (v : var) : Prop := v_std v = Some name /\ incl dims (v_shape v).

Definition PRESSURE : list string := ["pressure"; "air_pressure"]%string.
Definition HEIGHTS : list string := ["geopotential_height"]%string.

(** ** Searches *)
Lemma find_first {A} (f : A -> bool) P l : (forall x, f x = true <-> P x) ->
  match find f l with Some x => first_such P l x | None => none_such P l end.
Proof.
  intro E. induction l as [|a l IH]; cbn [find]; [intros y []|].
  destruct (f a) eqn:F.
  - exists [], l. split; [reflexivity|]. split; [now apply E|intros y []].
  - destruct (find f l) as [x|].
    + destruct IH as (u & v & -> & PX & N). exists (a :: u), v. split; [reflexivity|]. split; [exact PX|].
      intros y [<-|I]; [intro Y; apply E in Y; congruence | now apply N].
    + intros y [<-|I]; [intro Y; apply E in Y; congruence | now apply IH].
Qed.
Lemma first_unique {A} (P : A -> Prop) (dec : forall x, P x \/ ~ P x) l : forall x y, first_such P l x -> first_such P l y -> x = y.
Proof.
  induction l as [|a l IH]; intros x y (u & v & E & PX & N) (u' & v' & E' & PY & N').
  - destruct u; discriminate E.
  - destruct u as [|u0 u], u' as [|u0' u']; cbn [List.app] in E, E'; injection E as E1 E; injection E' as E1' E'.
    + congruence.
    + exfalso. apply (N' u0'); [now left|]. rewrite <- E1', E1. exact PX.
    + exfalso. apply (N u0); [now left|]. rewrite <- E1, E1'. exact PY.
    + apply IH; [exists u, v | exists u', v']; repeat split; auto; intros z Z; [apply N | apply N']; now right.
Qed.
Lemma find_filter {A} (f g : A -> bool) l : find g (filter f l) = find (fun x => f x && g x) l.
Proof. induction l as [|a l IH]; [reflexivity|]. cbn [filter find]. destruct (f a); cbn [find andb]; [destruct (g a); [reflexivity|exact IH] | exact IH]. Qed.
Lemma head_filter {A} (f : A -> bool) l : match filter f l with x :: _ => Some x | [] => None end = find f l.
Proof. induction l as [|a l IH]; [reflexivity|]. cbn [filter find]. destruct (f a); [reflexivity|exact IH]. Qed.

Lemma has_dims_incl dims v : has_dims dims v = true <-> incl dims (v_shape v).
Proof.
  unfold has_dims. rewrite forallb_forall. split; intros H d I.
  - specialize (H d I). apply existsb_exists in H. destruct H as (x & X & E). apply String.eqb_eq in E. now subst.
  - apply existsb_exists. exists d. split; [now apply H|apply String.eqb_refl].
Qed.

Lemma with_cs_spec w p names : (forall s, p s = true <-> In s names) ->
  (exists v, first_such (here names) (w_vars w) v /\ with_cs w p = v_name v) \/
  none_such (here names) (w_vars w) /\ with_cs w p = ""%string.
Proof.
  intro P. unfold with_cs, find_vars. rewrite find_filter.
  assert (forall v, has_std p v && has_dims [] v && v_here v = true <-> here names v) as E.
  { intro v. unfold has_std, has_dims, here. cbn [forallb]. rewrite andb_true_r, andb_true_iff. destruct (v_std v) as [s|]; split.
    - intros (A & B). split; [exact B|]. exists s. split; [reflexivity|now apply P].
    - intros (A & s' & B & C). injection B as <-. split; [now apply P|exact A].
    - intros (A & _). discriminate A.
    - intros (_ & s & B & _). discriminate B. }
  assert (F := find_first (fun v => has_std p v && has_dims [] v && v_here v) (here names) (w_vars w) E).
  destruct (find (fun v => has_std p v && has_dims [] v && v_here v) (w_vars w)) as [v|]; [left; exists v; now split | right; now split].
Qed.
Lemma with_dims_spec w n dims :
  (exists v, first_such (over n dims) (w_vars w) v /\ with_dims w n dims = v_name v) \/
  none_such (over n dims) (w_vars w) /\ with_dims w n dims = ""%string.
Proof.
  unfold with_dims, find_vars.
  assert (forall v, has_std (String.eqb n) v && has_dims dims v = true <-> over n dims v) as E.
  { intro v. unfold over. rewrite andb_true_iff, has_dims_incl. unfold has_std. destruct (v_std v) as [s|]; split; intros (A & B).
    - apply String.eqb_eq in A. subst. now split.
    - injection A as ->. split; [apply String.eqb_refl|exact B].
    - discriminate A.
    - discriminate A. }
  assert (F := find_first (fun v => has_std (String.eqb n) v && has_dims dims v) (over n dims) (w_vars w) E).
  rewrite <- head_filter in F.
  destruct (filter (fun v => has_std (String.eqb n) v && has_dims dims v) (w_vars w)) as [|v r]; [right; now split | left; exists v; now split].
Qed.

Lemma first_in {A} (P : A -> Prop) l x : first_such P l x -> In x l /\ P x.
Proof. intros (a & b & -> & PX & _). split; [apply in_or_app; right; now left | exact PX]. Qed.
Lemma identity_name w v u : named w -> In v (w_vars w) -> identity (v_name v) u = Some (Identity (v_name v) u).
Proof. intros (N & _) I. unfold identity. destruct (String.eqb_spec (v_name v) ""%string) as [E|E]; [now apply N in E|reflexivity]. Qed.
Lemma is_pressure_in s : is_pressure s = true <-> In s PRESSURE.
Proof.
  unfold is_pressure, PRESSURE. rewrite orb_true_iff, !String.eqb_eq. cbn [In].
  split; [intros [-> | ->]; auto | intros [<- | [<- | []]]; auto].
Qed.
Lemma heights_in s : String.eqb "geopotential_height" s = true <-> In s HEIGHTS.
Proof. unfold HEIGHTS. rewrite String.eqb_eq. cbn [In]. split; [auto|intros [E|[]]; exact E]. Qed.

Lemma find_pressure_spec w tr : named w ->
  (exists v, first_such (here PRESSURE) (w_vars w) v /\ find_pressure w tr = Ok (Some (Identity (v_name v) "hPa"))) \/
  none_such (here PRESSURE) (w_vars w) /\ find_pressure w tr = own_pressure tr.
Proof.
  intro N. unfold find_pressure. destruct (with_cs_spec w is_pressure PRESSURE is_pressure_in) as [(v & F & ->)|(F & ->)].
  - left. exists v. split; [exact F|]. rewrite (identity_name w) by (exact N || apply (first_in _ _ _ F)). reflexivity.
  - right. split; [exact F|reflexivity].
Qed.
Lemma none_first {A} (P : A -> Prop) l x : none_such P l -> first_such P l x -> False.
Proof. intros N F. apply first_in in F. destruct F as (I & PX). exact (N x I PX). Qed.
Lemma here_dec names v : here names v \/ ~ here names v.
Proof.
  unfold here. destruct (v_here v); [|right; intros (X & _); discriminate X].
  destruct (v_std v) as [s|]; [|right; intros (_ & s & X & _); discriminate X].
  destruct (in_dec string_dec s names); [left; split; [reflexivity|]; now exists s | right; intros (_ & s' & X & Y); injection X as <-; contradiction].
Qed.

(** ** Pressures *)
(** A pressure of the file on the coordinate system is used, the first one, whatever the transformation; else the
    transformation's own formula, if it has one. *)
Theorem C123_pressure : forall w tr, named w ->
  (forall v, first_such (here PRESSURE) (w_vars w) v -> get_converter w tr 0 = Ok (Some (Identity (v_name v) "hPa"))) /\
  (none_such (here PRESSURE) (w_vars w) ->
    get_converter w tr 0 =
    match tr with
    | TPressure v => Ok (if String.eqb v "" then None else Some (Identity v "hPa"))
    | TLnPressure lev p0 => Ok (Some (LnToPressure lev p0))
    | TSigma sigma ps ptop => Ok (Some (SigmaToPressure sigma ps ptop))
    | THybrid1 ap b ps => Ok (Some (HybridApToPressure ap b ps))
    | THybrid2 a b ps p0 => Ok (Some (HybridToPressure a b p0 ps))
    | TOcean _ _ _ => Throw
    | THeight _ _ | TDepth _ | THybridHeight _ _ _ => Ok None
    end).
Proof.
  intros w tr N. change (get_converter w tr 0) with (find_pressure w tr).
  destruct (find_pressure_spec w tr N) as [(v & F & E)|(F & E)]; split.
  - intros v' F'. rewrite (first_unique _ (here_dec PRESSURE) _ _ _ F' F). exact E.
  - intro X. destruct (none_first _ _ _ X F).
  - intros v' F'. destruct (none_first _ _ _ F F').
  - intros _. rewrite E. destruct tr; reflexivity.
Qed.

(** ** Altitudes of the transformations with pressures *)
Definition of_pressure (tr : trans) : Prop :=
  match tr with TPressure _ | TLnPressure _ _ | TSigma _ _ _ | THybrid1 _ _ _ | THybrid2 _ _ _ _ => True | _ => False end.
(** the dimensions of a variable without the axis and without those of length 1 *)
Definition without (w : world) (names : list string) (dims : list string) : list string :=
  filter (fun d => negb (existsb (String.eqb d) names) && match w_len w d with Some n => negb (N.eqb n 1) | None => false end) dims.
Definition name_of (a : option axis) : list string := match a with Some x => [a_name x] | None => [] end.

Lemma remove_filter len l : remove_length1 len l = filter (fun d => match len d with Some n => negb (N.eqb n 1) | None => false end) l.
Proof. induction l as [|d l IH]; [reflexivity|]. cbn [remove_length1 filter]. destruct (len d) as [n|]; [destruct (N.eqb n 1); cbn [negb]; now rewrite IH|exact IH]. Qed.
Lemma filter_filter {A} (f g : A -> bool) l : filter f (filter g l) = filter (fun x => g x && f x) l.
Proof. induction l as [|a l IH]; [reflexivity|]. cbn [filter]. destruct (g a); cbn [filter andb]; [destruct (f a); now rewrite IH|exact IH]. Qed.
Lemma erase_filter a l : erase_axis a l = filter (fun d => negb (existsb (String.eqb d) (name_of a))) l.
Proof.
  destruct a as [x|]; cbn [erase_axis name_of]; unfold erase_value.
  - apply filter_ext. intro d. cbn [existsb]. now rewrite orb_false_r.
  - cbn [existsb negb]. induction l as [|d l IH]; [reflexivity|]. cbn [filter]. now rewrite <- IH.
Qed.
Lemma surface_dims w ts : remove_length1 (w_len w) (erase_axis (w_z w) ts) = without w (name_of (w_z w)) ts.
Proof. rewrite remove_filter, erase_filter, filter_filter. reflexivity. Qed.
Lemma ground_dims w ts : erase_axis (w_t w) (without w (name_of (w_z w)) ts) = without w (name_of (w_z w) ++ name_of (w_t w)) ts.
Proof.
  rewrite erase_filter. unfold without. rewrite filter_filter. apply filter_ext. intro d. rewrite existsb_app, negb_orb.
  destruct (existsb (String.eqb d) (name_of (w_z w))), (existsb (String.eqb d) (name_of (w_t w))); cbn [negb andb]; now rewrite ?andb_false_r, ?andb_true_r.
Qed.
Lemma shape_named w v : named w -> In v (w_vars w) -> shape_of w (v_name v) = Ok (v_shape v).
Proof.
  intros (_ & ND) I. unfold shape_of.
  assert (find (fun u => String.eqb (v_name u) (v_name v)) (w_vars w) = Some v) as ->; [|reflexivity].
  induction (w_vars w) as [|a l IH]; [destruct I|]. cbn [find]. cbn [map] in ND. inversion ND as [|? ? N1 N2]; subst.
  destruct (String.eqb_spec (v_name a) (v_name v)) as [E|E].
  - destruct I as [<-|I]; [reflexivity|]. exfalso. apply N1. rewrite E. now apply in_map.
  - destruct I as [<-|I]; [congruence|]. now apply IH.
Qed.

(** The hypsometric equation is used exactly if there is a temperature with the dimensions of the pressure, a surface
    pressure and a surface geopotential; and then with the first of each. *)
Theorem C123_integration : forall w p ps, named w -> shape w p = Ok ps ->
  (forall t sap gp, first_such (over "air_temperature" ps) (w_vars w) t ->
    first_such (over "surface_air_pressure" (without w (name_of (w_z w)) (v_shape t))) (w_vars w) sap ->
    first_such (over "surface_geopotential" (without w (name_of (w_z w) ++ name_of (w_t w)) (v_shape t))) (w_vars w) gp ->
    exists q, integrated w p = Ok (Some (Integrated p (v_name t) q (v_name sap) (v_name gp))) /\
      ((exists v, first_such (over "specific_humidity" ps) (w_vars w) v /\ q = v_name v) \/
       none_such (over "specific_humidity" ps) (w_vars w) /\ q = ""%string)) /\
  (none_such (over "air_temperature" ps) (w_vars w) -> integrated w p = Ok None) /\
  (forall t, first_such (over "air_temperature" ps) (w_vars w) t ->
    none_such (over "surface_air_pressure" (without w (name_of (w_z w)) (v_shape t))) (w_vars w) \/
    none_such (over "surface_geopotential" (without w (name_of (w_z w) ++ name_of (w_t w)) (v_shape t))) (w_vars w) ->
    integrated w p = Ok None).
Proof.
  intros w p ps N SP.
  assert (forall n dims v, over n dims v \/ ~ over n dims v) as OD.
  { intros n dims v. unfold over. destruct (v_std v) as [s|]; [|right; intros (X & _); discriminate X].
    destruct (string_dec s n) as [->|NE]; [|right; intros (X & _); injection X as X; contradiction].
    destruct (has_dims dims v) eqn:H; [left; split; [reflexivity|now apply has_dims_incl] | right; intros (_ & X); apply has_dims_incl in X; congruence]. }
  assert (forall v, In v (w_vars w) -> String.eqb (v_name v) "" = false) as NE.
  { intros v I. destruct (String.eqb_spec (v_name v) ""%string) as [E|E]; [now apply (proj1 N) in E|reflexivity]. }
  unfold integrated. rewrite SP. cbn [obind]. cbv zeta.
  destruct (with_dims_spec w "air_temperature" ps) as [(t0 & F & ->)|(F & ->)].
  - destruct (first_in _ _ _ F) as (I & _). rewrite (NE t0 I), (shape_named w t0 N I). cbn [obind].
    rewrite surface_dims, ground_dims. split; [|split].
    + intros t sap gp T S G. assert (t = t0) as -> by exact (first_unique _ (OD _ _) _ _ _ T F).
      destruct (with_dims_spec w "surface_air_pressure" (without w (name_of (w_z w)) (v_shape t0))) as [(s0 & FS & ->)|(FS & _)];
        [|destruct (none_first _ _ _ FS S)].
      destruct (with_dims_spec w "surface_geopotential" (without w (name_of (w_z w) ++ name_of (w_t w)) (v_shape t0))) as [(g0 & FG & ->)|(FG & _)];
        [|destruct (none_first _ _ _ FG G)].
      assert (s0 = sap) as -> by exact (first_unique _ (OD _ _) _ _ _ FS S).
      assert (g0 = gp) as -> by exact (first_unique _ (OD _ _) _ _ _ FG G).
      rewrite (NE sap (proj1 (first_in _ _ _ S))), (NE gp (proj1 (first_in _ _ _ G))). cbn [orb].
      eexists. split; [reflexivity|]. apply with_dims_spec.
    + intro X. destruct (none_first _ _ _ X F).
    + intros t T H. assert (t = t0) as -> by exact (first_unique _ (OD _ _) _ _ _ T F). destruct H as [H|H].
      * destruct (with_dims_spec w "surface_air_pressure" (without w (name_of (w_z w)) (v_shape t0))) as [(s0 & FS & _)|(_ & ->)];
          [destruct (none_first _ _ _ H FS)|]. reflexivity.
      * destruct (with_dims_spec w "surface_geopotential" (without w (name_of (w_z w) ++ name_of (w_t w)) (v_shape t0))) as [(g0 & FG & _)|(_ & ->)];
          [destruct (none_first _ _ _ H FG)|]. cbn. rewrite orb_true_r. reflexivity.
  - cbn. split; [|split].
    + intros t sap gp T. destruct (none_first _ _ _ F T).
    + reflexivity.
    + intros t T. destruct (none_first _ _ _ F T).
Qed.

(** A geopotential height on the coordinate system comes first, then the hypsometric equation, then the standard
    atmosphere. *)
Theorem C123_altitude : forall w tr, named w -> of_pressure tr ->
  (forall v, first_such (here HEIGHTS) (w_vars w) v -> get_converter w tr 4 = Ok (Some (Identity (v_name v) "m"))) /\
  (none_such (here HEIGHTS) (w_vars w) ->
    (get_converter w tr 0 = Ok None -> get_converter w tr 4 = Ok None) /\
    (forall p, get_converter w tr 0 = Ok (Some p) ->
      (forall c, integrated w p = Ok (Some c) -> get_converter w tr 4 = Ok (Some c)) /\
      (integrated w p = Ok None -> get_converter w tr 4 = Ok (Some (Standard p))))).
Proof.
  intros w tr N P. assert (get_converter w tr 4 = default_altitude w tr) as -> by (destruct tr; [destruct P|destruct P| | | | | |destruct P|destruct P]; reflexivity).
  change (get_converter w tr 0) with (find_pressure w tr). unfold default_altitude.
  destruct (with_cs_spec w (String.eqb "geopotential_height") HEIGHTS heights_in) as [(v & F & ->)|(F & ->)].
  - rewrite (identity_name w) by (exact N || apply (first_in _ _ _ F)). split.
    + intros v' F'. now rewrite (first_unique _ (here_dec HEIGHTS) _ _ _ F' F).
    + intro X. destruct (none_first _ _ _ X F).
  - split; [intros v' F'; destruct (none_first _ _ _ F F')|]. intros _. change (identity "" "m") with (@None conv). cbv iota. split.
    + intro E. rewrite E. reflexivity.
    + intros p E. rewrite E. cbn [obind]. split; [intros c I | intro I]; rewrite I; reflexivity.
Qed.

(** ** Heights *)
(** the topography: a variable over the horizontal dimensions with a coordinate system of its own, on one level *)
Definition TOPOGRAPHY : list string := ["surface_geopotential"; "surface_altitude"; "altitude"; "geopotential_height"; "geopotential"]%string.
Definition usable (w : world) (dx dy : string) (v : var) : Prop :=
  (exists s, v_std v = Some s /\ In s TOPOGRAPHY) /\ In dx (v_shape v) /\ In dy (v_shape v) /\
  (v_cs v = Some None \/ exists d r, v_cs v = Some (Some (d :: r)) /\ w_len w d = Some 1%N).
(** vertical axes have a dimension, which is known *)
Definition levels_known (w : world) : Prop := forall v z, In v (w_vars w) -> v_cs v = Some (Some z) ->
  exists d r n, z = d :: r /\ w_len w d = Some n.
Definition in_metres (v : var) : bool :=
  match v_std v with Some s => negb (String.eqb s "surface_geopotential" || String.eqb s "geopotential") | None => false end.

Lemma is_topography_in s : is_topography s = true <-> In s TOPOGRAPHY.
Proof.
  unfold is_topography. rewrite existsb_exists. split.
  - intros (x & I & E). apply String.eqb_eq in E. now subst.
  - intro I. exists s. split; [exact I|apply String.eqb_refl].
Qed.
Lemma topography_first w dx dy : levels_known w -> forall l, incl l (w_vars w) ->
  (exists v, topography_loop w (filter (fun v => has_std is_topography v && has_dims [dx; dy] v) l) = Ok (Some v) /\ first_such (usable w dx dy) l v) \/
  topography_loop w (filter (fun v => has_std is_topography v && has_dims [dx; dy] v) l) = Ok None /\ none_such (usable w dx dy) l.
Proof.
  intros K l. induction l as [|a l IH]; intro IN; [right; split; [reflexivity|intros y []]|].
  assert (incl l (w_vars w)) as IN' by (intros x X; apply IN; now right). specialize (IH IN').
  assert (has_std is_topography a && has_dims [dx; dy] a = true <->
    (exists s, v_std a = Some s /\ In s TOPOGRAPHY) /\ In dx (v_shape a) /\ In dy (v_shape a)) as CAND.
  { rewrite andb_true_iff, has_dims_incl. unfold has_std. split.
    - intros (A & B). split; [|split; apply B; cbn [In]; auto].
      destruct (v_std a) as [s|]; [|discriminate A]. exists s. split; [reflexivity|now apply is_topography_in].
    - intros ((s & A & B) & C & D). split; [rewrite A; now apply is_topography_in|]. intros d [<- | [<- | []]]; assumption. }
  assert (SKIP : ~ usable w dx dy a ->
    (exists v, topography_loop w (filter (fun v => has_std is_topography v && has_dims [dx; dy] v) l) = Ok (Some v) /\ first_such (usable w dx dy) (a :: l) v) \/
    topography_loop w (filter (fun v => has_std is_topography v && has_dims [dx; dy] v) l) = Ok None /\ none_such (usable w dx dy) (a :: l)).
  { intro NU. destruct IH as [(v & E & u & b & -> & U & N)|(E & N)].
    - left. exists v. split; [exact E|]. exists (a :: u), b. split; [reflexivity|]. split; [exact U|]. intros y [<-|Y]; [exact NU|now apply N].
    - right. split; [exact E|]. intros y [<-|Y]; [exact NU|now apply N]. }
  cbn [filter]. destruct (has_std is_topography a && has_dims [dx; dy] a) eqn:C.
  - assert (C' := proj1 CAND eq_refl). clear C. rename C' into C. cbn [topography_loop]. destruct (v_cs a) as [[z|]|] eqn:CS.
    + destruct (K a z (IN a (or_introl eq_refl)) CS) as (d & r & n & -> & L). cbn [axis_dim obind]. rewrite L.
      destruct (N.eqb_spec n 1) as [->|NE].
      * left. exists a. split; [reflexivity|]. exists [], l. split; [reflexivity|]. split; [|intros y []].
        destruct C as (C1 & C2 & C3). repeat split; auto. right. exists d, r. now split.
      * apply SKIP. intros (_ & _ & _ & [X|(d' & r' & X & Y)]); congruence.
    + left. exists a. split; [reflexivity|]. exists [], l. split; [reflexivity|]. split; [|intros y []].
      destruct C as (C1 & C2 & C3). repeat split; auto.
    + apply SKIP. intros (_ & _ & _ & [X|(d' & r' & X & Y)]); congruence.
  - apply SKIP. intros (U1 & U2 & U3 & _). assert (X := proj2 CAND (conj U1 (conj U2 U3))). discriminate X.
Qed.

(** Heights are altitudes minus the topography, altitudes of heights are heights plus the topography; there is no
    converter if no topography is found or a horizontal axis is missing. *)
Theorem C123_topography : forall w c add, named w -> levels_known w ->
  (w_x w = None \/ w_y w = None -> topography w (Some c) add = Ok None) /\
  (forall x y dx rx dy ry, w_x w = Some x -> w_y w = Some y -> a_shape x = dx :: rx -> a_shape y = dy :: ry ->
    (forall v, first_such (usable w dx dy) (w_vars w) v -> topography w (Some c) add = Ok (Some (Topography c (v_name v) add (in_metres v)))) /\
    (none_such (usable w dx dy) (w_vars w) -> topography w (Some c) add = Ok None)).
Proof.
  intros w c add N K. unfold topography. split.
  - intros [-> | ->]; [reflexivity|]. destruct (w_x w); reflexivity.
  - intros x y dx rx dy ry -> -> -> ->. cbn [nth_error rd obind].
    assert (forall v, usable w dx dy v \/ ~ usable w dx dy v) as UD.
    { intro v. unfold usable. destruct (v_std v) as [s|]; [|right; intros ((s & X & _) & _); discriminate X].
      destruct (in_dec string_dec s TOPOGRAPHY); [|right; intros ((s' & X & Y) & _); injection X as <-; contradiction].
      destruct (in_dec string_dec dx (v_shape v)); [|right; intros (_ & X & _); contradiction].
      destruct (in_dec string_dec dy (v_shape v)); [|right; intros (_ & _ & X & _); contradiction].
      destruct (v_cs v) as [[[|d r]|]|]; try (right; intros (_ & _ & _ & [X|(d' & r' & X & _)]); discriminate).
      - destruct (w_len w d) as [m|] eqn:L; [|right; intros (_ & _ & _ & [X|(d' & r' & X & Y)]); [discriminate|injection X as <- <-; congruence]].
        destruct (N.eq_dec m 1) as [->|NE]; [left; repeat split; auto; [now exists s|right; now exists d, r] |
          right; intros (_ & _ & _ & [X|(d' & r' & X & Y)]); [discriminate|injection X as <- <-; congruence]].
      - left. repeat split; auto. now exists s. }
    unfold find_vars. destruct (topography_first w dx dy K (w_vars w) (incl_refl _)) as [(v & E & F)|(E & F)]; rewrite E; cbn [obind option_map]; split.
    + intros v' F'. rewrite (first_unique _ UD _ _ _ F' F). do 3 f_equal.
      destruct (first_in _ _ _ F) as (_ & (s & S & T) & _). unfold has_std, in_metres, is_metres. rewrite S.
      cbn [existsb orb]. unfold TOPOGRAPHY in T. cbn [In] in T. decompose [or] T; subst; try reflexivity. contradiction.
    + intro X. destruct (none_first _ _ _ X F).
    + intros v' F'. destruct (none_first _ _ _ F F').
    + reflexivity.
Qed.
Theorem C123_height : forall w tr,
  (forall v, v <> ""%string ->
    get_converter w (THeight v false) 1 = Ok (Some (Identity v "m")) /\ get_converter w (THeight v true) 4 = Ok (Some (Identity v "m")) /\
    get_converter w (THeight v true) 1 = topography w (Some (Identity v "m")) false /\
    get_converter w (THeight v false) 4 = topography w (Some (Identity v "m")) true) /\
  (of_pressure tr \/ (exists a b o, tr = THybridHeight a b o) ->
    (forall c, get_converter w tr 4 = Ok (Some c) -> get_converter w tr 1 = topography w (Some c) false) /\
    (get_converter w tr 4 = Ok None -> get_converter w tr 1 = Ok None)).
Proof.
  intros w tr. split.
  - intros v NE. cbn [get_converter Z.eqb]. unfold get_converter, height_converter, altitude_converter, identity.
    destruct (String.eqb_spec v ""%string); [contradiction|]. repeat split.
  - intro H. change (get_converter w tr 4) with (altitude_converter w tr). change (get_converter w tr 1) with (height_converter w tr).
    assert (height_converter w tr = (do a <- altitude_converter w tr; match a with Some c => topography w (Some c) false | None => Ok None end)) as ->.
    { destruct H as [P|(a & b & o & ->)]; [destruct tr; try destruct P|]; reflexivity. }
    split; [intros c E | intro E]; rewrite E; reflexivity.
Qed.

(** Depths only of depths and ocean levels, which have no altitudes and heights; other types are refused *)
Theorem C123_depth : forall w tr,
  get_converter w tr 2 = Ok (match tr with
                             | TDepth v => if String.eqb v "" then None else Some (Identity v "m")
                             | TOcean depth eta s => Some (OceanToDepth depth eta s)
                             | _ => None
                             end) /\
  (forall v, tr = TDepth v -> get_converter w tr 1 = Ok None /\ get_converter w tr 4 = Ok None) /\
  (forall d e s, tr = TOcean d e s -> get_converter w tr 1 = Throw /\ get_converter w tr 4 = Throw) /\
  (forall ty, ty <> 0%Z -> ty <> 1%Z -> ty <> 2%Z -> ty <> 4%Z -> get_converter w tr ty = Throw) /\
  In (preferred tr) [0; 1; 2; 4]%Z.
Proof.
  intros w tr. split; [destruct tr; reflexivity|]. split; [intros v ->; split; reflexivity|]. split; [intros d e s ->; split; reflexivity|]. split.
  - intros ty H0 H1 H2 H4. unfold get_converter.
    destruct (Z.eqb_spec ty 0), (Z.eqb_spec ty 1), (Z.eqb_spec ty 4), (Z.eqb_spec ty 2); try contradiction. reflexivity.
  - destruct tr as [? []| | | | | | | |]; cbn; auto.
Qed.
(** the preferred type of a transformation always has a converter *)
Theorem C123_preferred : forall w tr, named w ->
  (forall v a, tr = THeight v a -> v <> ""%string) -> (forall v, tr = TDepth v -> v <> ""%string) -> (forall v, tr = TPressure v -> v <> ""%string) ->
  exists c, get_converter w tr (preferred tr) = Ok (Some c).
Proof.
  intros w tr N H1 H2 H3. destruct (C123_pressure w tr N) as (P1 & P2).
  assert (match tr with THeight _ _ | TDepth _ | TOcean _ _ _ | THybridHeight _ _ _ => True | _ => preferred tr = 0%Z end) as PR by (destruct tr; exact I || reflexivity).
  assert (forall v u, v <> ""%string -> identity v u = Some (Identity v u)) as ID.
  { intros v u NE. unfold identity. destruct (String.eqb_spec v ""%string); [contradiction|reflexivity]. }
  assert (forall c, (none_such (here PRESSURE) (w_vars w) -> get_converter w tr 0 = Ok (Some c)) -> exists c, get_converter w tr 0 = Ok (Some c)) as A.
  { intros c C. destruct (find_pressure_spec w tr N) as [(v & F & _)|(F & _)]; [eexists; apply (P1 v F) | exists c; exact (C F)]. }
  destruct tr as [v a|v|v|lev p0|sg ps pt|ap b ps|a b ps p0|d e s|a b o].
  - specialize (H1 v a eq_refl). destruct a; [|]; eexists; cbn [preferred]; unfold get_converter, altitude_converter, height_converter; cbn [Z.eqb Pos.eqb]; rewrite (ID v "m"%string H1); reflexivity.
  - specialize (H2 v eq_refl). eexists. cbn [preferred]. unfold get_converter, depth_converter. cbn [Z.eqb Pos.eqb]. rewrite (ID v "m"%string H2). reflexivity.
  - specialize (H3 v eq_refl). cbn [preferred]. apply (A (Identity v "hPa")). intro X. rewrite (P2 X). destruct (String.eqb_spec v ""%string); [contradiction|reflexivity].
  - cbn [preferred]. eapply A. exact P2.
  - cbn [preferred]. eapply A. exact P2.
  - cbn [preferred]. eapply A. exact P2.
  - cbn [preferred]. eapply A. exact P2.
  - eexists. reflexivity.
  - eexists. reflexivity.
Qed.

(** ** Columns *)
Definition dim_of (a : option axis) : option string := match a with Some x => hd_error (a_shape x) | None => None end.
Definition is_dim (a : option axis) (d : string) : bool := match dim_of a with Some e => String.eqb e d | None => false end.
(** the position asked for along a dimension: that of the horizontal axes, and of the time axis, which is the record if
    the time is unlimited *)
Definition wanted (w : world) (pos x y t : N) (d : string) : option N :=
  if is_dim (w_x w) d then Some x
  else if is_dim (w_y w) d then Some y
  else if is_dim (w_t w) d then Some (if w_unlim w d then pos else t)
  else None.
Definition length_of (w : world) (d : string) : N := match w_len w d with Some n => n | None => 1%N end.

Section Requests.
  Variables (len : string -> option N) (names : list string) (sb0 : slice_builder).
  Hypothesis INIT : create_builder len names = Ok sb0.
  Hypothesis ND : NoDup names.
  Hypothesis LT : forall d n, len d = Some n -> (n < M64)%N.
  Let ln d := match len d with Some n => n | None => 1%N end.

  Lemma sizes_small : Forall (fun m => (m < M64)%N) (dim_sizes len names).
  Proof.
    apply Forall_forall. intros m I. unfold dim_sizes in I. apply in_map_iff in I. destruct I as (d & <- & _).
    destruct (len d) as [n|] eqn:E; [exact (LT d n E)|reflexivity].
  Qed.
  Lemma place d : In d names -> exists p, nth_error names p = Some d /\ nth_error (dim_sizes len names) p = Some (ln d) /\
    nth_error (map (fun _ : string => false) names) p = Some false.
  Proof.
    intro I. apply In_nth_error in I. destruct I as [p Hp]. exists p. split; [exact Hp|]. unfold dim_sizes.
    rewrite !nth_error_map, Hp. split; reflexivity.
  Qed.
  Definition op_of (p : string * N) : sb_op := SetStartAndSize (fst p) (snd p) 1.

  Lemma set_one_step ops d i : Forall no_wrap ops -> (i + 1 < M64)%N -> d <> ""%string -> In d names ->
    set_one d i (sb_run sb0 ops) = if (i + 1 <=? ln d)%N then Ok (sb_run sb0 (ops ++ [op_of (d, i)])) else Throw.
  Proof.
    intros NW W NE I. unfold set_one. destruct (String.eqb_spec d ""%string); [contradiction|].
    destruct (place d I) as (p & Hp & Hm & Hu).
    assert (F := run_frame names (dim_sizes len names) (map (fun _ => false) names) sb0 INIT ND sizes_small ops NW).
    rewrite (run_snoc sb0 ops (op_of (d, i))). unfold sb_step, sb_apply, op_of. cbn [fst snd].
    unfold sb_setStartAndSize. rewrite (getDimPos_in names (dim_sizes len names) (map (fun _ => false) names) ND (sb_run sb0 ops) d p F Hp). cbn [obind].
    destruct F as (F1 & F2 & F3 & _). unfold at_. rewrite F3, Hu, F2, Hm. cbn [obind].
    rewrite add64_small by exact W. cbn [negb andb]. rewrite N.leb_antisym. destruct (ln d <? i + 1)%N; reflexivity.
  Qed.

  Definition is_set (p : string * N) : bool := negb (String.eqb (fst p) "").
  Definition fits (p : string * N) : bool := negb (is_set p) || (snd p + 1 <=? ln (fst p))%N.
  Lemma run_list l : forall ops, Forall no_wrap ops -> (forall p, In p l -> (snd p + 1 < M64)%N /\ (fst p = ""%string \/ In (fst p) names)) ->
    ofold (fun sb p => set_one (fst p) (snd p) sb) l (sb_run sb0 ops) =
    if forallb fits l then Ok (sb_run sb0 (ops ++ map op_of (filter is_set l))) else Throw.
  Proof.
    induction l as [|(d, i) l IH]; intros ops NW H; cbn [ofold forallb filter]; [cbn [map]; rewrite app_nil_r; reflexivity|].
    destruct (H (d, i) (or_introl eq_refl)) as (W & I). cbn [fst snd] in *.
    change (is_set (d, i)) with (negb (String.eqb d "")). change (fits (d, i)) with (negb (negb (String.eqb d "")) || (i + 1 <=? ln d)%N).
    destruct (String.eqb_spec d ""%string) as [->|NE].
    - cbn [negb orb andb]. unfold set_one at 1. cbn [String.eqb obind]. apply IH; [exact NW|]. intros p P. apply H. now right.
    - destruct I as [I|I]; [contradiction|]. cbn [negb orb]. rewrite (set_one_step ops d i NW W NE I).
      destruct (i + 1 <=? ln d)%N eqn:L; cbn [andb obind]; [|reflexivity].
      rewrite IH; [|apply Forall_app; split; [exact NW|repeat constructor; exact W]|intros p P; apply H; now right].
      cbn [map]. rewrite <- app_assoc. reflexivity.
  Qed.
  Lemma get_list l d : (forall p, In p l -> (snd p + 1 < M64)%N) -> NoDup (map fst l) -> (forall p, In p l -> (snd p + 1 <= ln (fst p))%N) -> In d names ->
    sb_get (sb_run sb0 (map op_of l)) d = Ok (match find (fun p => String.eqb (fst p) d) l with Some p => (snd p, 1%N) | None => (0%N, ln d) end).
  Proof.
    intros W NDl FT I. destruct (place d I) as (p & Hp & Hm & Hu).
    rewrite (C02_request_is_last_acceptable _ _ _ sb0 INIT ND sizes_small (map op_of l) d p (ln d) false); [|apply Forall_forall; intros o O;
      apply in_map_iff in O; destruct O as (q & <- & Q); exact (W q Q)|exact Hp|exact Hm|exact Hu].
    f_equal. unfold last_request.
    assert (filter (acceptable d (ln d) false) (map op_of l) = match find (fun p => String.eqb (fst p) d) l with Some p => [op_of p] | None => [] end) as ->.
    { clear W. induction l as [|q l IH]; [reflexivity|]. cbn [map filter find]. cbn [map] in NDl. inversion NDl as [|? ? N1 N2]; subst.
      unfold op_of at 1. cbn [acceptable orb]. destruct (String.eqb_spec (fst q) d) as [E|E]; cbn [andb].
      - assert (L := FT q (or_introl eq_refl)). rewrite E in L. apply N.leb_le in L. rewrite L.
        rewrite (IH N2) by (intros r R; apply FT; now right).
        assert (find (fun p0 => String.eqb (fst p0) d) l = None) as ->; [|reflexivity].
        destruct (find (fun p0 => String.eqb (fst p0) d) l) as [r|] eqn:FD; [|reflexivity]. exfalso.
        apply find_some in FD. destruct FD as (R1 & R2). apply String.eqb_eq in R2. apply N1. rewrite E, <- R2. now apply in_map.
      - apply IH; [exact N2|]. intros r R. apply FT. now right. }
    destruct (find (fun p0 => String.eqb (fst p0) d) l) as [q|]; reflexivity.
  Qed.
End Requests.

Lemma used_spec sh a : (forall x, a = Some x -> a_shape x <> []) -> (forall d, In d sh -> d <> ""%string) ->
  exists u, used sh a = Ok u /\ (u = ""%string \/ In u sh) /\ forall d, In d sh -> String.eqb u d = is_dim a d.
Proof.
  intros SH NE. unfold used, is_dim, dim_of. destruct a as [x|].
  - specialize (SH x eq_refl). destruct (a_shape x) as [|e r]; [congruence|]. cbn [axis_dim obind hd_error].
    destruct (existsb (String.eqb e) sh) eqn:E.
    + apply existsb_exists in E. destruct E as (y & Y & E). apply String.eqb_eq in E. subst y.
      exists e. split; [reflexivity|]. split; [now right|]. intros; reflexivity.
    + exists ""%string. split; [reflexivity|]. split; [now left|]. intros d I.
      destruct (String.eqb_spec ""%string d) as [<-|_]; [now apply NE in I|].
      destruct (String.eqb_spec e d) as [<-|_]; [|reflexivity].
      rewrite <- E. apply existsb_exists. exists e. split; [exact I|apply String.eqb_refl].
  - exists ""%string. split; [reflexivity|]. split; [now left|]. intros d I.
    destruct (String.eqb_spec ""%string d) as [<-|_]; [now apply NE in I|reflexivity].
Qed.

(** The request of a column: one position along the horizontal axes and the time, if the converter has their dimensions,
    and everything along the others; an exception if a position is beyond the end. *)
Theorem C123_request : forall w sh pos x y t,
  NoDup sh -> (forall d, In d sh -> d <> ""%string) -> (forall d n, w_len w d = Some n -> (n < M64)%N) ->
  (x + 1 < M64)%N -> (y + 1 < M64)%N -> (t + 1 < M64)%N -> (pos + 1 < M64)%N ->
  (forall a, w_x w = Some a \/ w_y w = Some a \/ w_t w = Some a -> a_shape a <> []) ->
  (forall d, In d sh -> is_dim (w_t w) d = true -> w_len w d <> None) ->
  (forall d, In d sh -> is_dim (w_x w) d = true -> is_dim (w_y w) d = false /\ is_dim (w_t w) d = false) ->
  (forall d, In d sh -> is_dim (w_y w) d = true -> is_dim (w_t w) d = false) ->
  exists a, make_adapter w sh pos = Ok a /\
    ((forall d i, In d sh -> wanted w pos x y t d = Some i -> (i < length_of w d)%N) ->
      exists sb, prepare w a x y t = Ok sb /\ forall d, In d sh ->
        sb_get sb d = Ok (match wanted w pos x y t d with Some i => (i, 1%N) | None => (0%N, length_of w d) end)) /\
    ((exists d i, In d sh /\ wanted w pos x y t d = Some i /\ (length_of w d <= i)%N) -> prepare w a x y t = Throw).
Proof.
  intros w sh pos x y t ND NE LT WX WY WT WP SHP KT DX DY.
  destruct (used_spec sh (w_x w)) as (ux & EX & IX & SX); [intros a A; apply SHP; now left|exact NE|].
  destruct (used_spec sh (w_y w)) as (uy & EY & IY & SY); [intros a A; apply SHP; right; now left|exact NE|].
  destruct (used_spec sh (w_t w)) as (ut & ET & IT & ST); [intros a A; apply SHP; right; now right|exact NE|].
  set (t' := if String.eqb ut "" then t else if w_unlim w ut then pos else t).
  assert (WT' : (t' + 1 < M64)%N) by (unfold t'; destruct (String.eqb ut ""); [exact WT|]; destruct (w_unlim w ut); assumption).
  assert (exists q, make_adapter w sh pos = Ok (mkAd sh ux uy ut q) /\ (if N.eqb q NOTSET then t else q) = t') as (q & MA & Q).
  { unfold make_adapter. rewrite EX, EY, ET. cbn [obind]. unfold t'. destruct (String.eqb_spec ut ""%string) as [E|E].
    - exists NOTSET. split; [reflexivity|]. rewrite N.eqb_refl. reflexivity.
    - destruct IT as [IT|IT]; [contradiction|]. assert (K := KT ut IT). rewrite <- (ST ut IT), String.eqb_refl in K. specialize (K eq_refl).
      destruct (w_len w ut) as [n|]; [|congruence]. eexists. split; [reflexivity|].
      destruct (w_unlim w ut); [|rewrite N.eqb_refl; reflexivity].
      destruct (N.eqb_spec pos NOTSET) as [P|P]; [|reflexivity]. exfalso. rewrite P in WP. vm_compute in WP. discriminate WP. }
  exists (mkAd sh ux uy ut q). split; [exact MA|].
  assert (exists sb0, create_builder (w_len w) sh = Ok sb0) as (sb0 & INIT).
  { unfold create_builder, sb_init, dim_sizes. rewrite !map_length, Nat.eqb_refl. eexists. reflexivity. }
  set (l := [(ux, x); (uy, y); (ut, t')]).
  assert (prepare w (mkAd sh ux uy ut q) x y t = ofold (fun sb p => set_one (fst p) (snd p) sb) l (sb_run sb0 [])) as PE.
  { unfold prepare, l. cbn [ad_shape ad_x ad_y ad_t ad_pos]. rewrite INIT, Q. cbn [obind ofold fst snd sb_run fold_left].
    destruct (set_one ux x sb0) as [s1| | |]; cbn [obind]; try reflexivity.
    destruct (set_one uy y s1) as [s2| | |]; cbn [obind]; try reflexivity.
    destruct (set_one ut t' s2); reflexivity. }
  assert (forall p, In p l -> (snd p + 1 < M64)%N /\ (fst p = ""%string \/ In (fst p) sh)) as PL.
  { intros p [<-|[<-|[<-|[]]]]; cbn [fst snd]; split; assumption. }
  rewrite (run_list (w_len w) sh sb0 INIT ND LT l [] (Forall_nil _) PL) in PE. cbn [List.app] in PE.
  assert (W : forall d, In d sh -> wanted w pos x y t d =
    if String.eqb ux d then Some x else if String.eqb uy d then Some y else if String.eqb ut d then Some t' else None).
  { intros d I. unfold wanted. rewrite (SX d I), (SY d I), (ST d I).
    destruct (is_dim (w_x w) d); [reflexivity|]. destruct (is_dim (w_y w) d); [reflexivity|].
    destruct (is_dim (w_t w) d) eqn:E; [|reflexivity]. rewrite <- (ST d I) in E. apply String.eqb_eq in E. subst d. unfold t'.
    destruct (String.eqb_spec ut ""%string) as [Z|Z]; [now apply NE in I|reflexivity]. }
  assert (NDl : NoDup (map fst (filter is_set l))).
  { assert (ux <> ""%string -> ux <> uy) as A1.
    { intros Z E. destruct IX as [IX|IX]; [contradiction|]. destruct (DX ux IX) as (A & _); [rewrite <- (SX ux IX); apply String.eqb_refl|].
      rewrite <- (SY ux IX), <- E, String.eqb_refl in A. discriminate A. }
    assert (ux <> ""%string -> ux <> ut) as A2.
    { intros Z E. destruct IX as [IX|IX]; [contradiction|]. destruct (DX ux IX) as (_ & A); [rewrite <- (SX ux IX); apply String.eqb_refl|].
      rewrite <- (ST ux IX), <- E, String.eqb_refl in A. discriminate A. }
    assert (uy <> ""%string -> uy <> ut) as A3.
    { intros Z E. destruct IY as [IY|IY]; [contradiction|]. assert (A : is_dim (w_t w) uy = false) by (apply (DY uy IY); rewrite <- (SY uy IY); apply String.eqb_refl).
      rewrite <- (ST uy IY), <- E, String.eqb_refl in A. discriminate A. }
    unfold l, is_set. cbn [filter fst]. destruct (String.eqb_spec ux ""%string), (String.eqb_spec uy ""%string), (String.eqb_spec ut ""%string);
      cbn [negb filter map fst]; repeat constructor; cbn [In]; intuition congruence. }
  split.
  - intro FIT.
    assert (forallb (fits (w_len w)) l = true) as F.
    { assert (forall u i, u = ""%string \/ In u sh -> (In u sh -> wanted w pos x y t u = Some i) -> fits (w_len w) (u, i) = true) as A.
      { intros u i IU WU. unfold fits, is_set. cbn [fst snd]. destruct (String.eqb_spec u ""%string) as [Z|Z]; [reflexivity|]. cbn [negb orb].
        destruct IU as [IU|IU]; [contradiction|]. apply N.leb_le. specialize (FIT u i IU (WU IU)). unfold length_of in FIT. lia. }
      unfold l. cbn [forallb]. rewrite !A; try reflexivity; try assumption; intro I; rewrite (W _ I), !String.eqb_refl; try reflexivity.
      - rewrite (SX ut I), (SY ut I).
        assert (TD : is_dim (w_t w) ut = true) by (rewrite <- (ST ut I); apply String.eqb_refl).
        destruct (is_dim (w_x w) ut) eqn:E1; [destruct (DX ut I E1); congruence|]. destruct (is_dim (w_y w) ut) eqn:E2; [assert (Y := DY ut I E2); congruence|]. reflexivity.
      - rewrite (SX uy I). assert (YD : is_dim (w_y w) uy = true) by (rewrite <- (SY uy I); apply String.eqb_refl).
        destruct (is_dim (w_x w) uy) eqn:E1; [destruct (DX uy I E1); congruence|]. reflexivity. }
    rewrite F in PE. eexists. split; [exact PE|]. intros d I.
    rewrite (get_list (w_len w) sh sb0 INIT ND LT (filter is_set l) d).
    + f_equal. rewrite (W d I). unfold l, is_set. cbn [filter fst].
      assert (forall u, String.eqb u "" = true -> String.eqb u d = false) as NZ.
      { intros u U. apply String.eqb_eq in U. subst u. destruct (String.eqb_spec ""%string d) as [<-|_]; [now apply NE in I|reflexivity]. }
      destruct (String.eqb ux "") eqn:U1; [rewrite (NZ ux U1)|]; destruct (String.eqb uy "") eqn:U2; try rewrite (NZ uy U2); destruct (String.eqb ut "") eqn:U3; try rewrite (NZ ut U3);
        cbn [negb find fst snd]; destruct (String.eqb ux d); destruct (String.eqb uy d); destruct (String.eqb ut d); reflexivity.
    + intros p P. apply filter_In in P. apply PL. apply P.
    + exact NDl.
    + intros p P. apply filter_In in P. destruct P as (P1 & P2). rewrite forallb_forall in F. specialize (F p P1). unfold fits in F.
      rewrite P2 in F. cbn [negb orb] in F. apply N.leb_le in F. exact F.
    + exact I.
  - intros (d & i & I & WD & L). rewrite PE.
    assert (forallb (fits (w_len w)) l = false) as ->; [|reflexivity].
    apply not_true_is_false. intro F. rewrite forallb_forall in F.
    assert (exists u, In (u, i) l /\ u = d) as (u & IU & ->).
    { rewrite (W d I) in WD. unfold l. cbn [In].
      destruct (String.eqb_spec ux d); [injection WD as <-; exists ux; auto|].
      destruct (String.eqb_spec uy d); [injection WD as <-; exists uy; auto|].
      destruct (String.eqb_spec ut d); [injection WD as <-; exists ut; auto|discriminate WD]. }
    specialize (F _ IU). unfold fits, is_set in F. cbn [fst snd] in F. destruct (String.eqb_spec d ""%string) as [Z|Z]; [now apply NE in I|].
    cbn [negb orb] in F. apply N.leb_le in F. unfold length_of in L. lia.
Qed.

(** the number of values of a request *)
Definition volume (sb : slice_builder) (sh : list string) : N :=
  fold_right (fun d acc => (match sb_get sb d with Ok r => snd r | _ => 0 end * acc)%N) 1%N sh.
(** The column has as many values as there are levels if the converter has no other dimension. *)
Theorem C123_levels : forall w pos x y t sb sh dz, NoDup sh -> In dz sh ->
  (forall d, In d sh -> sb_get sb d = Ok (match wanted w pos x y t d with Some i => (i, 1%N) | None => (0%N, length_of w d) end)) ->
  (forall d, In d sh -> wanted w pos x y t d = None <-> d = dz) ->
  volume sb sh = length_of w dz.
Proof.
  intros w pos x y t sb sh dz ND I G O.
  assert (forall l, incl l sh -> ~ In dz l -> volume sb l = 1%N) as A.
  { induction l as [|d l IH]; intros IN NI; [reflexivity|]. cbn [volume fold_right]. fold (volume sb l).
    rewrite IH; [|intros e E; apply IN; now right|intro E; apply NI; now right].
    rewrite (G d (IN d (or_introl eq_refl))). destruct (wanted w pos x y t d) eqn:W; [reflexivity|].
    exfalso. apply NI. left. now apply O in W; [|apply IN; left]. }
  assert (forall l, incl l sh -> NoDup l -> In dz l -> volume sb l = length_of w dz) as B; [|exact (B sh (incl_refl _) ND I)].
  induction l as [|d l IH]; intros IN NDl Il; [destruct Il|]. inversion NDl as [|? ? N1 N2]; subst. cbn [volume fold_right]. fold (volume sb l).
  assert (incl l sh) as IN' by (intros e E; apply IN; now right). rewrite (G d (IN d (or_introl eq_refl))).
  destruct Il as [<-|Il].
  - rewrite (A l IN' N1). rewrite (proj2 (O d (IN d (or_introl eq_refl))) eq_refl). cbn [snd]. lia.
  - rewrite (IH IN' N2 Il). destruct (wanted w pos x y t d) eqn:W; cbn [snd]; [lia|].
    apply O in W; [|apply IN; now left]. subst d. contradiction.
Qed.

(** The column is what the converter gives for the request; a value is valid unless it is above the upper or below the
    lower limit, where there are limits. *)
Theorem C123_column : forall D (leb : D -> D -> bool) w a x y t,
  (forall sb data l, prepare w a x y t = Ok sb -> data sb = Ok (Some l) -> column D w data a x y t = Ok l) /\
  (prepare w a x y t = Throw -> forall data vmax vmin v, column D w data a x y t = Throw /\ is_valid D leb w vmax vmin a v x y t = Throw) /\
  (forall sb vmax vmin mx mn v, prepare w a x y t = Ok sb -> vmax sb = Ok mx -> vmin sb = Ok mn -> mx <> Some [] -> mn <> Some [] ->
    exists b, is_valid D leb w vmax vmin a v x y t = Ok b /\
      (b = true <-> (forall m r, mx = Some (m :: r) -> leb v m = true) /\ (forall m r, mn = Some (m :: r) -> leb m v = true))).
Proof.
  intros D leb w a x y t. split; [|split].
  - intros sb data l P E. unfold column. rewrite P. cbn [obind]. rewrite E. reflexivity.
  - intros P data vmax vmin v. unfold column, is_valid. rewrite P. split; reflexivity.
  - intros sb vmax vmin mx mn v P E1 E2 N1 N2. unfold is_valid. rewrite P. cbn [obind]. rewrite E1. cbn [obind]. rewrite E2. cbn [obind].
    destruct mx as [[|m1 r1]|]; [congruence| |]; destruct mn as [[|m2 r2]|]; try congruence; cbn [nth_error rd obind].
    + destruct (leb v m1) eqn:L1; cbn [negb]; [|exists false; split; [reflexivity|]; split; [discriminate|]; intros (H & _); rewrite <- L1; eapply H; reflexivity].
      exists (leb m2 v). split; [reflexivity|]. split.
      * intro H. split; intros m r X; injection X as <- _; assumption.
      * intros (_ & H). eapply H. reflexivity.
    + destruct (leb v m1) eqn:L1; cbn [negb]; [|exists false; split; [reflexivity|]; split; [discriminate|]; intros (H & _); rewrite <- L1; eapply H; reflexivity].
      exists true. split; [reflexivity|]. split; [|reflexivity]. intros _. split; [intros m r X; injection X as <- _; assumption|intros m r X; discriminate X].
    + cbn [negb]. exists (leb m2 v). split; [reflexivity|]. split.
      * intro H. split; [intros m r X; discriminate X|intros m r X; injection X as <- _; assumption].
      * intros (_ & H). eapply H. reflexivity.
    + cbn [negb]. exists true. split; [reflexivity|]. split; [|reflexivity]. intros _. split; intros m r X; discriminate X.
Qed.

(** ** Simple axes *)
(** A coordinate system can be interpolated vertically exactly if its axes have one dimension each; then the sizes are
    the lengths of these, 1 for an axis which is missing, and the times are all of them, or the record asked for if the
    time is unlimited. *)
Definition one_dim (w : world) (a : option axis) : Prop := forall x, a = Some x -> exists d n, a_shape x = [d] /\ w_len w d = Some n.
Definition size_of (w : world) (a : option axis) : N := match dim_of a with Some d => length_of w d | None => 1%N end.
Theorem C123_axes : forall w pos, w_z w <> None ->
  (one_dim w (w_x w) -> one_dim w (w_y w) -> one_dim w (w_z w) -> one_dim w (w_t w) ->
    simple_axes w pos = Ok (size_of w (w_x w), size_of w (w_y w), size_of w (w_z w),
      if (match dim_of (w_t w) with Some d => w_unlim w d | None => false end) then (pos, add64 pos 1) else (0%N, size_of w (w_t w)))) /\
  ((exists a x, In a [w_x w; w_y w; w_z w; w_t w] /\ a = Some x /\ length (a_shape x) <> 1) -> simple_axes w pos = Throw).
Proof.
  intros w pos Z. unfold simple_axes.
  assert (forall a, one_dim w a -> optional_length w a = Ok (size_of w a)) as A.
  { intros [x|] H; [|reflexivity]. destruct (H x eq_refl) as (d & n & S & L). unfold optional_length, axis_length, size_of, dim_of, length_of.
    rewrite S. cbn [hd_error]. rewrite L. reflexivity. }
  assert (forall x, length (a_shape x) <> 1 -> axis_length w x = Throw) as B.
  { intros x H. unfold axis_length. destruct (a_shape x) as [|d [|e r]]; [reflexivity|now contradiction H|reflexivity]. }
  assert (forall x, axis_length w x = Throw \/ exists n, axis_length w x = Ok n) as C.
  { intro x. unfold axis_length. destruct (a_shape x) as [|d [|e r]]; auto. destruct (w_len w d); eauto. }
  assert (forall a, optional_length w a = Throw \/ exists n, optional_length w a = Ok n) as C'.
  { intros [x|]; [apply C|right; now exists 1%N]. }
  destruct (w_z w) as [z|] eqn:EZ; [|congruence]. split.
  - intros HX HY HZ HT. change (axis_length w z) with (optional_length w (Some z)). rewrite (A _ HZ), (A _ HX), (A _ HY), (A _ HT). cbn [obind].
    do 2 f_equal. destruct (w_t w) as [ta|]; [|reflexivity]. destruct (HT ta eq_refl) as (d & n & S & L). unfold dim_of. rewrite S. cbn [existsb hd_error].
    rewrite orb_false_r. reflexivity.
  - intros (a & x & I & -> & H). apply B in H. cbn [In] in I.
    destruct (C z) as [->|(nz & EZ')]; [reflexivity|]. rewrite EZ'. cbn [obind].
    destruct (C' (w_x w)) as [EX|(nx & EX)]; rewrite EX; [reflexivity|]. cbn [obind].
    destruct (C' (w_y w)) as [EY|(ny & EY)]; rewrite EY; [reflexivity|]. cbn [obind].
    destruct (C' (w_t w)) as [ET|(nt & ET)]; rewrite ET; [reflexivity|]. exfalso.
    destruct I as [I|[I|[I|[I|[]]]]].
    + rewrite I in EX. cbn [optional_length] in EX. congruence.
    + rewrite I in EY. cbn [optional_length] in EY. congruence.
    + congruence.
    + rewrite I in ET. cbn [optional_length] in ET. congruence.
Qed.

(** ** Examples and findings *)
Local Open Scope string_scope.
Definition ex_len (d : string) : option N :=
  match find (fun p => String.eqb (fst p) d) [("x", 4); ("y", 3); ("k", 5); ("time", 2); ("one", 1); ("m", 10); ("x2", 7)]%N with
  | Some p => Some (snd p)
  | None => None
  end.
Definition ex_vars : list var :=
  [mkVar "k" None ["k"] false None; mkVar "ap" None ["k"] false None; mkVar "b" None ["k"] false None;
   mkVar "t2m" (Some "air_temperature") ["x"; "y"; "time"] false (Some None);
   mkVar "ta" (Some "air_temperature") ["x"; "y"; "k"; "time"] true (Some (Some ["k"]));
   mkVar "ps" (Some "surface_air_pressure") ["x"; "y"; "one"; "time"] false (Some (Some ["one"]));
   mkVar "z4" (Some "geopotential") ["x"; "y"; "k"; "time"] true (Some (Some ["k"]));
   mkVar "phi" (Some "surface_geopotential") ["x"; "y"] false (Some None)].
Definition ex_world (zname : string) (vars : list var) : world :=
  mkW vars ex_len (String.eqb "time") (Some (mkAx "x" ["x"])) (Some (mkAx "y" ["y"])) (Some (mkAx zname ["k"])) (Some (mkAx "time" ["time"])).
Definition ex := ex_world "k" ex_vars.
Definition ex_tr := THybrid1 "ap" "b" "ps".

Lemma ex_named : forall z, named (ex_world z ex_vars).
Proof.
  intro z. split.
  - intros v I. cbn [w_vars ex_world ex_vars In] in I. decompose [or] I; subst; try discriminate. contradiction.
  - cbn [w_vars ex_world ex_vars map v_name]. repeat constructor; cbn [In]; intuition discriminate.
Qed.

(** the fields of a file with hybrid levels *)
Example C123_nonvacuous :
  named ex /\ levels_known ex /\ of_pressure ex_tr /\
  get_converter ex ex_tr 0 = Ok (Some (HybridApToPressure "ap" "b" "ps")) /\
  get_converter ex ex_tr 4 = Ok (Some (Integrated (HybridApToPressure "ap" "b" "ps") "ta" "" "ps" "phi")) /\
  get_converter ex ex_tr 1 = Ok (Some (Topography (Integrated (HybridApToPressure "ap" "b" "ps") "ta" "" "ps" "phi") "phi" false false)) /\
  get_converter ex ex_tr 2 = Ok None /\
  (do sh <- shape ex (HybridApToPressure "ap" "b" "ps"); do a <- make_adapter ex sh 1; do sb <- prepare ex a 2 1 0;
   do gx <- sb_get sb "x"; do gy <- sb_get sb "y"; do gk <- sb_get sb "k"; do gt <- sb_get sb "time"; Ok (sh, gx, gy, gk, gt, volume sb sh))
  = Ok (["x"; "y"; "k"; "time"], (2, 1), (1, 1), (0, 5), (1, 1), 5)%N /\
  simple_axes ex 1 = Ok (4, 3, 5, (1, 2))%N.
Proof.
  split; [apply ex_named|]. split.
  - intros v z I E. cbn [ex ex_world w_vars ex_vars In] in I. decompose [or] I; subst; try discriminate; try contradiction;
      injection E as <-; repeat eexists.
  - repeat split.
Qed.
(** a pressure or a geopotential height in the file comes first; geopotential heights on several levels are no topography *)
Example C123_first_nonvacuous :
  let p := mkVar "p" (Some "air_pressure") ["x"; "y"; "k"; "time"] true (Some (Some ["k"])) in
  let z := mkVar "z" (Some "geopotential_height") ["x"; "y"; "k"; "time"] true (Some (Some ["k"])) in
  let w := ex_world "k" (p :: z :: ex_vars) in
  get_converter w ex_tr 0 = Ok (Some (Identity "p" "hPa")) /\ get_converter w (TOcean "h" "" "s") 0 = Ok (Some (Identity "p" "hPa")) /\
  get_converter w ex_tr 4 = Ok (Some (Identity "z" "m")) /\
  get_converter w ex_tr 1 = Ok (Some (Topography (Identity "z" "m") "phi" false false)) /\
  get_converter (ex_world "k" [p]) ex_tr 4 = Ok (Some (Standard (Identity "p" "hPa"))) /\
  get_converter (ex_world "k" [p]) ex_tr 1 = Ok None /\
  get_converter (ex_world "k" [mkVar "topo" (Some "altitude") ["y"; "x"] false (Some None)]) (THeight "k" false) 4 =
    Ok (Some (Topography (Identity "k" "m") "topo" true true)).
Proof. repeat split. Qed.

(** Finding: the vertical axis is removed from the dimensions of the temperature by its own name, not that of its
    dimension.  If they differ, no surface pressure can be found, and altitudes are those of the standard atmosphere
    though the file has all that is needed. *)
Theorem C123_axis_name_refuted :
  get_converter ex ex_tr 4 = Ok (Some (Integrated (HybridApToPressure "ap" "b" "ps") "ta" "" "ps" "phi")) /\
  get_converter (ex_world "hybrid" ex_vars) ex_tr 4 = Ok (Some (Standard (HybridApToPressure "ap" "b" "ps"))).
Proof. split; reflexivity. Qed.

(** Finding: with pressure levels the pressure has the vertical dimension only, and the first temperature with this
    dimension is used, even if it is on another grid: the altitudes then have no column for a position (x, y). *)
Theorem C123_other_grid_refuted :
  let vars := [mkVar "p" None ["k"] false None;
               mkVar "tother" (Some "air_temperature") ["x2"; "k"] false (Some (Some ["k"]));
               mkVar "psother" (Some "surface_air_pressure") ["x2"] false (Some None);
               mkVar "phiother" (Some "surface_geopotential") ["x2"] false (Some None);
               mkVar "ta" (Some "air_temperature") ["x"; "y"; "k"; "time"] true (Some (Some ["k"]));
               mkVar "ps" (Some "surface_air_pressure") ["x"; "y"; "time"] false (Some None);
               mkVar "phi" (Some "surface_geopotential") ["x"; "y"] false (Some None)] in
  let w := ex_world "k" vars in
  let c := Integrated (Identity "p" "hPa") "tother" "" "psother" "phiother" in
  get_converter w (TPressure "p") 4 = Ok (Some c) /\
  (do sh <- shape w c; do a <- make_adapter w sh 0; do sb <- prepare w a 2 1 0; Ok (sh, volume sb sh)) = Ok (["k"; "x2"], 35%N).
Proof. split; reflexivity. Qed.

(** Finding: a converter which has no data, e.g. because a variable of its formula is missing, gives a null pointer,
    which is used. *)
Theorem C123_null_refuted : forall D w a x y t sb, prepare w a x y t = Ok sb -> column D w (fun _ => Ok None) a x y t = UB.
Proof. intros D w a x y t sb P. unfold column. rewrite P. reflexivity. Qed.

(** Finding: with members in the pressures, the column of a position has the levels of all members. *)
Theorem C123_members_refuted :
  let w := ex_world "k" [mkVar "p" (Some "air_pressure") ["x"; "y"; "k"; "m"; "time"] true None] in
  get_converter w ex_tr 0 = Ok (Some (Identity "p" "hPa")) /\
  (do sh <- shape w (Identity "p" "hPa"); do a <- make_adapter w sh 0; do sb <- prepare w a 2 1 0; Ok (volume sb sh)) = Ok 50%N /\
  simple_axes w 0 = Ok (4, 3, 5, (0, 1))%N.
Proof. repeat split. Qed.

(** Finding: if longitudes and latitudes have two dimensions, both axes begin with the same one: x is ignored, and the
    other dimension is read whole. *)
Theorem C123_curvilinear_refuted :
  let w := mkW [mkVar "p" (Some "air_pressure") ["x"; "y"; "k"] true None] ex_len (fun _ => false)
             (Some (mkAx "lon" ["x"; "y"])) (Some (mkAx "lat" ["x"; "y"])) (Some (mkAx "k" ["k"])) None in
  (do sh <- shape w (Identity "p" "hPa"); do a <- make_adapter w sh 0; do sb <- prepare w a 3 1 0;
   do gx <- sb_get sb "x"; do gy <- sb_get sb "y"; Ok (gx, gy, volume sb sh)) = Ok ((1, 1), (0, 3), 15)%N /\
  simple_axes w 0 = Throw.
Proof. split; reflexivity. Qed.

(** hybrid heights: altitudes from the two variables of coefficients and the topography, in this order; heights above the
    ground from these altitudes; no depths *)
Theorem C123_hybrid_height : forall w a b orog,
  get_converter w (THybridHeight a b orog) 4 = Ok (Some (HybridToAltitude a b orog)) /\
  get_converter w (THybridHeight a b orog) 1 = topography w (Some (HybridToAltitude a b orog)) false /\
  get_converter w (THybridHeight a b orog) 2 = Ok None.
Proof. intros. split; [reflexivity|split; reflexivity]. Qed.
(** the function may only be used for systems with a vertical axis, as its assert says: without one, a null pointer is used *)
Theorem C123_no_vertical_axis : forall w pos, w_z w = None -> simple_axes w pos = UB.
Proof. intros w pos E. unfold simple_axes. now rewrite E. Qed.

Print Assumptions C123_hybrid_height.
Print Assumptions C123_no_vertical_axis.
Print Assumptions C123_pressure.
Print Assumptions C123_integration.
Print Assumptions C123_altitude.
Print Assumptions C123_topography.
Print Assumptions C123_height.
Print Assumptions C123_depth.
Print Assumptions C123_preferred.
Print Assumptions C123_request.
Print Assumptions C123_levels.
Print Assumptions C123_column.
Print Assumptions C123_axes.
Print Assumptions C123_axis_name_refuted.
Print Assumptions C123_other_grid_refuted.
Print Assumptions C123_null_refuted.
Print Assumptions C123_members_refuted.
Print Assumptions C123_curvilinear_refuted.
