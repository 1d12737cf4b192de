(** C121: fiXYcontents. *)
From Coq Require Import NArith ZArith QArith Ascii String List Bool Lia Arith Permutation Sorted Lqa.
From Verif Require Import Base StringModel StdMap SliceModel SliceBuilderProofs AxesModel CsbModel CsbProps XycModel.
Import ListNotations.
Local Open Scope list_scope.
Local Open Scope nat_scope.

(** ** Statistics *)
(** the values that are numbers *)
Definition numbers (data : list (option Q)) (vec : list Q) : Prop := map Some vec = filter (fun v => match v with Some _ => true | None => false end) data.
Fixpoint total (l : list Q) : Q := match l with [] => 0%Q | x :: r => (x + total r)%Q end.
Definition below (l : list Q) (m : Q) : nat := length (filter (fun x => negb (Qle_bool m x)) l).
Definition not_above (l : list Q) (m : Q) : nat := length (filter (fun x => Qle_bool x m) l).
(** at most half of the values are below, more than half are not above *)
Definition is_median (l : list Q) (m : Q) : Prop := In m l /\ below l m <= length l / 2 /\ length l / 2 < not_above l m.
Definition is_least (l : list Q) (m : Q) : Prop := In m l /\ forall x, In x l -> (m <= x)%Q.
Definition is_greatest (l : list Q) (m : Q) : Prop := In m l /\ forall x, In x l -> (x <= m)%Q.
Definition size (l : list Q) : Q := inject_Z (Z.of_nat (length l)).

Lemma defined_numbers data : numbers data (defined data).
Proof. unfold numbers, defined. induction data as [|[x|] r IH]; cbn; congruence. Qed.
Lemma numbers_defined data vec : numbers data vec -> vec = defined data.
Proof.
  intro H. assert (K := defined_numbers data). unfold numbers in *. rewrite <- K in H. revert H. generalize (defined data). clear.
  induction vec as [|a l IH]; intros [|b l'] H; cbn in H; try discriminate; [reflexivity|]. injection H as -> H. f_equal. auto.
Qed.
Lemma count_undef data : length (defined data) + length (filter (fun v : option Q => match v with None => true | _ => false end) data) = length data.
Proof. unfold defined. induction data as [|[x|] r IH]; cbn [flat_map filter length List.app]; lia. Qed.

Lemma fold_sum l : forall a, (fold_left Qplus l a == a + total l)%Q.
Proof. induction l as [|x l IH]; intro a; cbn [fold_left total]; [ring|]. rewrite IH. ring. Qed.
Lemma fold_sq m l : forall a, (fold_left (fun s v => s + (v - m) * (v - m))%Q l a == a + total (map (fun v => (v - m) * (v - m))%Q l))%Q.
Proof. induction l as [|x l IH]; intro a; cbn [fold_left total map]; [ring|]. rewrite IH. ring. Qed.
Lemma qmin_cases a b : (qmin a b = a /\ a <= b)%Q \/ (qmin a b = b /\ b <= a)%Q.
Proof.
  unfold qmin. destruct (Qle_bool a b) eqn:E; [left|right]; split; auto; [now apply Qle_bool_iff|].
  destruct (Qlt_le_dec b a) as [L|L]; [lra|]. apply Qle_bool_iff in L. congruence.
Qed.
Lemma qmax_cases a b : (qmax a b = a /\ b <= a)%Q \/ (qmax a b = b /\ a <= b)%Q.
Proof.
  unfold qmax. destruct (Qle_bool b a) eqn:E; [left|right]; split; auto; [now apply Qle_bool_iff|].
  destruct (Qlt_le_dec a b) as [L|L]; [lra|]. apply Qle_bool_iff in L. congruence.
Qed.
Lemma fold_min l : forall a, In (fold_left qmin l a) (a :: l) /\ forall x, In x (a :: l) -> (fold_left qmin l a <= x)%Q.
Proof.
  induction l as [|b l IH]; intro a; cbn [fold_left]; [split; [now left|]; intros x [<-|[]]; lra|].
  destruct (IH (qmin a b)) as (I & L). assert (C := qmin_cases a b). split.
  - destruct I as [<-|I]; [destruct C as [(-> & _)|(-> & _)]; cbn; auto|cbn; auto].
  - assert (L0 := L (qmin a b) (or_introl eq_refl)).
    intros x [<-|[<-|J]]; [| |apply L; now right]; destruct C as [(E & ?)|(E & ?)]; rewrite E in *; lra.
Qed.
Lemma fold_max l : forall a, In (fold_left qmax l a) (a :: l) /\ forall x, In x (a :: l) -> (x <= fold_left qmax l a)%Q.
Proof.
  induction l as [|b l IH]; intro a; cbn [fold_left]; [split; [now left|]; intros x [<-|[]]; lra|].
  destruct (IH (qmax a b)) as (I & L). assert (C := qmax_cases a b). split.
  - destruct I as [<-|I]; [destruct C as [(-> & _)|(-> & _)]; cbn; auto|cbn; auto].
  - assert (L0 := L (qmax a b) (or_introl eq_refl)).
    intros x [<-|[<-|J]]; [| |apply L; now right]; destruct C as [(E & ?)|(E & ?)]; rewrite E in *; lra.
Qed.
Lemma insert_perm x l : Permutation (insert x l) (x :: l).
Proof.
  induction l as [|y l IH]; cbn; [reflexivity|]. destruct (Qle_bool x y); [reflexivity|]. rewrite IH. apply perm_swap.
Qed.
Lemma sort_perm l : Permutation (sort l) l.
Proof. induction l as [|x l IH]; cbn; [reflexivity|]. rewrite insert_perm. now constructor. Qed.
Lemma insert_sorted x l : StronglySorted Qle l -> StronglySorted Qle (insert x l).
Proof.
  induction l as [|y l IH]; intro S; cbn; [repeat constructor|]. inversion S as [|? ? S' F]; subst.
  destruct (Qle_bool x y) eqn:E.
  - apply Qle_bool_iff in E. constructor; [exact S|]. constructor; [exact E|]. eapply Forall_impl; [|exact F]. cbv beta. intros; lra.
  - assert ((y <= x)%Q) by (destruct (Qlt_le_dec y x) as [L|L]; [lra|apply Qle_bool_iff in L; congruence]).
    constructor; [auto|]. apply Forall_forall. intros z J. apply (Permutation_in _ (insert_perm x l)) in J.
    destruct J as [<-|J]; [assumption|]. rewrite Forall_forall in F. auto.
Qed.
Lemma sort_sorted l : StronglySorted Qle (sort l).
Proof. induction l as [|x l IH]; cbn; [constructor|]. now apply insert_sorted. Qed.
Lemma filter_perm {A} (f : A -> bool) l l' : Permutation l l' -> length (filter f l) = length (filter f l').
Proof. induction 1; cbn; auto; [destruct (f x); cbn; auto|destruct (f x), (f y); reflexivity|congruence]. Qed.
Lemma sorted_split l k m : StronglySorted Qle l -> nth_error l k = Some m -> below l m <= k /\ k < not_above l m.
Proof.
  unfold below, not_above. revert k. induction l as [|x l IH]; intros k S N; [destruct k; discriminate|].
  inversion S as [|? ? S' F]; subst. rewrite Forall_forall in F. destruct k as [|k]; cbn [nth_error] in N.
  - injection N as ->. cbn [filter]. rewrite (proj2 (Qle_bool_iff m m) (Qle_refl m)). cbn [negb length].
    split; [|lia].
    replace (filter (fun x => negb (Qle_bool m x)) l) with (@nil Q); [reflexivity|].
    clear - F. induction l as [|y l IH]; [reflexivity|]. cbn. rewrite (proj2 (Qle_bool_iff m y)) by (apply F; now left). apply IH. intros; apply F; now right.
  - destruct (IH k S' N) as (A & B). cbn [filter].
    rewrite (proj2 (Qle_bool_iff x m)) by (apply F; eapply nth_error_In; eauto). cbn [length]. split; [|lia].
    destruct (negb (Qle_bool m x)); cbn [length]; lia.
Qed.
Lemma median_ok l : l <> [] -> exists m, median l = Ok m /\ is_median l m.
Proof.
  intro N. unfold median. assert (L := Permutation_length (sort_perm l)).
  assert (B : length l / 2 < length l) by (apply Nat.div_lt; destruct l; cbn; [congruence|lia|lia|lia]).
  destruct (nth_error (sort l) (length l / 2)) as [m|] eqn:E; [|apply nth_error_None in E; lia].
  exists m. split; [reflexivity|]. destruct (sorted_split _ _ _ (sort_sorted l) E) as (A & C).
  split; [apply (Permutation_in _ (sort_perm l)); eapply nth_error_In; eauto|].
  unfold below, not_above in *. rewrite !(filter_perm _ _ _ (sort_perm l)) in *. auto.
Qed.

(** the statistics of a slice in which a value is defined *)
Theorem C121_statistics : forall data vec, numbers data vec -> vec <> [] ->
  exists s, calc data = Ok s /\ st_def s = length vec /\ st_def s + st_undef s = length data /\
    (st_sum s == total vec)%Q /\ (st_mean s * size vec == total vec)%Q /\ is_least vec (st_min s) /\ is_greatest vec (st_max s) /\
    is_median vec (st_median s) /\
    (1 < length vec -> exists v, st_var s = Some v /\ (v * (size vec - 1) == total (map (fun x => (x - st_mean s) * (x - st_mean s)) vec))%Q).
Proof.
  intros data vec H N. apply numbers_defined in H. subst vec. destruct (median_ok _ N) as (m & E & M).
  assert (C := count_undef data). unfold calc. destruct (defined data) as [|x r] eqn:D; [congruence|]. rewrite <- D in *.
  rewrite E. cbn [obind]. eexists. split; [reflexivity|]. cbn [st_def st_undef st_sum st_mean st_min st_max st_median st_var].
  assert (Sz : ~ (size (defined data) == 0)%Q).
  { unfold size. rewrite D. cbn [length]. change 0%Q with (inject_Z 0). rewrite inject_Z_injective. lia. }
  split; [lia|]. split; [lia|]. split; [unfold sum; rewrite fold_sum; ring|]. split.
  { unfold sum, count. fold (size (defined data)). rewrite fold_sum. field. exact Sz. }
  split. { rewrite D. cbn [fold_left]. destruct (fold_min r (qmin x x)) as (A & B).
    assert (Q : qmin x x = x) by (destruct (qmin_cases x x) as [(q & _)|(q & _)]; exact q). rewrite Q in *. split; auto. }
  split. { rewrite D. cbn [fold_left]. destruct (fold_max r (qmax x x)) as (A & B).
    assert (Q : qmax x x = x) by (destruct (qmax_cases x x) as [(q & _)|(q & _)]; exact q). rewrite Q in *. split; auto. }
  split; [exact M|]. intro Big. set (mean := (sum (defined data) / count (defined data))%Q).
  assert (Sz1 : ~ (size (defined data) - 1 == 0)%Q).
  { unfold size. intro Q. assert (Q' : (inject_Z (Z.of_nat (length (defined data))) == inject_Z 1)%Q) by (change (inject_Z 1) with 1%Q; lra).
    rewrite inject_Z_injective in Q'. lia. }
  exists ((fold_left (fun s v => s + (v - mean) * (v - mean)) (defined data) 0%Q / (count (defined data) - 1))%Q). split.
  { rewrite D in *. destruct r as [|x2 r]; [cbn in Big; lia|reflexivity]. }
  unfold count. fold (size (defined data)). rewrite fold_sq. field. exact Sz1.
Qed.
(** what is shown for a name: of a slice without values only that it has none *)
Theorem C121_shown : forall s,
  (0 < st_def s -> show s "def" = [Def true] /\ show s "mean" = [Number "mean" (st_mean s)] /\ show s "median" = [Number "median" (st_median s)] /\
     show s "sum" = [Number "sum" (st_sum s)] /\ show s "min" = [Number "min" (st_min s)] /\ show s "max" = [Number "max" (st_max s)] /\
     show s "stddev" = [Root (st_var s)] /\ show s "undef" = [Undefs (st_undef s)]) /\
  (st_def s = 0 -> show s "def" = [Def false] /\
     forall n, In n ["mean"; "median"; "sum"; "min"; "max"; "stddev"; "undef"]%string -> show s n = []) /\
  (forall n, ~ In n ["def"; "mean"; "median"; "sum"; "min"; "max"; "stddev"; "undef"]%string -> show s n = [Unknown n]).
Proof.
  intro s. split; [|split].
  - intro P. unfold show. replace (Nat.ltb 0 (st_def s)) with true by (symmetry; apply Nat.ltb_lt; lia). repeat split; reflexivity.
  - intro Z. unfold show. rewrite Z. split; [reflexivity|]. intros n I. cbn in I.
    repeat (destruct I as [<-|I]; [reflexivity|]). destruct I.
  - intros n NI. unfold show.
    repeat match goal with |- context [(n =? ?x)%string] => destruct (String.eqb_spec n x) as [->|_]; [exfalso; apply NI; cbn; tauto|] end.
    reflexivity.
Qed.
(** a slice without values *)
Theorem C121_no_values : forall data, numbers data [] -> exists s, calc data = Ok s /\ st_def s = 0 /\ st_undef s = length data.
Proof.
  intros data H. apply numbers_defined in H. assert (C := count_undef data). unfold calc. rewrite <- H in *.
  eexists. split; [reflexivity|]. cbn in *. split; lia.
Qed.
Lemma calc_total data : exists s, calc data = Ok s.
Proof.
  destruct (defined data) as [|a r] eqn:D.
  - destruct (C121_no_values data) as (s & E & _); [rewrite <- D; apply defined_numbers|eauto].
  - destruct (C121_statistics data (a :: r)) as (s & E & _); [rewrite <- D; apply defined_numbers|discriminate|eauto].
Qed.

(** ** Slices *)
Section Plain.
Variables (V T : Type) (to60 to10 : V -> Z).
Notation source := (source V T). Notation options := (options V).

Definition list_of {A} (x : option A) : list A := match x with Some a => [a] | None => [] end.
Definition horizontal_or_known : list axis_type := [Time; GeoZ; Pressure; Height; Depth; GeoX; GeoY; Lon; Lat].
Definition by_name (cs : csys) (d : string) : option axis := find (fun a => String.eqb (a_name a) d) (get_axes cs).
(** a request for all of the time axis *)
Definition full_time (s : source) (t : axis) (tb : slice_builder) : Prop :=
  sb_getDimensionNames tb = Ok [a_name t] /\ exists n, s_dimlen _ _ s (a_name t) = Some n /\ sb_get tb (a_name t) = Ok (0%N, n).

(** a variable in a simple grid with a time axis and no axis of reference times, whose axes are dimensions, and whose
    other dimensions have values *)
Record plain (o : options) (s : source) (name : string) (y : system) (names : list string) (x ay t : axis) (zo : option axis)
    (ref : T) (hours levels wt vs : list V) (ps : list N) : Prop := {
  pl_sys : find (fun y => y_complete y name) (s_systems _ _ s) = Some y;
  pl_layer : o_layer _ o = None;
  pl_simple : y_simple y = true;
  pl_x : geo_x (y_axes y) = Some x;
  pl_y : geo_y (y_axes y) = Some ay;
  pl_t : find_axis (y_axes y) Time = Some t;
  pl_z : geo_z (y_axes y) = zo;
  pl_noref : find_axis (y_axes y) ReferenceTime = None;
  pl_expl : forall a, In a (x :: ay :: t :: list_of zo) -> s_expl _ _ s a = true;
  pl_var : exists v, find (fun v => y_complete y (fst v)) (s_vars _ _ s) = Some (v, names);
  pl_names : NoDup names;
  pl_lens : forall d, In d names -> exists m, s_dimlen _ _ s d = Some m;
  pl_small : forall d m, s_dimlen _ _ s d = Some m -> (m < M64)%N;
  pl_in : forall a, In a (x :: ay :: t :: list_of zo) -> In (a_name a) names /\ by_name (y_axes y) (a_name a) = Some a;
  pl_distinct : NoDup (map a_name (x :: ay :: t :: list_of zo));
  pl_shape : s_shape _ _ s t = [a_name t];
  pl_others : forall d, In d names -> ~ In d (map a_name (x :: ay :: t :: list_of zo)) ->
    (exists a, by_name (y_axes y) d = Some a /\ ~ In (a_type a) horizontal_or_known) /\
    exists l, s_values _ _ s d = Ok l /\ s_dimlen _ _ s d = Some (N.of_nat (length l));
  pl_ref : s_unique_ref _ _ s = Some ref \/ (s_unique_ref _ _ s = None /\ forall tb, full_time s t tb -> s_first_time _ _ s (a_name t) tb = Ok ref);
  pl_hours : forall tb, full_time s t tb -> s_hours _ _ s (a_name t) ref tb = Ok hours;
  pl_nt : s_dimlen _ _ s (a_name t) = Some (N.of_nat (length hours));
  pl_levels : forall z, zo = Some z -> s_values _ _ s (a_name z) = Ok levels /\ s_dimlen _ _ s (a_name z) = Some (N.of_nat (length levels));
  pl_times : given (o_times _ o) = Ok wt;
  pl_positions : given (o_positions _ o) = Ok ps;
  pl_values : given (o_values _ o) = Ok vs
}.

(** the positions with a property, in order *)
Definition chosen (l : list V) (P : N -> V -> Prop) (r : list N) : Prop :=
  StronglySorted N.lt r /\ forall i, In i r <-> exists v, nth_error l (N.to_nat i) = Some v /\ P i v.
Definition time_wanted (wt : list V) (i : N) (v : V) : Prop := wt = [] \/ exists w, In w wt /\ to60 w = to60 v.
Definition level_wanted (vs : list V) (ps : list N) (i : N) (v : V) : Prop :=
  (vs = [] \/ exists w, In w vs /\ to10 w = to10 v) /\ (ps = [] \/ In i ps).
(** all combinations, the first dimension changes slowest *)
Fixpoint combinations (c : list (string * list N)) : list (list (string * N)) :=
  match c with
  | [] => [[]]
  | (d, ps) :: r => flat_map (fun p => map (cons (d, p)) (combinations r)) ps
  end.
(** what is printed for one dimension *)
Definition right_item (s : source) (x ay t : axis) (zo : option axis) (hours levels : list V) (c : list (string * N)) (d : string) (it : list (item V)) : Prop :=
  ((d = a_name x \/ d = a_name ay) /\ it = []) \/
  exists p v, In (d, p) c /\
    ((d = a_name t /\ nth_error hours (N.to_nat p) = Some v /\ it = [TimeAt _ p v]) \/
     ((exists z, zo = Some z /\ d = a_name z) /\ nth_error levels (N.to_nat p) = Some v /\ it = [LevelAt _ p v]) \/
     (~ In d (map a_name (x :: ay :: t :: list_of zo)) /\
      exists l, s_values _ _ s d = Ok l /\ nth_error l (N.to_nat p) = Some v /\ it = [DimAt _ d v])).
(** the request of a combination: one position in its dimensions, all of the horizontal ones *)
Definition right_request (s : source) (x ay : axis) (names : list string) (c : list (string * N)) (sb : slice_builder) : Prop :=
  sb_getDimensionNames sb = Ok names /\
  (forall d, d = a_name x \/ d = a_name ay -> exists n, s_dimlen _ _ s d = Some n /\ sb_get sb d = Ok (0%N, n)) /\
  forall d p, In (d, p) c -> sb_get sb d = Ok (p, 1%N).
Definition right_line (o : options) (s : source) (name : string) (names : list string) (x ay t : axis) (zo : option axis) (hours levels : list V)
    (c : list (string * N)) (l : line V) : Prop :=
  (exists its, Forall2 (right_item s x ay t zo hours levels c) (rev names) its /\ l_items _ l = concat its) /\
  match o_stats _ o with
  | None => l_stats _ l = []
  | Some n => exists sb data st ns, right_request s x ay names c sb /\ s_slice _ _ s name sb = Ok data /\ calc data = Ok st /\
                stat_names n = Ok ns /\ l_stats _ l = flat_map (show st) ns
  end.

(** *** Lemmas *)
Lemma combinations_snoc c d ps : combinations (c ++ [(d, ps)]) = flat_map (fun a => map (fun p => a ++ [(d, p)]) ps) (combinations c).
Proof.
  induction c as [|(e, qs) c IH]; cbn [combinations List.app].
  - cbn [flat_map map List.app]. rewrite app_nil_r. clear. induction ps as [|p ps IH]; cbn [flat_map map List.app]; [reflexivity|]; f_equal; exact IH.
  - rewrite IH. clear. induction qs as [|q qs IHq]; cbn [flat_map]; [reflexivity|]. rewrite flat_map_app, <- IHq. f_equal.
    generalize (combinations c). intro L. induction L as [|a L IH]; cbn [flat_map map]; [reflexivity|]. rewrite map_app, IH. f_equal.
    rewrite map_map. reflexivity.
Qed.
Lemma combinations_in c : forall a, In a (combinations c) -> map fst a = map fst c /\ forall d p, In (d, p) a -> exists ps, In (d, ps) c /\ In p ps.
Proof.
  induction c as [|(d, ps) c IH]; intros a I; cbn [combinations] in I.
  - destruct I as [<-|[]]. split; [reflexivity|intros ? ? []].
  - apply in_flat_map in I. destruct I as (p & Ip & I). apply in_map_iff in I. destruct I as (a' & <- & I).
    destruct (IH a' I) as (A & B). split; [cbn; congruence|]. intros e q [[= <- <-]|J]; [exists ps; cbn; auto|].
    destruct (B e q J) as (qs & J1 & J2). exists qs. cbn. auto.
Qed.
Lemma positions_fst {A} (l : list A) : map fst (positions l) = map N.of_nat (seq 0 (length l)).
Proof.
  unfold positions. generalize 0. induction l as [|a l IH]; intro k; cbn; [reflexivity|]. f_equal. apply IH.
Qed.
Lemma positions_in {A} (l : list A) i v : In (i, v) (positions l) <-> nth_error l (N.to_nat i) = Some v.
Proof.
  unfold positions. enough (H : forall k, In (i, v) (combine (map N.of_nat (seq k (length l))) l) <-> k <= N.to_nat i /\ nth_error l (N.to_nat i - k) = Some v).
  { rewrite H, Nat.sub_0_r. split; [tauto|]. split; [lia|assumption]. }
  induction l as [|a l IH]; intro k; cbn [length seq map combine In].
  - split; [tauto|]. intros (_ & H). destruct (N.to_nat i - k); discriminate.
  - rewrite IH. split.
    + intros [[= <- <-]|(L & H)].
      * rewrite Nat2N.id, Nat.sub_diag. auto.
      * split; [lia|]. replace (N.to_nat i - k) with (S (N.to_nat i - S k)) by lia. exact H.
    + intros (L & H). destruct (Nat.eq_dec (N.to_nat i) k) as [E|E].
      * left. rewrite E, Nat.sub_diag in H. injection H as ->. f_equal. lia.
      * right. split; [lia|]. replace (N.to_nat i - k) with (S (N.to_nat i - S k)) in H by lia. exact H.
Qed.
Lemma sorted_filter {A} (l : list A) (f : N * A -> bool) : StronglySorted N.lt (map fst (filter f (positions l))).
Proof.
  unfold positions. generalize 0 as k. induction l as [|a l IH]; intro k; cbn; [constructor|].
  destruct (f _); cbn; [|apply IH]. constructor; [apply IH|]. apply Forall_forall. intros i J.
  apply in_map_iff in J. destruct J as ((i', v) & <- & J). apply filter_In in J. destruct J as (J & _). cbn.
  apply in_combine_l in J. apply in_map_iff in J. destruct J as (q & <- & J). apply in_seq in J. lia.
Qed.
Lemma filter_filter {A} (f g : A -> bool) l : filter f (filter g l) = filter (fun a => g a && f a) l.
Proof. induction l as [|a l IH]; cbn; [reflexivity|]. destruct (g a); cbn; [destruct (f a); cbn|]; congruence. Qed.
Lemma chosen_filter l f P : (forall i v, f (i, v) = true <-> P i v) -> chosen l P (map fst (filter f (positions l))).
Proof.
  intro H. split; [apply sorted_filter|]. intro i. split.
  - intro J. apply in_map_iff in J. destruct J as ((i', v) & E & J). cbn in E. subst i'. apply filter_In in J. destruct J as (J & F).
    exists v. split; [now apply positions_in|now apply H].
  - intros (v & J & F). apply in_map_iff. exists (i, v). split; [reflexivity|]. apply filter_In. split; [now apply positions_in|now apply H].
Qed.
Lemma in_set_spec z l : in_set z l = true <-> In z l.
Proof. unfold in_set. rewrite existsb_exists. split; [intros (a & I & E); apply Z.eqb_eq in E; now subst|exists z; split; [auto|apply Z.eqb_refl]]. Qed.
Lemma set_test (f : V -> Z) (ws : list V) v :
  (match map f ws with [] => true | _ => in_set (f v) (map f ws) end) = true <-> (ws = [] \/ exists w, In w ws /\ f w = f v).
Proof.
  destruct ws as [|w ws]; [cbn; tauto|]. change (match map f (w :: ws) with [] => true | _ => in_set (f v) (map f (w :: ws)) end) with (in_set (f v) (map f (w :: ws))).
  rewrite in_set_spec, in_map_iff. split; [intros (a & E & I); right; eauto|intros [[=]|(a & I & E)]; eauto].
Qed.
Lemma find_any_type cs l a : find_axis_any cs l = Some a -> In (a_type a) l.
Proof.
  assert (F : forall t m b, find_type t m = Some b -> a_type b = t).
  { intros t m b E. unfold find_type in E. apply find_some in E. destruct E as (_ & E). unfold type_eqb in E. destruct (axis_type_eq_dec t (a_type b)); congruence. }
  induction l as [|t l IH]; cbn [find_axis_any]; [discriminate|]. unfold find_axis at 1.
  destruct (find_type t (cs_main cs)) eqn:E; [intros [= <-]; left; symmetry; eauto|].
  destruct (find_type t (cs_aux cs)) eqn:E2; [intros [= <-]; left; symmetry; eauto|]. intro H. right. auto.
Qed.

(** the positions of a dimension *)
Definition every_position (s : source) (d : string) : list N :=
  match s_dimlen _ _ s d with Some n => map N.of_nat (seq 0 (N.to_nat n)) | None => [] end.

Section Main.
Variables (o : options) (s : source) (name : string) (y : system) (names : list string) (x ay t : axis) (zo : option axis).
Variables (ref : T) (hours levels wt vs : list V) (ps : list N).
Hypothesis P : plain o s name y names x ay t zo ref hours levels wt vs ps.
Variables (sizes : list N) (sb0 : slice_builder).
Hypothesis Hinit : sb_init names sizes (map (fun _ => false) names) = Ok sb0.
Hypothesis Hlen : Forall2 (fun d m => s_dimlen _ _ s d = Some m) names sizes.
Notation dimlen := (s_dimlen _ _ s).
Notation cs := (y_axes y).
Notation four := (map a_name (x :: ay :: t :: list_of zo)).
Let Hnodup := pl_names _ _ _ _ _ _ _ _ _ _ _ _ _ _ _ P.
Let Hsmall := pl_small _ _ _ _ _ _ _ _ _ _ _ _ _ _ _ P.
Let Hsizes := sizes_small names sizes dimlen Hlen Hsmall.

Definition valid (e : string * N) : Prop := In (fst e) names /\ exists m, dimlen (fst e) = Some m /\ (snd e < m)%N.
Definition req (e : string * N) : sb_op := SetStartAndSize (fst e) (snd e) 1.
Definition reqs (c : list (string * N)) : list sb_op :=
  match c with [] => [] | e :: r => req e :: SetAll (a_name x) :: SetAll (a_name ay) :: map req r end.
Definition sbc (c : list (string * N)) : slice_builder := sb_run sb0 (reqs c).

Lemma req_no_wrap e : valid e -> no_wrap (req e).
Proof. intros (_ & m & L & B). assert (Sm := Hsmall _ _ L). unfold req, no_wrap. lia. Qed.
Lemma reqs_no_wrap c : Forall valid c -> Forall no_wrap (reqs c).
Proof.
  intro F. destruct F as [|e r E F]; cbn; [constructor|]. constructor; [now apply req_no_wrap|]. constructor; [exact I|]. constructor; [exact I|].
  apply Forall_map. eapply Forall_impl; [|exact F]. apply req_no_wrap.
Qed.
Lemma set_run rq d p m : Forall no_wrap rq -> In d names -> dimlen d = Some m -> (p < m)%N ->
  sb_setStartAndSize (sb_run sb0 rq) d p 1 = Ok (sb_run sb0 (rq ++ [SetStartAndSize d p 1])).
Proof.
  intros W I L B. assert (Sm := Hsmall _ _ L).
  destruct (proj1 (set_spec names sizes dimlen sb0 Hinit Hnodup Hlen Hsmall (sb_run sb0 rq) d p 1 (ex_intro _ rq (conj W eq_refl)) ltac:(lia)))
    as (sb' & E & _). { exists m. split; [split; auto|lia]. }
  rewrite run_snoc. unfold sb_step, sb_apply. now rewrite E.
Qed.
Lemma all_run rq d : Forall no_wrap rq -> In d names -> sb_setAll (sb_run sb0 rq) d = Ok (sb_run sb0 (rq ++ [SetAll d])).
Proof.
  intros W I. rewrite run_snoc. unfold sb_step, sb_apply.
  enough (exists sb', sb_setAll (sb_run sb0 rq) d = Ok sb') as (sb' & ->) by reflexivity.
  assert (F := run_frame names sizes (map (fun _ => false) names) sb0 Hinit Hnodup Hsizes rq W).
  assert (I' := I). apply In_nth_error in I'. destruct I' as (p & Pp). destruct (nth_len names sizes dimlen Hlen p d Pp) as (m & Pm & L).
  unfold sb_setAll. rewrite (getDimPos_in names sizes _ Hnodup (sb_run sb0 rq) d p F Pp). cbn [obind].
  unfold at_ at 1. destruct F as (_ & Fm & _). rewrite Fm, Pm. cbn [obind]. assert (Sm := Hsmall _ _ L).
  destruct (proj1 (set_spec names sizes dimlen sb0 Hinit Hnodup Hlen Hsmall (sb_run sb0 rq) d 0 m (ex_intro _ rq (conj W eq_refl)) ltac:(lia)))
    as (sb' & E & _); [exists m; split; [split; auto|lia]|eauto].
Qed.
Lemma in_names a : In a (x :: ay :: t :: list_of zo) -> In (a_name a) names.
Proof. intro I. exact (proj1 (pl_in _ _ _ _ _ _ _ _ _ _ _ _ _ _ _ P a I)). Qed.

Lemma sbc_snoc c d p m : c <> [] -> Forall valid c -> In d names -> dimlen d = Some m -> (p < m)%N ->
  sb_setStartAndSize (sbc c) d p 1 = Ok (sbc (c ++ [(d, p)])).
Proof.
  intros N F I L B. unfold sbc. rewrite (set_run _ d p m (reqs_no_wrap c F) I L B). destruct c as [|e r]; [congruence|].
  cbn [reqs List.app]. rewrite map_app. reflexivity.
Qed.
Lemma first_sbc b p m : b_sb b = sb0 -> b_cs b = cs -> dimlen (a_name t) = Some m -> (p < m)%N ->
  (do sb <- set_time (s_expl _ _ s) b p 1; do sb <- set_all_axis V T s sb x; set_all_axis V T s sb ay) = Ok (sbc [(a_name t, p)]).
Proof.
  intros E1 E2 L B. unfold set_time. rewrite E1, E2, !has_find, time_axis_find, (pl_t _ _ _ _ _ _ _ _ _ _ _ _ _ _ _ P).
  assert (X := pl_expl _ _ _ _ _ _ _ _ _ _ _ _ _ _ _ P).
  rewrite (X t) by (cbn; tauto). unfold set_by_axis. rewrite (X t) by (cbn; tauto).
  assert (Vt : valid (a_name t, p)) by (split; [apply in_names; cbn; tauto|eauto]).
  change sb0 with (sb_run sb0 []). rewrite (set_run [] (a_name t) p m) by (try constructor; try (apply in_names; cbn; tauto); assumption).
  cbn [obind List.app]. unfold set_all_axis. rewrite (X x), (X ay) by (cbn; tauto).
  rewrite all_run by (try (constructor; [exact (req_no_wrap _ Vt)|constructor]); apply in_names; cbn; tauto).
  cbn [obind List.app].
  rewrite all_run by (try (constructor; [exact (req_no_wrap _ Vt)|constructor; [exact I|constructor]]); apply in_names; cbn; tauto).
  reflexivity.
Qed.

Lemma expand_run (set : slice_builder -> N -> outcome slice_builder) d qs A :
  (forall c p, In c A -> In p qs -> set (sbc c) p = Ok (sbc (c ++ [(d, p)]))) ->
  expand set qs (map sbc A) = Ok (map sbc (flat_map (fun c => map (fun p => c ++ [(d, p)]) qs) A)).
Proof.
  intro H. unfold expand, omap.
  assert (E : omapM (fun sb => omapM (set sb) qs) (map sbc A) = Ok (map (fun c => map (fun p => sbc (c ++ [(d, p)])) qs) A)).
  { induction A as [|c A IH]; [reflexivity|]. cbn [map omapM].
    replace (omapM (set (sbc c)) qs) with (Ok (map (fun p => sbc (c ++ [(d, p)])) qs)).
    2: { symmetry. assert (H' : forall p, In p qs -> set (sbc c) p = Ok (sbc (c ++ [(d, p)]))) by (intros; apply H; [now left|assumption]).
         clear - H'. induction qs as [|p qs IH]; [reflexivity|]. cbn [omapM map]. rewrite H' by now left. cbn [obind]. rewrite IH by (intros; apply H'; now right). reflexivity. }
    cbn [obind]. rewrite IH by (intros; apply H; [now right|assumption]). reflexivity. }
  rewrite E. cbn [obind]. f_equal. clear. induction A as [|c A IH]; [reflexivity|]. cbn [map concat flat_map]. rewrite map_app, <- IH. f_equal.
  now rewrite map_map.
Qed.

(** requests of the builder after a combination *)
Lemma acceptable_req d m e : acceptable d m false (req e) = String.eqb (fst e) d && (snd e + 1 <=? m)%N.
Proof. reflexivity. Qed.
Lemma filter_none d m (c : list (string * N)) : ~ In d (map fst c) -> filter (acceptable d m false) (map req c) = [].
Proof.
  induction c as [|e c IH]; intro N; [reflexivity|]. cbn [map filter]. rewrite acceptable_req.
  destruct (String.eqb_spec (fst e) d) as [E|E]; [exfalso; apply N; now left|]. apply IH. intro J. apply N. now right.
Qed.
Lemma last_in d p m c : NoDup (map fst c) -> ~ In d [a_name x; a_name ay] -> In (d, p) c -> (p < m)%N -> last_request d m false (reqs c) = (p, 1%N).
Proof.
  intros ND N4 J B. unfold last_request.
  replace (filter (acceptable d m false) (reqs c)) with [req (d, p)]; [reflexivity|].
  destruct c as [|e r]; [destruct J|]. cbn [reqs filter]. rewrite acceptable_req.
  replace (acceptable d m false (SetAll (a_name x))) with false by (cbn; symmetry; apply String.eqb_neq; intro E; apply N4; cbn; auto).
  replace (acceptable d m false (SetAll (a_name ay))) with false by (cbn; symmetry; apply String.eqb_neq; intro E; apply N4; cbn; auto).
  inversion ND as [|? ? N1 ND']; subst. destruct J as [->|J].
  - cbn [fst snd]. rewrite String.eqb_refl. replace (p + 1 <=? m)%N with true by (symmetry; apply N.leb_le; lia). cbn [andb]. now rewrite filter_none.
  - replace (String.eqb (fst e) d) with false by (symmetry; apply String.eqb_neq; intros <-; apply N1; apply in_map_iff; exists (fst e, p); auto).
    cbn [andb]. clear - ND' J B. induction r as [|f r IH]; [destruct J|]. inversion ND' as [|? ? N1 ND2]; subst. cbn [map filter]. rewrite acceptable_req.
    destruct J as [->|J].
    + cbn [fst snd]. rewrite String.eqb_refl. replace (p + 1 <=? m)%N with true by (symmetry; apply N.leb_le; lia). cbn [andb]. now rewrite filter_none.
    + replace (String.eqb (fst f) d) with false by (symmetry; apply String.eqb_neq; intros <-; apply N1; apply in_map_iff; exists (fst f, p); auto).
      cbn [andb]. auto.
Qed.
Lemma last_all d m c : c <> [] -> In d [a_name x; a_name ay] -> ~ In d (map fst c) -> a_name x <> a_name ay -> last_request d m false (reqs c) = (0%N, m).
Proof.
  intros Nc J N Nxy. unfold last_request. destruct c as [|e r]; [congruence|]. cbn [reqs filter]. rewrite acceptable_req.
  replace (String.eqb (fst e) d) with false by (symmetry; apply String.eqb_neq; intros <-; apply N; now left). cbn [andb].
  rewrite filter_none by (intro K; apply N; now right). cbn [acceptable].
  destruct J as [<-|[<-|[]]]; rewrite String.eqb_refl.
  - replace (String.eqb (a_name ay) (a_name x)) with false by (symmetry; apply String.eqb_neq; congruence). reflexivity.
  - replace (String.eqb (a_name x) (a_name ay)) with false by (symmetry; apply String.eqb_neq; congruence). reflexivity.
Qed.
Lemma get_run rq d m : Forall no_wrap rq -> In d names -> dimlen d = Some m -> sb_get (sb_run sb0 rq) d = Ok (last_request d m false rq).
Proof.
  intros W I L. apply In_nth_error in I. destruct I as (p & Pp). destruct (nth_len names sizes dimlen Hlen p d Pp) as (m' & Pm & L').
  assert (m' = m) as -> by congruence.
  exact (sb_refines names sizes (map (fun _ => false) names) sb0 Hinit Hnodup Hsizes rq d p m false W Pp Pm (nth_unl names p d Pp)).
Qed.
Lemma x_not_y : a_name x <> a_name ay.
Proof.
  assert (D := pl_distinct _ _ _ _ _ _ _ _ _ _ _ _ _ _ _ P). cbn in D. inversion D as [|? ? N _]; subst. intro E. apply N. left. congruence.
Qed.
(** a combination as it comes up: the time first, none of the horizontal axes, every dimension once *)
Definition good_combination (c : list (string * N)) : Prop :=
  c <> [] /\ Forall valid c /\ NoDup (map fst c) /\ forall d, In d (map fst c) -> ~ In d [a_name x; a_name ay].
Lemma sbc_request c : good_combination c -> right_request s x ay names c (sbc c).
Proof.
  intros (N & F & ND & H). assert (W := reqs_no_wrap c F). split.
  { exact (getDimensionNames_spec names sizes _ sb0 Hinit Hnodup Hsizes _ W). }
  split.
  - intros d E. assert (I : In d names) by (destruct E as [->| ->]; apply in_names; cbn; tauto).
    destruct (pl_lens _ _ _ _ _ _ _ _ _ _ _ _ _ _ _ P d I) as (m & L). exists m. split; [exact L|]. unfold sbc.
    rewrite (get_run _ d m W I L). f_equal. apply last_all; [exact N|cbn; intuition congruence| |exact x_not_y].
    intro J. apply (H d J). cbn. intuition congruence.
  - intros d p J. rewrite Forall_forall in F. destruct (F _ J) as (I & m & L & B). cbn [fst snd] in *. unfold sbc.
    rewrite (get_run _ d m W I L). f_equal. apply last_in; auto. apply H. apply in_map_iff. exists (d, p). auto.
Qed.

Definition others : list string := filter (fun d => negb (existsb (String.eqb d) four)) (skeys (sb_fill names 0 [])).
Lemma existsb_in d l : existsb (String.eqb d) l = true <-> In d l.
Proof. rewrite existsb_exists. split; [intros (e & J & E); apply String.eqb_eq in E; now subst|intro J; exists d; split; [exact J|apply String.eqb_refl]]. Qed.
Lemma others_in d : In d others <-> In d names /\ ~ In d four.
Proof.
  unfold others. rewrite filter_In, (fill_keys names Hnodup), negb_true_iff, <- not_true_iff_false, existsb_in. reflexivity.
Qed.
Lemma sorted_keys_filter f (m : smap nat) : ssorted m -> StronglySorted slt (filter f (skeys m)).
Proof.
  unfold ssorted. induction (skeys m) as [|k l IH]; intro S; cbn; [constructor|]. inversion S as [|? ? S' F]; subst.
  destruct (f k); [|auto]. constructor; [auto|]. apply Forall_forall. intros z J. apply filter_In in J. rewrite Forall_forall in F. now apply F.
Qed.
Lemma others_sorted : StronglySorted slt others.
Proof. apply sorted_keys_filter, sorted_fill. constructor. Qed.
Definition base : list string := a_name t :: map a_name (list_of zo).
Lemma unset_others c : Forall valid c -> map fst c = base -> sb_getUnset (sbc c) = others.
Proof.
  intros F E. assert (W := reqs_no_wrap c F). unfold sb_getUnset, others.
  destruct (run_frame names sizes (map (fun _ => false) names) sb0 Hinit Hnodup Hsizes (reqs c) W) as (Fd & _). unfold sbc. rewrite Fd.
  apply filter_ext_in. intros d J. apply (fill_keys names Hnodup) in J. f_equal. apply eq_true_iff_eq.
  rewrite (run_set names sizes (map (fun _ => false) names) sb0 Hinit Hnodup Hsizes (reqs c) d W), existsb_in.
  assert (F4 : In d four <-> d = a_name x \/ d = a_name ay \/ In d (map fst c)) by (rewrite E; unfold base; cbn; intuition congruence).
  rewrite F4. destruct c as [|e r]; [discriminate|]. split.
  - intros (op & p & m & u & K & D & _). cbn [reqs] in K. destruct K as [<-|[<-|[<-|K]]]; cbn in D; subst d; auto.
    + right. right. now left.
    + apply in_map_iff in K. destruct K as (f & <- & K). right. right. right. change (op_dim (req f)) with (fst f). apply in_map. exact K.
  - intro K. assert (J' := J). apply In_nth_error in J'. destruct J' as (p & Pp). destruct (nth_len names sizes dimlen Hlen p d Pp) as (m & Pm & L).
    destruct K as [-> |[-> |K]].
    + exists (SetAll (a_name x)), p, m, false. cbn. rewrite String.eqb_refl. repeat split; auto. exact (nth_unl names p _ Pp).
    + exists (SetAll (a_name ay)), p, m, false. cbn. rewrite String.eqb_refl. repeat split; auto. exact (nth_unl names p _ Pp).
    + apply in_map_iff in K. destruct K as (f & Ef & K). exists (req f), p, m, false.
      rewrite Forall_forall in F. destruct (F f K) as (_ & m' & L' & B). rewrite Ef in L'. assert (m' = m) as -> by congruence.
      rewrite acceptable_req, Ef, String.eqb_refl. replace (snd f + 1 <=? m)%N with true by (symmetry; apply N.leb_le; lia).
      split; [|repeat split; auto; exact (nth_unl names p _ Pp)]. cbn. destruct K as [<-|K]; [now left|]. right. right. right. now apply in_map.
Qed.

Lemma base_not_xy d : In d base -> ~ In d [a_name x; a_name ay].
Proof.
  assert (D := pl_distinct _ _ _ _ _ _ _ _ _ _ _ _ _ _ _ P). cbn [map] in D. fold base in D. intros J K.
  inversion D as [|? ? N1 D1]; subst. inversion D1 as [|? ? N2 D2]; subst.
  destruct K as [<-|[<-|[]]]; [apply N1; right|apply N2]; exact J.
Qed.
Lemma base_nodup : NoDup base.
Proof.
  assert (D := pl_distinct _ _ _ _ _ _ _ _ _ _ _ _ _ _ _ P). cbn [map] in D. fold base in D.
  inversion D as [|? ? N1 D1]; subst. inversion D1; subst. assumption.
Qed.
(** combinations of the time, the level and some of the others *)
Lemma good_comb c ds : map fst c = base ++ ds -> Forall valid c -> NoDup ds -> (forall d, In d ds -> ~ In d four) -> good_combination c.
Proof.
  intros E F ND H. split; [intros ->; discriminate|]. split; [exact F|]. rewrite E. split.
  - assert (B := base_nodup). assert (Hb : forall d, In d base -> In d ds -> False) by (intros d J K; apply (H d K); right; right; exact J).
    clear - B ND Hb. induction base as [|b l IH]; [exact ND|]. inversion B as [|? ? N1 B1]; subst. cbn [List.app]. constructor.
    + rewrite in_app_iff. intros [J|J]; [contradiction|]. apply (Hb b); [now left|exact J].
    + apply IH; [assumption|]. intros d J. apply Hb. now right.
  - intros d J. apply in_app_iff in J. destruct J as [J|J]; [now apply base_not_xy|]. intro K. apply (H d J). cbn in *. tauto.
Qed.

(** one line *)
Lemma omapM_relation {A B} (f : A -> outcome B) (R : A -> B -> Prop) l : (forall a, In a l -> exists b, f a = Ok b /\ R a b) ->
  exists r, omapM f l = Ok r /\ Forall2 R l r.
Proof.
  induction l as [|a l IH]; intro H; [exists []; split; [reflexivity|constructor]|].
  destruct (H a (or_introl eq_refl)) as (b & E & Rb). destruct IH as (r & Er & Fr); [intros; apply H; now right|].
  exists (b :: r). cbn [omapM]. rewrite E. cbn [obind]. rewrite Er. split; [reflexivity|now constructor].
Qed.
Definition start_of (sb : slice_builder) (d : string) : N := match sb_get sb d with Ok (a, _) => a | _ => 0%N end.
Lemma starts c : Forall valid c -> sb_start (sbc c) = map (start_of (sbc c)) names.
Proof.
  intro F. assert (W := reqs_no_wrap c F). apply nth_error_ext. intro i. rewrite nth_error_map.
  destruct (run_frame names sizes (map (fun _ => false) names) sb0 Hinit Hnodup Hsizes (reqs c) W) as (_ & _ & _ & L & _).
  destruct (nth_error names i) as [d|] eqn:E; cbn [option_map].
  - destruct (nth_len names sizes dimlen Hlen i d E) as (m & Pm & Lm). assert (J := nth_error_In _ _ E).
    unfold sbc, start_of. rewrite (get_run _ d m W J Lm).
    rewrite (proj1 (run_get names sizes (map (fun _ => false) names) sb0 Hinit Hnodup Hsizes (reqs c) d i m false W E Pm (nth_unl names i d E))).
    now destruct (last_request d m false (reqs c)).
  - apply nth_error_None in E. apply nth_error_None. unfold sbc. lia.
Qed.
Definition type_of (d : string) : axis_type := match by_name cs d with Some a => a_type a | None => Undefined end.
Lemma has_axis d : In d names -> exists a, by_name cs d = Some a.
Proof.
  intro J. destruct (in_dec String.string_dec d four) as [K|K].
  - apply in_map_iff in K. destruct K as (a & <- & K). exists a. exact (proj2 (pl_in _ _ _ _ _ _ _ _ _ _ _ _ _ _ _ P a K)).
  - destruct (proj1 (pl_others _ _ _ _ _ _ _ _ _ _ _ _ _ _ _ P d J K)) as (a & E & _). eauto.
Qed.
Lemma types c sh : Forall valid c -> axis_types (mkCsb (sbc c) cs sh) = Ok (map type_of names).
Proof.
  intro F. assert (W := reqs_no_wrap c F). unfold axis_types. cbn [b_sb b_cs].
  unfold sbc. rewrite (getDimensionNames_spec names sizes _ sb0 Hinit Hnodup Hsizes _ W). cbn [obind]. apply omapM_all.
  assert (H := has_axis). unfold type_of, by_name in *. clear - H. induction names as [|d l IH]; cbn [map]; constructor.
  - destruct (H d (or_introl eq_refl)) as (a & ->). reflexivity.
  - apply IH. intros; apply H; now right.
Qed.
Lemma combine_map3 {A B C} (f : A -> B) (g : A -> C) (l : list A) : combine l (combine (map f l) (map g l)) = map (fun a => (a, (f a, g a))) l.
Proof. induction l; cbn; congruence. Qed.
Lemma omapM_map {A B C} (f : B -> outcome C) (g : A -> B) l : omapM f (map g l) = omapM (fun a => f (g a)) l.
Proof. induction l as [|a l IH]; cbn; [reflexivity|]. now rewrite IH. Qed.

Definition stats_fine : Prop :=
  match o_stats _ o with
  | None => True
  | Some n => (exists ns, stat_names n = Ok ns) /\ forall sb, sb_getDimensionNames sb = Ok names -> exists data, s_slice _ _ s name sb = Ok data
  end.
Lemma line_ok c sh dims : stats_fine -> good_combination c -> (forall d, In d (map fst c) <-> In d names /\ ~ In d [a_name x; a_name ay]) ->
  (forall d, In d others -> exists l, sfind d dims = Some l /\ s_values _ _ s d = Ok l) ->
  exists l, line_of V T o s name cs sh (Some hours) (option_map (fun _ => levels) zo) dims (sbc c) = Ok l /\
    right_line o s name names x ay t zo hours levels c l.
Proof.
  intros St G Full Hd. assert (RR := sbc_request c G). destruct G as (_ & F & ND & _). unfold line_of. destruct RR as (RN & RX & RP).
  rewrite RN. cbn [obind]. rewrite (types c sh F). cbn [obind]. rewrite (starts c F), combine_map3, <- map_rev, omapM_map. cbn [fst snd].
  assert (H : forall d, In d (rev names) -> exists it, item_of V (Some hours) (option_map (fun _ => levels) zo) dims d (type_of d) (start_of (sbc c) d) = Ok it /\
    right_item s x ay t zo hours levels c d it).
  { intros d J. apply in_rev in J. destruct (in_dec String.string_dec d [a_name x; a_name ay]) as [K|K].
    - exists []. split; [|left; split; [cbn in K; intuition congruence|reflexivity]].
      assert (Ty : In (type_of d) [GeoX; Lon; GeoY; Lat]).
      { unfold type_of. destruct K as [<-|[<-|[]]].
        - rewrite (proj2 (pl_in _ _ _ _ _ _ _ _ _ _ _ _ _ _ _ P x ltac:(cbn; tauto))).
          assert (X := find_any_type _ _ _ (pl_x _ _ _ _ _ _ _ _ _ _ _ _ _ _ _ P)). cbn in *. tauto.
        - rewrite (proj2 (pl_in _ _ _ _ _ _ _ _ _ _ _ _ _ _ _ P ay ltac:(cbn; tauto))).
          assert (X := find_any_type _ _ _ (pl_y _ _ _ _ _ _ _ _ _ _ _ _ _ _ _ P)). cbn in *. tauto. }
      cbn in Ty. destruct Ty as [<-|[<-|[<-|[<-|[]]]]]; reflexivity.
    - assert (Jc : In d (map fst c)) by (apply Full; auto). apply in_map_iff in Jc. destruct Jc as ((d', p) & E & Jc). cbn in E. subst d'.
      assert (Sd : start_of (sbc c) d = p) by (unfold start_of; now rewrite (RP d p Jc)). rewrite Sd.
      rewrite Forall_forall in F. destruct (F _ Jc) as (_ & m & Lm & B). cbn [fst snd] in Lm, B.
      assert (At : forall l : list V, m = N.of_nat (length l) -> exists v, at_position l p = Ok v /\ nth_error l (N.to_nat p) = Some v).
      { intros l ->. unfold at_position. destruct (nth_error l (N.to_nat p)) as [v|] eqn:E; [cbn; eauto|]. apply nth_error_None in E. lia. }
      destruct (String.string_dec d (a_name t)) as [-> |Nt].
      { unfold type_of. rewrite (proj2 (pl_in _ _ _ _ _ _ _ _ _ _ _ _ _ _ _ P t ltac:(cbn; tauto))).
        assert (Ty : a_type t = Time).
        { assert (X := find_any_type cs [Time] t). destruct X as [X|[]]; [|now symmetry]. rewrite <- (pl_t _ _ _ _ _ _ _ _ _ _ _ _ _ _ _ P). apply time_axis_find. }
        rewrite Ty. cbn [item_of rd obind]. destruct (At hours) as (v & -> & E); [assert (Q := pl_nt _ _ _ _ _ _ _ _ _ _ _ _ _ _ _ P); congruence|].
        cbn [obind]. eexists. split; [reflexivity|]. right. exists p, v. split; [exact Jc|]. left. auto. }
      destruct (in_dec String.string_dec d (map a_name (list_of zo))) as [Jz|Nz].
      { destruct zo as [z|] eqn:Ez; [|destruct Jz]. destruct Jz as [<-|[]].
        unfold type_of. rewrite (proj2 (pl_in _ _ _ _ _ _ _ _ _ _ _ _ _ _ _ P z ltac:(cbn; tauto))).
        assert (Ty := find_any_type _ _ _ (pl_z _ _ _ _ _ _ _ _ _ _ _ _ _ _ _ P)).
        destruct (At levels) as (v & Ev & E); [destruct (pl_levels _ _ _ _ _ _ _ _ _ _ _ _ _ _ _ P z eq_refl) as (_ & Q); congruence|].
        exists [LevelAt _ p v]. split; [|right; exists p, v; split; [exact Jc|]; right; left; eauto].
        cbn in Ty. destruct Ty as [<-|[<-|[<-|[<-|[]]]]]; cbn [item_of option_map rd obind]; rewrite Ev; reflexivity. }
      assert (N4 : ~ In d four) by (cbn in *; intuition congruence).
      destruct (pl_others _ _ _ _ _ _ _ _ _ _ _ _ _ _ _ P d J N4) as ((a & Ea & Ta) & l & El & Ll).
      destruct (Hd d) as (l' & Fd & Vd); [apply others_in; auto|]. assert (l' = l) as -> by congruence.
      destruct (At l) as (v & Ev & E); [congruence|].
      exists [DimAt _ d v]. split; [|right; exists p, v; split; [exact Jc|]; right; right; eauto].
      unfold type_of. rewrite Ea. destruct (a_type a); try (exfalso; apply Ta; cbn; tauto); cbn [item_of]; rewrite Fd; cbn [rd obind]; rewrite Ev; reflexivity. }
  destruct (omapM_relation _ _ _ H) as (its & Ei & Fi). rewrite Ei. cbn [obind]. unfold stats_fine in St. unfold right_line.
  destruct (o_stats _ o) as [n|]; cbn [obind].
  - destruct St as ((ns & En) & Sl). destruct (Sl _ RN) as (data & Ed). rewrite Ed. cbn [obind]. destruct (calc_total data) as (st & Es). rewrite Es. cbn [obind].
    rewrite En. cbn [obind]. eexists. split; [reflexivity|]. cbn [l_items l_stats]. split; [eauto|].
    exists (sbc c), data, st, ns. repeat split; auto.
  - eexists. split; [reflexivity|]. cbn [l_items l_stats]. split; [eauto|reflexivity].
Qed.

(** the three loops *)
Definition ts : list N := map fst (filter (fun p => match map to60 wt with [] => true | _ => in_set (to60 (snd p)) (map to60 wt) end) (positions hours)).
Definition zs : list N :=
  map fst (filter (fun p => match ps with [] => true | _ => existsb (N.eqb (fst p)) ps end)
    (filter (fun p => match map to10 vs with [] => true | _ => in_set (to10 (snd p)) (map to10 vs) end) (positions levels))).
Lemma ts_chosen : chosen hours (time_wanted wt) ts.
Proof. apply chosen_filter. intros i v. cbn [snd]. apply set_test. Qed.
Lemma zs_chosen : chosen levels (level_wanted vs ps) zs.
Proof.
  unfold zs. rewrite filter_filter. apply chosen_filter. intros i v. cbn [fst snd]. rewrite andb_true_iff, set_test.
  unfold level_wanted. split; intros (A & B); (split; [exact A|]).
  - destruct ps as [|q r]; [now left|]. right. apply existsb_exists in B. destruct B as (j & J & E). apply N.eqb_eq in E. now subst.
  - destruct ps as [|q r]; [reflexivity|]. destruct B as [[=]|B]. apply existsb_exists. exists i. split; [exact B|apply N.eqb_refl].
Qed.
Lemma chosen_below l Q r : chosen l Q r -> forall i, In i r -> (i < N.of_nat (length l))%N.
Proof. intros (_ & H) i J. apply H in J. destruct J as (v & E & _). assert (N.to_nat i < length l) by (apply nth_error_Some; congruence). lia. Qed.

Definition first_choice : list (string * list N) := [(a_name t, ts)].
Definition level_choice : list (string * list N) := match zo with Some z => [(a_name z, zs)] | None => [] end.
Definition choices (ds : list string) : list (string * list N) := first_choice ++ level_choice ++ map (fun d => (d, every_position s d)) ds.
Lemma valid_t p : In p ts -> valid (a_name t, p).
Proof.
  intro J. split; [apply in_names; cbn; tauto|]. cbn [fst snd]. exists (N.of_nat (length hours)). split; [exact (pl_nt _ _ _ _ _ _ _ _ _ _ _ _ _ _ _ P)|].
  exact (chosen_below _ _ _ ts_chosen p J).
Qed.
Lemma valid_z z p : zo = Some z -> In p zs -> valid (a_name z, p).
Proof.
  intros E J. split; [apply in_names; rewrite E; cbn; tauto|]. cbn [fst snd]. exists (N.of_nat (length levels)).
  split; [exact (proj2 (pl_levels _ _ _ _ _ _ _ _ _ _ _ _ _ _ _ P z E))|]. exact (chosen_below _ _ _ zs_chosen p J).
Qed.
Lemma valid_other d p : In d names -> In p (every_position s d) -> valid (d, p).
Proof.
  intros I J. split; [exact I|]. cbn [fst snd]. unfold every_position in J. destruct (dimlen d) as [n|]; [|destruct J].
  exists n. split; [reflexivity|]. apply in_map_iff in J. destruct J as (q & <- & J). apply in_seq in J. lia.
Qed.
Lemma choices_valid ds : (forall d, In d ds -> In d names) -> forall c, In c (combinations (choices ds)) ->
  map fst c = base ++ ds /\ Forall valid c.
Proof.
  intros Hn c J. destruct (combinations_in _ _ J) as (E & B). split.
  - rewrite E. unfold choices, base, first_choice, level_choice. cbn [map List.app fst]. f_equal. rewrite !map_app, map_map. cbn [fst]. rewrite map_id. f_equal.
    destruct zo; reflexivity.
  - apply Forall_forall. intros (d, p) K. destruct (B d p K) as (qs & K1 & K2). unfold choices, first_choice, level_choice in K1.
    apply in_app_iff in K1. destruct K1 as [[[= <- <-]|[]]|K1]; [now apply valid_t|]. apply in_app_iff in K1. destruct K1 as [K1|K1].
    + assert (Vz := valid_z). destruct zo as [z|]; [|destruct K1]. destruct K1 as [[= <- <-]|[]]. apply Vz; auto.
    + apply in_map_iff in K1. destruct K1 as (d' & [= <- <-] & K1). apply valid_other; auto.
Qed.

Lemma time_ok b tb : b_sb b = sb0 -> b_cs b = cs -> time_builder b = Ok tb -> full_time s t tb ->
  time_slices V T to60 o s b x ay t = Ok (map sbc (combinations first_choice), hours, ref).
Proof.
  intros E1 E2 Tb Ft. unfold time_slices. rewrite E2, has_find, (pl_noref _ _ _ _ _ _ _ _ _ _ _ _ _ _ _ P). cbn [obind].
  replace (mkCsb (b_sb b) cs (b_tshape b)) with b by (rewrite <- E2; now destruct b).
  assert (R : (match s_unique_ref _ _ s with Some r => Ok r | None => do tb <- time_builder b; s_first_time _ _ s (a_name t) tb end) = Ok ref).
  { destruct (pl_ref _ _ _ _ _ _ _ _ _ _ _ _ _ _ _ P) as [-> |(-> & H)]; [reflexivity|]. rewrite Tb. cbn [obind]. auto. }
  rewrite R. cbn [obind]. rewrite Tb. cbn [obind]. rewrite (pl_hours _ _ _ _ _ _ _ _ _ _ _ _ _ _ _ P tb Ft). cbn [obind].
  rewrite (pl_times _ _ _ _ _ _ _ _ _ _ _ _ _ _ _ P). cbn [obind]. fold ts.
  assert (M : omapM (fun i => do sb <- set_time (s_expl _ _ s) b i 1; do sb1 <- set_all_axis V T s sb x; set_all_axis V T s sb1 ay) ts =
              Ok (map (fun p => sbc [(a_name t, p)]) ts)).
  { assert (H : forall p, In p ts -> (do sb <- set_time (s_expl _ _ s) b p 1; do sb1 <- set_all_axis V T s sb x; set_all_axis V T s sb1 ay) = Ok (sbc [(a_name t, p)])).
    { intros p J. apply (first_sbc b p (N.of_nat (length hours)) E1 E2 (pl_nt _ _ _ _ _ _ _ _ _ _ _ _ _ _ _ P)). exact (chosen_below _ _ _ ts_chosen p J). }
    revert H. generalize ts. clear. intro l. induction l as [|p l IH]; intro H; [reflexivity|]. cbn [omapM map]. rewrite H by now left. cbn [obind]. rewrite IH by (intros; apply H; now right). reflexivity. }
  rewrite M. cbn [obind]. f_equal. f_equal. f_equal. unfold first_choice. cbn [combinations]. generalize ts. clear. intro l.
  induction l as [|p l IH]; cbn [map flat_map List.app]; [reflexivity|]. now rewrite IH.
Qed.
Lemma level_ok z : zo = Some z -> level_slices V T to10 o s z (map sbc (combinations first_choice)) = Ok (map sbc (combinations (choices [])), levels).
Proof.
  intro E. unfold level_slices. rewrite (pl_layer _ _ _ _ _ _ _ _ _ _ _ _ _ _ _ P). cbn [option_map].
  rewrite (proj1 (pl_levels _ _ _ _ _ _ _ _ _ _ _ _ _ _ _ P z E)). cbn [obind].
  rewrite (pl_positions _ _ _ _ _ _ _ _ _ _ _ _ _ _ _ P). cbn [obind]. rewrite (pl_values _ _ _ _ _ _ _ _ _ _ _ _ _ _ _ P). cbn [obind]. fold zs.
  rewrite (expand_run _ (a_name z)).
  - cbn [obind]. unfold choices, level_choice. rewrite E. cbn [map]. rewrite app_nil_r, combinations_snoc. reflexivity.
  - intros c p J K. unfold set_by_axis. rewrite (pl_expl _ _ _ _ _ _ _ _ _ _ _ _ _ _ _ P z) by (rewrite E; cbn; tauto).
    assert (V' := valid_z z p E K). destruct V' as (I & m & L & B). cbn [fst snd] in *. apply (sbc_snoc c (a_name z) p m); auto.
    + intros ->. unfold first_choice in J. destruct (combinations_in _ _ J) as (Q & _). discriminate.
    + destruct (combinations_in _ _ J) as (Q & Bq). apply Forall_forall. intros (d, q) Kq. destruct (Bq d q Kq) as (qs & [[= <- <-]|[]] & K2). now apply valid_t.
Qed.
Lemma others_loop ds : forall done m, (forall d, In d (done ++ ds) -> In d names /\ ~ In d four) ->
  (forall d, In d done -> exists l, sfind d m = Some l /\ s_values _ _ s d = Ok l) ->
  exists m', ofold (fun st d => let '(sbs, m) := st in do values <- s_values _ _ s d;
                       do sbs <- expand (fun sb i => sb_setStartAndSize sb d i 1) (map fst (positions values)) sbs; Ok (sbs, sput d values m))
               ds (map sbc (combinations (choices done)), m) = Ok (map sbc (combinations (choices (done ++ ds))), m') /\
    forall d, In d (done ++ ds) -> exists l, sfind d m' = Some l /\ s_values _ _ s d = Ok l.
Proof.
  induction ds as [|d ds IH]; intros done m H Hm; cbn [ofold]; [exists m; rewrite app_nil_r; auto|].
  assert (Hd := H d ltac:(rewrite in_app_iff; cbn; tauto)). destruct Hd as (Id & Nd).
  destruct (pl_others _ _ _ _ _ _ _ _ _ _ _ _ _ _ _ P d Id Nd) as (_ & l & El & Ll). rewrite El. cbn [obind].
  rewrite (expand_run _ d).
  - cbn [obind].
    replace (flat_map (fun c => map (fun p => c ++ [(d, p)]) (map fst (positions l))) (combinations (choices done))) with (combinations (choices (done ++ [d]))).
    + replace (done ++ d :: ds) with ((done ++ [d]) ++ ds) in * by (rewrite <- app_assoc; reflexivity).
      apply IH; [exact H|]. intros e J. rewrite sfind_sput. destruct (String.eqb_spec e d) as [-> |Ne]; [eauto|].
      apply Hm. apply in_app_iff in J. cbn in J. intuition congruence.
    + unfold choices. rewrite map_app, !app_assoc. cbn [map]. rewrite combinations_snoc. unfold every_position. rewrite Ll, Nat2N.id, positions_fst. reflexivity.
  - intros c p J K. assert (Kp : In p (every_position s d)) by (unfold every_position; rewrite Ll, Nat2N.id, <- positions_fst; exact K).
    destruct (valid_other d p Id Kp) as (_ & mm & Lm & B). cbn [fst snd] in *.
    destruct (choices_valid done (fun e Je => proj1 (H e ltac:(rewrite in_app_iff; tauto))) c J) as (Ec & Fc).
    apply (sbc_snoc c d p mm); auto. intros ->. discriminate.
Qed.
Lemma others_ok : exists m, other_slices V T s (map sbc (combinations (choices []))) = Ok (map sbc (combinations (choices others)), m) /\
  (combinations (choices others) <> [] -> forall d, In d others -> exists l, sfind d m = Some l /\ s_values _ _ s d = Ok l).
Proof.
  assert (H0 : forall ds, combinations (choices []) = [] -> combinations (choices ds) = []).
  { intro ds. induction ds as [|d ds IH] using rev_ind; [auto|]. intro E. specialize (IH E).
    unfold choices. rewrite map_app, !app_assoc. cbn [map]. rewrite combinations_snoc. unfold choices in IH. rewrite app_assoc in IH. now rewrite IH. }
  destruct (combinations (choices [])) as [|c A] eqn:E.
  - exists []. rewrite H0 by reflexivity. split; [reflexivity|congruence].
  - cbn [map]. unfold other_slices.
    destruct (choices_valid [] ltac:(intros ? []) c) as (Ec & Fc); [rewrite E; now left|]. rewrite app_nil_r in Ec.
    rewrite (unset_others c Fc Ec). change (sbc c :: map sbc A) with (map sbc (c :: A)). rewrite <- E.
    destruct (others_loop others [] []) as (m & Em & Hm).
    + intros d J. now apply others_in.
    + intros d [].
    + exists m. split; [exact Em|]. intros _. exact Hm.
Qed.

(** the result *)
Lemma contents_ok b tb : stats_fine ->
  csb_new (s_shape _ _ s) (s_expl _ _ s) (y_complete y) (s_vars _ _ s) dimlen cs = Ok b ->
  b_sb b = sb0 -> b_cs b = cs -> time_builder b = Ok tb -> full_time s t tb ->
  (combinations (choices others) = [] -> contents V T to60 to10 o s name = Ok []) /\
  (combinations (choices others) <> [] -> exists nx ny lines, dimlen (a_name x) = Some nx /\ dimlen (a_name ay) = Some ny /\
     contents V T to60 to10 o s name = Ok [mkBlock _ _ name ref nx ny lines] /\
     Forall2 (right_line o s name names x ay t zo hours levels) (combinations (choices others)) lines).
Proof.
  intros St Eb E1 E2 Tb Ft. unfold contents. rewrite (pl_sys _ _ _ _ _ _ _ _ _ _ _ _ _ _ _ P). unfold layer_used.
  rewrite (pl_layer _ _ _ _ _ _ _ _ _ _ _ _ _ _ _ P), (pl_simple _ _ _ _ _ _ _ _ _ _ _ _ _ _ _ P). cbn [negb].
  rewrite (pl_x _ _ _ _ _ _ _ _ _ _ _ _ _ _ _ P), (pl_y _ _ _ _ _ _ _ _ _ _ _ _ _ _ _ P). cbn [rd obind].
  destruct (pl_lens _ _ _ _ _ _ _ _ _ _ _ _ _ _ _ P (a_name x)) as (nx & Lx); [apply in_names; cbn; tauto|].
  destruct (pl_lens _ _ _ _ _ _ _ _ _ _ _ _ _ _ _ P (a_name ay)) as (ny & Ly); [apply in_names; cbn; tauto|].
  unfold dim_length. rewrite Lx, Ly. cbn [obind]. rewrite Eb. cbn [obind]. rewrite time_axis_find, (pl_t _ _ _ _ _ _ _ _ _ _ _ _ _ _ _ P).
  rewrite (time_ok b tb E1 E2 Tb Ft). cbn [obind].
  assert (Z : (match geo_z cs with
               | None => Ok (map sbc (combinations first_choice), None)
               | Some z => do (sbs, values) <- level_slices V T to10 o s z (map sbc (combinations first_choice)); Ok (sbs, Some values)
               end) = Ok (map sbc (combinations (choices [])), option_map (fun _ => levels) zo)).
  { rewrite (pl_z _ _ _ _ _ _ _ _ _ _ _ _ _ _ _ P). assert (Lz := level_ok).
    assert (Cz : zo = None -> combinations (choices []) = combinations first_choice).
    { intro E. unfold choices, level_choice. rewrite E. reflexivity. }
    destruct zo as [z|].
    - rewrite (Lz z eq_refl). reflexivity.
    - rewrite Cz by reflexivity. reflexivity. }
  rewrite Z. cbn [obind]. destruct others_ok as (m & Em & Hm). rewrite Em. cbn [obind].
  split.
  - intros ->. reflexivity.
  - intro Ne. specialize (Hm Ne).
    assert (L : exists lines, omapM (line_of V T o s name cs (b_tshape b) (Some hours) (option_map (fun _ => levels) zo) m) (map sbc (combinations (choices others))) = Ok lines /\
      Forall2 (right_line o s name names x ay t zo hours levels) (combinations (choices others)) lines).
    { rewrite omapM_map. apply omapM_relation. intros c J.
      destruct (choices_valid others (fun d K => proj1 (proj1 (others_in d) K)) c J) as (Ec & Fc).
      apply line_ok; auto.
      - apply (good_comb c others Ec Fc); [|intros d K; now apply others_in].
        unfold others. apply NoDup_filter. apply ssorted_NoDup, sorted_fill. constructor.
      - intro d. rewrite Ec, in_app_iff, others_in. unfold base. assert (N4 := base_not_xy d). unfold base in N4. split.
        + intros [K|(K1 & K2)].
          * split; [|now apply N4]. destruct K as [<-|K]; [apply in_names; cbn; tauto|].
            apply in_map_iff in K. destruct K as (a & <- & K). apply in_names. cbn. tauto.
          * split; [exact K1|]. intro K. apply K2. cbn in *. tauto.
        + intros (K1 & K2). destruct (in_dec String.string_dec d four) as [K|K]; [left|right; auto]. cbn in *. tauto. }
    destruct L as (lines & El & Fl). exists nx, ny, lines. split; [reflexivity|]. split; [reflexivity|]. split; [|exact Fl].
    destruct (map sbc (combinations (choices others))) as [|q qs] eqn:Eq; [destruct (combinations (choices others)); [congruence|discriminate]|].
    rewrite El. reflexivity.
Qed.
End Main.

(** A variable in a simple grid: one line for each combination of the wanted times, the wanted levels and the
    positions of all other dimensions, in this order, every position once; the values shown belong to the position
    and the statistics to the slice. *)
Theorem C121_lines : forall o s name y names x ay t zo ref hours levels wt vs ps,
  plain o s name y names x ay t zo ref hours levels wt vs ps -> stats_fine o s name names ->
  exists ts zs others,
    chosen hours (time_wanted wt) ts /\ chosen levels (level_wanted vs ps) zs /\ StronglySorted slt others /\
    (forall d, In d others <-> In d names /\ ~ In d (map a_name (x :: ay :: t :: list_of zo))) /\
    let all := combinations ((a_name t, ts) :: match zo with Some z => [(a_name z, zs)] | None => [] end ++ map (fun d => (d, every_position s d)) others) in
    (all = [] -> contents V T to60 to10 o s name = Ok []) /\
    (all <> [] -> exists nx ny lines, s_dimlen _ _ s (a_name x) = Some nx /\ s_dimlen _ _ s (a_name ay) = Some ny /\
       contents V T to60 to10 o s name = Ok [mkBlock _ _ name ref nx ny lines] /\
       Forall2 (right_line o s name names x ay t zo hours levels) all lines).
Proof.
  intros o s name y names x ay t zo ref hours levels wt vs ps P St.
  destruct (pl_var _ _ _ _ _ _ _ _ _ _ _ _ _ _ _ P) as (v & Ev).
  destruct (proj1 (sb_of_var_spec (s_dimlen _ _ s) names) (pl_lens _ _ _ _ _ _ _ _ _ _ _ _ _ _ _ P)) as (sizes & sb0 & Eo & Hi & Hl).
  assert (En : csb_new (s_shape _ _ s) (s_expl _ _ s) (y_complete y) (s_vars _ _ s) (s_dimlen _ _ s) (y_axes y) = Ok (mkCsb sb0 (y_axes y) [a_name t])).
  { unfold csb_new, cs_var. rewrite Ev. cbn [snd]. rewrite Eo. cbn [obind]. unfold set_ref.
    rewrite !has_find, time_axis_find, (pl_noref _ _ _ _ _ _ _ _ _ _ _ _ _ _ _ P), (pl_t _ _ _ _ _ _ _ _ _ _ _ _ _ _ _ P). cbn [obind].
    now rewrite (pl_shape _ _ _ _ _ _ _ _ _ _ _ _ _ _ _ P). }
  assert (It : In (a_name t) names) by (apply (proj1 (pl_in _ _ _ _ _ _ _ _ _ _ _ _ _ _ _ P t ltac:(cbn; tauto)))).
  destruct (proj1 (C75_time_variable_builder (s_shape _ _ s) (s_expl _ _ s) (y_complete y) (s_vars _ _ s) (s_dimlen _ _ s) (y_axes y) [] names (mkCsb sb0 (y_axes y) [a_name t]) t
    ltac:(exists (v, names), (mkCsb sb0 (y_axes y) [a_name t]); repeat split; auto; [exact (pl_names _ _ _ _ _ _ _ _ _ _ _ _ _ _ _ P)|exact (pl_small _ _ _ _ _ _ _ _ _ _ _ _ _ _ _ P)])
    (pl_t _ _ _ _ _ _ _ _ _ _ _ _ _ _ _ P) ltac:(rewrite (pl_shape _ _ _ _ _ _ _ _ _ _ _ _ _ _ _ P); repeat constructor; intros [])))
    as (tb & Etb & Ntb & Gtb).
  { rewrite (pl_shape _ _ _ _ _ _ _ _ _ _ _ _ _ _ _ P). intros d [<-|[]]. exact It. }
  rewrite (pl_shape _ _ _ _ _ _ _ _ _ _ _ _ _ _ _ P) in Ntb, Gtb.
  assert (Ft : full_time s t tb).
  { split; [exact Ntb|]. destruct (Gtb (a_name t) (or_introl eq_refl)) as (r & G1 & G2). cbn [b_sb] in G2.
    destruct (pl_lens _ _ _ _ _ _ _ _ _ _ _ _ _ _ _ P _ It) as (m & Lm). exists m. split; [exact Lm|]. rewrite G1.
    change sb0 with (sb_run sb0 []) in G2.
    rewrite (get_run o s name y names x ay t zo ref hours levels wt vs ps P sizes sb0 Hi Hl [] (a_name t) m ltac:(constructor) It Lm) in G2. unfold last_request in G2. cbn [filter map last] in G2. congruence. }
  exists (ts hours wt), (zs levels vs ps), (others names x ay t zo).
  split; [eapply ts_chosen; eauto|]. split; [eapply zs_chosen; eauto|]. split; [eapply others_sorted; eauto|].
  split; [intro d; eapply others_in; eauto|].
  exact (contents_ok o s name y names x ay t zo ref hours levels wt vs ps P sizes sb0 Hi Hl (mkCsb sb0 (y_axes y) [a_name t]) tb St En eq_refl eq_refl Etb Ft).
Qed.
End Plain.

(** ** Names *)
(** the names of the variables: those asked for by name or by standard name, all of them if nothing is asked for; once, in order *)
Theorem C121_names : forall V T (o : options V) (s : source V T),
  StronglySorted slt (selected V T o s) /\
  forall n, In n (selected V T o s) <->
    match o_vars _ o, o_stds _ o with
    | None, None => In n (map fst (s_vars _ _ s))
    | _, _ => (exists l, o_vars _ o = Some l /\ In n l) \/ (exists l k, o_stds _ o = Some l /\ In k l /\ In n (s_std _ _ s k))
    end.
Proof.
  intros V T o s. unfold selected.
  match goal with |- context [fold_left _ ?l []] => destruct (names_set l [] ltac:(constructor)) as (S & K) end. split; [exact S|].
  intro n. rewrite K. cbn [skeys map In]. destruct (o_vars _ o) as [v|], (o_stds _ o) as [t|]; rewrite ?in_app_iff, ?in_flat_map.
  - split; [intros [[H|(k & A & B)]|[]]; [left|right]; eauto|]. intros [(l & [= <-] & H)|(l & k & [= <-] & A & B)]; left; [left|right]; eauto.
  - cbn [flat_map In]. split; [intros [[H|(k & [] & _)]|[]]; left; eauto|]. intros [(l & [= <-] & H)|(l & k & [=] & _)]. auto.
  - split; [intros [[[]|(k & A & B)]|[]]; right; eauto|]. intros [(l & [=] & _)|(l & k & [= <-] & A & B)]. left. right. eauto.
  - tauto.
Qed.
(** the blocks of the variables follow each other; a failure ends the program *)
Theorem C121_blocks : forall V T to60 to10 (o : options V) (s : source V T) bs, run_stats V T to60 to10 o s = Ok bs <->
  exists r, Forall2 (fun n b => contents V T to60 to10 o s n = Ok b) (selected V T o s) r /\ bs = concat r.
Proof.
  intros V T to60 to10 o s bs. unfold run_stats, omap. split.
  - intro H. destruct (omapM (contents V T to60 to10 o s) (selected V T o s)) as [r| | |] eqn:E; try discriminate. cbn [obind] in H.
    injection H as <-. exists r. split; [now apply omapM_ok|reflexivity].
  - intros (r & F & ->). rewrite (omapM_all _ _ r F). reflexivity.
Qed.
(** nothing is printed for a name without complete coordinate system, e.g. that of no variable *)
Theorem C121_no_system : forall V T to60 to10 (o : options V) (s : source V T) n,
  (forall y, In y (s_systems _ _ s) -> y_complete y n = false) -> contents V T to60 to10 o s n = Ok [].
Proof.
  intros V T to60 to10 o s n H. unfold contents. destruct (find _ (s_systems _ _ s)) as [y|] eqn:E; [|reflexivity].
  apply find_some in E. destruct E as (I & E). rewrite (H y I) in E. discriminate.
Qed.
(** nothing is printed for a variable whose grid is not simple *)
Theorem C121_not_simple : forall V T to60 to10 (o : options V) (s : source V T) n y,
  find (fun y => y_complete y n) (s_systems _ _ s) = Some y -> y_simple y = false -> contents V T to60 to10 o s n = Ok [].
Proof.
  intros V T to60 to10 o s n y E X. unfold contents. rewrite E, X. now destruct (negb (layer_used V T o s (y_axes y))).
Qed.
(** a name given as layer has to be part of the standard name of the x axis *)
Theorem C121_layer_name : forall V T (o : options V) (s : source V T) cs x l,
  o_layer _ o = Some l -> l <> "no"%string -> (forall u, l <> ("units:" ++ u)%string) -> geo_x cs = Some x ->
  (layer_used V T o s cs = true <-> exists v a b, s_attr _ _ s (a_name x) "standard_name" = Some v /\ v = (a ++ l ++ b)%string).
Proof.
  intros V T o s cs x l E N1 N2 X. unfold layer_used. rewrite E, X.
  assert (Pre : forall n w, String.prefix n w = true <-> exists b, w = (n ++ b)%string).
  { induction n as [|c n IH]; intros [|d w]; cbn; try (split; [eauto|reflexivity]).
    - split; [discriminate|intros (b & [=])].
    - destruct (ascii_dec c d) as [->|Nc]; [rewrite IH; split; intros (b & Q); exists b; congruence|]. split; [discriminate|intros (b & [= Q _]); congruence]. }
  assert (L : layer_of l = LStd l).
  { unfold layer_of. destruct (String.eqb_spec l "no"); [contradiction|]. destruct (String.eqb_spec (substring 0 6 l) "units:") as [Q|]; [|reflexivity].
    exfalso. clear - N2 Q. assert (S0 : forall w, substring 0 0 w = EmptyString) by (intros [|? ?]; reflexivity).
    do 6 (destruct l as [|? l]; [discriminate|]). cbn in Q. rewrite S0 in Q. injection Q as -> -> -> -> -> ->. apply (N2 l). reflexivity. }
  rewrite L. destruct (s_attr _ _ s (a_name x) "standard_name") as [v|]; [|split; [discriminate|intros (v & a & b & [=] & _)]].
  assert (Con : contains l v = true <-> exists a b, v = (a ++ l ++ b)%string).
  { clear - Pre. induction v as [|c v IH]; cbn [contains]; rewrite orb_true_iff, Pre.
    - split; [intros [(b & H)|[=]]; exists EmptyString, b; exact H|]. intros (a & b & H). left. exists b. destruct a; [exact H|discriminate].
    - rewrite IH. split.
      + intros [(b & H)|(a & b & H)]; [exists EmptyString, b; exact H|]. exists (String c a), b. cbn. congruence.
      + intros ([|d a] & b & H); [left; eauto|]. right. exists a, b. cbn in H. congruence. }
  rewrite Con. split; [intros (a & b & H); exists v, a, b; auto|]. intros (v' & a & b & [= <-] & H). eauto.
Qed.
(** Finding: the option verticalLayer looks at the x axis: with [no] nothing is printed for a grid with more than one
    column, with units nothing unless they are convertible to those of the x axis. *)
Theorem C121_layer_refuted : forall V T to60 to10 (o : options V) (s : source V T) n y x,
  find (fun y => y_complete y n) (s_systems _ _ s) = Some y -> geo_x (y_axes y) = Some x ->
  (o_layer _ o = Some "no"%string -> (1 < s_axis_size _ _ s x)%N -> contents V T to60 to10 o s n = Ok []) /\
  (forall u v, o_layer _ o = Some ("units:" ++ u)%string -> s_attr _ _ s (a_name x) "units" = Some v -> s_convertible _ _ s v u = false ->
     contents V T to60 to10 o s n = Ok []).
Proof.
  intros V T to60 to10 o s n y x E X. unfold contents. rewrite E. unfold layer_used. split.
  - intros -> B. change (layer_of "no") with LNo. rewrite X. replace (s_axis_size _ _ s x <=? 1)%N with false by (symmetry; apply N.leb_gt; exact B). reflexivity.
  - intros u v -> A C.
    assert (L : layer_of ("units:" ++ u) = LUnit u).
    { unfold layer_of. cbn [String.append String.eqb Ascii.eqb Bool.eqb substring String.length].
      assert (S0 : forall w, substring 0 0 w = EmptyString) by (intros [|? ?]; reflexivity). rewrite S0. cbn [String.eqb Ascii.eqb Bool.eqb].
      replace (S (S (S (S (S (S (String.length u)))))) - 6) with (String.length u) by lia. f_equal. clear. induction u as [|a u IH]; [reflexivity|]. cbn. now rewrite IH. }
    rewrite L, X, A, C. reflexivity.
Qed.
(** Finding: nothing is printed for a variable without time axis, whatever its levels. *)
Theorem C121_no_time_refuted : forall V T to60 to10 (o : options V) (s : source V T) n y bs,
  find (fun y => y_complete y n) (s_systems _ _ s) = Some y -> time_axis (y_axes y) = None ->
  contents V T to60 to10 o s n = Ok bs -> bs = [].
Proof.
  intros V T to60 to10 o s n y bs E X H. unfold contents in H. rewrite E, X in H.
  destruct (negb (layer_used V T o s (y_axes y))); [congruence|]. destruct (negb (y_simple y)); [congruence|].
  destruct (geo_x (y_axes y)); try discriminate. cbn [rd obind] in H. destruct (geo_y (y_axes y)); try discriminate. cbn [rd obind] in H.
  destruct (dim_length V T s _); try discriminate. cbn [obind] in H. destruct (dim_length V T s _); try discriminate. cbn [obind] in H.
  destruct (csb_new _ _ _ _ _ _) as [b| | |]; try discriminate. cbn [obind] in H.
  destruct (geo_z (y_axes y)) as [z|].
  - destruct (level_slices V T to10 o s z []) as [(sbs, l)| | |] eqn:L; try discriminate. cbn [obind] in H.
    destruct (other_slices V T s sbs) as [(sbs', m)| | |]; try discriminate. cbn [obind] in H. destruct sbs'; congruence.
  - cbn [obind other_slices] in H. congruence.
Qed.

(** ** A file *)
(** temperature by x, y, level, member and time; another variable with its dimensions in another order *)
Definition nx_ (n : string) (t : axis_type) : axis := mkAxis n t 0.
Definition file_len (d : string) : option N :=
  (if d =? "x" then Some 2 else if d =? "y" then Some 1 else if d =? "k" then Some 2 else if d =? "member" then Some 2 else if d =? "time" then Some 3
   else if d =? "reftime" then Some 1 else None)%string%N.
Definition file_values (d : string) : outcome (list Z) :=
  (if d =? "x" then Ok [0; 1000] else if d =? "y" then Ok [0] else if d =? "k" then Ok [1000; 850] else if d =? "member" then Ok [0; 1] else
   if d =? "time" then Ok [0; 6; 12] else Throw)%string%Z.
Definition file_source (cs : csys) (vars : list (string * list string)) : source Z Z :=
  mkSrc Z Z vars file_len [mkSys cs true (fun n => (n =? "T") || (n =? "U"))%string] (fun a => [a_name a])
    (fun _ => true) (fun a => match file_len (a_name a) with Some n => n | None => 0%N end) (fun _ _ => None) (fun a b => (a =? b)%string) (fun _ => [])
    file_values (fun d _ => file_values d) (Some 100%Z) (fun _ => Ok [100%Z]) (fun _ _ => Throw) (fun d r sb => file_values d)
    (fun n sb => match sb_getDimensionNames sb with Ok l => Ok [Some 1%Q; None; Some 3%Q] | _ => Throw end).
Definition file_cs : csys := mkCs [nx_ "x" GeoX; nx_ "y" GeoY; nx_ "k" Pressure; nx_ "member" Realization; nx_ "time" Time] [].
Definition file_vars : list (string * list string) := [("x", ["x"]); ("T", ["x"; "y"; "k"; "member"; "time"])]%string.
Definition file_options (layer : option string) (st : option string) : options Z :=
  mkOpt Z (Some ["T"%string]) None layer (Some (Ok [6; 12; 18]%Z)) (Some (Ok [1%N])) None st.
Example C121_nonvacuous :
  plain Z Z (file_options None (Some "mean,undef"%string)) (file_source file_cs file_vars) "T"
    (mkSys file_cs true (fun n => (n =? "T") || (n =? "U"))%string) ["x"; "y"; "k"; "member"; "time"]%string
    (nx_ "x" GeoX) (nx_ "y" GeoY) (nx_ "time" Time) (Some (nx_ "k" Pressure)) 100%Z [0; 6; 12]%Z [1000; 850]%Z [6; 12; 18]%Z [] [1%N] /\
  stats_fine Z Z (file_options None (Some "mean,undef"%string)) (file_source file_cs file_vars) "T" ["x"; "y"; "k"; "member"; "time"]%string /\
  (do r <- run_stats Z Z (fun v => 60 * v)%Z (fun v => 10 * v)%Z (file_options None (Some "mean,undef,x"%string)) (file_source file_cs file_vars);
   Ok (map (fun b => (k_name Z Z b, k_nx Z Z b, k_ny Z Z b, map (fun l => (l_items Z l, length (l_stats Z l))) (k_lines Z Z b))) r)) =
  Ok [("T"%string, 2%N, 1%N,
       [([TimeAt Z 1 6; DimAt Z "member" 0; LevelAt Z 1 850], 3%nat); ([TimeAt Z 1 6; DimAt Z "member" 1; LevelAt Z 1 850], 3%nat);
        ([TimeAt Z 2 12; DimAt Z "member" 0; LevelAt Z 1 850], 3%nat); ([TimeAt Z 2 12; DimAt Z "member" 1; LevelAt Z 1 850], 3%nat)]%Z)]%N.
Proof.
  split; [|split].
  - split; try reflexivity.
    + eexists. reflexivity.
    + repeat constructor; cbn; intuition discriminate.
    + intros d [<-|[<-|[<-|[<-|[<-|[]]]]]]; eexists; reflexivity.
    + intros d m. cbn [s_dimlen file_source]. unfold file_len. repeat match goal with |- context [(?a =? ?b)%string] => destruct (a =? b)%string end; intros [= <-]; reflexivity.
    + intros a [<-|[<-|[<-|[<-|[]]]]]; (split; [cbn; tauto|reflexivity]).
    + repeat constructor; cbn; intuition discriminate.
    + intros d [<-|[<-|[<-|[<-|[<-|[]]]]]] N; try (exfalso; apply N; cbn; tauto).
      split; [exists (nx_ "member" Realization); split; [reflexivity|cbn; intuition discriminate]|exists [0; 1]%Z; split; reflexivity].
    + now left.
    + intros z [= <-]. split; reflexivity.
  - split; [eexists; reflexivity|]. intros sb E. cbn [s_slice file_source]. rewrite E. eauto.
  - reflexivity.
Qed.
(** Finding: a file with an axis of reference times is a null pointer. *)
Theorem C121_reference_refuted :
  let cs := mkCs [nx_ "x" GeoX; nx_ "y" GeoY; nx_ "time" Time; nx_ "reftime" ReferenceTime] [] in
  contents Z Z (fun v => v) (fun v => v) (mkOpt Z None None None None None None None)
    (file_source cs [("T", ["x"; "y"; "time"; "reftime"])]%string) "T" = UB.
Proof. reflexivity. Qed.
(** Finding: the request is that of the first variable of the coordinate system: a variable with its dimensions in another
    order gets the positions of the wrong dimensions. *)
Theorem C121_order_refuted :
  let cs := mkCs [nx_ "x" GeoX; nx_ "y" GeoY; nx_ "time" Time] [] in
  let s := file_source cs [("T", ["x"; "y"; "time"]); ("U", ["time"; "y"; "x"])]%string in
  (do b <- csb_new (s_shape _ _ s) (s_expl _ _ s) (fun n => (n =? "T") || (n =? "U"))%string (s_vars _ _ s) (s_dimlen _ _ s) cs;
   do (sbs, h, r) <- time_slices Z Z (fun v => v) (mkOpt Z None None None None None None None) s b (nx_ "x" GeoX) (nx_ "y" GeoY) (nx_ "time" Time);
   Ok (map sb_start sbs, map sb_size sbs)) = Ok ([[0; 0; 0]; [0; 0; 1]; [0; 0; 2]], [[2; 1; 1]; [2; 1; 1]; [2; 1; 1]])%N.
Proof. reflexivity. Qed.
(** Finding: of two values the median is the greater one; the standard deviation of one value is not a number; the number
    of undefined values is not shown if there are no others. *)
Theorem C121_statistics_refuted :
  (do s <- calc [Some 1%Q; Some 3%Q]; Ok (st_median s)) = Ok 3%Q /\
  (do s <- calc [Some 1%Q; None]; Ok (show s "stddev")) = Ok [Root None] /\
  (do s <- calc [None; None]; Ok (show s "undef")) = Ok [].
Proof. repeat split; reflexivity. Qed.

(** the statistics without a list, or with "all" *)
Theorem C121_all :
  stat_names "all" = Ok ["def"; "mean"; "median"; "stddev"; "min"; "max"; "undef"]%string /\ stat_names "" = stat_names "all" /\
  stat_names "max,min" = Ok ["max"; "min"]%string.
Proof. repeat split. Qed.

(** with a unit as layer, the values of the vertical axis are those in this unit *)
Theorem C121_layer_values : forall V T (to10 : V -> Z) (o : options V) (s : source V T) z sbs r values l u,
  o_layer V o = Some l -> layer_of l = LUnit u -> level_slices V T to10 o s z sbs = Ok (r, values) -> s_values_in V T s (a_name z) u = Ok values.
Proof.
  intros V T to10 o s z sbs r values l u L E H. unfold level_slices in H. rewrite L in H. cbn [option_map] in H. rewrite E in H.
  destruct (s_values_in V T s (a_name z) u) as [vs| | |]; try discriminate H. cbn [obind] in H.
  destruct (given (o_positions V o)) as [ps| | |]; try discriminate H. cbn [obind] in H.
  destruct (given (o_values V o)) as [ws| | |]; try discriminate H. cbn [obind] in H.
  match type of H with obind ?e _ = _ => destruct e as [x| | |]; try discriminate H end. cbn [obind] in H. congruence.
Qed.

Print Assumptions C121_statistics.
Print Assumptions C121_shown.
Print Assumptions C121_no_values.
Print Assumptions C121_lines.
Print Assumptions C121_names.
Print Assumptions C121_blocks.
Print Assumptions C121_no_system.
Print Assumptions C121_not_simple.
Print Assumptions C121_layer_name.
Print Assumptions C121_layer_refuted.
Print Assumptions C121_no_time_refuted.
Print Assumptions C121_nonvacuous.
Print Assumptions C121_reference_refuted.
Print Assumptions C121_order_refuted.
Print Assumptions C121_statistics_refuted.
Print Assumptions C121_all.
Print Assumptions C121_layer_values.
