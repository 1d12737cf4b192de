(** C86: reading and writing slices of a netCDF file (NetCDF_CDMReader, src/io/netcdf/NetCDF_CDMReader.cc). *)
From Coq Require Import NArith ZArith QArith Qcanon Ascii String List Bool Arith Lia ZifyBool ZifyNat ZifyN.
From Verif Require Import Base StdMap RegridModel ConvertModel CdmModel CdmProofs NcModel.
Import ListNotations.
Local Open Scope string_scope.
Local Open Scope list_scope.
Local Open Scope nat_scope.

(** ** boxes *)

Lemma flat_seq n : forall c a, flat_map (fun k => map (fun r => k * n + r) (seq 0 n)) (seq a c) = seq (a * n) (c * n).
Proof.
  induction c as [|c IH]; intro a; [reflexivity|]. cbn [seq flat_map Nat.mul]. rewrite IH.
  rewrite seq_app. f_equal; [|f_equal; lia].
  clear. generalize (a * n) as b. intro b.
  assert (H : forall s, map (fun r => b + r) (seq s n) = seq (b + s) n).
  { induction n as [|n IH]; intro s; [reflexivity|]. cbn [seq map]. rewrite IH. f_equal. f_equal. lia. }
  rewrite H. f_equal. lia.
Qed.
Lemma map_flat_map {A B C} (f : B -> C) (g : A -> list B) l : map f (flat_map g l) = flat_map (fun a => map f (g a)) l.
Proof. induction l as [|a l IH]; [reflexivity|]. cbn. now rewrite map_app, IH. Qed.
Lemma nprod_nat c ct : N.to_nat (nprod (c :: ct)) = N.to_nat c * N.to_nat (nprod ct).
Proof. unfold nprod. cbn [fold_right]. lia. Qed.

(** the positions of a box in the order of the library have the indices 0, 1, 2, ... *)
Lemma positions_index : forall start count, length start = length count ->
  map (box_index start count) (box_positions start count) = map (fun k => Some (N.of_nat k)) (seq 0 (N.to_nat (nprod count))).
Proof.
  induction start as [|s start IH]; intros [|c count] L; try discriminate; [reflexivity|].
  injection L as L. specialize (IH count L). cbn [box_positions]. rewrite map_flat_map, nprod_nat.
  set (n := N.to_nat (nprod count)) in *.
  replace (seq 0 (N.to_nat c * n)) with (seq (0 * n) (N.to_nat c * n)) by (f_equal; lia).
  rewrite <- flat_seq, map_flat_map.
  assert (E : forall a k, a + k <= N.to_nat c ->
    flat_map (fun a0 => map (box_index (s :: start) (c :: count)) (map (cons (s + N.of_nat a0)%N) (box_positions start count))) (seq a k) =
    flat_map (fun a0 => map (fun x => Some (N.of_nat x)) (map (fun r => a0 * n + r) (seq 0 n))) (seq a k)).
  { intros a k. revert a. induction k as [|k IHk]; intros a H; [reflexivity|]. cbn [seq flat_map].
    rewrite IHk by lia. f_equal. rewrite !map_map.
    transitivity (map (fun o => option_map (fun r => N.of_nat (a * n) + r)%N o) (map (box_index start count) (box_positions start count))).
    - rewrite map_map. apply map_ext. intro p. cbn [box_index].
      replace ((s <=? s + N.of_nat a)%N && (s + N.of_nat a <? s + c)%N) with true by lia.
      destruct (box_index start count p) as [r|]; [|reflexivity]. cbn [option_map]. do 2 f_equal.
      replace (s + N.of_nat a - s)%N with (N.of_nat a) by lia. unfold n. lia.
    - rewrite IH, map_map. apply map_ext. intro r. cbn [option_map]. f_equal. lia. }
  apply E. lia.
Qed.

Lemma nth_error_seq_map {A} (d : list A) (x0 : A) : map (fun k => nth k d x0) (seq 0 (length d)) = d.
Proof.
  induction d as [|x d IH]; [reflexivity|]. cbn [length seq map nth]. f_equal.
  rewrite <- seq_shift, map_map. exact IH.
Qed.

(** what [put_vara] leaves in the cells of the box is the data *)
Lemma box_data start count (data : list value) old : length start = length count -> N.of_nat (length data) = nprod count ->
  map (fun p => match (match box_index start count p with
                       | Some k => match nth_error data (N.to_nat k) with Some x => Some x | None => old p end
                       | None => old p end) with Some x => x | None => None end) (box_positions start count) = data.
Proof.
  intros L D.
  assert (G : forall P ks, map (box_index start count) P = map (fun k => Some (N.of_nat k)) ks -> (forall k, In k ks -> k < length data) ->
    map (fun p => match (match box_index start count p with
                       | Some k => match nth_error data (N.to_nat k) with Some x => Some x | None => old p end
                       | None => old p end) with Some x => x | None => None end) P = map (fun k => nth k data None) ks).
  { induction P as [|p P IH]; intros [|k ks] E H; try discriminate; [reflexivity|].
    cbn [map] in E |- *. injection E as E1 E2. rewrite E1. rewrite Nnat.Nat2N.id.
    rewrite (nth_error_nth' data None) by (apply H; now left). f_equal. apply IH; [assumption|intros; apply H; now right]. }
  rewrite (G _ (seq 0 (N.to_nat (nprod count)))).
  - rewrite <- D, Nnat.Nat2N.id. apply nth_error_seq_map.
  - now apply positions_index.
  - intros k K. apply in_seq in K. lia.
Qed.

Definition in_box (start count p : list N) : Prop := box_index start count p <> None.

Lemma in_positions start count : length start = length count -> forall p, In p (box_positions start count) <-> in_box start count p.
Proof.
  revert count. induction start as [|s start IH]; intros [|c count] L p; try discriminate.
  - cbn. unfold in_box. destruct p; cbn; split; try easy; auto. intros [|]; easy.
  - injection L as L. specialize (IH count L). cbn [box_positions]. rewrite in_flat_map. unfold in_box in *. destruct p as [|x p].
    + cbn. split; [|easy]. intros (k & _ & K). apply in_map_iff in K as (q & K & _). discriminate.
    + cbn [box_index]. split.
      * intros (k & K & Q). apply in_seq in K. apply in_map_iff in Q as (q & Q & I). injection Q as Q1 Q2. subst.
        replace ((s <=? s + N.of_nat k)%N && (s + N.of_nat k <? s + c)%N) with true by lia.
        apply IH in I. destruct (box_index start count p); [easy|congruence].
      * destruct ((s <=? x)%N && (x <? s + c)%N) eqn:B; [|easy]. intro H. exists (N.to_nat (x - s)). split; [apply in_seq; lia|].
        apply in_map_iff. exists p. split; [f_equal; lia|]. apply IH. destruct (box_index start count p); [easy|]. now cbn in H.
Qed.

(** ** growing *)

Lemma grow_ge m : forall ids start count recs j, (recs j <= grow_recs m recs ids start count j)%N.
Proof.
  induction ids as [|i ids IH]; intros [|a start] [|c count] recs j; try reflexivity. cbn [grow_recs].
  eapply N.le_trans; [|apply IH]. destruct (nth_error (nm_dims m) i) as [d|]; [|lia]. destruct (nd_unlim d); [|lia].
  destruct (Nat.eqb_spec j i); lia.
Qed.
Lemma grow_other m : forall ids start count recs j, (~ In j ids \/ forall d, nth_error (nm_dims m) j = Some d -> nd_unlim d = false) ->
  grow_recs m recs ids start count j = recs j.
Proof.
  induction ids as [|i ids IH]; intros [|a start] [|c count] recs j H; try reflexivity. cbn [grow_recs].
  rewrite IH by (destruct H as [H|H]; [left; intro K; apply H; now right|now right]).
  destruct (nth_error (nm_dims m) i) as [d|] eqn:E; [|reflexivity]. destruct (nd_unlim d) eqn:U; [|reflexivity].
  destruct (Nat.eqb_spec j i); [|reflexivity]. subst. destruct H as [H|H]; [destruct H; now left|]. rewrite (H d E) in U. discriminate.
Qed.
(** every unlimited dimension reaches to the end of what was written *)
Lemma limits_after m s cells : forall ids start count recs, in_limits m true s ids start count = true ->
  in_limits m false (mkNs (grow_recs m recs ids start count) cells) ids start count = true.
Proof.
  assert (G : forall ids start count recs recs', in_limits m true s ids start count = true ->
     (forall j, (grow_recs m recs ids start count j <= recs' j)%N) -> in_limits m false (mkNs recs' cells) ids start count = true).
  { induction ids as [|i ids IH]; intros [|a start] [|c count] recs recs' H G; try discriminate; [reflexivity|].
    cbn [in_limits grow_recs] in *. destruct (nth_error (nm_dims m) i) as [d|] eqn:E; [|discriminate].
    apply andb_prop in H as (H1 & H2). apply andb_true_intro. split.
    - cbn [andb orb ns_recs]. destruct (nd_unlim d) eqn:U; [|cbn in H1; exact H1].
      specialize (G i). pose proof (grow_ge m ids start count (fun j => if Nat.eqb j i then N.max (recs j) (a + c) else recs j) i) as K.
      cbn beta in K. rewrite Nat.eqb_refl in K. apply N.leb_le. lia.
    - eapply IH; [exact H2|exact G]. }
  intros ids start count recs H. eapply G; [exact H|]. intro. reflexivity.
Qed.
Lemma limits_lengths m b s : forall ids start count, in_limits m b s ids start count = true -> length start = length ids /\ length count = length ids.
Proof.
  induction ids as [|i ids IH]; intros [|a start] [|c count] H; try discriminate; [auto|].
  cbn [in_limits] in H. destruct (nth_error (nm_dims m) i); [|discriminate]. apply andb_prop in H as (_ & H).
  apply IH in H as (H1 & H2). cbn [length]. auto.
Qed.
Lemma limits_grow m s cells : forall ids start count recs', in_limits m false s ids start count = true -> (forall j, (ns_recs s j <= recs' j)%N) ->
  in_limits m false (mkNs recs' cells) ids start count = true.
Proof.
  induction ids as [|i ids IH]; intros [|a start] [|c count] recs' H G; try discriminate; [reflexivity|].
  cbn [in_limits] in *. destruct (nth_error (nm_dims m) i) as [d|]; [|discriminate].
  apply andb_prop in H as (H1 & H2). apply andb_true_intro. split; [|now apply IH].
  cbn [andb orb ns_recs] in *. destruct (nd_unlim d); [|assumption]. specialize (G i). lia.
Qed.

(** ** put and get *)

(** What is written to a box is what is read from it. *)
Lemma put_get m s i t start count data s' fill : nc_put_values m s i t start count data = Ok s' -> data <> [] -> t <> NcNat ->
  nc_get_values m s' fill i t start count = Ok data.
Proof.
  intros P D T. unfold nc_put_values in P. destruct data as [|x data]; [congruence|]. clear D. set (dat := x :: data) in *.
  destruct (N.eqb_spec (nprod count) (N.of_nat (length dat))) as [L|]; [|discriminate]. cbn [negb] in P.
  assert (P' : put_vara m s i start count dat = Ok s') by (destruct t; congruence). clear P. unfold put_vara in P'.
  destruct (nth_error (nm_vars m) i) as [v|] eqn:V; [|discriminate].
  destruct (in_limits m true s (nv_dims v) start count) eqn:B; [|discriminate]. cbn [negb] in P'.
  destruct (N.eqb_spec (nprod count) 0) as [Z|Z]; [exfalso; revert L Z; unfold dat; cbn [length]; lia|].
  injection P' as <-. unfold nc_get_values. rewrite V. destruct (limits_lengths _ _ _ _ _ _ B) as (L1 & L2).
  rewrite (limits_after m s _ _ _ _ _ B). cbn [negb].
  assert (E : map (fun p => match ns_cell (mkNs (grow_recs m (ns_recs s) (nv_dims v) start count)
     (fun j q => if Nat.eqb j i then match box_index start count q with
        | Some k => match nth_error dat (N.to_nat k) with Some y => Some y | None => ns_cell s j q end
        | None => ns_cell s j q end else ns_cell s j q)) i p with Some y => y | None => fill end) (box_positions start count) = dat).
  { etransitivity; [|apply (box_data start count dat (fun p => ns_cell s i p)); lia].
    apply map_ext_in. intros p I. cbn [ns_cell]. rewrite Nat.eqb_refl.
    assert (J : In (box_index start count p) (map (box_index start count) (box_positions start count))) by now apply in_map.
    rewrite positions_index in J by lia. apply in_map_iff in J as (k & J & K). apply in_seq in K. rewrite <- J.
    rewrite Nnat.Nat2N.id. rewrite (nth_error_nth' dat None) by lia. reflexivity. }
  destruct t; try congruence; now rewrite E.
Qed.

(** Nothing outside the box changes, and no unlimited dimension becomes shorter. *)
Lemma put_frame m s i t start count data s' : nc_put_values m s i t start count data = Ok s' ->
  (forall j p, j <> i \/ ~ in_box start count p -> ns_cell s' j p = ns_cell s j p) /\ (forall j, (ns_recs s j <= ns_recs s' j)%N).
Proof.
  intro P. unfold nc_put_values in P. destruct data as [|x data]; [injection P as <-; split; intros; [reflexivity|lia]|].
  set (dat := x :: data) in *.
  destruct (negb (nprod count =? N.of_nat (length dat))%N); [discriminate|].
  assert (P' : s' = s \/ put_vara m s i start count dat = Ok s') by (destruct t; try (now right); left; congruence). clear P.
  destruct P' as [->|P']; [split; intros; [reflexivity|lia]|]. unfold put_vara in P'.
  destruct (nth_error (nm_vars m) i) as [v|]; [|discriminate].
  destruct (in_limits m true s (nv_dims v) start count); [|discriminate]. cbn [negb] in P'.
  destruct (N.eqb (nprod count) 0); injection P' as <-; [split; intros; [reflexivity|lia]|]. cbn [ns_cell ns_recs]. split.
  - intros j p H. destruct (Nat.eqb_spec j i) as [->|]; [|reflexivity]. destruct H as [H|H]; [congruence|].
    unfold in_box in H. destruct (box_index start count p); [|reflexivity]. destruct H. discriminate.
  - intro j. apply grow_ge.
Qed.
Lemma get_frame m s s' fill j t st ct r : nc_get_values m s fill j t st ct = Ok r ->
  (forall p, in_box st ct p -> ns_cell s' j p = ns_cell s j p) -> (forall k, (ns_recs s k <= ns_recs s' k)%N) ->
  nc_get_values m s' fill j t st ct = Ok r.
Proof.
  unfold nc_get_values. destruct (nth_error (nm_vars m) j) as [v|]; [|discriminate]. intros G C R.
  destruct (in_limits m false s (nv_dims v) st ct) eqn:B.
  - pose proof (limits_grow m s (ns_cell s') _ _ _ (ns_recs s') B R) as B'. destruct s' as [recs' cells']. cbn [ns_recs ns_cell] in *.
    rewrite B'. destruct (limits_lengths _ _ _ _ _ _ B) as (L1 & L2).
    assert (E : map (fun p => match cells' j p with Some x => x | None => fill end) (box_positions st ct) =
                map (fun p => match ns_cell s j p with Some x => x | None => fill end) (box_positions st ct)).
    { apply map_ext_in. intros p I. rewrite C; [reflexivity|]. apply in_positions in I; [assumption|lia]. }
    rewrite E. exact G.
  - destruct t; cbn [negb] in G; try discriminate. exact G.
Qed.

(** ** requests *)

Section Reader.
  Variable m : ncmeta.
  Variable fill : value.

  Lemma nth_var_id n i : var_id m n = Some i -> exists v, nth_error (nm_vars m) i = Some v /\ nv_name v = n.
  Proof.
    unfold var_id. assert (G : forall l k, index_of nv_name n k l = Some i -> k <= i /\ exists v, nth_error l (i - k) = Some v /\ nv_name v = n).
    { induction l as [|v l IH]; intros k H; [discriminate|]. cbn [index_of] in H. destruct (String.eqb_spec n (nv_name v)).
      - injection H as ->. split; [lia|]. rewrite Nat.sub_diag. exists v. auto.
      - apply IH in H as (H1 & v' & H2 & H3). split; [lia|]. exists v'. replace (i - k) with (S (i - S k)) by lia. auto. }
    intro H. apply G in H as (_ & v & H & E). rewrite Nat.sub_0_r in H. exists v. auto.
  Qed.

  (** Data written with a request are read back by the same request. *)
  Theorem C86_request_put_get s n start size data s' :
    nc_put_request m s n start size data = Ok s' -> data <> [] -> (forall v, In v (nm_vars m) -> nv_type v <> NcNat) ->
    nc_request m s' fill n start size = Ok data.
  Proof.
    intros P D T. unfold nc_put_request, nc_request in *. destruct data as [|x data]; [congruence|].
    destruct (var_id m n) as [i|]; [|discriminate]. destruct (nth_error (nm_vars m) i) as [v|] eqn:V; [|discriminate].
    apply (put_get _ _ _ _ _ _ _ _ _ P); [assumption|]. apply T. now apply nth_error_In in V.
  Qed.

  (** Data outside the request stay as they are: another variable, or a request without a common position. *)
  Theorem C86_request_frame s n start size data s' n' start' size' r :
    nc_put_request m s n start size data = Ok s' ->
    nc_request m s fill n' start' size' = Ok r ->
    (n' <> n \/ forall p, in_box (rev start') (rev size') p -> ~ in_box (rev start) (rev size) p) ->
    nc_request m s' fill n' start' size' = Ok r.
  Proof.
    intros P G H. unfold nc_put_request in P. destruct data as [|x data]; [injection P as <-; exact G|].
    unfold nc_request in *. destruct (var_id m n) as [i|] eqn:I; [|discriminate]. destruct (nth_error (nm_vars m) i) as [v|] eqn:V; [|discriminate].
    destruct (var_id m n') as [j|] eqn:J; [|discriminate]. destruct (nth_error (nm_vars m) j) as [v'|] eqn:V'; [|discriminate].
    apply put_frame in P as (P1 & P2). eapply get_frame; [exact G| |exact P2].
    intros p B. apply P1. destruct H as [H|H]; [left|right; now apply H].
    intros ->. apply nth_var_id in I as (a & A1 & A2). apply nth_var_id in J as (b & B1 & B2). congruence.
  Qed.

  (** A request that exceeds a fixed dimension, or with another number of values, throws. *)
  Theorem C86_request_refused s n start size data i v :
    var_id m n = Some i -> nth_error (nm_vars m) i = Some v -> nv_type v <> NcNat -> data <> [] ->
    in_limits m true s (nv_dims v) (rev start) (rev size) = false \/ nprod (rev size) <> N.of_nat (length data) ->
    nc_put_request m s n start size data = Throw.
  Proof.
    intros I V T D H. unfold nc_put_request. destruct data as [|x data]; [congruence|]. rewrite I, V. unfold nc_put_values.
    destruct (N.eqb_spec (nprod (rev size)) (N.of_nat (length (x :: data)))) as [E|]; [|reflexivity]. cbn [negb].
    destruct H as [H|H]; [|congruence]. unfold put_vara. rewrite V, H. cbn [negb]. destruct (nv_type v); congruence.
  Qed.

  (** ** records *)

  Lemma dim_len_ok s i d : nth_error (nm_dims m) i = Some d -> dim_len_of m s i = Ok (if nd_unlim d then ns_recs s i else nd_len d).
  Proof. intro E. unfold dim_len_of. now rewrite E. Qed.

  (** the lengths of the other dimensions do not change when whole slices are written *)
  Definition whole (recs : nat -> N) (ids : list nat) : list N :=
    map (fun i => match nth_error (nm_dims m) i with Some d => if nd_unlim d then recs i else nd_len d | None => 0%N end) ids.
  Lemma grow_whole recs : forall ids recs', NoDup ids -> (forall j, In j ids -> recs' j = recs j) ->
    forall j, grow_recs m recs' ids (map (fun _ => 0%N) ids) (whole recs ids) j = recs' j.
  Proof.
    unfold whole. induction ids as [|i ids IH]; intros recs' ND Q j; [reflexivity|]. inversion ND as [|? ? N1 N2]; subst. cbn [map grow_recs].
    rewrite IH.
    - destruct (nth_error (nm_dims m) i) as [d|]; [|reflexivity]. destruct (nd_unlim d); [|reflexivity].
      destruct (Nat.eqb_spec j i) as [->|]; [|reflexivity]. rewrite Q by (now left). lia.
    - assumption.
    - intros k Hk. destruct (nth_error (nm_dims m) i) as [d|]; [|apply Q; now right]. destruct (nd_unlim d); [|apply Q; now right].
      destruct (Nat.eqb_spec k i) as [->|]; [contradiction|]. apply Q; now right.
  Qed.

  Lemma lens_spec s ids lens : omapM (dim_len_of m s) ids = Ok lens ->
    (forall i, In i ids -> exists d, nth_error (nm_dims m) i = Some d) /\
    lens = whole (ns_recs s) ids.
  Proof.
    revert lens. induction ids as [|i ids IH]; intros lens H; cbn [omapM] in H.
    - injection H as <-. split; [easy|reflexivity].
    - unfold dim_len_of at 1 in H. destruct (nth_error (nm_dims m) i) as [d|] eqn:E; [|discriminate]. cbn [obind] in H.
      destruct (omapM (dim_len_of m s) ids) as [l| | |]; try discriminate. injection H as <-. destruct (IH l eq_refl) as (I1 & I2). split.
      + intros j [<-|J]; eauto.
      + unfold whole in *. cbn [map]. rewrite E. now f_equal.
  Qed.
  Lemma lens_ok s ids : (forall i, In i ids -> exists d, nth_error (nm_dims m) i = Some d) ->
    omapM (dim_len_of m s) ids = Ok (whole (ns_recs s) ids).
  Proof.
    induction ids as [|i ids IH]; intro K; [reflexivity|]. unfold whole in *. cbn [omapM map]. destruct (K i (or_introl eq_refl)) as (d & D).
    rewrite (dim_len_ok _ _ _ D), D. cbn [obind]. rewrite IH by (intros; apply K; now right). reflexivity.
  Qed.

  Lemma whole_ext r r' ids : (forall j, In j ids -> r j = r' j) -> whole r ids = whole r' ids.
  Proof. intro H. unfold whole. apply map_ext_in. intros i I. destruct (nth_error (nm_dims m) i) as [d|]; [|reflexivity]. now rewrite (H i I). Qed.

  (** the box of a record *)
  Lemma box_spec s v u pos b : record_box m s v u pos = Ok b ->
    (forall i, In i (nv_dims v) -> exists d, nth_error (nm_dims m) i = Some d) /\
    (u = false -> b = (map (fun _ => 0%N) (nv_dims v), whole (ns_recs s) (nv_dims v))) /\
    (u = true -> exists i ids, nv_dims v = i :: ids /\ b = (pos :: map (fun _ => 0%N) ids, 1%N :: whole (ns_recs s) ids)).
  Proof.
    unfold record_box. destruct (omapM (dim_len_of m s) (nv_dims v)) as [lens| | |] eqn:L; try discriminate. cbn [obind].
    apply lens_spec in L as (K & ->). intro H. split; [exact K|]. destruct u; split; intro; try discriminate.
    - destruct (nv_dims v) as [|i ids]; [discriminate|]. cbn [map] in H. unfold whole in H. cbn [map] in H. injection H as <-.
      exists i, ids. split; reflexivity.
    - now injection H as <-.
  Qed.
  Lemma put_recs s i t start count data s' : nc_put_values m s i t start count data = Ok s' ->
    ns_recs s' = ns_recs s \/ exists v, nth_error (nm_vars m) i = Some v /\ ns_recs s' = grow_recs m (ns_recs s) (nv_dims v) start count.
  Proof.
    unfold nc_put_values. destruct data as [|x data]; [intro P; injection P as <-; now left|].
    destruct (negb (nprod count =? N.of_nat (length (x :: data)))%N); [discriminate|]. intro P.
    assert (P' : s' = s \/ put_vara m s i start count (x :: data) = Ok s') by (destruct t; try (now right); left; congruence). clear P.
    destruct P' as [->|P']; [now left|]. unfold put_vara in P'.
    destruct (nth_error (nm_vars m) i) as [v|]; [|discriminate].
    destruct (negb (in_limits m true s (nv_dims v) start count)); [discriminate|].
    destruct (N.eqb (nprod count) 0); injection P' as <-; [now left|right]. exists v. split; reflexivity.
  Qed.
  Lemma box_after s i t v u pos b data s' : nth_error (nm_vars m) i = Some v -> NoDup (nv_dims v) ->
    record_box m s v u pos = Ok b -> nc_put_values m s i t (fst b) (snd b) data = Ok s' -> record_box m s' v u pos = Ok b.
  Proof.
    intros V ND B P. apply put_recs in P. pose proof (box_spec _ _ _ _ _ B) as (K & B0 & B1).
    unfold record_box in *. rewrite (lens_ok s _ K) in B. rewrite (lens_ok s' _ K). cbn [obind] in *.
    destruct P as [R|(v' & V' & R)]; [rewrite R; exact B|]. rewrite V in V'. injection V' as <-.
    destruct u.
    - destruct (B1 eq_refl) as (j & ids & D & E). rewrite D in *. subst b. cbn [fst snd] in *. unfold whole at 1. unfold whole in R. cbn [map] in *.
      f_equal. f_equal. f_equal. fold (whole (ns_recs s') ids). apply whole_ext. intros k Hk. rewrite R. cbn [grow_recs]. inversion ND as [|? ? N1 N2]; subst.
      fold (whole (ns_recs s) ids).
      rewrite (grow_whole (ns_recs s)).
      + destruct (nth_error (nm_dims m) j) as [d|]; [|reflexivity]. destruct (nd_unlim d); [|reflexivity].
        destruct (Nat.eqb_spec k j) as [->|]; [contradiction|reflexivity].
      + assumption.
      + intros k' Hk'. destruct (nth_error (nm_dims m) j) as [d|]; [|reflexivity]. destruct (nd_unlim d); [|reflexivity].
        destruct (Nat.eqb_spec k' j) as [->|]; [contradiction|reflexivity].
    - rewrite (B0 eq_refl) in R. cbn [fst snd] in R. rewrite <- B. do 2 f_equal. apply whole_ext. intros k Hk. rewrite R.
      apply grow_whole; [assumption|reflexivity].
  Qed.

  (** A record written with putDataSlice is read back by getDataSlice, whatever the metadata of the reader say
      about unlimited dimensions. *)
  Theorem C86_slice_put_get s c n pos data s' :
    nc_put_slice m s c n pos data = Ok s' -> data <> [] ->
    (forall v, In v (nm_vars m) -> nv_type v <> NcNat /\ NoDup (nv_dims v)) ->
    nc_slice m s' fill c n pos = Ok data.
  Proof.
    intros P D T. unfold nc_put_slice, nc_slice in *. destruct (find_var n (vars c)) as [cv|]; [|discriminate].
    destruct data as [|x data]; [congruence|]. destruct (var_id m n) as [i|]; [|discriminate].
    destruct (nth_error (nm_vars m) i) as [v|] eqn:V; [|discriminate]. destruct (T v (nth_error_In _ _ V)) as (T1 & T2).
    destruct (record_box m s v (has_unlimited c cv) pos) as [b| | |] eqn:B; try discriminate. cbn [obind] in P.
    rewrite (box_after _ _ _ _ _ _ _ _ _ V T2 B P). cbn [obind]. now apply (put_get _ _ _ _ _ _ _ _ _ P).
  Qed.

  (** Another record of the same variable stays as it is. *)
  Theorem C86_slice_other_record s c n pos data s' pos' r :
    nc_put_slice m s c n pos data = Ok s' -> nc_slice m s fill c n pos' = Ok r -> pos <> pos' ->
    (forall cv, find_var n (vars c) = Some cv -> has_unlimited c cv = true) ->
    (forall v, In v (nm_vars m) -> NoDup (nv_dims v)) ->
    nc_slice m s' fill c n pos' = Ok r.
  Proof.
    intros P G NE U T. unfold nc_put_slice, nc_slice in *. destruct (find_var n (vars c)) as [cv|]; [|discriminate].
    rewrite (U cv eq_refl) in *. destruct data as [|x data]; [injection P as <-; exact G|]. destruct (var_id m n) as [i|]; [|discriminate].
    destruct (nth_error (nm_vars m) i) as [v|] eqn:V; [|discriminate]. pose proof (T v (nth_error_In _ _ V)) as T2.
    destruct (record_box m s v true pos) as [b| | |] eqn:B; try discriminate.
    destruct (record_box m s v true pos') as [b'| | |] eqn:B'; try discriminate. cbn [obind] in P, G.
    pose proof (box_after _ _ _ _ _ _ _ _ _ V T2 B P) as A. apply box_spec in B as (K & _ & B). destruct (B eq_refl) as (j & ids & D & ->).
    apply box_spec in B' as (_ & _ & B'). destruct (B' eq_refl) as (j' & ids' & D' & ->). rewrite D in D'. injection D' as <- <-.
    apply box_spec in A as (_ & _ & A). destruct (A eq_refl) as (j2 & ids2 & D2 & A2). rewrite D in D2. injection D2 as <- <-. injection A2 as A2.
    unfold record_box. rewrite (lens_ok s' _ K). cbn [obind]. rewrite D. cbn [map whole]. fold (whole (ns_recs s') ids). rewrite <- A2.
    cbn [obind fst snd]. apply put_frame in P as (P1 & P2). eapply get_frame; [exact G| |exact P2].
    intros p I. apply P1. right. unfold in_box in *. cbn [fst snd] in *. intro J. apply J. clear J.
    destruct p as [|y p]; [reflexivity|]. cbn [box_index] in *.
    destruct ((pos' <=? y)%N && (y <? pos' + 1)%N) eqn:E; [|congruence].
    replace ((pos <=? y)%N && (y <? pos + 1)%N) with false by lia. reflexivity.
  Qed.
  (** Other variables stay as they are, unless their slices run over an unlimited dimension that grows. *)
  Theorem C86_slice_other_variable s c n pos data s' n' pos' r :
    nc_put_slice m s c n pos data = Ok s' -> nc_slice m s fill c n' pos' = Ok r -> n' <> n ->
    (forall v' cv' i', find_var n' (vars c) = Some cv' -> var_id m n' = Some i' -> nth_error (nm_vars m) i' = Some v' ->
       forall j d, In j (if has_unlimited c cv' then tl (nv_dims v') else nv_dims v') -> nth_error (nm_dims m) j = Some d -> nd_unlim d = false) ->
    nc_slice m s' fill c n' pos' = Ok r.
  Proof.
    intros P G NE U. unfold nc_slice in *. destruct (find_var n' (vars c)) as [cv'|]; [|discriminate].
    destruct (var_id m n') as [i'|] eqn:I'; [|discriminate]. destruct (nth_error (nm_vars m) i') as [v'|] eqn:V'; [|discriminate].
    specialize (U v' cv' i' eq_refl eq_refl V').
    unfold nc_put_slice in P. destruct (find_var n (vars c)) as [cv|]; [|discriminate].
    destruct data as [|x data]; [injection P as <-; exact G|]. destruct (var_id m n) as [i|] eqn:I; [|discriminate].
    destruct (nth_error (nm_vars m) i) as [v|] eqn:V; [|discriminate].
    destruct (record_box m s v (has_unlimited c cv) pos) as [b| | |] eqn:B; try discriminate.
    destruct (record_box m s v' (has_unlimited c cv') pos') as [b'| | |] eqn:B'; try discriminate. cbn [obind] in P, G.
    assert (NI : i' <> i). { intros ->. apply nth_var_id in I as (a & A1 & A2). apply nth_var_id in I' as (a' & A1' & A2'). congruence. }
    assert (E : record_box m s' v' (has_unlimited c cv') pos' = Ok b').
    { pose proof (box_spec _ _ _ _ _ B') as (K & _ & B1). unfold record_box in *. rewrite (lens_ok s _ K) in B'. rewrite (lens_ok s' _ K). cbn [obind] in *.
      destruct (has_unlimited c cv').
      - destruct (B1 eq_refl) as (j & ids & D & E). rewrite D in *. cbn [tl] in U. cbn [map whole] in *.
        rewrite <- B'. do 2 f_equal. f_equal. fold (whole (ns_recs s') ids) (whole (ns_recs s) ids). unfold whole. apply map_ext_in. intros k Hk.
        destruct (nth_error (nm_dims m) k) as [d|] eqn:Dk; [|reflexivity]. now rewrite (U k d Hk Dk).
      - rewrite <- B'. do 2 f_equal. unfold whole. apply map_ext_in. intros k Hk.
        destruct (nth_error (nm_dims m) k) as [d|] eqn:Dk; [|reflexivity]. now rewrite (U k d Hk Dk). }
    rewrite E. cbn [obind]. apply put_frame in P as (P1 & P2). eapply get_frame; [exact G| |exact P2]. intros p _. apply P1. now left.
  Qed.

  (** Writing the record after the last one appends: the unlimited dimension becomes one longer, a record further
      out leaves a gap. *)
  Theorem C86_append s c n pos data s' i v cv u ids :
    nc_put_slice m s c n pos data = Ok s' -> data <> [] -> find_var n (vars c) = Some cv -> has_unlimited c cv = true ->
    var_id m n = Some i -> nth_error (nm_vars m) i = Some v -> nv_type v <> NcNat -> nv_dims v = u :: ids -> NoDup (nv_dims v) ->
    (forall d, nth_error (nm_dims m) u = Some d -> nd_unlim d = true) ->
    ns_recs s' u = N.max (ns_recs s u) (pos + 1) /\ (forall j, j <> u -> ns_recs s' j = ns_recs s j).
  Proof.
    intros P D F U I V T Di ND UL. unfold nc_put_slice in P. rewrite F, U, I, V in P. destruct data as [|x data]; [congruence|].
    destruct (record_box m s v true pos) as [b| | |] eqn:B; try discriminate. cbn [obind] in P.
    apply box_spec in B as (K & _ & B). destruct (B eq_refl) as (j & ids' & D' & ->). rewrite Di in D'. injection D' as <- <-. cbn [fst snd] in P.
    unfold nc_put_values in P. destruct (N.eqb_spec (nprod (1%N :: whole (ns_recs s) ids)) (N.of_nat (length (x :: data)))) as [L|]; [|discriminate].
    cbn [negb] in P. assert (P' : put_vara m s i (pos :: map (fun _ => 0%N) ids) (1%N :: whole (ns_recs s) ids) (x :: data) = Ok s') by (destruct (nv_type v); congruence).
    unfold put_vara in P'. rewrite V in P'. destruct (negb _) in P'; [discriminate|].
    destruct (N.eqb_spec (nprod (1%N :: whole (ns_recs s) ids)) 0) as [Z|_]; [rewrite Z in L; cbn [length] in L; lia|].
    injection P' as <-. cbn [ns_recs]. rewrite Di. cbn [grow_recs]. rewrite Di in *. inversion ND as [|? ? N1 N2]; subst.
    destruct (K u (or_introl eq_refl)) as (d & Du). rewrite Du, (UL d Du).
    assert (Q : forall k, In k ids -> (if Nat.eqb k u then N.max (ns_recs s k) (pos + 1) else ns_recs s k) = ns_recs s k).
    { intros k Hk. destruct (Nat.eqb_spec k u) as [->|]; [contradiction|reflexivity]. }
    split; [|intros k Hk]; rewrite (grow_whole (ns_recs s)) by assumption; cbn beta.
    - now rewrite Nat.eqb_refl.
    - destruct (Nat.eqb_spec k u); [congruence|reflexivity].
  Qed.
End Reader.

(** ** examples *)

Definition q (z : Z) : value := Some (z2q z).
Definition ex_meta : ncmeta :=
  mkNm Nc4 [mkNd "time" true 0; mkNd "x" false 3; mkNd "member" true 0]
       [mkNv "t" NcFloat [0; 1] None None []; mkNv "w" NcInt [1; 0] None None []; mkNv "e" NcShort [2] None None []] [].
Definition ex_cells (i : nat) (p : list N) : option value := Some (q (Z.of_nat i * 100 + fold_left (fun a x => a * 10 + Z.of_N x) p 0)%Z).
Definition ex_data : ncdata := mkNs (fun i => if Nat.eqb i 0 then 2%N else if Nat.eqb i 2 then 1%N else 0%N) ex_cells.

(** A record appended to a variable: it is read back, the records before are unchanged, the dimension has grown. *)
Example C86_nonvacuous :
  exists c s', read_file ex_meta ex_data = Ok c /\
    nc_put_slice ex_meta ex_data c "t" 2 [q 7; q 8; q 9] = Ok s' /\
    nc_slice ex_meta s' None c "t" 2 = Ok [q 7; q 8; q 9] /\
    nc_slice ex_meta s' None c "t" 1 = Ok [q 10; q 11; q 12] /\
    ns_recs s' 0 = 3%N /\
    nc_put_request ex_meta s' "t" [1; 0]%N [2; 2]%N [q 1; q 2; q 3; q 4] <> Throw /\
    nc_request ex_meta s' None "t" [1; 1]%N [2; 2]%N = Ok [q 11; q 12; q 8; q 9].
Proof.
  destruct (read_file ex_meta ex_data) as [c| | |] eqn:E; try (vm_compute in E; discriminate).
  vm_compute in E. injection E as <-. eexists. eexists. split; [reflexivity|]. split; [reflexivity|].
  vm_compute. repeat split; discriminate.
Qed.

(** Finding: the unlimited dimension is taken to be the slowest one.  In netCDF-4 it need not be; then the record
    read is a slice of another dimension: asked for time 1 of w(x, time), the answer is x = 1 at all times. *)
Theorem C86_unlimited_not_first_refuted :
  exists c, read_file ex_meta ex_data = Ok c /\ (exists cv, find_var "w" (vars c) = Some cv /\ has_unlimited c cv = true) /\
    nc_slice ex_meta ex_data None c "w" 1 = Ok [q 110; q 111] /\
    nc_request ex_meta ex_data None "w" [1; 0]%N [1; 3]%N = Ok [q 101; q 111; q 121].
Proof.
  eexists. split; [reflexivity|]. split; [eexists; split; reflexivity|]. vm_compute. split; reflexivity.
Qed.

(** Finding: only the first unlimited dimension of a netCDF-4 file is reported as unlimited. *)
Theorem C86_second_unlimited_refuted :
  exists c, read_file ex_meta ex_data = Ok c /\ map nd_unlim (nm_dims ex_meta) = [true; false; true] /\ map d_unlim (dims c) = [true; false; false].
Proof. eexists. split; [reflexivity|]. split; reflexivity. Qed.

Print Assumptions C86_request_put_get.
Print Assumptions C86_request_frame.
Print Assumptions C86_request_refused.
Print Assumptions C86_slice_put_get.
Print Assumptions C86_slice_other_record.
Print Assumptions C86_slice_other_variable.
Print Assumptions C86_append.
Print Assumptions C86_unlimited_not_first_refuted.
Print Assumptions C86_second_unlimited_refuted.
