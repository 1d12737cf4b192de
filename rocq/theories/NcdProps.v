(** C84: the data written by NetCDF_CDMWriter. *)
From Coq Require Import NArith ZArith QArith Qcanon Ascii String List Bool Arith Lia Permutation ZifyBool ZifyNat ZifyN.
From Verif Require Import Base StdMap RegridModel ConvertModel ConvertProofs CdmModel AxesProofs CdmProofs NcModel NcProps NcwModel NcwProps.
Import ListNotations.
Local Open Scope string_scope.
Local Open Scope list_scope.
Local Open Scope nat_scope.

(** ** the box of one job *)

(** start and count of a write: position [pos] on the unlimited dimension [u], everything on the others *)
Definition bstart (u : option nat) (pos : option N) (ids : list nat) : list N :=
  map (fun i => match u, pos with Some j, Some p => if Nat.eqb i j then p else 0%N | _, _ => 0%N end) ids.
Definition bcount (m : ncmeta) (ids : list nat) : list N :=
  map (fun i => match nth_error (nm_dims m) i with Some d => if nd_unlim d then 1%N else nd_len d | None => 0%N end) ids.

Lemma bstart_len u pos m ids : length (bstart u pos ids) = length (bcount m ids).
Proof. unfold bstart, bcount. now rewrite !map_length. Qed.

Lemma in_box_bound : forall start count p, in_box start count p -> length p = length start /\ length count = length start /\
  forall i a c x, nth_error start i = Some a -> nth_error count i = Some c -> nth_error p i = Some x -> (a <= x < a + c)%N.
Proof.
  unfold in_box. induction start as [|a start IH]; intros [|c count] [|x p] H; try (cbn in H; congruence).
  - split; [reflexivity|]. split; [reflexivity|]. intros [|i]; discriminate.
  - cbn [box_index] in H. destruct ((a <=? x)%N && (x <? a + c)%N) eqn:E; [|congruence]. destruct (IH count p) as (I1 & I2 & I3); [now destruct (box_index start count p)|].
    cbn [length]. split; [lia|]. split; [lia|]. intros [|i] a0 c0 x0 H0 H1 H2; cbn in *; [injection H0 as <-; injection H1 as <-; injection H2 as <-; lia|]. now apply (I3 i).
Qed.
Lemma box_below : forall start count p k, box_index start count p = Some k -> (k < nprod count)%N.
Proof.
  induction start as [|a start IH]; intros [|c count] [|x p] k H; try discriminate; [cbn in H; injection H as <-; reflexivity|].
  cbn [box_index] in H. destruct ((a <=? x)%N && (x <? a + c)%N) eqn:E; [|discriminate]. destruct (box_index start count p) as [r|] eqn:R; [|discriminate]. cbn in H. injection H as <-.
  apply IH in R. unfold nprod in *. cbn [fold_right]. set (n := fold_right N.mul 1%N count) in *. assert (x - a < c)%N by lia. nia.
Qed.
(** the boxes of two records have no common position *)
Lemma boxes_disjoint m u ids a b p d : In u ids -> nth_error (nm_dims m) u = Some d -> nd_unlim d = true ->
  in_box (bstart (Some u) (Some a) ids) (bcount m ids) p -> in_box (bstart (Some u) (Some b) ids) (bcount m ids) p -> a = b.
Proof.
  intros I Du Ud A B. apply in_box_bound in A as (A1 & _ & A3). apply in_box_bound in B as (B1 & _ & B3).
  apply In_nth_error in I as (k & I). assert (P : exists x, nth_error p k = Some x).
  { destruct (nth_error p k) eqn:E; [eauto|]. apply nth_error_None in E. rewrite A1 in E. unfold bstart in E. rewrite map_length in E. assert (k < length ids) by (apply nth_error_Some; congruence). lia. }
  destruct P as (x & P). unfold bstart, bcount in *.
  assert (C1 : nth_error (map (fun i => match nth_error (nm_dims m) i with Some d => if nd_unlim d then 1%N else nd_len d | None => 0%N end) ids) k = Some 1%N) by (rewrite nth_error_map, I; cbn; now rewrite Du, Ud).
  assert (XA : (a <= x < a + 1)%N) by (apply (A3 k); [rewrite nth_error_map, I; cbn; now rewrite Nat.eqb_refl|exact C1|exact P]).
  assert (XB : (b <= x < b + 1)%N) by (apply (B3 k); [rewrite nth_error_map, I; cbn; now rewrite Nat.eqb_refl|exact C1|exact P]). lia.
Qed.

Lemma nth_error_firstn' {A} : forall (l : list A) i j, j < i -> nth_error l j = nth_error (firstn i l) j.
Proof. induction l as [|a l IH]; intros [|i] [|j] H; try reflexivity; try lia. cbn. apply IH. lia. Qed.

Section Jobs.
  Variable read : string -> option N -> outcome (option (dtype * list value)).
  Variable uc : string -> string -> option (Qc -> value).
  Variable old : cdm.
  Variable f : ncfmt.
  Variable w : writer.
  Variable m : ncmeta.
  Hypothesis C : consistent (w_cdm w).
  Hypothesis D : define f w = Ok m.
  (** one unlimited dimension at most, and it keeps its name *)
  Hypothesis ONE : at_most_one (nm_dims m).
  Hypothesis KEEP : forall d, unlimited_dim (w_cdm w) = Some d -> dname w (d_name d) = d_name d.
  Hypothesis SHAPE : forall v, In v (vars (w_cdm w)) -> NoDup (v_shape v) /\ v_type v <> DNat /\ var_type w v = v_type v.

  Lemma one_unlim i j d e : nth_error (nm_dims m) i = Some d -> nth_error (nm_dims m) j = Some e -> nd_unlim d = true -> nd_unlim e = true -> i = j.
  Proof.
    revert ONE. unfold at_most_one. generalize (nm_dims m). clear. intros l. revert i j. induction l as [|x l IH]; intros [|i] [|j] O A B U V; try discriminate; cbn in *; auto.
    - injection A as ->. rewrite U in O. cbn in O. apply nth_error_In in B. assert (I : In e (filter nd_unlim l)) by (apply filter_In; auto). destruct (filter nd_unlim l); [contradiction|cbn in O; lia].
    - injection B as ->. rewrite V in O. cbn in O. apply nth_error_In in A. assert (I : In d (filter nd_unlim l)) by (apply filter_In; auto). destruct (filter nd_unlim l); [contradiction|cbn in O; lia].
    - f_equal. apply IH; auto. destruct (nd_unlim x); cbn in O; lia.
  Qed.

  (** the unlimited dimension found *)
  Lemma unlim_found : exists u, unlim_id w m = Ok u /\
    match u with
    | None => unlimited_dim (w_cdm w) = None /\ forall i d, nth_error (nm_dims m) i = Some d -> nd_unlim d = false
    | Some i => exists d e, unlimited_dim (w_cdm w) = Some d /\ nth_error (nm_dims m) i = Some e /\ nd_unlim e = true /\ nth_error (dims (w_cdm w)) i = Some d
    end.
  Proof.
    pose proof (define_spec _ _ _ D) as (_ & D1 & D2 & _). unfold unlim_id. destruct (unlimited_dim (w_cdm w)) as [d|] eqn:U.
    - pose proof U as U2. unfold unlimited_dim in U2. apply find_some in U2 as (U1 & U2). apply In_nth_error in U1 as (i & U1). destruct (Forall2_nth _ _ _ D1 _ _ U1) as (e & E1 & E2).
      apply nc_dim_ok in E2 as (E2 & E3 & _). fold (dname w (d_name d)) in E2. rewrite (KEEP d eq_refl) in E2.
      assert (X : index_of nd_name (d_name d) 0 (nm_dims m) = Some i).
      { rewrite <- E2. pose proof (index_of_nth nd_name (nm_dims m) 0 i e D2 E1) as X. exact X. }
      rewrite X. exists (Some i). split; [reflexivity|]. exists d, e. repeat split; auto. congruence.
    - exists None. split; [reflexivity|]. split; [reflexivity|]. intros i e E. destruct (Forall2_nth_r _ _ _ D1 _ _ E) as (d & X & Y). apply nc_dim_ok in Y as (_ & -> & _).
      unfold unlimited_dim in U. apply (find_none _ _ U). now apply nth_error_In in X.
  Qed.

  Definition ids_of (vi : nat) : list nat := match nth_error (nm_vars m) vi with Some nv => nv_dims nv | None => [] end.

  Lemma var_ids vi v : nth_error (vars (w_cdm w)) vi = Some v ->
    exists nv, nth_error (nm_vars m) vi = Some nv /\ nv_dims nv = ids_of vi /\ nv_name nv = vname w (v_name v) /\ nv_type nv = cdm2nc (v_type v) /\
      Forall2 (fun n i => exists d, nth_error (dims (w_cdm w)) i = Some d /\ d_name d = n) (rev (v_shape v)) (ids_of vi) /\
      NoDup (ids_of vi) /\ (forall i, In i (ids_of vi) -> exists d, nth_error (nm_dims m) i = Some d).
  Proof.
    intro V. pose proof (define_spec _ _ _ D) as (_ & D1 & _ & _ & D4 & _). destruct (Forall2_nth _ _ _ D4 _ _ V) as (nv & N1 & F). unfold ids_of. rewrite N1. exists nv.
    destruct (SHAPE v (nth_error_In _ _ V)) as (SH & TY & VT). destruct F as (F1 & F2 & F3 & _).
    assert (G : Forall2 (fun n i => exists d, nth_error (dims (w_cdm w)) i = Some d /\ d_name d = n) (rev (v_shape v)) (nv_dims nv)).
    { apply omapM_ok in F3. revert F3. generalize (rev (v_shape v)) (nv_dims nv). intros sh ids F. induction F as [|n i sh ids R F IH]; [constructor|]. constructor; [|exact IH].
      unfold dim_id, rd in R. destruct (index_of d_name n 0 (dims (w_cdm w))) as [j|] eqn:E; [|discriminate]. injection R as ->. apply index_of_some in E as (_ & d & E & N). rewrite Nat.sub_0_r in E. eauto. }
    split; [reflexivity|]. split; [reflexivity|]. split; [exact F1|]. split.
    - now rewrite F2, VT.
    - split; [exact G|]. split.
      + apply NoDup_rev in SH. revert SH G. generalize (rev (v_shape v)) (nv_dims nv). intros sh ids SH G. induction G as [|n i sh ids (d & E1 & E2) G IH]; [constructor|].
        inversion SH as [|? ? S1 S2]; subst. constructor; [|now apply IH]. intro I. apply In_nth_error in I as (k & I). destruct (Forall2_nth_r _ _ _ G _ _ I) as (n' & N & d' & E3 & E4).
        apply S1. assert (d' = d) by congruence. subst. now apply nth_error_In in N.
      + intros i I. apply In_nth_error in I as (k & I). destruct (Forall2_nth_r _ _ _ G _ _ I) as (n' & N & d' & E3 & E4). destruct (Forall2_nth _ _ _ D1 _ _ E3) as (e & E5 & _). eauto.
  Qed.

  Lemma hasu vi v u : nth_error (vars (w_cdm w)) vi = Some v -> unlim_id w m = Ok u ->
    has_unlimited (w_cdm w) v = match u with Some i => existsb (Nat.eqb i) (ids_of vi) | None => false end.
  Proof.
    intros V U. destruct unlim_found as (u' & U' & F). rewrite U in U'. injection U' as <-. destruct (var_ids vi v V) as (nv & _ & _ & _ & _ & G & _ & _).
    unfold has_unlimited. destruct u as [i|].
    - destruct F as (d & e & -> & E1 & E2 & E3). apply eq_true_iff_eq. rewrite !existsb_exists. split.
      + intros (n & I & E). apply String.eqb_eq in E. subst n. apply in_rev in I. apply In_nth_error in I as (k & I). destruct (Forall2_nth _ _ _ G _ _ I) as (j & J & d' & J1 & J2).
        exists j. split; [now apply nth_error_In in J|]. apply Nat.eqb_eq. pose proof (c_dims _ C) as ND. unfold dnames in ND.
        apply (proj1 (NoDup_nth_error _) ND); [rewrite map_length; apply nth_error_Some; congruence|]. rewrite !nth_error_map, E3, J1. cbn. now rewrite J2.
      + intros (j & I & E). apply Nat.eqb_eq in E. subst j. apply In_nth_error in I as (k & I). destruct (Forall2_nth_r _ _ _ G _ _ I) as (n & J & d' & J1 & J2).
        assert (d' = d) by congruence. subst d'. exists n. split; [apply in_rev; now apply nth_error_In in J|]. apply String.eqb_eq. congruence.
    - destruct F as (-> & _). reflexivity.
  Qed.

  Lemma last_none j : forall ids k, ~ In j ids -> last_index j k ids = None.
  Proof. induction ids as [|x ids IH]; intros k H; [reflexivity|]. cbn [last_index]. rewrite IH by (intro; apply H; now right). destruct (Nat.eqb_spec x j); [destruct H; now left|reflexivity]. Qed.
  Lemma last_some j : forall ids k, NoDup ids -> In j ids -> exists i, last_index j k ids = Some (k + i) /\ nth_error ids i = Some j.
  Proof.
    induction ids as [|x ids IH]; intros k ND H; [contradiction|]. inversion ND as [|? ? N1 N2]; subst. cbn [last_index]. destruct H as [->|H].
    - rewrite last_none by assumption. rewrite Nat.eqb_refl. exists 0. split; [f_equal; lia|reflexivity].
    - destruct (IH (S k) N2 H) as (i & -> & E). exists (S i). split; [f_equal; lia|exact E].
  Qed.
  Lemma wr_map {A} (g : nat -> A) j x : forall ids i, NoDup ids -> nth_error ids i = Some j -> wr (map g ids) i x = Ok (map (fun k => if Nat.eqb k j then x else g k) ids).
  Proof.
    intros ids i ND E. unfold wr. rewrite map_length. assert (L : i < length ids) by (apply nth_error_Some; congruence). apply Nat.ltb_lt in L. rewrite L. f_equal. clear L.
    revert i ND E. induction ids as [|y ids IH]; intros [|i] ND E; try discriminate; inversion ND as [|? ? N1 N2]; subst; cbn [map upd].
    - injection E as ->. rewrite Nat.eqb_refl. f_equal. apply map_ext_in. intros k K. destruct (Nat.eqb_spec k j); [congruence|reflexivity].
    - rewrite (IH i N2 E). destruct (Nat.eqb_spec y j) as [->|]; [|reflexivity]. cbn in E. apply nth_error_In in E. contradiction.
  Qed.

  (** start and count of a job *)
  Lemma job_box vi v u s pos : nth_error (vars (w_cdm w)) vi = Some v -> unlim_id w m = Ok u ->
    (match pos with None => has_unlimited (w_cdm w) v = false | Some _ => has_unlimited (w_cdm w) v = true end) ->
    exists lens, omapM (dim_len_of m s) (ids_of vi) = Ok lens /\ writes w v (unlim_idx u (ids_of vi)) pos = true /\
      at_record (unlim_idx u (ids_of vi)) 1%N lens = Ok (bcount m (ids_of vi)) /\
      at_record (unlim_idx u (ids_of vi)) (match pos with Some p => p | None => 0%N end) (map (fun _ => 0%N) lens) = Ok (bstart u pos (ids_of vi)).
  Proof.
    intros V U P. destruct (var_ids vi v V) as (nv & _ & _ & _ & _ & _ & ND & K). rewrite (hasu vi v u V U) in P.
    exists (whole m (ns_recs s) (ids_of vi)). split; [apply lens_ok; exact K|].
    destruct unlim_found as (u' & U' & F). rewrite U in U'. injection U' as <-. unfold whole. rewrite map_map.
    destruct u as [j|].
    - destruct F as (d & e & F1 & F2 & F3 & F4). cbn [unlim_idx]. destruct (existsb (Nat.eqb j) (ids_of vi)) eqn:X.
      + destruct pos as [p|]; [|discriminate]. apply existsb_exists in X as (j' & I & E). apply Nat.eqb_eq in E. subst j'. destruct (last_some j (ids_of vi) 0 ND I) as (i & -> & E). cbn [Nat.add at_record writes].
        split; [unfold writes; rewrite (hasu vi v (Some j) V U); apply existsb_exists; exists j; split; [exact I|apply Nat.eqb_refl]|]. rewrite !(wr_map _ j _ _ _ ND E). split; f_equal.
        * unfold bcount. apply map_ext_in. intros k Hk. destruct (Nat.eqb_spec k j) as [->|NE]; [now rewrite F2, F3|]. destruct (nth_error (nm_dims m) k) as [x|] eqn:Ek; [|reflexivity].
          destruct (nd_unlim x) eqn:Ux; [|reflexivity]. destruct NE. eapply one_unlim; eassumption.
      + destruct pos as [p|]; [discriminate|]. assert (I : ~ In j (ids_of vi)) by (intro I; assert (existsb (Nat.eqb j) (ids_of vi) = true) by (apply existsb_exists; exists j; split; [exact I|apply Nat.eqb_refl]); congruence).
        rewrite (last_none j _ 0 I). cbn [at_record writes]. split; [unfold writes; rewrite (hasu vi v (Some j) V U), X; reflexivity|]. split; f_equal.
        unfold bcount. apply map_ext_in. intros k Hk. destruct (nth_error (nm_dims m) k) as [x|] eqn:Ek; [|reflexivity].
        destruct (nd_unlim x) eqn:Ux; [|reflexivity]. destruct I. assert (k = j) by (eapply one_unlim; eassumption). now subst.
    - destruct F as (F1 & F2). destruct pos as [p|]; [discriminate|]. cbn [unlim_idx at_record writes]. split; [unfold writes; rewrite (hasu vi v None V U); reflexivity|]. split; f_equal.
      unfold bcount. apply map_ext_in. intros k Hk. destruct (nth_error (nm_dims m) k) as [x|] eqn:Ek; [|reflexivity]. now rewrite (F2 _ _ Ek).
  Qed.
  Lemma job_skip vi v u pos : nth_error (vars (w_cdm w)) vi = Some v -> unlim_id w m = Ok u ->
    (match pos with None => has_unlimited (w_cdm w) v = true | Some _ => has_unlimited (w_cdm w) v = false end) -> writes w v (unlim_idx u (ids_of vi)) pos = false.
  Proof. intros V U P. unfold writes. destruct pos; destruct (unlim_idx u (ids_of vi)); auto. now rewrite P. Qed.

  (** ** the data of a job *)

  (** the values that one variable delivers at one position: the data read, converted and cast to its type, or
      without data the fill value (classic) or nothing *)
  Definition delivers (v : cvar) (pos : option N) (size : N) (x : list value) : Prop :=
    exists d, job_data read uc old w v pos = Ok d /\
      match d with
      | Some (t, y :: l) => as_type t (v_type v) (y :: l) = Ok x /\ N.of_nat (length x) = size
      | _ => if fmt_eqb f Classic
             then exists fill y, get_fill (w_cdm w) (v_name v) = Ok fill /\ data_cast DDouble (v_type v) fill = Ok y /\ x = repeat y (N.to_nat size)
             else x = []
      end.

  Lemma as_type_same t l : as_type t t l = Ok l.
  Proof. unfold as_type. rewrite dtype_eqb_refl. now destruct (numeric t). Qed.

  Lemma step_writes vi v u s pos x : nth_error (vars (w_cdm w)) vi = Some v -> unlim_id w m = Ok u ->
    (match pos with None => has_unlimited (w_cdm w) v = false | Some _ => has_unlimited (w_cdm w) v = true end) ->
    delivers v pos (nprod (bcount m (ids_of vi))) x ->
    exists s', write_step read uc old w m u (s, false) (pos, vi) = Ok (s', false) /\ (x = [] -> s' = s) /\
      (x <> [] -> put_vara m s vi (bstart u pos (ids_of vi)) (bcount m (ids_of vi)) x = Ok s' /\ N.of_nat (length x) = nprod (bcount m (ids_of vi))).
  Proof.
    intros V U P (d & J & Dl). destruct (job_box vi v u s pos V U P) as (lens & L & W & B1 & B2). destruct (var_ids vi v V) as (nv & N1 & N2 & N3 & N4 & G & ND & K).
    pose proof (define_spec _ _ _ D) as (FM & _). destruct (SHAPE v (nth_error_In _ _ V)) as (_ & TY & _).
    assert (LIM : in_limits m true s (ids_of vi) (bstart u pos (ids_of vi)) (bcount m (ids_of vi)) = true).
    { destruct unlim_found as (u' & U' & F). rewrite U in U'. injection U' as <-. revert K. generalize (ids_of vi). induction l as [|i l IH]; intro K; [reflexivity|].
      cbn [bstart bcount map in_limits]. destruct (K i (or_introl eq_refl)) as (e & E). rewrite E. fold (bstart u pos l) (bcount m l). rewrite IH by (intros; apply K; now right). rewrite andb_true_r. cbn [andb].
      destruct (nd_unlim e) eqn:Ue; [reflexivity|]. cbn [orb].
      assert (Z : (match u, pos with Some j, Some p => if Nat.eqb i j then p else 0 | _, _ => 0 end)%N = 0%N).
      { destruct u as [j|]; [|reflexivity]. destruct pos; [|reflexivity]. destruct (Nat.eqb_spec i j) as [->|]; [|reflexivity]. destruct F as (_ & e' & _ & F & F' & _). congruence. }
      rewrite Z. apply N.leb_le. lia. }
    assert (PV : forall y, N.of_nat (length y) = nprod (bcount m (ids_of vi)) -> y <> [] ->
       exists s', nc_put_values m s vi (cdm2nc (v_type v)) (bstart u pos (ids_of vi)) (bcount m (ids_of vi)) y = Ok s' /\
                  put_vara m s vi (bstart u pos (ids_of vi)) (bcount m (ids_of vi)) y = Ok s').
    { intros y Ly NE. unfold nc_put_values. destruct y as [|y0 y]; [congruence|]. rewrite Ly, N.eqb_refl. cbn [negb].
      assert (Q : exists s', put_vara m s vi (bstart u pos (ids_of vi)) (bcount m (ids_of vi)) (y0 :: y) = Ok s').
      { unfold put_vara. rewrite N1, N2, LIM. cbn [negb]. destruct (N.eqb _ 0); eauto. }
      destruct Q as (s' & Q). exists s'. split; [|exact Q]. destruct (v_type v); try congruence; exact Q. }
    unfold write_step. rewrite V, N1, N2, L. cbn [obind]. rewrite W. cbn [negb]. rewrite J, B1, B2. cbn [obind]. rewrite FM.
    assert (EM : (if fmt_eqb f Classic
             then exists fill y, get_fill (w_cdm w) (v_name v) = Ok fill /\ data_cast DDouble (v_type v) fill = Ok y /\ x = repeat y (N.to_nat (nprod (bcount m (ids_of vi))))
             else x = []) ->
       exists s', (do d2 <- (if fmt_eqb f Classic
                                    then do fill <- get_fill (w_cdm w) (v_name v);
                                         omap (fun x => (v_type v, x)) (create_filled (v_type v) (N.to_nat (nprod (bcount m (ids_of vi)))) fill)
                                    else Ok (v_type v, []));
                   do l2 <- as_type (fst d2) (v_type v) (snd d2);
                   match nc_put_values m s vi (cdm2nc (v_type v)) (bstart u pos (ids_of vi)) (bcount m (ids_of vi)) l2 with
                   | Ok s' => Ok (s', false)
                   | Throw => Ok (s, false)
                   | UB => UB
                   | Hang => Hang
                   end) = Ok (s', false) /\ (x = [] -> s' = s) /\
      (x <> [] -> put_vara m s vi (bstart u pos (ids_of vi)) (bcount m (ids_of vi)) x = Ok s' /\ N.of_nat (length x) = nprod (bcount m (ids_of vi)))).
    { intro H. destruct (fmt_eqb f Classic).
      - destruct H as (fill & y & -> & Y & ->). cbn [obind]. unfold create_filled. rewrite Y. cbn [obind omap fst snd]. rewrite as_type_same. cbn [obind].
        set (n := nprod (bcount m (ids_of vi))) in *. assert (LR : N.of_nat (length (repeat y (N.to_nat n))) = n) by (rewrite repeat_length; lia).
        destruct (repeat y (N.to_nat n)) as [|y0 r] eqn:R.
        + exists s. cbn. repeat split; congruence.
        + destruct (PV (y0 :: r) LR) as (s' & P1 & P2); [discriminate|]. rewrite P1. exists s'. repeat split; auto; discriminate.
      - subst x. cbn [obind fst snd]. rewrite as_type_same. cbn [obind nc_put_values]. exists s. repeat split; congruence. }
    destruct d as [[t [|y l]]|]; cbn beta iota; [exact (EM Dl)| |exact (EM Dl)].
    destruct Dl as (A & LX). cbn [obind fst snd]. rewrite A. cbn [obind]. destruct x as [|x0 x].
    - cbn [nc_put_values]. exists s. repeat split; congruence.
    - destruct (PV (x0 :: x) LX) as (s' & P1 & P2); [discriminate|]. rewrite P1. exists s'. repeat split; auto; discriminate.
  Qed.
  Lemma step_skips vi v u s pos : nth_error (vars (w_cdm w)) vi = Some v -> unlim_id w m = Ok u ->
    (match pos with None => has_unlimited (w_cdm w) v = true | Some _ => has_unlimited (w_cdm w) v = false end) ->
    write_step read uc old w m u (s, false) (pos, vi) = Ok (s, false).
  Proof.
    intros V U P. destruct (var_ids vi v V) as (nv & N1 & N2 & _ & _ & _ & _ & K). unfold write_step. rewrite V, N1, N2, (lens_ok m s _ K). cbn [obind].
    now rewrite (job_skip vi v u pos V U P).
  Qed.

  (** Finding: data of another size than the slice are dropped with a message only; the writer goes on and succeeds. *)
  Theorem C84_wrong_size_refuted vi v u s pos t y l x : nth_error (vars (w_cdm w)) vi = Some v -> unlim_id w m = Ok u ->
    (match pos with None => has_unlimited (w_cdm w) v = false | Some _ => has_unlimited (w_cdm w) v = true end) ->
    job_data read uc old w v pos = Ok (Some (t, y :: l)) -> as_type t (v_type v) (y :: l) = Ok x -> N.of_nat (length x) <> nprod (bcount m (ids_of vi)) ->
    write_step read uc old w m u (s, false) (pos, vi) = Ok (s, false).
  Proof.
    intros V U P J A L. destruct (job_box vi v u s pos V U P) as (lens & Q & W & B1 & B2). destruct (var_ids vi v V) as (nv & N1 & N2 & _).
    unfold write_step. rewrite V, N1, N2, Q. cbn [obind]. rewrite W. cbn [negb]. rewrite J, B1, B2. cbn [obind fst snd]. rewrite A. cbn [obind]. unfold nc_put_values. destruct x as [|x0 x]; [reflexivity|].
    destruct (N.eqb_spec (nprod (bcount m (ids_of vi))) (N.of_nat (length (x0 :: x)))) as [E|]; [congruence|reflexivity].
  Qed.

  (** ** all jobs *)

  Variable X : nat -> option N -> list value.
  Hypothesis DATA : forall vi v pos, nth_error (vars (w_cdm w)) vi = Some v ->
    match pos with None => has_unlimited (w_cdm w) v = false | Some k => has_unlimited (w_cdm w) v = true /\ (k < max_unlim w)%N end ->
    delivers v pos (nprod (bcount m (ids_of vi))) (X vi pos).

  (** something is written *)
  Definition wrote (job : option N * nat) : bool :=
    match nth_error (vars (w_cdm w)) (snd job) with
    | Some v => (match fst job with None => negb (has_unlimited (w_cdm w) v) | Some _ => has_unlimited (w_cdm w) v end) &&
                match X (snd job) (fst job) with [] => false | _ => true end
    | None => false
    end.
  Definition top (js : list (option N * nat)) : N := fold_right (fun job a => N.max (match fst job with Some k => if wrote job then k + 1 else 0 | None => 0 end) a) 0%N js.

  Lemma put_effect u vi v s pos x s' : nth_error (vars (w_cdm w)) vi = Some v -> unlim_id w m = Ok u ->
    put_vara m s vi (bstart u pos (ids_of vi)) (bcount m (ids_of vi)) x = Ok s' -> N.of_nat (length x) = nprod (bcount m (ids_of vi)) -> x <> [] ->
    (match pos with None => has_unlimited (w_cdm w) v = false | Some _ => has_unlimited (w_cdm w) v = true end) ->
    (forall p k, box_index (bstart u pos (ids_of vi)) (bcount m (ids_of vi)) p = Some k -> ns_cell s' vi p = nth_error x (N.to_nat k)) /\
    (forall j p, (j = vi -> ~ in_box (bstart u pos (ids_of vi)) (bcount m (ids_of vi)) p) -> ns_cell s' j p = ns_cell s j p) /\
    (forall j, ns_recs s' j = match u, pos with Some i, Some k => if Nat.eqb j i then N.max (ns_recs s j) (k + 1) else ns_recs s j | _, _ => ns_recs s j end).
  Proof.
    intros V U P L NE R. destruct (var_ids vi v V) as (nv & N1 & N2 & _ & _ & _ & ND & K). unfold put_vara in P. rewrite N1, N2 in P.
    destruct (negb _) eqn:LIM in P; [discriminate|]. destruct (N.eqb_spec (nprod (bcount m (ids_of vi))) 0) as [Z|_]; [rewrite Z in L; destruct x; [congruence|cbn in L; lia]|].
    injection P as <-. cbn [ns_cell ns_recs]. split; [|split].
    - intros p k B. rewrite Nat.eqb_refl, B. destruct (nth_error x (N.to_nat k)) eqn:E; [reflexivity|]. exfalso. apply nth_error_None in E.
      assert (k < nprod (bcount m (ids_of vi)))%N; [|lia]. eapply box_below; exact B.
    - intros j p H. destruct (Nat.eqb_spec j vi) as [->|]; [|reflexivity]. specialize (H eq_refl). unfold in_box in H. destruct (box_index _ _ p); [destruct H; discriminate|reflexivity].
    - intro j. destruct unlim_found as (u' & U' & F). rewrite U in U'. injection U' as <-. rewrite (hasu vi v u V U) in R.
      destruct u as [i|].
      + destruct F as (d & e & _ & F1 & F2 & _). destruct pos as [k|].
        * apply existsb_exists in R as (i' & I & E). apply Nat.eqb_eq in E. subst i'. destruct (Nat.eqb_spec j i) as [->|NJ].
          -- clear -F1 F2 I ND. generalize (ns_recs s). revert I ND. generalize (ids_of vi). induction l as [|a l IH]; intros I ND recs; [contradiction|]. inversion ND as [|? ? A1 A2]; subst.
             cbn [bstart bcount map grow_recs]. fold (bstart (Some i) (Some k) l) (bcount m l). destruct I as [->|I].
             ++ rewrite F1, F2, grow_other by auto. now rewrite !Nat.eqb_refl.
             ++ destruct (nth_error (nm_dims m) a) as [d|]; [|now apply IH]. destruct (nd_unlim d); [|now apply IH]. rewrite IH by assumption. cbn beta.
                destruct (Nat.eqb_spec i a) as [->|]; [contradiction|reflexivity].
          -- apply grow_other. destruct (nth_error (nm_dims m) j) as [x'|] eqn:Ej; [right|right; discriminate]. intros d' E. injection E as <-. destruct (nd_unlim x') eqn:Ux; [|reflexivity]. destruct NJ. eapply one_unlim; eassumption.
        * apply grow_other. destruct (Nat.eq_dec j i) as [->|NJ]; [left|right].
          -- intro I. assert (existsb (Nat.eqb i) (ids_of vi) = true) by (apply existsb_exists; exists i; split; [exact I|apply Nat.eqb_refl]). congruence.
          -- intros d' Ej. destruct (nd_unlim d') eqn:Ux; [|reflexivity]. destruct NJ. eapply one_unlim; eassumption.
      + apply grow_other. right. intros d' E. destruct F as (_ & F). now apply F in E.
  Qed.

  (** the state after some jobs *)
  Record after (u : option nat) (js : list (option N * nat)) (s s' : ncdata) : Prop := {
    af_in : forall pos vi p k, In (pos, vi) js -> wrote (pos, vi) = true -> box_index (bstart u pos (ids_of vi)) (bcount m (ids_of vi)) p = Some k ->
      ns_cell s' vi p = nth_error (X vi pos) (N.to_nat k);
    af_out : forall vi p, (forall pos, In (pos, vi) js -> wrote (pos, vi) = true -> ~ in_box (bstart u pos (ids_of vi)) (bcount m (ids_of vi)) p) -> ns_cell s' vi p = ns_cell s vi p;
    af_recs : forall j, ns_recs s' j = match u with Some i => if Nat.eqb j i then N.max (ns_recs s j) (top js) else ns_recs s j | None => ns_recs s j end }.

  Lemma jobs_after u : unlim_id w m = Ok u -> forall js s, NoDup js ->
    (forall pos vi, In (pos, vi) js -> vi < length (vars (w_cdm w)) /\ match pos with Some k => (k < max_unlim w)%N | None => True end) ->
    exists s', ofold (write_step read uc old w m u) js (s, false) = Ok (s', false) /\ after u js s s'.
  Proof.
    intros U. induction js as [|(pos, vi) js IH]; intros s ND R.
    - exists s. split; [reflexivity|]. split; [contradiction|reflexivity|]. intro j. destruct u as [i|]; [|reflexivity]. cbn [top fold_right]. destruct (Nat.eqb j i); [lia|reflexivity].
    - inversion ND as [|? ? N1 N2]; subst. destruct (R pos vi (or_introl eq_refl)) as (R1 & R2).
      destruct (nth_error (vars (w_cdm w)) vi) as [v|] eqn:V; [|apply nth_error_None in V; lia].
      assert (SK : match pos with None => has_unlimited (w_cdm w) v = true | Some _ => has_unlimited (w_cdm w) v = false end \/
                   match pos with None => has_unlimited (w_cdm w) v = false | Some _ => has_unlimited (w_cdm w) v = true end) by (destruct pos, (has_unlimited (w_cdm w) v); auto).
      cbn [ofold].
      assert (NW : wrote (pos, vi) = false -> forall s', after u js s s' -> after u ((pos, vi) :: js) s s').
      { intros W s' [A1 A2 A3]. split.
        - intros pos' vi' p k [E|I] W'; [injection E as <- <-; congruence|]. now apply A1.
        - intros vi' p H. apply A2. intros pos' I. apply H. now right.
        - intro j. rewrite A3. destruct u as [i|]; [|reflexivity]. destruct (Nat.eqb j i); [|reflexivity]. cbn [top fold_right fst]. rewrite W. unfold top. destruct pos; lia. }
      destruct SK as [SK|SK].
      + rewrite (step_skips vi v u s pos V U SK). cbn [obind]. destruct (IH s N2) as (s' & E & A); [intros; apply R; now right|]. exists s'. split; [exact E|]. apply NW; [|exact A].
        unfold wrote. cbn [fst snd]. rewrite V. destruct pos; now rewrite SK.
      + assert (Dl : delivers v pos (nprod (bcount m (ids_of vi))) (X vi pos)) by (apply DATA; [exact V|destruct pos; auto]).
        destruct (step_writes vi v u s pos (X vi pos) V U SK Dl) as (s1 & E1 & S1 & S2). rewrite E1. cbn [obind].
        destruct (IH s1 N2) as (s' & E & A); [intros; apply R; now right|]. exists s'. split; [exact E|].
        assert (WX : wrote (pos, vi) = match X vi pos with [] => false | _ => true end) by (unfold wrote; cbn [fst snd]; rewrite V; destruct pos; rewrite SK; reflexivity).
        destruct (X vi pos) as [|x0 x] eqn:Ex.
        { rewrite (S1 eq_refl) in A. apply NW; [exact WX|exact A]. }
        destruct S2 as (P & L); [discriminate|]. destruct (put_effect u vi v s pos _ s1 V U P L) as (F1 & F2 & F3); [discriminate|exact SK|]. destruct A as [A1 A2 A3].
        assert (DJ : forall pos' p, In (pos', vi) js -> wrote (pos', vi) = true -> in_box (bstart u pos (ids_of vi)) (bcount m (ids_of vi)) p -> ~ in_box (bstart u pos' (ids_of vi)) (bcount m (ids_of vi)) p).
        { intros pos' p I W B B'. unfold wrote in W. cbn [fst snd] in W. rewrite V in W. apply andb_prop in W as (W & _).
          destruct pos as [a|], pos' as [b|]; cbn in SK, W; [|now rewrite SK in W|now rewrite SK in W|contradiction].
          rewrite (hasu vi v u V U) in SK. destruct u as [i|]; [|discriminate]. apply existsb_exists in SK as (i' & I' & E'). apply Nat.eqb_eq in E'. subst i'.
          destruct unlim_found as (u' & U' & F). rewrite U in U'. injection U' as <-. destruct F as (d & e & _ & G1 & G2 & _).
          assert (a = b) by (eapply boxes_disjoint; eassumption). subst. contradiction. }
        split.
        * intros pos' vi' p k I W B. destruct I as [I|I].
          -- injection I as <- <-. rewrite (A2 vi p).
             ++ rewrite Ex. now apply F1.
             ++ intros pos' I W'. apply DJ; [exact I|exact W'|]. unfold in_box. congruence.
          -- now apply A1.
        * intros vi' p H. rewrite A2 by (intros pos' I; apply H; now right). apply F2. intros ->. apply H; [now left|exact WX].
        * intro j. rewrite A3, F3. destruct u as [i|]; [|reflexivity]. destruct (Nat.eqb j i); [|now destruct pos]. cbn [top fold_right fst]. rewrite WX. unfold top. destruct pos; lia.
  Qed.

  (** the jobs of the loops *)
  Lemma in_jobs pos vi : In (pos, vi) (jobs w) <-> vi < length (vars (w_cdm w)) /\ match pos with Some k => (k < max_unlim w)%N | None => True end.
  Proof.
    unfold jobs. rewrite in_flat_map. split.
    - intros (p & I & J). apply in_map_iff in J as (i & E & J). injection E as <- <-. apply in_seq in J. split; [lia|]. destruct I as [<-|I]; [exact Logic.I|].
      apply in_map_iff in I as (k & <- & I). apply in_seq in I. lia.
    - intros (H1 & H2). exists pos. split; [|apply in_map_iff; exists vi; split; [reflexivity|apply in_seq; lia]]. destruct pos as [k|]; [right|now left].
      apply in_map_iff. exists (N.to_nat k). split; [f_equal; lia|]. apply in_seq. lia.
  Qed.
  Lemma nodup_jobs : NoDup (jobs w).
  Proof.
    unfold jobs. set (vs := seq 0 (length (vars (w_cdm w)))).
    assert (NP : NoDup (None :: map (fun k => Some (N.of_nat k)) (seq 0 (N.to_nat (max_unlim w))))).
    { constructor; [intro I; apply in_map_iff in I as (k & E & _); discriminate|]. apply FinFun.Injective_map_NoDup; [intros a b E; injection E as E; lia|apply seq_NoDup]. }
    revert NP. generalize (None :: map (fun k => Some (N.of_nat k)) (seq 0 (N.to_nat (max_unlim w)))). induction l as [|p l IH]; intro NP; [constructor|]. inversion NP as [|? ? P1 P2]; subst.
    cbn [flat_map]. apply nodup_app_iff. split; [|split; [now apply IH|]].
    - apply FinFun.Injective_map_NoDup; [intros a b E; now injection E|apply seq_NoDup].
    - intros (p', i) I J. apply in_map_iff in I as (x & E & _). injection E as <- <-. apply in_flat_map in J as (p' & J1 & J2). apply in_map_iff in J2 as (y & E & _). injection E as -> _. contradiction.
  Qed.

  Definition relevant (v : cvar) (pos : option N) : Prop :=
    match pos with None => has_unlimited (w_cdm w) v = false | Some k => has_unlimited (w_cdm w) v = true /\ (k < max_unlim w)%N end.

  Lemma wrote_spec vi v pos : nth_error (vars (w_cdm w)) vi = Some v -> relevant v pos -> X vi pos <> [] -> wrote (pos, vi) = true.
  Proof.
    intros V R NE. unfold wrote. cbn [fst snd]. rewrite V. destruct pos as [k|]; [destruct R as (-> & _)|cbn in R; rewrite R]; destruct (X vi _); try congruence; reflexivity.
  Qed.
  Lemma wrote_inv vi pos : wrote (pos, vi) = true -> (match pos with Some k => (k < max_unlim w)%N | None => True end) ->
    exists v, nth_error (vars (w_cdm w)) vi = Some v /\ relevant v pos /\ X vi pos <> [].
  Proof.
    intros W R. unfold wrote in W. cbn [fst snd] in W. destruct (nth_error (vars (w_cdm w)) vi) as [v|]; [|discriminate]. exists v. split; [reflexivity|]. apply andb_prop in W as (W1 & W2).
    split; [|intro E; rewrite E in W2; discriminate]. destruct pos; cbn; [auto|]. now destruct (has_unlimited (w_cdm w) v).
  Qed.
  Lemma top_ge js pos vi : In (pos, vi) js -> wrote (pos, vi) = true -> forall k, pos = Some k -> (k + 1 <= top js)%N.
  Proof.
    induction js as [|j js IH]; intros I W k ->; [contradiction|]. cbn [top fold_right]. fold (top js). destruct I as [->|I]; [cbn [fst]; rewrite W; lia|]. specialize (IH I W k eq_refl). lia.
  Qed.
  Lemma top_le js b : (forall k vi, In (Some k, vi) js -> wrote (Some k, vi) = true -> (k + 1 <= b)%N) -> (top js <= b)%N.
  Proof.
    induction js as [|[[k|] vi] js IH]; intro H; cbn [top fold_right]; [lia| |].
    - fold (top js). cbn [fst]. specialize (IH (fun k' v' I => H k' v' (or_intror I))). destruct (wrote (Some k, vi)) eqn:W; [specialize (H k vi (or_introl eq_refl) W)|]; lia.
    - fold (top js). cbn [fst]. specialize (IH (fun k' v' I => H k' v' (or_intror I))). lia.
  Qed.

  (** In whatever order the threads take the jobs, the writer succeeds, every slice holds the data delivered for it,
      nothing else is changed, and the unlimited dimension has the largest record written. *)
  Theorem C84_written js s : Permutation js (jobs w) ->
    exists u s', unlim_id w m = Ok u /\ write_jobs read uc old w m js s = Ok (s', false) /\
      (forall vi v pos fill, nth_error (vars (w_cdm w)) vi = Some v -> relevant v pos -> X vi pos <> [] ->
         nc_get_values m s' fill vi (cdm2nc (v_type v)) (bstart u pos (ids_of vi)) (bcount m (ids_of vi)) = Ok (X vi pos)) /\
      (forall vi p, (forall v pos, nth_error (vars (w_cdm w)) vi = Some v -> relevant v pos -> X vi pos <> [] ->
          ~ in_box (bstart u pos (ids_of vi)) (bcount m (ids_of vi)) p) -> ns_cell s' vi p = ns_cell s vi p) /\
      (forall j, Some j <> u -> ns_recs s' j = ns_recs s j) /\
      (forall j b, u = Some j -> (ns_recs s' j <= b <-> ns_recs s j <= b /\
          forall vi v k, nth_error (vars (w_cdm w)) vi = Some v -> relevant v (Some k) -> X vi (Some k) <> [] -> k + 1 <= b)%N).
  Proof.
    intro PM. destruct unlim_found as (u & U & F). exists u. unfold write_jobs. rewrite U. cbn [obind].
    assert (IJ : forall pos vi, In (pos, vi) js <-> vi < length (vars (w_cdm w)) /\ match pos with Some k => (k < max_unlim w)%N | None => True end).
    { intros. rewrite <- in_jobs. split; apply Permutation_in; [exact PM|now apply Permutation_sym]. }
    destruct (jobs_after u U js s) as (s' & E & [A1 A2 A3]); [eapply Permutation_NoDup; [apply Permutation_sym; exact PM|apply nodup_jobs]|intros pos vi; apply IJ|].
    assert (RJ : forall vi v pos, nth_error (vars (w_cdm w)) vi = Some v -> relevant v pos -> In (pos, vi) js).
    { intros vi v pos V R. apply IJ. split; [apply nth_error_Some; congruence|]. destruct pos; [apply R|exact Logic.I]. }
    exists s'. split; [reflexivity|]. split; [exact E|]. split; [|split; [|split]].
    - intros vi v pos fill V R NE. pose proof (wrote_spec vi v pos V R NE) as W. pose proof (RJ vi v pos V R) as I. destruct (var_ids vi v V) as (nv & N1 & N2 & _ & N4 & _ & ND & K).
      assert (Dl : delivers v pos (nprod (bcount m (ids_of vi))) (X vi pos)) by (apply DATA; [exact V|exact R]).
      assert (SK : match pos with None => has_unlimited (w_cdm w) v = false | Some _ => has_unlimited (w_cdm w) v = true end) by (destruct pos; [apply R|exact R]).
      destruct (step_writes vi v u s pos (X vi pos) V U SK Dl) as (s0 & _ & _ & S2). destruct (S2 NE) as (_ & L).
      unfold nc_get_values. rewrite N1, N2. assert (LIM : in_limits m false s' (ids_of vi) (bstart u pos (ids_of vi)) (bcount m (ids_of vi)) = true).
      { assert (SUB : forall i d, In i (ids_of vi) -> nth_error (nm_dims m) i = Some d ->
           (match u, pos with Some j, Some p => if Nat.eqb i j then p else 0 | _, _ => 0 end + (if nd_unlim d then 1 else nd_len d) <= (if nd_unlim d then ns_recs s' i else nd_len d))%N).
        { intros i d Ii Ed. rewrite (hasu vi v u V U) in SK. destruct u as [j|].
          - destruct F as (dd & e & _ & F1 & F2 & _). destruct (Nat.eqb_spec i j) as [->|NE'].
            + assert (d = e) by congruence. subst d. rewrite F2. destruct pos as [k|].
              * rewrite A3, Nat.eqb_refl. pose proof (top_ge js (Some k) vi I W k eq_refl). lia.
              * exfalso. assert (existsb (Nat.eqb j) (ids_of vi) = true) by (apply existsb_exists; exists j; split; [exact Ii|apply Nat.eqb_refl]). congruence.
            + destruct (nd_unlim d) eqn:Ud; [destruct NE'; eapply one_unlim; eassumption|]. destruct pos; lia.
          - destruct F as (_ & F). rewrite (F _ _ Ed). lia. }
        revert SUB K. generalize (ids_of vi). induction l as [|i l IH]; intros SUB K; [reflexivity|]. cbn [bstart bcount map in_limits]. destruct (K i (or_introl eq_refl)) as (d & Ed). rewrite Ed. fold (bstart u pos l) (bcount m l).
        rewrite IH; [|intros; apply SUB; [now right|assumption]|intros; apply K; now right]. rewrite andb_true_r. cbn [andb orb]. apply N.leb_le. apply SUB; [now left|exact Ed]. }
      rewrite LIM. cbn [negb]. assert (TN : cdm2nc (v_type v) <> NcNat) by (destruct (SHAPE v (nth_error_In _ _ V)) as (_ & TY & _); destruct (v_type v); cbn; congruence).
      assert (G : Ok (map (fun p => match ns_cell s' vi p with Some x => x | None => fill end) (box_positions (bstart u pos (ids_of vi)) (bcount m (ids_of vi)))) = Ok (X vi pos)); [|destruct (cdm2nc (v_type v)); try exact G; congruence].
      f_equal. rewrite <- (box_data (bstart u pos (ids_of vi)) (bcount m (ids_of vi)) (X vi pos) (fun _ => None)) by (try apply bstart_len; exact L).
      apply map_ext_in. intros p Ip. apply in_positions in Ip; [|apply bstart_len]. unfold in_box in Ip. destruct (box_index (bstart u pos (ids_of vi)) (bcount m (ids_of vi)) p) as [k|] eqn:B; [|congruence].
      rewrite (A1 pos vi p k I W B). destruct (nth_error (X vi pos) (N.to_nat k)) eqn:En; [reflexivity|]. apply nth_error_None in En. apply box_below in B. lia.
    - intros vi p H. apply A2. intros pos I W. apply IJ in I as (I1 & I2). destruct (wrote_inv vi pos W I2) as (v & V & R & NE). now apply (H v pos).
    - intros j NE. rewrite A3. destruct u as [i|]; [|reflexivity]. destruct (Nat.eqb_spec j i); [congruence|reflexivity].
    - intros j b ->. rewrite A3, Nat.eqb_refl. split.
      + intro H. split; [lia|]. intros vi v k V R NE. pose proof (top_ge js (Some k) vi (RJ _ _ _ V R) (wrote_spec _ _ _ V R NE) k eq_refl). lia.
      + intros (H1 & H2). enough (top js <= b)%N by lia. apply top_le. intros k vi I W. apply IJ in I as (_ & I2). destruct (wrote_inv vi (Some k) W I2) as (v & V & R & NE). now apply (H2 vi v k).
  Qed.

  (** Read with the reader, every slice gives the data delivered, if the unlimited dimension is the slowest one. *)
  Theorem C84_read_back js s : Permutation js (jobs w) ->
    (forall v, In v (vars (w_cdm w)) -> vname w (v_name v) <> global_ns /\ Forall (faithful_att f) (attrs_of (w_cdm w) (v_name v))) ->
    Forall (faithful_att f) (attrs_of (w_cdm w) global_ns) ->
    (forall v d, In v (vars (w_cdm w)) -> unlimited_dim (w_cdm w) = Some d -> In (d_name d) (v_shape v) -> exists sh, v_shape v = sh ++ [d_name d]) ->
    exists s' c, write_jobs read uc old w m js s = Ok (s', false) /\ read_file m s' = Ok c /\
      (forall vi v fill, nth_error (vars (w_cdm w)) vi = Some v -> has_unlimited (w_cdm w) v = false -> X vi None <> [] ->
         forall k, nc_slice m s' fill c (vname w (v_name v)) k = Ok (X vi None)) /\
      (forall vi v k fill, nth_error (vars (w_cdm w)) vi = Some v -> has_unlimited (w_cdm w) v = true -> (k < max_unlim w)%N -> X vi (Some k) <> [] ->
         nc_slice m s' fill c (vname w (v_name v)) k = Ok (X vi (Some k))).
  Proof.
    intros PM G GA LAST. destruct (C84_written js s PM) as (u & s' & U & E & W1 & _). destruct (C83_roundtrip f w m s' C D G GA) as (c & R & CC & R1 & R2 & R3 & _).
    exists s', c. split; [exact E|]. split; [exact R|]. pose proof (define_spec _ _ _ D) as (_ & D1 & D2 & _ & D4 & D5 & _).
    destruct unlim_found as (u' & U' & F). rewrite U in U'. injection U' as <-.
    assert (DN : forall n i d, nth_error (dims (w_cdm w)) i = Some d -> d_name d = n -> forall j e, nth_error (dims (w_cdm w)) j = Some e -> dname w (d_name e) = dname w n -> d_name e = n).
    { intros n i d Ei Nn j e Ej EQ. destruct (Forall2_nth _ _ _ D1 _ _ Ei) as (x & X1 & X2). destruct (Forall2_nth _ _ _ D1 _ _ Ej) as (y & Y1 & Y2). apply nc_dim_ok in X2 as (X2 & _). apply nc_dim_ok in Y2 as (Y2 & _).
      unfold dname in EQ. assert (j = i). { apply (proj1 (NoDup_nth_error _) D2); [rewrite map_length; apply nth_error_Some; congruence|]. rewrite !nth_error_map, X1, Y1. cbn. rewrite X2, Y2, Nn. now f_equal. }
      subst. congruence. }
    assert (SL : forall vi v, nth_error (vars (w_cdm w)) vi = Some v -> exists nv cv, find_var (vname w (v_name v)) (vars c) = Some cv /\ var_id m (vname w (v_name v)) = Some vi /\
              nth_error (nm_vars m) vi = Some nv /\ nv_dims nv = ids_of vi /\ nv_type nv = cdm2nc (v_type v) /\ has_unlimited c cv = has_unlimited (w_cdm w) v /\ v_shape cv = map (dname w) (v_shape v)).
    { intros vi v V. destruct (var_ids vi v V) as (nv & N1 & N2 & N3 & N4 & FS & ND & K). exists nv, (mkVar (vname w (v_name v)) (var_type w v) (map (dname w) (v_shape v)) "" None). split; [|split; [|split; [exact N1|split; [exact N2|split; [exact N4|split; [|reflexivity]]]]]].
      - apply (fnd_unique v_name (vars c) (mkVar (vname w (v_name v)) (var_type w v) (map (dname w) (v_shape v)) "" None) (c_vars _ CC)).
        rewrite R3. apply in_map_iff. exists v. split; [reflexivity|]. now apply nth_error_In in V.
      - unfold var_id. rewrite <- N3. exact (index_of_nth nv_name (nm_vars m) 0 vi nv D5 N1).
      - unfold has_unlimited. cbn [v_shape]. destruct u as [i|].
        + destruct F as (d & e & F0 & F1 & F2 & F3). rewrite F0.
          assert (UD : unlimited_dim c = Some (mkDim (d_name d) (ns_recs s' i) true)).
          { unfold unlimited_dim. pose proof F0 as F0'. unfold unlimited_dim in F0'. apply find_some in F0' as (_ & Ud). pose proof (R2 i d F3) as R2i. rewrite Ud, (KEEP d F0) in R2i. cbn [andb] in R2i.
            assert (FST : existsb d_unlim (firstn i (dims (w_cdm w))) = false).
            { destruct (existsb d_unlim (firstn i (dims (w_cdm w)))) eqn:EX; [|reflexivity]. exfalso. apply existsb_exists in EX as (d' & I' & U''). apply In_nth_error in I' as (j & I').
              assert (j < i). { assert (j < length (firstn i (dims (w_cdm w)))) by (apply nth_error_Some; congruence). rewrite firstn_length in H. lia. }
              assert (J : nth_error (dims (w_cdm w)) j = Some d') by (rewrite <- I'; apply nth_error_firstn'; assumption).
              destruct (Forall2_nth _ _ _ D1 _ _ J) as (e' & J1 & J2). apply nc_dim_ok in J2 as (_ & J2 & _). assert (j = i) by (eapply one_unlim; try eassumption; congruence). lia. }
            rewrite FST in R2i. cbn [negb] in R2i.
            assert (OTH : forall j d', nth_error (dims c) j = Some d' -> d_unlim d' = true -> j = i).
            { intros j d' J Ux. assert (exists d0, nth_error (dims (w_cdm w)) j = Some d0) as (d0 & J0).
              { destruct (nth_error (dims (w_cdm w)) j) eqn:Q; [eauto|]. apply nth_error_None in Q. assert (j < length (dims c)) by (apply nth_error_Some; congruence). lia. }
              pose proof (R2 j d0 J0) as Q. rewrite J in Q. injection Q as ->. cbn [d_unlim] in Ux. apply andb_prop in Ux as (Ux & _). destruct (Forall2_nth _ _ _ D1 _ _ J0) as (e' & J1 & J2). apply nc_dim_ok in J2 as (_ & J2 & _).
              eapply one_unlim; try eassumption. congruence. }
            revert R2i OTH. generalize (dims c). generalize (ns_recs s' i). clear. intros r0 l. revert i. induction l as [|x l IH]; intros [|i] E O; try discriminate; cbn in *.
            - now injection E as ->.
            - destruct (d_unlim x) eqn:Ux; [specialize (O 0 x eq_refl Ux); discriminate|]. apply (IH i E). intros j d' J Q. specialize (O (S j) d' J Q). lia. }
          rewrite UD. cbn [d_name]. apply eq_true_iff_eq. rewrite !existsb_exists. split.
          * intros (n & I & Q). apply String.eqb_eq in Q. subst n. apply in_map_iff in I as (n & Q & I). exists n. split; [exact I|]. apply String.eqb_eq.
            pose proof I as I'. apply in_rev in I'. apply In_nth_error in I' as (k & I'). destruct (Forall2_nth _ _ _ FS _ _ I') as (j & _ & e' & J1 & J2). rewrite <- J2.
            symmetry. apply (DN (d_name d) i d F3 eq_refl j e' J1). rewrite J2, Q. symmetry. now apply KEEP.
          * intros (n & I & Q). apply String.eqb_eq in Q. subst n. exists (d_name d). split; [|apply String.eqb_refl]. apply in_map_iff. exists (d_name d). split; [now apply KEEP|exact I].
        + destruct F as (F0 & F1). rewrite F0. assert (UD : unlimited_dim c = None).
          { unfold unlimited_dim. destruct (find d_unlim (dims c)) as [d'|] eqn:Q; [|reflexivity]. apply find_some in Q as (Q1 & Q2). apply In_nth_error in Q1 as (j & Q1).
            assert (exists d0, nth_error (dims (w_cdm w)) j = Some d0) as (d0 & J0).
            { destruct (nth_error (dims (w_cdm w)) j) eqn:Q; [eauto|]. apply nth_error_None in Q. assert (j < length (dims c)) by (apply nth_error_Some; congruence). lia. }
            pose proof (R2 j d0 J0) as Q. rewrite Q1 in Q. injection Q as ->. cbn [d_unlim] in Q2. apply andb_prop in Q2 as (Q2 & _). unfold unlimited_dim in F0. rewrite (find_none _ _ F0 d0 (nth_error_In _ _ J0)) in Q2. discriminate. }
          now rewrite UD. }
    split.
    - intros vi v fill V HU NE k. destruct (SL vi v V) as (nv & cv & S1 & S2 & S3 & S4 & S5 & S6 & S7). unfold nc_slice. rewrite S1, S2, S3, S6, HU. unfold record_box.
      destruct (var_ids vi v V) as (_ & _ & _ & _ & _ & _ & ND & K). rewrite S4, (lens_ok m s' _ K). cbn [obind fst snd]. rewrite S5.
      rewrite <- (W1 vi v None fill V HU NE). f_equal.
      + unfold bstart. apply map_ext. intro. now destruct u.
      + unfold whole, bcount. apply map_ext_in. intros i Ii. destruct (nth_error (nm_dims m) i) as [d|] eqn:Ed; [|reflexivity]. destruct (nd_unlim d) eqn:Ud; [|reflexivity]. exfalso.
        rewrite (hasu vi v u V U) in HU. destruct u as [j|]; [|destruct F as (_ & F); now rewrite (F _ _ Ed) in Ud]. destruct F as (d0 & e & _ & F1 & F2 & _).
        assert (i = j) by (eapply one_unlim; eassumption). subst. assert (existsb (Nat.eqb j) (ids_of vi) = true) by (apply existsb_exists; exists j; split; [exact Ii|apply Nat.eqb_refl]). congruence.
    - intros vi v k fill V HU LT NE. destruct (SL vi v V) as (nv & cv & S1 & S2 & S3 & S4 & S5 & S6 & S7). unfold nc_slice. rewrite S1, S2, S3, S6, HU. unfold record_box.
      destruct (var_ids vi v V) as (nv' & _ & _ & _ & _ & FS & ND & K). rewrite S4, (lens_ok m s' _ K). cbn [obind]. rewrite S5.
      destruct u as [i|]; [|rewrite (hasu vi v None V U) in HU; discriminate]. destruct F as (d & e & F0 & F1 & F2 & F3).
      assert (HD : exists r, ids_of vi = i :: r).
      { assert (I : In (d_name d) (v_shape v)). { unfold has_unlimited in HU. rewrite F0 in HU. apply existsb_exists in HU as (n & I & Q). apply String.eqb_eq in Q. now subst. }
        destruct (LAST v d (nth_error_In _ _ V) F0 I) as (sh & SH). rewrite SH, rev_app_distr in FS. cbn [rev app] in FS. inversion FS as [|? j ? r (d' & J1 & J2) J3]; subst. exists r. f_equal.
        pose proof (c_dims _ C) as NDD. unfold dnames in NDD. apply (proj1 (NoDup_nth_error _) NDD); [rewrite map_length; apply nth_error_Some; congruence|]. rewrite !nth_error_map, J1, F3. cbn. now rewrite J2. }
      destruct HD as (r & HD). rewrite <- (W1 vi v (Some k) fill V (conj HU LT) NE). rewrite HD in *. cbn [map whole bstart bcount]. rewrite F1, F2, Nat.eqb_refl. cbn [obind fst snd]. inversion ND as [|? ? N1 N2]; subst. f_equal; f_equal.
      + unfold bstart. apply map_ext_in. intros x Ix. destruct (Nat.eqb_spec x i); [congruence|reflexivity].
      + apply map_ext_in. intros x Ix. destruct (nth_error (nm_dims m) x) as [y|] eqn:Ey; [|reflexivity]. destruct (nd_unlim y) eqn:Uy; [|reflexivity]. exfalso. apply N1.
        assert (x = i) by (eapply one_unlim; eassumption). now subst.
  Qed.
End Jobs.

(** Finding: if the unlimited dimension is renamed, the writer looks for its old name in the file and fails after
    the definitions. *)
Theorem C84_renamed_unlimited_refuted read uc old w m js s d :
  unlimited_dim (w_cdm w) = Some d -> ~ In (d_name d) (map nd_name (nm_dims m)) -> write_jobs read uc old w m js s = Throw.
Proof.
  intros U N. unfold write_jobs, unlim_id. rewrite U. destruct (index_of nd_name (d_name d) 0 (nm_dims m)) as [i|] eqn:E; [|reflexivity].
  exfalso. apply N. apply index_of_some in E as (_ & x & E & <-). apply in_map. now apply nth_error_In in E.
Qed.

(** ** conversion *)

Section Convert.
  Variables (old : cdm) (w : writer) (uc : string -> string -> option (Qc -> value)) (v : cvar) (tin : dtype).
  Variables (oldF newF : value) (os oo ns no : Qc).
  Hypothesis FO : get_fill old (v_name v) = Ok oldF.
  Hypothesis SO : get_scale old (v_name v) = Ok (Some os).
  Hypothesis OO : get_offset old (v_name v) = Ok (Some oo).
  Hypothesis FN : get_fill (w_cdm w) (v_name v) = Ok newF.
  Hypothesis SN : get_scale (w_cdm w) (v_name v) = Ok (Some ns).
  Hypothesis ON : get_offset (w_cdm w) (v_name v) = Ok (Some no).
  Hypothesis TY : forall t, sfind (v_name v) (w_types w) = Some t -> t = v_type v.

  Lemma new_type : match sfind (v_name v) (w_types w) with Some t => t | None => v_type v end = v_type v.
  Proof. destruct (sfind (v_name v) (w_types w)) as [t|] eqn:E; [now apply TY|reflexivity]. Qed.

  (** Same units, fill value and packing: the data go through. *)
  Theorem C84_same_packing data : get_units old (v_name v) = get_units (w_cdm w) (v_name v) -> oldF <> None -> oldF = newF -> os = ns -> oo = no ->
    convert_data old w uc v tin data = Ok (tin, data).
  Proof.
    intros U NN -> -> ->. unfold convert_data. rewrite FO, SO, OO, FN, SN, ON, new_type, U. cbn [obind].
    rewrite dtype_eqb_refl, String.eqb_refl, !Qc_eq_bool_refl. assert (V : veqb newF newF = true) by (destruct newF as [x|]; [apply veqb_eq; eauto|congruence]). rewrite V. cbn [negb orb]. now rewrite andb_false_r.
  Qed.
  (** Other units or packing, into a floating point type: missing values become the new fill value, and the value
      meant by every other number is the one meant before, in the new units. *)
  Theorem C84_new_packing data g : v_type v = DFloat \/ v_type v = DDouble -> has_type tin oldF -> ns <> 0%Qc ->
    (if String.eqb (get_units old (v_name v)) (get_units (w_cdm w) (v_name v)) then (forall x, g x = Some x) else uc (get_units old (v_name v)) (get_units (w_cdm w) (v_name v)) = Some g) ->
    ~ (veqb oldF newF = true /\ os = ns /\ oo = no /\ get_units old (v_name v) = get_units (w_cdm w) (v_name v)) ->
    exists out, convert_data old w uc v tin data = Ok (v_type v, out) /\
      Forall2 (fun x y => (x = None \/ x = oldF -> y = newF) /\
                          (forall x0, x = Some x0 -> x <> oldF ->
                             match g (os * x0 + oo)%Qc with Some p => exists y0, y = Some y0 /\ (ns * y0 + no)%Qc = p | None => y = None end)) data out.
  Proof.
    intros FT HO NZ U CH. unfold convert_data. rewrite FO, SO, OO, FN, SN, ON, new_type. cbn [obind]. set (oU := get_units old (v_name v)) in *. set (nU := get_units (w_cdm w) (v_name v)) in *.
    assert (ND : dtype_eqb (v_type v) DNat = false) by (destruct FT as [->| ->]; reflexivity). rewrite ND. cbn [negb andb].
    assert (NZ' : Qc_eq_bool ns 0 = false). { destruct (Qc_eq_bool ns 0) eqn:E; [|reflexivity]. apply Qc_eq_bool_correct in E. contradiction. }
    assert (CAST : forall y, data_cast DDouble (v_type v) y = Ok y) by (intro; destruct FT as [->| ->]; reflexivity).
    assert (HN : static_cast (v_type v) newF = Ok newF) by (destruct FT as [->| ->]; reflexivity).
    assert (NUM : numeric (v_type v) = true) by (destruct FT as [->| ->]; reflexivity).
    assert (GEN : forall h : Qc -> value, (forall x0, match g (os * x0 + oo)%Qc with Some p => exists y0, h x0 = Some y0 /\ (ns * y0 + no)%Qc = p | None => h x0 = None end) ->
       exists out, omapM (fun x => match x with None => Ok newF | Some x0 => if veqb x oldF then Ok newF else Ok (h x0) end) data = Ok out /\
         Forall2 (fun x y => (x = None \/ x = oldF -> y = newF) /\
                          (forall x0, x = Some x0 -> x <> oldF ->
                             match g (os * x0 + oo)%Qc with Some p => exists y0, y = Some y0 /\ (ns * y0 + no)%Qc = p | None => y = None end)) data out).
    { intros h Hh. exists (map (fun x => match x with None => newF | Some x0 => if veqb x oldF then newF else h x0 end) data). split.
      - apply omapM_ok. induction data as [|x l IH]; constructor; [|exact IH]. destruct x as [x0|]; [|reflexivity]. now destruct (veqb (Some x0) oldF).
      - induction data as [|x l IH]; constructor; [|exact IH]. split.
        + intros [->| ->]; [reflexivity|]. destruct oldF as [z|]; [|reflexivity]. assert (V : veqb (Some z) (Some z) = true) by (apply veqb_eq; eauto). now rewrite V.
        + intros x0 -> NE. destruct (veqb (Some x0) oldF) eqn:V; [apply veqb_eq in V as (z & V1 & V2); congruence|]. apply Hh. }
    assert (EXT : forall F G : value -> outcome value, (forall x, F x = G x) -> omapM F data = omapM G data).
    { intros F G E. clear -E. induction data as [|x l IH]; [reflexivity|]. cbn [omapM]. now rewrite E, IH. }
    destruct (String.eqb_spec oU nU) as [EU|NU].
    - cbn [negb orb]. rewrite EU, String.eqb_refl, dtype_eqb_refl. cbn [negb orb].
      assert (NC : veqb oldF newF && Qc_eq_bool os ns && Qc_eq_bool oo no = false).
      { destruct (veqb oldF newF && Qc_eq_bool os ns && Qc_eq_bool oo no) eqn:E; [|reflexivity]. destruct CH. apply andb_prop in E as (E & E3). apply andb_prop in E as (E1 & E2). apply Qc_eq_bool_correct in E2, E3. auto. }
      replace (negb (veqb oldF newF) || negb (Qc_eq_bool os ns) || negb (Qc_eq_bool oo no)) with true by (destruct (veqb oldF newF), (Qc_eq_bool os ns), (Qc_eq_bool oo no); try reflexivity; discriminate).
      unfold convert_data_type. rewrite NC, NUM. unfold scale_array. rewrite (static_cast_id _ _ HO), HN, NZ'. cbn [obind].
      destruct (GEN (fun x0 => Some (os / ns * x0 + (oo - no) / ns)%Qc)) as (out & O1 & O2).
      { intro x0. rewrite U. eexists. split; [reflexivity|]. field. exact NZ. }
      match goal with |- context [omapM ?F data] => replace (omapM F data) with (Ok out : outcome (list value)); [exists out; split; [reflexivity|exact O2]|rewrite <- O1; apply EXT] end.
      intros [x0|]; [|reflexivity]. now rewrite CAST.
    - destruct (String.eqb_spec nU oU) as [E|_]; [congruence|]. cbn [negb]. rewrite orb_true_r. cbn [orb]. rewrite U, NUM. unfold scale_array_units. rewrite (static_cast_id _ _ HO), HN, NZ'. cbn [obind].
      destruct (GEN (fun x0 => match g (os * x0 + oo)%Qc with Some y => Some ((y - no) * (1 / ns))%Qc | None => None end)) as (out & O1 & O2).
      { intro x0. destruct (g (os * x0 + oo)%Qc) as [p|]; [|reflexivity]. eexists. split; [reflexivity|]. field. exact NZ. }
      match goal with |- context [omapM ?F data] => replace (omapM F data) with (Ok out : outcome (list value)); [exists out; split; [reflexivity|exact O2]|rewrite <- O1; apply EXT] end.
      intros [x0|]; [|reflexivity]. now rewrite CAST.
  Qed.
  (** Finding: if the old units cannot be converted to the configured ones, the data are written unconverted under the
      new units. *)
  Theorem C84_no_conversion_refuted data : get_units old (v_name v) <> get_units (w_cdm w) (v_name v) ->
    uc (get_units old (v_name v)) (get_units (w_cdm w) (v_name v)) = None -> convert_data old w uc v tin data = Ok (tin, data).
  Proof.
    intros U N. unfold convert_data. rewrite FO, SO, OO, FN, SN, ON. cbn [obind]. destruct (negb (dtype_eqb _ DNat) && _ && _); [|reflexivity].
    destruct (String.eqb_spec (get_units old (v_name v)) (get_units (w_cdm w) (v_name v))); [contradiction|]. now rewrite N.
  Qed.
End Convert.

(** In a configured writer the type given for a variable is its type. *)
Theorem C84_types k c w v t : configure k c = Ok w -> In v (vars (w_cdm w)) -> sfind (v_name v) (w_types w) = Some t -> t = v_type v.
Proof.
  intros E I S. apply C83_retyped in E as (_ & E1 & E2). rewrite E1 in S. rewrite E2 in I. apply in_map_iff in I as (v0 & <- & _).
  destruct (last_of (k_vtypes k) (v_name v0)) eqn:L; cbn [v_name v_type] in *; congruence.
Qed.

(** ** examples *)

Definition ex_read (n : string) (pos : option N) : outcome (option (dtype * list value)) :=
  match pos with
  | None => Ok (Some (DFloat, [q 1; q 2]))
  | Some k => if String.eqb n "t" then Ok (Some (DDouble, [q (Z.of_N k); q 9])) else Ok (Some (DInt, [q (Z.of_N k * 6)]))
  end.
Definition ex_old : cdm :=
  mkCdm [mkVar "t" DDouble ["x"; "time"] "" None; mkVar "time" DInt ["time"] "" None; mkVar "lat" DFloat ["x"] "" None]
        [mkDim "time" 2 true; mkDim "x" 2 false] [("t", [mkAttr "_FillValue" DDouble [q 9] ""; txt "units" "celsius"])].
Definition ex_k : wconf :=
  mkConf [] [] [] [] true [("lat", "latitude")] [("t", DFloat)] 13 [] [] []
         [mkEdit "t" "_FillValue" "" (Some (DFloat, [q 7], "")); mkEdit "t" "units" "" (Some (DString, [], "K"))].
Definition ex_uc (a b : string) : option (Qc -> value) := if String.eqb a "celsius" && String.eqb b "K" then Some (fun x => Some (x + z2q 273)%Qc) else None.

(** A variable with new type, units and fill value, one renamed, one as it is: written and read back. *)
Example C84_nonvacuous :
  exists m s c, write_file ex_read ex_uc Nc4 ex_k ex_old = Ok (m, s) /\ read_file m s = Ok c /\
    nc_slice m s None c "t" 0 = Ok [q 273; q 7] /\ nc_slice m s None c "t" 1 = Ok [q 274; q 7] /\
    nc_slice m s None c "time" 1 = Ok [q 6] /\ nc_slice m s None c "latitude" 0 = Ok [q 1; q 2] /\ map d_len (dims c) = [2; 2]%N.
Proof.
  destruct (write_file ex_read ex_uc Nc4 ex_k ex_old) as [(m, s)| | |] eqn:E; try (vm_compute in E; discriminate).
  vm_compute in E. injection E as <- <-. eexists. eexists. eexists. split; [reflexivity|]. split; [vm_compute; reflexivity|]. vm_compute. repeat split.
Qed.
(** Finding: data on a second unlimited dimension are lost, since its length is 0 while they are written. *)
Theorem C84_second_unlimited_refuted :
  exists w m s, configure no_conf (mkCdm [mkVar "e" DInt ["m"] "" None; mkVar "time" DInt ["time"] "" None] [mkDim "time" 1 true; mkDim "m" 3 true] []) = Ok w /\
    define Nc4 w = Ok m /\
    write_data (fun n _ => Ok (Some (DInt, if String.eqb n "e" then [q 1; q 2; q 3] else [q 5]))) ex_uc (w_cdm w) w m new_file = Ok s /\
    ns_recs s 0 = 1%N /\ ns_recs s 1 = 0%N /\ ns_cell s 1 [0%N] = Some (q 5) /\ ns_cell s 0 [0%N] = None.
Proof. eexists. eexists. eexists. split; [vm_compute; reflexivity|]. split; [vm_compute; reflexivity|]. split; [vm_compute; reflexivity|]. vm_compute. repeat split. Qed.
(** Finding: a scalar without a type is defined as an int, but its data are never written. *)
Theorem C84_untyped_scalar_refuted :
  exists w m s, configure no_conf (mkCdm [mkVar "p" DNat [] "" None] [] []) = Ok w /\ define Nc4 w = Ok m /\ map nv_type (nm_vars m) = [NcInt] /\
    write_data (fun _ _ => Ok (Some (DInt, [q 5]))) ex_uc (w_cdm w) w m new_file = Ok s /\ ns_cell s 0 [] = None.
Proof. eexists. eexists. eexists. split; [vm_compute; reflexivity|]. split; [vm_compute; reflexivity|]. split; [reflexivity|]. split; vm_compute; reflexivity. Qed.

Print Assumptions C84_wrong_size_refuted.
Print Assumptions C84_written.
Print Assumptions C84_read_back.
Print Assumptions C84_renamed_unlimited_refuted.
Print Assumptions C84_same_packing.
Print Assumptions C84_new_packing.
Print Assumptions C84_no_conversion_refuted.
Print Assumptions C84_types.
Print Assumptions C84_second_unlimited_refuted.
Print Assumptions C84_untyped_scalar_refuted.
