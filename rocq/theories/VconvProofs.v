(** Proofs for VconvModel: what [convert] computes. *)
From Coq Require Import String List Arith NArith ZArith Bool Lia.
From Coq Require Import ZifyBool ZifyNat.
From Verif Require Import Base IndexSpec SliceModel SliceProofs LoopModel LoopProofs LoopProps LoopInv VconvModel.
Import ListNotations.
Local Open Scope string_scope.
Local Open Scope list_scope.
Local Open Scope nat_scope.

Lemma lower_inv n g l : inv g l -> inv (lower n g) l.
Proof.
  intros (A & B & C & D & E & F). unfold inv, lower. cbn [g_names g_lens g_arrays g_shared].
  split; [ exact A | ]. split; [ exact B | ]. split; [ exact C | ]. split; [ exact D | ]. split; [ | exact F ].
  intros am d I H. apply below_min in H. now apply E.
Qed.

(** ** the requested part by dimension *)
Definition start_of (rq : request) (d : string) : nat := match asked d rq with Some (s, _) => s | None => 0 end.
Definition size_of (len : string -> nat) (rq : request) (d : string) : nat := match asked d rq with Some (_, z) => z | None => len d end.
(** the position in dimension [d] of the cell [t] of the request, relative and absolute *)
Fixpoint rel_dim (d : string) (rq : request) (t : list nat) : nat :=
  match rq, t with (n, _) :: rq', i :: t' => if String.eqb d n then i else rel_dim d rq' t' | _, _ => 0 end.
Fixpoint at_dim (d : string) (rq : request) (t : list nat) : nat :=
  match rq, t with (n, (s, _)) :: rq', i :: t' => if String.eqb d n then s + i else at_dim d rq' t' | _, _ => 0 end.
Definition sizes (rq : request) : list nat := map (fun r => snd (snd r)) rq.

Lemma asked_in d rq : (exists r, asked d rq = Some r /\ In (d, r) rq) \/ (asked d rq = None /\ ~ In d (map fst rq)).
Proof.
  induction rq as [ | [ n r ] rq IH ]; cbn; [ right; tauto | ].
  destruct (String.eqb_spec d n) as [ -> | N ]; [ left; eauto | ].
  destruct IH as [ (x & A & B) | [ A B ] ]; [ left; eauto | right; split; [ exact A | intros [ H | H ]; [ congruence | contradiction ] ] ].
Qed.
Lemma at_rel d rq : forall t, List.length t = List.length rq -> at_dim d rq t = start_of rq d + rel_dim d rq t.
Proof.
  unfold start_of. induction rq as [ | [ n [ s z ] ] rq IH ]; intros [ | i t ] L; cbn in *; try discriminate; [ reflexivity | ].
  destruct (String.eqb d n); [ reflexivity | ]. apply IH. lia.
Qed.
Lemma rel_out d rq : forall t, ~ In d (map fst rq) -> rel_dim d rq t = 0.
Proof.
  induction rq as [ | [ n r ] rq IH ]; intros [ | i t ] N; cbn in *; auto.
  destruct (String.eqb_spec d n) as [ -> | M ]; [ tauto | ]. apply IH. tauto.
Qed.
Lemma rel_map (G : string -> nat) d rq : In d (map fst rq) -> rel_dim d rq (map G (map fst rq)) = G d.
Proof.
  induction rq as [ | [ n r ] rq IH ]; cbn; [ tauto | ]. intros [ -> | I ].
  - now rewrite String.eqb_refl.
  - destruct (String.eqb_spec d n) as [ -> | M ]; [ reflexivity | auto ].
Qed.
Lemma size_sizes len rq : NoDup (map fst rq) -> map (size_of len rq) (map fst rq) = sizes rq.
Proof.
  unfold size_of, sizes. induction rq as [ | [ n [ s z ] ] rq IH ]; intro ND; [ reflexivity | ]. cbn in ND. inversion ND as [ | ? ? N1 N2 ]; subst.
  cbn [map fst snd asked]. rewrite String.eqb_refl. f_equal. rewrite <- (IH N2). apply map_ext_in. intros d I.
  destruct (String.eqb_spec d n) as [ -> | ]; [ contradiction | reflexivity ].
Qed.
Lemma rel_lt len rq d t : NoDup (map fst rq) -> inside (sizes rq) t -> In d (map fst rq) -> rel_dim d rq t < size_of len rq d.
Proof.
  unfold size_of, sizes, inside. revert t. induction rq as [ | [ n [ s z ] ] rq IH ]; intros t ND I H; [ destruct H | ].
  cbn in *. inversion I as [ | ? i ? t' Hi It ]; subst. inversion ND as [ | ? ? N1 N2 ]; subst.
  destruct (String.eqb_spec d n) as [ -> | M ]; [ exact Hi | ]. apply IH; auto. destruct H; [ congruence | assumption ].
Qed.

Section Convert.
  Context {V : Type}.
  Variable len : string -> nat.
  Variable rq : request.

  (** the request lies inside of the dimensions *)
  Definition sound : Prop :=
    NoDup (map fst rq) /\
    (forall d s z, In (d, (s, z)) rq -> 0 < z /\ s + z <= len d /\ (Z.of_nat z <= 2 ^ 31)%Z) /\
    (Z.of_nat (cells (sizes rq)) < W64)%Z.
  (** a variable of the file: its dimensions have the lengths [len], the data are complete, and a
      dimension that the request does not know has length 1 *)
  Definition stored (v : var V) (data : list V) : Prop :=
    NoDup (v_names v) /\ v_dims v = map len (v_names v) /\ v_data v = Some data /\ List.length data = cells (v_dims v) /\
    (Z.of_nat (List.length data) < W64)%Z /\ (forall d, In d (v_names v) -> In d (map fst rq) \/ len d = 1).
  (** its value in the cell [t] of the request *)
  Definition value_of (v : var V) (t : list nat) : option V :=
    match v_data v with
    | Some data => nth_error data (lin (v_dims v) (map (fun d => at_dim d rq t) (v_names v)))
    | None => None
    end.

  Hypothesis SO : sound.

  Lemma size_pos d : In d (map fst rq) \/ len d = 1 -> 0 < size_of len rq d /\ (Z.of_nat (size_of len rq d) <= 2 ^ 31)%Z /\ start_of rq d + size_of len rq d <= len d.
  Proof.
    destruct SO as (ND & B & _). unfold size_of, start_of. destruct (asked_in d rq) as [ ([ s z ] & E & I) | [ E N ] ]; rewrite E.
    - intros _. destruct (B d s z I) as (X & Y & Z). cbn. auto.
    - intros [ H | H ]; [ contradiction | ]. rewrite H. repeat split; lia.
  Qed.

  Lemma parts_ok (names : list string) : (forall d, In d names -> In d (map fst rq) \/ len d = 1) ->
    omapM (part_of rq) (combine names (map len names)) = Ok (map (fun d => (start_of rq d, size_of len rq d)) names).
  Proof.
    induction names as [ | d names IH ]; intro H; [ reflexivity | ]. cbn [map combine omapM].
    assert (P := size_pos d (H d (or_introl eq_refl))). rewrite IH by (intros; apply H; now right).
    unfold part_of at 1. unfold start_of, size_of in *. cbn [fst snd]. destruct (asked d rq) as [ [ s z ] | ]; cbn [obind].
    - destruct (Nat.ltb_spec (len d) (s + z)); [ lia | reflexivity ].
    - reflexivity.
  Qed.

  Lemma shift_map (f h : string -> nat) l : shift (map f l) (map h l) = map (fun d => f d + h d) l.
  Proof. induction l; cbn; [ reflexivity | now f_equal ]. Qed.
  Lemma inside_map (f h : string -> nat) l : (forall d, In d l -> h d < f d) -> inside (map f l) (map h l).
  Proof. intro H. unfold inside. induction l as [ | d l IH ]; cbn; constructor; [ apply H; now left | apply IH; intros; apply H; now right ]. Qed.
  Lemma cells_ge l d : In d l -> (forall x, In x l -> 0 < x) -> d <= cells l.
  Proof.
    induction l as [ | x l IH ]; intros I P; [ destruct I | ]. cbn. assert (0 < x) by (apply P; now left).
    assert (0 < cells l) by (apply cells_pos; intros; apply P; now right).
    destruct I as [ -> | I ]; [ nia | ]. assert (d <= cells l) by (apply IH; auto; intros; apply P; now right). nia.
  Qed.

  (** reading a variable *)
  Lemma read_ok v data : stored v data ->
    exists part, read_var rq v = Ok {| i_names := v_names v; i_lens := map (size_of len rq) (v_names v); i_vals := Some part |} /\
      List.length part = cells (map (size_of len rq) (v_names v)) /\
      forall t, inside (sizes rq) t ->
        nth_error part (lin (map (size_of len rq) (v_names v)) (map (fun d => rel_dim d rq t) (v_names v))) = value_of v t /\
        inside (map (size_of len rq) (v_names v)) (map (fun d => rel_dim d rq t) (v_names v)).
  Proof.
    intros (ND & Ed & Ev & Ln & Lt & Cov). unfold read_var. rewrite Ed, parts_ok by exact Cov. cbn [obind]. rewrite Ev, !map_map. cbn [fst snd].
    assert (PosL : forall x, In x (map len (v_names v)) -> 0 < x).
    { intros x I. apply in_map_iff in I. destruct I as (d & <- & I). assert (P := size_pos d (Cov d I)). lia. }
    destruct (slice_ok data (v_dims v) (map (start_of rq) (v_names v)) (map (size_of len rq) (v_names v))) as (part & E & B).
    - rewrite Ed. unfold fits. rewrite !map_length. split; [ reflexivity | ]. split; [ reflexivity | ].
      intros k dd s z. rewrite !nth_error_map. destruct (nth_error (v_names v) k) as [ d | ] eqn:Ek; cbn; try discriminate.
      intros Q1 Q2 Q3. injection Q1 as <-. injection Q2 as <-. injection Q3 as <-.
      apply nth_error_In in Ek. assert (P := size_pos d (Cov d Ek)). lia.
    - now symmetry.
    - unfold M64. unfold W64 in Lt. lia.
    - intros k dd Hk. apply nth_error_In in Hk. assert (dd <= cells (v_dims v)) by (apply cells_ge; [ exact Hk | rewrite Ed; exact PosL ]).
      unfold M64. unfold W64 in Lt. lia.
    - rewrite Ed, !map_map in E. rewrite E. cbn [obind]. exists part. split; [ reflexivity | ]. destruct B as (B1 & B2). split; [ exact B1 | ].
      intros t It. assert (Ins : inside (map (size_of len rq) (v_names v)) (map (fun d => rel_dim d rq t) (v_names v))).
      { apply inside_map. intros d I. destruct (asked_in d rq) as [ (r & _ & Ir) | [ _ N ] ].
        - apply rel_lt; auto; [ apply SO | ]. apply in_map_iff. exists (d, r). auto.
        - rewrite rel_out by exact N. assert (P := size_pos d (Cov d I)). lia. }
      split; [ | exact Ins ]. rewrite B2 by exact Ins. unfold value_of. rewrite Ev. f_equal. f_equal. rewrite shift_map. apply map_ext. intro d.
      symmetry. apply at_rel. rewrite <- (inside_length _ _ It). unfold sizes. now rewrite map_length.
  Qed.

  (** ** the group *)
  Definition shaped (names : list string) (a : adims) : Prop :=
    wf a /\ a_names a = names /\ a_lens a = map (size_of len rq) names /\ a_shared a = map (fun _ => true) names.
  Lemma dims_shaped names : NoDup names -> (forall d, In d names -> In d (map fst rq) \/ len d = 1) ->
    exists a, make_dims names (map (size_of len rq) names) = Ok a /\ shaped names a.
  Proof.
    intros ND Cov. assert (Pos : forall l, In l (map (size_of len rq) names) -> l > 0).
    { intros l I. apply in_map_iff in I. destruct I as (d & <- & I). assert (P := size_pos d (Cov d I)). lia. }
    assert (St : forall rest d prev, (forall l, In l (prev :: rest) -> l > 0) -> exists r, strides d prev rest = Ok r).
    { clear. induction rest as [ | l rest IH ]; intros d prev P; cbn; [ eauto | ].
      destruct (Nat.eqb_spec prev 0) as [ Z | ]; [ exfalso; assert (prev > 0) by (apply P; now left); lia | ].
      destruct (IH (d * prev) l) as (r & Er); [ intros; apply P; now right | ]. rewrite Er. cbn. eauto. }
    assert (Ex : exists a, make_dims names (map (size_of len rq) names) = Ok a).
    { unfold make_dims. rewrite map_length, Nat.eqb_refl. cbn [negb]. destruct (map (size_of len rq) names) as [ | l rest ]; [ eauto | ].
      destruct (Nat.eqb_spec l 0) as [ Z | ]; [ exfalso; assert (l > 0) by (apply Pos; now left); lia | ].
      destruct (St rest 1 l Pos) as (r & Er). rewrite Er. cbn. eauto. }
    destruct Ex as (a & E). exists a. split; [ exact E | ]. destruct (C35_make_dims _ _ _ ND Pos E) as (W & N1 & L1). split; [ exact W | ]. split; [ exact N1 | ]. split; [ exact L1 | ].
    unfold make_dims in E. rewrite map_length, Nat.eqb_refl in E. cbn [negb] in E. destruct names as [ | d names ]; [ cbn in E; injection E as <-; reflexivity | ].
    cbn [map] in E. destruct (size_of len rq d =? 0); [ discriminate | ]. destruct (strides _ _ _); cbn [obind] in E; try discriminate. injection E as <-. cbn [a_shared map].
    f_equal. now rewrite map_map.
  Qed.

  Section WithGroup.
    Variables (nls : list (list string)) (arrays : list adims) (g : group).
    Hypothesis SH : Forall2 shaped nls arrays.
    Hypothesis IV : inv g arrays.
    Hypothesis COV : forall names d, In names nls -> In d names -> In d (map fst rq) \/ len d = 1.

    (** the value of the group's tuple [u] in the dimension [d] *)
    Definition gdim (u : list nat) (d : string) : nat := match index_of d (g_names g) with Some i => nth i u 0 | None => 0 end.

    Lemma map_nth_seq {A B} (f : A -> B) (l : list A) d : map f l = map (fun j => f (nth j l d)) (seq 0 (List.length l)).
    Proof.
      induction l as [ | x l IH ]; [ reflexivity | ]. cbn [List.length seq map nth]. f_equal. rewrite <- seq_shift, map_map. exact IH.
    Qed.
    Lemma sub_shaped names a u : shaped names a -> sub (g_names g) u a = map (gdim u) names.
    Proof.
      intros (W & N1 & L1 & S1). unfold sub. rewrite (map_nth_seq (gdim u) names ""). unfold rank. rewrite L1, map_length.
      apply map_ext_in. intros j Hj. apply in_seq in Hj. rewrite S1, N1.
      rewrite (nth_indep _ false true) by (rewrite map_length; lia). rewrite (map_nth (fun _ : string => true) names "" j). reflexivity.
    Qed.
    Lemma array_shaped a : In a arrays -> exists names, In names nls /\ shaped names a.
    Proof.
      clear IV COV. induction SH as [ | n b nl al Hs HF IH ]; intro I; [ destruct I | ]. destruct I as [ <- | I ]; [ exists n; split; [ now left | exact Hs ] | ].
      destruct (IH HF I) as (n' & A & B). exists n'. split; [ now right | exact B ].
    Qed.
    Lemma glens : g_lens g = map (size_of len rq) (g_names g).
    Proof.
      destruct IV as (D & Ll & Dn & Ar & Sh & Fr).
      apply nth_error_ext. intro i. rewrite nth_error_map. destruct (nth_error (g_names g) i) as [ d | ] eqn:Ei; cbn.
      - assert (Hi : i < List.length (g_names g)) by (apply nth_error_Some; congruence).
        destruct (Fr i) as (b & k & Ib & Hk & _ & En & El); [ lia | ]. destruct (array_shaped b Ib) as (names & _ & W & N1 & L1 & S1).
        rewrite (nth_error_nth' (g_lens g) 0) by lia. rewrite <- El, L1. f_equal. unfold rank in Hk. rewrite L1, map_length in Hk.
        rewrite (nth_indep _ 0 (size_of len rq "")) by (rewrite map_length; exact Hk). rewrite map_nth. f_equal.
        rewrite N1 in En. rewrite En. erewrite nth_error_nth by exact Ei. reflexivity.
      - apply nth_error_None in Ei. apply nth_error_None. lia.
    Qed.
    Lemma gname_cov d : In d (g_names g) -> In d (map fst rq) \/ len d = 1.
    Proof.
      intro I. destruct IV as (D & Ll & Dn & Ar & Sh & Fr). apply (In_nth _ _ "") in I. destruct I as (i & Hi & <-).
      destruct (Fr i) as (b & k & Ib & Hk & _ & En & El); [ lia | ]. destruct (array_shaped b Ib) as (names & In1 & W & N1 & L1 & S1).
      rewrite <- En, N1. apply (COV names); [ exact In1 | ]. apply nth_In. unfold rank in Hk. rewrite L1, map_length in Hk. exact Hk.
    Qed.
    Lemma glens_bound l : In l (g_lens g) -> 0 < l /\ (Z.of_nat l <= 2 ^ 31)%Z.
    Proof. rewrite glens. intro I. apply in_map_iff in I. destruct I as (d & <- & I). assert (P := size_pos d (gname_cov d I)). lia. Qed.

    (** every tuple of the group belongs to the cell of the request with the same values *)
    Definition cell_of (u : list nat) : list nat := map (gdim u) (map fst rq).
    Lemma gdim_lt u d : inside (g_lens g) u -> In d (g_names g) -> gdim u d < size_of len rq d.
    Proof.
      intros Iu I. unfold gdim. destruct (index_of d (g_names g)) as [ i | ] eqn:E; [ | exfalso; apply (index_of_none _ _ E); exact I ].
      apply index_of_some in E. destruct E as (Hi & En). rewrite glens in Iu. assert (L := inside_length _ _ Iu). rewrite map_length in L.
      assert (Q : forall l t k, inside l t -> k < List.length l -> nth k t 0 < nth k l 0).
      { clear. intros l t k H. revert k. induction H as [ | x y l t Hxy HF IH ]; intros k Hk; cbn in *; [ lia | ]. destruct k; [ exact Hxy | apply IH; lia ]. }
      specialize (Q _ _ i Iu). rewrite map_length in Q. specialize (Q Hi).
      rewrite (nth_indep (map (size_of len rq) (g_names g)) 0 (size_of len rq "")) in Q by (rewrite map_length; exact Hi). rewrite map_nth, En in Q. exact Q.
    Qed.
    Lemma any_names names d : In names nls -> In d names -> In d (g_names g).
    Proof.
      intros On I. assert (Ex : exists a, In a arrays /\ shaped names a).
      { clear IV COV. induction SH as [ | n b nl al Hs HF IH ]; [ destruct On | ]. destruct On as [ -> | O ]; [ exists b; split; [ now left | exact Hs ] | ].
        destruct (IH HF O) as (a & A & B). exists a. split; [ now right | exact B ]. }
      destruct Ex as (a & Ia & W & N1 & L1 & S1). destruct IV as (D & Ll & Dn & Ar & Sh & Fr). rewrite <- Dn in Ia. apply in_map_iff in Ia. destruct Ia as ([ a' m ] & Ea & Im). cbn in Ea. subst a'.
      destruct (Ar _ Im) as (M1 & M2 & M3). cbn [fst snd] in *. apply (In_nth _ _ "") in I. destruct I as (j & Hj & Ej).
      assert (Hj' : j < rank a) by (unfold rank; rewrite L1, map_length; exact Hj).
      destruct (M3 j Hj') as (i & Ei). { rewrite S1. rewrite (nth_indep _ false true) by (rewrite map_length; exact Hj). exact (map_nth (fun _ => true) names "" j). }
      destruct (M2 i j Ei) as (X1 & X2 & X3 & X4 & X5). rewrite N1, Ej in X4. rewrite X4. now apply nth_In.
    Qed.
    Hypothesis OUT : In (map fst rq) nls.
    Lemma out_names d : In d (map fst rq) -> In d (g_names g).
    Proof. now apply any_names. Qed.
    Lemma cell_inside u : inside (g_lens g) u -> inside (sizes rq) (cell_of u).
    Proof.
      intro Iu. rewrite <- (size_sizes len rq) by apply SO. unfold cell_of. apply inside_map. intros d I. apply gdim_lt; [ exact Iu | now apply out_names ].
    Qed.
    Lemma gdim_rel u d names : inside (g_lens g) u -> In names nls -> In d names -> gdim u d = rel_dim d rq (cell_of u).
    Proof.
      intros Iu In1 Id. destruct (in_dec string_dec d (map fst rq)) as [ I | N ].
      - unfold cell_of. now rewrite rel_map.
      - rewrite rel_out by exact N. destruct (COV names d In1 Id) as [ | L1 ]; [ contradiction | ].
        unfold gdim at 1. destruct (index_of d (g_names g)) as [ i | ] eqn:E; [ | reflexivity ].
        assert (Ig : In d (g_names g)) by (apply index_of_some in E; destruct E as (Hi & <-); now apply nth_In).
        assert (Q := gdim_lt u d Iu Ig). unfold gdim in Q. rewrite E in Q. unfold size_of in Q.
        destruct (asked_in d rq) as [ (r & _ & Ir) | [ E2 _ ] ]; [ exfalso; apply N; apply in_map_iff; exists (d, r); auto | ]. rewrite E2 in Q. lia.
    Qed.
    (** and every cell of the request has a tuple *)
    Lemma cell_has t : inside (sizes rq) t -> exists u, inside (g_lens g) u /\ cell_of u = t.
    Proof.
      intro It. set (u := map (fun d => rel_dim d rq t) (g_names g)).
      assert (Lt : List.length t = List.length rq) by (rewrite <- (inside_length _ _ It); unfold sizes; apply map_length).
      assert (Gu : forall d, In d (g_names g) -> gdim u d = rel_dim d rq t).
      { intros d I. unfold gdim. destruct (index_of d (g_names g)) as [ i | ] eqn:E; [ | exfalso; apply (index_of_none _ _ E); exact I ].
        apply index_of_some in E. destruct E as (Hi & En). unfold u. rewrite (nth_indep _ 0 (rel_dim "" rq t)) by (rewrite map_length; exact Hi).
        rewrite (map_nth (fun d => rel_dim d rq t)), En. reflexivity. }
      exists u. split.
      - rewrite glens. unfold u. apply inside_map. intros d I. destruct (in_dec string_dec d (map fst rq)) as [ J | N ].
        + apply rel_lt; auto. apply SO.
        + rewrite rel_out by exact N. assert (P := size_pos d (gname_cov d I)). lia.
      - unfold cell_of. transitivity (map (fun d => rel_dim d rq t) (map fst rq)).
        + apply map_ext_in. intros d I. apply Gu. now apply out_names.
        + destruct SO as (ND & _). clear - ND Lt. revert t Lt. induction rq as [ | [ n r ] q IH ]; intros [ | i t ] Lt; cbn in *; try discriminate; [ reflexivity | ].
          rewrite String.eqb_refl. inversion ND as [ | ? ? N1 N2 ]; subst. f_equal. transitivity (map (fun d => rel_dim d q t) (map fst q)); [ | apply IH; [ exact N2 | lia ] ]. apply map_ext_in. intros d I.
          destruct (String.eqb_spec d n) as [ -> | ]; [ contradiction | reflexivity ].
    Qed.
    (** the position in a variable of the tuple *)
    Lemma sub_rel names a u : shaped names a -> In names nls -> inside (g_lens g) u ->
      lin (a_lens a) (sub (g_names g) u a) = lin (map (size_of len rq) names) (map (fun d => rel_dim d rq (cell_of u)) names).
    Proof.
      intros S In1 Iu. rewrite (sub_shaped names a u S). destruct S as (_ & _ & L1 & _). rewrite L1. f_equal.
      apply map_ext_in. intros d I. now apply (gdim_rel u d names).
    Qed.
  End WithGroup.

  (** ** the loop *)
  Lemma turn_ok (f : list V -> V) sv ins at_out (Y : nat -> option V) n idx po :
    nth_error idx at_out = Some po ->
    (forall j, j < sv -> exists vs, omapM (fun x => value_at x j) (combine ins (firstn at_out idx ++ skipn (at_out + 1) idx)) = Ok vs /\
       Z.to_nat po + j < n /\ Y (Z.to_nat po + j) = Some (f vs)) ->
    forall out, List.length out = n ->
    exists out', turn f sv ins at_out out idx = Ok out' /\ List.length out' = n /\
      (forall p, nth_error out p = Some (Y p) -> nth_error out' p = Some (Y p)) /\
      (forall j, j < sv -> nth_error out' (Z.to_nat po + j) = Some (Y (Z.to_nat po + j))).
  Proof.
    intros Hp H out Lo. unfold turn. rewrite Hp. cbn [rd obind].
    assert (Q : forall m s o, List.length o = n -> (forall j, s <= j < s + m -> j < sv) ->
      exists out', ofold (fun o j => do vs <- omapM (fun x => value_at x j) (combine ins (firstn at_out idx ++ skipn (at_out + 1) idx));
                                   wr o (Z.to_nat po + j) (Some (f vs))) (seq s m) o = Ok out' /\ List.length out' = n /\
        (forall p, nth_error o p = Some (Y p) -> nth_error out' p = Some (Y p)) /\
        (forall j, s <= j < s + m -> nth_error out' (Z.to_nat po + j) = Some (Y (Z.to_nat po + j)))).
    { induction m as [ | m IH ]; intros s o Ln Hj; cbn [seq ofold]; [ exists o; repeat split; auto; intros; lia | ].
      destruct (H s) as (vs & Ev & Lt & Ey); [ apply Hj; lia | ]. rewrite Ev. cbn [obind]. unfold wr at 1.
      destruct (Nat.ltb_spec (Z.to_nat po + s) (List.length o)) as [ _ | ]; [ | lia ]. cbn [obind].
      destruct (IH (S s) (upd o (Z.to_nat po + s) (Some (f vs)))) as (o' & E' & L' & K' & W'); [ now rewrite length_upd | intros; apply Hj; lia | ].
      exists o'. split; [ exact E' | ]. split; [ exact L' | ].
      assert (K0 : forall p, nth_error o p = Some (Y p) \/ p = Z.to_nat po + s -> nth_error o' p = Some (Y p)).
      { intros p Hq. apply K'. rewrite nth_error_upd. destruct (Nat.eqb_spec p (Z.to_nat po + s)) as [ Eq | Ne ].
        - destruct (_ && _) eqn:B; [ rewrite Eq; congruence | exfalso; lia ].
        - destruct (_ && _) eqn:B; [ exfalso; lia | ]. destruct Hq; [ assumption | contradiction ]. }
      split; [ intros; apply K0; now left | ]. intros j Hjj. destruct (Nat.eq_dec j s) as [ -> | ]; [ apply K0; now right | apply W'; lia ]. }
    destruct (Q sv 0 out Lo) as (o' & E & L & K & W); [ intros; lia | ]. exists o'. split; [ exact E | ]. split; [ exact L | ]. split; [ exact K | ].
    intros j Hj. apply W. lia.
  Qed.

  Lemma turns_ok (f : list V -> V) sv ins at_out (Y : nat -> option V) n r :
    (forall idx, In idx r -> exists po, nth_error idx at_out = Some po /\
       forall j, j < sv -> exists vs, omapM (fun x => value_at x j) (combine ins (firstn at_out idx ++ skipn (at_out + 1) idx)) = Ok vs /\
         Z.to_nat po + j < n /\ Y (Z.to_nat po + j) = Some (f vs)) ->
    forall out, List.length out = n ->
    exists out', ofold (turn f sv ins at_out) r out = Ok out' /\ List.length out' = n /\
      (forall p, nth_error out p = Some (Y p) -> nth_error out' p = Some (Y p)) /\
      (forall idx po j, In idx r -> nth_error idx at_out = Some po -> j < sv -> nth_error out' (Z.to_nat po + j) = Some (Y (Z.to_nat po + j))).
  Proof.
    induction r as [ | idx r IH ]; intros H out Lo; cbn [ofold]; [ exists out; repeat split; auto; intros; contradiction | ].
    destruct (H idx (or_introl eq_refl)) as (po & Hp & Hj). destruct (turn_ok f sv ins at_out Y n idx po Hp Hj out Lo) as (o1 & E1 & L1 & K1 & W1).
    rewrite E1. cbn [obind]. destruct (IH (fun i I => H i (or_intror I)) o1 L1) as (o2 & E2 & L2 & K2 & W2). exists o2. split; [ exact E2 | ]. split; [ exact L2 | ].
    split; [ intros; now apply K2, K1 | ]. intros idx' po' j I Hp' Hj'. destruct I as [ <- | I ]; [ | now apply (W2 idx') ].
    apply K2. assert (po' = po) by congruence. subst po'. now apply W1.
  Qed.

  Lemma omapM_each {A B} (f : A -> outcome B) (P : A -> B -> Prop) l : (forall x, In x l -> exists y, f x = Ok y /\ P x y) ->
    exists ys, omapM f l = Ok ys /\ Forall2 P l ys.
  Proof.
    induction l as [ | x l IH ]; intro H; [ exists []; split; [ reflexivity | constructor ] | ].
    destruct (H x (or_introl eq_refl)) as (y & E & Py). destruct (IH (fun z I => H z (or_intror I))) as (ys & Es & Ps).
    exists (y :: ys). cbn. rewrite E. cbn. rewrite Es. cbn. split; [ reflexivity | now constructor ].
  Qed.

  Lemma omapM_same {A B C} (f : A -> outcome C) (h : B -> outcome C) l1 l2 : Forall2 (fun a b => f a = h b) l1 l2 -> omapM f l1 = omapM h l2.
  Proof. induction 1 as [ | a b l1 l2 E HF IH ]; cbn; [ reflexivity | now rewrite E, IH ]. Qed.
  Lemma Forall2_nth_intro {A B} (P : A -> B -> Prop) l1 : forall l2, List.length l1 = List.length l2 ->
    (forall s x y, nth_error l1 s = Some x -> nth_error l2 s = Some y -> P x y) -> Forall2 P l1 l2.
  Proof.
    induction l1 as [ | x l1 IH ]; intros [ | y l2 ] L H; try discriminate; constructor; [ now apply (H 0) | ].
    apply IH; [ cbn in L; lia | ]. intros s a b Ha Hb. now apply (H (S s)).
  Qed.
  Lemma Forall2_nth_elim {A B} (P : A -> B -> Prop) l1 l2 s x : Forall2 P l1 l2 -> nth_error l1 s = Some x -> exists y, nth_error l2 s = Some y /\ P x y.
  Proof.
    intro H. revert s. induction H as [ | a b l1 l2 Hp HF IH ]; intros [ | s ] E; cbn in E; try discriminate; [ injection E as <-; exists b; auto | now apply IH ].
  Qed.
  Lemma nth_error_without {A} (l : list A) n s : n < List.length l ->
    nth_error (firstn n l ++ skipn (n + 1) l) s = nth_error l (if s <? n then s else s + 1).
  Proof.
    intro L. assert (Lf : List.length (firstn n l) = n) by (rewrite firstn_length; lia). destruct (Nat.ltb_spec s n).
    - rewrite nth_error_app1 by lia. rewrite nth_error_firstn. destruct (Nat.ltb_spec s n); [ reflexivity | lia ].
    - rewrite nth_error_app2 by lia. rewrite Lf.
      assert (Sk : forall (l : list A) k i, nth_error (skipn k l) i = nth_error l (k + i)) by (clear; induction l as [ | x l IH ]; intros [ | k ] i; cbn; auto; destruct i; reflexivity).
      rewrite Sk. f_equal. lia.
  Qed.
  Lemma nth_error_insert {A} (l1 l2 : list A) x s : nth_error (l1 ++ x :: l2) (if s <? List.length l1 then s else s + 1) = nth_error (l1 ++ l2) s.
  Proof.
    destruct (Nat.ltb_spec s (List.length l1)).
    - now rewrite !nth_error_app1 by lia.
    - rewrite !nth_error_app2 by lia. replace (s + 1 - List.length l1) with (S (s - List.length l1)) by lia. reflexivity.
  Qed.
  Lemma nth_error_combine {A B} (l1 : list A) (l2 : list B) s a b : nth_error l1 s = Some a -> nth_error l2 s = Some b -> nth_error (combine l1 l2) s = Some (a, b).
  Proof. revert l2 s. induction l1 as [ | x l1 IH ]; intros [ | y l2 ] [ | s ] E1 E2; cbn in *; try discriminate; [ congruence | now apply IH ]. Qed.
  Lemma cells_mono (h1 h2 : string -> nat) l : (forall d, In d l -> h1 d <= h2 d) -> cells (map h1 l) <= cells (map h2 l).
  Proof. induction l as [ | d l IH ]; intro H; cbn; [ lia | ]. apply Nat.mul_le_mono; [ apply H; now left | apply IH; intros; apply H; now right ]. Qed.

  Definition name_lists (ts : list (term V)) : list (list string) := map (fun te => v_names (t_var te)) ts.

  (** without a common first dimension the loop takes every cell by itself *)
  Lemma no_shared arrays g a b : (forall x, In x arrays -> wf x) -> inv g arrays -> (exists n, g_shared g = Some n) ->
    In a arrays -> In b arrays -> hd_error (a_names a) <> hd_error (a_names b) -> shared_dims g = 0.
  Proof.
    intros W (D & Ll & Dn & Ar & Sh & Fr) (n & Hn) Ia Ib Ne. unfold shared_dims. rewrite Hn. destruct n as [ | n ]; [ reflexivity | exfalso ].
    assert (Q : forall x, In x arrays -> exists l, a_names x = nth 0 (g_names g) "" :: l).
    { intros x Ix. rewrite <- Dn in Ix. apply in_map_iff in Ix. destruct Ix as ([ x' m ] & Ex & Im). cbn in Ex. subst x'.
      assert (H0 := Sh (x, m) 0 Im). rewrite Hn in H0. specialize (H0 ltac:(cbn; lia)). destruct (Ar _ Im) as (M1 & M2 & M3). cbn [fst snd] in *.
      destruct (M2 0 0 H0) as (X1 & X2 & X3 & X4 & X5). destruct (W x) as (W1 & _); [ rewrite <- Dn; apply (in_map fst _ _ Im) | ].
      destruct (a_names x) as [ | y l ]; [ cbn in W1; lia | ]. cbn in X4. exists l. now rewrite <- X4. }
    destruct (Q a Ia) as (la & Ea). destruct (Q b Ib) as (lb & Eb). apply Ne. rewrite Ea, Eb. reflexivity.
  Qed.

  Theorem convert_ok (f : list V -> V) (low : bool) (pre post : list (term V)) :
    (forall te, In te (pre ++ post) -> exists data, stored (t_var te) data) ->
    (low = true \/ (forall te, In te (pre ++ post) -> t_each te = true) \/
     exists a b, In a (map fst rq :: name_lists (pre ++ post)) /\ In b (map fst rq :: name_lists (pre ++ post)) /\ hd_error a <> hd_error b) ->
    exists out, convert f low pre post rq = Ok (Some out) /\ List.length out = cells (sizes rq) /\
      forall t, inside (sizes rq) t -> exists vs, Forall2 (fun te v => value_of (t_var te) t = Some v) (pre ++ post) vs /\
        nth_error out (lin (sizes rq) t) = Some (f vs).
  Proof.
    intros ST KIND.
    set (Rd := fun (te : term V) (i : input V) => exists part,
      i = {| i_names := v_names (t_var te); i_lens := map (size_of len rq) (v_names (t_var te)); i_vals := Some part |} /\
      List.length part = cells (map (size_of len rq) (v_names (t_var te))) /\
      forall t, inside (sizes rq) t ->
        nth_error part (lin (map (size_of len rq) (v_names (t_var te))) (map (fun d => rel_dim d rq t) (v_names (t_var te)))) = value_of (t_var te) t /\
        inside (map (size_of len rq) (v_names (t_var te))) (map (fun d => rel_dim d rq t) (v_names (t_var te)))).
    assert (RD : forall te, In te (pre ++ post) -> exists i, read_var rq (t_var te) = Ok i /\ Rd te i).
    { intros te I. destruct (ST te I) as (data & S). destruct (read_ok (t_var te) data S) as (part & E & L & Vt). eexists. split; [ exact E | ]. exists part. auto. }
    destruct (omapM_each (fun t => read_var rq (t_var t)) Rd pre) as (is & E1 & F1); [ intros; apply RD; apply in_app_iff; now left | ].
    destruct (omapM_each (fun t => read_var rq (t_var t)) Rd post) as (is' & E2 & F2); [ intros; apply RD; apply in_app_iff; now right | ].
    assert (F : Forall2 Rd (pre ++ post) (is ++ is')) by now apply Forall2_app.
    unfold convert. rewrite E1. cbn [obind]. rewrite E2. cbn [obind].
    replace (existsb _ (combine (pre ++ post) (is ++ is'))) with false.
    2:{ symmetry. apply not_true_is_false. intro X. apply existsb_exists in X. destruct X as ([ te i ] & Ic & B). cbn [fst snd] in B.
        assert (Rd te i) as (part & -> & _).
        { apply In_nth_error in Ic. destruct Ic as (s & Ic). clear - F Ic. revert s Ic. induction F as [ | a b l1 l2 Hp HF IH ]; intros [ | s ] Ic; cbn in Ic; try discriminate; [ injection Ic as <- <-; exact Hp | now apply (IH s) ]. }
        cbn in B. rewrite andb_false_r in B. discriminate. }
    assert (NDc : forall te, In te (pre ++ post) -> NoDup (v_names (t_var te)) /\ (forall d, In d (v_names (t_var te)) -> In d (map fst rq) \/ len d = 1)).
    { intros te I. destruct (ST te I) as (data & S). split; apply S. }
    assert (DS : forall ts ii, incl ts (pre ++ post) -> Forall2 Rd ts ii ->
      exists ds, omapM (fun i => make_dims (i_names i) (i_lens i)) ii = Ok ds /\ Forall2 (fun te a => shaped (v_names (t_var te)) a) ts ds).
    { clear - NDc SO. intros ts ii In1 HF. induction HF as [ | te i ts ii Hp HF IH ]; [ exists []; split; [ reflexivity | constructor ] | ].
      destruct Hp as (part & -> & _ & _). destruct (NDc te) as (Nd & Cv); [ apply In1; now left | ].
      destruct (dims_shaped (v_names (t_var te)) Nd Cv) as (a & Ea & Sa). destruct IH as (ds & Ed & Sd); [ intros x Ix; apply In1; now right | ].
      exists (a :: ds). cbn [omapM i_names i_lens]. rewrite Ea. cbn [obind]. rewrite Ed. cbn [obind]. split; [ reflexivity | now constructor ]. }
    destruct (DS pre is) as (ds & E3 & S3); [ intros x I; apply in_app_iff; now left | exact F1 | ].
    destruct (DS post is') as (ds' & E4 & S4); [ intros x I; apply in_app_iff; now right | exact F2 | ].
    rewrite E3. cbn [obind].
    destruct (dims_shaped (map fst rq)) as (o & Eo & So); [ apply SO | auto | ]. rewrite (size_sizes len rq) in Eo by apply SO. fold (sizes rq). rewrite Eo. cbn [obind].
    rewrite E4. cbn [obind].
    set (arrays := ds ++ o :: ds'). set (nls := name_lists pre ++ map fst rq :: name_lists post).
    assert (SH : Forall2 shaped nls arrays).
    { unfold nls, arrays, name_lists. assert (Q : forall ts ll, Forall2 (fun te a => shaped (v_names (t_var te)) a) ts ll -> Forall2 shaped (map (fun te : term V => v_names (t_var te)) ts) ll).
      { clear. induction 1; cbn; constructor; auto. }
      apply Forall2_app; [ now apply Q | ]. constructor; [ exact So | now apply Q ]. }
    assert (COV : forall names d, In names nls -> In d names -> In d (map fst rq) \/ len d = 1).
    { intros names d I Id. unfold nls, name_lists in I. apply in_app_iff in I. destruct I as [ I | [ <- | I ] ]; [ | now left | ].
      - apply in_map_iff in I. destruct I as (te & <- & I). apply (NDc te); [ apply in_app_iff; now left | exact Id ].
      - apply in_map_iff in I. destruct I as (te & <- & I). apply (NDc te); [ apply in_app_iff; now right | exact Id ]. }
    assert (OUT : In (map fst rq) nls) by (unfold nls; apply in_app_iff; right; now left).
    assert (W : forall a, In a arrays -> wf a) by (intros a I; destruct (array_shaped nls arrays SH a I) as (nn & _ & Wa & _); exact Wa).
    assert (Cs : consistent arrays).
    { intros a b j k Ia Ib Hj Hk _ _ En. destruct (array_shaped nls arrays SH a Ia) as (na & _ & Wa & Na & La & _). destruct (array_shaped nls arrays SH b Ib) as (nb & _ & Wb & Nb & Lb & _).
      rewrite La, Lb. unfold rank in *. rewrite La, map_length in Hj. rewrite Lb, map_length in Hk.
      rewrite (nth_indep (map _ na) 0 (size_of len rq "")) by (rewrite map_length; exact Hj). rewrite (nth_indep (map _ nb) 0 (size_of len rq "")) by (rewrite map_length; exact Hk).
      rewrite !map_nth. f_equal. congruence. }
    destruct (proj2 (proj1 (C35_accepted arrays W)) Cs) as (g0 & Eg). rewrite Eg. cbn [obind].
    set (g := if low then lower 0 g0 else g0).
    assert (IV0 := make_group_inv arrays W g0 Eg). assert (IV : inv g arrays) by (unfold g; destruct low; [ now apply lower_inv | exact IV0 ]).
    assert (SM : exists n, g_shared g = Some n).
    { assert (exists n, g_shared g0 = Some n) as (n & Hn).
      { unfold arrays in Eg. destruct ds as [ | a ds0 ]; cbn [app] in Eg; eapply shared_some; exact Eg. }
      unfold g. destruct low; [ cbn; unfold minimize; rewrite Hn; destruct (0 <? n); eauto | eauto ]. }
    assert (NE : arrays <> []) by (unfold arrays; destruct ds; discriminate).
    destruct (lowered_loop arrays g W IV SM NE (cells (outer_lens g))) as (r & Er & Lr & Li & Pr); [ lia | intros l I; apply (glens_bound nls arrays g SH IV COV l I) | ].
    rewrite Er. cbn [obind].
    assert (Sv : shared_volume g > 0).
    { rewrite (low_sv_cells g). apply cells_pos. intros l I. apply (glens_bound nls arrays g SH IV COV).
      rewrite (low_lens_split g). apply in_app_iff. now left. }
    assert (ONE : (forall te, In te (pre ++ post) -> t_each te = true) \/ shared_volume g = 1).
    { destruct KIND as [ Hl | [ Ha | (a & b & Ia & Ib & Ne) ] ]; [ right | now left | right ].
      - assert (shared_dims g = 0) as Z; [ | unfold shared_volume; rewrite Z; reflexivity ].
        unfold g, shared_dims, lower. rewrite Hl. cbn [g_shared]. unfold minimize. destruct (g_shared g0) as [ n | ]; [ | reflexivity ]. destruct (Nat.ltb_spec 0 n); [ reflexivity | lia ].
      - assert (Has : forall nn, In nn (map fst rq :: name_lists (pre ++ post)) -> exists a, In a arrays /\ a_names a = nn).
        { intros nn I. assert (I' : In nn nls).
          { unfold nls. destruct I as [ <- | I ]; [ apply in_app_iff; right; now left | ]. unfold name_lists in *. rewrite map_app in I. apply in_app_iff in I. apply in_app_iff.
            destruct I; [ now left | right; now right ]. }
          clear - SH I'. induction SH as [ | n b nl al Hs HF IH ]; [ destruct I' | ]. destruct I' as [ <- | I' ]; [ exists b; split; [ now left | apply Hs ] | ].
          destruct (IH I') as (a & A & B). exists a. split; [ now right | exact B ]. }
        destruct (Has a Ia) as (xa & Xa & Na). destruct (Has b Ib) as (xb & Xb & Nb).
        assert (shared_dims g = 0) as Z by (apply (no_shared arrays g xa xb W IV SM Xa Xb); congruence). unfold shared_volume. rewrite Z. reflexivity. }
    assert (Vo : volume o = cells (sizes rq)).
    { assert (a_lens o = sizes rq) by (destruct So as (_ & _ & L1 & _); rewrite L1; apply size_sizes; apply SO).
      destruct So as (Wo & No & Lo & _). rewrite <- H. clear - Wo. destruct Wo as (W1 & W2 & W3 & W4 & W5 & W6). unfold volume.
      destruct (a_lens o) as [ | x l ] eqn:El using rev_ind; [ reflexivity | ]. clear IHl. destruct (l ++ [x]) eqn:Q; [ destruct l; discriminate | ]. rewrite <- Q in *. clear Q.
      rewrite last_last. unfold rank in *. rewrite El in *. rewrite app_length in *. cbn [List.length] in *.
      assert (Ld : last (a_deltas o) 0 = nth (List.length l) (a_deltas o) 0).
      { destruct (a_deltas o) as [ | y ys _ ] using rev_ind; [ cbn in W3; lia | ]. rewrite last_last. rewrite app_length in W3. cbn in W3.
        rewrite app_nth2 by lia. replace (List.length l - List.length ys) with 0 by lia. reflexivity. }
      rewrite Ld, W5 by lia. rewrite firstn_app, firstn_all, Nat.sub_diag. cbn. rewrite app_nil_r, cells_app. cbn. lia. }
    set (looks := fun t => omapM (fun te : term V => rd (value_of (t_var te) t)) (pre ++ post)).
    set (Y := fun p => match looks (unlin (sizes rq) p) with Ok vs => Some (f vs) | _ => None end).
    assert (LK : forall t, inside (sizes rq) t -> exists vs, looks t = Ok vs /\ Forall2 (fun te v => value_of (t_var te) t = Some v) (pre ++ post) vs).
    { intros t It. unfold looks. apply omapM_each. intros te I. destruct (RD te I) as (i & _ & part & _ & Lp & Vt). destruct (Vt t It) as (V1 & V2). rewrite <- V1.
      destruct (nth_error part _) as [ v | ] eqn:En; [ exists v; split; [ reflexivity | reflexivity ] | ]. apply nth_error_None in En. assert (Q := lin_lt _ _ V2). lia. }
    assert (Yt : forall t vs, inside (sizes rq) t -> looks t = Ok vs -> Y (lin (sizes rq) t) = Some (f vs)) by (intros t vs It Ev; unfold Y; rewrite unlin_lin by exact It; now rewrite Ev).
    assert (Lts : List.length (is ++ is') = List.length (pre ++ post)) by (symmetry; eapply Forall2_length; exact F).
    assert (Lds : List.length ds = List.length pre) by (symmetry; eapply Forall2_length; exact S3).
    assert (Lds' : List.length ds' = List.length post) by (symmetry; eapply Forall2_length; exact S4).
    assert (La : List.length arrays = S (List.length (pre ++ post))) by (unfold arrays; rewrite !app_length; cbn; lia).
    (* the position of an array in a turn *)
    assert (POS : forall k j s a nn, k < List.length r -> j < shared_volume g -> nth_error arrays s = Some a -> shaped nn a -> In nn nls ->
      (Z.of_nat (cells (map (size_of len rq) nn)) < W64)%Z ->
      let t := cell_of g (unlin (g_lens g) (k * shared_volume g + j)) in
      inside (sizes rq) t /\ exists p, nth_error (nth k r []) s = Some p /\ Z.to_nat p + j = lin (map (size_of len rq) nn) (map (fun d => rel_dim d rq t) nn)).
    { intros k j s a nn Hk Hj Hs Sa Inn Hc t. assert (Hm : k * shared_volume g + j < cells (g_lens g)) by nia.
      assert (Hm0 : k * shared_volume g + 0 < cells (g_lens g)) by nia.
      assert (Iu := unlin_inside _ _ Hm). assert (Iu0 := unlin_inside _ _ Hm0). rewrite Nat.add_0_r in Iu0. split; [ now apply (cell_inside nls arrays g SH IV COV OUT) | ].
      destruct (Pr s a k Hs Hk) as (P1 & P2). specialize (P2 j Hj).
      assert (Ls : s < List.length (nth k r [])) by (rewrite (Li k Hk); apply nth_error_Some; congruence).
      exists (nth s (nth k r []) 0%Z). split; [ now apply nth_error_nth' | ]. rewrite P1.
      rewrite (sub_rel nls arrays g SH IV COV nn a (unlin (g_lens g) (k * shared_volume g + j)) Sa Inn Iu) in P2. fold t in P2. rewrite P2.
      assert (B : lin (a_lens a) (sub (g_names g) (unlin (g_lens g) (k * shared_volume g)) a) < cells (a_lens a)).
      { rewrite (sub_shaped nls g COV nn a _ Sa). destruct Sa as (_ & _ & L1 & _). rewrite L1. apply lin_lt. apply inside_map. intros d Id.
        apply (gdim_lt nls arrays g SH IV COV); [ exact Iu0 | ]. now apply (any_names nls arrays g SH IV nn). }
      assert (L1 : a_lens a = map (size_of len rq) nn) by apply Sa. rewrite <- L1 in Hc. rewrite Z.mod_small by lia. lia. }
    assert (CV : forall te, In te (pre ++ post) -> (Z.of_nat (cells (map (size_of len rq) (v_names (t_var te)))) < W64)%Z).
    { intros te I. destruct (ST te I) as (data & Nd & Ed & Ev & Ln & Lt & Cv). assert (Q : cells (map (size_of len rq) (v_names (t_var te))) <= cells (v_dims (t_var te))).
      { rewrite Ed. apply cells_mono. intros d Id. assert (P := size_pos d (Cv d Id)). lia. }
      lia. }
    assert (CO : (Z.of_nat (cells (map (size_of len rq) (map fst rq))) < W64)%Z) by (rewrite size_sizes by apply SO; apply SO).
    assert (REL : forall t, inside (sizes rq) t -> map (fun d => rel_dim d rq t) (map fst rq) = t).
    { intros t It. assert (Lt : List.length t = List.length rq) by (rewrite <- (inside_length _ _ It); unfold sizes; apply map_length).
      destruct SO as (ND & _). clear - ND Lt. revert t Lt. induction rq as [ | [ n r ] q IH ]; intros [ | i t ] Lt; cbn in *; try discriminate; [ reflexivity | ].
      rewrite String.eqb_refl. inversion ND as [ | ? ? N1 N2 ]; subst. f_equal. transitivity (map (fun d => rel_dim d q t) (map fst q)); [ | apply IH; [ exact N2 | lia ] ]. apply map_ext_in. intros d I.
      destruct (String.eqb_spec d n) as [ -> | ]; [ contradiction | reflexivity ]. }
    assert (So' : nth_error arrays (List.length pre) = Some o) by (unfold arrays; rewrite nth_error_app2 by lia; rewrite Lds, Nat.sub_diag; reflexivity).
    assert (TURN : forall k j, k < List.length r -> j < shared_volume g ->
      let t := cell_of g (unlin (g_lens g) (k * shared_volume g + j)) in
      inside (sizes rq) t /\ exists po, nth_error (nth k r []) (List.length pre) = Some po /\ Z.to_nat po + j = lin (sizes rq) t /\
        omapM (fun x => value_at x j) (combine (combine (map t_each (pre ++ post)) (is ++ is')) (firstn (List.length pre) (nth k r []) ++ skipn (List.length pre + 1) (nth k r []))) = looks t).
    { intros k j Hk Hj t. destruct (POS k j (List.length pre) o (map fst rq) Hk Hj So' So OUT CO) as (It & po & Hp & Ep). fold t in It, Ep. split; [ exact It | ].
      exists po. split; [ exact Hp | ]. split; [ rewrite Ep, size_sizes by apply SO; now rewrite REL | ].
      unfold looks. apply omapM_same.
      assert (Lk : List.length (nth k r []) = S (List.length (pre ++ post))) by (rewrite (Li k Hk); exact La).
      assert (Lpp : List.length pre <= List.length (pre ++ post)) by (rewrite app_length; lia).
      apply Forall2_nth_intro.
      { rewrite !combine_length, map_length, Lts, (app_length (firstn _ _)), firstn_length, skipn_length, Lk. lia. }
      intros s x te Hx Hte. destruct (Forall2_nth_elim _ _ _ s te F Hte) as (i & Hi & part & -> & Lp & Vt).
      assert (Ite : In te (pre ++ post)) by now apply nth_error_In in Hte.
      set (s' := if s <? List.length pre then s else s + 1).
      assert (Har : exists a, nth_error arrays s' = Some a /\ shaped (v_names (t_var te)) a).
      { unfold s'. rewrite <- Lds. unfold arrays. rewrite nth_error_insert. apply (Forall2_nth_elim _ _ _ s te (Forall2_app S3 S4) Hte). }
      destruct Har as (a & Ha & Sa).
      assert (Inn : In (v_names (t_var te)) nls).
      { unfold nls, name_lists. apply in_app_iff in Ite. apply in_app_iff. destruct Ite as [ I | I ]; [ left | right; right ]; now apply (in_map (fun te : term V => v_names (t_var te))). }
      destruct (POS k j s' a _ Hk Hj Ha Sa Inn (CV te Ite)) as (_ & p & Hps & Eps). fold t in Eps.
      assert (Hpp : nth_error (firstn (List.length pre) (nth k r []) ++ skipn (List.length pre + 1) (nth k r [])) s = Some p) by (rewrite nth_error_without by lia; exact Hps).
      assert (He : nth_error (map t_each (pre ++ post)) s = Some (t_each te)) by (rewrite nth_error_map, Hte; reflexivity).
      rewrite (nth_error_combine _ _ s _ p (nth_error_combine _ _ s _ _ He Hi) Hpp) in Hx. injection Hx as <-. unfold value_at. cbn [i_vals rd obind].
      destruct (Vt t It) as (V1 & _). rewrite <- V1. f_equal. f_equal. rewrite <- Eps. f_equal. destruct (t_each te) eqn:Et; [ reflexivity | ].
      destruct ONE as [ Q | Q ]; [ rewrite (Q te Ite) in Et; discriminate | lia ]. }
    destruct (turns_ok f (shared_volume g) (combine (map t_each (pre ++ post)) (is ++ is')) (List.length pre) Y (cells (sizes rq)) r) with (out := repeat (@None V) (volume o)) as (out & Eo' & Lo & _ & Wr).
    { intros idx I. apply (In_nth _ _ []) in I. destruct I as (k & Hk & <-). destruct (TURN k 0 Hk Sv) as (_ & po & Hp & _). exists po. split; [ exact Hp | ].
      intros j Hj. destruct (TURN k j Hk Hj) as (It & po' & Hp' & Ep & El). assert (po' = po) by congruence. subst po'.
      destruct (LK _ It) as (vs & Ev & _). exists vs. rewrite El. split; [ exact Ev | ]. rewrite Ep. split; [ now apply lin_lt | now apply Yt ]. }
    { now rewrite repeat_length, Vo. }
    rewrite Eo'. cbn [obind].
    assert (AT : forall t, inside (sizes rq) t -> nth_error out (lin (sizes rq) t) = Some (Y (lin (sizes rq) t))).
    { intros t It. destruct (cell_has nls arrays g SH IV COV OUT t It) as (u & Iu & Cu). set (m := lin (g_lens g) u). assert (Hm := lin_lt _ _ Iu). fold m in Hm.
      assert (D := Nat.div_mod m (shared_volume g) ltac:(lia)). assert (R := Nat.mod_upper_bound m (shared_volume g) ltac:(lia)).
      set (k := m / shared_volume g) in *. set (j := m mod shared_volume g) in *.
      assert (Hk : k < List.length r) by nia. destruct (TURN k j Hk R) as (_ & po & Hp & Ep & _).
      replace (k * shared_volume g + j) with m in Ep by lia. unfold m in Ep. rewrite unlin_lin, Cu in Ep by exact Iu. rewrite <- Ep.
      apply (Wr (nth k r [])); [ now apply nth_In | exact Hp | exact R ]. }
    assert (FN : exists vals, omapM rd out = Ok vals /\ Forall2 (fun x v => x = Some v) out vals).
    { apply omapM_each. intros x I. apply (In_nth_error) in I. destruct I as (p & Ep). assert (Lp : p < cells (sizes rq)) by (rewrite <- Lo; apply nth_error_Some; congruence).
      assert (It := unlin_inside _ _ Lp). assert (A := AT _ It). rewrite lin_unlin in A by exact Lp. rewrite Ep in A. injection A as ->.
      destruct (LK _ It) as (vs & Ev & _). assert (Yv := Yt _ vs It Ev). rewrite lin_unlin in Yv by exact Lp. rewrite Yv. exists (f vs). split; reflexivity. }
    destruct FN as (vals & Ef & Ff). rewrite Ef. cbn [obind]. exists vals. split; [ reflexivity | ].
    split; [ rewrite <- Lo; symmetry; eapply Forall2_length; exact Ff | ].
    intros t It. destruct (LK t It) as (vs & Ev & Fv). exists vs. split; [ exact Fv | ].
    destruct (Forall2_nth_elim _ _ _ _ _ Ff (AT t It)) as (v & Hv & Ey). rewrite Hv. rewrite (Yt t vs It Ev) in Ey. congruence.
  Qed.
End Convert.
