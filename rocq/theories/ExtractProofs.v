(** Specification and proofs for CDMExtractor. *)
From Coq Require Import NArith ZArith String List Bool Lia Arith Permutation Sorted.
From Coq Require Import ZifyBool ZifyNat ZifyN.
From Verif Require Import Base StdMap IndexSpec SliceModel SliceProofs ReaderProofs ExtractModel.
Import ListNotations.
Local Open Scope nat_scope.

(** *** specification: gathering by index lists, first dimension fastest *)

Fixpoint tuples (qs : list (list nat)) : list (list nat) :=
  match qs with
  | [] => [[]]
  | q :: qs' => flat_map (fun t => map (fun i => i :: t) q) (tuples qs')
  end.

Definition snoc (i : nat) (t : list nat) : list nat := t ++ [i].
Definition extend (q : list nat) (P : list (list nat)) : list (list nat) :=
  flat_map (fun i => map (snoc i) P) q.

Lemma tuples_snoc qs q : tuples (qs ++ [q]) = extend q (tuples qs).
Proof.
  unfold extend. induction qs as [|a qs IH].
  - cbn. rewrite app_nil_r. induction q as [|x q IHq]; cbn; auto.
  - cbn [app tuples]. rewrite IH; clear IH.
    induction q as [|x q IHq]; cbn; auto.
    rewrite flat_map_app, IHq. f_equal. clear IHq.
    induction (tuples qs) as [|p ps IHp]; cbn; auto.
    rewrite map_app, IHp. f_equal. rewrite map_map. reflexivity.
Qed.

(** positions requested along one dimension, in terms of the original dimension *)
Definition wanted (sel : option (list nat)) (req : nat * nat) : list nat :=
  match sel with
  | None => seq (fst req) (snd req)
  | Some ps => firstn (snd req) (skipn (fst req) ps)
  end.

(** the positions covered by a box *)
Definition box_lists (b : box) : list (list nat) := map (fun c => seq (fst c) (snd c)) b.
Definition box_tuples (b : box) : list (list nat) := tuples (box_lists b).
Definition all_tuples (slices : list box) : list (list nat) := concat (map box_tuples slices).

Lemma box_tuples_snoc b s z : box_tuples (b ++ [(s, z)]) = extend (seq s z) (box_tuples b).
Proof. unfold box_tuples, box_lists. rewrite map_app. cbn. apply tuples_snoc. Qed.

Lemma extend_app q1 q2 P : extend (q1 ++ q2) P = extend q1 P ++ extend q2 P.
Proof. apply flat_map_app. Qed.

Lemma extend_nil q : extend q [] = [].
Proof. induction q; cbn; auto. Qed.

Lemma extend_one i P : extend [i] P = map (snoc i) P.
Proof. cbn. apply app_nil_r. Qed.

(** *** the loop over dimensions *)

Lemma omapM_ok {A B} (f : A -> outcome B) (g : A -> B) l :
  (forall a, In a l -> f a = Ok (g a)) -> omapM f l = Ok (map g l).
Proof.
  induction l as [|a l IH]; intro H; cbn; auto.
  rewrite H by (left; auto). cbn. rewrite IH by (intros; apply H; right; auto). reflexivity.
Qed.

Lemma chunks_cover start last rest :
  start <= last ->
  flat_map (fun c => seq (fst c) (snd c)) (chunks start last rest)
  = seq start (last - start + 1) ++ rest.
Proof.
  revert start last; induction rest as [|p r IH]; intros start last H; cbn [chunks].
  - cbn. reflexivity.
  - destruct (Nat.eqb_spec p (last + 1)) as [->|NE].
    + rewrite IH by lia. replace (last + 1 - start + 1) with (S (last - start + 1)) by lia.
      rewrite seq_S. rewrite <- app_assoc. cbn [app]. do 2 f_equal. lia.
    + cbn [flat_map fst snd]. rewrite IH by lia. rewrite Nat.sub_diag. cbn. reflexivity.
Qed.

Lemma chunks_range d start last rest :
  start <= last -> last < d -> Forall (fun p => p < d) rest ->
  Forall (fun c => fst c + snd c <= d) (chunks start last rest).
Proof.
  revert start last; induction rest as [|p r IH]; intros start last H1 H2 HF; cbn [chunks].
  - constructor; [cbn; lia|constructor].
  - inversion HF; subst. destruct (p =? last + 1) eqn:E.
    + apply IH; auto. apply Nat.eqb_eq in E. lia.
    + constructor; [cbn; lia|]. apply IH; auto.
Qed.

(** a break in an index list: two neighbours that are not consecutive numbers *)
Definition broken (q : list nat) : Prop :=
  exists k a b, nth_error q k = Some a /\ nth_error q (S k) = Some b /\ b <> a + 1.

Lemma chunks_broken start last rest :
  1 < length (chunks start last rest) -> broken (last :: rest).
Proof.
  revert start last; induction rest as [|p r IH]; intros start last H; cbn [chunks] in H.
  - cbn in H. lia.
  - destruct (Nat.eqb_spec p (last + 1)) as [E|NE].
    + destruct (IH start p H) as (k & a & b & H1 & H2 & H3).
      exists (S k), a, b. auto.
    + exists 0, last, p. auto.
Qed.

Lemma at_range_ok ps from n :
  from + n <= length ps -> at_range ps from n = Ok (firstn n (skipn from ps)).
Proof.
  revert from; induction n as [|n IH]; intros from H; unfold at_range in *; cbn; auto.
  unfold at_ at 1. destruct (nth_error ps from) as [x|] eqn:E.
  - cbn. rewrite IH by lia. cbn.
    replace (skipn from ps) with (x :: skipn (S from) ps); auto.
    clear - E. revert from E; induction ps as [|a ps IH]; intros [|from] E; cbn in *; try discriminate.
    + congruence.
    + apply IH; auto.
  - apply nth_error_None in E. lia.
Qed.

Lemma skipn_cons_nth {A} (l : list A) k x : nth_error l k = Some x -> skipn k l = x :: skipn (S k) l.
Proof.
  revert k; induction l as [|a l IH]; intros [|k] E; cbn in *; try discriminate.
  - congruence.
  - apply IH; auto.
Qed.

(** a request along one dimension that a SliceBuilder of the reduced variable can hold *)
Definition good_dim (x : nat * option (list nat) * (nat * nat)) : Prop :=
  let '(d, sel, (s, z)) := x in
  match sel with
  | None => s + z <= d
  | Some ps => s + z <= length ps /\ Forall (fun p => p < d) ps /\ (ps <> [] -> 0 < z)
  end.

Definition wanted_of (x : nat * option (list nat) * (nat * nat)) : list nat :=
  let '(_, sel, req) := x in wanted sel req.

Lemma eq_perm {A} (a b : list A) : a = b -> Permutation a b.
Proof. intros ->. reflexivity. Qed.

(** complete description of one step *)
Lemma dim_step_spec slices x :
  good_dim x ->
  exists slices',
    dim_step slices x = Ok slices' /\
    Forall (fun b' => exists b s z, In b slices /\ b' = b ++ [(s, z)] /\ s + z <= fst (fst x)) slices' /\
    (snd (fst x) <> None \/ length slices <= 1 \/ snd (snd x) <= 1 ->
       all_tuples slices' = extend (wanted_of x) (all_tuples slices)) /\
    Permutation (all_tuples slices') (extend (wanted_of x) (all_tuples slices)) /\
    (1 < length slices' -> 1 < length slices \/ (snd (fst x) <> None /\ broken (wanted_of x))).
Proof.
  destruct x as [[d sel] [s z]]. cbn [fst snd wanted_of]. intro G.
  assert (forall s z, s + z <= d ->
    omapM (fun b => set_next d b s z) slices = Ok (map (fun b => b ++ [(s, z)]) slices)) as HS.
  { intros s0 z0 H. apply omapM_ok. intros b _. unfold set_next.
    replace (d <? s0 + z0) with false by (symmetry; apply Nat.ltb_ge; lia). reflexivity. }
  assert (forall s z, all_tuples (map (fun b => b ++ [(s, z)]) slices)
            = flat_map (fun b => extend (seq s z) (box_tuples b)) slices) as HT.
  { intros s0 z0. unfold all_tuples. rewrite map_map, flat_map_concat_map. f_equal.
    apply map_ext. intro b. apply box_tuples_snoc. }
  assert (forall q, Permutation (flat_map (fun b => extend q (box_tuples b)) slices)
                                (extend q (all_tuples slices))) as HP.
  { intro q. unfold all_tuples. clear.
    induction slices as [|b bs IH]; cbn.
    - rewrite extend_nil. constructor.
    - rewrite IH. clear. generalize (concat (map box_tuples bs)). intro P.
      induction q as [|i q IHq]; cbn; auto.
      rewrite <- IHq. rewrite map_app, <- !app_assoc.
      apply Permutation_app_head.
      rewrite !app_assoc. apply Permutation_app_tail. apply Permutation_app_comm. }
  assert (forall q, length slices <= 1 -> flat_map (fun b => extend q (box_tuples b)) slices
            = extend q (all_tuples slices)) as HE.
  { intros q HL. unfold all_tuples. destruct slices as [|b [|b' bs]]; cbn in *; [|now rewrite !app_nil_r|lia].
    rewrite extend_nil. reflexivity. }
  cbn [good_dim] in G. unfold dim_step. destruct sel as [ps|].
  - destruct G as (G1 & G2 & G3). destruct ps as [|p0 ps0] eqn:EP.
    + (* empty selection *)
      cbn in G1. assert (s = 0 /\ z = 0) as [-> ->] by lia.
      rewrite HS by lia. eexists; split; [reflexivity|].
      assert (wanted (Some (@nil nat)) (0, 0) = []) as -> by reflexivity.
      rewrite HT. cbn [seq].
      assert (flat_map (fun b => extend [] (box_tuples b)) slices = []) as ->.
      { clear. induction slices; cbn; auto. }
      repeat split.
      * apply Forall_forall. intros b' Hb. apply in_map_iff in Hb as (b & <- & Hb).
        exists b, 0, 0. repeat split; auto. lia.
      * constructor.
      * rewrite map_length. auto.
    + rewrite <- EP in *. assert (ps <> []) as NE by congruence. specialize (G3 NE).
      destruct (Nat.leb_spec (length slices) 1) as [HL|HL].
      * (* one builder: chunks *)
        destruct (nth_error ps s) as [first|] eqn:EF; [|apply nth_error_None in EF; lia].
        unfold at_ at 1. rewrite EF. cbn [obind].
        rewrite at_range_ok by lia. cbn [obind].
        set (rest := firstn (z - 1) (skipn (s + 1) ps)).
        assert (wanted (Some ps) (s, z) = first :: rest) as EW.
        { cbn. rewrite (skipn_cons_nth _ _ _ EF). unfold rest.
          destruct z; [lia|]. cbn [firstn]. replace (S z - 1) with z by lia.
          replace (s + 1) with (S s) by lia. reflexivity. }
        assert (Forall (fun p => p < d) (first :: rest)) as HF.
        { rewrite <- EW. cbn. rewrite Forall_forall in G2 |- *. intros x Hx. apply G2.
          assert (In x (skipn s ps)) as Hx2.
          { rewrite <- (firstn_skipn z (skipn s ps)). apply in_or_app; auto. }
          rewrite <- (firstn_skipn s ps). apply in_or_app; auto. }
        inversion HF as [|? ? Hf HFr]; subst x l.
        pose proof (chunks_range d first first rest (le_n _) Hf HFr) as HC.
        rewrite (omapM_ok _ (fun c => map (fun b => b ++ [c]) slices)).
        2: { intros [cs cz] Hc. rewrite Forall_forall in HC. specialize (HC _ Hc). cbn in *.
             apply HS. lia. }
        cbn [obind]. eexists; split; [reflexivity|].
        assert (all_tuples (concat (map (fun c => map (fun b => b ++ [c]) slices) (chunks first first rest)))
                = extend (wanted (Some ps) (s, z)) (all_tuples slices)) as HA.
        { rewrite EW.
          replace (first :: rest) with (flat_map (fun c => seq (fst c) (snd c)) (chunks first first rest)).
          2: { rewrite chunks_cover by lia. rewrite Nat.sub_diag. reflexivity. }
          generalize (chunks first first rest) as cs. intro cs. clear - HT HE HL.
          induction cs as [|[cs0 cz0] cs IH].
          - reflexivity.
          - cbn [map concat flat_map fst snd]. rewrite extend_app, <- IH.
            unfold all_tuples at 1. rewrite map_app, concat_app. f_equal.
            change (all_tuples (map (fun b => b ++ [(cs0, cz0)]) slices) = extend (seq cs0 cz0) (all_tuples slices)).
            rewrite HT. apply HE; auto. }
        repeat split.
        -- apply Forall_forall. intros b' Hb. apply in_concat in Hb as (l & Hl & Hb).
           apply in_map_iff in Hl as ([cs cz] & <- & Hc). apply in_map_iff in Hb as (b & <- & Hb).
           rewrite Forall_forall in HC. specialize (HC _ Hc). exists b, cs, cz. auto.
        -- intros _. exact HA.
        -- apply eq_perm. exact HA.
        -- intro HL2. right. split; [congruence|]. rewrite EW.
           apply (chunks_broken first).
           destruct slices as [|b [|b' bs]]; cbn [length] in HL; [|clear HS HT HP HE HA|lia].
           ++ exfalso. revert HL2. generalize (chunks first first rest). clear. intro cs.
              induction cs; cbn in *; auto. lia.
           ++ replace (length (chunks first first rest)) with
                (length (concat (map (fun c => map (fun b0 => b0 ++ [c]) [b]) (chunks first first rest)))); auto.
              clear. induction (chunks first first rest); cbn; auto.
      * (* several builders: one by one *)
        assert (forall n k, k + n = s + z -> s <= k ->
           omapM (fun i => do p <- at_ ps i; omapM (fun b => set_next d b p 1) slices) (seq k n)
           = Ok (map (fun p => map (fun b => b ++ [(p, 1)]) slices) (firstn n (skipn k ps)))) as HM.
        { induction n as [|n IH]; intros k Hk Hs; cbn [seq omapM firstn map]; auto.
          destruct (nth_error ps k) as [p|] eqn:EK; [|apply nth_error_None in EK; lia].
          unfold at_ at 1. rewrite EK. cbn [obind].
          assert (p < d).
          { rewrite Forall_forall in G2. apply G2. eapply nth_error_In; eauto. }
          rewrite HS by lia. cbn [obind]. rewrite IH by lia. cbn [obind].
          rewrite (skipn_cons_nth _ _ _ EK). reflexivity. }
        rewrite HM by lia. cbn [obind]. eexists; split; [reflexivity|].
        set (q := firstn z (skipn s ps)). change (wanted (Some ps) (s, z)) with q.
        assert (all_tuples (concat (map (fun p => map (fun b => b ++ [(p, 1)]) slices) q))
                = extend q (all_tuples slices)) as HA.
        { generalize q. clear q HM. intro q. clear - HT.
          induction q as [|p q IH]; cbn; auto.
          unfold all_tuples at 1. rewrite map_app, concat_app. f_equal; [|exact IH].
          change (all_tuples (map (fun b => b ++ [(p, 1)]) slices) = map (snoc p) (all_tuples slices)).
          rewrite HT. unfold all_tuples. clear.
          induction slices as [|b bs IH]; auto. cbn [flat_map map concat].
          rewrite map_app, IH. cbn [seq]. rewrite extend_one. reflexivity. }
        repeat split.
        -- apply Forall_forall. intros b' Hb. apply in_concat in Hb as (l & Hl & Hb).
           apply in_map_iff in Hl as (p & <- & Hp). apply in_map_iff in Hb as (b & <- & Hb).
           assert (p < d).
           { rewrite Forall_forall in G2. apply G2. unfold q in Hp.
             assert (In p (skipn s ps)) as Hp2.
             { rewrite <- (firstn_skipn z (skipn s ps)). apply in_or_app; auto. }
             rewrite <- (firstn_skipn s ps). apply in_or_app; auto. }
           exists b, p, 1. repeat split; auto. lia.
        -- intros _. exact HA.
        -- apply eq_perm. exact HA.
        -- intros _. left. lia.
  - (* not reduced *)
    rewrite HS by lia. eexists; split; [reflexivity|].
    rewrite HT. cbn [wanted fst snd]. repeat split.
    + apply Forall_forall. intros b' Hb. apply in_map_iff in Hb as (b & <- & Hb).
      exists b, s, z. auto.
    + intros [H|[H|H]]; [congruence|apply HE; auto|].
      destruct z as [|[|z]]; [| |lia].
      * cbn. clear. induction slices; cbn; auto.
      * cbn [seq]. rewrite (extend_one s (all_tuples slices)). unfold all_tuples. clear.
        induction slices as [|b bs IH]; auto. cbn [flat_map map concat].
        rewrite map_app, IH. rewrite extend_one. reflexivity.
    + apply HP.
    + rewrite map_length. auto.
Qed.

Definition org_len (x : nat * option (list nat) * (nat * nat)) : nat := fst (fst x).
Definition selection (x : nat * option (list nat) * (nat * nat)) : option (list nat) := snd (fst x).
Definition req_size (x : nat * option (list nat) * (nat * nat)) : nat := snd (snd x).

Definition box_ok (b : box) (xs : list (nat * option (list nat) * (nat * nat))) : Prop :=
  Forall2 (fun c x => fst c + snd c <= org_len x) b xs.

(** no dimension is split into several ranges while a slower, unreduced dimension is requested
    with more than one element *)
Definition order_kept (xs : list (nat * option (list nat) * (nat * nat))) : Prop :=
  forall i j xi xj, i < j -> nth_error xs i = Some xi -> nth_error xs j = Some xj ->
    selection xi <> None -> broken (wanted_of xi) -> selection xj = None -> req_size xj <= 1.

Lemma dims_spec xs :
  Forall good_dim xs ->
  exists slices,
    ofold dim_step xs [[]] = Ok slices /\
    Forall (fun b => box_ok b xs) slices /\
    Permutation (all_tuples slices) (tuples (map wanted_of xs)) /\
    (order_kept xs -> all_tuples slices = tuples (map wanted_of xs)) /\
    (1 < length slices -> exists i x, nth_error xs i = Some x /\ selection x <> None /\ broken (wanted_of x)).
Proof.
  induction xs as [|x xs IH] using rev_ind; intro G.
  - exists [[]]. cbn. repeat split; auto.
    + constructor; constructor.
    + lia.
  - apply Forall_app in G as [G1 G2]. inversion G2 as [|? ? Gx _]; subst.
    destruct (IH G1) as (slices & E & HB & HP & HO & HL). clear IH.
    rewrite ofold_app, E. cbn [obind ofold].
    destruct (dim_step_spec slices x Gx) as (slices' & E' & HB' & HO' & HP' & HL').
    rewrite E'. cbn [obind]. exists slices'. split; auto.
    rewrite map_app. cbn [map]. rewrite tuples_snoc. repeat split.
    + apply Forall_forall. intros b' Hb'. rewrite Forall_forall in HB'.
      destruct (HB' b' Hb') as (b & s & z & Hb & -> & Hsz).
      rewrite Forall_forall in HB. unfold box_ok. apply Forall2_app; [apply HB; auto|].
      constructor; [cbn; auto|constructor].
    + rewrite HP'. unfold extend. clear - HP.
      induction (wanted_of x) as [|i q IHq]; cbn; auto.
      apply Permutation_app; auto. apply Permutation_map; auto.
    + intro OK. rewrite HO'.
      * rewrite HO; auto. intros i j xi xj Hij Hi Hj. apply (OK i j xi xj); auto.
        -- rewrite nth_error_app1; auto. apply nth_error_Some; congruence.
        -- rewrite nth_error_app1; auto. apply nth_error_Some; congruence.
      * destruct (snd (fst x)) eqn:ES; [left; congruence|]. right.
        destruct (Nat.le_gt_cases (length slices) 1) as [H|H]; [left; auto|]. right.
        destruct (HL H) as (i & xi & Hi & Hs & Hbr).
        assert (i < length xs) by (apply nth_error_Some; congruence).
        apply (OK i (length xs) xi x); auto.
        -- rewrite nth_error_app1; auto.
        -- rewrite nth_error_app2 by lia. rewrite Nat.sub_diag. reflexivity.
    + intro H. destruct (HL' H) as [H1|[H1 H2]].
      * destruct (HL H1) as (i & xi & Hi & Hs & Hbr). exists i, xi. repeat split; auto.
        rewrite nth_error_app1; auto. apply nth_error_Some; congruence.
      * exists (length xs), x. repeat split; auto.
        rewrite nth_error_app2 by lia. rewrite Nat.sub_diag. reflexivity.
Qed.

(** *** reading and joining *)

Lemma box_cells_cells b : box_cells b = cells (map snd b).
Proof.
  unfold box_cells.
  assert (forall l a, fold_left Nat.mul l a = a * cells l) as H.
  { induction l as [|x l IH]; intro a; cbn; [lia|]. rewrite IH. nia. }
  rewrite H. lia.
Qed.

Lemma box_fits b xs : box_ok b xs -> fits (map org_len xs) (map fst b) (map snd b).
Proof.
  intro H. pose proof (Forall2_length _ _ _ H) as L. repeat split; rewrite ?map_length; auto.
  intros k d s z H1 H2 H3. rewrite nth_error_map in H1, H2, H3.
  destruct (nth_error xs k) as [x|] eqn:Ex; [|discriminate].
  destruct (nth_error b k) as [c|] eqn:Ec; [|discriminate].
  cbn in *. injection H1 as <-. injection H2 as <-. injection H3 as <-.
  clear L. revert k Ex Ec. induction H as [|c0 x0 b xs H0 H IH]; intros [|k] Ex Ec; try discriminate; cbn in *.
  - congruence.
  - eapply IH; eauto.
Qed.

Lemma map_add_seq s z o : map (fun i => s + i) (seq o z) = seq (s + o) z.
Proof.
  revert o; induction z as [|z IH]; intro o; cbn; auto. f_equal. rewrite IH. f_equal. lia.
Qed.

Lemma shift_positions b :
  map (shift (map fst b)) (positions (map snd b)) = box_tuples b.
Proof.
  unfold box_tuples, box_lists. induction b as [|[s z] b IH]; auto.
  cbn [map fst snd positions tuples]. rewrite <- IH; clear IH.
  induction (positions (map snd b)) as [|p ps IHp]; auto.
  cbn [flat_map map]. rewrite map_app, IHp. f_equal.
  rewrite map_map. cbn [shift].
  replace (seq s z) with (seq (s + 0) z) by (f_equal; lia).
  rewrite <- map_add_seq, map_map. reflexivity.
Qed.

Lemma is_box_spec {A} (data : list A) dims start size out :
  is_box data dims start size out ->
  map Some out = map (fun idx => nth_error data (lin dims (shift start idx))) (positions size) \/
  exists idx, inside size idx /\ nth_error data (lin dims (shift start idx)) = None.
Proof.
  intros [L H].
  assert (forall idx, {nth_error data (lin dims (shift start idx)) <> None} +
                      {~ nth_error data (lin dims (shift start idx)) <> None}) as D.
  { intro idx. destruct (nth_error data _); [left; congruence|right; intro K; apply K; reflexivity]. }
  destruct (Forall_Exists_dec _ D (positions size)) as [F|F].
  - left. apply nth_error_ext. intro i. rewrite !nth_error_map, positions_nth.
    destruct (Nat.ltb_spec i (cells size)) as [C|C].
    + cbn. rewrite <- H by (apply unlin_inside; auto). rewrite lin_unlin by auto.
      destruct (nth_error out i) eqn:E; auto. apply nth_error_None in E. rewrite L in E. lia.
    + rewrite nth_error_None_ge by lia. reflexivity.
  - right. apply Exists_exists in F as (idx & Hin & Hn). exists idx. split.
    + apply positions_inside; auto.
    + destruct (nth_error data _); auto. exfalso. apply Hn. congruence.
Qed.

Section Reading.
  Context {A : Type}.
  Variable data : list A.
  Variable fill : A.
  Variable xs : list (nat * option (list nat) * (nat * nat)).
  Let dims := map org_len xs.
  Hypothesis Hdata : cells dims = length data.
  Hypothesis Hdim : forall k d, nth_error dims k = Some d -> (ofN d < M64)%N.

  Definition cell_of (t : list nat) : option A := nth_error data (lin dims t).

  Lemma read_ok b : (ofN (length data) < M64)%N -> box_ok b xs ->
    exists out, read_memory data dims b = Ok out /\ map Some out = map cell_of (box_tuples b)
                /\ length out = box_cells b.
  Proof.
    intros H64 Hb. pose proof (box_fits b xs Hb) as F. fold dims in F.
    destruct (slice_ok data dims (map fst b) (map snd b) F Hdata H64 Hdim) as (out & E & HB).
    exists out. split; [exact E|]. rewrite box_cells_cells. split; [|apply HB].
    destruct (is_box_spec _ _ _ _ _ HB) as [H|(idx & Hin & Hn)].
    - rewrite H. rewrite <- shift_positions, map_map. reflexivity.
    - exfalso. apply nth_error_None in Hn.
      pose proof (lin_lt dims _ (shift_inside _ _ _ _ F Hin)). lia.
  Qed.

  Lemma join_loop_ok slices pre :
    let total := fold_left Nat.add (map box_cells slices) 0 in
    Forall (fun b => box_ok b xs) slices ->
    (ofN (length pre + total) + ofN (length data) < M64)%N ->
    exists out pos, ofold (join_step (read_memory data dims)) slices (pre ++ repeat fill total, length pre)
        = Ok (pre ++ out, pos)
      /\ map Some out = map cell_of (all_tuples slices).
  Proof.
    assert (forall l a, fold_left Nat.add l a = a + fold_left Nat.add l 0) as FA.
    { induction l as [|x l IH]; intro a; cbn; [lia|]. rewrite IH, (IH x). lia. }
    revert pre; induction slices as [|b bs IH]; intros pre total HF H64.
    - exists [], (length pre). cbn. auto.
    - inversion HF as [|? ? Hb HFr]; subst.
      assert (total = box_cells b + fold_left Nat.add (map box_cells bs) 0) as ET.
      { unfold total. cbn. rewrite FA. lia. }
      destruct (read_ok b ltac:(lia) Hb) as (out1 & E1 & H1 & L1).
      cbn [ofold]. unfold join_step at 1. rewrite E1. cbn [obind].
      assert (match out1 with
              | [] => Ok (pre ++ repeat fill total)
              | _ :: _ => copy_data (pre ++ repeat fill total) out1 (ofN (length pre)) 0 (M64 - 1)
              end = Ok ((pre ++ out1) ++ repeat fill (fold_left Nat.add (map box_cells bs) 0))) as E2.
      { rewrite ET, repeat_app.
        assert (box_cells b <= length data).
        { rewrite box_cells_cells, <- Hdata. eapply cells_fits. apply box_fits; eauto. }
        destruct out1 as [|x out1'] eqn:EO.
        - cbn in L1. rewrite <- L1. cbn. rewrite app_nil_r. reflexivity.
        - rewrite <- EO in *. clear EO.
          rewrite copy_data_full.
          + rewrite firstn_app, firstn_all, Nat.sub_diag. cbn [firstn]. rewrite app_nil_r.
            rewrite !skipn_app. rewrite skipn_all2 by lia.
            rewrite (skipn_all2 (repeat _ _)) by (rewrite repeat_length; lia).
            rewrite repeat_length. replace (length pre + length out1 - length pre - box_cells b) with 0 by lia.
            cbn [app skipn]. rewrite <- app_assoc. reflexivity.
          + rewrite !app_length, !repeat_length. lia.
          + rewrite !app_length, !repeat_length. lia.
          + lia. }
      rewrite E2. cbn [obind].
      destruct (IH (pre ++ out1)) as (out2 & pos & E3 & H3); auto.
      { rewrite app_length. lia. }
      rewrite app_length, L1 in E3. rewrite E3.
      exists (out1 ++ out2), pos. rewrite app_assoc. split; auto.
      unfold all_tuples. cbn [map concat]. rewrite !map_app, H1, H3. reflexivity.
  Qed.

  Lemma join_ok slices :
    Forall (fun b => box_ok b xs) slices ->
    (ofN (length (all_tuples slices)) + ofN (length data) < M64)%N ->
    exists out, join_slices (read_memory data dims) fill slices = Ok out
      /\ map Some out = map cell_of (all_tuples slices).
  Proof.
    intros HF H64. unfold join_slices.
    assert (length (all_tuples slices) = fold_left Nat.add (map box_cells slices) 0) as EL.
    { assert (forall l a, fold_left Nat.add l a = a + fold_left Nat.add l 0) as FA.
      { induction l as [|x l IH]; intro a; cbn; [lia|]. rewrite IH, (IH x). lia. }
      clear. unfold all_tuples. induction slices as [|b bs IH]; cbn; auto.
      rewrite app_length, IH. 
      assert (forall l a, fold_left Nat.add l a = a + fold_left Nat.add l 0) as FA.
      { induction l as [|x l IHl]; intro a; cbn; [lia|]. rewrite IHl, (IHl x). lia. }
      rewrite (FA _ (box_cells b)). f_equal.
      rewrite <- shift_positions, map_length, positions_length, box_cells_cells. reflexivity. }
    destruct slices as [|b [|b' bs]].
    - exists []. auto.
    - inversion HF as [|? ? Hb _]; subst.
      destruct (read_ok b ltac:(lia) Hb) as (out1 & E1 & H1 & L1). exists out1. split; auto.
      rewrite H1. unfold all_tuples. cbn. rewrite app_nil_r. reflexivity.
    - destruct (join_loop_ok (b :: b' :: bs) []) as (out & pos & E & H); auto.
      { rewrite <- EL. cbn [length]. lia. }
      cbn [app length] in E. rewrite E. exists out. auto.
  Qed.

  Theorem extract_ok :
    Forall good_dim xs ->
    (ofN (length (tuples (map wanted_of xs))) + ofN (length data) < M64)%N ->
    exists out perm,
      extract_slice (read_memory data dims) fill xs = Ok out /\
      Permutation perm (tuples (map wanted_of xs)) /\
      map Some out = map cell_of perm /\
      (order_kept xs -> perm = tuples (map wanted_of xs)).
  Proof.
    intros G H64. destruct (dims_spec xs G) as (slices & E & HB & HP & HO & _).
    unfold extract_slice. rewrite E. cbn [obind].
    destruct (join_ok slices HB) as (out & EO & H).
    { rewrite (Permutation_length HP). exact H64. }
    exists out, (all_tuples slices). auto.
  Qed.
End Reading.

(** number of positions *)
Lemma tuples_length qs : length (tuples qs) = fold_right Nat.mul 1 (map (@length nat) qs).
Proof.
  induction qs as [|q qs IH]; cbn; auto. rewrite <- IH; clear IH.
  induction (tuples qs) as [|t ts IHt]; cbn; [lia|]. rewrite app_length, map_length, IHt. lia.
Qed.

(** *** reduceDimension *)

Open Scope N_scope.

Lemma existsb_false {A} (f : A -> bool) l : (forall x, In x l -> f x = false) -> existsb f l = false.
Proof.
  induction l as [|a l IH]; intro H; cbn; auto. rewrite H by (left; auto). cbn. apply IH. intros; apply H; right; auto.
Qed.

Lemma set_insert_snoc l v : Forall (fun a => a < v) l -> set_insert v l = (l ++ [v])%list.
Proof.
  induction 1 as [|a l H HF IH]; cbn; auto.
  replace (v <? a) with false by (symmetry; apply N.ltb_ge; lia).
  replace (v =? a) with false by (symmetry; apply N.eqb_neq; lia). rewrite IH. reflexivity.
Qed.

Lemma range_set start n :
  start + ofN n <= M64 ->
  fold_left (fun s i => set_insert (add64 start (ofN i)) s) (seq 0 n) []
  = map (fun i => start + ofN i) (seq 0 n).
Proof.
  induction n as [|n IH]; intro H; auto.
  rewrite seq_S, fold_left_app, IH by lia. cbn [fold_left].
  rewrite add64_small by lia. rewrite set_insert_snoc.
  - rewrite map_app. reflexivity.
  - apply Forall_forall. intros a Ha. apply in_map_iff in Ha as (i & <- & Hi). apply in_seq in Hi. lia.
Qed.
