(** Facts about [AggModel]. *)
From Coq Require Import List String Arith ZArith Bool Lia.
From Coq Require Import ZifyBool ZifyNat.
From Verif Require Import Base StdMap AggModel.
Import ListNotations.

(** ** cumulative positions *)
Fixpoint cum (acc : nat) (lens : list nat) : list nat :=
  match lens with [] => [] | x :: l => (acc + x) :: cum (acc + x) l end.
Definition sum := fold_right Nat.add 0.

Lemma cum_length lens : forall acc, List.length (cum acc lens) = List.length lens.
Proof. induction lens; intro; cbn; auto. Qed.
Lemma cum_app l : forall acc m, cum acc (l ++ m) = cum acc l ++ cum (acc + sum l) m.
Proof.
  induction l as [ | x l IH ]; intros acc m; cbn; [ now rewrite Nat.add_0_r | ].
  rewrite IH. do 2 f_equal. f_equal. unfold sum. lia.
Qed.
Lemma cum_last l : forall acc, last (cum acc l) acc = acc + sum l.
Proof.
  induction l as [ | x l IH ]; intro acc; cbn; [ lia | ].
  specialize (IH (acc + x)). destruct (cum (acc + x) l) eqn:E.
  - cbn in IH. unfold sum in *. lia.
  - change (last (n :: l0) acc = acc + (x + fold_right Nat.add 0 l)).
    assert (G : forall d, last (n :: l0) d = last (n :: l0) (acc + x)).
    { intro d. clear. revert n. induction l0; intro n; [ reflexivity | ]. change (last (a :: l0) d = last (a :: l0) (acc + x)). apply IHl0. }
    rewrite G, IH. unfold sum. lia.
Qed.
Lemma cum_snoc l n : cum 0 l ++ [last (cum 0 l) 0 + n] = cum 0 (l ++ [n]).
Proof. rewrite cum_app, cum_last. reflexivity. Qed.

Lemma ub_cum lens : forall acc u, acc <= u ->
  let i := upper_bound (cum acc lens) u in
  acc + sum (firstn i lens) <= u /\ (i < List.length lens -> u < acc + sum (firstn (S i) lens)) /\ i <= List.length lens.
Proof.
  induction lens as [ | x l IH ]; intros acc u H; cbn [cum upper_bound].
  - cbn. lia.
  - cbv zeta. destruct (Nat.ltb_spec u (acc + x)).
    + cbn. lia.
    + specialize (IH (acc + x) u ltac:(lia)). cbv zeta in IH. set (i := upper_bound (cum (acc + x) l) u) in *.
      cbn [firstn sum fold_right List.length] in *. unfold sum in *. cbn [firstn fold_right] in *. lia.
Qed.
Lemma sum_firstn_mono lens : forall i j, i <= j -> sum (firstn i lens) <= sum (firstn j lens).
Proof.
  induction lens as [ | x l IH ]; intros i j H; [ now rewrite !firstn_nil | ].
  destruct i as [ | i ]; [ cbn; lia | ]. destruct j as [ | j ]; [ lia | ]. cbn. specialize (IH i j ltac:(lia)). unfold sum in *. lia.
Qed.
Lemma sum_firstn_S lens i : i < List.length lens -> sum (firstn (S i) lens) = sum (firstn i lens) + nth i lens 0.
Proof.
  revert i. induction lens as [ | x l IH ]; intros i H; [ cbn in H; lia | ].
  destruct i as [ | i ]; [ cbn; lia | ]. cbn in H. specialize (IH i ltac:(lia)). cbn [firstn] in *. unfold sum in *. cbn [fold_right nth] in *.
  rewrite IH. lia.
Qed.
Lemma cum_nth lens : forall acc i, i < List.length lens -> nth i (cum acc lens) 0 = acc + sum (firstn (S i) lens).
Proof.
  induction lens as [ | x l IH ]; intros acc i H; [ cbn in H; lia | ].
  destruct i as [ | i ]; [ cbn; lia | ]. cbn [cum nth]. rewrite IH by (cbn in H; lia). cbn. unfold sum. lia.
Qed.

Lemma find_join_some lens u i l : find_join (cum 0 lens) u = Some (i, l) <->
  i < List.length lens /\ l < nth i lens 0 /\ u = sum (firstn i lens) + l.
Proof.
  unfold find_join. rewrite cum_length.
  destruct (ub_cum lens 0 u (Nat.le_0_l u)) as (A & B & C). set (k := upper_bound (cum 0 lens) u) in *. cbv zeta.
  assert (P : k < List.length lens -> match k with O => 0 | S j => nth j (cum 0 lens) 0 end = sum (firstn k lens)).
  { intro K. destruct k as [ | j ]; [ reflexivity | ]. rewrite cum_nth by lia. reflexivity. }
  destruct (Nat.eqb_spec k (List.length lens)) as [ E | E ].
  - split; [ discriminate | ]. intros (H1 & H2 & H3). exfalso.
    assert (M := sum_firstn_mono lens (S i) k ltac:(lia)). rewrite sum_firstn_S in M by lia. lia.
  - rewrite P by lia. assert (K : k < List.length lens) by lia. specialize (B K). rewrite sum_firstn_S in B by exact K. split.
    + intro X. injection X as <- <-. lia.
    + intros (H1 & H2 & H3). assert (k = i).
      { destruct (Nat.lt_trichotomy k i) as [ L | [ L | L ] ]; [ | assumption | ]; exfalso.
        - assert (M := sum_firstn_mono lens (S k) i ltac:(lia)). rewrite sum_firstn_S in M by lia. lia.
        - assert (M := sum_firstn_mono lens (S i) k ltac:(lia)). rewrite sum_firstn_S in M by lia. lia. }
      subst i. do 2 f_equal. lia.
Qed.
Lemma find_join_none lens u : find_join (cum 0 lens) u = None <-> sum lens <= u.
Proof.
  unfold find_join. rewrite cum_length.
  destruct (ub_cum lens 0 u (Nat.le_0_l u)) as (A & B & C). set (k := upper_bound (cum 0 lens) u) in *. cbv zeta.
  destruct (Nat.eqb_spec k (List.length lens)) as [ E | E ].
  - rewrite E, firstn_all in A. split; auto.
  - split; [ discriminate | ]. intro H. specialize (B ltac:(lia)).
    assert (M := sum_firstn_mono lens (S k) (List.length lens) ltac:(lia)). rewrite firstn_all in M. lia.
Qed.

(** ** finds *)
Lemma unlim_app ds d : unlim (ds ++ [d]) = match unlim ds with Some u => Some u | None => if d_unlim d then Some d else None end.
Proof. unfold unlim. induction ds as [ | x ds IH ]; cbn; [ reflexivity | ]. destruct (d_unlim x); auto. Qed.
Lemma get_dim_app ds d n : get_dim (ds ++ [d]) n = match get_dim ds n with Some u => Some u | None => if String.eqb n (d_name d) then Some d else None end.
Proof. unfold get_dim. induction ds as [ | x ds IH ]; cbn; [ reflexivity | ]. destruct (String.eqb n (d_name x)); auto. Qed.
Lemma add_dim_ok ds d ds' : add_dim ds d = Ok ds' -> ds' = ds ++ [d] /\ get_dim ds (d_name d) = None.
Proof. unfold add_dim, has_dim. destruct (get_dim ds (d_name d)) eqn:E; [ discriminate | ]. intro H. injection H as <-. auto. Qed.
Lemma get_dim_name ds n d : get_dim ds n = Some d -> d_name d = n /\ In d ds.
Proof. unfold get_dim. intro H. apply find_some in H. destruct H as (A & B). apply String.eqb_eq in B. auto. Qed.
Lemma unlim_some ds u : unlim ds = Some u -> d_unlim u = true /\ In u ds.
Proof. unfold unlim. intro H. apply find_some in H. tauto. Qed.

Definition uname (ds : list dim) : option string := option_map d_name (unlim ds).

Lemma uname_set_len ds n l : uname (set_len ds n l) = uname ds.
Proof.
  unfold uname, unlim, set_len. induction ds as [ | d ds IH ]; cbn; [ reflexivity | ].
  destruct (String.eqb n (d_name d)); cbn; destruct (d_unlim d); cbn; auto.
Qed.

Lemma extend_ok len c a a' : extend len c a = Ok a' ->
  a_pos a' = a_pos a ++ [last (a_pos a) 0 + len] /\ uname (a_dims a') = uname (a_dims a) /\
  a_vars a' = a_vars a /\ a_join a' = a_join a /\ a_union a' = a_union a /\ a_files a' = a_files a /\
  (a_coords a' = a_coords a ++ match c with Some l => l | None => [] end) /\
  match c with Some l => List.length l = len | None => True end.
Proof.
  unfold extend. intro H.
  destruct c as [ l | ]; cbn [obind] in H; [ destruct (Nat.eqb_spec (List.length l) len); cbn [obind] in H; [ | discriminate ] | ];
    injection H as <-; cbn; (split; [ reflexivity | ]); (split; [ destruct (unlim (a_dims a)); [ apply uname_set_len | reflexivity ] | ]);
    rewrite ?app_nil_r; auto 10.
Qed.

(** ** the unlimited dimension and the positions *)
Definition same_core (a a' : agg) : Prop := a_pos a' = a_pos a /\ a_files a' = a_files a /\ a_coords a' = a_coords a.

Lemma ofold_pres {A S} (P : S -> Prop) (f : S -> A -> outcome S) l :
  (forall s x s', P s -> f s x = Ok s' -> P s') -> forall s s', P s -> ofold f l s = Ok s' -> P s'.
Proof.
  intro H. induction l as [ | x l IH ]; intros s s' HP E; cbn in E; [ injection E as <-; exact HP | ].
  destruct (f s x) as [ s1 | | | ] eqn:E1; cbn in E; try discriminate. apply (IH s1 s'); eauto.
Qed.

Lemma join_dims_uname f un m l st st' : uname (fst st) = Some m -> ofold (join_dims f un) l st = Ok st' -> uname (fst st') = Some m.
Proof.
  apply (ofold_pres (fun st => uname (fst st) = Some m)). intros [ ds ok ] n [ ds' ok' ] H E. cbn in *.
  destruct (String.eqb n un); [ congruence | ].
  destruct (get_dim (f_dims f) n) as [ rd | ]; [ | discriminate ].
  destruct (get_dim ds n) as [ ad | ]; [ congruence | ].
  destruct (add_dim ds rd) as [ ds1 | | | ] eqn:E1; cbn in E; try discriminate. injection E as <- <-.
  apply add_dim_ok in E1. destruct E1 as (-> & _). unfold uname in *. rewrite unlim_app.
  destruct (unlim ds); [ exact H | discriminate ].
Qed.
Lemma join_var_core f un m a v a' : uname (a_dims a) = Some m -> join_var f un a v = Ok a' ->
  uname (a_dims a') = Some m /\ same_core a a'.
Proof.
  intros H E. unfold join_var in E. destruct (has_var (a_vars a) (fst v)); [ injection E as <-; repeat split; auto | ].
  destruct (has_unlim (f_dims f) (snd v)); [ | injection E as <-; repeat split; auto ].
  destruct (ofold (join_dims f un) (snd v) (a_dims a, true)) as [ [ ds ok ] | | | ] eqn:E1; cbn in E; try discriminate.
  assert (U := join_dims_uname f un m _ (a_dims a, true) _ H E1). cbn in U.
  destruct ok; [ | injection E as <-; cbn; repeat split; auto ].
  destruct (add_var (a_vars a) v) as [ vs | | | ]; cbn in E; try discriminate. injection E as <-. cbn. repeat split; auto.
Qed.
Lemma join_vars_core f un m l a a' : uname (a_dims a) = Some m -> ofold (join_var f un) l a = Ok a' ->
  uname (a_dims a') = Some m /\ same_core a a'.
Proof.
  intros H E. apply (ofold_pres (fun b => uname (a_dims b) = Some m /\ same_core a b) (join_var f un) l) with (s := a) (s' := a'); auto.
  - intros s x s' (H1 & H2) E1. destruct (join_var_core f un m s x s' H1 E1) as (A & B). split; [ exact A | ].
    unfold same_core in *. intuition congruence.
  - repeat split; auto.
Qed.

(** a file adds no unlimited dimension if it has none, or if there is one already *)
Lemma union_dims_uname f l st st' : (uname (fst st) <> None \/ unlim (f_dims f) = None) ->
  ofold (union_dims f) l st = Ok st' -> uname (fst st') = uname (fst st).
Proof.
  intros H E. apply (ofold_pres (fun s => uname (fst s) = uname (fst st)) (union_dims f) l) with (s := st) (s' := st'); auto.
  clear E. intros [ ds ok ] n [ ds' ok' ] P E. cbn in *.
  destruct (get_dim (f_dims f) n) as [ rd | ] eqn:Er; [ | discriminate ].
  destruct (get_dim ds n) as [ ad | ]; [ congruence | ].
  destruct (d_unlim rd && match unlim ds with Some _ => true | None => false end) eqn:Eb; [ congruence | ].
  destruct (add_dim ds rd) as [ ds1 | | | ] eqn:E1; cbn in E; try discriminate. injection E as <- <-.
  apply add_dim_ok in E1. destruct E1 as (-> & _). rewrite <- P. unfold uname in *. rewrite unlim_app.
  destruct (unlim ds) as [ u | ] eqn:Eu; [ reflexivity | ]. destruct (d_unlim rd) eqn:Ed; [ | reflexivity ]. exfalso.
  destruct H as [ H | H ]; [ rewrite <- P in H; now apply H | ].
  apply get_dim_name in Er. destruct Er as (_ & I). unfold unlim in H. assert (Q := find_none _ _ H rd I). congruence.
Qed.
Lemma union_var_core f i a v a' : (uname (a_dims a) <> None \/ unlim (f_dims f) = None) -> union_var f i a v = Ok a' ->
  uname (a_dims a') = uname (a_dims a) /\ same_core a a'.
Proof.
  intros H E. unfold union_var in E.
  destruct (mem (fst v) (a_join a)); [ injection E as <-; repeat split; auto | ].
  destruct (smem (fst v) (a_union a)); [ injection E as <-; repeat split; auto | ].
  destruct (ofold (union_dims f) (snd v) (a_dims a, true)) as [ [ ds ok ] | | | ] eqn:E1; cbn in E; try discriminate.
  assert (U := union_dims_uname f _ (a_dims a, true) _ H E1). cbn in U.
  destruct ok; [ | injection E as <-; cbn; repeat split; auto ].
  destruct (add_var (a_vars a) v) as [ vs | | | ]; cbn in E; try discriminate. injection E as <-. cbn. repeat split; auto.
Qed.
Lemma union_vars_core f i l a a' : (uname (a_dims a) <> None \/ unlim (f_dims f) = None) -> ofold (union_var f i) l a = Ok a' ->
  uname (a_dims a') = uname (a_dims a) /\ same_core a a'.
Proof.
  intros H E. apply (ofold_pres (fun b => uname (a_dims b) = uname (a_dims a) /\ same_core a b) (union_var f i) l) with (s := a) (s' := a'); auto.
  - intros s x s' (H1 & H2) E1. destruct (union_var_core f i s x s') as (A & B); [ rewrite H1; exact H | exact E1 | ].
    split; [ congruence | ]. unfold same_core in *. intuition congruence.
  - repeat split; auto.
Qed.

(** records that a file adds to a join along an existing dimension *)
Definition adds (un : option string) (f : file) : nat * option string :=
  match unlim (f_dims f), un with
  | None, _ => (0, un)
  | Some u, None => (d_len u, Some (d_name u))
  | Some u, Some n => if String.eqb (d_name u) n then (d_len u, un) else (0, un)
  end.
Fixpoint contrib (un : option string) (fs : list file) : list nat :=
  match fs with [] => [] | f :: fs' => fst (adds un f) :: contrib (snd (adds un f)) fs' end.
Fixpoint final_name (un : option string) (fs : list file) : option string :=
  match fs with [] => un | f :: fs' => final_name (snd (adds un f)) fs' end.

Lemma add_first_existing f c a : add_first JoinExisting f c = Ok a ->
  a_pos a = [fst (adds None f)] /\ uname (a_dims a) = snd (adds None f) /\ a_files a = [f].
Proof.
  unfold add_first, adds. intro H. destruct (unlim (f_dims f)) as [ u | ] eqn:E.
  - destruct (extend (d_len u) c _) as [ a1 | | | ] eqn:E1; cbn in H; try discriminate. injection H as <-.
    apply extend_ok in E1. destruct E1 as (P & U & _ & _ & _ & F & _). cbn in *. rewrite P, U, F. unfold uname. rewrite E. auto.
  - destruct (extend 0 None _) as [ a1 | | | ] eqn:E1; cbn in H; try discriminate. injection H as <-.
    apply extend_ok in E1. destruct E1 as (P & U & _ & _ & _ & F & _). cbn in *. rewrite P, U, F. unfold uname. rewrite E. auto.
Qed.
Lemma add_other_existing a f c a' : add_other JoinExisting a f c = Ok a' ->
  a_pos a' = a_pos a ++ [last (a_pos a) 0 + fst (adds (uname (a_dims a)) f)] /\
  uname (a_dims a') = snd (adds (uname (a_dims a)) f) /\ a_files a' = a_files a ++ [f].
Proof.
  unfold add_other, adds. cbn [a_dims a_files a_pos].
  set (b := {| a_dims := a_dims a |}).
  assert (Fin : forall (a1 : agg) i, uname (a_dims a1) <> None \/ unlim (f_dims f) = None ->
     ofold (union_var f i) (f_vars f) a1 = Ok a' -> a_pos a' = a_pos a1 /\ uname (a_dims a') = uname (a_dims a1) /\ a_files a' = a_files a1).
  { intros a1 i H E. destruct (union_vars_core f i _ _ _ H E) as (A & B & C & _). auto. }
  intro H. destruct (unlim (f_dims f)) as [ ru | ] eqn:Er.
  - assert (Un : uname (a_dims a) = option_map d_name (unlim (a_dims a))) by reflexivity.
    destruct (unlim (a_dims a)) as [ au | ] eqn:Ea; cbn [option_map] in Un.
    + rewrite Un. destruct (String.eqb (d_name ru) (d_name au)) eqn:En; cbn [negb] in H.
      * destruct (ofold (join_var f (d_name ru)) (f_vars f) b) as [ a2 | | | ] eqn:E2; cbn [obind] in H; try discriminate.
        destruct (join_vars_core f _ (d_name au) _ b a2 Un E2) as (U2 & P2 & F2 & _).
        destruct (extend (d_len ru) c a2) as [ a3 | | | ] eqn:E3; cbn [obind] in H; try discriminate.
        apply extend_ok in E3. destruct E3 as (P3 & U3 & _ & _ & _ & F3 & _).
        destruct (Fin a3 _ ltac:(left; rewrite U3, U2; discriminate) H) as (Q1 & Q2 & Q3).
        rewrite Q1, Q2, Q3, P3, U3, F3, P2, U2, F2. auto.
      * destruct (extend 0 None b) as [ a3 | | | ] eqn:E3; cbn [obind] in H; try discriminate.
        apply extend_ok in E3. destruct E3 as (P3 & U3 & _ & _ & _ & F3 & _).
        destruct (Fin a3 _ ltac:(left; rewrite U3; cbn; rewrite Un; discriminate) H) as (Q1 & Q2 & Q3).
        rewrite Q1, Q2, Q3, P3, U3, F3. cbn. auto.
    + rewrite Un. destruct (add_dim (a_dims a) ru) as [ ds | | | ] eqn:E1; cbn [obind] in H; try discriminate.
      apply add_dim_ok in E1. destruct E1 as (-> & _).
      assert (U1 : uname (a_dims a ++ [ru]) = Some (d_name ru)).
      { unfold uname. rewrite unlim_app. rewrite Ea. destruct (unlim_some _ _ Er) as (-> & _). reflexivity. }
      destruct (ofold (join_var f (d_name ru)) (f_vars f) (with_dims b (a_dims a ++ [ru]))) as [ a2 | | | ] eqn:E2; cbn [obind] in H; try discriminate.
      destruct (join_vars_core f _ (d_name ru) _ (with_dims b (a_dims a ++ [ru])) a2 U1 E2) as (U2 & P2 & F2 & _).
      destruct (extend (d_len ru) c a2) as [ a3 | | | ] eqn:E3; cbn [obind] in H; try discriminate.
      apply extend_ok in E3. destruct E3 as (P3 & U3 & _ & _ & _ & F3 & _).
      destruct (Fin a3 _ ltac:(left; rewrite U3, U2; discriminate) H) as (Q1 & Q2 & Q3).
      rewrite Q1, Q2, Q3, P3, U3, F3, P2, U2, F2. auto.
  - destruct (extend 0 None b) as [ a3 | | | ] eqn:E3; cbn [obind] in H; try discriminate.
    apply extend_ok in E3. destruct E3 as (P3 & U3 & _ & _ & _ & F3 & _).
    destruct (Fin a3 _ (or_intror eq_refl) H) as (Q1 & Q2 & Q3). rewrite Q1, Q2, Q3, P3, U3, F3. cbn. auto.
Qed.

Lemma positions_existing others : forall a a' lens un0 fs0, a_pos a = cum 0 lens -> uname (a_dims a) = un0 -> a_files a = fs0 ->
  ofold (fun a fc => add_other JoinExisting a (fst fc) (snd fc)) others a = Ok a' ->
  a_pos a' = cum 0 (lens ++ contrib un0 (map fst others)) /\ a_files a' = fs0 ++ map fst others /\
  uname (a_dims a') = final_name un0 (map fst others).
Proof.
  induction others as [ | [ f c ] others IH ]; intros a a' lens un0 fs0 P U F E; cbn in E.
  - injection E as <-. cbn. rewrite !app_nil_r. auto.
  - destruct (add_other JoinExisting a f c) as [ a1 | | | ] eqn:E1; cbn in E; try discriminate.
    apply add_other_existing in E1. rewrite P, U, F in E1. destruct E1 as (P1 & U1 & F1).
    rewrite cum_snoc in P1. destruct (IH a1 a' _ _ _ P1 U1 F1 E) as (P2 & F2 & U2).
    cbn [map fst contrib final_name]. rewrite P2, F2, U2, <- !app_assoc. auto.
Qed.

(** ** union *)
(** the files agree on lengths and unlimited dimensions, and define the dimensions of their shapes *)
Definition compatible (fs : list file) : Prop :=
  (forall f g n d e, In f fs -> In g fs -> get_dim (f_dims f) n = Some d -> get_dim (f_dims g) n = Some e ->
     d_len d = d_len e /\ d_unlim d = d_unlim e) /\
  (forall f g d e, In f fs -> In g fs -> In d (f_dims f) -> In e (f_dims g) -> d_unlim d = true -> d_unlim e = true ->
     d_name d = d_name e) /\
  (forall f v n, In f fs -> In v (f_vars f) -> In n (snd v) -> get_dim (f_dims f) n <> None).

Definition dims_from (fs : list file) (ds : list dim) : Prop :=
  (forall n d, get_dim ds n = Some d -> exists f, In f fs /\ get_dim (f_dims f) n = Some d) /\
  (forall d, In d ds -> exists f, In f fs /\ In d (f_dims f)).

Lemma union_dims_ok fs f : compatible fs -> In f fs -> forall shape ds,
  (forall n, In n shape -> get_dim (f_dims f) n <> None) -> dims_from fs ds ->
  exists ds', ofold (union_dims f) shape (ds, true) = Ok (ds', true) /\ dims_from fs ds'.
Proof.
  intros (C1 & C2 & _) Hf. induction shape as [ | n shape IH ]; intros ds Hs D; [ exists ds; auto | ].
  cbn [ofold union_dims].
  destruct (get_dim (f_dims f) n) as [ rd | ] eqn:Er; [ | exfalso; apply (Hs n); [ now left | exact Er ] ].
  destruct (get_dim ds n) as [ ad | ] eqn:Ea.
  - destruct (proj1 D n ad Ea) as (g & Hg & Eg). destruct (C1 f g n rd ad Hf Hg Er Eg) as (-> & ->).
    rewrite Nat.eqb_refl, Bool.eqb_reflx. cbn [obind andb]. apply IH; auto. intros; apply Hs; now right.
  - assert (B : d_unlim rd && match unlim ds with Some _ => true | None => false end = false).
    { destruct (d_unlim rd) eqn:Ed; [ | reflexivity ]. destruct (unlim ds) as [ u | ] eqn:Eu; [ exfalso | reflexivity ].
      destruct (unlim_some _ _ Eu) as (U1 & U2). destruct (proj2 D u U2) as (g & Hg & Ig).
      destruct (get_dim_name _ _ _ Er) as (N1 & N2). assert (Q := C2 f g rd u Hf Hg N2 Ig Ed U1).
      unfold get_dim in Ea. assert (F := find_none _ _ Ea u U2). cbn in F. rewrite <- Q, N1, String.eqb_refl in F. discriminate. }
    rewrite B. unfold add_dim, has_dim. destruct (get_dim_name _ _ _ Er) as (N1 & N2). rewrite N1, Ea. cbn [obind].
    apply IH; [ intros; apply Hs; now right | ]. split.
    + intros m d E. rewrite get_dim_app in E. destruct (get_dim ds m) eqn:Em; [ injection E as ->; apply (proj1 D m d Em) | ].
      destruct (String.eqb_spec m (d_name rd)); [ injection E as <-; exists f; split; [ exact Hf | ]; rewrite e, N1; exact Er | discriminate ].
    + intros d I. apply in_app_iff in I. destruct I as [ I | [ <- | [] ] ]; [ apply (proj2 D d I) | ]. exists f. auto.
Qed.

Definition union_inv (fs : list file) (a : agg) : Prop :=
  dims_from fs (a_dims a) /\ a_join a = [] /\ (forall v, has_var (a_vars a) v = smem v (a_union a)).

Lemma has_var_app vs v w : has_var (vs ++ [v]) w = has_var vs w || String.eqb w (fst v).
Proof.
  unfold has_var, get_shape. induction vs as [ | x vs IH ]; cbn.
  - destruct (String.eqb w (fst v)); reflexivity.
  - destruct (String.eqb w (fst x)); cbn; auto.
Qed.
Lemma has_var_cons v vs w : has_var (v :: vs) w = String.eqb w (fst v) || has_var vs w.
Proof. unfold has_var, get_shape. cbn. destruct (String.eqb w (fst v)); reflexivity. Qed.

Lemma union_vars_ok fs f i : compatible fs -> In f fs -> forall l a,
  (forall v, In v l -> In v (f_vars f)) -> union_inv fs a ->
  exists a', ofold (union_var f i) l a = Ok a' /\ union_inv fs a' /\ a_files a' = a_files a /\
    forall v, sfind v (a_union a') = match sfind v (a_union a) with Some k => Some k | None => if has_var l v then Some i else None end.
Proof.
  intros C Hf. induction l as [ | v l IH ]; intros a Hl Inv.
  - exists a. cbn. split; [ reflexivity | ]. split; [ exact Inv | ]. split; [ reflexivity | ]. intro v. destruct (sfind v (a_union a)); reflexivity.
  - destruct Inv as (D & J & V). cbn [ofold]. unfold union_var at 1. rewrite J. cbn [mem existsb].
    destruct (smem (fst v) (a_union a)) eqn:Es.
    + cbn [obind]. destruct (IH a) as (a' & E & I' & F' & S); [ intros; apply Hl; now right | split; auto | ].
      exists a'. split; [ exact E | ]. split; [ exact I' | ]. split; [ exact F' | ]. intro w. rewrite S.
      destruct (sfind w (a_union a)) eqn:Ew; [ reflexivity | ]. rewrite has_var_cons.
      destruct (String.eqb_spec w (fst v)); [ | reflexivity ]. subst w. unfold smem in Es. rewrite Ew in Es. discriminate.
    + destruct (union_dims_ok fs f C Hf (snd v) (a_dims a)) as (ds & E1 & D1).
      { intros n Hn. apply (proj2 (proj2 C) f v n Hf); [ apply Hl; now left | exact Hn ]. }
      { exact D. }
      rewrite E1. cbn [obind]. cbn [with_dims a_vars]. unfold add_var. rewrite V, Es. cbn [obind].
      set (a1 := with_vars _ _).
      destruct (IH a1) as (a' & E & I' & F' & S); [ intros; apply Hl; now right | | ].
      { split; [ exact D1 | ]. split; [ exact J | ]. intro w. cbn. rewrite has_var_app, V. unfold smem. rewrite sfind_sput.
        destruct (String.eqb w (fst v)); [ apply orb_true_r | apply orb_false_r ]. }
      exists a'. split; [ exact E | ]. split; [ exact I' | ]. split; [ exact F' | ]. intro w. rewrite S. cbn. rewrite sfind_sput.
      rewrite has_var_cons. destruct (String.eqb_spec w (fst v)); [ | reflexivity ]. subst w.
      unfold smem in Es. destruct (sfind (fst v) (a_union a)); [ discriminate | reflexivity ].
Qed.

(** index of the first file that has the variable *)
Fixpoint first_with (v : string) (fs : list file) (i : nat) : option nat :=
  match fs with [] => None | f :: fs' => if has_var (f_vars f) v then Some i else first_with v fs' (S i) end.

Lemma union_files_ok all : compatible all -> forall others a, (forall fc, In fc others -> In (fst fc) all) ->
  union_inv all a ->
  exists a', ofold (fun a fc => add_other Union a (fst fc) (snd fc)) others a = Ok a' /\ union_inv all a' /\
    a_files a' = a_files a ++ map fst others /\
    forall v, sfind v (a_union a') = match sfind v (a_union a) with Some k => Some k
                                     | None => first_with v (map fst others) (List.length (a_files a)) end.
Proof.
  intros C. induction others as [ | [ f c ] others IH ]; intros a Hi Inv.
  - exists a. cbn. rewrite app_nil_r. split; [ reflexivity | ]. split; [ exact Inv | ]. split; [ reflexivity | ].
    intro v. destruct (sfind v (a_union a)); reflexivity.
  - cbn [ofold fst snd]. unfold add_other at 1. cbn [obind a_files].
    set (b := {| a_dims := a_dims a |}).
    assert (L : List.length (a_files a ++ [f]) - 1 = List.length (a_files a)) by (rewrite app_length; cbn; lia). rewrite L.
    destruct (union_vars_ok all f (List.length (a_files a)) C (Hi (f, c) (or_introl eq_refl)) (f_vars f) b) as (a1 & E1 & I1 & F1 & S1);
      [ auto | exact Inv | ].
    rewrite E1. cbn [obind]. destruct (IH a1) as (a' & E & I' & F' & S); [ intros; apply Hi; now right | exact I1 | ].
    exists a'. split; [ exact E | ]. split; [ exact I' | ]. split.
    + rewrite F', F1. cbn. now rewrite <- app_assoc.
    + intro v. rewrite S, S1. cbn [b a_union]. destruct (sfind v (a_union a)); [ reflexivity | ].
      cbn [map first_with fst]. destruct (has_var (f_vars f) v); [ reflexivity | ]. f_equal. rewrite F1. cbn. rewrite app_length. cbn. lia.
Qed.

Lemma first_with_spec v : forall fs k, match first_with v fs k with
  | Some i => k <= i /\ (exists f, nth_error fs (i - k) = Some f /\ has_var (f_vars f) v = true) /\
              forall j f, j < i - k -> nth_error fs j = Some f -> has_var (f_vars f) v = false
  | None => forall f, In f fs -> has_var (f_vars f) v = false
  end.
Proof.
  induction fs as [ | f fs IH ]; intro k; cbn [first_with]; [ intros f [] | ].
  destruct (has_var (f_vars f) v) eqn:E.
  - rewrite Nat.sub_diag. split; [ lia | ]. split; [ exists f; auto | ]. intros j g H. lia.
  - specialize (IH (S k)). destruct (first_with v fs (S k)) as [ i | ].
    + destruct IH as (L & (g & Eg & Hg) & R). split; [ lia | ]. split.
      * exists g. replace (i - k) with (S (i - S k)) by lia. auto.
      * intros j h Hj Ej. destruct j as [ | j ]; [ cbn in Ej; congruence | ]. apply (R j h); [ lia | exact Ej ].
    + intros g [ <- | I ]; auto.
Qed.

Lemma init_union vs : forall m w, sfind w (fold_left (fun m v => if mem (fst v) [] then m else sput (fst v) 0 m) vs m) =
  if has_var vs w then match sfind w m with Some k => Some (if existsb (fun v => String.eqb w (fst v)) vs then 0 else k) | None => Some 0 end else sfind w m.
Proof.
  induction vs as [ | v vs IH ]; intros m w; cbn [fold_left mem existsb]; [ reflexivity | ].
  rewrite IH, has_var_cons, sfind_sput. destruct (String.eqb w (fst v)) eqn:E; cbn [orb].
  - destruct (has_var vs w), (existsb (fun v0 => String.eqb w (fst v0)) vs); destruct (sfind w m); reflexivity.
  - destruct (has_var vs w); [ destruct (sfind w m); reflexivity | reflexivity ].
Qed.
