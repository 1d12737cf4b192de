(** Lemmas for VintProps.v: positions of points in arrays, loops without common strides, sequences of writes. *)
From Coq Require Import ZArith QArith String List Bool Arith Lia.
From Coq Require Import ZifyBool ZifyNat.
From Verif Require Import Base IndexSpec LoopModel LoopProofs LoopProps SearchModel VintModel.
Import ListNotations.
Local Open Scope string_scope.
Local Open Scope list_scope.
Local Open Scope nat_scope.

(** ** shapes *)
Lemma strides_ok rest : forall d prev, prev > 0 -> (forall l, In l rest -> l > 0) -> exists r, strides d prev rest = Ok r.
Proof.
  induction rest as [ | l rest IH ]; intros d prev P H; cbn [strides]; [ eauto | ].
  destruct (Nat.eqb_spec prev 0); [ lia | ].
  destruct (IH (d * prev) l) as (r & E); [ apply H; now left | intros; apply H; now right | ]. rewrite E. cbn [obind]. eauto.
Qed.
Lemma make_dims_ok names lens : List.length names = List.length lens -> (forall l, In l lens -> l > 0) ->
  exists a, make_dims names lens = Ok a /\ a_shared a = map (fun _ => true) lens.
Proof.
  intros L H. unfold make_dims. rewrite L, Nat.eqb_refl. cbn [negb]. destruct lens as [ | l rest ]; [ eexists; split; reflexivity | ].
  assert (l > 0) by (apply H; now left). destruct (Nat.eqb_spec l 0); [ lia | ].
  destruct (strides_ok rest 1 l) as (r & E); [ assumption | intros; apply H; now right | ]. rewrite E. cbn [obind]. eexists; split; reflexivity.
Qed.

(** the array belongs to the shape [sh] with the lengths [lenf]; all its dimensions but [z] are shared *)
Definition is_z (z : option string) (n : string) : bool := match z with Some x => String.eqb n x | None => false end.
Definition good (lenf : string -> nat) (z : option string) (sh : list string) (a : adims) : Prop :=
  wf a /\ a_names a = sh /\ a_lens a = map lenf sh /\
  forall j, j < List.length sh -> nth j (a_shared a) false = negb (is_z z (nth j sh "")).

Lemma index_of_in n l : In n l -> exists i, index_of n l = Some i.
Proof. intro I. destruct (index_of n l) eqn:E; [ eauto | ]. apply index_of_none in E. contradiction. Qed.

Lemma good_dims lenf sh : NoDup sh -> (forall n, lenf n > 0) -> exists a, make_dims sh (map lenf sh) = Ok a /\ good lenf None sh a.
Proof.
  intros N P. assert (Pl : forall l, In l (map lenf sh) -> l > 0) by (intros l I; apply in_map_iff in I; destruct I as (n & <- & _); apply P).
  destruct (make_dims_ok sh (map lenf sh)) as (a & E & S); [ now rewrite map_length | exact Pl | ].
  destruct (C35_make_dims _ _ _ N Pl E) as (W & Ea & El). exists a. split; [ exact E | ]. split; [ exact W | ]. split; [ exact Ea | ]. split; [ exact El | ].
  intros j H. rewrite S, map_map. cbn [is_z negb]. rewrite (nth_indep _ false true) by (now rewrite map_length). clear. revert j; induction sh; intros [ | j ]; cbn; auto.
Qed.
Lemma good_not_shared lenf sh a z : good lenf None sh a -> good lenf (Some z) sh (set_not_shared a z).
Proof.
  intros (W & Ea & El & S). split; [ now apply C35_set_not_shared | ]. destruct W as (W1 & W2 & W3 & W4 & W5 & W6). unfold set_not_shared. rewrite Ea.
  rewrite Ea in W1, W4. destruct (index_of z sh) as [ i | ] eqn:Ei; cbn; repeat split; auto.
  - apply index_of_some in Ei. destruct Ei as (Hi & Hn). intros j Hj. rewrite nth_upd by lia. destruct (Nat.eqb_spec j i) as [ -> | Nj ].
    + rewrite Hn, String.eqb_refl. reflexivity.
    + rewrite S by exact Hj. cbn. destruct (String.eqb_spec (nth j sh "") z) as [ Q | ]; [ | reflexivity ].
      exfalso. apply Nj. apply (proj1 (NoDup_nth sh "") W4); auto. congruence.
  - apply index_of_none in Ei. intros j Hj. rewrite S by exact Hj. cbn. destruct (String.eqb_spec (nth j sh "") z) as [ Q | ]; [ | reflexivity ].
    exfalso. apply Ei. rewrite <- Q. now apply nth_In.
Qed.

Section Dims.
  Variables (dim_len : string -> option nat) (unlim : option string).
  Notation size := (dim_size dim_len).
  Notation isu := (is_unlim unlim).
  Hypothesis POS : forall n, size n > 0.

  (** lengths in one record *)
  Definition size1 (n : string) : nat := if isu n then 1 else size n.
  (** the unlimited dimension is the last one of a shape, if it is there *)
  Definition unlim_last (sh : list string) : Prop := forall u, unlim = Some u -> In u sh -> exists sh', sh = sh' ++ [u].

  Lemma size1_pos n : size1 n > 0.
  Proof. unfold size1. destruct (isu n); [ lia | apply POS ]. Qed.

  Lemma map_size1 sh u : unlim = Some u -> ~ In u sh -> map size1 sh = map size sh.
  Proof.
    intros Eu I. apply map_ext_in. intros n In'. unfold size1, is_unlim. rewrite Eu. destruct (String.eqb_spec n u); [ subst; contradiction | reflexivity ].
  Qed.

  Lemma good_force z sh a : good size z sh a -> unlim_last sh -> exists a', force1 unlim a = Ok a' /\ good size1 z sh a'.
  Proof.
    intros G U. assert (G' := G). destruct G as (W & Ea & El & S). unfold force1. destruct unlim as [ u | ] eqn:Eu.
    2: { exists a. split; [ reflexivity | ]. assert (Q : forall n, size1 n = size n) by (intro n; unfold size1, is_unlim; now rewrite Eu).
         split; [ exact W | ]. split; [ exact Ea | ]. split; [ rewrite El; apply map_ext; intro; now rewrite Q | exact S ]. }
    assert (ND : NoDup sh) by (rewrite <- Ea; apply W).
    unfold set_length. rewrite Ea. destruct (index_of u sh) as [ i | ] eqn:Ei.
    - assert (Ei' := Ei). apply index_of_some in Ei'. destruct Ei' as (Hi & Hn).
      assert (Iu : In u sh) by (rewrite <- Hn; now apply nth_In). destruct (U u Eu Iu) as (sh' & ->).
      assert (Li : i = List.length sh').
      { apply (proj1 (NoDup_nth (sh' ++ [u]) "") ND); [ exact Hi | rewrite app_length; cbn; lia | ]. rewrite Hn. symmetry. apply nth_middle. }
      cbn [Nat.eqb]. eexists. split; [ reflexivity | ].
      assert (Rk : rank a = List.length sh' + 1) by (unfold rank; rewrite El, map_length, app_length; reflexivity).
      assert (W' : wf {| a_names := sh' ++ [u]; a_lens := upd (a_lens a) i 1; a_deltas := a_deltas a; a_shared := a_shared a |}).
      { apply (C35_set_length_last a u 1); [ exact W | rewrite Ea, Ei, Rk; f_equal; lia | ]. unfold set_length. rewrite Ea, Ei. reflexivity. }
      split; [ exact W' | ]. split; [ reflexivity | ]. split; [ | exact S ]. cbn [a_lens]. rewrite El, Li, !map_app.
      assert (Nu : ~ In u sh'). { apply NoDup_remove_2 in ND. now rewrite app_nil_r in ND. }
      assert (M : map size1 sh' = map size sh') by (now apply (map_size1 sh' u)). rewrite M. cbn [map].
      assert (S1 : size1 u = 1) by (unfold size1, is_unlim; now rewrite Eu, String.eqb_refl). rewrite S1.
      rewrite <- (map_length size sh'). clear. induction (map size sh') as [ | x l IH ]; cbn; [ reflexivity | now rewrite IH ].
    - apply index_of_none in Ei. exists a. split; [ reflexivity | ]. split; [ exact W | ]. split; [ exact Ea | ]. split; [ | exact S ]. rewrite El. symmetry. now apply (map_size1 sh u).
  Qed.

  (** the positions of one record are positions of all records *)
  Lemma lin_size1 sh (p : string -> nat) : NoDup sh -> unlim_last sh -> lin (map size1 sh) (map p sh) = lin (map size sh) (map p sh).
  Proof.
    intros ND U. destruct unlim as [ u | ] eqn:Eu.
    - destruct (in_dec string_dec u sh) as [ I | I ].
      + destruct (U u Eu I) as (sh' & ->). assert (Nu : ~ In u sh') by (apply NoDup_remove_2 in ND; now rewrite app_nil_r in ND).
        rewrite !map_app. rewrite (map_size1 sh' u Eu Nu). rewrite !lin_app by (now rewrite !map_length). cbn [map lin]. lia.
      + now rewrite (map_size1 sh u Eu I).
    - f_equal. apply map_ext. intro n. unfold size1, is_unlim. now rewrite Eu.
  Qed.
End Dims.

(** ** points: a coordinate for every name *)
Definition put (p : string -> nat) (n : string) (v : nat) : string -> nat := fun m => if String.eqb m n then v else p m.
Lemma put_same p n v : put p n v n = v.
Proof. unfold put. now rewrite String.eqb_refl. Qed.
Lemma put_other p n v m : m <> n -> put p n v m = p m.
Proof. unfold put. destruct (String.eqb_spec m n); [ contradiction | reflexivity ]. Qed.

Lemma inside_map lenf (q : string -> nat) sh : (forall n, In n sh -> q n < lenf n) -> inside (map lenf sh) (map q sh).
Proof. intro H. unfold inside. induction sh as [ | n sh IH ]; cbn; constructor; [ apply H; now left | apply IH; intros; apply H; now right ]. Qed.
Lemma inside_map_inv lenf (q : string -> nat) sh : inside (map lenf sh) (map q sh) -> forall n, In n sh -> q n < lenf n.
Proof.
  unfold inside. induction sh as [ | n sh IH ]; cbn; intros H m I; [ destruct I | ]. inversion H; subst. destruct I as [ <- | I ]; [ assumption | now apply IH ].
Qed.
Lemma shift_map (s q : string -> nat) sh : shift (map s sh) (map q sh) = map (fun n => s n + q n) sh.
Proof. induction sh as [ | n sh IH ]; cbn; [ reflexivity | now rewrite IH ]. Qed.
Lemma box_nth {A} (f : list nat -> A) start size idx : inside size idx -> nth_error (box f start size) (lin size idx) = Some (f (shift start idx)).
Proof.
  intro I. unfold box. rewrite nth_error_map, positions_nth. assert (L := lin_lt _ _ I). apply Nat.ltb_lt in L. rewrite L. cbn. now rewrite unlin_lin.
Qed.
Lemma box_length {A} (f : list nat -> A) start size : List.length (box f start size) = cells size.
Proof. unfold box. now rewrite map_length, positions_length. Qed.

(** the coordinates of a tuple of the group *)
Definition point (names : list string) (t : list nat) (n : string) : nat :=
  match index_of n names with Some i => nth i t 0 | None => 0 end.
Lemma sub_point names t lenf z sh a : good lenf z sh a ->
  sub names t a = map (fun n => if is_z z n then 0 else point names t n) sh.
Proof.
  intros (W & Ea & El & S). unfold sub, rank. rewrite El, map_length, Ea.
  assert (Q : forall (f : string -> nat), map f sh = map (fun j => f (nth j sh "")) (seq 0 (List.length sh))).
  { intro f. clear. induction sh as [ | n sh IH ]; cbn; [ reflexivity | ]. f_equal. rewrite <- seq_shift, map_map. exact IH. }
  rewrite Q. apply map_ext_in. intros j Hj. apply in_seq in Hj. rewrite S by lia. destruct (is_z z (nth j sh "")); reflexivity.
Qed.
Lemma point_map names (p : string -> nat) n : In n names -> point names (map p names) n = p n.
Proof.
  intro I. unfold point. destruct (index_of_in n names I) as (i & E). rewrite E. apply index_of_some in E. destruct E as (Hi & Hn).
  rewrite (nth_indep _ 0 (p "")) by (now rewrite map_length). rewrite map_nth. now rewrite Hn.
Qed.

(** moving along the dimension that is not shared *)
Lemma step_z lenf z sh a q k : good lenf (Some z) sh a ->
  lin (a_lens a) (map (fun n => if is_z (Some z) n then 0 else q n) sh) + k * dim_delta a z = lin (map lenf sh) (map (put q z k) sh).
Proof.
  intros (W & Ea & El & S). destruct W as (W1 & W2 & W3 & W4 & W5 & W6). rewrite El. unfold dim_delta. rewrite Ea. unfold rank in *. rewrite El in *.
  destruct (index_of z sh) as [ i | ] eqn:Ei.
  - apply index_of_some in Ei. destruct Ei as (Hi & Hn). rewrite W5 by (now rewrite map_length). rewrite Ea in W4. clear - Hi Hn W4.
    revert sh Hi Hn W4. induction i as [ | i IH ]; intros [ | n sh ] Hi Hn ND; cbn in Hi; try lia.
    + cbn in Hn. subst n. cbn [map lin firstn cells is_z]. rewrite put_same, String.eqb_refl.
      assert (Q : map (fun n => if String.eqb n z then 0 else q n) sh = map (put q z k) sh).
      { apply map_ext_in. intros n I. unfold put. destruct (String.eqb_spec n z); [ subst; inversion ND; contradiction | reflexivity ]. }
      rewrite Q. lia.
    + cbn [nth] in Hn. inversion ND as [ | x l Nx ND' ]; subst x l. cbn [map lin firstn cells]. rewrite <- (IH sh); [ | lia | exact Hn | exact ND' ].
      assert (n <> z) by (intros ->; apply Nx; rewrite <- Hn; apply nth_In; lia).
      rewrite put_other by assumption. cbn [is_z]. destruct (String.eqb_spec n z); [ contradiction | ]. lia.
  - apply index_of_none in Ei. rewrite Nat.mul_0_r, Nat.add_0_r. f_equal. apply map_ext_in. intros n I. unfold put. cbn. destruct (String.eqb_spec n z); [ subst; contradiction | reflexivity ].
Qed.
Lemma length_z lenf z sh a : good lenf (Some z) sh a -> In z sh -> dim_length a z = lenf z.
Proof.
  intros (W & Ea & El & S) I. unfold dim_length. rewrite Ea. destruct (index_of_in z sh I) as (i & E). rewrite E. apply index_of_some in E. destruct E as (Hi & Hn).
  rewrite El. rewrite (nth_indep _ 1 (lenf "")) by (now rewrite map_length). rewrite map_nth. now rewrite Hn.
Qed.
Lemma good_volume lenf z sh a : good lenf z sh a -> volume a = cells (map lenf sh).
Proof.
  intros (W & Ea & El & S). destruct W as (W1 & W2 & W3 & W4 & W5 & W6). unfold volume, rank in *. rewrite El in *. revert W3 W5. generalize (map lenf sh) as lens. intros lens W3 W5.
  destruct lens as [ | l rest ] eqn:Q; [ reflexivity | ]. rewrite <- Q in *. assert (Ne : lens <> []) by (rewrite Q; discriminate). clear l rest Q.
  destruct (exists_last Ne) as (pre & l & ->). rewrite app_length in *. cbn [List.length] in *.
  assert (D := W5 (List.length pre) ltac:(lia)). rewrite firstn_app, firstn_all, Nat.sub_diag in D. cbn [firstn] in D. rewrite app_nil_r in D.
  assert (Nd' : a_deltas a <> []) by (intro Z; rewrite Z in W3; cbn in W3; lia).
  destruct (exists_last Nd') as (dp & d & Ed). rewrite Ed in *. rewrite app_length in W3. cbn [List.length] in W3.
  rewrite app_nth2 in D by lia. replace (List.length pre - List.length dp) with 0 in D by lia. cbn [nth] in D.
  rewrite !last_last, LoopProofs.cells_app, D. cbn [cells]. lia.
Qed.

(** ** groups that differ in the number of common dimensions only *)
Definition same (g h : group) : Prop := g_names g = g_names h /\ g_lens g = g_lens h /\ g_arrays g = g_arrays h.
Lemma add_one_same a g h m j : same g h ->
  match add_one a (g, m) j, add_one a (h, m) j with
  | Ok (g', m1), Ok (h', m2) => same g' h' /\ m1 = m2 /\ (g_shared h = Some 0 -> g_shared h' = Some 0)
  | Ok _, _ => False | _, Ok _ => False | _, _ => True
  end.
Proof.
  intros (A & B & C). unfold add_one. rewrite <- A, <- B, <- C.
  destruct (rd (nth_error (a_shared a) j)) as [ sh | | | ]; cbn [obind]; auto. destruct sh; cbn [negb].
  2: { split; [ now split | ]. split; [ reflexivity | ]. intro Z. cbn. rewrite Z. cbn. destruct (Nat.ltb_spec j 0); [ lia | reflexivity ]. }
  destruct (rd (nth_error (a_lens a) j)) as [ len | | | ]; cbn [obind]; auto. destruct (rd (nth_error (a_names a) j)) as [ name | | | ]; cbn [obind]; auto.
  destruct (index_of name (g_names g)).
  - destruct (rd (nth_error (g_lens g) n)); cbn [obind]; auto. destruct (negb (len =? a0)); auto. split; [ now split | ]. split; [ reflexivity | ].
    intro Z. cbn. rewrite Z. destruct (n =? j); [ reflexivity | ]. cbn [minimize]. destruct (Nat.ltb_spec (Nat.min j n) 0); [ lia | reflexivity ].
  - split; [ now split | ]. split; [ reflexivity | ]. intro Z. cbn. rewrite Z. destruct (g_arrays g); [ reflexivity | ]. cbn [minimize]. destruct (Nat.ltb_spec j 0); [ lia | reflexivity ].
Qed.
Lemma add_same a g h g' : same g h -> g_shared h = Some 0 -> add_array g a = Ok g' -> exists h', add_array h a = Ok h' /\ same g' h' /\ g_shared h' = Some 0.
Proof.
  intros Sm Z E. unfold add_array in *. assert (LL : g_lens g = g_lens h) by apply Sm. rewrite <- LL.
  revert E. generalize (repeat (@None nat) (List.length (g_lens g))) as m. clear LL.
  assert (G : forall l m g h, same g h -> g_shared h = Some 0 -> forall r, ofold (add_one a) l (g, m) = Ok r ->
    exists r', ofold (add_one a) l (h, m) = Ok r' /\ same (fst r) (fst r') /\ snd r = snd r' /\ g_shared (fst r') = Some 0).
  { clear. induction l as [ | j l IH ]; intros m g h Sm Z r E; cbn [ofold] in *.
    - injection E as <-. eexists. split; [ reflexivity | ]. auto.
    - assert (X := add_one_same a g h m j Sm). destruct (add_one a (g, m) j) as [ [ g1 m1 ] | | | ]; cbn [obind] in E; try discriminate.
      destruct (add_one a (h, m) j) as [ [ h1 m2 ] | | | ]; try contradiction. destruct X as (S1 & <- & Z1). cbn [obind]. apply (IH m1 g1 h1); auto. }
  intros m E. destruct (ofold (add_one a) (seq 0 (rank a)) (g, m)) as [ [ g1 m1 ] | | | ] eqn:E1; cbn [obind] in E; try discriminate. injection E as <-.
  destruct (G _ m g h Sm Z _ E1) as ([ h1 m2 ] & E2 & S1 & Em & Z1). cbn [fst snd] in *. subst m2. rewrite E2. cbn [obind]. eexists. split; [ reflexivity | ].
  destruct S1 as (A & B & C). split; [ split; [ exact A | split; [ exact B | cbn; now rewrite C ] ] | ]. cbn. rewrite Z1. cbn. destruct (Nat.ltb_spec (rank a) 0); [ lia | reflexivity ].
Qed.
Lemma ofold_app {T B} (f : T -> B -> outcome T) l1 l2 s : ofold f (l1 ++ l2) s = (do s' <- ofold f l1 s; ofold f l2 s').
Proof. revert s. induction l1 as [ | x l1 IH ]; intro s; cbn; [ reflexivity | ]. destruct (f s x); cbn; auto. Qed.

Lemma group_separate l1 l2 g : make_group (l1 ++ l2) = Ok g ->
  exists g1 h, make_group l1 = Ok g1 /\ ofold add_array l2 (separate g1) = Ok h /\ same g h /\ g_shared h = Some 0.
Proof.
  intro E. unfold make_group in *. rewrite ofold_app in E. destruct (ofold add_array l1 empty_group) as [ g1 | | | ]; cbn [obind] in E; try discriminate.
  exists g1. assert (S0 : same g1 (separate g1)) by (repeat split).
  assert (Z0 : g_shared (separate g1) = Some 0).
  { cbn. unfold minimize. destruct (g_shared g1) as [ x | ]; [ | reflexivity ]. destruct (Nat.ltb_spec 0 x); [ reflexivity | f_equal; lia ]. }
  revert S0 Z0 E. generalize (separate g1) as h. revert g1. induction l2 as [ | a l2 IH ]; intros g1 h S0 Z0 E; cbn [ofold] in *.
  - injection E as <-. exists h. auto.
  - destruct (add_array g1 a) as [ g2 | | | ] eqn:E1; cbn [obind] in E; try discriminate.
    destruct (add_same a g1 h g2 S0 Z0 E1) as (h2 & E2 & S2 & Z2). rewrite E2. cbn [obind].
    destruct (IH g2 h2 S2 Z2 E) as (h3 & _ & E3 & X). exists h3. auto.
Qed.

(** the loop over such a group visits every tuple once *)
Lemma loop_separate arrays g h : (forall a, In a arrays -> wf a) -> make_group arrays = Ok g -> same g h -> g_shared h = Some 0 ->
  (forall l, In l (g_lens g) -> (Z.of_nat l <= 2 ^ 31)%Z) ->
  exists r, loop (cells (g_lens h)) h = Ok r /\ List.length r = cells (g_lens g) /\
    forall m s a, m < List.length r -> nth_error arrays s = Some a ->
      nth s (nth m r []) 0%Z = (Z.of_nat (lin (a_lens a) (sub (g_names g) (unlin (g_lens g) m) a)) mod W64)%Z.
Proof.
  intros W E (A & B & C) Z Hl. assert (Hl' : forall l, In l (g_lens h) -> l > 0 /\ (Z.of_nat l <= 2 ^ 31)%Z).
  { rewrite <- B. intros l I. split; [ now apply (lens_pos arrays g W E) | auto ]. }
  assert (Sd : shared_dims h = 0) by (unfold shared_dims; now rewrite Z).
  assert (Ol : outer_lens h = g_lens h) by (unfold outer_lens; now rewrite Sd).
  destruct (turns_spec (outer_lens h) (outer_deltas h) (List.length (g_arrays h))) with (m := cells (outer_lens h)) (k := 0)
    (idx := map (fun _ : adims * list (option nat) => 0%Z) (g_arrays h)) (fuel := cells (g_lens h)) as (r & Er & Lr & Vr).
  { unfold outer_deltas. rewrite map_length, seq_length, Sd, Ol. lia. }
  { intros d Hd. unfold outer_deltas in Hd. apply in_map_iff in Hd. destruct Hd as (i & <- & _). apply map_length. }
  { rewrite Ol. exact Hl'. }
  { lia. }
  { rewrite Ol. apply cells_pos. intros l I. now apply Hl'. }
  { now rewrite Ol. }
  { apply map_length. }
  { intros s Hs. rewrite zeros_unlin, dot_zero. cbn. clear. revert s. induction (g_arrays h) as [ | x l IH ]; intros [ | s ]; cbn; auto. }
  exists r. unfold loop. rewrite <- (zeros_unlin (outer_lens h)). split; [ exact Er | ]. rewrite Ol, <- B in Lr. split; [ exact Lr | ].
  intros m s a Hm Hs. rewrite Lr in Hm. destruct (array_of arrays g W E s a Hs) as (mp & Em & I).
  destruct (Vr m) as (_ & V); [ now rewrite Ol, <- B | ]. rewrite V by (apply nth_error_Some; rewrite <- C, Em; discriminate). cbn [Nat.add]. f_equal. f_equal.
  rewrite (position_sum arrays g W E a mp) by (auto; apply unlin_length).
  assert (Ld : List.length (outer_deltas h) = List.length (g_lens g)) by (unfold outer_deltas; rewrite map_length, seq_length, Sd, B; lia).
  assert (Lc : List.length (col (outer_deltas h) s) = List.length (g_lens g)) by (unfold col; now rewrite map_length).
  rewrite dot_sumof by (rewrite Lc, Ol, <- B; apply unlin_length). rewrite Lc. rewrite Ol, <- B.
  apply sumof_ext. intros i Hi. apply in_seq in Hi. f_equal. unfold col, outer_deltas. rewrite map_map, Sd, Nat.sub_0_r, <- B, <- C.
  set (F := fun x : nat => nth s (map (fun am => delta am x) (g_arrays g)) 0).
  rewrite (nth_indep _ 0 (F 0)) by (rewrite map_length, seq_length; lia). rewrite map_nth, seq_nth by lia. unfold F.
  cbn [Nat.add]. apply nth_error_nth. now rewrite nth_error_map, Em.
Qed.

(** the names and lengths of the group *)
Lemma group_names arrays g lenf : (forall a, In a arrays -> exists z sh, good lenf z sh a) -> make_group arrays = Ok g ->
  g_lens g = map lenf (g_names g) /\ NoDup (g_names g) /\
  (forall n, In n (g_names g) <-> exists a z sh, In a arrays /\ good lenf z sh a /\ In n sh /\ is_z z n = false).
Proof.
  intros G E. assert (W : forall a, In a arrays -> wf a) by (intros a I; destruct (G a I) as (z & sh & Q); apply Q).
  destruct (make_group_inv arrays W g E) as (D & Ll & Dn & Ar & Sh & Fr). split; [ | split; [ exact D | ] ].
  - apply nth_error_ext. intro i. rewrite nth_error_map. destruct (Nat.lt_ge_cases i (List.length (g_names g))) as [ L | L ].
    + rewrite (nth_error_nth' (g_lens g) 0) by lia. rewrite (nth_error_nth' (g_names g) "") by lia. cbn. f_equal.
      destruct (Fr i L) as (b & k & Ib & Hk & Sk & Nk & Lk). rewrite <- Lk, <- Nk. destruct (G b Ib) as (z & sh & (_ & Ea & El & _)). unfold rank in Hk. rewrite Ea, El in *. rewrite map_length in Hk.
      rewrite (nth_indep _ 0 (lenf "")) by (now rewrite map_length). apply map_nth.
    + rewrite !nth_error_None_ge by lia. reflexivity.
  - intro n. split.
    + intro I. apply (In_nth _ _ "") in I. destruct I as (i & Hi & <-). destruct (Fr i Hi) as (b & k & Ib & Hk & Sk & Nk & Lk).
      destruct (G b Ib) as (z & sh & Q). exists b, z, sh. split; [ exact Ib | ]. split; [ exact Q | ]. destruct Q as (_ & Ea & El & S).
      unfold rank in Hk. rewrite El, map_length in Hk. rewrite <- Nk, Ea. split; [ now apply nth_In | ]. rewrite S in Sk by exact Hk. now apply negb_true_iff.
    + intros (a & z & sh & Ia & (Wa & Ea & El & S) & In' & Nz). apply (In_nth _ _ "") in In'. destruct In' as (j & Hj & Ej).
      apply In_nth_error in Ia. destruct Ia as (s & Ia). destruct (array_of arrays g W E s a Ia) as (m & _ & Im).
      destruct (Ar (a, m) Im) as (M1 & M2 & M3). cbn [fst snd] in *. destruct (M3 j) as (i & Ei).
      { unfold rank. now rewrite El, map_length. }
      { rewrite S by exact Hj. now rewrite Ej, Nz. }
      destruct (M2 i j Ei) as (X1 & _ & _ & X4 & _). rewrite Ea, Ej in X4. rewrite X4. now apply nth_In.
Qed.
Lemma group_ok arrays lenf : (forall a, In a arrays -> exists z sh, good lenf z sh a) -> exists g, make_group arrays = Ok g.
Proof.
  intros G. assert (W : forall a, In a arrays -> wf a) by (intros a I; destruct (G a I) as (z & sh & Q); apply Q).
  apply (proj1 (C35_accepted arrays W)). intros a b j k Ia Ib Hj Hk _ _ En. destruct (G a Ia) as (z1 & sh1 & _ & Ea & El & _). destruct (G b Ib) as (z2 & sh2 & _ & Eb & Elb & _).
  unfold rank in *. rewrite Ea, Eb in En. rewrite El, Elb in *. rewrite map_length in Hj, Hk.
  rewrite !(nth_indep _ 0 (lenf "")) by (now rewrite map_length). rewrite !map_nth. now rewrite En.
Qed.

(** ** a sequence of writes *)
Lemma writes {A V} (c : A -> nat) (v : A -> outcome V) (w : A -> V) (l : list A) : forall out,
  (forall e, In e l -> v e = Ok (w e) /\ c e < List.length out) ->
  exists out', ofold (fun out e => do x <- v e; wr out (c e) x) l out = Ok out' /\ List.length out' = List.length out /\
    (forall e, (forall e', In e' l -> c e' = c e -> w e' = w e) -> In e l \/ nth_error out (c e) = Some (w e) -> nth_error out' (c e) = Some (w e)).
Proof.
  induction l as [ | a l IH ]; intros out H; cbn [ofold].
  - exists out. split; [ reflexivity | ]. split; [ reflexivity | ]. intros e _ [ [] | Q ]. exact Q.
  - destruct (H a (or_introl eq_refl)) as (Va & La). rewrite Va. cbn [obind]. unfold wr at 1. assert (La' := La). apply Nat.ltb_lt in La'. rewrite La'. cbn [obind].
    destruct (IH (upd out (c a) (w a))) as (out' & E & L & N).
    { intros e I. rewrite length_upd. apply H. now right. }
    exists out'. split; [ exact E | ]. split; [ now rewrite L, length_upd | ]. intros e Ag Q. apply N.
    + intros e' I. apply Ag. now right.
    + rewrite nth_error_upd. destruct (Nat.eqb_spec (c a) (c e)) as [ Ec | Nc ].
      * right. assert (X : w a = w e) by (apply Ag; [ now left | exact Ec ]). rewrite <- Ec, La'. cbn. now rewrite X.
      * cbn. destruct Q as [ [ <- | I ] | Q ]; [ contradiction | now left | now right ].
Qed.
Lemma ofold_nested {A B T} (f : A -> B -> T -> outcome T) (la : list A) (lb : list B) : forall s,
  ofold (fun s a => ofold (fun s b => f a b s) lb s) la s = ofold (fun s e => f (fst e) (snd e) s) (list_prod la lb) s.
Proof.
  induction la as [ | a la IH ]; intro s; cbn [ofold list_prod]; [ reflexivity | ].
  rewrite ofold_app. assert (Q : forall l s, ofold (fun s b => f a b s) l s = ofold (fun s e => f (fst e) (snd e) s) (map (fun y => (a, y)) l) s).
  { clear. induction l as [ | b l IHl ]; intro s; cbn; [ reflexivity | ]. destruct (f a b s); cbn; auto. }
  rewrite Q. destruct (ofold _ (map _ lb) s); cbn; auto.
Qed.
Lemma ofold_ext_in {A T} (f f' : T -> A -> outcome T) l : (forall a s, In a l -> f s a = f' s a) -> forall s, ofold f l s = ofold f' l s.
Proof.
  intro H. induction l as [ | a l IH ]; intro s; cbn; [ reflexivity | ]. rewrite H by now left. destruct (f' s a); cbn; auto. apply IH. intros; apply H; now right.
Qed.
