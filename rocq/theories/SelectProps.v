(** Theorems C79 (selecting variables), C80 (axis ranges), C81 (bounding boxes). *)
From Coq Require Import NArith ZArith QArith Qabs String List Bool Arith Lia ZifyBool ZifyNat ZifyN Lqa.
From Verif Require Import Base StdMap ConvertModel TextModel CdmModel CdmProofs ExtractModel ExtractProofs ExtractProps VmetaProps SelectModel.
Import ListNotations.
Local Open Scope string_scope.
Local Open Scope list_scope.
Local Open Scope nat_scope.

(** * C79: selecting variables *)

(** what a variable needs: its dimension variables, and what its coordinate system depends on (the first
    one complete for it) *)
Inductive needs (c : cdm) (css : list dsys) (n : string) : string -> Prop :=
| needs_dim v d : find_var n (vars c) = Some v -> In d (v_shape v) -> has_var c d = true -> needs c css n d
| needs_cs cs d : find (fun cs => ds_for cs n) css = Some cs -> In d (ds_deps cs) -> needs c css n d.
(** a name that was asked for, or is needed, directly or by way of others *)
Inductive reach (c : cdm) (css : list dsys) (wanted : list string) : string -> Prop :=
| reach_in n : In n wanted -> reach c css wanted n
| reach_step n m : reach c css wanted n -> needs c css n m -> reach c css wanted m.

Lemma has_In n s : has n s = true <-> In n s.
Proof.
  unfold has. rewrite existsb_exists. split.
  - intros (x & I & E). apply String.eqb_eq in E as ->. exact I.
  - intro I. exists n. split; [exact I|]. apply String.eqb_refl.
Qed.
Lemma In_sadd s n m : In m (sadd s n) <-> In m s \/ m = n.
Proof.
  unfold sadd. destruct (has n s) eqn:H.
  - apply has_In in H. split; [tauto|]. intros [I| ->]; assumption.
  - rewrite in_app_iff. cbn. intuition congruence.
Qed.
Lemma In_sadds l : forall s m, In m (fold_left sadd l s) <-> In m s \/ In m l.
Proof.
  induction l as [|a l IH]; intros s m; cbn [fold_left]; [cbn; tauto|]. rewrite IH, In_sadd. cbn. intuition congruence.
Qed.
Lemma NoDup_sadds l : forall s, NoDup s -> NoDup (fold_left sadd l s).
Proof.
  induction l as [|a l IH]; intros s D; cbn [fold_left]; [exact D|]. apply IH. unfold sadd. destruct (has a s) eqn:H; [exact D|].
  assert (N : ~ In a s) by (rewrite <- has_In; congruence). clear H.
  induction D as [|x s Hx D IH']; cbn; [constructor; [tauto|constructor]|]. constructor.
  - rewrite in_app_iff. cbn in *. intuition congruence.
  - apply IH'. cbn in N. tauto.
Qed.
Lemma sadds_incl l : forall s, exists t, fold_left sadd l s = s ++ t.
Proof.
  induction l as [|a l IH]; intros s; cbn [fold_left]; [exists []; symmetry; apply app_nil_r|].
  destruct (IH (sadd s a)) as (t & ->). unfold sadd. destruct (has a s); [now exists t|]. exists (a :: t). now rewrite <- app_assoc.
Qed.
Lemma In_dim_vars c s d : In d (dim_vars c s) <-> exists n v, In n s /\ find_var n (vars c) = Some v /\ In d (v_shape v) /\ has_var c d = true.
Proof.
  unfold dim_vars. rewrite in_flat_map. split.
  - intros (n & I & H). destruct (find_var n (vars c)) as [v|] eqn:E; [|easy]. apply filter_In in H as (H1 & H2). now exists n, v.
  - intros (n & v & I & E & H). exists n. split; [exact I|]. rewrite E. now apply filter_In.
Qed.
Lemma In_deps c css s d : In d (flat_map (deps_of css) s) -> exists n, In n s /\ needs c css n d.
Proof.
  intro H. apply in_flat_map in H as (n & I & H). exists n. split; [exact I|]. unfold deps_of in H.
  destruct (find _ css) as [cs|] eqn:E; [|easy]. now apply (needs_cs c css n cs).
Qed.
Lemma round_sound c css w s : (forall m, In m s -> reach c css w m) -> forall m, In m (aux_round c css s) -> reach c css w m.
Proof.
  intros H m I. unfold aux_round in I.
  assert (H1 : forall m, In m (fold_left sadd (dim_vars c s) s) -> reach c css w m).
  { intros k K. apply In_sadds in K as [K|K]; [now apply H|]. apply In_dim_vars in K as (n & v & I1 & I2 & I3 & I4).
    apply (reach_step c css w n); [now apply H|]. now apply (needs_dim c css n v). }
  apply In_sadds in I as [I|I]; [now apply H1|]. apply (In_deps c) in I as (n & I & N).
  apply (reach_step c css w n); [now apply H1|exact N].
Qed.
(** a round that adds nothing: the set is closed *)
Lemma round_closed c css s : length (aux_round c css s) <= length s -> aux_round c css s = s /\ forall n m, In n s -> needs c css n m -> In m s.
Proof.
  unfold aux_round. intro L. destruct (sadds_incl (dim_vars c s) s) as (t1 & E1).
  destruct (sadds_incl (flat_map (deps_of css) (fold_left sadd (dim_vars c s) s)) (fold_left sadd (dim_vars c s) s)) as (t2 & E2).
  rewrite E2, E1, !app_length in L. destruct t1; [|cbn in L; lia]. destruct t2; [|cbn in L; lia].
  rewrite E2, E1, !app_nil_r. split; [reflexivity|]. intros n m I N. rewrite app_nil_r in E1. rewrite app_nil_r, E1 in E2. destruct N as [v d F S V|cs d F S].
  - rewrite <- E1. apply In_sadds. right. apply In_dim_vars. now exists n, v.
  - rewrite <- E2. apply In_sadds. right. apply in_flat_map. exists n. split; [exact I|]. unfold deps_of. now rewrite F.
Qed.
Lemma round_grows c css s m : In m s -> In m (aux_round c css s).
Proof. intro I. unfold aux_round. apply In_sadds. left. apply In_sadds. now left. Qed.
Lemma round_NoDup c css s : NoDup s -> NoDup (aux_round c css s).
Proof. intro D. unfold aux_round. now apply NoDup_sadds, NoDup_sadds. Qed.
(** all names that can occur *)
Definition universe (c : cdm) (css : list dsys) (s : list string) : list string := s ++ flat_map v_shape (vars c) ++ flat_map ds_deps css.
Lemma round_universe c css w s : incl s (universe c css w) -> incl (aux_round c css s) (universe c css w).
Proof.
  intros H m I. unfold aux_round in I.
  assert (D : forall n, In n (dim_vars c s) -> In n (universe c css w)).
  { intros n N. apply In_dim_vars in N as (k & v & _ & F & S & _). unfold universe. rewrite !in_app_iff. right. left.
    apply in_flat_map. exists v. split; [|exact S]. apply find_some in F. tauto. }
  apply In_sadds in I as [I|I]; [apply In_sadds in I as [I|I]; [now apply H|now apply D]|].
  apply in_flat_map in I as (n & _ & N). unfold deps_of in N. destruct (find _ css) as [cs|] eqn:E; [|easy].
  unfold universe. rewrite !in_app_iff. right. right. apply in_flat_map. exists cs. split; [|exact N]. apply find_some in E. tauto.
Qed.

(** The set of selected names after adding the auxiliary variables: it is reached after a bounded number of
    rounds and holds exactly the names asked for and what they need. *)
Theorem C79_auxiliary c css wanted : NoDup wanted ->
  exists s, (forall fuel, length (universe c css wanted) < fuel -> add_auxiliary fuel c css wanted = Ok s) /\
    forall n, In n s <-> reach c css wanted n.
Proof.
  intro D0. set (U := universe c css wanted).
  assert (G : forall k s, length U - length s <= k -> NoDup s -> incl s U -> (forall m, In m s -> reach c css wanted m) -> incl wanted s ->
    exists s', (forall fuel, k < fuel -> add_auxiliary fuel c css s = Ok s') /\ forall n, In n s' <-> reach c css wanted n).
  { induction k as [|k IH]; intros s L D I R W.
    - assert (length (aux_round c css s) <= length s).
      { assert (length (aux_round c css s) <= length U); [|lia].
        apply NoDup_incl_length; [now apply round_NoDup|now apply round_universe]. }
      destruct (round_closed c css s H) as (E & C). exists s. split.
      + intros [|f] F; [lia|]. cbn [add_auxiliary]. rewrite E. now rewrite Nat.ltb_irrefl.
      + intro n. split; [apply R|]. intro N. induction N as [n N|n m N IHN M]; [now apply W|]. now apply (C n m).
    - destruct (length s <? length (aux_round c css s)) eqn:B.
      + destruct (IH (aux_round c css s)) as (s' & F & S).
        * lia.
        * now apply round_NoDup.
        * now apply round_universe.
        * now apply round_sound.
        * intros n N. apply round_grows. now apply W.
        * exists s'. split; [|exact S]. intros [|f] Hf; [lia|]. cbn [add_auxiliary]. rewrite B. apply F. lia.
      + destruct (round_closed c css s ltac:(lia)) as (E & C). exists s. split.
        * intros [|f] F; [lia|]. cbn [add_auxiliary]. rewrite E. now rewrite Nat.ltb_irrefl.
        * intro n. split; [apply R|]. intro N. induction N as [n N|n m N IHN M]; [now apply W|]. now apply (C n m). }
  destruct (G (length U - length wanted) wanted) as (s & F & S).
  - lia.
  - exact D0.
  - intros n N. unfold U, universe. apply in_or_app. now left.
  - intros m M. now apply reach_in.
  - apply incl_refl.
  - exists s. split; [|exact S]. intros fuel Hf. apply F. fold U in Hf. lia.
Qed.

(** The variables kept: exactly the selected ones, unchanged; all others are gone with their attributes;
    dimensions stay.  Names that do not exist are ignored. *)
Theorem C79_selected c css wanted (aux : bool) fuel : NoDup wanted -> length (universe c css wanted) < fuel ->
  exists c', select_variables fuel c css wanted aux = Ok c' /\ dims c' = dims c /\
    forall n, ((if aux then reach c css wanted n else In n wanted) -> find_var n (vars c') = find_var n (vars c) /\ attrs_of c' n = attrs_of c n) /\
              (~ (if aux then reach c css wanted n else In n wanted) -> find_var n (vars c') = None /\
                 (In n (map v_name (vars c)) -> attrs_of c' n = [])).
Proof.
  intros D F. unfold select_variables.
  assert (S : exists s, (if aux then add_auxiliary fuel c css wanted else Ok wanted) = Ok s /\
            forall n, In n s <-> if aux then reach c css wanted n else In n wanted).
  { destruct aux; [|now exists wanted]. destruct (C79_auxiliary c css wanted D) as (s & E & R). exists s. split; [now apply E|exact R]. }
  destruct S as (s & -> & S). cbn [obind]. eexists. split; [reflexivity|].
  destruct (removed_all (filter (fun n => negb (has n s)) (map v_name (vars c))) c "") as (_ & _ & DD). split; [exact DD|].
  intro n. destruct (removed_all (filter (fun n => negb (has n s)) (map v_name (vars c))) c n) as (A & B & _). rewrite A, B. rewrite <- S. split.
  - intro I. replace (existsb _ _) with false; [now split|]. symmetry. apply not_true_is_false. intro H.
    apply existsb_exists in H as (x & X & E). apply String.eqb_eq in E as <-. apply filter_In in X as (_ & X).
    apply has_In in I. rewrite I in X. discriminate.
  - intro I. assert (HI : has n s = false) by (apply not_true_is_false; now rewrite has_In).
    destruct (in_dec string_dec n (map v_name (vars c))) as [V|V].
    + replace (existsb _ _) with true; [now split|]. symmetry. apply existsb_exists. exists n. split; [|apply String.eqb_refl].
      apply filter_In. split; [exact V|]. now rewrite HI.
    + split; [|contradiction]. destruct (existsb _ _); [reflexivity|]. unfold find_var.
      destruct (find _ (vars c)) as [v|] eqn:E; [|reflexivity]. exfalso. apply find_some in E as (E1 & E2). apply String.eqb_eq in E2 as ->.
      apply V. now apply in_map.
Qed.

(** A kept variable keeps its dimension variables and the axes of its coordinate system. *)
Theorem C79_complete c css wanted fuel c' n m : NoDup wanted -> length (universe c css wanted) < fuel ->
  select_variables fuel c css wanted true = Ok c' -> has_var c' n = true -> needs c css n m -> find_var m (vars c') = find_var m (vars c).
Proof.
  intros D F E H N. destruct (C79_selected c css wanted true fuel D F) as (c'' & E' & _ & S). rewrite E in E'. injection E' as <-.
  destruct (S n) as (S1 & S2). cbn beta iota in *.
  assert (R : ~ ~ reach c css wanted n).
  { intro NR. destruct (S2 NR) as (X & _). unfold has_var in H. rewrite X in H. discriminate. }
  destruct (S m) as (M1 & M2).
  destruct (C79_auxiliary c css wanted D) as (s & _ & RS).
  destruct (in_dec string_dec m s) as [I|I].
  - apply M1. now apply RS.
  - exfalso. apply R. intro RN. apply I. apply RS. now apply (reach_step c css wanted n).
Qed.

(** * C80: axis ranges *)

Lemma qlt_lt a b : qlt a b = true <-> (a < b)%Q.
Proof. unfold qlt. rewrite negb_true_iff, <- not_true_iff_false, Qle_bool_iff. split; [apply Qnot_le_lt|apply Qlt_not_le]. Qed.
Lemma qlt_ge a b : qlt a b = false <-> (b <= a)%Q.
Proof. unfold qlt. rewrite negb_false_iff. apply Qle_bool_iff. Qed.

(** the search by halving on data partitioned by [p] *)
Lemma bound_spec p l : forall fuel first len, len <= fuel ->
  (forall i j, first <= i -> i <= j -> j < first + len -> p (nth j l 0%Q) = true -> p (nth i l 0%Q) = true) ->
  let k := bound fuel p l first len in
  first <= k <= first + len /\ (forall i, first <= i < k -> p (nth i l 0%Q) = true) /\ (forall i, k <= i < first + len -> p (nth i l 0%Q) = false).
Proof.
  induction fuel as [|f IH]; intros first len L M; cbn [bound].
  - assert (len = 0) as -> by lia. cbv zeta. repeat split; lia || (intros; lia).
  - destruct (len =? 0) eqn:Z.
    + assert (len = 0) as -> by lia. cbv zeta. repeat split; lia || (intros; lia).
    + assert (H : len / 2 < len) by (apply Nat.div_lt; lia). set (half := len / 2) in *. destruct (p (nth (first + half) l 0%Q)) eqn:P.
      * destruct (IH (first + half + 1) (len - half - 1)) as (A & B & C); [lia| |].
        { intros i j I J K. apply M; lia. }
        cbv zeta. set (k := bound f p l (first + half + 1) (len - half - 1)) in *. split; [lia|]. split.
        -- intros i I. destruct (le_lt_dec i (first + half)) as [Q|Q]; [|apply B; lia]. apply (M i (first + half)); (lia || exact P).
        -- intros i I. apply C. lia.
      * destruct (IH first half) as (A & B & C); [lia| |].
        { intros i j I J K. apply M; lia. }
        cbv zeta. set (k := bound f p l first half) in *. split; [lia|]. split; [exact B|].
        intros i I. destruct (le_lt_dec (first + half) i) as [Q|Q]; [|apply C; lia].
        destruct (p (nth i l 0%Q)) eqn:PI; [|reflexivity]. rewrite (M (first + half) i) in P; [discriminate|lia|lia|lia|exact PI].
Qed.
(** without any order of the data the result is still a position *)
Lemma bound_range p l : forall fuel first len, first <= bound fuel p l first len <= first + len.
Proof.
  induction fuel as [|f IH]; intros first len; cbn [bound]; [lia|]. destruct (len =? 0) eqn:Z; [lia|].
  assert (H : len / 2 < len) by (apply Nat.div_lt; lia). set (half := len / 2) in *. destruct (p _).
  - specialize (IH (first + half + 1) (len - half - 1)). lia.
  - specialize (IH first half). lia.
Qed.

Definition ascending (l : list Q) : Prop := forall i j, i <= j -> j < length l -> (nth i l 0 <= nth j l 0)%Q.
Definition descending (l : list Q) : Prop := (forall i j, i <= j -> j < length l -> (nth j l 0 <= nth i l 0)%Q) /\ (1 < length l -> (nth 1 l 0 < nth 0 l 0)%Q).
Definition monotone (l : list Q) : Prop := ascending l \/ descending l.
(** the positions whose value lies in a closed range, in order *)
Definition positions_in (data : list Q) (lo hi : Q) : list nat :=
  filter (fun i => Qle_bool lo (nth i data 0%Q) && Qle_bool (nth i data 0%Q) hi) (seq 0 (length data)).

Lemma filter_seq P : forall n s a m, (forall i, s <= i < s + n -> P i = true <-> a <= i < a + m) -> (m = 0 \/ s <= a) -> (m = 0 \/ a + m <= s + n) ->
  filter P (seq s n) = seq a m.
Proof.
  induction n as [|n IH]; intros s a m H A B; cbn [seq filter].
  - assert (m = 0) as -> by lia. reflexivity.
  - destruct (P s) eqn:E.
    + apply H in E; [|lia]. assert (a = s) as -> by lia. destruct m as [|m]; [lia|]. cbn [seq]. f_equal. apply IH; [|lia|lia].
      intros i I. rewrite H by lia. lia.
    + apply IH; [|destruct (Nat.eq_dec a s) as [->|]; [|lia]|lia].
      * intros i I. apply H. lia.
      * left. destruct m; [reflexivity|]. assert (P s = true) by (apply H; lia). congruence.
Qed.

Lemma asc_range data lo hi : ascending data ->
  let l := lower_bound data lo in let u := upper_bound data hi in
  l <= length data /\ u <= length data /\ positions_in data lo hi = seq l (u - l).
Proof.
  intros A. cbv zeta. unfold lower_bound, upper_bound.
  destruct (bound_spec (fun x => qlt x lo) data (length data) 0 (length data)) as (L1 & L2 & L3); [lia| |].
  { intros i j I J K. rewrite !qlt_lt. intro H. assert (X := A i j J ltac:(lia)). lra. }
  destruct (bound_spec (fun x => negb (qlt hi x)) data (length data) 0 (length data)) as (U1 & U2 & U3); [lia| |].
  { intros i j I J K. rewrite !negb_true_iff, !qlt_ge. intro H. assert (X := A i j J ltac:(lia)). lra. }
  cbv zeta in *. set (l := bound _ (fun x => qlt x lo) _ _ _) in *. set (u := bound _ (fun x => negb (qlt hi x)) _ _ _) in *.
  split; [lia|]. split; [lia|]. unfold positions_in. apply filter_seq; [|lia|lia].
  intros i I. rewrite andb_true_iff, !Qle_bool_iff. split.
  - intros (H1 & H2). split.
    + destruct (le_lt_dec l i) as [X|X]; [exact X|]. specialize (L2 i ltac:(lia)). rewrite qlt_lt in L2. lra.
    + destruct (le_lt_dec u i) as [X|X]; [|lia]. specialize (U3 i ltac:(lia)). rewrite negb_false_iff, qlt_lt in U3. lra.
  - intro H. specialize (L3 i ltac:(lia)). rewrite qlt_ge in L3. specialize (U2 i ltac:(lia)). rewrite negb_true_iff, qlt_ge in U2. now split.
Qed.
Lemma nth_rev_q (l : list Q) i : i < length l -> nth i (rev l) 0%Q = nth (length l - S i) l 0%Q.
Proof. intro H. now apply rev_nth. Qed.

Lemma kept_spec data lo hi : monotone data -> data <> [] ->
  exists a m, kept_range false data lo hi = Ok (a, m) /\ a + m <= length data /\ positions_in data lo hi = seq a m.
Proof.
  intros M N. unfold kept_range. cbn [andb].
  destruct (is_reverse data) eqn:R.
  - destruct M as [A|(D & D1)].
    + exfalso. destruct data as [|a [|b data]]; try discriminate. cbn in R. apply qlt_lt in R. assert (X := A 0 1 ltac:(lia) ltac:(cbn; lia)). cbn in X. lra.
    + assert (A : ascending (rev data)).
      { intros i j I J. rewrite rev_length in J. rewrite !nth_rev_q by lia. apply D; lia. }
      destruct (asc_range (rev data) lo hi A) as (L & U & P). rewrite rev_length in L, U.
      set (l := lower_bound (rev data) lo) in *. set (u := upper_bound (rev data) hi) in *.
      exists (length data - (u - l) - l), (u - l). split; [reflexivity|]. split; [lia|].
      unfold positions_in in *. apply filter_seq; [|lia|lia].
      intros i I. assert (IN : In (length data - S i) (seq l (u - l)) <-> (Qle_bool lo (nth i data 0%Q) && Qle_bool (nth i data 0%Q) hi) = true).
      { rewrite <- P, filter_In, in_seq, rev_length, nth_rev_q by lia. replace (length data - S (length data - S i)) with i by lia. split; [tauto|]. intro X. split; [lia|exact X]. }
      rewrite <- IN, in_seq. lia.
  - assert (A : ascending data).
    { destruct M as [A|(D & D1)]; [exact A|]. destruct data as [|a [|b data]]; [easy| |].
      - intros i j I J. cbn in J. assert (i = 0) as -> by lia. assert (j = 0) as -> by lia. apply Qle_refl.
      - cbn in R. apply qlt_ge in R. specialize (D1 ltac:(cbn; lia)). cbn in D1. lra. }
    destruct (asc_range data lo hi A) as (L & U & P). exists (lower_bound data lo), (upper_bound data hi - lower_bound data lo). split; [reflexivity|].
    split; [lia|exact P].
Qed.

Section C80.
  Variable T : Type.
  Variable systems : list (T -> option raxis).
  Variables (units_of : string -> string) (convertible : string -> string -> bool) (convert : string -> string -> outcome (Q * Q)).
  Variable scaled : string -> outcome (list Q).
  (** the range asked for in units [u], in units of the axis, widened by the rounding delta: a hundredth of
      the first step, or 0.00001 if there is none *)
  Definition wanted_positions (start stop slope offset : Q) (data : list Q) : list N :=
    let delta := match data with
                 | a :: b :: _ => if Qeq_bool a b then 1 # 100000 else (Qabs (a - b) / 100)%Q
                 | _ => 1 # 100000
                 end in
    map N.of_nat (positions_in data (start * slope + offset - delta) (stop * slope + offset + delta)).

  (** One axis. *)
  Theorem C80_axis u start stop x a dim data slope offset :
    scaled (r_name a) = Ok data -> data <> [] -> monotone data -> convert u (units_of (r_name a)) = Ok (slope, offset) ->
    sfind dim (x_len x) = Some (N.of_nat (length data)) -> (N.of_nat (length data) < M64)%N -> sfind dim (x_sel x) = None ->
    exists x', reduce_axis units_of convert scaled false u start stop x a dim = Ok x' /\
      sfind dim (x_sel x') = Some (wanted_positions start stop slope offset data) /\
      sfind dim (x_len x') = Some (N.of_nat (length (wanted_positions start stop slope offset data))) /\
      forall d, d <> dim -> sfind d (x_len x') = sfind d (x_len x) /\ sfind d (x_sel x') = sfind d (x_sel x).
  Proof.
    intros S N M C L B X. unfold reduce_axis. rewrite S. cbn [obind]. destruct data as [|q data']; [easy|]. set (data := q :: data') in *.
    rewrite C. cbn [obind].
    set (lo := (start * slope + offset - delta_of data)%Q). set (hi := (stop * slope + offset + delta_of data)%Q).
    destruct (kept_spec data lo hi M N) as (s & m & K & SM & P). rewrite K. cbn [obind fst snd]. rewrite X.
    assert (W : wanted_positions start stop slope offset data = map (fun i => N.of_nat s + N.of_nat i)%N (seq 0 m)).
    { unfold wanted_positions.
      assert (E : forall i, (Qle_bool lo (nth i data 0%Q) && Qle_bool (nth i data 0%Q) hi) =
        (Qle_bool (start * slope + offset - match data with a :: b :: _ => if Qeq_bool a b then 1 # 100000 else Qabs (a - b) / 100 | _ => 1 # 100000 end) (nth i data 0) &&
         Qle_bool (nth i data 0) (stop * slope + offset + match data with a :: b :: _ => if Qeq_bool a b then 1 # 100000 else Qabs (a - b) / 100 | _ => 1 # 100000 end))%Q).
      { intro i. set (dl := match data with a :: b :: _ => if Qeq_bool a b then 1 # 100000 else (Qabs (a - b) / 100)%Q | _ => 1 # 100000 end).
        assert (DE : (delta_of data == dl)%Q).
        { unfold dl, delta_of, data. destruct data' as [|b data'']; [reflexivity|]. destruct (Qeq_bool q b); [reflexivity|]. field. }
        unfold lo, hi. f_equal; apply eq_true_iff_eq; rewrite !Qle_bool_iff, DE; reflexivity. }
      unfold positions_in in *. rewrite <- (filter_ext _ _ E), P. clear. revert s. induction m as [|m IH]; intro s; [reflexivity|].
      cbn [seq map]. f_equal; [lia|]. rewrite IH. rewrite <- seq_shift, map_map. apply map_ext. intro i. lia. }
    unfold reduce_start_len. rewrite Nat2N.id, range_set by (unfold data in *; lia).
    rewrite <- W. destruct (C07_index_set x dim (wanted_positions start stop slope offset data) _ L) as (x' & E' & HL & HS & HO).
    { intros p Hp. rewrite W in Hp. apply in_map_iff in Hp as (i & <- & Hi). apply in_seq in Hi. lia. }
    exists x'. split; [exact E'|]. split; [exact HS|]. split; [exact HL|exact HO].
  Qed.

  (** A position is kept exactly if its value is in the widened range. *)
  Theorem C80_member start stop slope offset data p :
    let delta := match data with
                 | a :: b :: _ => if Qeq_bool a b then 1 # 100000 else (Qabs (a - b) / 100)%Q
                 | _ => 1 # 100000
                 end in
    In p (wanted_positions start stop slope offset data) <->
    exists v, nth_error data (N.to_nat p) = Some v /\ (start * slope + offset - delta <= v <= stop * slope + offset + delta)%Q.
  Proof.
    cbv zeta. unfold wanted_positions, positions_in. rewrite in_map_iff. split.
    - intros (i & <- & H). apply filter_In in H as (H1 & H2). apply in_seq in H1. apply andb_true_iff in H2 as (H2 & H3). apply Qle_bool_iff in H2, H3.
      rewrite Nat2N.id. exists (nth i data 0%Q). split; [apply nth_error_nth'; lia|now split].
    - intros (v & V & H1 & H2). exists (N.to_nat p). split; [lia|]. apply filter_In. split.
      + apply in_seq. assert (N.to_nat p < length data) by (apply nth_error_Some; congruence). lia.
      + rewrite (nth_error_nth _ _ _ V). apply andb_true_iff. split; now apply Qle_bool_iff.
  Qed.
  (** All positions in the range asked for are kept. *)
  Theorem C80_contains start stop slope offset data i v : nth_error data i = Some v ->
    (start * slope + offset <= v <= stop * slope + offset)%Q -> In (N.of_nat i) (wanted_positions start stop slope offset data).
  Proof.
    intros V (H1 & H2). apply C80_member. exists v. rewrite Nat2N.id. split; [exact V|].
    set (dl := match data with a :: b :: _ => if Qeq_bool a b then 1 # 100000 else (Qabs (a - b) / 100)%Q | _ => 1 # 100000 end).
    assert (D : (0 <= dl)%Q).
    { unfold dl. destruct data as [|a [|b l]]; try lra. destruct (Qeq_bool a b); [lra|]. assert (X := Qabs_nonneg (a - b)).
      apply Qle_shift_div_l; lra. }
    split; lra.
  Qed.
  (** A range without values leaves a dimension of length 0. *)
  Theorem C80_empty_range start stop slope offset data :
    (forall v, In v data -> ~ (start * slope + offset - delta_of data <= v <= stop * slope + offset + delta_of data)%Q) ->
    wanted_positions start stop slope offset data = [].
  Proof.
    intro H. destruct (wanted_positions start stop slope offset data) as [|p l] eqn:E; [reflexivity|]. exfalso.
    assert (I : In p (wanted_positions start stop slope offset data)) by (rewrite E; now left).
    apply C80_member in I as (v & V & B). apply (H v); [now apply (nth_error_In _ (N.to_nat p))|].
    assert (DE : (delta_of data == match data with a :: b :: _ => if Qeq_bool a b then 1 # 100000 else (Qabs (a - b) / 100)%Q | _ => 1 # 100000 end)%Q).
    { unfold delta_of. destruct data as [|q [|b data'']]; try reflexivity. destruct (Qeq_bool q b); [reflexivity|]. field. }
    now rewrite DE.
  Qed.
  (** Open ends of a time range do not limit anything (all values being in the range of double seconds). *)
  Theorem C80_time from to slope offset data i v : nth_error data i = Some v ->
    (- DBL_MAX * slope + offset <= v <= DBL_MAX * slope + offset)%Q ->
    (match from with Earliest | Invalid => True | At s => (s * slope + offset <= v)%Q | Latest => False end) ->
    (match to with Latest | Invalid => True | At s => (v <= s * slope + offset)%Q | Earliest => False end) ->
    In (N.of_nat i) (wanted_positions (unit_time from (- DBL_MAX)) (unit_time to DBL_MAX) slope offset data).
  Proof.
    intros V (H1 & H2) F L. apply (C80_contains _ _ _ _ _ _ v V). split.
    - destruct from as [ | | | q]; cbn [unit_time]; [exact H1|destruct F|exact H1|exact F].
    - destruct to as [ | | | q]; cbn [unit_time]; [destruct L|exact H2|exact H2|exact L].
  Qed.

  (** The time range is one on the time axis in seconds since 1970: an invalid or open lower end is the lowest
      number, an invalid or open upper end the highest one. *)
  Theorem C80_time_range time from to x :
    reduce_time T systems units_of convertible convert scaled false time from to x =
    reduce_axes T systems units_of convertible convert scaled false [time] "seconds since 1970-01-01 00:00:00"
      (match from with At s => s | Latest => DBL_MAX | Earliest | Invalid => - DBL_MAX end)%Q
      (match to with At s => s | Earliest => - DBL_MAX | Latest | Invalid => DBL_MAX end)%Q x.
  Proof. unfold reduce_time, EPOCH. destruct from, to; reflexivity. Qed.

  Definition axis_on (d : string) (a : raxis) : bool := match r_shape a with [e] => String.eqb d e | _ => false end.
  Let axes := axes_of T systems units_of convertible.

  (** All axes of the types asked for, in units that can be converted: every dimension is reduced once, by the
      first one-dimensional axis on it, unless it was reduced before. *)
  Theorem C80_axes types u start stop x :
    (forall a d, In a (axes types u) -> r_shape a = [d] ->
       exists data, scaled (r_name a) = Ok data /\
         (data <> [] -> monotone data /\ (N.of_nat (length data) < M64)%N /\ (exists so, convert u (units_of (r_name a)) = Ok so) /\
            (sfind d (x_sel x) = None -> sfind d (x_len x) = Some (N.of_nat (length data))))) ->
    exists x', reduce_axes T systems units_of convertible convert scaled false types u start stop x = Ok x' /\
      forall d, (sfind d (x_sel x) <> None \/ find (axis_on d) (axes types u) = None ->
                   sfind d (x_sel x') = sfind d (x_sel x) /\ sfind d (x_len x') = sfind d (x_len x)) /\
                (sfind d (x_sel x) = None -> forall a data, find (axis_on d) (axes types u) = Some a -> scaled (r_name a) = Ok data ->
                   (data = [] -> sfind d (x_sel x') = None /\ sfind d (x_len x') = sfind d (x_len x)) /\
                   (data <> [] -> forall slope offset, convert u (units_of (r_name a)) = Ok (slope, offset) ->
                      sfind d (x_sel x') = Some (wanted_positions start stop slope offset data) /\
                      sfind d (x_len x') = Some (N.of_nat (length (wanted_positions start stop slope offset data))))).
  Proof.
    intro H. unfold reduce_axes. fold axes.
    assert (G : forall l used x0,
      (forall a d, In a l -> r_shape a = [d] -> has d used = false ->
       exists data, scaled (r_name a) = Ok data /\
         (data <> [] -> monotone data /\ (N.of_nat (length data) < M64)%N /\ (exists so, convert u (units_of (r_name a)) = Ok so) /\
            (sfind d (x_sel x0) = None -> sfind d (x_len x0) = Some (N.of_nat (length data))))) ->
      exists st, ofold (reduce_step units_of convert scaled false u start stop) l (x0, used) = Ok st /\
      forall d, (has d used = true \/ sfind d (x_sel x0) <> None \/ find (axis_on d) l = None ->
                   sfind d (x_sel (fst st)) = sfind d (x_sel x0) /\ sfind d (x_len (fst st)) = sfind d (x_len x0)) /\
                (has d used = false -> sfind d (x_sel x0) = None -> forall a data, find (axis_on d) l = Some a -> scaled (r_name a) = Ok data ->
                   (data = [] -> sfind d (x_sel (fst st)) = None /\ sfind d (x_len (fst st)) = sfind d (x_len x0)) /\
                   (data <> [] -> forall slope offset, convert u (units_of (r_name a)) = Ok (slope, offset) ->
                      sfind d (x_sel (fst st)) = Some (wanted_positions start stop slope offset data) /\
                      sfind d (x_len (fst st)) = Some (N.of_nat (length (wanted_positions start stop slope offset data)))))).
    { clear H x. induction l as [|a l IH]; intros used x0 H.
      - exists (x0, used). split; [reflexivity|]. intro d. split; [now split|]. intros _ _ a data F. discriminate.
      - cbn [ofold]. change (reduce_step units_of convert scaled false u start stop (x0, used) a) with
          (match r_shape a with
           | [dim] => if has dim used then Ok (x0, used)
                      else do x <- reduce_axis units_of convert scaled false u start stop x0 a dim; Ok (x, dim :: used)
           | _ => Ok (x0, used)
           end).
        assert (SKIP : (forall d, axis_on d a = true -> has d used = true) -> exists st, ofold (reduce_step units_of convert scaled false u start stop) l (x0, used) = Ok st /\
          forall d, (has d used = true \/ sfind d (x_sel x0) <> None \/ find (axis_on d) (a :: l) = None ->
                   sfind d (x_sel (fst st)) = sfind d (x_sel x0) /\ sfind d (x_len (fst st)) = sfind d (x_len x0)) /\
                (has d used = false -> sfind d (x_sel x0) = None -> forall b data, find (axis_on d) (a :: l) = Some b -> scaled (r_name b) = Ok data ->
                   (data = [] -> sfind d (x_sel (fst st)) = None /\ sfind d (x_len (fst st)) = sfind d (x_len x0)) /\
                   (data <> [] -> forall slope offset, convert u (units_of (r_name b)) = Ok (slope, offset) ->
                      sfind d (x_sel (fst st)) = Some (wanted_positions start stop slope offset data) /\
                      sfind d (x_len (fst st)) = Some (N.of_nat (length (wanted_positions start stop slope offset data)))))).
        { intro S. destruct (IH used x0) as (st & E & R); [intros b d I; apply H; now right|]. exists st. split; [exact E|].
          intro d. destruct (R d) as (R1 & R2). cbn [find]. destruct (axis_on d a) eqn:O; [|now split].
          split; [intros _; apply R1; left; now apply S|]. intro U. rewrite (S d O) in U. discriminate. }
        destruct (r_shape a) as [|dim [|e sh]] eqn:SH.
        + cbn [obind]. apply SKIP. intros d O. unfold axis_on in O. rewrite SH in O. discriminate.
        + destruct (has dim used) eqn:U.
          * cbn [obind]. apply SKIP. intros d O. unfold axis_on in O. rewrite SH in O. apply String.eqb_eq in O as ->. exact U.
          * destruct (H a dim (or_introl eq_refl) SH U) as (data & SC & HD).
            assert (STEP : exists x1, reduce_axis units_of convert scaled false u start stop x0 a dim = Ok x1 /\
              (forall d, d <> dim -> sfind d (x_len x1) = sfind d (x_len x0) /\ sfind d (x_sel x1) = sfind d (x_sel x0)) /\
              (sfind dim (x_sel x0) <> None \/ data = [] -> x1 = x0) /\
              (sfind dim (x_sel x0) = None -> data <> [] -> forall slope offset, convert u (units_of (r_name a)) = Ok (slope, offset) ->
                sfind dim (x_sel x1) = Some (wanted_positions start stop slope offset data) /\
                sfind dim (x_len x1) = Some (N.of_nat (length (wanted_positions start stop slope offset data))))).
            { destruct data as [|q data'].
              - exists x0. unfold reduce_axis. rewrite SC. cbn [obind]. split; [reflexivity|]. split; [now split|]. split; [easy|]. intros _ X. easy.
              - destruct (HD ltac:(easy)) as (M & B & ((slope & offset) & C) & LEN). destruct (sfind dim (x_sel x0)) as [s|] eqn:SEL.
                + exists x0. unfold reduce_axis. rewrite SC. cbn [obind]. rewrite C. cbn [obind]. unfold kept_range. cbn [andb]. cbn [obind]. rewrite SEL.
                  split; [reflexivity|]. split; [now split|]. split; [easy|]. intro X. discriminate.
                + assert (NE : q :: data' <> []) by discriminate. assert (LEN' := LEN eq_refl).
                  destruct (C80_axis u start stop x0 a dim (q :: data') slope offset SC NE M C LEN' B SEL) as (x1 & E & E1 & E2 & E3).
                  exists x1. split; [exact E|]. split; [exact E3|]. split; [intros [X|X]; easy|].
                  intros _ _ s o C'. rewrite C in C'. injection C' as <- <-. now split. }
            destruct STEP as (x1 & E & OTHER & KEEP & NEW). rewrite E. cbn [obind].
            destruct (IH (dim :: used) x1) as (st & F & R).
            { intros b d I SB UD. cbn [has existsb] in UD. apply orb_false_iff in UD as (ND & UD). apply String.eqb_neq in ND.
              destruct (H b d (or_intror I) SB UD) as (db & S1 & S2). exists db. split; [exact S1|]. intro NE. destruct (S2 NE) as (S3 & S4 & S5 & S6).
              split; [exact S3|]. split; [exact S4|]. split; [exact S5|]. destruct (OTHER d ND) as (-> & ->). exact S6. }
            exists st. split; [exact F|]. intro d. destruct (R d) as (R1 & R2). cbn [find]. unfold axis_on at 1 3. rewrite SH.
            destruct (String.eqb_spec d dim) as [->|ND].
            -- assert (HU : has dim (dim :: used) = true) by (cbn; now rewrite String.eqb_refl).
               destruct (R1 (or_introl HU)) as (-> & ->). rewrite U. split.
               ++ intros [X|[X|X]]; try discriminate. now rewrite (KEEP (or_introl X)).
               ++ intros _ SEL b db FB SB. injection FB as <-. rewrite SC in SB. injection SB as <-. split.
                  ** intro X. rewrite (KEEP (or_intror X)). now split.
                  ** intros X slope offset. now apply NEW.
            -- destruct (OTHER d ND) as (OL & OS). rewrite OL, OS in *.
               assert (HU : has d (dim :: used) = has d used) by (cbn; apply String.eqb_neq in ND; now rewrite ND). rewrite HU in *. now split.
        + cbn [obind]. apply SKIP. intros d O. unfold axis_on in O. rewrite SH in O. discriminate. }
    destruct (G (axes types u) [] x) as (st & E & R); [intros a d I S _; now apply H|]. rewrite E. cbn [obind]. exists (fst st). split; [reflexivity|].
    intro d. destruct (R d) as (R1 & R2). split; [intro X; apply R1; now right|]. intros SEL. now apply R2.
  Qed.
End C80.

(** Whatever the order of the data: the positions kept are positions of the axis. *)
Theorem C80_safe data lo hi : exists a m, kept_range false data lo hi = Ok (a, m) /\ a + m <= length data.
Proof.
  unfold kept_range. cbn [andb]. eexists. eexists. split; [reflexivity|].
  set (arr := if is_reverse data then rev data else data).
  assert (L : length arr = length data) by (unfold arr; destruct (is_reverse data); [apply rev_length|reflexivity]).
  assert (A := bound_range (fun x => qlt x lo) arr (length arr) 0 (length arr)). assert (B := bound_range (fun x => negb (qlt hi x)) arr (length arr) 0 (length arr)).
  fold (lower_bound arr lo) in A. fold (upper_bound arr hi) in B. destruct (is_reverse data); lia.
Qed.

(** ** findings and examples *)
Definition one_axis : list (unit -> option raxis) := [fun _ => Some (mkRaxis "time" ["time"])].
Definition ex_x : extractor := mkExt [("time", 5%N); ("x", 3%N)] [].
Definition ex_reduce (data : list Q) (slope offset start stop : Q) (debug : bool) (x : extractor) : outcome extractor :=
  reduce_axes unit one_axis (fun _ => "h") (fun _ _ => true) (fun _ _ => Ok (slope, offset)) (fun _ => Ok data) debug [tt] "s" start stop x.

Example C80_nonvacuous :
  (* values 10, 8, .., 2 in hours; seconds 10800 to 28800 are 3 to 8 hours *)
  ex_reduce [10; 8; 6; 4; 2]%Q (1 # 3600) 0 10800 28800 false ex_x = Ok (mkExt [("time", 3%N); ("x", 3%N)] [("time", [1; 2; 3]%N)]) /\
  (* a value just outside, within a hundredth of a step *)
  ex_reduce [0; 1; 2; 3; 4]%Q 1 0 (1001 # 1000) (2999 # 1000) false ex_x = Ok (mkExt [("time", 3%N); ("x", 3%N)] [("time", [1; 2; 3]%N)]) /\
  monotone [10; 8; 6; 4; 2]%Q.
Proof.
  split; [vm_compute; reflexivity|]. split; [vm_compute; reflexivity|]. right. split.
  - intros i j I J. cbn in J. destruct i as [|[|[|[|[|i]]]]], j as [|[|[|[|[|j]]]]]; try lia; cbn; lra.
  - intros _. cbn. lra.
Qed.
(** Finding: a second reduction of the same dimension is ignored: asking for 0..3 and then for 1..2 keeps
    the positions 0..3. *)
Theorem C80_second_range_ignored_refuted :
  exists x1, ex_reduce [0; 1; 2; 3; 4]%Q 1 0 0 3 false ex_x = Ok x1 /\ ex_reduce [0; 1; 2; 3; 4]%Q 1 0 1 2 false x1 = Ok x1 /\
    sfind "time" (x_sel x1) = Some [0; 1; 2; 3]%N.
Proof.
  exists (mkExt [("time", 4%N); ("x", 3%N)] [("time", [0; 1; 2; 3]%N)]).
  split; [vm_compute; reflexivity|]. split; [vm_compute; reflexivity|]. reflexivity.
Qed.
(** Finding: a range that is above all values empties the dimension; with debug messages switched on the
    element behind the last one is read. *)
Theorem C80_above_all_refuted :
  ex_reduce [0; 1; 2; 3; 4]%Q 1 0 10 20 false ex_x = Ok (mkExt [("time", 0%N); ("x", 3%N)] [("time", [])]) /\
  ex_reduce [0; 1; 2; 3; 4]%Q 1 0 10 20 true ex_x = UB.
Proof. split; vm_compute; reflexivity. Qed.
(** Finding: units pointing the other way (negative slope) exchange the ends of the range: nothing is kept. *)
Theorem C80_negative_slope_refuted :
  ex_reduce [-4; -3; -2; -1; 0]%Q (-1) 0 1 3 false ex_x = Ok (mkExt [("time", 0%N); ("x", 3%N)] [("time", [])]) /\
  (forall v, In v [-3; -2; -1]%Q -> (1 <= -1 * v <= 3)%Q).
Proof.
  split; [vm_compute; reflexivity|]. intros v H. cbn in H. destruct H as [<-|[<-|[<-|[]]]]; split; lra.
Qed.
(** Finding: on an axis that is not monotone, values in the range are left out and values outside are kept. *)
Theorem C80_not_monotone_refuted :
  ex_reduce [0; 6; 1; 2; 3]%Q 1 0 0 3 false ex_x = Ok (mkExt [("time", 5%N); ("x", 3%N)] [("time", [0; 1; 2; 3; 4]%N)]) /\
  ex_reduce [4; 5; 0; 1; 2]%Q 1 0 4 5 false ex_x = Ok (mkExt [("time", 0%N); ("x", 3%N)] [("time", [])]).
Proof. split; vm_compute; reflexivity. Qed.

(** * C81: bounding boxes *)

Lemma In_set_insert v l p : In p (set_insert v l) <-> p = v \/ In p l.
Proof.
  induction l as [|a l IH]; cbn [set_insert]; [cbn; intuition congruence|].
  destruct (v <? a)%N eqn:A; [cbn; intuition congruence|]. destruct (v =? a)%N eqn:B.
  - apply N.eqb_eq in B as ->. cbn. intuition congruence.
  - cbn. rewrite IH. intuition congruence.
Qed.
(** strictly ascending *)
Fixpoint sorted (l : list N) : Prop := match l with a :: (b :: _) as l' => (a < b)%N /\ sorted l' | _ => True end.
Lemma sorted_set_insert v l : sorted l -> sorted (set_insert v l).
Proof.
  induction l as [|a l IH]; cbn [set_insert]; intro S; [exact I|].
  destruct (v <? a)%N eqn:A; [cbn; split; [lia|exact S]|]. destruct (v =? a)%N eqn:B; [exact S|].
  destruct l as [|b l].
  - cbn. lia.
  - cbn [sorted] in S. destruct S as (S1 & S2). specialize (IH S2). cbn [set_insert] in *. destruct (v <? b)%N eqn:C; [cbn; repeat split; lia || tauto|].
    destruct (v =? b)%N; cbn in *; tauto.
Qed.
Lemma In_grid nx ny p : In p (grid nx ny) <-> fst p < nx /\ snd p < ny.
Proof.
  unfold grid. rewrite in_flat_map. destruct p as (i, j). cbn [fst snd]. split.
  - intros (k & K & H). apply in_map_iff in H as (m & E & M). injection E as -> ->. apply in_seq in K, M. lia.
  - intros (A & B). exists i. split; [apply in_seq; lia|]. apply in_map_iff. exists j. split; [reflexivity|apply in_seq; lia].
Qed.

(** the point is in the box: the latitude is in the range, and the longitude is; if west is larger than
    east, the box crosses the date line *)
Definition inside (south north west east : Q) (p : Q * Q) : Prop :=
  (south <= snd p <= north)%Q /\
  ((west <= east)%Q -> (west <= fst p <= east)%Q) /\ ((east < west)%Q -> (fst p <= east)%Q \/ (west <= fst p)%Q).
Lemma in_box_inside south north west east p : in_box south north west east p = true <-> inside south north west east p.
Proof.
  destruct p as (lon, lat). unfold in_box, inside. cbn [fst snd]. destruct (qlt lat south || qlt north lat) eqn:L.
  - split; [discriminate|]. intros ((A & B) & _). apply orb_true_iff in L as [L|L]; apply qlt_lt in L; lra.
  - apply orb_false_iff in L as (L1 & L2). apply qlt_ge in L1, L2. destruct (qlt east west) eqn:W.
    + apply qlt_lt in W. rewrite negb_true_iff, andb_false_iff, !qlt_ge. split.
      * intros H. split; [now split|]. split; [lra|]. intros _. tauto.
      * intros (_ & _ & H). specialize (H W). tauto.
    + apply qlt_ge in W. rewrite negb_true_iff, orb_false_iff, !qlt_ge. split.
      * intros H. split; [now split|]. split; [tauto|lra].
      * intros (_ & H & _). now apply H.
Qed.

Section C81.
  Variable scaled : string -> outcome (list Q).
  Variables south north west east : Q.
  Let step := box_step scaled south north west east.

  (** the point of the grid in longitude and latitude *)
  Definition point (ll : Q -> Q -> Q * Q) (xs ys : list Q) (i j : nat) : Q * Q := ll (nth i xs 0%Q) (nth j ys 0%Q).
  Lemma box_positions_spec ll xs ys :
    let k := box_positions south north west east ll xs ys in
    sorted (fst k) /\ sorted (snd k) /\
    (forall p, In p (fst k) <-> exists i j, p = N.of_nat i /\ i < length xs /\ j < length ys /\ inside south north west east (point ll xs ys i j)) /\
    (forall p, In p (snd k) <-> exists i j, p = N.of_nat j /\ i < length xs /\ j < length ys /\ inside south north west east (point ll xs ys i j)).
  Proof.
    cbv zeta. unfold box_positions.
    set (f := fun (s : list N * list N) (p : nat * nat) => if in_box south north west east (ll (nth (fst p) xs 0%Q) (nth (snd p) ys 0%Q))
       then (set_insert (N.of_nat (fst p)) (fst s), set_insert (N.of_nat (snd p)) (snd s)) else s).
    assert (G : forall l s, sorted (fst s) -> sorted (snd s) ->
      let k := fold_left f l s in sorted (fst k) /\ sorted (snd k) /\
      (forall p, In p (fst k) <-> In p (fst s) \/ exists q, In q l /\ p = N.of_nat (fst q) /\ inside south north west east (point ll xs ys (fst q) (snd q))) /\
      (forall p, In p (snd k) <-> In p (snd s) \/ exists q, In q l /\ p = N.of_nat (snd q) /\ inside south north west east (point ll xs ys (fst q) (snd q)))).
    { induction l as [|q l IH]; intros s S1 S2; cbn [fold_left].
      - split; [exact S1|]. split; [exact S2|]. split; intro p; (split; [now left|]); intros [H|(q & [] & _)]; exact H.
      - assert (F : sorted (fst (f s q)) /\ sorted (snd (f s q)) /\
          (forall p, In p (fst (f s q)) <-> In p (fst s) \/ (p = N.of_nat (fst q) /\ inside south north west east (point ll xs ys (fst q) (snd q)))) /\
          (forall p, In p (snd (f s q)) <-> In p (snd s) \/ (p = N.of_nat (snd q) /\ inside south north west east (point ll xs ys (fst q) (snd q))))).
        { unfold f. fold (point ll xs ys (fst q) (snd q)). destruct (in_box _ _ _ _ (point ll xs ys (fst q) (snd q))) eqn:B; cbn [fst snd].
          - apply in_box_inside in B. split; [now apply sorted_set_insert|]. split; [now apply sorted_set_insert|].
            split; intro p; rewrite In_set_insert; tauto.
          - assert (NB : ~ inside south north west east (point ll xs ys (fst q) (snd q))) by (rewrite <- in_box_inside; congruence).
            split; [exact S1|]. split; [exact S2|]. split; intro p; tauto. }
        destruct F as (F1 & F2 & F3 & F4). destruct (IH (f s q) F1 F2) as (K1 & K2 & K3 & K4). cbv zeta.
        split; [exact K1|]. split; [exact K2|]. split; intro p.
        + rewrite K3, F3. split.
          * intros [[H|H]|(r & R & H)]; [now left|right; exists q; split; [now left|exact H]|right; exists r; split; [now right|exact H]].
          * intros [H|(r & [<-|R] & H)]; [left; now left|left; now right|right; now exists r].
        + rewrite K4, F4. split.
          * intros [[H|H]|(r & R & H)]; [now left|right; exists q; split; [now left|exact H]|right; exists r; split; [now right|exact H]].
          * intros [H|(r & [<-|R] & H)]; [left; now left|left; now right|right; now exists r]. }
    destruct (G (grid (length xs) (length ys)) ([], []) I I) as (K1 & K2 & K3 & K4). fold f.
    split; [exact K1|]. split; [exact K2|]. split; intro p.
    - rewrite K3. cbn [fst]. split.
      + intros [[]|((i, j) & Q & E & H)]. apply In_grid in Q. exists i, j. cbn in *. tauto.
      + intros (i & j & E & A & B & H). right. exists (i, j). split; [now apply In_grid|]. now split.
    - rewrite K4. cbn [snd]. split.
      + intros [[]|((i, j) & Q & E & H)]. apply In_grid in Q. exists i, j. cbn in *. tauto.
      + intros (i & j & E & A & B & H). right. exists (i, j). split; [now apply In_grid|]. now split.
  Qed.

  (** a coordinate system the box is applied to, with the values of its axes *)
  Definition takes (cs : bsys) (xs ys : list Q) : Prop :=
    b_simple cs = true /\ b_proj cs = true /\ length (r_shape (b_x cs)) = 1 /\ length (r_shape (b_y cs)) = 1 /\
    scaled (r_name (b_x cs)) = Ok xs /\ scaled (r_name (b_y cs)) = Ok ys /\ xs <> [] /\ ys <> [].
  Definition axis_names (cs : bsys) : list string := [r_name (b_x cs); r_name (b_y cs)].

  Lemma reduce_set_other x dim l x' : reduce_set x dim l = Ok x' ->
    sfind dim (x_sel x') = Some l /\ sfind dim (x_len x') = Some (N.of_nat (length l)) /\
    forall d, d <> dim -> sfind d (x_len x') = sfind d (x_len x) /\ sfind d (x_sel x') = sfind d (x_sel x).
  Proof.
    unfold reduce_set. destruct (sfind dim (x_len x)) as [n|]; [|discriminate]. destruct (existsb _ l); [discriminate|]. intro H. injection H as <-. cbn [x_len x_sel].
    rewrite !sfind_sput, String.eqb_refl. split; [reflexivity|]. split; [reflexivity|]. intros d N. apply String.eqb_neq in N. rewrite !sfind_sput, N. now split.
  Qed.
  Lemma step_cases st cs st' : step st cs = Ok st' ->
    st' = st \/ exists xs ys x1, takes cs xs ys /\ has (r_name (b_x cs)) (snd st) = false /\ has (r_name (b_y cs)) (snd st) = false /\
      reduce_set (fst st) (r_name (b_x cs)) (fst (box_positions south north west east (b_lonlat cs) xs ys)) = Ok x1 /\
      reduce_set x1 (r_name (b_y cs)) (snd (box_positions south north west east (b_lonlat cs) xs ys)) = Ok (fst st') /\
      snd st' = axis_names cs ++ snd st.
  Proof.
    unfold step, box_step. destruct (b_simple cs) eqn:S; cbn [negb]; [|intro H; injection H; now left].
    destruct (b_proj cs) eqn:P; cbn [negb]; [|intro H; injection H; now left].
    destruct (has (r_name (b_x cs)) (snd st) || has (r_name (b_y cs)) (snd st)) eqn:U; [intro H; injection H; now left|]. apply orb_false_iff in U as (U1 & U2).
    destruct ((length (r_shape (b_x cs)) =? 1) && (length (r_shape (b_y cs)) =? 1)) eqn:L; cbn [negb]; [|intro H; injection H; now left].
    destruct (scaled (r_name (b_x cs))) as [xs| | |] eqn:X; cbn [obind]; try discriminate.
    destruct (scaled (r_name (b_y cs))) as [ys| | |] eqn:Y; cbn [obind]; try discriminate.
    destruct ((length xs =? 0) || (length ys =? 0)) eqn:Z; [intro H; injection H; now left|]. cbv zeta.
    destruct (reduce_set (fst st) _ _) as [x1| | |] eqn:R1; cbn [obind]; try discriminate.
    destruct (reduce_set x1 _ _) as [x2| | |] eqn:R2; cbn [obind]; try discriminate.
    intro H. injection H as <-. right. exists xs, ys, x1. cbn [fst snd]. split; [|now repeat split].
    unfold takes. repeat (split; [first [assumption|lia]|]). split; intros ->; cbn in Z; lia.
  Qed.
  Lemma step_takes st cs xs ys st' : takes cs xs ys -> has (r_name (b_x cs)) (snd st) = false -> has (r_name (b_y cs)) (snd st) = false ->
    step st cs = Ok st' -> exists x1,
      reduce_set (fst st) (r_name (b_x cs)) (fst (box_positions south north west east (b_lonlat cs) xs ys)) = Ok x1 /\
      reduce_set x1 (r_name (b_y cs)) (snd (box_positions south north west east (b_lonlat cs) xs ys)) = Ok (fst st') /\
      snd st' = axis_names cs ++ snd st.
  Proof.
    intros (S & P & L1 & L2 & X & Y & NX & NY) U1 U2. unfold step, box_step. rewrite S, P, U1, U2, L1, L2, X, Y. cbn [negb orb andb Nat.eqb obind].
    replace ((length xs =? 0) || (length ys =? 0)) with false by (destruct xs, ys; easy). cbv zeta.
    destruct (reduce_set (fst st) _ _) as [x1| | |] eqn:R1; cbn [obind]; try discriminate.
    destruct (reduce_set x1 _ _) as [x2| | |] eqn:R2; cbn [obind]; try discriminate.
    intro H. injection H as <-. exists x1. now repeat split.
  Qed.
  (** dimensions already converted stay as they are *)
  Lemma steps_keep l : forall st st', ofold step l st = Ok st' -> forall d, has d (snd st) = true ->
    sfind d (x_sel (fst st')) = sfind d (x_sel (fst st)) /\ sfind d (x_len (fst st')) = sfind d (x_len (fst st)).
  Proof.
    induction l as [|cs l IH]; intros st st' H d U; cbn [ofold] in H; [injection H as <-; now split|].
    destruct (step st cs) as [st1| | |] eqn:E; cbn [obind] in H; try discriminate. apply step_cases in E as [->|(xs & ys & x1 & T & UX & UY & R1 & R2 & C)].
    - now apply (IH st).
    - apply reduce_set_other in R1 as (_ & _ & R1). apply reduce_set_other in R2 as (_ & _ & R2).
      assert (NX : d <> r_name (b_x cs)) by (intros ->; congruence). assert (NY : d <> r_name (b_y cs)) by (intros ->; congruence).
      destruct (R1 d NX) as (A1 & A2). destruct (R2 d NY) as (B1 & B2). rewrite <- A1, <- A2, <- B1, <- B2. apply (IH st1 st' H). rewrite C. apply has_In, in_or_app. right. now apply has_In.
  Qed.
  (** only the axes of the coordinate systems are touched *)
  Lemma steps_other l : forall st st', ofold step l st = Ok st' ->
    (forall d, (forall cs, In cs l -> ~ In d (axis_names cs)) ->
      sfind d (x_sel (fst st')) = sfind d (x_sel (fst st)) /\ sfind d (x_len (fst st')) = sfind d (x_len (fst st)) /\ has d (snd st') = has d (snd st)).
  Proof.
    induction l as [|cs l IH]; intros st st' H d U; cbn [ofold] in H; [injection H as <-; now split|].
    destruct (step st cs) as [st1| | |] eqn:E; cbn [obind] in H; try discriminate.
    destruct (IH st1 st' H d) as (I1 & I2 & I3); [intros c C; apply U; now right|]. rewrite I1, I2, I3.
    assert (NC := U cs (or_introl eq_refl)). cbn in NC.
    apply step_cases in E as [->|(xs & ys & x1 & T & UX & UY & R1 & R2 & C)]; [now repeat split|].
    apply reduce_set_other in R1 as (_ & _ & R1). apply reduce_set_other in R2 as (_ & _ & R2).
    destruct (R1 d) as (A1 & A2); [intuition|]. destruct (R2 d) as (B1 & B2); [intuition|]. rewrite B1, B2, A1, A2, C. split; [reflexivity|]. split; [reflexivity|].
    cbn. replace (d =? r_name (b_x cs))%string with false by (symmetry; apply String.eqb_neq; intuition).
    replace (d =? r_name (b_y cs))%string with false by (symmetry; apply String.eqb_neq; intuition). reflexivity.
  Qed.

  (** A coordinate system that shares no axis with an earlier one: a column of the grid is kept exactly if one of
      its points is in the box, a row likewise. *)
  Theorem C81_box pre cs post x x' xs ys :
    bounding_box scaled south north west east (pre ++ cs :: post) x = Ok x' -> takes cs xs ys -> r_name (b_x cs) <> r_name (b_y cs) ->
    (forall c, In c pre -> ~ In (r_name (b_x cs)) (axis_names c) /\ ~ In (r_name (b_y cs)) (axis_names c)) ->
    exists px py, sfind (r_name (b_x cs)) (x_sel x') = Some px /\ sfind (r_name (b_y cs)) (x_sel x') = Some py /\
      sfind (r_name (b_x cs)) (x_len x') = Some (N.of_nat (length px)) /\ sfind (r_name (b_y cs)) (x_len x') = Some (N.of_nat (length py)) /\
      sorted px /\ sorted py /\
      (forall p, In p px <-> exists i j, p = N.of_nat i /\ i < length xs /\ j < length ys /\ inside south north west east (point (b_lonlat cs) xs ys i j)) /\
      (forall p, In p py <-> exists i j, p = N.of_nat j /\ i < length xs /\ j < length ys /\ inside south north west east (point (b_lonlat cs) xs ys i j)).
  Proof.
    intros H T NXY PRE. unfold bounding_box in H. do 5 (destruct (_ : bool) in H; [discriminate|]). fold step in H.
    destruct (ofold step (pre ++ cs :: post) (x, [])) as [st| | |] eqn:E; cbn [obind] in H; try discriminate. injection H as <-.
    assert (APP : forall l1 l2 s r, ofold step (l1 ++ l2) s = Ok r -> exists m, ofold step l1 s = Ok m /\ ofold step l2 m = Ok r).
    { clear. induction l1 as [|a l1 IH]; intros l2 s r H; cbn [app ofold] in *; [now exists s|]. destruct (step s a) as [s1| | |]; cbn [obind] in *; try discriminate. now apply IH. }
    apply APP in E as (st1 & E1 & E2). cbn [ofold] in E2. destruct (step st1 cs) as [st2| | |] eqn:E3; cbn [obind] in E2; try discriminate.
    destruct (steps_other _ _ _ E1 (r_name (b_x cs))) as (_ & _ & UX); [intros c C; now apply PRE|].
    destruct (steps_other _ _ _ E1 (r_name (b_y cs))) as (_ & _ & UY); [intros c C; now apply PRE|].
    destruct (step_takes st1 cs xs ys st2 T UX UY E3) as (x1 & R1 & R2 & C).
    assert (HX : has (r_name (b_x cs)) (snd st2) = true) by (rewrite C; cbn; now rewrite String.eqb_refl).
    assert (HY : has (r_name (b_y cs)) (snd st2) = true) by (rewrite C; cbn; rewrite String.eqb_refl; now destruct (_ =? _)%string).
    destruct (steps_keep _ _ _ E2 _ HX) as (KX1 & KX2). destruct (steps_keep _ _ _ E2 _ HY) as (KY1 & KY2).
    apply reduce_set_other in R1 as (A1 & A2 & _). apply reduce_set_other in R2 as (B1 & B2 & B3). destruct (B3 _ NXY) as (B4 & B5).
    rewrite KX1, KX2, KY1, KY2, B1, B2, B4, B5, A1, A2.
    destruct (box_positions_spec (b_lonlat cs) xs ys) as (S1 & S2 & S3 & S4).
    eexists. eexists. split; [reflexivity|]. split; [reflexivity|]. split; [reflexivity|]. split; [reflexivity|]. split; [exact S1|]. split; [exact S2|]. split; [exact S3|exact S4].
  Qed.
  (** Dimensions that are no horizontal axis of a coordinate system are left alone. *)
  Theorem C81_untouched css x x' d : bounding_box scaled south north west east css x = Ok x' -> (forall cs, In cs css -> ~ In d (axis_names cs)) ->
    sfind d (x_sel x') = sfind d (x_sel x) /\ sfind d (x_len x') = sfind d (x_len x).
  Proof.
    intros H N. unfold bounding_box in H. do 5 (destruct (_ : bool) in H; [discriminate|]). fold step in H.
    destruct (ofold step css (x, [])) as [st| | |] eqn:E; cbn [obind] in H; try discriminate. injection H as <-.
    destruct (steps_other _ _ _ E d N) as (A & B & _). now split.
  Qed.
  (** The box is accepted exactly in this range (if the data can be read and the axes are dimensions of the
      extractor, not reduced before). *)
  Theorem C81_accepted css x :
    (forall cs, In cs css -> r_name (b_x cs) <> r_name (b_y cs) /\
       exists xs ys, scaled (r_name (b_x cs)) = Ok xs /\ scaled (r_name (b_y cs)) = Ok ys /\
         sfind (r_name (b_x cs)) (x_len x) = Some (N.of_nat (length xs)) /\ sfind (r_name (b_y cs)) (x_len x) = Some (N.of_nat (length ys))) ->
    (((-90 # 1) <= south /\ south <= north /\ north <= (90 # 1) /\ (-180 # 1) <= west <= (180 # 1) /\ (-180 # 1) <= east <= (180 # 1))%Q <->
     exists x', bounding_box scaled south north west east css x = Ok x').
  Proof.
    intro H.
    assert (G : exists st, ofold step css (x, []) = Ok st).
    { assert (G : forall l st, (forall cs, In cs l -> In cs css) -> (forall d, has d (snd st) = false -> sfind d (x_len (fst st)) = sfind d (x_len x)) -> exists st', ofold step l st = Ok st').
      { induction l as [|cs l IH]; intros st IN K; cbn [ofold]; [now eexists|].
        destruct (H cs (IN cs (or_introl eq_refl))) as (NXY & xs & ys & X & Y & LX & LY).
        assert (E : exists st1, step st cs = Ok st1 /\ (forall d, has d (snd st1) = false -> sfind d (x_len (fst st1)) = sfind d (x_len x))).
        { unfold step, box_step. destruct (negb (b_simple cs)); [now exists st|]. destruct (negb (b_proj cs)); [now exists st|].
          destruct (has (r_name (b_x cs)) (snd st) || has (r_name (b_y cs)) (snd st)) eqn:U; [now exists st|]. apply orb_false_iff in U as (U1 & U2).
          destruct (negb _); [now exists st|]. rewrite X, Y. cbn [obind]. destruct (_ || _); [now exists st|]. cbv zeta.
          destruct (box_positions_spec (b_lonlat cs) xs ys) as (_ & _ & S3 & S4). set (k := box_positions _ _ _ _ _ _ _) in *.
          destruct (C07_index_set (fst st) (r_name (b_x cs)) (fst k) (N.of_nat (length xs))) as (x1 & R1 & _ & _ & O1).
          { rewrite K by exact U1. exact LX. }
          { intros p P. apply S3 in P as (i & j & -> & P1 & _). lia. }
          rewrite R1. cbn [obind].
          destruct (C07_index_set x1 (r_name (b_y cs)) (snd k) (N.of_nat (length ys))) as (x2 & R2 & _ & _ & O2).
          { destruct (O1 (r_name (b_y cs))) as (-> & _); [congruence|]. rewrite K by exact U2. exact LY. }
          { intros p P. apply S4 in P as (i & j & -> & _ & P1 & _). lia. }
          rewrite R2. cbn [obind]. eexists. split; [reflexivity|]. cbn [fst snd]. intros d D. cbn in D.
          destruct (String.eqb_spec d (r_name (b_x cs))) as [|N1]; [discriminate|]. destruct (String.eqb_spec d (r_name (b_y cs))) as [|N2]; [discriminate|].
          destruct (O2 d N2) as (-> & _). destruct (O1 d N1) as (-> & _). now apply K. }
        destruct E as (st1 & -> & K1). cbn [obind]. apply IH; [|exact K1]. intros c C. apply IN. now right. }
      apply G; [easy|]. reflexivity. }
    destruct G as (st & G). unfold bounding_box. fold step. rewrite G. cbn [obind].
    repeat match goal with |- context [qlt ?a ?b] => let E := fresh "E" in destruct (qlt a b) eqn:E; [apply qlt_lt in E|apply qlt_ge in E] end; cbn [orb];
      (split; [intro P; try lra; now eexists|]); intros (z & Z); try discriminate; repeat split; lra.
  Qed.
End C81.

(** ** findings and examples *)
Definition latlon (lon : string) (lat : string) : bsys := mkBsys true true (mkRaxis lon [lon]) (mkRaxis lat [lat]) (fun x y => (x, y)).
Definition ex_box (lons lats : list Q) (south north west east : Q) (css : list bsys) : outcome extractor :=
  bounding_box (fun n => Ok (if String.eqb n "lat" then lats else lons)) south north west east css (mkExt [("lat", 3%N); ("lon", 5%N); ("lon_u", 5%N)] []).
Example C81_nonvacuous :
  ex_box [-20; -10; 0; 10; 20]%Q [40; 50; 60]%Q 45 60 (-10) 10 [latlon "lon" "lat"] =
    Ok (mkExt [("lat", 2%N); ("lon", 3%N); ("lon_u", 5%N)] [("lat", [1; 2]%N); ("lon", [1; 2; 3]%N)]) /\
  (* across the date line *)
  ex_box [-180; -90; 0; 90; 170]%Q [40; 50; 60]%Q 45 60 100 (-100) [latlon "lon" "lat"] =
    Ok (mkExt [("lat", 2%N); ("lon", 2%N); ("lon_u", 5%N)] [("lat", [1; 2]%N); ("lon", [0; 4]%N)]) /\
  ex_box [-20; -10; 0; 10; 20]%Q [40; 50; 60]%Q 60 45 (-10) 10 [latlon "lon" "lat"] = Throw /\
  takes (fun n => Ok (if String.eqb n "lat" then [40; 50; 60]%Q else [-20; -10; 0; 10; 20]%Q)) (latlon "lon" "lat") [-20; -10; 0; 10; 20]%Q [40; 50; 60]%Q.
Proof.
  split; [vm_compute; reflexivity|]. split; [vm_compute; reflexivity|]. split; [vm_compute; reflexivity|].
  repeat split; discriminate.
Qed.
(** Finding: longitudes are compared as numbers.  On a grid with longitudes from 0 to 360 the part west of
    Greenwich is lost: 350 degrees is 10 degrees west and in the box from 20 west to 20 east. *)
Theorem C81_longitudes_to_360_refuted :
  ex_box [0; 10; 180; 350; 355]%Q [40; 50; 60]%Q 40 60 (-20) 20 [latlon "lon" "lat"] =
    Ok (mkExt [("lat", 3%N); ("lon", 2%N); ("lon_u", 5%N)] [("lat", [0; 1; 2]%N); ("lon", [0; 1]%N)]) /\
  inside 40 60 (-20) 20 (350 - 360, 50)%Q.
Proof. split; [vm_compute; reflexivity|]. unfold inside. cbn [fst snd]. repeat split; intros; lra. Qed.
(** Finding: a coordinate system that shares one axis with an earlier one (a staggered grid) keeps its other
    axis whole. *)
Theorem C81_shared_axis_refuted :
  ex_box [-20; -10; 0; 10; 20]%Q [40; 50; 60]%Q 45 60 (-10) 10 [latlon "lon" "lat"; latlon "lon_u" "lat"] =
    Ok (mkExt [("lat", 2%N); ("lon", 3%N); ("lon_u", 5%N)] [("lat", [1; 2]%N); ("lon", [1; 2; 3]%N)]).
Proof. vm_compute. reflexivity. Qed.
(** Finding: a box without points empties the dimensions. *)
Theorem C81_empty_refuted :
  ex_box [-20; -10; 0; 10; 20]%Q [40; 50; 60]%Q 51 52 1 2 [latlon "lon" "lat"] =
    Ok (mkExt [("lat", 0%N); ("lon", 0%N); ("lon_u", 5%N)] [("lat", []); ("lon", [])]).
Proof. vm_compute. reflexivity. Qed.

Definition sel_cdm : cdm :=
  mkCdm [mkVar "t" DFloat ["time"; "x"] "" None; mkVar "x" DFloat ["x"] "" None; mkVar "time" DFloat ["time"] "" None; mkVar "lon" DFloat ["x"] "" None;
         mkVar "map" DInt [] "" None; mkVar "p" DFloat ["k"] "" None] [mkDim "time" 2 true; mkDim "x" 3 false; mkDim "k" 4 false] [].
Definition sel_css : list dsys := [mkDsys (fun n => String.eqb n "t") ["x"; "time"; "lon"; "map"]].
Example C79_nonvacuous :
  match select_variables 50 sel_cdm sel_css ["t"; "unknown"] true with Ok c => map v_name (vars c) | _ => [] end = ["t"; "x"; "time"; "lon"; "map"] /\
  match select_variables 50 sel_cdm sel_css ["t"] false with Ok c => map v_name (vars c) | _ => [] end = ["t"] /\
  match select_variables 50 sel_cdm sel_css ["p"] true with Ok c => map v_name (vars c) | _ => [] end = ["p"] /\
  length (universe sel_cdm sel_css ["t"; "unknown"]) < 50 /\ NoDup ["t"; "unknown"].
Proof.
  split; [vm_compute; reflexivity|]. split; [vm_compute; reflexivity|]. split; [vm_compute; reflexivity|]. split; [vm_compute; lia|].
  repeat constructor; cbn; intuition discriminate.
Qed.
(** Finding: a variable removed before is not there, but its axes are kept if it is asked for again: the
    coordinate systems are those of the data reader. *)
Theorem C79_removed_variable_refuted :
  match select_variables 50 (remove_var sel_cdm "t") sel_css ["t"] true with Ok c => map v_name (vars c) | _ => [] end = ["x"; "time"; "lon"; "map"].
Proof. vm_compute. reflexivity. Qed.
Print Assumptions C79_auxiliary.
Print Assumptions C79_selected.
Print Assumptions C79_complete.
Print Assumptions C80_axis.
Print Assumptions C80_member.
Print Assumptions C80_contains.
Print Assumptions C80_empty_range.
Print Assumptions C80_time.
Print Assumptions C80_time_range.
Print Assumptions C80_axes.
Print Assumptions C80_safe.
Print Assumptions C80_second_range_ignored_refuted.
Print Assumptions C80_above_all_refuted.
Print Assumptions C80_negative_slope_refuted.
Print Assumptions C80_not_monotone_refuted.
Print Assumptions C81_box.
Print Assumptions C81_untouched.
Print Assumptions C81_accepted.
Print Assumptions C81_longitudes_to_360_refuted.
Print Assumptions C81_shared_axis_refuted.
Print Assumptions C81_empty_refuted.
Print Assumptions C79_removed_variable_refuted.
