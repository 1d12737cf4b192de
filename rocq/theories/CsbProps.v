(** C75: requests by the type of an axis. *)
From Coq Require Import NArith ZArith String List Bool Lia Arith.
From Coq Require Import ZifyBool ZifyNat ZifyN.
From Verif Require Import Base StdMap SliceModel SliceBuilderProofs AxesModel AxesProps CsbModel.
Import ListNotations.
Local Open Scope nat_scope.

(** ** Specification *)
(** dimension [d] of the variable has length [m] *)
Definition has_dim_len (names : list string) (dimlen : string -> option N) (d : string) (m : N) : Prop :=
  In d names /\ dimlen d = Some m.
(** the request for [d] is acceptable *)
Definition fits_dim (names : list string) (dimlen : string -> option N) (d : string) (s z : N) : Prop :=
  exists m, has_dim_len names dimlen d m /\ (s + z <= m)%N.
(** [b'] differs from [b] in the request for [d] only, which is (s, z) *)
Definition only_changed (b b' : slice_builder) (d : string) (s z : N) : Prop :=
  sb_get b' d = Ok (s, z) /\ forall d', d' <> d -> sb_get b' d' = sb_get b d'.
Definition nothing_changed (b b' : slice_builder) : Prop := forall d, sb_get b' d = sb_get b d.
(** the dimension of the time axis: its own dimension if it is explicit, otherwise the only dimension of the time
    variable that is not called like the reference time *)
Definition not_reference (cs : csys) (x : string) : Prop := forall r, find_axis cs ReferenceTime = Some r -> x <> a_name r.
Definition time_dimension (shape : axis -> list string) (expl : axis -> bool) (cs : csys) (d : string) : Prop :=
  exists t, find_axis cs Time = Some t /\
    ((expl t = true /\ d = a_name t) \/
     (expl t = false /\ In d (shape t) /\ not_reference cs d /\ forall x, In x (shape t) -> not_reference cs x -> x = d)).
Definition op_dimension (op : sb_op) : string := match op with SetStartAndSize d _ _ => d | SetAll d => d end.
(** calls whose sums stay below 2^64 *)
Definition csb_no_wrap (o : csb_op) : Prop :=
  match o with
  | RefTimePos p => (p + 1 < M64)%N
  | TimeRange s z => (s + z < M64)%N
  | AxisRange _ s z => (s + z < M64)%N /\ (s + 1 < M64)%N
  | Plain op => no_wrap op
  end.
(** the object after its constructor for the variable with dimensions [names], and any history of calls *)
Definition made shape expl usable vars dimlen cs ops (names : list string) (b : csb) : Prop :=
  exists v b0, find (fun v => usable (fst v)) vars = Some v /\ names = snd v /\ NoDup names /\
    (forall d m, dimlen d = Some m -> (m < M64)%N) /\
    csb_new shape expl usable vars dimlen cs = Ok b0 /\ Forall csb_no_wrap ops /\ b = csb_run expl b0 ops.

(** ** Lemmas *)
Lemma has_find cs t : has_axis_type cs t = match find_axis cs t with Some _ => true | None => false end.
Proof.
  unfold has_axis_type, find_axis, has_type. destruct (find_type t (cs_main cs)); reflexivity.
Qed.
Lemma time_axis_find cs : time_axis cs = find_axis cs Time.
Proof. unfold time_axis. cbn. destruct (find_axis cs Time); reflexivity. Qed.

Lemma omapM_ok {A B} (f : A -> outcome B) l r : omapM f l = Ok r -> Forall2 (fun a b => f a = Ok b) l r.
Proof.
  revert r. induction l as [|a l IH]; intros r H; cbn in H; [injection H as <-; constructor|].
  destruct (f a) as [b| | |] eqn:E; try discriminate. cbn in H. destruct (omapM f l) as [bs| | |]; try discriminate. injection H as <-.
  constructor; auto.
Qed.

Section Sb.
  Variables (names : list string) (sizes : list N) (dimlen : string -> option N) (sb0 : slice_builder).
  Hypothesis Hinit : sb_init names sizes (map (fun _ => false) names) = Ok sb0.
  Hypothesis Hnodup : NoDup names.
  Hypothesis Hlen : Forall2 (fun d m => dimlen d = Some m) names sizes.
  Hypothesis Hsmall : forall d m, dimlen d = Some m -> (m < M64)%N.

  Definition inv (sb : slice_builder) : Prop := exists reqs, Forall no_wrap reqs /\ sb = sb_run sb0 reqs.

  Lemma sizes_small : Forall (fun m => (m < M64)%N) sizes.
  Proof. clear - Hlen Hsmall. induction Hlen; constructor; eauto. Qed.
  Lemma nth_len p d : nth_error names p = Some d -> exists m, nth_error sizes p = Some m /\ dimlen d = Some m.
  Proof.
    clear - Hlen. revert p. induction Hlen as [|n m ns ms E R IH]; intros [|p] H; cbn in *; try discriminate.
    - injection H as ->. eauto.
    - auto.
  Qed.
  Lemma nth_unl p d : nth_error names p = Some d -> nth_error (map (fun _ : string => false) names) p = Some false.
  Proof. intro H. now rewrite nth_error_map, H. Qed.
  Lemma get_ok sb d m : inv sb -> has_dim_len names dimlen d m -> exists s z, sb_get sb d = Ok (s, z) /\ (s + z <= m)%N.
  Proof.
    intros (reqs & W & ->) (I & L). apply In_nth_error in I. destruct I as (p & P). destruct (nth_len p d P) as (m' & P' & L').
    assert (m' = m) as -> by congruence.
    exists (fst (last_request d m false reqs)), (snd (last_request d m false reqs)). split.
    - rewrite (sb_refines names sizes (map (fun _ => false) names) sb0 Hinit Hnodup sizes_small reqs d p m false W P P' (nth_unl p d P)).
      now destruct (last_request d m false reqs).
    - apply last_request_in_range.
  Qed.
  Lemma get_not sb d : inv sb -> ~ In d names -> sb_get sb d = Throw.
  Proof. intros (reqs & W & ->). now apply (sb_unknown names sizes (map (fun _ => false) names) sb0 Hinit Hnodup sizes_small). Qed.

  Lemma fits_dec d s z : fits_dim names dimlen d s z \/ ~ fits_dim names dimlen d s z.
  Proof.
    clear - names dimlen. destruct (in_dec String.string_dec d names) as [I|NI]; [|right; intros (m & (J & _) & _); contradiction].
    destruct (dimlen d) as [m|] eqn:L; [|right; intros (m & (_ & J) & _); congruence].
    destruct (N.leb_spec (s + z) m) as [Le|Gt]; [left; exists m; repeat split; auto|].
    right. intros (m' & (_ & L') & Le). assert (m' = m) by congruence. lia.
  Qed.
  (** one request *)
  Lemma set_spec sb d s z : inv sb -> (s + z < M64)%N ->
    (fits_dim names dimlen d s z -> exists sb', sb_setStartAndSize sb d s z = Ok sb' /\ inv sb' /\ only_changed sb sb' d s z) /\
    (~ fits_dim names dimlen d s z -> sb_setStartAndSize sb d s z = Throw).
  Proof.
    intros (reqs & W & ->) W1.
    assert (F := run_frame names sizes (map (fun _ => false) names) sb0 Hinit Hnodup sizes_small reqs W).
    destruct (in_dec String.string_dec d names) as [I|NI].
    - apply In_nth_error in I. destruct I as (p & P). destruct (nth_len p d P) as (m & P' & L).
      unfold sb_setStartAndSize.
      rewrite (getDimPos_in names sizes (map (fun _ => false) names) Hnodup (sb_run sb0 reqs) d p F P). cbn [obind].
      pose proof F as (F1 & F2 & F3 & F4 & F5). unfold at_. rewrite F3, (nth_unl p d P), F2, P'. cbn [obind negb andb].
      rewrite add64_small by exact W1. split.
      + intros (m' & (_ & L') & Le). assert (m' = m) as -> by congruence. replace (m <? s + z)%N with false by lia.
        eexists. split; [reflexivity|]. split.
        * exists (reqs ++ [SetStartAndSize d s z]). split; [apply Forall_app; split; auto|].
          rewrite run_snoc. unfold sb_step, sb_apply, sb_setStartAndSize.
          rewrite (getDimPos_in names sizes (map (fun _ => false) names) Hnodup (sb_run sb0 reqs) d p F P). cbn [obind].
          unfold at_. rewrite F3, (nth_unl p d P), F2, P'. cbn [obind negb andb]. rewrite add64_small by exact W1.
          replace (m <? s + z)%N with false by lia. reflexivity.
        * assert (Lp : p < length names) by (apply nth_error_Some; congruence). split.
          -- unfold sb_get, sb_getDimPos. cbn [sb_dimPos sb_start sb_size].
             assert (G := getDimPos_in names sizes (map (fun _ => false) names) Hnodup (sb_run sb0 reqs) d p F P).
             unfold sb_getDimPos in G. rewrite G. cbn [obind]. unfold at_.
             rewrite !nth_error_upd_same by lia. reflexivity.
          -- intros d' N. unfold sb_get, sb_getDimPos. cbn [sb_dimPos sb_start sb_size].
             assert (G : sb_getDimPos (sb_run sb0 reqs) d' <> Ok p).
             { destruct (in_dec String.string_dec d' names) as [I|NI].
               - apply In_nth_error in I. destruct I as (q & Q).
                 rewrite (getDimPos_in names sizes (map (fun _ => false) names) Hnodup (sb_run sb0 reqs) d' q F Q). intros [= ->]. congruence.
               - rewrite (getDimPos_notin names sizes (map (fun _ => false) names) Hnodup (sb_run sb0 reqs) d' F NI). discriminate. }
             unfold sb_getDimPos in G. destruct (sfind d' (sb_dimPos (sb_run sb0 reqs))) as [q|]; [|reflexivity].
             cbn [obind]. unfold at_. rewrite !nth_error_upd_other by congruence. reflexivity.
      + intro N. destruct (m <? s + z)%N eqn:E; [reflexivity|]. exfalso. apply N. exists m. split; [split; auto|lia].
        apply nth_error_In in P. exact P.
    - split.
      + intros (m & (I & _) & _). contradiction.
      + intros _. unfold sb_setStartAndSize. now rewrite (getDimPos_notin names sizes (map (fun _ => false) names) Hnodup (sb_run sb0 reqs) d F NI).
  Qed.
  Lemma plain_inv sb op : inv sb -> no_wrap op -> inv (sb_step sb op).
  Proof.
    intros (reqs & W & ->) W1. exists (reqs ++ [op]). split; [apply Forall_app; auto|]. now rewrite run_snoc.
  Qed.
  Lemma plain_frame sb op d : inv sb -> no_wrap op -> op_dimension op <> d -> sb_get (sb_step sb op) d = sb_get sb d.
  Proof.
    intros I W1 N. assert (J := plain_inv sb op I W1).
    destruct (in_dec String.string_dec d names) as [In_|NI]; [|now rewrite !get_not].
    destruct I as (reqs & W & ->). apply In_nth_error in In_. destruct In_ as (p & P). destruct (nth_len p d P) as (m & P' & L).
    rewrite <- run_snoc.
    rewrite !(sb_refines names sizes (map (fun _ => false) names) sb0 Hinit Hnodup sizes_small _ d p m false) by (try apply Forall_app; eauto using nth_unl).
    rewrite last_request_snoc. replace (acceptable d m false op) with false; [reflexivity|].
    destruct op as [e s z|e]; cbn in *; destruct (String.eqb_spec e d); try contradiction; reflexivity.
  Qed.
  Lemma inv0 : inv sb0.
  Proof. exists []. split; [constructor|reflexivity]. Qed.
End Sb.

(** the set of the names of the dimensions of the time axis *)
Lemma names_set l : forall m : smap unit, ssorted m ->
  ssorted (fold_left (fun m n => sput n tt m) l m) /\
  forall x, In x (skeys (fold_left (fun m n => sput n tt m) l m)) <-> In x l \/ In x (skeys m).
Proof.
  induction l as [|n l IH]; intros m S; cbn [fold_left]; [split; [exact S|cbn; tauto]|].
  destruct (IH (sput n tt m) (sput_sorted n tt m S)) as (S' & K). split; [exact S'|]. intro x. rewrite K, In_sput. cbn. intuition congruence.
Qed.
Lemma in_serase {A} k (m : smap A) x : In x (skeys (serase k m)) <-> x <> k /\ In x (skeys m).
Proof.
  rewrite !sfind_In, sfind_serase. destruct (String.eqb_spec x k) as [->|N].
  - split; [intros (v & [=])|tauto].
  - tauto.
Qed.
Lemma one_key (m : smap unit) : ssorted m -> forall d, (m = [(d, tt)] <-> forall x, In x (skeys m) <-> x = d).
Proof.
  intros S d. split.
  - intros ->. cbn. intuition congruence.
  - intro H. apply ssorted_NoDup in S. destruct m as [|(a, []) [|(b, ?) m]].
    + exfalso. apply (H d). reflexivity.
    + f_equal. f_equal. apply (H a). now left.
    + exfalso. cbn in S. inversion S as [|? ? N _]; subst. apply N. left. transitivity d; [|symmetry]; apply H; cbn; auto.
Qed.

Section Calls.
  Variables (shape : axis -> list string) (expl : axis -> bool) (cs : csys).
  Variables (names : list string) (sizes : list N) (dimlen : string -> option N) (sb0 : slice_builder).
  Hypothesis Hinit : sb_init names sizes (map (fun _ => false) names) = Ok sb0.
  Hypothesis Hnodup : NoDup names.
  Hypothesis Hlen : Forall2 (fun d m => dimlen d = Some m) names sizes.
  Hypothesis Hsmall : forall d m, dimlen d = Some m -> (m < M64)%N.
  Notation Inv := (inv sb0).
  Notation fitsd := (fits_dim names dimlen).

  Lemma set_ref_spec sb p : Inv sb -> (p + 1 < M64)%N ->
    match find_axis cs ReferenceTime with
    | Some r => if expl r then
        (fitsd (a_name r) p 1%N -> exists sb', set_ref expl cs sb p = Ok sb' /\ Inv sb' /\ only_changed sb sb' (a_name r) p 1) /\
        (~ fitsd (a_name r) p 1%N -> set_ref expl cs sb p = Throw)
        else set_ref expl cs sb p = Ok sb
    | None => set_ref expl cs sb p = Ok sb
    end.
  Proof.
    intros I W. unfold set_ref. rewrite has_find. destruct (find_axis cs ReferenceTime) as [r|]; [|reflexivity].
    unfold set_by_axis. destruct (expl r); [|reflexivity]. now apply (set_spec names sizes dimlen sb0).
  Qed.

  Definition tshape_of : list string := match find_axis cs Time with Some t => shape t | None => [] end.

  Lemma set_time_spec sb s z : Inv sb -> (s + z < M64)%N ->
    let r := set_time expl (mkCsb sb cs tshape_of) s z in
    (find_axis cs Time = None -> r = Ok sb) /\
    (forall d, time_dimension shape expl cs d ->
       (fitsd d s z -> exists sb', r = Ok sb' /\ Inv sb' /\ only_changed sb sb' d s z) /\ (~ fitsd d s z -> r = Throw)) /\
    (find_axis cs Time <> None -> r = Throw \/ exists d, time_dimension shape expl cs d).
  Proof.
    intros I W. cbv zeta. unfold set_time, tshape_of, time_dimension. cbn [b_sb b_cs b_tshape]. rewrite !has_find, time_axis_find.
    destruct (find_axis cs Time) as [t|] eqn:Et.
    2: { split; [reflexivity|]. split; [|congruence]. intros d (t & [=] & _). }
    split; [discriminate|].
    destruct (expl t) eqn:Ex; unfold set_by_axis; rewrite ?Ex.
    { split.
      - intros d (t' & [= <-] & [(_ & ->)|(X & _)]); [|congruence]. now apply (set_spec names sizes dimlen sb0).
      - intros _. right. exists (a_name t), t. auto. }
    set (m0 := fold_left (fun m n => sput n tt m) (shape t) []).
    destruct (names_set (shape t) [] ltac:(constructor)) as (S0 & K0). fold m0 in S0, K0.
    set (mo := match find_axis cs ReferenceTime with Some r => serase (a_name r) m0 | None => m0 end).
    replace (if match find_axis cs ReferenceTime with Some _ => true | None => false end
             then match find_axis cs ReferenceTime with Some r => Ok (serase (a_name r) m0) | None => UB end else Ok m0) with (Ok mo)
      by (unfold mo; destruct (find_axis cs ReferenceTime); reflexivity).
    cbn [obind].
    assert (S1 : ssorted mo) by (unfold mo; destruct (find_axis cs ReferenceTime); [now apply serase_sorted|exact S0]).
    assert (K1 : forall x, In x (skeys mo) <-> In x (shape t) /\ not_reference cs x).
    { intro x. unfold mo, not_reference. destruct (find_axis cs ReferenceTime) as [r|].
      - rewrite in_serase, K0. cbn [skeys map In]. split.
        + intros (N & [H|[]]). split; [exact H|]. intros r' [= <-]. exact N.
        + intros (H & N). split; [now apply N|now left].
      - rewrite K0. cbn [skeys map In]. split; [intros [H|[]]; split; [exact H|discriminate]|tauto]. }
    clearbody mo. split.
    - intros d (t' & [= <-] & [(X & _)|(_ & Id & Nd & Ud)]); [congruence|].
      assert (mo = [(d, tt)]) as ->.
      { apply one_key; [exact S1|]. intro x. rewrite K1. split; [intros (A & B); now apply Ud|intros ->; auto]. }
      now apply (set_spec names sizes dimlen sb0).
    - intros _. destruct mo as [|(d, []) [|e mo]]; try (now left). right. exists d, t. split; [reflexivity|].
      right. split; [exact Ex|]. assert (Q := proj1 (one_key _ S1 d) eq_refl).
      split; [apply K1, Q; reflexivity|]. split; [apply K1, Q; reflexivity|]. intros x A B. apply Q, K1. auto.
  Qed.

  Lemma set_axes_spec t s z : (s + z < M64)%N -> forall l sb sb' th, Inv sb -> set_axes expl t l s z sb = (sb', th) ->
    Inv sb' /\
    (forall d, sb_get sb' d = sb_get sb d \/ (sb_get sb' d = Ok (s, z) /\ exists a, In a l /\ a_type a = t /\ expl a = true /\ a_name a = d)) /\
    (th = false -> forall a, In a l -> a_type a = t -> expl a = true -> sb_get sb' (a_name a) = Ok (s, z)) /\
    (th = false <-> forall a, In a l -> a_type a = t -> expl a = true -> fitsd (a_name a) s z).
  Proof.
    intro W. induction l as [|a l IH]; intros sb sb' th I H; cbn [set_axes] in H.
    { injection H as <- <-. split; [exact I|]. split; [auto|]. split; [intros _ a []|]. split; [intros _ a []|reflexivity]. }
    destruct (type_eqb (a_type a) t && expl a) eqn:E.
    - apply andb_true_iff in E. destruct E as (E1 & E2). unfold type_eqb in E1. destruct (axis_type_eq_dec (a_type a) t) as [Et|]; [|discriminate].
      unfold set_by_axis in H. rewrite E2 in H.
      destruct (set_spec names sizes dimlen sb0 Hinit Hnodup Hlen Hsmall sb (a_name a) s z I W) as (SP1 & SP2).
      destruct (sb_setStartAndSize sb (a_name a) s z) as [sb1| | |] eqn:ES.
      + assert (F : fitsd (a_name a) s z).
        { destruct (fits_dec names dimlen (a_name a) s z) as [F|NF]; [exact F|]. discriminate (SP2 NF). }
        destruct (SP1 F) as (sb1' & [= <-] & I1 & (G1 & G2)).
        destruct (IH sb1 sb' th I1 H) as (I' & A & B & C). split; [exact I'|]. split; [|split].
        * intro d. destruct (A d) as [Q|(Q & a' & R)]; [|right; split; [exact Q|exists a'; split; [now right|tauto]]].
          destruct (String.string_dec d (a_name a)) as [->|N]; [right; split; [congruence|exists a; split; [now left|auto]]|left; rewrite Q; now apply G2].
        * intros T a' [<-|In_] Ta Xa; [|now apply B].
          destruct (A (a_name a)) as [Q|(Q & _)]; [congruence|exact Q].
        * rewrite C. split; [intros K a' [<-|In_] Ta Xa; auto|intros K a' In_; apply K; now right].
      + injection H as <- <-. split; [exact I|]. split; [auto|]. split; [discriminate|]. split; [discriminate|]. intro K.
        exfalso. destruct SP1 as (x & Q & _); [apply K; auto; now left|discriminate].
      + injection H as <- <-. split; [exact I|]. split; [auto|]. split; [discriminate|]. split; [discriminate|]. intro K.
        exfalso. destruct SP1 as (x & Q & _); [apply K; auto; now left|discriminate].
      + injection H as <- <-. split; [exact I|]. split; [auto|]. split; [discriminate|]. split; [discriminate|]. intro K.
        exfalso. destruct SP1 as (x & Q & _); [apply K; auto; now left|discriminate].
    - destruct (IH sb sb' th I H) as (I' & A & B & C).
      assert (NA : a_type a = t -> expl a = true -> False).
      { intros Et Ex. rewrite Ex, andb_true_r in E. unfold type_eqb in E. destruct (axis_type_eq_dec (a_type a) t); congruence. }
      split; [exact I'|]. split; [|split].
      + intro d. destruct (A d) as [Q|(Q & a' & R)]; [now left|right; split; [exact Q|exists a'; split; [now right|tauto]]].
      + intros T a' [<-|In_] Ta Xa; [destruct (NA Ta Xa)|now apply B].
      + rewrite C. split; [intros K a' [<-|In_] Ta Xa; [destruct (NA Ta Xa)|auto]|intros K a' In_; apply K; now right].
  Qed.

  Definition good (b : csb) : Prop := Inv (b_sb b) /\ b_cs b = cs /\ b_tshape b = tshape_of.
  Lemma good_time b s z : good b -> set_time expl b s z = set_time expl (mkCsb (b_sb b) cs tshape_of) s z.
  Proof. intros (_ & <- & <-). now destruct b. Qed.
  Lemma ref_inv sb p sb' : Inv sb -> (p + 1 < M64)%N -> set_ref expl cs sb p = Ok sb' ->
    Inv sb' /\ forall d, sb_get sb' d = sb_get sb d \/
      (sb_get sb' d = Ok (p, 1%N) /\ exists r, find_axis cs ReferenceTime = Some r /\ expl r = true /\ a_name r = d).
  Proof.
    intros I W E. assert (H := set_ref_spec sb p I W). destruct (find_axis cs ReferenceTime) as [r|] eqn:Er.
    2: { assert (sb' = sb) by congruence. subst. auto. }
    destruct (expl r) eqn:Ex. 2: { assert (sb' = sb) by congruence. subst. auto. }
    destruct H as (H1 & H2). destruct (fits_dec names dimlen (a_name r) p 1) as [F|NF]; [|rewrite H2 in E by exact NF; discriminate].
    destruct (H1 F) as (x & Q & J & (O1 & O2)). assert (x = sb') by congruence. subst x. split; [exact J|].
    intro d. destruct (String.string_dec d (a_name r)) as [->|N]; [right; eauto|left; auto].
  Qed.
  Lemma time_inv sb s z sb' : Inv sb -> (s + z < M64)%N -> set_time expl (mkCsb sb cs tshape_of) s z = Ok sb' ->
    Inv sb' /\ forall d, sb_get sb' d = sb_get sb d \/ time_dimension shape expl cs d.
  Proof.
    intros I W E. destruct (set_time_spec sb s z I W) as (A & B & C). cbv zeta in *.
    destruct (find_axis cs Time) as [t|] eqn:Et. 2: { assert (sb' = sb) by (specialize (A eq_refl); congruence). subst. auto. }
    destruct (C ltac:(discriminate)) as [C'|(d & D)]; [congruence|].
    destruct (B d D) as (B1 & B2). destruct (fits_dec names dimlen d s z) as [F|NF]; [|rewrite B2 in E by exact NF; discriminate].
    destruct (B1 F) as (x & Q & J & (O1 & O2)). assert (x = sb') by congruence. subst x. split; [exact J|].
    intro d'. destruct (String.string_dec d' d) as [->|N]; [now right|left; auto].
  Qed.
  Lemma or_old_inv (P : slice_builder -> Prop) sb r : P sb -> (forall sb', r = Ok sb' -> P sb') -> P (fst (or_old sb r)).
  Proof. intros I H. destruct r; cbn; auto. Qed.

  (** what one call may change *)
  Definition touched (o : csb_op) (d : string) : Prop :=
    match o with
    | RefTimePos _ => exists r, find_axis cs ReferenceTime = Some r /\ expl r = true /\ a_name r = d
    | TimeRange _ _ => time_dimension shape expl cs d
    | AxisRange t _ _ =>
        match t with
        | ReferenceTime => exists r, find_axis cs ReferenceTime = Some r /\ expl r = true /\ a_name r = d
        | Time => time_dimension shape expl cs d
        | _ => exists a, In a (get_axes cs) /\ a_type a = t /\ expl a = true /\ a_name a = d
        end
    | Plain op => op_dimension op = d
    end.
  Definition sets_reference (o : csb_op) : bool :=
    match o with RefTimePos _ => true | AxisRange ReferenceTime _ _ => true | _ => false end.
  Lemma step_good b o : good b -> csb_no_wrap o -> good (csb_step expl b o) /\
    forall d, sb_get (b_sb (csb_step expl b o)) d = sb_get (b_sb b) d \/
      (touched o d /\ (sets_reference o = true -> exists p, sb_get (b_sb (csb_step expl b o)) d = Ok (p, 1%N))).
  Proof.
    intros (I & C & T) W.
    assert (R : forall p, (p + 1 < M64)%N ->
      Inv (fst (or_old (b_sb b) (set_ref expl (b_cs b) (b_sb b) p))) /\
      forall d, sb_get (fst (or_old (b_sb b) (set_ref expl (b_cs b) (b_sb b) p))) d = sb_get (b_sb b) d \/
        (touched (RefTimePos p) d /\ exists p', sb_get (fst (or_old (b_sb b) (set_ref expl (b_cs b) (b_sb b) p))) d = Ok (p', 1%N))).
    { intros p Wp. rewrite C. destruct (set_ref expl cs (b_sb b) p) as [sb'| | |] eqn:E; cbn [or_old fst]; auto.
      destruct (ref_inv _ _ _ I Wp E) as (J & K). split; [exact J|]. intro d. destruct (K d) as [Q|(Q & H)]; [now left|right; split; eauto]. }
    assert (M : forall s z, (s + z < M64)%N ->
      Inv (fst (or_old (b_sb b) (set_time expl b s z))) /\
      forall d, sb_get (fst (or_old (b_sb b) (set_time expl b s z))) d = sb_get (b_sb b) d \/ time_dimension shape expl cs d).
    { intros s z Wz. rewrite good_time by (split; auto). destruct (set_time expl (mkCsb (b_sb b) cs tshape_of) s z) as [sb'| | |] eqn:E; cbn [or_old fst]; auto.
      exact (time_inv _ _ _ _ I Wz E). }
    destruct o as [p|s z|t s z|op]; cbn [csb_step b_sb] in *.
    - destruct (R p W) as (J & K). split; [split; auto|]. intro d. cbn [b_sb csb_step]. destruct (K d) as [Q|(Q & H)]; [now left|right; split; auto].
    - destruct (M s z W) as (J & K). split; [split; auto|]. intro d. cbn [b_sb csb_step]. destruct (K d) as [Q|Q]; [now left|right; split; [exact Q|discriminate]].
    - destruct W as (W1 & W2).
      assert (G : forall sb', sb' = fst (if has_axis_type (b_cs b) t then set_axes expl t (get_axes (b_cs b)) s z (b_sb b) else (b_sb b, false)) ->
        Inv sb' /\ forall d, sb_get sb' d = sb_get (b_sb b) d \/ exists a, In a (get_axes cs) /\ a_type a = t /\ expl a = true /\ a_name a = d).
      { intros sb' ->. rewrite C. destruct (has_axis_type cs t); [|cbn; auto].
        destruct (set_axes expl t (get_axes cs) s z (b_sb b)) as [sb' th] eqn:E.
        destruct (set_axes_spec t s z W1 _ _ _ _ I E) as (J & K & _). cbn [fst]. split; [exact J|]. intro d. destruct (K d) as [Q|(_ & Q)]; auto. }
      unfold csb_step. cbn [b_sb b_cs b_tshape].
      destruct t; cbn [set_axis_type fst touched sets_reference];
        try (destruct (G _ eq_refl) as (J & K); split; [split; auto|]; intro d; destruct (K d) as [Q|Q]; [now left|right; split; [exact Q|discriminate]]).
      + destruct (M s z W1) as (J & K). split; [split; auto|]. intro d. destruct (K d) as [Q|Q]; [now left|right; split; [exact Q|discriminate]].
      + destruct (R s W2) as (J & K). split; [split; auto|]. intro d. destruct (K d) as [Q|(Q & H)]; [now left|right; split; auto].
    - split; [split; [apply plain_inv; auto|auto]|]. intro d. destruct (String.string_dec (op_dimension op) d) as [E|N].
      + right. split; [exact E|discriminate].
      + left. unfold csb_step. cbn [b_sb]. now apply (plain_frame names sizes dimlen sb0).
  Qed.
  Lemma run_good ops : forall b, good b -> Forall csb_no_wrap ops -> good (csb_run expl b ops).
  Proof.
    induction ops as [|o ops IH]; intros b G W; [exact G|]. inversion W; subst. cbn. apply IH; auto. now apply step_good.
  Qed.
End Calls.

Lemma omapM_throw {A B} (f : A -> outcome B) l : (forall a, In a l -> (exists b, f a = Ok b) \/ f a = Throw) ->
  (exists a, In a l /\ f a = Throw) -> omapM f l = Throw.
Proof.
  induction l as [|a l IH]; intros H (x & I & E); [destruct I|]. cbn.
  destruct (H a (or_introl eq_refl)) as [(b & Eb)|Eb]; rewrite Eb; cbn; [|reflexivity].
  destruct I as [<-|I]; [congruence|]. rewrite IH; [reflexivity| |eauto]. intros; apply H; now right.
Qed.
Lemma omapM_all {A B} (f : A -> outcome B) l r : Forall2 (fun a b => f a = Ok b) l r -> omapM f l = Ok r.
Proof. induction 1 as [|a b l r E R IH]; cbn; [reflexivity|]. now rewrite E, IH. Qed.
Lemma forall2_of {A B} (P : A -> B -> Prop) l : (forall a, In a l -> exists b, P a b) -> exists r, Forall2 P l r.
Proof.
  induction l as [|a l IH]; intro H; [now exists []|]. destruct (H a (or_introl eq_refl)) as (b & Q).
  destruct IH as (r & R); [intros; apply H; now right|]. exists (b :: r). now constructor.
Qed.

(** the request of a new builder *)
Lemma sb_of_var_spec dimlen names : 
  ((forall d, In d names -> exists m, dimlen d = Some m) ->
   exists sizes sb0, sb_of_var dimlen names = Ok sb0 /\ sb_init names sizes (map (fun _ => false) names) = Ok sb0 /\
     Forall2 (fun d m => dimlen d = Some m) names sizes) /\
  ((exists d, In d names /\ dimlen d = None) -> sb_of_var dimlen names = Throw).
Proof.
  unfold sb_of_var. split.
  - intro H. apply forall2_of in H. destruct H as (sizes & F).
    rewrite (omapM_all _ _ sizes) by (clear - F; induction F as [|d m l r E R IH]; constructor; auto; now rewrite E). cbn [obind].
    assert (L : length names = length sizes) by (clear - F; induction F; cbn; congruence). exists sizes. unfold sb_init. rewrite map_length, L, Nat.eqb_refl. cbn. eauto.
  - intros (d & I & E). rewrite omapM_throw; [reflexivity| |exists d; rewrite E; auto].
    intros a _. destruct (dimlen a); eauto.
Qed.
Lemma new_spec shape expl usable vars dimlen cs b0 : csb_new shape expl usable vars dimlen cs = Ok b0 ->
  (forall d m, dimlen d = Some m -> (m < M64)%N) ->
  forall v, find (fun v => usable (fst v)) vars = Some v -> NoDup (snd v) ->
  exists sizes sb0, sb_init (snd v) sizes (map (fun _ => false) (snd v)) = Ok sb0 /\
    Forall2 (fun d m => dimlen d = Some m) (snd v) sizes /\ good shape cs sb0 b0.
Proof.
  intros H Hs v V N. unfold csb_new, cs_var in H. rewrite V in H.
  destruct (sb_of_var dimlen (snd v)) as [sb| | |] eqn:E; try discriminate. cbn [obind] in H.
  unfold sb_of_var in E. destruct (omapM _ (snd v)) as [sizes| | |] eqn:O; try discriminate. cbn [obind] in E.
  assert (F : Forall2 (fun d m => dimlen d = Some m) (snd v) sizes).
  { apply omapM_ok in O. clear - O. induction O as [|d m l r Q R IH]; constructor; auto.
    destruct (dimlen d); congruence. }
  destruct (set_ref expl cs sb 0) as [sb1| | |] eqn:R; try discriminate. cbn [obind] in H.
  destruct (ref_inv expl cs (snd v) sizes dimlen sb E N F Hs sb 0 sb1 (inv0 sb) ltac:(reflexivity) R) as (I & _).
  exists sizes, sb. split; [exact E|]. split; [exact F|]. unfold good, tshape_of.
  rewrite has_find, time_axis_find in H. destruct (find_axis cs Time); injection H as <-; auto.
Qed.
Lemma made_good shape expl usable vars dimlen cs ops names b : made shape expl usable vars dimlen cs ops names b ->
  exists sizes sb0, sb_init names sizes (map (fun _ => false) names) = Ok sb0 /\ NoDup names /\
    Forall2 (fun d m => dimlen d = Some m) names sizes /\ (forall d m, dimlen d = Some m -> (m < M64)%N) /\ good shape cs sb0 b.
Proof.
  intros (v & b0 & V & -> & N & Hs & E & W & ->). destruct (new_spec _ _ _ _ _ _ _ E Hs v V N) as (sizes & sb0 & I & F & G).
  exists sizes, sb0. repeat (split; [assumption|]). eapply run_good; eauto.
Qed.

(** ** Theorems *)
(** The constructor uses the first variable of the coordinate system.  The request is the full extent of every
    dimension, but the first position only of an explicit reference time. *)
Theorem C75_new : forall shape expl usable vars dimlen cs v,
  find (fun v => usable (fst v)) vars = Some v -> NoDup (snd v) -> (forall d m, dimlen d = Some m -> (m < M64)%N) ->
  (forall d, In d (snd v) -> exists m, dimlen d = Some m) ->
  let explicit_ref r := find_axis cs ReferenceTime = Some r /\ expl r = true in
  let r := csb_new shape expl usable vars dimlen cs in
  ((forall x, explicit_ref x -> fits_dim (snd v) dimlen (a_name x) 0 1) ->
   exists b, r = Ok b /\ forall d m, has_dim_len (snd v) dimlen d m ->
     sb_get (b_sb b) d = Ok (0%N, m) \/ (sb_get (b_sb b) d = Ok (0%N, 1%N) /\ exists x, explicit_ref x /\ a_name x = d)) /\
  (forall x, explicit_ref x -> fits_dim (snd v) dimlen (a_name x) 0 1 ->
     exists b, r = Ok b /\ sb_get (b_sb b) (a_name x) = Ok (0%N, 1%N)) /\
  (forall x, explicit_ref x -> ~ fits_dim (snd v) dimlen (a_name x) 0 1 -> r = Throw).
Proof.
  intros shape expl usable vars dimlen cs v V N Hs Hd. cbv zeta.
  destruct (proj1 (sb_of_var_spec dimlen (snd v)) Hd) as (sizes & sb0 & E & I & F).
  unfold csb_new, cs_var. rewrite V, E. cbn [obind].
  assert (SR := set_ref_spec expl cs (snd v) sizes dimlen sb0 I N F Hs sb0 0 (inv0 sb0) ltac:(reflexivity)).
  assert (Fin : forall sb1, exists b, (if has_axis_type cs Time then match time_axis cs with None => UB | Some t => Ok (mkCsb sb1 cs (shape t)) end
    else Ok (mkCsb sb1 cs [])) = Ok b /\ b_sb b = sb1).
  { intro sb1. rewrite has_find, time_axis_find. destruct (find_axis cs Time); eauto. }
  assert (Init : forall d m, has_dim_len (snd v) dimlen d m -> sb_get sb0 d = Ok (0%N, m)).
  { intros d m (J & L). apply In_nth_error in J. destruct J as (p & P).
    destruct (nth_len (snd v) sizes dimlen F p d P) as (m' & P' & L'). assert (m' = m) by congruence. subst m'.
    exact (sb_refines (snd v) sizes (map (fun _ => false) (snd v)) sb0 I N (sizes_small _ _ _ F Hs) [] d p m false (Forall_nil _) P P' (nth_unl _ _ _ P)). }
  destruct (find_axis cs ReferenceTime) as [r|]; [destruct (expl r) eqn:Er|].
  - destruct SR as (S1 & S2). split; [|split].
    + intro H. destruct (S1 (H r (conj eq_refl Er))) as (sb1 & -> & _ & (O1 & O2)). cbn [obind]. destruct (Fin sb1) as (b & -> & <-).
      exists b. split; [reflexivity|]. intros d m D. destruct (String.string_dec d (a_name r)) as [->|Nd].
      * right. split; [exact O1|]. exists r. auto.
      * left. rewrite O2 by exact Nd. auto.
    + intros x (Q & _) K. injection Q as <-. destruct (S1 K) as (sb1 & -> & _ & (O1 & O2)). cbn [obind]. destruct (Fin sb1) as (b & -> & <-).
      exists b. auto.
    + intros x (Q & _) K. injection Q as <-. now rewrite S2.
  - rewrite SR. cbn [obind]. destruct (Fin sb0) as (b & -> & Eb). split; [|split].
    + intros _. exists b. split; [reflexivity|]. intros d m D. left. rewrite Eb. auto.
    + intros x (Q & X). congruence.
    + intros x (Q & X). congruence.
  - rewrite SR. cbn [obind]. destruct (Fin sb0) as (b & -> & Eb). split; [|split].
    + intros _. exists b. split; [reflexivity|]. intros d m D. left. rewrite Eb. auto.
    + intros x (X & _). discriminate.
    + intros x (X & _). discriminate.
Qed.
(** Without such a variable, or if one of its dimensions is missing, the constructor throws. *)
Theorem C75_new_throws : forall shape expl usable vars dimlen cs,
  (forall v, In v vars -> usable (fst v) = false) \/
  (exists v, find (fun v => usable (fst v)) vars = Some v /\ exists d, In d (snd v) /\ dimlen d = None) ->
  csb_new shape expl usable vars dimlen cs = Throw.
Proof.
  intros shape expl usable vars dimlen cs [H|(v & V & H)]; unfold csb_new, cs_var.
  - destruct (find (fun v => usable (fst v)) vars) as [v|] eqn:E; [|reflexivity]. apply find_some in E.
    rewrite H in E by tauto. now destruct E.
  - rewrite V, (proj2 (sb_of_var_spec dimlen (snd v)) H). reflexivity.
Qed.

(** setReferenceTimePos sets an explicit reference time to one position, or throws and changes nothing; otherwise
    it does nothing. *)
Theorem C75_reference_time : forall shape expl usable vars dimlen cs ops names b p,
  made shape expl usable vars dimlen cs ops names b -> (p + 1 < M64)%N ->
  let res := set_ref expl (b_cs b) (b_sb b) p in
  match find_axis cs ReferenceTime with
  | Some r =>
      if expl r then
        (fits_dim names dimlen (a_name r) p 1 -> exists sb', res = Ok sb' /\ only_changed (b_sb b) sb' (a_name r) p 1) /\
        (~ fits_dim names dimlen (a_name r) p 1 -> res = Throw)
      else res = Ok (b_sb b)
  | None => res = Ok (b_sb b)
  end.
Proof.
  intros shape expl usable vars dimlen cs ops names b p M W. destruct (made_good _ _ _ _ _ _ _ _ _ M) as (sizes & sb0 & I & N & F & Hs & (G & C & T)).
  cbv zeta. rewrite C. assert (S := set_ref_spec expl cs names sizes dimlen sb0 I N F Hs (b_sb b) p G W).
  destruct (find_axis cs ReferenceTime) as [r|]; [|exact S]. destruct (expl r); [|exact S]. destruct S as (S1 & S2). split; [|exact S2].
  intro H. destruct (S1 H) as (sb' & E & _ & O). eauto.
Qed.

(** setTimeStartAndSize sets the dimension of the time axis, or throws; without time axis it does nothing. *)
Theorem C75_time : forall shape expl usable vars dimlen cs ops names b s z,
  made shape expl usable vars dimlen cs ops names b -> (s + z < M64)%N ->
  let res := set_time expl b s z in
  (find_axis cs Time = None -> res = Ok (b_sb b)) /\
  (forall d, time_dimension shape expl cs d -> fits_dim names dimlen d s z ->
     exists sb', res = Ok sb' /\ only_changed (b_sb b) sb' d s z) /\
  (forall d, time_dimension shape expl cs d -> ~ fits_dim names dimlen d s z -> res = Throw) /\
  (find_axis cs Time <> None -> (forall d, ~ time_dimension shape expl cs d) -> res = Throw).
Proof.
  intros shape expl usable vars dimlen cs ops names b s z M W. destruct (made_good _ _ _ _ _ _ _ _ _ M) as (sizes & sb0 & I & N & F & Hs & G).
  cbv zeta. rewrite (good_time shape expl cs sb0 b s z G). destruct G as (G & _).
  destruct (set_time_spec shape expl cs names sizes dimlen sb0 I N F Hs (b_sb b) s z G W) as (A & B & C). cbv zeta in *.
  split; [exact A|]. split; [|split].
  - intros d D H. destruct (proj1 (B d D) H) as (sb' & E & _ & O). eauto.
  - intros d D H. exact (proj2 (B d D) H).
  - intros H K. destruct (C H) as [Q|(d & Q)]; [exact Q|]. destruct (K d Q).
Qed.

(** setAxisStartAndSize for another type sets every explicit axis of the type, main or auxiliary.  It throws exactly
    if one of them does not accept the request; requests for axes of other types never change. *)
Theorem C75_axis : forall shape expl usable vars dimlen cs ops names b t s z sb' th,
  made shape expl usable vars dimlen cs ops names b -> (s + z < M64)%N -> t <> Time -> t <> ReferenceTime ->
  set_axis_type expl b t s z = (sb', th) ->
  let concerned d := exists a, In a (get_axes cs) /\ a_type a = t /\ expl a = true /\ a_name a = d in
  (th = false <-> forall d, concerned d -> fits_dim names dimlen d s z) /\
  (th = false -> forall d, concerned d -> sb_get sb' d = Ok (s, z)) /\
  (forall d, sb_get sb' d <> sb_get (b_sb b) d -> concerned d /\ sb_get sb' d = Ok (s, z)).
Proof.
  intros shape expl usable vars dimlen cs ops names b t s z sb' th M W N1 N2 E. cbv zeta.
  destruct (made_good _ _ _ _ _ _ _ _ _ M) as (sizes & sb0 & I & N & F & Hs & (G & C & T)).
  assert (E' : (if has_axis_type cs t then set_axes expl t (get_axes cs) s z (b_sb b) else (b_sb b, false)) = (sb', th)).
  { rewrite <- E, <- C. destruct t; try reflexivity; contradiction. }
  destruct (has_axis_type cs t) eqn:H.
  - destruct (set_axes_spec shape expl names sizes dimlen sb0 I N F Hs t s z W _ _ _ _ G E') as (_ & A & B & D). split; [|split].
    + rewrite D. split.
      * intros K d (a & Ia & Ta & Xa & <-). auto.
      * intros K a Ia Ta Xa. apply K. eauto.
    + intros Q d (a & Ia & Ta & Xa & <-). auto.
    + intros d Q. destruct (A d) as [Q'|(Q' & K)]; [contradiction|]. auto.
  - injection E' as <- <-.
    assert (NA : forall d, ~ exists a, In a (get_axes cs) /\ a_type a = t /\ expl a = true /\ a_name a = d).
    { intros d (a & Ia & Ta & _). apply not_true_iff_false in H. apply H, C46_has_type. eauto. }
    split; [|split].
    + split; [|reflexivity]. intros _ d K. destruct (NA d K).
    + intros _ d K. destruct (NA d K).
    + intros d Q. now destruct Q.
Qed.
(** the two times by their type *)
Theorem C75_axis_times : forall shape expl usable vars dimlen cs ops names b s z,
  made shape expl usable vars dimlen cs ops names b ->
  set_axis_type expl b Time s z = match set_time expl b s z with Ok sb' => (sb', false) | _ => (b_sb b, true) end /\
  set_axis_type expl b ReferenceTime s z = match set_ref expl (b_cs b) (b_sb b) s with Ok sb' => (sb', false) | _ => (b_sb b, true) end.
Proof. intros. split; reflexivity. Qed.

(** An explicit reference time always has exactly one position requested, unless it is set by the name of its
    dimension. *)
Theorem C75_reference_time_stays_single : forall shape expl usable vars dimlen cs ops names b r,
  made shape expl usable vars dimlen cs ops names b ->
  find_axis cs ReferenceTime = Some r -> expl r = true -> NoDup (map a_name (get_axes cs)) ->
  ~ time_dimension shape expl cs (a_name r) ->
  (forall op, In (Plain op) ops -> op_dimension op <> a_name r) ->
  exists p, sb_get (b_sb b) (a_name r) = Ok (p, 1%N).
Proof.
  intros shape expl usable vars dimlen cs ops names b r (v & b0 & V & -> & N & Hs & E & W & ->) R X U TD P.
  destruct (new_spec _ _ _ _ _ _ _ E Hs v V N) as (sizes & sb0 & I & F & G).
  assert (S0 : exists p, sb_get (b_sb b0) (a_name r) = Ok (p, 1%N)).
  { unfold csb_new, cs_var in E. rewrite V in E. destruct (sb_of_var dimlen (snd v)) as [sb| | |] eqn:Ev; try discriminate. cbn [obind] in E.
    unfold sb_of_var in Ev. destruct (omapM _ (snd v)) as [sizes'| | |] eqn:O; try discriminate. cbn [obind] in Ev.
    assert (F' : Forall2 (fun d m => dimlen d = Some m) (snd v) sizes').
    { apply omapM_ok in O. clear - O. induction O as [|d m l q Q R IH]; constructor; auto. destruct (dimlen d); congruence. }
    assert (SR := set_ref_spec expl cs (snd v) sizes' dimlen sb Ev N F' Hs sb 0 (inv0 sb) ltac:(reflexivity)).
    rewrite R, X in SR. destruct SR as (S1 & S2). destruct (fits_dec (snd v) dimlen (a_name r) 0 1) as [Q|Q].
    - destruct (S1 Q) as (sb1 & Q1 & _ & (O1 & _)). rewrite Q1 in E. cbn [obind] in E. exists 0%N.
      rewrite has_find, time_axis_find in E. destruct (find_axis cs Time); injection E as <-; exact O1.
    - rewrite (S2 Q) in E. discriminate. }
  clear E. revert b0 G S0. induction ops as [|o ops IH]; intros b0 G S0; [exact S0|]. inversion W as [|? ? W1 W2]; subst.
  destruct (step_good shape expl cs (snd v) sizes dimlen sb0 I N F Hs b0 o G W1) as (G' & K).
  cbn [csb_run fold_left]. apply IH; auto; [intros op J; apply P; now right|].
  destruct (K (a_name r)) as [Q|(Q & Q')]; [now rewrite Q|].
  destruct o as [p|s z|t s z|op]; cbn [touched sets_reference] in *.
  - exact (Q' eq_refl).
  - contradiction.
  - assert (RI : In r (get_axes cs) /\ a_type r = ReferenceTime).
    { assert (H := C46_find_main_first cs ReferenceTime). rewrite R in H. unfold get_axes. destruct H as (Tr & H).
      split; [apply in_or_app; tauto|exact Tr]. }
    assert (NT : t <> ReferenceTime -> t <> Time -> False).
    { intros N1 N2. assert (H : exists a, In a (get_axes cs) /\ a_type a = t /\ expl a = true /\ a_name a = a_name r) by (destruct t; auto; contradiction).
      destruct H as (a & Ia & Ta & _ & Na). assert (a = r); [|subst; destruct RI; congruence].
      destruct RI as (Ir & _). clear - U Ia Ir Na. induction (get_axes cs) as [|x l IH]; [destruct Ia|]. cbn in U. inversion U as [|? ? Nx Ul]; subst.
      destruct Ia as [->|Ia], Ir as [->|Ir]; auto.
      - exfalso. apply Nx. rewrite Na. now apply in_map.
      - exfalso. apply Nx. rewrite <- Na. now apply in_map. }
    destruct t; try (exfalso; apply NT; discriminate); [contradiction|exact (Q' eq_refl)].
  - exfalso. apply (P op); [now left|exact Q].
Qed.

(** getTimeVariableSliceBuilder: a request for the time variable that agrees with this one on every dimension of
    the time variable. *)
Theorem C75_time_variable_builder : forall shape expl usable vars dimlen cs ops names b t,
  made shape expl usable vars dimlen cs ops names b -> find_axis cs Time = Some t -> NoDup (shape t) ->
  ((forall d, In d (shape t) -> In d names) ->
   exists tb, time_builder b = Ok tb /\ sb_getDimensionNames tb = Ok (shape t) /\
     forall d, In d (shape t) -> exists r, sb_get tb d = Ok r /\ sb_get (b_sb b) d = Ok r) /\
  ((exists d, In d (shape t) /\ ~ In d names) -> time_builder b = Throw).
Proof.
  intros shape expl usable vars dimlen cs ops names b t M Ht Nt.
  destruct (made_good _ _ _ _ _ _ _ _ _ M) as (sizes & sb0 & I & N & F & Hs & (G & C & T)).
  unfold tshape_of in T. rewrite Ht in T. unfold time_builder. rewrite T. destruct G as (reqs & Wr & Eb).
  assert (Fr := run_frame names sizes (map (fun _ => false) names) sb0 I N (sizes_small _ _ _ F Hs) reqs Wr). rewrite <- Eb in Fr.
  assert (Gb : inv sb0 (b_sb b)) by (exists reqs; auto).
  assert (Pos : forall d, In d names -> exists p m, sb_getDimPos (b_sb b) d = Ok p /\ at_ (sb_max (b_sb b)) p = Ok m /\ dimlen d = Some m).
  { intros d J. apply In_nth_error in J. destruct J as (p & P). destruct (nth_len names sizes dimlen F p d P) as (m & P' & L).
    exists p, m. split; [exact (getDimPos_in names sizes _ N (b_sb b) d p Fr P)|]. destruct Fr as (_ & Fm & _). unfold at_. rewrite Fm, P'. auto. }
  split.
  - intro Sub.
    assert (H : exists msz, Forall2 (fun d m => (do p <- sb_getDimPos (b_sb b) d; at_ (sb_max (b_sb b)) p) = Ok m /\ dimlen d = Some m) (shape t) msz).
    { apply forall2_of. intros d J. destruct (Pos d (Sub d J)) as (p & m & -> & A & L). exists m. cbn [obind]. auto. }
    destruct H as (msz & H).
    rewrite (omapM_all _ _ msz) by (clear - H; induction H as [|? ? ? ? (? & ?)]; constructor; auto). cbn [obind].
    assert (F2 : Forall2 (fun d m => dimlen d = Some m) (shape t) msz) by (clear - H; induction H as [|? ? ? ? (? & ?)]; constructor; auto).
    assert (L : length (shape t) = length msz) by (clear - F2; induction F2; cbn; congruence).
    destruct (sb_init (shape t) msz (map (fun _ => false) (shape t))) as [tb0| | |] eqn:Et;
      unfold sb_init in Et; rewrite map_length, L, Nat.eqb_refl in Et; cbn in Et; try discriminate.
    cbn [obind]. assert (Et' : sb_init (shape t) msz (map (fun _ => false) (shape t)) = Ok tb0).
    { unfold sb_init. now rewrite map_length, L, Nat.eqb_refl. }
    assert (Loop : forall l done tb, (forall d, In d l -> In d (shape t)) -> inv tb0 tb ->
      (forall d, In d done -> sb_get tb d = sb_get (b_sb b) d) ->
      exists tb', ofold (fun sb n => do p <- sb_getDimPos (b_sb b) n; do s <- at_ (sb_start (b_sb b)) p; do z <- at_ (sb_size (b_sb b)) p;
                       sb_setStartAndSize sb n s z) l tb = Ok tb' /\ inv tb0 tb' /\ forall d, In d (l ++ done) -> sb_get tb' d = sb_get (b_sb b) d).
    { induction l as [|n l IH]; intros done tb Sl It Hd; cbn [ofold]; [eauto|].
      assert (Jn := Sub n (Sl n (or_introl eq_refl))). destruct (Pos n Jn) as (p & m & P1 & P2 & P3).
      destruct (get_ok names sizes dimlen sb0 I N F Hs (b_sb b) n m Gb (conj Jn P3)) as (s & z & Eg & Le).
      assert (Eg' := Eg). unfold sb_get in Eg. rewrite P1 in Eg. cbn [obind] in Eg. rewrite P1. cbn [obind].
      destruct (at_ (sb_start (b_sb b)) p) as [s'| | |]; try discriminate. cbn [obind] in *.
      destruct (at_ (sb_size (b_sb b)) p) as [z'| | |]; try discriminate. cbn [obind] in *. injection Eg as -> ->.
      assert (Ws : (s + z < M64)%N) by (specialize (Hs n m P3); lia).
      destruct (proj1 (set_spec (shape t) msz dimlen tb0 Et' Nt F2 Hs tb n s z It Ws)) as (tb1 & E1 & I1 & (O1 & O2)).
      { exists m. split; [split; [apply Sl; now left|exact P3]|exact Le]. }
      rewrite E1. cbn [obind]. destruct (IH (n :: done) tb1) as (tb' & E2 & I2 & H2).
      - intros d J. apply Sl. now right.
      - exact I1.
      - intros d [<-|J]; [congruence|]. destruct (String.string_dec d n) as [->|Nd]; [congruence|]. rewrite O2 by exact Nd. auto.
      - exists tb'. split; [exact E2|]. split; [exact I2|]. intros d J. apply H2. cbn in J. rewrite in_app_iff in *. cbn. tauto. }
    destruct (Loop (shape t) [] tb0 (fun d J => J) (inv0 tb0)) as (tb & E & It & Hg); [intros d []|].
    exists tb. split; [exact E|]. split.
    + destruct It as (rq & Wq & ->). exact (getDimensionNames_spec (shape t) msz _ tb0 Et' Nt (sizes_small _ _ _ F2 Hs) rq Wq).
    + intros d J. rewrite Hg by (rewrite app_nil_r; exact J). destruct (Pos d (Sub d J)) as (p & m & _ & _ & P3).
      destruct (get_ok names sizes dimlen sb0 I N F Hs (b_sb b) d m Gb (conj (Sub d J) P3)) as (s & z & Eg & _). eauto.
  - intros (d & J & NJ). rewrite omapM_throw; [reflexivity| |exists d; split; [exact J|]].
    + intros a _. destruct (in_dec String.string_dec a names) as [Ja|Na].
      * destruct (Pos a Ja) as (p & m & -> & A & _). left. exists m. exact A.
      * right. now rewrite (getDimPos_notin names sizes _ N (b_sb b) a Fr Na).
    + now rewrite (getDimPos_notin names sizes _ N (b_sb b) d Fr NJ).
Qed.

(** getAxisTypes: the type of the axis with the name of the dimension, for every dimension in order; it throws if a
    dimension has no axis of its name. *)
Theorem C75_axis_types : forall shape expl usable vars dimlen cs ops names b,
  made shape expl usable vars dimlen cs ops names b -> NoDup (map a_name (get_axes cs)) ->
  (forall ts, Forall2 (fun d t => exists a, In a (get_axes cs) /\ a_name a = d /\ a_type a = t) names ts -> axis_types b = Ok ts) /\
  ((exists d, In d names /\ forall a, In a (get_axes cs) -> a_name a <> d) -> axis_types b = Throw).
Proof.
  intros shape expl usable vars dimlen cs ops names b M U.
  destruct (made_good _ _ _ _ _ _ _ _ _ M) as (sizes & sb0 & I & N & F & Hs & ((reqs & Wr & Eb) & C & T)).
  unfold axis_types. rewrite Eb, C.
  rewrite (getDimensionNames_spec names sizes _ sb0 I N (sizes_small _ _ _ F Hs) reqs Wr). cbn [obind].
  assert (One : forall a b, In a (get_axes cs) -> In b (get_axes cs) -> a_name a = a_name b -> a = b).
  { clear - U. induction (get_axes cs) as [|x l IH]; [intros a b []|]. cbn in U. inversion U as [|? ? Nx Ul]; subst.
    intros a b [->|Ia] [->|Ib] E; auto; exfalso; apply Nx; [rewrite E|rewrite <- E]; now apply in_map. }
  split.
  - intros ts H. apply omapM_all. clear - H One. induction H as [|d t l ts (a & Ia & Na & Ta) _ IH]; constructor; [|exact IH].
    destruct (find _ (get_axes cs)) as [a'|] eqn:E.
    + apply find_some in E. destruct E as (Ia' & E). apply String.eqb_eq in E. assert (a' = a) by (apply One; congruence). congruence.
    + apply (find_none _ _ E) in Ia. cbv beta in Ia. rewrite Na, String.eqb_refl in Ia. discriminate.
  - intros (d & J & H). apply omapM_throw.
    + intros a _. destruct (find _ (get_axes cs)); eauto.
    + exists d. split; [exact J|]. destruct (find _ (get_axes cs)) as [a'|] eqn:E; [|reflexivity].
      apply find_some in E. destruct E as (Ia' & E). apply String.eqb_eq in E. destruct (H a' Ia' E).
Qed.

(** a field with a two-dimensional time: reference time and offset *)
Definition ax (n : string) (t : axis_type) : axis := mkAxis n t 0.
Definition ex_len (d : string) : option N :=
  if String.eqb d "x" then Some 3%N else if String.eqb d "offset" then Some 4%N else if String.eqb d "reftime" then Some 2%N else None.
Definition ex_shape (a : axis) : list string := if String.eqb (a_name a) "time" then ["reftime"; "offset"]%string else [a_name a].
Definition ex_expl (a : axis) : bool := match ex_shape a with [d] => match ex_len d with Some _ => String.eqb d (a_name a) | None => false end | _ => false end.
Definition ex_cs : csys := mkCs [ax "x" GeoX; ax "time" Time; ax "reftime" ReferenceTime] [ax "offset" Undefined].
Definition ex_vars : list (string * list string) := [("x", ["x"]); ("T", ["x"; "offset"; "reftime"]); ("U", ["x"])]%string.
Lemma ex_len_small d m : ex_len d = Some m -> (m < M64)%N.
Proof. unfold ex_len. repeat destruct (String.eqb d _); intros [= <-]; reflexivity. Qed.
Ltac ex_made := unfold made; do 2 eexists; split; [reflexivity|]; split; [reflexivity|]; split;
  [repeat (constructor; [cbn; intuition discriminate|]); constructor|]; split; [exact ex_len_small|]; split; [vm_compute; reflexivity|];
  split; [repeat constructor|reflexivity].

Example C75_nonvacuous :
  let ops := [AxisRange GeoX 1 2; TimeRange 1 3; RefTimePos 1; RefTimePos 2; TimeRange 2 3]%N in
  exists b, made ex_shape ex_expl (String.eqb "T") ex_vars ex_len ex_cs ops ["x"; "offset"; "reftime"]%string b /\
    time_dimension ex_shape ex_expl ex_cs "offset" /\ ~ time_dimension ex_shape ex_expl ex_cs "reftime" /\
    map (sb_get (b_sb b)) ["x"; "offset"; "reftime"]%string = [Ok (1, 2); Ok (1, 3); Ok (1, 1)]%N /\
    axis_types b = Ok [GeoX; Undefined; ReferenceTime] /\
    omap (fun tb => map (sb_get tb) ["reftime"; "offset"]%string) (time_builder b) = Ok [Ok (1, 1); Ok (1, 3)]%N.
Proof.
  eexists. split; [ex_made|]. split; [|split; [|vm_compute; auto]].
  - exists (ax "time" Time). split; [reflexivity|]. right. split; [reflexivity|]. split; [cbn; auto|]. split.
    + intros r [= <-]. discriminate.
    + intros x [<-|[<-|[]]] H; [|reflexivity]. now destruct (H (ax "reftime" ReferenceTime) eq_refl).
  - intros (t & [= <-] & [(E & _)|(_ & _ & H & _)]); [discriminate|]. now apply (H (ax "reftime" ReferenceTime) eq_refl).
Qed.

(** Finding: the reference time is recognised by the name of its axis only.  If the reference time axis has another
    name than its dimension, the constructor leaves all reference times requested, setReferenceTimePos does nothing,
    and every setTimeStartAndSize throws. *)
Theorem C75_renamed_reference_refuted : exists shape expl usable vars dimlen cs names b,
  made shape expl usable vars dimlen cs [RefTimePos 1; TimeRange 1 3] names b /\ find_axis cs ReferenceTime <> None /\
  map (sb_get (b_sb b)) names = [Ok (0, 3); Ok (0, 4); Ok (0, 2)]%N /\
  set_ref expl (b_cs b) (b_sb b) 1 = Ok (b_sb b) /\ forall s z, set_time expl b s z = Throw.
Proof.
  exists ex_shape, ex_expl, (String.eqb "T"), ex_vars, ex_len, (mkCs [ax "x" GeoX; ax "time" Time; ax "analysis" ReferenceTime] []).
  do 2 eexists. split; [ex_made|]. split; [discriminate|]. split; [vm_compute; reflexivity|]. split; [vm_compute; reflexivity|].
  intros s z. reflexivity.
Qed.
(** Finding: getAxisTypes throws if a dimension has no axis of its own name, as the offset of a two-dimensional time
    that is not an axis. *)
Theorem C75_axis_types_refuted : exists shape expl usable vars dimlen cs names b,
  made shape expl usable vars dimlen cs [] names b /\ time_dimension shape expl cs "offset" /\ axis_types b = Throw.
Proof.
  exists ex_shape, ex_expl, (String.eqb "T"), ex_vars, ex_len, (mkCs [ax "x" GeoX; ax "time" Time; ax "reftime" ReferenceTime] []).
  do 2 eexists. split; [ex_made|]. split; [|reflexivity].
  exists (ax "time" Time). split; [reflexivity|]. right. split; [reflexivity|]. split; [cbn; auto|]. split.
  - intros r [= <-]. discriminate.
  - intros x [<-|[<-|[]]] H; [|reflexivity]. now destruct (H (ax "reftime" ReferenceTime) eq_refl).
Qed.
(** Finding: setAxisStartAndSize throws in the middle: the first axis of the type is changed, the second is not. *)
Theorem C75_half_done_refuted : exists shape expl usable vars dimlen cs names b sb',
  made shape expl usable vars dimlen cs [] names b /\ set_axis_type expl b Undefined 1 2 = (sb', true) /\
  sb_get (b_sb b) "x" = Ok (0, 3)%N /\ sb_get sb' "x" = Ok (1, 2)%N.
Proof.
  exists ex_shape, ex_expl, (String.eqb "T"), ex_vars, ex_len, (mkCs [ax "x" Undefined; ax "reftime" Undefined] []).
  do 3 eexists. split; [ex_made|]. split; [vm_compute; reflexivity|]. split; vm_compute; reflexivity.
Qed.

Print Assumptions C75_new.
Print Assumptions C75_new_throws.
Print Assumptions C75_reference_time.
Print Assumptions C75_time.
Print Assumptions C75_axis.
Print Assumptions C75_axis_times.
Print Assumptions C75_reference_time_stays_single.
Print Assumptions C75_time_variable_builder.
Print Assumptions C75_axis_types.
Print Assumptions C75_renamed_reference_refuted.
Print Assumptions C75_axis_types_refuted.
Print Assumptions C75_half_done_refuted.
