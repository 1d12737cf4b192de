(** C113: the writer that writes nothing reads everything once. *)
From Coq Require Import ZArith String List Bool Lia Permutation.
From Verif Require Import Base ConvertModel NullwModel.
Import ListNotations.
Local Open Scope Z_scope.

(** the requests that cover all data: variables without the unlimited dimension as a whole, the others record
    by record *)
Definition wanted (vars : list var) (records : nat) (r : request) : Prop :=
  (exists v, In v vars /\ v_unlimited v = false /\ r = Whole (v_name v)) \/
  (exists v i, In v vars /\ v_unlimited v = true /\ (i < records)%nat /\ r = Record_ (v_name v) (Z.of_nat i)).
(** values of this type are known to the writer, or there are none *)
Definition fits (t : dtype) (size : nat) : Prop := size = O \/ t <> DStrings.
(** the data of variable [v] can be read *)
Definition readable (read : request -> outcome (option nat)) (records : nat) (v : var) : Prop :=
  if v_unlimited v then forall i, (i < records)%nat -> exists n, read (Record_ (v_name v) (Z.of_nat i)) = Ok (Some n) /\ fits (v_type v) n
  else exists n, read (Whole (v_name v)) = Ok (Some n) /\ fits (v_type v) n.

Lemma convert_fits : forall t n, convert t n = true <-> fits t n.
Proof. intros t [|n]; destruct t; cbn; unfold fits; split; intro H; try reflexivity; auto; try (right; discriminate); try discriminate; destruct H as [H|H]; congruence. Qed.

(** the request of one variable at one position *)
Definition asked (p : Z) (v : var) : list request :=
  if (p =? -1) && negb (v_unlimited v) then [Whole (v_name v)]
  else if (0 <=? p) && v_unlimited v then [Record_ (v_name v) p] else [].
Definition ready (read : request -> outcome (option nat)) (p : Z) (v : var) : Prop :=
  forall r, In r (asked p v) -> exists n, read r = Ok (Some n) /\ fits (v_type v) n.

Lemma visit_ok : forall read p done v l, visit read p done v = Ok l <-> ready read p v /\ l = done ++ asked p v.
Proof.
  intros read p done v l. unfold visit, ready, asked.
  assert (G : forall r, (do d <- read r; do n <- rd d; if convert (v_type v) n then Ok (done ++ [r]) else Throw) = Ok l <->
            (exists n, read r = Ok (Some n) /\ fits (v_type v) n) /\ l = done ++ [r]).
  { intro r. split.
    - destruct (read r) as [[n|]| | |]; cbn [obind rd]; try discriminate.
      destruct (convert (v_type v) n) eqn:C; try discriminate. intro E. injection E as <-.
      split; [exists n; split; [reflexivity|apply convert_fits, C]|reflexivity].
    - intros ((n & R & F) & ->). rewrite R. cbn [obind rd]. rewrite (proj2 (convert_fits _ _) F). reflexivity. }
  destruct ((p =? -1) && negb (v_unlimited v)); [|destruct ((0 <=? p) && v_unlimited v)].
  - rewrite G. split; intros (H & ->); (split; [|reflexivity]); [intros r [<-|[]]; exact H|apply H; left; reflexivity].
  - rewrite G. split; intros (H & ->); (split; [|reflexivity]); [intros r [<-|[]]; exact H|apply H; left; reflexivity].
  - rewrite app_nil_r. split; [intro E; injection E as <-; split; [intros r []|reflexivity]|intros (_ & ->); reflexivity].
Qed.
Lemma visits_ok : forall read p vars done l, ofold (visit read p) vars done = Ok l <->
  (forall v, In v vars -> ready read p v) /\ l = done ++ flat_map (asked p) vars.
Proof.
  intros read p. induction vars as [|v vs IH]; intros done l; cbn [ofold flat_map].
  - rewrite app_nil_r. split; [intro E; injection E as <-; split; [intros v []|reflexivity]|intros (_ & ->); reflexivity].
  - split.
    + destruct (visit read p done v) as [d| | |] eqn:V; cbn [obind]; try discriminate. intro E.
      apply visit_ok in V. destruct V as (V & ->). apply IH in E. destruct E as (E & ->).
      split; [intros w [<-|I]; [exact V|apply E, I]|rewrite <- app_assoc; reflexivity].
    + intros (H & ->). rewrite (proj2 (visit_ok read p done v (done ++ asked p v))); [|split; [apply H; left; reflexivity|reflexivity]].
      cbn [obind]. apply IH. split; [intros w I; apply H; right; exact I|rewrite <- app_assoc; reflexivity].
Qed.
Definition all_asked (mpi : option (Z * Z)) (vars : list var) (ps : list Z) : list request :=
  flat_map (fun p => flat_map (asked p) vars) (filter (mine mpi) ps).
Lemma works_ok : forall read mpi vars ps done l, ofold (work read mpi vars) ps done = Ok l <->
  (forall p v, In p ps -> mine mpi p = true -> In v vars -> ready read p v) /\ l = done ++ all_asked mpi vars ps.
Proof.
  intros read mpi vars. unfold all_asked. induction ps as [|p ps IH]; intros done l; cbn [ofold filter flat_map].
  - rewrite app_nil_r. split; [intro E; injection E as <-; split; [intros p v []|reflexivity]|intros (_ & ->); reflexivity].
  - unfold work at 1. destruct (mine mpi p) eqn:M; cbn [flat_map].
    + split.
      * destruct (ofold (visit read p) vars done) as [d| | |] eqn:V; cbn [obind]; try discriminate. intro E.
        apply visits_ok in V. destruct V as (V & ->). apply IH in E. destruct E as (E & ->).
        split; [intros q v [<-|I] Q W; [apply V, W|apply E; assumption]|rewrite <- app_assoc; reflexivity].
      * intros (H & ->). rewrite (proj2 (visits_ok read p vars done (done ++ flat_map (asked p) vars))).
        2: split; [intros v W; apply H; [left; reflexivity|exact M|exact W]|reflexivity].
        cbn [obind]. apply IH. split; [intros q v I Q W; apply H; [right; exact I|exact Q|exact W]|rewrite <- app_assoc; reflexivity].
    + cbn [obind]. rewrite IH. split; intros (H & ->); (split; [|reflexivity]).
      * intros q v [<-|I] Q W; [congruence|apply H; assumption].
      * intros q v I Q W; apply H; [right; exact I|exact Q|exact W].
Qed.
Lemma attributes_ok : forall l, attributes l = Ok tt <-> forall a, In a l -> fits (a_type a) (a_size a).
Proof.
  unfold attributes. induction l as [|a l IH]; cbn [ofold].
  - split; [intros _ a []|reflexivity].
  - destruct (convert (a_type a) (a_size a)) eqn:C; cbn [obind].
    + rewrite IH. split; intro H; [intros b [<-|I]; [apply convert_fits, C|apply H, I]|intros b I; apply H; right; exact I].
    + split; [discriminate|]. intro H. specialize (H a (or_introl eq_refl)). apply convert_fits in H. congruence.
Qed.
Lemma null_ok : forall read mpi attrs vars ps l, null_write read mpi attrs vars ps = Ok l <->
  (forall a, In a attrs -> fits (a_type a) (a_size a)) /\
  (forall p v, In p ps -> mine mpi p = true -> In v vars -> ready read p v) /\ l = all_asked mpi vars ps.
Proof.
  intros. unfold null_write. split.
  - destruct (attributes attrs) as [[]| | |] eqn:A; cbn [obind]; try discriminate. intro E. apply works_ok in E.
    split; [apply attributes_ok, A|exact E].
  - intros (A & B). rewrite (proj2 (attributes_ok attrs) A). cbn [obind]. apply works_ok. exact B.
Qed.

Lemma in_positions : forall n p, In p (positions n) <-> p = -1 \/ exists i, (i < n)%nat /\ p = Z.of_nat i.
Proof.
  intros. unfold positions. cbn [In]. rewrite in_map_iff. split.
  - intros [H|(i & <- & I)]; [left; congruence|right; exists i; apply in_seq in I; split; [lia|reflexivity]].
  - intros [H|(i & I & ->)]; [left; congruence|right; exists i; split; [reflexivity|apply in_seq; lia]].
Qed.
Lemma in_asked : forall p v r, In r (asked p v) <->
  (p = -1 /\ v_unlimited v = false /\ r = Whole (v_name v)) \/ (0 <= p /\ v_unlimited v = true /\ r = Record_ (v_name v) p).
Proof.
  intros. unfold asked. destruct (v_unlimited v); cbn [negb]; rewrite ?andb_false_r, ?andb_true_r.
  - destruct (Z.leb_spec 0 p); cbn [In]; split; intro H1; try tauto.
    + destruct H1 as [H1|[]]. right; auto.
    + destruct H1 as [(_ & ? & _)|(_ & _ & ->)]; [discriminate|auto].
    + destruct H1 as [(_ & ? & _)|(? & _ & _)]; [discriminate|lia].
  - destruct (Z.eqb_spec p (-1)); cbn [In]; split; intro H1; try tauto.
    + destruct H1 as [H1|[]]. left; auto.
    + destruct H1 as [(_ & _ & ->)|(_ & ? & _)]; [auto|discriminate].
    + destruct H1 as [(? & _ & _)|(_ & ? & _)]; [lia|discriminate].
Qed.
Lemma in_all : forall mpi vars ps n r, Permutation ps (positions n) ->
  (In r (all_asked mpi vars ps) <->
   (mine mpi (-1) = true /\ exists v, In v vars /\ v_unlimited v = false /\ r = Whole (v_name v)) \/
   exists v i, In v vars /\ v_unlimited v = true /\ (i < n)%nat /\ mine mpi (Z.of_nat i) = true /\ r = Record_ (v_name v) (Z.of_nat i)).
Proof.
  intros mpi vars ps n r P. unfold all_asked. rewrite in_flat_map. split.
  - intros (p & I & J). apply filter_In in I. destruct I as (I & M). apply in_flat_map in J. destruct J as (v & V & A).
    apply (Permutation_in _ P), in_positions in I. apply in_asked in A.
    destruct A as [(-> & U & ->)|(L & U & ->)]; [left; split; [exact M|exists v; auto]|right].
    destruct I as [->|(i & I & ->)]; [lia|]. exists v, i. repeat (split; [assumption|]). reflexivity.
  - assert (Q := Permutation_sym P). intros [(M & v & V & U & ->)|(v & i & V & U & I & M & ->)].
    + exists (-1). split; [apply filter_In; split; [apply (Permutation_in _ Q), in_positions; left; reflexivity|exact M]|].
      apply in_flat_map. exists v. split; [exact V|]. apply in_asked. left. auto.
    + exists (Z.of_nat i). split; [apply filter_In; split; [apply (Permutation_in _ Q), in_positions; right; exists i; auto|exact M]|].
      apply in_flat_map. exists v. split; [exact V|]. apply in_asked. right. repeat split; [lia|exact U].
Qed.
Lemma NoDup_app2 : forall (A : Type) (l m : list A), NoDup l -> NoDup m -> (forall x, In x l -> In x m -> False) -> NoDup (l ++ m).
Proof.
  induction l as [|a l IH]; intros m L M D; cbn [List.app]; [exact M|]. inversion L; subst. constructor.
  - rewrite in_app_iff. intros [H|H]; [contradiction|apply (D a); [left; reflexivity|exact H]].
  - apply IH; [assumption|exact M|intros x X Y; apply (D x); [right; exact X|exact Y]].
Qed.
Lemma asked_nodup : forall p vars, NoDup (map v_name vars) -> NoDup (flat_map (asked p) vars).
Proof.
  intro p. induction vars as [|v vs IH]; intro N; cbn [flat_map]; [constructor|]. cbn [map] in N. inversion N; subst.
  apply NoDup_app2; [| |].
  - unfold asked. destruct (_ && _); [|destruct (_ && _)]; repeat constructor; intros [].
  - apply IH; assumption.
  - intros r X Y. apply in_flat_map in Y. destruct Y as (w & W & Y). apply in_asked in X, Y.
    assert (v_name w = v_name v) by (destruct X as [(? & ? & ->)|(? & ? & ->)], Y as [(? & ? & E)|(? & ? & E)]; congruence).
    apply H1. rewrite <- H. apply in_map, W.
Qed.
Lemma all_nodup : forall mpi vars ps, NoDup ps -> NoDup (map v_name vars) -> NoDup (all_asked mpi vars ps).
Proof.
  intros mpi vars ps N V. unfold all_asked. assert (F : NoDup (filter (mine mpi) ps)) by (apply NoDup_filter, N).
  induction (filter (mine mpi) ps) as [|p l IH]; cbn [flat_map]; [constructor|]. inversion F; subst.
  apply NoDup_app2; [apply asked_nodup, V|apply IH; assumption|].
  intros r X Y. apply in_flat_map in X, Y. destruct X as (v & _ & X), Y as (q & Q & Y). apply in_flat_map in Y. destruct Y as (w & _ & Y).
  apply in_asked in X, Y.
  assert (p = q) by (destruct X as [(? & ? & ->)|(? & ? & ->)], Y as [(? & ? & E)|(? & ? & E)]; congruence). subst. contradiction.
Qed.
Lemma positions_nodup : forall n, NoDup (positions n).
Proof.
  intro n. unfold positions. constructor.
  - rewrite in_map_iff. intros (i & E & _). lia.
  - apply FinFun.Injective_map_NoDup; [intros x y; apply Nat2Z.inj|apply seq_NoDup].
Qed.
Lemma readable_ready : forall read n v, readable read n v -> forall p, In p (positions n) -> ready read p v.
Proof.
  intros read n v R p P r A. apply in_asked in A. apply in_positions in P. unfold readable in R.
  destruct A as [(-> & U & ->)|(L & U & ->)]; rewrite U in R; [exact R|].
  destruct P as [->|(i & I & ->)]; [lia|apply R, I].
Qed.

(** one process: whatever the order of the records, everything is asked for, and nothing twice *)
Theorem C113_everything_once : forall read attrs vars n ps, Permutation ps (positions n) ->
  (forall a, In a attrs -> fits (a_type a) (a_size a)) -> (forall v, In v vars -> readable read n v) ->
  exists l, null_write read None attrs vars ps = Ok l /\ (forall r, In r l <-> wanted vars n r) /\
    (NoDup (map v_name vars) -> NoDup l).
Proof.
  intros read attrs vars n ps P A R. exists (all_asked None vars ps). split; [|split].
  - apply null_ok. split; [exact A|split; [|reflexivity]]. intros p v I _ V. apply (readable_ready _ n); [apply R, V|apply (Permutation_in _ P), I].
  - intro r. rewrite (in_all None vars ps n r P). unfold wanted. cbn [mine]. split.
    + intros [(_ & H)|(v & i & V & U & I & _ & ->)]; [left; exact H|right; exists v, i; auto].
    + intros [H|(v & i & V & U & I & ->)]; [left; split; [reflexivity|exact H]|right; exists v, i; auto].
  - apply all_nodup, (Permutation_NoDup (Permutation_sym P)), positions_nodup.
Qed.

(** it ends normally only if everything could be read *)
Theorem C113_success_means_readable : forall read attrs vars n ps l, Permutation ps (positions n) ->
  null_write read None attrs vars ps = Ok l ->
  (forall a, In a attrs -> fits (a_type a) (a_size a)) /\ forall v, In v vars -> readable read n v.
Proof.
  intros read attrs vars n ps l P E. apply null_ok in E. destruct E as (A & R & _). split; [exact A|]. intros v V. unfold readable.
  assert (Q := Permutation_sym P).
  destruct (v_unlimited v) eqn:U.
  - intros i I. apply (R (Z.of_nat i) v); [apply (Permutation_in _ Q), in_positions; right; exists i; auto|reflexivity|exact V|].
    apply in_asked. right. repeat split; [lia|exact U].
  - apply (R (-1) v); [apply (Permutation_in _ Q), in_positions; left; reflexivity|reflexivity|exact V|]. apply in_asked. left. auto.
Qed.

(** several processes: a record is asked for by exactly the process of its number modulo their number *)
Theorem C113_processes : forall read attrs vars n ps size rank, Permutation ps (positions n) -> 0 <= rank < size ->
  (forall a, In a attrs -> fits (a_type a) (a_size a)) -> (forall v, In v vars -> readable read n v) ->
  exists l, null_write read (Some (size, rank)) attrs vars ps = Ok l /\
    (NoDup (map v_name vars) -> NoDup l) /\
    forall v i, In (Record_ v (Z.of_nat i)) l <->
      wanted vars n (Record_ v (Z.of_nat i)) /\ Z.of_nat i mod size = rank.
Proof.
  intros read attrs vars n ps size rank P S A R. exists (all_asked (Some (size, rank)) vars ps). split; [|split].
  - apply null_ok. split; [exact A|split; [|reflexivity]]. intros p v I _ V. apply (readable_ready _ n); [apply R, V|apply (Permutation_in _ P), I].
  - apply all_nodup, (Permutation_NoDup (Permutation_sym P)), positions_nodup.
  - intros v i. rewrite (in_all _ vars ps n _ P). unfold wanted.
    assert (M : forall j, mine (Some (size, rank)) (Z.of_nat j) = true <-> Z.of_nat j mod size = rank).
    { intro j. unfold mine. rewrite Z.eqb_eq, Z.rem_mod_nonneg by lia. reflexivity. }
    split.
    + intros [(_ & w & _ & _ & E)|(w & j & W & U & J & K & E)]; [discriminate|]. injection E as -> E. apply Nat2Z.inj in E. subst j.
      split; [right; exists w, i; auto|apply M, K].
    + intros ([(w & _ & _ & E)|(w & j & W & U & J & E)] & K); [discriminate|]. right. injection E as -> E. apply Nat2Z.inj in E. subst j.
      exists w, i. repeat (split; [assumption|]). split; [apply M, K|reflexivity].
Qed.

(** Finding: with two or more processes the variables without the unlimited dimension are asked for by none,
    since -1 % size is -1 *)
Theorem C113_fixed_variables_refuted : forall read attrs vars n ps size rank l v, Permutation ps (positions n) ->
  0 <= rank < size -> 2 <= size -> null_write read (Some (size, rank)) attrs vars ps = Ok l -> ~ In (Whole v) l.
Proof.
  intros read attrs vars n ps size rank l v P S T E. apply null_ok in E. destruct E as (_ & _ & ->).
  rewrite (in_all _ vars ps n _ P). intros [(M & _)|(w & j & _ & _ & _ & _ & E)]; [|discriminate].
  unfold mine in M. apply Z.eqb_eq in M. change (-1) with (- (1)) in M.
  rewrite Z.rem_opp_l, Z.rem_small in M by lia. lia.
Qed.

(** one process under MPI is like none *)
Theorem C113_single_process : forall read attrs vars n ps, Permutation ps (positions n) ->
  null_write read (Some (1, 0)) attrs vars ps = null_write read None attrs vars ps.
Proof.
  intros. unfold null_write. destruct (attributes attrs); cbn [obind]; try reflexivity. generalize (@nil request).
  clear. induction ps as [|p ps IH]; intro d; cbn [ofold]; [reflexivity|].
  assert (M : work read (Some (1, 0)) vars d p = work read None vars d p).
  { unfold work, mine. rewrite Z.rem_1_r. reflexivity. }
  rewrite M. destruct (work read None vars d p); cbn [obind]; [apply IH| | |]; reflexivity.
Qed.

(** Finding: a variable or attribute of several texts (CDM_STRINGS), as the coordinate of an aggregation along a new
    dimension, cannot be taken *)
Theorem C113_texts_refuted : forall read v n r vs ps, v_type v = DStrings -> v_unlimited v = false ->
  read (Whole (v_name v)) = Ok (Some (S n)) -> Permutation ps (positions r) ->
  forall l, null_write read None [] (v :: vs) ps <> Ok l.
Proof.
  intros read v n r vs ps T U R P l E. destruct (C113_success_means_readable _ _ _ _ _ _ P E) as (_ & H).
  specialize (H v (or_introl eq_refl)). unfold readable in H. rewrite U in H. destruct H as (m & M & [F|F]); congruence.
Qed.

(** two records of t, one constant: three requests; the two processes of three records *)
Example C113_nonvacuous :
  let vs := [Var "t" DShort true; Var "lat" DDouble false] in
  let read r := match r with Whole _ => Ok (Some 7%nat) | Record_ _ _ => Ok (Some 5%nat) end in
  null_write read None [Attr DString 3] vs (positions 2) =
    Ok [Whole "lat"; Record_ "t" 0; Record_ "t" 1] /\
  (forall v, In v vs -> readable read 2 v) /\
  null_write read (Some (2, 0)) [] vs (positions 3) = Ok [Record_ "t" 0; Record_ "t" 2] /\
  null_write read (Some (2, 1)) [] vs (positions 3) = Ok [Record_ "t" 1].
Proof.
  cbn zeta. split; [reflexivity|]. split; [|split; reflexivity].
  intros v [<-|[<-|[]]]; cbn; [intros i _|]; eexists; (split; [reflexivity|right; discriminate]).
Qed.

Print Assumptions C113_everything_once.
Print Assumptions C113_success_means_readable.
Print Assumptions C113_processes.
Print Assumptions C113_fixed_variables_refuted.
Print Assumptions C113_single_process.
Print Assumptions C113_texts_refuted.
