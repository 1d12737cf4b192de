(** C109: the program [fimex] applies the processing steps that were asked for, in the documented
    order, with the values given, and writes the result to the files named. *)
From Coq Require Import PeanoNat NArith ZArith QArith Ascii String List Bool Lia.
From Verif Require Import Base CliModel.
Import ListNotations.
Local Open Scope string_scope.
Local Open Scope list_scope.
Local Open Scope nat_scope.

(** ** Runs of actions *)
Lemma bnd_go {A B} (x : act A) (f : A -> act B) b :
  snd (bnd x f) = Go b -> exists a, snd x = Go a /\ snd (f a) = Go b.
Proof. unfold bnd. destruct (snd x) eqn:E; cbn; intro H; try discriminate. eauto. Qed.

Lemma bnd_go_ev {A B} (x : act A) (f : A -> act B) b :
  snd (bnd x f) = Go b ->
  exists a, snd x = Go a /\ snd (f a) = Go b /\ fst (bnd x f) = fst x ++ fst (f a).
Proof. unfold bnd. destruct (snd x) eqn:E; cbn; intro H; try discriminate. eauto. Qed.

Lemma bnd_run {A B} (x : act A) (f : A -> act B) a :
  snd x = Go a -> bnd x f = (fst x ++ fst (f a), snd (f a)).
Proof. intro E. unfold bnd. rewrite E. reflexivity. Qed.

Lemma bnd_fail {A B} (x : act A) (f : A -> act B) : snd x = Stop -> snd (bnd x f) = Stop.
Proof. intro E. unfold bnd. rewrite E. reflexivity. Qed.

Lemma ofopt_go {A} (o : option A) a : snd (ofopt o) = Go a -> o = Some a.
Proof. destruct o; cbn; intro H; inversion H; reflexivity. Qed.

Lemma build_go okr r r' : snd (build okr r) = Go r' -> r' = r /\ okr r = true.
Proof. unfold build. destruct (okr r); cbn; intro H; inversion H; auto. Qed.

Lemma build_ev okr r : fst (build okr r) = [].
Proof. unfold build. destruct (okr r); reflexivity. Qed.

Ltac go H :=
  match type of H with
  | snd (bnd _ _) = Go _ =>
      let a := fresh "a" in let E := fresh "E" in
      apply bnd_go in H; destruct H as (a & E & H); cbn beta in H; go E; go H
  | snd (build _ _) = Go _ =>
      let O := fresh "O" in apply build_go in H; destruct H as [-> O]
  | snd (ofopt _) = Go _ => apply ofopt_go in H
  | snd (ret _) = Go _ => cbn in H; injection H; clear H; intros; subst
  | snd stop = Go _ => discriminate H
  | snd (if ?b then _ else _) = Go _ => let B := fresh "B" in destruct b eqn:B; go H
  | _ => idtac
  end.

(** ** What is asked for *)
(** the processing steps a reader went through after reading the file, oldest first *)
Fixpoint steps (r : reader) : list string :=
  match r with
  | Rfile _ _ _ _ => []
  | Rproc s _ => steps s ++ ["process"]
  | Rqual s _ _ => steps s ++ ["quality"]
  | Rextr s _ => steps s ++ ["extract"]
  | Rtime s _ => steps s ++ ["time"]
  | Rinterp s _ _ _ _ _ _ => steps s ++ ["interpolate"]
  | Rncml s _ => steps s ++ ["ncml"]
  | Rpress s _ => steps s ++ ["convert"]
  | Rvert s _ _ _ _ _ => steps s ++ ["vertical"]
  | Rmerge _ s _ _ _ _ => steps s ++ ["merge"]
  end.

Definition any (vm : vset) (ks : list string) : bool := existsb (given vm) ks.
Definition named (vm : vset) (k : string) : bool := negb (String.eqb (value vm k) "").
Definition when {A} (b : bool) (l : list A) : list A := if b then l else [].

(** which options make a step happen *)
Definition asks_process (vm : vset) :=
  any vm ["process.accumulateVariable"; "process.deaccumulateVariable";
          "process.rotateVector.direction"; "process.addVerticalVelocity";
          "process.addGeopotentialHeight"].
Definition asks_extract (vm : vset) :=
  any vm ["extract.reduceDimension.name"; "extract.pickDimension.name"; "extract.removeVariable";
          "extract.selectVariables"; "extract.reduceTime.start"; "extract.reduceVerticalAxis.unit";
          "extract.reduceToBoundingBox.south"; "extract.reduceToBoundingBox.north";
          "extract.reduceToBoundingBox.west"; "extract.reduceToBoundingBox.east"].
Definition asks_interpolate (vm : vset) :=
  any vm ["interpolate.projString"; "interpolate.template"; "interpolate.vcrossNames";
          "interpolate.latitudeValues"].
Definition asks_vertical (vm : vset) :=
  given vm "verticalInterpolate.type" && given vm "verticalInterpolate.method".
Definition asks_merge (vm : vset) :=
  any vm ["merge.inner.file"; "merge.inner.type"; "merge.inner.config"; "merge.smoothing";
          "merge.method"].

(** the steps in the documented order *)
Definition asked (vm : vset) : list string :=
  when (asks_process vm) ["process"]
  ++ when (named vm "qualityExtract.config") ["quality"]
  ++ when (asks_extract vm) ["extract"]
  ++ when (given vm "timeInterpolate.timeSpec") ["time"]
  ++ when (asks_interpolate vm) ["interpolate"]
  ++ when (named vm "verticalInterpolate.config") ["ncml"]
  ++ when (given vm "verticalInterpolate.dataConversion") ["convert"]
  ++ when (asks_vertical vm) ["vertical"]
  ++ when (asks_merge vm) ["merge"]
  ++ when (named vm "qualityExtract2.config") ["quality"]
  ++ when (named vm "ncml.config") ["ncml"].

(** the program has no options of these names *)
Definition known_options (vm : vset) : Prop :=
  vm "qualityExtract.autoConfigString" = None /\ vm "qualityExtract2.autoConfigString" = None
  /\ vm "merge.inner.optional" = None.


Section Statements.
Variable okr : reader -> bool.
Variable writable : string -> bool.
Variable written : reader -> string -> bool.
Variable pint : string -> option Z.
Variable pdbl : string -> option Q.
Variable pbool : string -> option bool.
Variable ptime : string -> option Z.
Variable pints : string -> option (list Z).
Variable psizes : string -> option (list N).
Variable pdbls : string -> option (list Q).
Variable ptoks : string -> list string.
Variable pproc : string -> bool.
Variable pcfg : list string -> option vset.

Local Notation tasks' := (tasks okr writable pint pdbl pbool ptime pints psizes pdbls ptoks pproc pcfg).
Local Notation program' :=
  (program okr writable written pint pdbl pbool ptime pints psizes pdbls ptoks pproc pcfg).
Local Notation processor' := (processor okr).
Local Notation extractor' := (extractor okr writable pint pdbl ptime pints).
Local Notation interpolator' := (interpolator okr writable pdbl psizes pdbls ptoks pproc).
Local Notation vertical' := (vertical okr writable pbool pdbls).
Local Notation quality' := (quality okr writable).
Local Notation merger' n :=
  (merger okr writable pcfg (tasks okr writable pint pdbl pbool ptime pints psizes pdbls ptoks pproc pcfg n)).

(** *** The steps one by one *)
Lemma processor_steps vm s r :
  snd (processor' vm s) = Go r -> steps r = steps s ++ when (asks_process vm) ["process"].
Proof.
  unfold processor, asks_process, any, when. cbn [existsb]. intro H.
  rewrite !orb_false_r. rewrite !orb_assoc.
  destruct (given vm "process.accumulateVariable" || _ || _ || _ || _) eqn:B; cbn [negb] in H;
    go H; cbn [steps]; rewrite ?app_nil_r; auto.
Qed.

Lemma quality_steps v vm s r :
  vm ("qualityExtract" ++ v ++ ".autoConfigString")%string = None ->
  (("qualityExtract" ++ v) ++ ".autoConfigString" = "qualityExtract" ++ v ++ ".autoConfigString")%string ->
  snd (quality' v vm s) = Go r ->
  steps r = steps s ++ when (named vm (("qualityExtract" ++ v) ++ ".config")%string) ["quality"].
Proof.
  intros K A H. unfold quality in H. cbv zeta in H. rewrite A in H.
  assert (V : value vm ("qualityExtract" ++ v ++ ".autoConfigString") = "")
    by (unfold value; rewrite K; reflexivity).
  rewrite V in H. cbn [String.eqb negb orb] in H. unfold named.
  destruct (String.eqb (value vm (("qualityExtract" ++ v) ++ ".config")) "") eqn:B; cbn [negb] in *;
    go H; cbn [steps when]; rewrite ?app_nil_r; auto.
Qed.

Lemma extractor_steps vm s r :
  snd (extractor' vm s) = Go r -> steps r = steps s ++ when (asks_extract vm) ["extract"].
Proof.
  unfold extractor, asks_extract, any, when. cbn [existsb]. intro H.
  rewrite !orb_false_r, !orb_assoc.
  rewrite <- (orb_assoc _ (given vm "extract.reduceTime.start") (given vm "extract.reduceTime.start")) in H.
  rewrite orb_diag in H.
  destruct (given vm "extract.reduceDimension.name" || _ || _ || _ || _ || _ || _ || _ || _ || _) eqn:B;
    cbn [negb] in H; go H; cbn [steps]; rewrite ?app_nil_r; auto.
Qed.

Lemma time_steps vm s r :
  snd (time_interpolator okr writable vm s) = Go r ->
  steps r = steps s ++ when (given vm "timeInterpolate.timeSpec") ["time"].
Proof.
  unfold time_interpolator, opt_text. intro H.
  destruct (given vm "timeInterpolate.timeSpec"); go H; cbn [steps when]; rewrite ?app_nil_r; auto.
Qed.

Lemma itarget_asks vm :
  match itarget pdbl psizes pdbls ptoks vm with Some _ => true | None => false end
  = asks_interpolate vm.
Proof.
  unfold itarget, asks_interpolate, any, opt_text. cbn [existsb].
  destruct (given vm "interpolate.projString"); [reflexivity|].
  destruct (given vm "interpolate.template"); [reflexivity|].
  destruct (given vm "interpolate.vcrossNames"); [reflexivity|].
  destruct (given vm "interpolate.latitudeValues"); reflexivity.
Qed.

Lemma interpolator_steps vm s r :
  snd (interpolator' vm s) = Go r -> steps r = steps s ++ when (asks_interpolate vm) ["interpolate"].
Proof.
  rewrite <- itarget_asks. unfold interpolator. intro H.
  destruct (itarget _ _ _ _ vm); go H; cbn [steps when]; rewrite ?app_nil_r; auto.
Qed.

Lemma vertical_steps vm s r :
  snd (vertical' vm s) = Go r ->
  steps r = steps s ++ when (named vm "verticalInterpolate.config") ["ncml"]
            ++ when (given vm "verticalInterpolate.dataConversion") ["convert"]
            ++ when (asks_vertical vm) ["vertical"].
Proof.
  unfold vertical, asks_vertical, named, opt_text. cbv zeta. intro H.
  destruct (String.eqb (value vm "verticalInterpolate.config") "");
  destruct (given vm "verticalInterpolate.dataConversion");
  destruct (given vm "verticalInterpolate.type"); destruct (given vm "verticalInterpolate.method");
    go H; cbn [steps when negb andb app]; rewrite ?app_nil_r, <- ?app_assoc; reflexivity.
Qed.

Lemma merger_steps t vm s r :
  snd (merger okr writable pcfg t vm s) = Go r -> steps r = steps s ++ when (asks_merge vm) ["merge"].
Proof.
  unfold merger, asks_merge, any, when. cbn [existsb]. intro H.
  rewrite !orb_false_r. rewrite !orb_assoc.
  destruct (given vm "merge.inner.file" || _ || _ || _ || _) eqn:B; cbn [negb] in H.
  - apply bnd_go in H. destruct H as (i0 & _ & H). apply bnd_go in H. destruct H as (i1 & _ & H).
    go H. reflexivity.
  - go H. rewrite app_nil_r. reflexivity.
Qed.

Lemma ncml_steps vm s r :
  snd (ncml okr writable vm s) = Go r -> steps r = steps s ++ when (named vm "ncml.config") ["ncml"].
Proof.
  unfold ncml, named. cbv zeta. intro H.
  destruct (String.eqb (value vm "ncml.config") ""); go H; cbn [steps when negb];
    rewrite ?app_nil_r; reflexivity.
Qed.

(** the steps of a call that goes through are those asked for, in the documented order: processing,
    quality, extraction, time, horizontal, vertical interpolation, merging, second quality, NcML *)
Theorem C109_steps : forall n vm r0 r,
  known_options vm ->
  snd (tasks' n vm r0) = Go r ->
  steps r = steps r0 ++ asked vm.
Proof.
  intros n vm r0 r [K1 [K2 _]] H. destruct n as [|n]; [discriminate H|].
  change (snd (let! r1 := processor' vm r0 in let! r2 := quality' "" vm r1 in
               let! r3 := extractor' vm r2 in let! r4 := time_interpolator okr writable vm r3 in
               let! r5 := interpolator' vm r4 in let! r6 := vertical' vm r5 in
               let! r7 := merger' n vm r6 in let! r8 := quality' "2" vm r7 in
               ncml okr writable vm r8) = Go r) in H.
  apply bnd_go in H. destruct H as (r1 & H1 & H). apply bnd_go in H. destruct H as (r2 & H2 & H).
  apply bnd_go in H. destruct H as (r3 & H3 & H). apply bnd_go in H. destruct H as (r4 & H4 & H).
  apply bnd_go in H. destruct H as (r5 & H5 & H). apply bnd_go in H. destruct H as (r6 & H6 & H).
  apply bnd_go in H. destruct H as (r7 & H7 & H). apply bnd_go in H. destruct H as (r8 & H8 & H).
  apply processor_steps in H1. apply (quality_steps "") in H2; [|exact K1|reflexivity].
  apply extractor_steps in H3. apply time_steps in H4. apply interpolator_steps in H5.
  apply vertical_steps in H6. apply merger_steps in H7.
  apply (quality_steps "2") in H8; [|exact K2|reflexivity]. apply ncml_steps in H.
  rewrite H, H8, H7, H6, H5, H4, H3, H2, H1. unfold asked. rewrite <- !app_assoc. reflexivity.
Qed.

(** *** Processing *)
(** variables are deaccumulated, then accumulated, then turned, then the derived variables are
    added; nothing else is done by this step *)
Definition turned (vm : vset) (ll : bool) : list pcall :=
  (if given vm "process.rotateVector.x" && given vm "process.rotateVector.y"
   then [RotateVectors ll (values vm "process.rotateVector.x") (values vm "process.rotateVector.y")
           (values vm "process.rotateVector.stdNameX") (values vm "process.rotateVector.stdNameY")]
   else when (given vm "process.rotateVector.all") [RotateAll ll])
  ++ when (given vm "process.rotateVector.angle")
       [RotateAngles ll (values vm "process.rotateVector.angle")].

Theorem C109_process : forall vm s calls r,
  snd (processor' vm s) = Go r ->
  r = Rproc s calls ->
  exists rot,
    calls = map DeAccumulate (values vm "process.deaccumulateVariable")
            ++ map Accumulate (values vm "process.accumulateVariable") ++ rot
            ++ when (given vm "process.addVerticalVelocity") [AddVerticalVelocity]
            ++ when (given vm "process.addGeopotentialHeight") [AddGeopotentialHeight]
    /\ (given vm "process.rotateVector.direction" = false -> rot = [])
    /\ (given vm "process.rotateVector.direction" = true ->
        (value vm "process.rotateVector.direction" = "latlon" /\ rot = turned vm true
         \/ value vm "process.rotateVector.direction" = "grid" /\ rot = turned vm false)
        /\ rot <> []).
Proof.
  intros vm s calls r H ->. unfold processor in H.
  destruct (negb _).
  { cbn in H. injection H as H. exfalso. clear -H.
    assert (G : forall r c, r <> Rproc r c).
    { intro r. induction r; intros c C; try discriminate. injection C as C1 C2. subst. eapply IHr; eauto. }
    eapply G, H. }
  apply bnd_go in H. destruct H as (rot & R & H). apply build_go in H. destruct H as [H _].
  injection H as ->. exists rot. split; [reflexivity|].
  unfold rotations in R. destruct (given vm "process.rotateVector.direction").
  - split; [discriminate|]. intros _. cbv zeta in R.
    apply bnd_go in R. destruct R as (ll & L & R). apply bnd_go in R. destruct R as (c & C & R).
    cbn in R. injection R as <-.
    assert (T : c ++ when (given vm "process.rotateVector.angle")
                      [RotateAngles ll (values vm "process.rotateVector.angle")] = turned vm ll
                /\ turned vm ll <> []).
    { unfold turned. destruct (given vm "process.rotateVector.x" && _).
      - cbn in C. injection C as <-. split; [reflexivity|discriminate].
      - destruct (given vm "process.rotateVector.all").
        + cbn in C. injection C as <-. split; [reflexivity|discriminate].
        + destruct (given vm "process.rotateVector.angle"); [|discriminate C].
          cbn in C. injection C as <-. split; [reflexivity|discriminate]. }
    destruct T as [T1 T2]. unfold when in T1. rewrite T1. split; [|exact T2].
    destruct (String.eqb_spec (value vm "process.rotateVector.direction") "latlon") as [E|E].
    + cbn in L. injection L as <-. auto.
    + destruct (String.eqb_spec (value vm "process.rotateVector.direction") "grid") as [E'|E'];
        [|discriminate L].
      cbn in L. injection L as <-. auto.
  - cbn in R. injection R as <-. split; [reflexivity|discriminate].
Qed.

(** *** Extraction *)
Lemma reduce_dims_spec : forall names ss es calls,
  reduce_dims names ss es = Some calls ->
  length calls = length names /\ length names <= length ss /\ length names <= length es /\
  forall i d s e, nth_error names i = Some d -> nth_error ss i = Some s -> nth_error es i = Some e ->
    nth_error calls i = Some (if ((s =? 0) && (e =? 0))%Z then ReduceFirst d else ReduceStartEnd d s e).
Proof.
  induction names as [|d names IH]; intros ss es calls H.
  - cbn in H. injection H as <-. cbn. repeat split; try lia. intros [|i]; discriminate.
  - destruct ss as [|s ss]; [discriminate H|]. destruct es as [|e es]; [discriminate H|].
    cbn in H. destruct (reduce_dims names ss es) as [cs|] eqn:E; [|discriminate H].
    cbn in H. injection H as <-. destruct (IH _ _ _ E) as (L1 & L2 & L3 & P). cbn [length].
    repeat split; try lia. intros [|i] d' s' e' A B C; cbn in *.
    + injection A as ->. injection B as ->. injection C as ->. reflexivity.
    + eauto.
Qed.

Lemma mapo_length {A B} (f : A -> option B) : forall l bs, mapo f l = Some bs -> length bs = length l.
Proof.
  induction l as [|a l IH]; intros bs H; cbn in H.
  - injection H as <-. reflexivity.
  - destruct (f a); [|discriminate]. destruct (mapo f l) as [c|] eqn:E; [|discriminate].
    injection H as <-. cbn. rewrite (IH c eq_refl). reflexivity.
Qed.

Lemma mapo_nth {A B} (f : A -> option B) : forall l bs i a,
  mapo f l = Some bs -> nth_error l i = Some a -> exists b, f a = Some b /\ nth_error bs i = Some b.
Proof.
  induction l as [|x l IH]; intros bs i a H I; [destruct i; discriminate|]. cbn in H.
  destruct (f x) as [b|] eqn:F; [|discriminate]. destruct (mapo f l) as [c|] eqn:E; [|discriminate].
  injection H as <-. destruct i as [|i]; cbn in I |- *.
  - injection I as ->. eauto.
  - eauto.
Qed.

(** what the calls of an extraction are: the dimensions, then the picked positions, then the time
    span, the vertical range, the box, the selected variables and last the removed ones *)
Theorem C109_extract : forall vm s calls,
  snd (extractor' vm s) = Go (Rextr s calls) ->
  exists dims picks times vert box,
    calls = dims ++ picks ++ times ++ vert ++ box
            ++ when (given vm "extract.selectVariables")
                 [SelectVariables (values vm "extract.selectVariables")
                    (negb (given vm "extract.selectVariables.noAuxiliary"))]
            ++ map RemoveVariable (values vm "extract.removeVariable")
    /\ x_reduce pint vm = Some dims /\ x_pick pints vm = Some picks /\ x_time ptime vm = Some times
    /\ x_vertical pdbl vm = Some vert /\ x_box pdbl vm = Some box.
Proof.
  intros vm s calls H. unfold extractor in H. destruct (negb _).
  { cbn in H. injection H as H. exfalso. clear -H.
    assert (G : forall r c, r <> Rextr r c).
    { intro r. induction r; intros c C; try discriminate. injection C as C1 C2. subst. eapply IHr; eauto. }
    eapply G, H. }
  apply bnd_go in H. destruct H as (a & A & H). apply bnd_go in H. destruct H as (b & B & H).
  apply bnd_go in H. destruct H as (c & C & H). apply bnd_go in H. destruct H as (d & D & H).
  apply bnd_go in H. destruct H as (e & E & H). apply bnd_go in H. destruct H as (r & R & H).
  apply bnd_go in H. destruct H as (u & _ & H). apply build_go in R. destruct R as [-> _].
  cbn in H. injection H as <-.
  apply ofopt_go in A, B, C, D, E. exists a, b, c, d, e. unfold x_variables, when. auto 10.
Qed.

(** the i-th dimension is cut to the i-th start and end; 0 and 0 stands for the first element *)
Theorem C109_dimensions : forall vm dims i d ts te st e,
  x_reduce pint vm = Some dims ->
  nth_error (values vm "extract.reduceDimension.name") i = Some d ->
  nth_error (values vm "extract.reduceDimension.start") i = Some ts -> pint ts = Some st ->
  nth_error (values vm "extract.reduceDimension.end") i = Some te -> pint te = Some e ->
  length dims = length (values vm "extract.reduceDimension.name") /\
  nth_error dims i = Some (if ((st =? 0) && (e =? 0))%Z then ReduceFirst d else ReduceStartEnd d st e).
Proof.
  intros vm dims i d ts te st e H D S PS E PE. unfold x_reduce in H.
  destruct (given vm "extract.reduceDimension.name") eqn:G.
  2:{ unfold given in G. unfold values in D. destruct (vm "extract.reduceDimension.name"); [discriminate|].
      destruct i; discriminate D. }
  destruct (mapo pint (values vm "extract.reduceDimension.start")) as [ss|] eqn:M1; [|discriminate].
  destruct (mapo pint (values vm "extract.reduceDimension.end")) as [es|] eqn:M2; [|discriminate].
  destruct (reduce_dims_spec _ _ _ _ H) as (L & _ & _ & P). split; [exact L|].
  destruct (mapo_nth _ _ _ _ _ M1 S) as (s' & A1 & A2). destruct (mapo_nth _ _ _ _ _ M2 E) as (e' & B1 & B2).
  rewrite PS in A1. injection A1 as <-. rewrite PE in B1. injection B1 as <-. auto.
Qed.

(** fewer starts or ends than names end the program *)
Theorem C109_unpaired : forall vm s,
  given vm "extract.reduceDimension.name" = true ->
  length (values vm "extract.reduceDimension.start") < length (values vm "extract.reduceDimension.name")
  \/ length (values vm "extract.reduceDimension.end") < length (values vm "extract.reduceDimension.name") ->
  snd (extractor' vm s) = Stop.
Proof.
  intros vm s G L. unfold extractor. rewrite G. cbn [orb negb].
  apply bnd_fail. unfold x_reduce. rewrite G.
  destruct (mapo pint (values vm "extract.reduceDimension.start")) as [ss|] eqn:M1; [|reflexivity].
  destruct (mapo pint (values vm "extract.reduceDimension.end")) as [es|] eqn:M2; [|reflexivity].
  apply mapo_length in M1, M2.
  destruct (reduce_dims _ ss es) eqn:R; [|reflexivity].
  destruct (reduce_dims_spec _ _ _ _ R) as (_ & ? & ? & _). lia.
Qed.

(** a set of positions: without repetition, in rising order, and just those given *)
Lemma insert_set_in x l y : In y (insert_set x l) <-> y = x \/ In y l.
Proof.
  induction l as [|z l IH]; cbn.
  - intuition.
  - destruct (N.ltb_spec x z).
    + cbn. intuition.
    + destruct (N.eqb_spec x z); cbn; [subst; intuition|]. rewrite IH. intuition.
Qed.

Inductive rising : list N -> Prop :=
| rising_nil : rising []
| rising_one x : rising [x]
| rising_cons x y l : (x < y)%N -> rising (y :: l) -> rising (x :: y :: l).

Lemma insert_set_rising x : forall l, rising l -> rising (insert_set x l).
Proof.
  induction l as [|z l IH]; intro R; cbn; [constructor|].
  destruct (N.ltb_spec x z); [constructor; auto|].
  destruct (N.eqb_spec x z); [exact R|].
  assert (x > z)%N by lia. inversion R; subst.
  - cbn. constructor; [lia|constructor].
  - cbn. cbn in IH. specialize (IH H4). destruct (N.ltb_spec x y).
    + constructor; [lia|]. exact IH.
    + destruct (N.eqb_spec x y).
      * constructor; [lia|]. exact IH.
      * constructor; [lia|]. exact IH.
Qed.

Theorem C109_positions : forall l,
  rising (set_of l) /\ forall p, In p (set_of l) <-> exists z, In z l /\ p = Z.to_N (z mod 2 ^ 64).
Proof.
  intro l. unfold set_of.
  assert (G : forall l s, rising s ->
    rising (fold_left (fun s z => insert_set (size_of z) s) l s) /\
    forall p, In p (fold_left (fun s z => insert_set (size_of z) s) l s)
              <-> In p s \/ exists z, In z l /\ p = Z.to_N (z mod 2 ^ 64)).
  { clear l. induction l as [|a l IH]; intros s R; cbn [fold_left].
    - split; [exact R|]. intro p. split; [auto|]. intros [?|(z & [] & _)]; auto.
    - destruct (IH (insert_set (size_of a) s) (insert_set_rising _ _ R)) as [R' I].
      split; [exact R'|]. intro p. rewrite I, insert_set_in. unfold size_of. split.
      + intros [[->|?]|(z & ? & ?)]; [right; exists a; cbn; auto|auto|right; exists z; cbn; auto].
      + intros [?|(z & [->|?] & ?)]; [auto|left; left; auto|right; exists z; auto]. }
  destruct (G l [] rising_nil) as [A B]. split; [exact A|]. intro p. rewrite B. cbn. intuition.
Qed.

(** positions are picked from the i-th dimension by the i-th list *)
Lemma pick_dims_spec : forall dims lists calls,
  pick_dims pints dims lists = Some calls ->
  length calls = length dims /\ length dims <= length lists /\
  forall i d t, nth_error dims i = Some d -> nth_error lists i = Some t ->
    exists ps, pints t = Some ps /\ nth_error calls i = Some (PickPositions d (set_of ps)).
Proof.
  induction dims as [|d dims IH]; intros lists calls H.
  - cbn in H. injection H as <-. cbn. repeat split; try lia. intros [|i]; discriminate.
  - destruct lists as [|t lists]; [discriminate H|]. cbn in H.
    destruct (pints t) as [ps|] eqn:P; [|discriminate H].
    destruct (pick_dims pints dims lists) as [cs|] eqn:E; [|discriminate H].
    cbn in H. injection H as <-. destruct (IH _ _ E) as (L1 & L2 & I). cbn [length].
    repeat split; try lia. intros [|i] d' t' A B; cbn in *.
    + injection A as ->. injection B as ->. eauto.
    + eauto.
Qed.

Theorem C109_picked : forall vm picks i d t,
  x_pick pints vm = Some picks ->
  nth_error (values vm "extract.pickDimension.name") i = Some d ->
  nth_error (values vm "extract.pickDimension.list") i = Some t ->
  length picks = length (values vm "extract.pickDimension.name") /\
  exists ps, pints t = Some ps /\ nth_error picks i = Some (PickPositions d (set_of ps)).
Proof.
  intros vm picks i d t H D T. unfold x_pick in H.
  destruct (given vm "extract.pickDimension.name") eqn:G.
  2:{ unfold given in G. unfold values in D. destruct (vm "extract.pickDimension.name"); [discriminate|].
      destruct i; discriminate D. }
  destruct (pick_dims_spec _ _ _ H) as (L & _ & I). split; [exact L|]. eauto.
Qed.

(** the box is asked for with all four sides or the program ends; the sides are not mixed up *)
Theorem C109_box : forall vm,
  (given vm "extract.reduceToBoundingBox.south" = false ->
   given vm "extract.reduceToBoundingBox.north" = false ->
   given vm "extract.reduceToBoundingBox.west" = false ->
   given vm "extract.reduceToBoundingBox.east" = false -> x_box pdbl vm = Some []) /\
  (forall c, x_box pdbl vm = Some c -> c <> [] ->
   exists s n w e, c = [ReduceBox s n w e] /\
     (given vm "extract.reduceToBoundingBox.south" = true
      /\ pdbl (value vm "extract.reduceToBoundingBox.south") = Some s) /\
     (given vm "extract.reduceToBoundingBox.north" = true
      /\ pdbl (value vm "extract.reduceToBoundingBox.north") = Some n) /\
     (given vm "extract.reduceToBoundingBox.west" = true
      /\ pdbl (value vm "extract.reduceToBoundingBox.west") = Some w) /\
     (given vm "extract.reduceToBoundingBox.east" = true
      /\ pdbl (value vm "extract.reduceToBoundingBox.east") = Some e)) /\
  (x_box pdbl vm = Some [] -> any vm ["extract.reduceToBoundingBox.south";
      "extract.reduceToBoundingBox.north"; "extract.reduceToBoundingBox.west";
      "extract.reduceToBoundingBox.east"] = false).
Proof.
  intro vm. unfold x_box, box_side, any. cbn [existsb].
  destruct (given vm "extract.reduceToBoundingBox.south");
  destruct (given vm "extract.reduceToBoundingBox.north");
  destruct (given vm "extract.reduceToBoundingBox.west");
  destruct (given vm "extract.reduceToBoundingBox.east"); cbn [orb];
    (split; [try discriminate; auto|]);
    repeat match goal with
           | |- context [match pdbl ?x with _ => _ end] => destruct (pdbl x) eqn:?
           end;
    (split; [intros c H N; try discriminate H; injection H as <-; try congruence; do 4 eexists; repeat split; eauto
            | intro H; try discriminate H; reflexivity]).
Qed.

(** the vertical range has both ends, and the time span ends where it is not bounded *)
Theorem C109_ranges : forall vm,
  (forall c, x_vertical pdbl vm = Some c ->
     given vm "extract.reduceVerticalAxis.unit" = false /\ c = []
     \/ exists s e, given vm "extract.reduceVerticalAxis.start" = true
          /\ given vm "extract.reduceVerticalAxis.end" = true
          /\ pdbl (value vm "extract.reduceVerticalAxis.start") = Some s
          /\ pdbl (value vm "extract.reduceVerticalAxis.end") = Some e
          /\ c = [ReduceVertical (value vm "extract.reduceVerticalAxis.unit") s e]) /\
  (forall c, x_time ptime vm = Some c ->
     (given vm "extract.reduceTime.start" = false /\ given vm "extract.reduceTime.end" = false /\ c = [])
     \/ exists s e, c = [ReduceTime s e]
          /\ (if given vm "extract.reduceTime.start"
              then s = ptime (value vm "extract.reduceTime.start") /\ s <> None else s = None)
          /\ (if given vm "extract.reduceTime.end"
              then e = ptime (value vm "extract.reduceTime.end") /\ e <> None else e = None)).
Proof.
  intro vm. split; intros c H.
  - unfold x_vertical in H. destruct (given vm "extract.reduceVerticalAxis.unit").
    + right. destruct (given vm "extract.reduceVerticalAxis.start" && _) eqn:B; [|discriminate].
      apply andb_prop in B. destruct B as [B1 B2].
      destruct (pdbl (value vm "extract.reduceVerticalAxis.start")) as [a|]; [|discriminate].
      destruct (pdbl (value vm "extract.reduceVerticalAxis.end")) as [b|]; [|discriminate].
      injection H as <-. exists a, b. auto 10.
    + left. injection H as <-. auto.
  - unfold x_time, time_end in H.
    destruct (given vm "extract.reduceTime.start") eqn:B1;
    destruct (given vm "extract.reduceTime.end") eqn:B2; cbn [orb] in H;
    repeat match type of H with
           | context [ptime ?x] => destruct (ptime x) eqn:?; cbn [option_map] in H
           end; try discriminate H; injection H as <-.
    1,2,3: right; do 2 eexists; split; [reflexivity|]; split; auto; split; congruence.
    left. auto.
Qed.

(** *** Horizontal interpolation *)
(** a projection is preferred to a template, a template to cross sections, these to points *)
Theorem C109_target : forall vm s lat lon pre post m t,
  snd (interpolator' vm s) = Go (Rinterp s lat lon pre post m t) ->
  lat = opt_text vm "interpolate.latitudeName" /\ lon = opt_text vm "interpolate.longitudeName" /\
  pre = opt_text vm "interpolate.preprocess" /\ post = opt_text vm "interpolate.postprocess" /\
  m = method_given vm "interpolate.method" /\
  (if given vm "interpolate.projString" then
     exists d, t = ToProjection d (value vm "interpolate.projString")
                 (value vm "interpolate.xAxisValues") (value vm "interpolate.yAxisValues")
                 (value vm "interpolate.xAxisUnit") (value vm "interpolate.yAxisUnit")
                 (value_or vm "double" "interpolate.xAxisType") (value_or vm "double" "interpolate.yAxisType")
       /\ forallb (given vm) ["interpolate.xAxisValues"; "interpolate.yAxisValues";
                              "interpolate.xAxisUnit"; "interpolate.yAxisUnit"] = true
       /\ (if given vm "interpolate.distanceOfInterest"
           then d = pdbl (value vm "interpolate.distanceOfInterest") /\ d <> None else d = None)
   else if given vm "interpolate.template" then t = ToTemplate (value vm "interpolate.template")
   else if given vm "interpolate.vcrossNames" then exists secs, t = ToSections secs
   else exists lons lats, t = ToPoints lons lats
          /\ given vm "interpolate.latitudeValues" = true /\ given vm "interpolate.longitudeValues" = true
          /\ pdbls (value vm "interpolate.longitudeValues") = Some lons
          /\ pdbls (value vm "interpolate.latitudeValues") = Some lats).
Proof.
  intros vm s lat lon pre post m t H. unfold interpolator in H.
  destruct (itarget pdbl psizes pdbls ptoks vm) as [a|] eqn:I.
  2:{ cbn in H. injection H as H. exfalso. clear -H.
      assert (G : forall r a b c d e f, r <> Rinterp r a b c d e f).
      { intro r. induction r; intros; try discriminate. intro C. injection C. intros. subst. eapply IHr; eauto. }
      eapply G, H. }
  apply bnd_go in H. destruct H as (t' & T & H). apply bnd_go in H. destruct H as (p1 & P1 & H).
  apply bnd_go in H. destruct H as (p2 & P2 & H). apply bnd_go in H. destruct H as (r & R & H).
  apply bnd_go in H. destruct H as (u & _ & H). apply build_go in R. destruct R as [-> _].
  cbn in H. injection H as <- <- <- <- <- <-.
  assert (P : forall k p, snd (opt_proc pproc vm k) = Go p -> p = opt_text vm k).
  { intros k p. unfold opt_proc. destruct (opt_text vm k); [|cbn; intro A; injection A as <-; reflexivity].
    destruct (pproc s0); cbn; intro A; [injection A as <-; reflexivity|discriminate]. }
  repeat (split; [solve [auto]|]).
  unfold itarget, opt_text in I.
  destruct (given vm "interpolate.projString").
  - injection I as <-. unfold projection in T.
    destruct (given vm "interpolate.xAxisUnit") eqn:B1; [|discriminate T].
    destruct (given vm "interpolate.yAxisUnit") eqn:B2; [|discriminate T].
    destruct (given vm "interpolate.xAxisValues") eqn:B3; [|discriminate T].
    destruct (given vm "interpolate.yAxisValues") eqn:B4; [|discriminate T].
    cbn [andb] in T. apply bnd_go in T. destruct T as (d & D & T). cbn in T. injection T as <-.
    exists d. split; [reflexivity|]. split; [cbn [forallb]; rewrite B1, B2, B3, B4; reflexivity|].
    destruct (given vm "interpolate.distanceOfInterest").
    + apply bnd_go in D. destruct D as (q & Q & D). apply ofopt_go in Q. cbn in D. injection D as <-.
      rewrite Q. split; [reflexivity|discriminate].
    + cbn in D. injection D as <-. reflexivity.
  - destruct (given vm "interpolate.template").
    { injection I as <-. cbn in T. injection T as <-. reflexivity. }
    destruct (given vm "interpolate.vcrossNames").
    { injection I as <-. unfold cross_sections in T. destruct (_ && _ && _); [|discriminate T].
      cbv zeta in T. apply bnd_go in T. destruct T as (? & _ & T). apply bnd_go in T. destruct T as (? & _ & T).
      apply bnd_go in T. destruct T as (? & _ & T).
      destruct (negb _); [discriminate T|]. destruct (negb _); [discriminate T|].
      destruct (negb _); [discriminate T|].
      apply bnd_go in T. destruct T as (se & _ & T). cbn in T. injection T as <-. eauto. }
    destruct (given vm "interpolate.latitudeValues") eqn:B1; [|discriminate I]. injection I as <-.
    destruct (given vm "interpolate.longitudeValues") eqn:B2; [|discriminate T].
    apply bnd_go in T. destruct T as (la & LA & T). apply bnd_go in T. destruct T as (lo & LO & T).
    apply ofopt_go in LA, LO. cbn in T. injection T as <-. exists lo, la. auto.
Qed.

(** the points are dealt out to the sections in order: none is lost and none is used twice *)
Lemma points_spec lons lats : forall n pos ps,
  points lons lats pos n = Some ps ->
  ps = combine (firstn n (skipn pos lons)) (firstn n (skipn pos lats)) /\ length ps = n
  /\ (n = 0 \/ pos + n <= length lons /\ pos + n <= length lats).
Proof.
  induction n as [|n IH]; intros pos ps H; cbn in H.
  - injection H as <-. cbn. auto.
  - destruct (nth_error lons pos) as [a|] eqn:A; [|discriminate].
    destruct (nth_error lats pos) as [b|] eqn:B; [|discriminate].
    destruct (points lons lats (S pos) n) as [qs|] eqn:E; [|discriminate].
    cbn in H. injection H as <-. destruct (IH _ _ E) as (-> & L & M).
    assert (SK : forall (l : list Q) p x, nth_error l p = Some x -> skipn p l = x :: skipn (S p) l).
    { induction l as [|y l IHl]; intros [|p] x X; try discriminate X.
      - cbn in X. injection X as ->. reflexivity.
      - cbn [skipn]. rewrite (IHl p x X). destruct l; reflexivity. }
    rewrite (SK _ _ _ A), (SK _ _ _ B). cbn [firstn combine]. split; [reflexivity|].
    split; [cbn [length]; f_equal; exact L|]. right.
    assert (pos < length lons) by (apply nth_error_Some; congruence).
    assert (pos < length lats) by (apply nth_error_Some; congruence). lia.
Qed.

Lemma combine_app' {A B} : forall (a1 a2 : list A) (b1 b2 : list B), length a1 = length b1 ->
  combine (a1 ++ a2) (b1 ++ b2) = combine a1 b1 ++ combine a2 b2.
Proof.
  induction a1 as [|x a1 IH]; intros a2 [|y b1] b2 L; try discriminate; [reflexivity|].
  cbn. f_equal. apply IH. injection L as L. exact L.
Qed.

Lemma skipn_add {A} (l : list A) : forall p n, skipn (p + n) l = skipn n (skipn p l).
Proof. induction l as [|a l IH]; intros [|p] n; cbn; try reflexivity; [destruct n; reflexivity|apply IH]. Qed.

Lemma sections_spec lons lats : forall names ns pos secs,
  length names = length ns -> pos <= length lons -> pos <= length lats ->
  sections names ns lons lats pos = Some secs ->
  map fst secs = names /\ map (fun s => N.of_nat (length (snd s))) secs = ns /\
  exists k, concat (map snd secs) = combine (firstn k (skipn pos lons)) (firstn k (skipn pos lats))
    /\ N.of_nat k = fold_right N.add 0%N ns /\ pos + k <= length lons /\ pos + k <= length lats.
Proof.
  induction names as [|nm names IH]; intros [|n ns] pos secs L P1 P2 H; try discriminate L.
  - cbn in H. injection H as <-. cbn. split; [reflexivity|]. split; [reflexivity|].
    exists 0. cbn. repeat split; lia.
  - cbn [sections] in H.
    destruct (points lons lats pos (N.to_nat n)) as [ps|] eqn:E; [|discriminate H].
    destruct (sections names ns lons lats (pos + N.to_nat n)) as [se|] eqn:E'; [|discriminate H].
    cbn in H. injection H as <-. injection L as L.
    destruct (points_spec _ _ _ _ _ E) as (-> & LP & M).
    assert (Q1 : pos + N.to_nat n <= length lons) by lia.
    assert (Q2 : pos + N.to_nat n <= length lats) by lia.
    destruct (IH _ _ _ L Q1 Q2 E') as (A & B & k & C & D & F1 & F2).
    cbn [map fst snd concat fold_right]. rewrite A, B, LP, N2Nat.id. split; [reflexivity|].
    split; [reflexivity|]. exists (N.to_nat n + k). split; [|split; [|lia]].
    + rewrite C, !skipn_add.
      assert (FA : forall (l : list Q) a b, firstn (a + b) l = firstn a l ++ firstn b (skipn a l)).
      { clear. induction l as [|x l IH]; intros [|a] b; cbn; try reflexivity; [destruct b; reflexivity|].
        f_equal. apply IH. }
      rewrite !FA. rewrite combine_app'; [reflexivity|].
      rewrite !firstn_length, !skipn_length. lia.
    + rewrite Nat2N.inj_add, N2Nat.id, D. reflexivity.
Qed.

Theorem C109_sections : forall vm secs,
  snd (cross_sections psizes pdbls ptoks vm) = Go (ToSections secs) ->
  exists ns lons lats,
    psizes (value vm "interpolate.vcrossNoPoints") = Some ns /\
    pdbls (value vm "interpolate.longitudeValues") = Some lons /\
    pdbls (value vm "interpolate.latitudeValues") = Some lats /\
    map fst secs = ptoks (value vm "interpolate.vcrossNames") /\
    map (fun s => N.of_nat (length (snd s))) secs = ns /\
    length lons = length lats /\
    exists k, concat (map snd secs) = combine (firstn k lons) (firstn k lats) /\
      k <= length lons /\
      ((N.of_nat (length lons) < 2 ^ 31)%N -> concat (map snd secs) = combine lons lats).
Proof.
  intros vm secs T. unfold cross_sections in T.
  destruct (_ && _ && _); [|discriminate T].
  cbv zeta in T. apply bnd_go in T. destruct T as (ns & NS & T). apply bnd_go in T. destruct T as (la & LA & T).
  apply bnd_go in T. destruct T as (lo & LO & T). apply ofopt_go in NS, LA, LO.
  destruct (Nat.eqb_spec (length (ptoks (value vm "interpolate.vcrossNames"))) (length ns)) as [L1|];
    [|discriminate T]. cbn [negb] in T.
  destruct (N.eqb_spec (point_sum ns) (N.of_nat (length la))) as [L2|]; [|discriminate T]. cbn [negb] in T.
  destruct (Nat.eqb_spec (length la) (length lo)) as [L3|]; [|discriminate T]. cbn [negb] in T.
  apply bnd_go in T. destruct T as (se & S & T). apply ofopt_go in S. cbn in T. injection T as ->.
  exists ns, lo, la.
  destruct (sections_spec lo la _ _ 0 _ L1 (Nat.le_0_l _) (Nat.le_0_l _) S) as (A & B & k & C & D & E & F).
  do 5 (split; [assumption|]). split; [lia|]. exists k. cbn [skipn] in C. split; [exact C|].
  cbn [Nat.add] in E. split; [exact E|]. intro SM.
  assert (PS : point_sum ns = N.of_nat k).
  { unfold point_sum.
    assert (G : forall l a, (0 <= a)%Z -> (a + Z.of_N (fold_right N.add 0%N l) < 2 ^ 31)%Z ->
      fold_left (fun a n => to_int (a + Z.of_N n)) l a = (a + Z.of_N (fold_right N.add 0%N l))%Z).
    { clear. induction l as [|x l IH]; intros a A H; cbn [fold_left fold_right] in *; [lia|].
      rewrite N2Z.inj_add in H.
      assert (TI : to_int (a + Z.of_N x) = (a + Z.of_N x)%Z).
      { unfold to_int. rewrite Z.mod_small; lia. }
      rewrite TI, IH; lia. }
    rewrite G; [|lia|rewrite <- D; lia]. rewrite <- D. unfold size_of.
    rewrite Z.mod_small by lia. lia. }
  rewrite L2 in PS. apply Nat2N.inj in PS. rewrite C.
  rewrite firstn_all2, firstn_all2 by lia. reflexivity.
Qed.

(** *** Vertical interpolation *)
(** a given axis is preferred to a template variable, that to levels; without any of them the
    program ends *)
Theorem C109_levels : forall vm s,
  asks_vertical vm = true ->
  (forall r, snd (vertical' vm s) = Go r ->
    exists src t mn mx,
      r = Rvert src (value vm "verticalInterpolate.type") (value vm "verticalInterpolate.method") t mn mx
      /\ (if given vm "verticalInterpolate.toAxis" then t = ToAxis (value vm "verticalInterpolate.toAxis")
          else if given vm "verticalInterpolate.templateVar"
          then t = ToTemplateVar (value vm "verticalInterpolate.templateVar")
          else exists l, pdbls (value vm "verticalInterpolate.level1") = Some l /\ t = ToLevels l
                 /\ given vm "verticalInterpolate.level1" = true)
      /\ mn = (if given vm "verticalInterpolate.ignoreValidityMin"
               then pbool (value vm "verticalInterpolate.ignoreValidityMin") else None)
      /\ mx = (if given vm "verticalInterpolate.ignoreValidityMax"
               then pbool (value vm "verticalInterpolate.ignoreValidityMax") else None)) /\
  (any vm ["verticalInterpolate.toAxis"; "verticalInterpolate.templateVar"; "verticalInterpolate.level1"]
   = false -> snd (vertical' vm s) = Stop).
Proof.
  intros vm s A. unfold asks_vertical in A. apply andb_prop in A. destruct A as [A1 A2]. split.
  - intros r H. unfold vertical, opt_text in H. cbv zeta in H. rewrite A1, A2 in H.
    apply bnd_go in H. destruct H as (r1 & _ & H). apply bnd_go in H. destruct H as (r2 & _ & H).
    apply bnd_go in H. destruct H as (t & T & H). apply bnd_go in H. destruct H as (mn & MN & H).
    apply bnd_go in H. destruct H as (mx & MX & H). apply bnd_go in H. destruct H as (r' & R & H).
    apply bnd_go in H. destruct H as (u & _ & H). apply build_go in R. destruct R as [-> _].
    cbn in H. injection H as <-. exists r2, t, mn, mx. split; [reflexivity|].
    assert (P : forall k p, snd (opt_bool pbool vm k) = Go p ->
              p = if given vm k then pbool (value vm k) else None).
    { intros k p. unfold opt_bool. destruct (given vm k); [|cbn; intro C; injection C as <-; reflexivity].
      intro C. apply bnd_go in C. destruct C as (b & B & C). apply ofopt_go in B. cbn in C.
      injection C as <-. auto. }
    split; [|split; auto].
    unfold levels, opt_text in T. destruct (given vm "verticalInterpolate.toAxis").
    { cbn in T. injection T as <-. reflexivity. }
    destruct (given vm "verticalInterpolate.templateVar").
    { cbn in T. injection T as <-. reflexivity. }
    destruct (given vm "verticalInterpolate.level1"); [|discriminate T].
    apply bnd_go in T. destruct T as (l & L & T). apply ofopt_go in L. cbn in T. injection T as <-. eauto.
  - intro N. unfold any in N. cbn [existsb] in N.
    apply orb_false_elim in N. destruct N as [N1 N]. apply orb_false_elim in N. destruct N as [N2 N].
    apply orb_false_elim in N. destruct N as [N3 _].
    unfold vertical, opt_text. cbv zeta. rewrite A1, A2.
    assert (L : levels pdbls vm = stop) by (unfold levels, opt_text; rewrite N1, N2, N3; reflexivity).
    rewrite L.
    assert (BS : forall A B (x : act A) (f : A -> act B),
              snd x <> More -> (forall a, snd (f a) = Stop) -> snd (bnd x f) = Stop).
    { intros A B x f X F. unfold bnd. destruct (snd x); cbn [snd]; auto. congruence. }
    assert (BM : forall r, snd (build okr r) <> More)
      by (intro r; unfold build; destruct (okr r); discriminate).
    apply BS; [destruct (String.eqb _ _); [discriminate|apply BM]|]. intro r1.
    apply BS; [destruct (given vm "verticalInterpolate.dataConversion"); [apply BM|discriminate]|].
    intro r2. reflexivity.
Qed.

(** *** Merging *)
(** the inner file is the one named; with a configuration it goes through all steps asked for there *)
Theorem C109_merge : forall n vm s r,
  asks_merge vm = true ->
  snd (merger' n vm s) = Go r ->
  exists inner file g,
    r = Rmerge inner s (opt_text vm "merge.smoothing") (given vm "merge.keepOuterVariables")
          (method_given vm "merge.method") g
    /\ file = Rfile (value vm "merge.inner.type") (value vm "merge.inner.file")
                (value vm "merge.inner.config") (values vm "merge.inner.optional")
    /\ (given vm "merge.inner.cfg" = false -> inner = file)
    /\ (given vm "merge.inner.cfg" = true ->
        exists mvm, pcfg (values vm "merge.inner.cfg") = Some mvm /\ snd (tasks' n mvm file) = Go inner
          /\ (known_options mvm -> steps inner = asked mvm))
    /\ (given vm "merge.projString" = false -> g = InnerGrid)
    /\ (given vm "merge.projString" = true ->
        g = GivenGrid (value vm "merge.projString")
             (value vm "merge.xAxisValues") (value vm "merge.yAxisValues")
             (value vm "merge.xAxisUnit") (value vm "merge.yAxisUnit")
             (value_or vm "double" "merge.xAxisType") (value_or vm "double" "merge.yAxisType")
        /\ forallb (given vm) ["merge.xAxisValues"; "merge.yAxisValues"; "merge.xAxisUnit";
                               "merge.yAxisUnit"] = true).
Proof.
  intros n vm s r A H. unfold merger in H.
  replace (given vm "merge.inner.file" || given vm "merge.inner.type" || given vm "merge.inner.config"
           || given vm "merge.smoothing" || given vm "merge.method") with true in H.
  2:{ transitivity (asks_merge vm); [symmetry; exact A|].
      unfold asks_merge, any. cbn [existsb]. rewrite !orb_false_r, !orb_assoc. reflexivity. }
  cbn [negb] in H.
  apply bnd_go in H. destruct H as (i0 & I0 & H). apply bnd_go in H. destruct H as (i1 & I1 & H).
  apply bnd_go in H. destruct H as (g & G & H). apply bnd_go in H. destruct H as (r' & R & H).
  apply bnd_go in H. destruct H as (u & _ & H). apply build_go in R. destruct R as [-> _].
  cbn in H. injection H as <-.
  unfold file_reader in I0. apply bnd_go in I0. destruct I0 as (f & F & I0).
  apply bnd_go in I0. destruct I0 as (u' & _ & I0). apply build_go in F. destruct F as [-> _].
  cbn in I0. injection I0 as <-.
  eexists i1, _, g. split; [reflexivity|]. split; [reflexivity|].
  split; [|split; [|split]].
  - intro B. rewrite B in I1. cbn in I1. injection I1 as <-. reflexivity.
  - intro B. rewrite B in I1. apply bnd_go in I1. destruct I1 as (mvm & M & I1). apply ofopt_go in M.
    exists mvm. split; [exact M|]. split; [exact I1|]. intro K. apply (C109_steps n mvm _ _ K I1).
  - intro B. unfold merge_grid in G. rewrite B in G. cbn in G. injection G as <-. reflexivity.
  - intro B. unfold merge_grid in G. rewrite B in G. cbn [forallb].
    destruct (given vm "merge.xAxisUnit"); [|discriminate G].
    destruct (given vm "merge.yAxisUnit"); [|discriminate G].
    destruct (given vm "merge.xAxisValues"); [|discriminate G].
    destruct (given vm "merge.yAxisValues"); [|discriminate G].
    cbn in G. injection G as <-. auto.
Qed.

(** *** The files written *)
Definition is_output (e : event) : bool :=
  match e with Fill _ _ _ | Write _ _ _ _ => true | _ => false end.

Lemma print_silent st vm r : filter is_output (fst (print_statements writable st vm r)) = [].
Proof.
  unfold print_statements, bnd. destruct (opt_text vm (st ++ ".printNcML")) as [d|];
    [destruct (String.eqb d "-"); [|destruct (writable d)]|]; cbn [fst snd ret stop];
    destruct (given vm (st ++ ".printCS")); cbn [fst snd ret];
    destruct (given vm (st ++ ".printSize")); reflexivity.
Qed.

Lemma silent_bnd {A B} (x : act A) (f : A -> act B) :
  filter is_output (fst x) = [] -> (forall a, filter is_output (fst (f a)) = []) ->
  filter is_output (fst (bnd x f)) = [].
Proof.
  intros X F. unfold bnd. destruct (snd x); cbn [fst]; auto. rewrite filter_app, X, F. reflexivity.
Qed.

Lemma silent_build r : filter is_output (fst (build okr r)) = [].
Proof. rewrite build_ev. reflexivity. Qed.

Lemma silent_ofopt {A} (o : option A) : filter is_output (fst (ofopt o)) = [].
Proof. destruct o; reflexivity. Qed.

Ltac quiet :=
  lazymatch goal with
  | |- filter is_output (fst (bnd _ _)) = [] => apply silent_bnd; [quiet | intros ?; cbv beta; quiet]
  | |- filter is_output (fst (build _ _)) = [] => apply silent_build
  | |- filter is_output (fst (ofopt _)) = [] => apply silent_ofopt
  | |- filter is_output (fst (print_statements _ _ _ _)) = [] => apply print_silent
  | |- filter is_output (fst (if ?b then _ else _)) = [] => destruct b; quiet
  | |- filter is_output (fst (match ?b with _ => _ end)) = [] => destruct b; quiet
  | |- _ => try reflexivity; auto
  end.

Lemma silent_tasks : forall n vm r, filter is_output (fst (tasks' n vm r)) = [].
Proof.
  induction n as [|n IH]; intros vm r; [reflexivity|]. cbn [tasks].
  apply silent_bnd; [unfold processor, rotations; cbv zeta; quiet|intro r1].
  apply silent_bnd; [unfold quality; cbv zeta; quiet|intro r2].
  apply silent_bnd; [unfold extractor; quiet|intro r3].
  apply silent_bnd; [unfold time_interpolator; quiet|intro r4].
  apply silent_bnd.
  { unfold interpolator, itarget, projection, cross_sections, opt_proc. cbv zeta.
    destruct (opt_text vm "interpolate.projString"); [quiet|].
    destruct (given vm "interpolate.template"); [quiet|].
    destruct (given vm "interpolate.vcrossNames"); [quiet|].
    destruct (given vm "interpolate.latitudeValues"); quiet. }
  intro r5.
  apply silent_bnd; [unfold vertical, levels, opt_bool; cbv zeta; quiet|intro r6].
  apply silent_bnd; [unfold merger, file_reader, merge_grid; quiet|intro r7].
  apply silent_bnd; [unfold quality; cbv zeta; quiet|intro r8].
  unfold ncml; cbv zeta; quiet.
Qed.

Lemma silent_file io vm : filter is_output (fst (file_reader okr writable io vm)) = [].
Proof. unfold file_reader. quiet. Qed.

(** a run that goes through has read the input named and made just the steps asked for, and the
    result is what is filled in and written; nothing else is written *)
Theorem C109_output : forall n vm,
  known_options vm ->
  given vm "help" = false -> given vm "version" = false ->
  status (program' n false vm) = Some 0 ->
  exists r,
    snd (tasks' n vm (Rfile (value vm "input.type") (value vm "input.file")
                        (value vm "input.config") (values vm "input.optional"))) = Go r
    /\ steps r = asked vm
    /\ filter is_output (fst (program' n false vm))
       = when (given vm "output.fillFile") [Fill (value vm "output.fillFile") (value vm "output.config") r]
         ++ when (given vm "output.file")
              [Write (value vm "output.type") (value vm "output.file") (value vm "output.config") r].
Proof.
  intros n vm K NH NV H.
  unfold program in H |- *. rewrite NH, NV in H |- *. cbn [orb] in H |- *.
  assert (G : exists u, snd (let! r0 := file_reader okr writable "input" vm in
     let! r := tasks' n vm r0 in let! _ := fill_write written vm r in write writable written vm r) = Go u).
  { unfold status in H. destruct (snd _) eqn:E; try discriminate H. eauto. }
  clear H. destruct G as [u H].
  apply bnd_go_ev in H. destruct H as (r0 & R0 & H & ->).
  apply bnd_go_ev in H. destruct H as (r & R & H & ->).
  apply bnd_go_ev in H. destruct H as (u1 & F & H & ->).
  unfold file_reader in R0. apply bnd_go in R0. destruct R0 as (f & R0 & X).
  apply build_go in R0. destruct R0 as [-> _]. apply bnd_go in X. destruct X as (? & _ & X).
  cbn in X. injection X as <-.
  exists r. split; [exact R|]. split; [exact (C109_steps _ _ _ _ K R)|].
  rewrite !filter_app, silent_file, silent_tasks. cbn [app]. f_equal.
  - unfold fill_write, opt_text in F |- *. destruct (given vm "output.fillFile"); [|reflexivity].
    destruct (written r (value vm "output.fillFile")); [reflexivity|discriminate F].
  - unfold write in H |- *. apply bnd_go_ev in H. destruct H as (u2 & _ & H & ->).
    rewrite filter_app, print_silent. cbn [app]. unfold opt_text in H |- *.
    destruct (given vm "output.file"); [|reflexivity].
    destruct (written r (value vm "output.file")); [reflexivity|discriminate H].
Qed.

(** when the program ends with an error, no complete file was written *)
Theorem C109_failed : forall n alone vm e,
  status (program' n alone vm) <> Some 0 ->
  In e (fst (program' n alone vm)) ->
  match e with Write _ _ _ _ => False | _ => True end.
Proof.
  intros n alone vm e H I. destruct e; auto.
  assert (Q : forall A (x : act A), filter is_output (fst x) = [] -> In (Write typ file config r) (fst x) -> False).
  { intros A x F J. assert (J' : In (Write typ file config r) (filter is_output (fst x)))
      by (apply filter_In; auto). rewrite F in J'. exact J'. }
  unfold program in H, I. destruct (alone || given vm "help"); [apply H; reflexivity|].
  destruct (given vm "version"); [apply H; reflexivity|].
  unfold bnd at 1 in I. unfold bnd at 1 in H.
  destruct (snd (file_reader okr writable "input" vm)) as [r0| |]; cbn [fst snd] in *;
    [|exact (Q _ _ (silent_file _ _) I)|exact (Q _ _ (silent_file _ _) I)].
  apply in_app_or in I. destruct I as [I|I]; [exact (Q _ _ (silent_file _ _) I)|].
  unfold status in H. cbn [snd] in H.
  unfold bnd at 1 in I. unfold bnd at 1 in H.
  destruct (snd (tasks' n vm r0)) as [r1| |]; cbn [fst snd] in *;
    [|exact (Q _ _ (silent_tasks _ _ _) I)|exact (Q _ _ (silent_tasks _ _ _) I)].
  apply in_app_or in I. destruct I as [I|I]; [exact (Q _ _ (silent_tasks _ _ _) I)|].
  unfold bnd at 1 in I. unfold bnd at 1 in H. unfold fill_write in I, H.
  destruct (opt_text vm "output.fillFile") as [f|];
    [destruct (written r1 f)|]; cbn [fst snd ret stop app] in *; try contradiction.
  - destruct I as [I|I]; [discriminate I|].
    unfold write in I, H. unfold bnd at 1 in I. unfold bnd at 1 in H.
    destruct (snd (print_statements writable "output" vm r1)); cbn [fst snd] in *;
      try exact (Q _ _ (print_silent _ _ _) I).
    apply in_app_or in I. destruct I as [I|I]; [exact (Q _ _ (print_silent _ _ _) I)|].
    destruct (opt_text vm "output.file") as [g|]; [|contradiction].
    destruct (written r1 g); [apply H; reflexivity|contradiction].
  - unfold write in I, H. unfold bnd at 1 in I. unfold bnd at 1 in H.
    destruct (snd (print_statements writable "output" vm r1)); cbn [fst snd] in *;
      try exact (Q _ _ (print_silent _ _ _) I).
    apply in_app_or in I. destruct I as [I|I]; [exact (Q _ _ (print_silent _ _ _) I)|].
    destruct (opt_text vm "output.file") as [g|]; [|contradiction].
    destruct (written r1 g); [apply H; reflexivity|contradiction].
Qed.

(** asking for help or the version opens nothing *)
Theorem C109_help : forall n alone vm,
  (alone = true \/ given vm "help" = true -> program' n alone vm = ([Usage], Go tt)) /\
  (alone = false -> given vm "help" = false -> given vm "version" = true ->
   program' n alone vm = ([Version], Go tt)).
Proof.
  intros n alone vm. unfold program. split.
  - intros [-> | ->]; [reflexivity|rewrite orb_true_r; reflexivity].
  - intros -> -> ->. reflexivity.
Qed.

(** *** Descriptions printed *)
Theorem C109_printed : forall st vm r u,
  snd (print_statements writable st vm r) = Go u ->
  fst (print_statements writable st vm r)
  = when (given vm (st ++ ".printNcML")) [PrintNcML st (value vm (st ++ ".printNcML")) r]
    ++ when (given vm (st ++ ".printCS")) [PrintCS st r]
    ++ when (given vm (st ++ ".printSize")) [PrintSize st r].
Proof.
  intros st vm r u. unfold print_statements, bnd, opt_text.
  destruct (given vm (st ++ ".printNcML"));
    [destruct (String.eqb (value vm (st ++ ".printNcML")) "-");
     [|destruct (writable (value vm (st ++ ".printNcML")))]|]; cbn [fst snd ret stop when];
    destruct (given vm (st ++ ".printCS")); cbn [fst snd ret when];
    destruct (given vm (st ++ ".printSize")); cbn [fst snd ret when app]; auto; discriminate.
Qed.

(** the extraction, the interpolations, the merger and the NcML configuration print after their
    step, and the output after all steps *)
Theorem C109_print_steps : forall n vm s r,
  (snd (extractor' vm s) = Go r -> asks_extract vm = true ->
   fst (extractor' vm s) = fst (print_statements writable "extract" vm r)) /\
  (snd (time_interpolator okr writable vm s) = Go r -> given vm "timeInterpolate.timeSpec" = true ->
   fst (time_interpolator okr writable vm s) = fst (print_statements writable "timeInterpolate" vm r)) /\
  (snd (quality' "" vm s) = Go r ->
   fst (quality' "" vm s) = fst (print_statements writable "qualityExtract" vm r)) /\
  (snd (quality' "2" vm s) = Go r ->
   fst (quality' "2" vm s) = fst (print_statements writable "qualityExtract2" vm r)) /\
  (snd (ncml okr writable vm s) = Go r -> named vm "ncml.config" = true ->
   fst (ncml okr writable vm s) = fst (print_statements writable "ncml" vm r)) /\
  (snd (file_reader okr writable "input" vm) = Go r ->
   fst (file_reader okr writable "input" vm) = fst (print_statements writable "input" vm r)) /\
  (snd (tasks' n vm s) = Go r -> snd (write writable written vm r) = Go tt ->
   exists rest, fst (write writable written vm r) = fst (print_statements writable "output" vm r) ++ rest).
Proof.
  intros n vm s r.
  assert (Q : forall v r, snd (quality' v vm s) = Go r ->
    fst (quality' v vm s) = fst (print_statements writable ("qualityExtract" ++ v) vm r)).
  { intros v r' H. unfold quality in H |- *. cbv zeta in H |- *.
    apply bnd_go_ev in H. destruct H as (r1 & R & H & ->).
    apply bnd_go_ev in H. destruct H as (u & _ & H & ->). cbn in H. injection H as <-.
    cbn [fst ret]. rewrite app_nil_r.
    destruct (negb _ || _); rewrite ?build_ev; reflexivity. }
  repeat split.
  - intros H A. unfold extractor in H |- *.
    destruct (negb _) eqn:B.
    { exfalso. apply negb_true_iff in B. unfold asks_extract, any in A. cbn [existsb] in A.
      repeat (apply orb_false_elim in B; destruct B as [B ?]).
      repeat match goal with E : given vm _ = false |- _ => rewrite E in A; clear E end. discriminate A. }
    apply bnd_go_ev in H. destruct H as (x1 & X1 & H & ->). apply bnd_go_ev in H. destruct H as (x2 & X2 & H & ->).
    apply bnd_go_ev in H. destruct H as (x3 & X3 & H & ->). apply bnd_go_ev in H. destruct H as (x4 & X4 & H & ->).
    apply bnd_go_ev in H. destruct H as (x5 & X5 & H & ->). apply bnd_go_ev in H. destruct H as (x6 & X6 & H & ->).
    apply bnd_go_ev in H. destruct H as (x7 & X7 & H & ->). cbn in H. injection H as <-.
    rewrite build_ev.
    assert (OE : forall A (o : option A), fst (ofopt o) = []) by (intros ? []; reflexivity).
    rewrite !OE. cbn. rewrite app_nil_r. reflexivity.
  - intros H A. unfold time_interpolator, opt_text in H |- *. rewrite A in H |- *.
    apply bnd_go_ev in H. destruct H as (x1 & X1 & H & ->). apply bnd_go_ev in H. destruct H as (x2 & X2 & H & ->).
    cbn in H. injection H as <-. rewrite build_ev. cbn. rewrite app_nil_r. reflexivity.
  - apply (Q "").
  - apply (Q "2").
  - intros H A. unfold named in A. apply negb_true_iff in A. unfold ncml in H |- *. cbv zeta in H |- *.
    rewrite A in H |- *.
    apply bnd_go_ev in H. destruct H as (x1 & X1 & H & ->). apply bnd_go_ev in H. destruct H as (x2 & X2 & H & ->).
    cbn in H. injection H as <-. rewrite build_ev. cbn. rewrite app_nil_r. reflexivity.
  - intros H. unfold file_reader in H |- *.
    apply bnd_go_ev in H. destruct H as (x1 & X1 & H & ->). apply bnd_go_ev in H. destruct H as (x2 & X2 & H & ->).
    cbn in H. injection H as <-. rewrite build_ev. cbn. rewrite app_nil_r. reflexivity.
  - intros _ H. unfold write in H |- *. apply bnd_go_ev in H. destruct H as (x1 & X1 & H & ->). eauto.
Qed.

(** *** Arguments of the simple steps, and what is printed behind the others *)
Theorem C109_arguments : forall vm s r,
  (snd (time_interpolator okr writable vm s) = Go r -> given vm "timeInterpolate.timeSpec" = true ->
   r = Rtime s (value vm "timeInterpolate.timeSpec")) /\
  (snd (quality' "" vm s) = Go r -> named vm "qualityExtract.config" = true ->
   r = Rqual s (value vm "qualityExtract.autoConfigString") (value vm "qualityExtract.config")) /\
  (snd (quality' "2" vm s) = Go r -> named vm "qualityExtract2.config" = true ->
   r = Rqual s (value vm "qualityExtract2.autoConfigString") (value vm "qualityExtract2.config")) /\
  (snd (ncml okr writable vm s) = Go r -> named vm "ncml.config" = true -> r = Rncml s (value vm "ncml.config")) /\
  (snd (vertical' vm s) = Go r -> asks_vertical vm = false -> named vm "verticalInterpolate.config" = true ->
   given vm "verticalInterpolate.dataConversion" = true ->
   r = Rpress (Rncml s (value vm "verticalInterpolate.config")) (values vm "verticalInterpolate.dataConversion")).
Proof.
  intros vm s r. repeat split.
  - intros H A. unfold time_interpolator, opt_text in H. rewrite A in H. go H. reflexivity.
  - intros H A. unfold quality in H. cbv zeta in H. cbn [String.append] in H. unfold named in A. rewrite A, orb_true_r in H. go H. reflexivity.
  - intros H A. unfold quality in H. cbv zeta in H. cbn [String.append] in H. unfold named in A. rewrite A, orb_true_r in H. go H. reflexivity.
  - intros H A. unfold ncml in H. cbv zeta in H. unfold named in A. apply negb_true_iff in A. rewrite A in H. go H. reflexivity.
  - intros H A N C. unfold vertical, opt_text in H. cbv zeta in H. unfold named in N. apply negb_true_iff in N. rewrite N, C in H.
    unfold asks_vertical in A. apply bnd_go in H. destruct H as (r1 & H1 & H). go H1. apply bnd_go in H. destruct H as (r2 & H2 & H). go H2.
    destruct (given vm "verticalInterpolate.type"); destruct (given vm "verticalInterpolate.method"); try discriminate A; go H; reflexivity.
Qed.
Theorem C109_print_after : forall vm s r,
  (snd (vertical' vm s) = Go r -> asks_vertical vm = true ->
   fst (vertical' vm s) = fst (print_statements writable "verticalInterpolate" vm r)) /\
  (snd (interpolator' vm s) = Go r -> asks_interpolate vm = true ->
   fst (interpolator' vm s) = fst (print_statements writable "interpolate" vm r)).
Proof.
  assert (OE : forall A (o : option A), fst (ofopt o) = []) by (intros ? []; reflexivity).
  assert (QB : forall A B (x : act A) (f : A -> act B), fst x = [] -> (forall a, fst (f a) = []) -> fst (bnd x f) = []).
  { intros A B x f X F. unfold bnd. destruct (snd x); cbn [fst]; rewrite X, ?F; reflexivity. }
  assert (BE : forall r, fst (build okr r) = []) by (intro; apply build_ev).
  intros vm s r. split.
  - intros H A. unfold asks_vertical in A. apply andb_true_iff in A. destruct A as [ A1 A2 ].
    unfold vertical, opt_text in H |- *. cbv zeta in H |- *. rewrite A1, A2 in H |- *.
    apply bnd_go_ev in H. destruct H as (x1 & X1 & H & ->). apply bnd_go_ev in H. destruct H as (x2 & X2 & H & ->).
    apply bnd_go_ev in H. destruct H as (x3 & X3 & H & ->). apply bnd_go_ev in H. destruct H as (x4 & X4 & H & ->).
    apply bnd_go_ev in H. destruct H as (x5 & X5 & H & ->). apply bnd_go_ev in H. destruct H as (x6 & X6 & H & ->).
    apply bnd_go_ev in H. destruct H as (x7 & X7 & H & ->). cbn [ret snd] in H. injection H as <-.
    assert (E1 : forall (b : bool) (x : reader) y, fst (if b then ret x else build okr y) = []) by (intros [] ? ?; rewrite ?BE; reflexivity).
    assert (E2 : forall (b : bool) (x : reader) y, fst (if b then build okr y else ret x) = []) by (intros [] ? ?; rewrite ?BE; reflexivity).
    assert (E3 : forall k, fst (opt_bool pbool vm k) = []).
    { intro k. unfold opt_bool. destruct (given vm k); [ apply QB; [ apply OE | reflexivity ] | reflexivity ]. }
    assert (E4 : fst (levels pdbls vm) = []).
    { unfold levels. destruct (opt_text vm _); [ reflexivity | ]. destruct (opt_text vm _); [ reflexivity | ].
      destruct (opt_text vm _); [ apply QB; [ apply OE | reflexivity ] | reflexivity ]. }
    rewrite E1, E2, !E3, E4, BE. cbn [List.app ret fst]. rewrite app_nil_r. reflexivity.
  - intros H A. rewrite <- itarget_asks in A. unfold interpolator in H |- *. destruct (itarget _ _ _ _ vm) as [ a | ] eqn:I; [ | discriminate ].
    apply bnd_go_ev in H. destruct H as (x1 & X1 & H & ->). apply bnd_go_ev in H. destruct H as (x2 & X2 & H & ->).
    apply bnd_go_ev in H. destruct H as (x3 & X3 & H & ->). apply bnd_go_ev in H. destruct H as (x4 & X4 & H & ->).
    apply bnd_go_ev in H. destruct H as (x5 & X5 & H & ->). cbn [ret snd] in H. injection H as <-.
    assert (E1 : fst a = []).
    { unfold itarget in I. destruct (opt_text vm _) as [ p | ].
      - injection I as <-. unfold projection. destruct (_ && _); [ | reflexivity ]. apply QB; [ | reflexivity ].
        destruct (given vm _); [ apply QB; [ apply OE | reflexivity ] | reflexivity ].
      - destruct (given vm _); [ injection I as <-; reflexivity | ]. destruct (given vm _).
        + injection I as <-. unfold cross_sections. destruct (_ && _); [ | reflexivity ]. cbv zeta.
          apply QB; [ apply OE | intro ]. apply QB; [ apply OE | intro ]. apply QB; [ apply OE | intro ].
          destruct (negb _); [ reflexivity | ]. destruct (negb _); [ reflexivity | ]. destruct (negb _); [ reflexivity | ].
          apply QB; [ apply OE | reflexivity ].
        + destruct (given vm _); [ | discriminate ]. injection I as <-. destruct (given vm _); [ | reflexivity ].
          apply QB; [ apply OE | intro ]. apply QB; [ apply OE | reflexivity ]. }
    assert (E2 : forall k, fst (opt_proc pproc vm k) = []).
    { intro k. unfold opt_proc. destruct (opt_text vm k) as [ t | ]; [ destruct (pproc t) | ]; reflexivity. }
    rewrite E1, !E2, BE. cbn [List.app ret fst]. rewrite app_nil_r. reflexivity.
Qed.

(** *** Findings *)
(** Finding: an end of the time span without a start is ignored (fimex.cc:482 tests the start twice);
    the whole time axis is written *)
Theorem C109_time_end_refuted : forall n vm r0 k v,
  k = "extract.reduceTime.end" ->
  (forall k', k' <> k -> vm k' = None) -> vm k = Some [v] ->
  tasks' (S n) vm r0 = ([], Go r0).
Proof.
  intros n vm r0 k v -> O _.
  assert (N : forall k', k' <> "extract.reduceTime.end" -> given vm k' = false)
    by (intros k' D; unfold given; rewrite (O k' D); reflexivity).
  assert (V : forall k', k' <> "extract.reduceTime.end" -> value vm k' = "")
    by (intros k' D; unfold value; rewrite (O k' D); reflexivity).
  assert (PS : forall st r, (st ++ ".printNcML" <> "extract.reduceTime.end")%string ->
    (st ++ ".printCS" <> "extract.reduceTime.end")%string ->
    (st ++ ".printSize" <> "extract.reduceTime.end")%string ->
    print_statements writable st vm r = ([], Go tt)).
  { intros st r D1 D2 D3. unfold print_statements, opt_text. rewrite !N by assumption. reflexivity. }
  cbn [tasks].
  assert (X1 : processor' vm r0 = ([], Go r0))
    by (unfold processor; rewrite !N by discriminate; reflexivity).
  assert (X2 : quality' "" vm r0 = ([], Go r0)).
  { unfold quality. cbv zeta. rewrite !V by discriminate. cbn [String.eqb negb orb].
    unfold bnd. cbn [ret fst snd]. rewrite PS by discriminate. reflexivity. }
  assert (X3 : extractor' vm r0 = ([], Go r0))
    by (unfold extractor; rewrite !N by discriminate; reflexivity).
  assert (X4 : time_interpolator okr writable vm r0 = ([], Go r0))
    by (unfold time_interpolator, opt_text; rewrite !N by discriminate; reflexivity).
  assert (X5 : interpolator' vm r0 = ([], Go r0))
    by (unfold interpolator, itarget, opt_text; rewrite !N by discriminate; reflexivity).
  assert (X6 : vertical' vm r0 = ([], Go r0))
    by (unfold vertical, opt_text; cbv zeta; rewrite !N, !V by discriminate; reflexivity).
  assert (X7 : merger' n vm r0 = ([], Go r0))
    by (unfold merger; rewrite !N by discriminate; reflexivity).
  assert (X8 : quality' "2" vm r0 = ([], Go r0)).
  { unfold quality. cbv zeta. rewrite !V by discriminate. cbn [String.eqb negb orb].
    unfold bnd. cbn [ret fst snd]. rewrite PS by discriminate. reflexivity. }
  assert (X9 : ncml okr writable vm r0 = ([], Go r0))
    by (unfold ncml; cbv zeta; rewrite !V by discriminate; reflexivity).
  do 8 (rewrite bnd_run with (a := r0);
        [|rewrite ?X1, ?X2, ?X3, ?X4, ?X5, ?X6, ?X7, ?X8; reflexivity]).
  rewrite X1, X2, X3, X4, X5, X6, X7, X8, X9. reflexivity.
Qed.

(** Finding: a configuration of the quality by the status flags of the file is ignored: the program
    looks for autoConfigString, its option is called autoConfString *)
Theorem C109_autoconf_refuted : forall vm s,
  vm "qualityExtract.autoConfigString" = None ->
  value vm "qualityExtract.config" = "" ->
  snd (quality' "" vm s) = Go s \/ snd (quality' "" vm s) = Stop.
Proof.
  intros vm s K C. unfold quality. cbv zeta.
  assert (V : value vm ("qualityExtract" ++ "" ++ ".autoConfigString") = "")
    by (unfold value; cbn; rewrite K; reflexivity).
  change (("qualityExtract" ++ "") ++ ".autoConfigString")%string with "qualityExtract.autoConfigString".
  change (("qualityExtract" ++ "") ++ ".config")%string with "qualityExtract.config".
  change ("qualityExtract" ++ "" ++ ".autoConfigString")%string with "qualityExtract.autoConfigString" in V.
  rewrite V, C. cbn [String.eqb negb orb]. unfold bnd. cbn [ret fst snd].
  unfold print_statements, bnd. destruct (opt_text vm _) as [d|];
    [destruct (String.eqb d "-"); [|destruct (writable d)]|]; cbn [fst snd ret stop]; auto;
    destruct (given vm _); cbn [fst snd ret]; destruct (given vm _); cbn; auto.
Qed.

(** Finding: what process.printNcML, process.printCS and process.printSize ask for is never printed *)
Theorem C109_process_print_refuted : forall vm s, fst (processor' vm s) = [].
Proof.
  intros vm s. unfold processor. destruct (negb _); [reflexivity|].
  unfold rotations. cbv zeta. unfold bnd.
  repeat match goal with |- context [if ?b then _ else _] => destruct b; cbn [fst snd ret stop app] end;
    auto using build_ev; rewrite ?build_ev; reflexivity.
Qed.

(** Finding: levels without a method (or without a type) are ignored; the data keep their levels *)
Theorem C109_no_method_refuted : forall vm s,
  given vm "verticalInterpolate.method" = false \/ given vm "verticalInterpolate.type" = false ->
  value vm "verticalInterpolate.config" = "" ->
  given vm "verticalInterpolate.dataConversion" = false ->
  vertical' vm s = ([], Go s).
Proof.
  intros vm s M C D. unfold vertical, opt_text. cbv zeta. rewrite C, D. cbn [String.eqb].
  unfold bnd. cbn [ret fst snd].
  destruct M as [M|M]; rewrite M; [destruct (given vm "verticalInterpolate.type")|]; reflexivity.
Qed.

(** Finding: longitudes without latitudes are ignored; latitudes without longitudes end the program *)
Theorem C109_half_points_refuted : forall vm s,
  given vm "interpolate.projString" = false -> given vm "interpolate.template" = false ->
  given vm "interpolate.vcrossNames" = false ->
  (given vm "interpolate.latitudeValues" = false -> interpolator' vm s = ([], Go s)) /\
  (given vm "interpolate.latitudeValues" = true -> given vm "interpolate.longitudeValues" = false ->
   snd (interpolator' vm s) = Stop).
Proof.
  intros vm s A B C. unfold interpolator, itarget, opt_text. rewrite A, B, C.
  split; [intros ->; reflexivity|intros -> ->; reflexivity].
Qed.

(** Finding: merge.projString, merge.keepOuterVariables and merge.inner.cfg alone do nothing *)
Theorem C109_merge_ignored_refuted : forall n vm s,
  asks_merge vm = false -> merger' n vm s = ([], Go s).
Proof.
  intros n vm s A. unfold merger.
  replace (given vm "merge.inner.file" || given vm "merge.inner.type" || given vm "merge.inner.config"
           || given vm "merge.smoothing" || given vm "merge.method") with false; [reflexivity|].
  transitivity (asks_merge vm); [symmetry; exact A|].
  unfold asks_merge, any. cbn [existsb]. rewrite !orb_false_r, !orb_assoc. reflexivity.
Qed.

(** Finding: a configuration for the inner file that asks for merging with itself never ends *)
Theorem C109_endless_refuted : forall vm,
  (forall r, okr r = true) ->
  vm "merge.inner.cfg" <> None -> vm "merge.inner.file" <> None ->
  pcfg (values vm "merge.inner.cfg") = Some vm ->
  (forall k, k <> "merge.inner.cfg" -> k <> "merge.inner.file" -> vm k = None) ->
  forall n r, snd (tasks' n vm r) = More.
Proof.
  intros vm OK CF FI PC O.
  assert (N : forall k', k' <> "merge.inner.cfg" -> k' <> "merge.inner.file" -> given vm k' = false)
    by (intros k' D D'; unfold given; rewrite (O k' D D'); reflexivity).
  assert (V : forall k', k' <> "merge.inner.cfg" -> k' <> "merge.inner.file" -> value vm k' = "")
    by (intros k' D D'; unfold value; rewrite (O k' D D'); reflexivity).
  assert (PS : forall st r, In st ["qualityExtract"; "merge.inner"] ->
    print_statements writable st vm r = ([], Go tt)).
  { intros st r I. unfold print_statements, opt_text.
    destruct I as [<-|[<-|[]]]; rewrite !N by discriminate; reflexivity. }
  induction n as [|n IH]; intro r; [reflexivity|]. cbn [tasks].
  assert (X1 : processor' vm r = ([], Go r))
    by (unfold processor; rewrite !N by discriminate; reflexivity).
  assert (X2 : quality' "" vm r = ([], Go r)).
  { unfold quality. cbv zeta. rewrite !V by discriminate. cbn [String.eqb negb orb].
    unfold bnd. cbn [ret fst snd]. rewrite PS by (cbn; auto). reflexivity. }
  assert (X3 : extractor' vm r = ([], Go r))
    by (unfold extractor; rewrite !N by discriminate; reflexivity).
  assert (X4 : time_interpolator okr writable vm r = ([], Go r))
    by (unfold time_interpolator, opt_text; rewrite !N by discriminate; reflexivity).
  assert (X5 : interpolator' vm r = ([], Go r))
    by (unfold interpolator, itarget, opt_text; rewrite !N by discriminate; reflexivity).
  assert (X6 : vertical' vm r = ([], Go r))
    by (unfold vertical, opt_text; cbv zeta; rewrite !N, !V by discriminate; reflexivity).
  assert (X7 : snd (merger' n vm r) = More).
  { unfold merger.
    assert (GF : given vm "merge.inner.file" = true)
      by (unfold given; destruct (vm "merge.inner.file"); [reflexivity|congruence]).
    assert (GC : given vm "merge.inner.cfg" = true)
      by (unfold given; destruct (vm "merge.inner.cfg"); [reflexivity|congruence]).
    assert (FR : exists f, file_reader okr writable "merge.inner" vm = ([], Go f)).
    { eexists. unfold file_reader, build. rewrite OK. unfold bnd. cbn [ret fst snd].
      rewrite PS by (cbn; auto). reflexivity. }
    destruct FR as [f FR].
    rewrite GF, GC, PC, FR. cbn [orb negb]. unfold bnd at 1. cbn [fst snd].
    unfold bnd at 1. unfold bnd at 1. cbn [ofopt ret fst snd].
    rewrite IH. reflexivity. }
  assert (BF : forall (x : act reader) (f : reader -> act reader), x = ([], Go r) -> snd (bnd x f) = snd (f r))
    by (intros x f ->; reflexivity).
  rewrite BF by exact X1. rewrite BF by exact X2. rewrite BF by exact X3. rewrite BF by exact X4.
  rewrite BF by exact X5. rewrite BF by exact X6. unfold bnd at 1. rewrite X7. reflexivity.
Qed.

(** Finding: asking with the text "false" for the vertical velocity still adds it *)
Theorem C109_added_anyway_refuted : forall vm s r,
  vm "process.addVerticalVelocity" = Some ["false"] ->
  snd (processor' vm s) = Go r ->
  exists calls, r = Rproc s calls /\ In AddVerticalVelocity calls.
Proof.
  intros vm s r V H. unfold processor in H.
  assert (G : given vm "process.addVerticalVelocity" = true) by (unfold given; rewrite V; reflexivity).
  rewrite G in H. rewrite orb_true_r in H. cbn [orb negb] in H.
  apply bnd_go in H. destruct H as (rot & _ & H). apply build_go in H. destruct H as [-> _].
  eexists. split; [reflexivity|]. apply in_or_app. right. apply in_or_app. right. apply in_or_app. right.
  cbn. auto.
Qed.

End Statements.

(** *** The names of the methods *)
Definition method_names : list (string * imethod) :=
  [("nearestneighbor", NearestNeighbor); ("bilinear", Bilinear); ("bicubic", Bicubic);
   ("coord_nearestneighbor", CoordNN); ("coord_kdtree", CoordKD);
   ("forward_sum", ForwardSum); ("forward_mean", ForwardMean); ("forward_median", ForwardMedian);
   ("forward_max", ForwardMax); ("forward_min", ForwardMin);
   ("forward_undef_sum", ForwardUndefSum); ("forward_undef_mean", ForwardUndefMean);
   ("forward_undef_median", ForwardUndefMedian); ("forward_undef_max", ForwardUndefMax)].

(** the documented names stand for their methods, every other text for the nearest neighbour;
    without a method it is the nearest neighbour too *)
Theorem C109_methods : forall vm k,
  (forall nm m, In (nm, m) method_names -> vm k = Some [nm] -> method_given vm k = m) /\
  (vm k = None -> method_given vm k = NearestNeighbor) /\
  (forall t, vm k = Some [t] -> ~ In t (map fst method_names) -> t <> "forward_undef_min" ->
     method_given vm k = NearestNeighbor).
Proof.
  intros vm k. unfold method_given, given, value. split; [|split].
  - intros nm m I ->. cbn in I.
    repeat (destruct I as [I|I]; [injection I as <- <-; reflexivity|]). destruct I.
  - intros ->. reflexivity.
  - intros t -> N U. unfold method_of.
    repeat match goal with
           | |- context [String.eqb ?a t] =>
               destruct (String.eqb_spec a t);
               [exfalso; subst; first [apply U; reflexivity | apply N; cbn; repeat (first [left; reflexivity | right])]|]
           end. reflexivity.
Qed.

(** Finding: forward_undef_min stands for forward_min: undefined values are skipped *)
Theorem C109_undef_min_refuted : forall vm k,
  vm k = Some ["forward_undef_min"] -> method_given vm k = ForwardMin.
Proof. intros vm k H. unfold method_given, given, value. rewrite H. reflexivity. Qed.

(** Finding: a negative position becomes a very large one *)
Theorem C109_negative_refuted : set_of [(-1)%Z; 2%Z] = [2%N; (2 ^ 64 - 1)%N].
Proof. reflexivity. Qed.

(** a call with all kinds of steps *)
Definition ex_list : list (string * list string) :=
  [("input.file", ["in.nc"]); ("input.type", ["nc4"]); ("output.file", ["out.nc"]);
   ("output.type", ["nc4"]); ("output.printCS", []);
   ("process.accumulateVariable", ["rain"]); ("process.addVerticalVelocity", ["1"]);
   ("extract.reduceDimension.name", ["x"; "y"]); ("extract.reduceDimension.start", ["0"; "0"]);
   ("extract.reduceDimension.end", ["0"; "5"]); ("extract.selectVariables", ["rain"; "temp"]);
   ("timeInterpolate.timeSpec", ["0,3,...,x"]);
   ("interpolate.vcrossNames", ["a,b"]); ("interpolate.vcrossNoPoints", ["1,2"]);
   ("interpolate.latitudeValues", ["la"]); ("interpolate.longitudeValues", ["lo"]);
   ("interpolate.method", ["bilinear"]);
   ("verticalInterpolate.type", ["pressure"]); ("verticalInterpolate.method", ["log"]);
   ("verticalInterpolate.level1", ["lv"]);
   ("merge.inner.file", ["inner.nc"]); ("ncml.config", ["c.ncml"])].
Definition ex_vm : vset := fun k =>
  match find (fun e => String.eqb (fst e) k) ex_list with Some e => Some (snd e) | None => None end.
Definition ex_ints (t : string) : option Z := if String.eqb t "5" then Some 5%Z else Some 0%Z.
Definition ex_dbls (t : string) : option (list Q) :=
  if String.eqb t "la" then Some [60#1; 61#1; 62#1] else if String.eqb t "lo" then Some [10#1; 11#1; 12#1]
  else Some [850#1; 500#1].
Definition ex_run :=
  program (fun _ => true) (fun _ => true) (fun _ _ => true) ex_ints (fun _ => None) (fun _ => None)
    (fun _ => None) (fun _ => None) (fun _ => Some [1%N; 2%N]) ex_dbls (fun _ => ["a"; "b"])
    (fun _ => true) (fun _ => None) 1 false ex_vm.

Example C109_nonvacuous :
  known_options ex_vm /\
  status ex_run = Some 0 /\
  asked ex_vm = ["process"; "extract"; "time"; "interpolate"; "vertical"; "merge"; "ncml"] /\
  exists r, fst ex_run = [PrintCS "output" r; Write "nc4" "out.nc" "" r] /\ steps r = asked ex_vm /\
  exists s1 s2 s3 lat lon pre post inner,
    r = Rncml (Rmerge inner (Rvert (Rinterp (Rtime (Rextr s1 s2) s3) lat lon pre post Bilinear
          (ToSections [("a", [(10#1, 60#1)]); ("b", [(11#1, 61#1); (12#1, 62#1)])]))
          "pressure" "log" (ToLevels [850#1; 500#1]) None None) None false NearestNeighbor InnerGrid) "c.ncml" /\
    s2 = [ReduceFirst "x"; ReduceStartEnd "y" 0 5; SelectVariables ["rain"; "temp"] true].
Proof.
  split; [repeat split|]. split; [reflexivity|]. split; [reflexivity|].
  eexists. split; [reflexivity|]. split; [reflexivity|].
  do 8 eexists. split; reflexivity.
Qed.

Print Assumptions C109_steps.
Print Assumptions C109_process.
Print Assumptions C109_extract.
Print Assumptions C109_dimensions.
Print Assumptions C109_unpaired.
Print Assumptions C109_positions.
Print Assumptions C109_picked.
Print Assumptions C109_box.
Print Assumptions C109_ranges.
Print Assumptions C109_target.
Print Assumptions C109_sections.
Print Assumptions C109_levels.
Print Assumptions C109_merge.
Print Assumptions C109_output.
Print Assumptions C109_failed.
Print Assumptions C109_help.
Print Assumptions C109_printed.
Print Assumptions C109_print_steps.
Print Assumptions C109_methods.
Print Assumptions C109_time_end_refuted.
Print Assumptions C109_autoconf_refuted.
Print Assumptions C109_process_print_refuted.
Print Assumptions C109_no_method_refuted.
Print Assumptions C109_half_points_refuted.
Print Assumptions C109_merge_ignored_refuted.
Print Assumptions C109_endless_refuted.
Print Assumptions C109_added_anyway_refuted.
Print Assumptions C109_undef_min_refuted.
Print Assumptions C109_negative_refuted.
Print Assumptions C109_nonvacuous.
Print Assumptions C109_arguments.
Print Assumptions C109_print_after.
