(** C122: loggers and logger classes. *)
From Coq Require Import ZArith NArith PeanoNat String Ascii List Bool Lia.
From Verif Require Import Base LgrModel.
Import ListNotations.
Local Open Scope string_scope.
Local Open Scope list_scope.
Local Open Scope nat_scope.

Section Log.
Variable have : bool.
Variable root : Z.
Variable other : nat -> string -> Z -> bool.

Notation step := (step have root other).
Notation run_ops := (run_ops have root other).

(** ** What a program should see: loggers without objects behind them, one class or none *)
Record spec := mkS { s_logger : nat -> option (string * bool);   (* name; has an object of the class *)
                     s_count : nat; s_class : option kind; s_level : Z; s_prio : Z; s_out : list event }.
Definition kdef : kind := if have then Log4cpp else Stderr.
Definition pdef (level prio : Z) : Z := if have then configure root level prio else prio.
Definition s_ensure (s : spec) : spec :=
  match s_class s with
  | Some _ => s
  | None => mkS (s_logger s) (s_count s) (Some kdef) (s_level s) (pdef (s_level s) (s_prio s)) (s_out s)
  end.
Definition s_mark (l : nat) (b : bool) (s : spec) : spec :=
  mkS (fun j => if j =? l then option_map (fun p => (fst p, b)) (s_logger s j) else s_logger s j)
    (s_count s) (s_class s) (s_level s) (s_prio s) (s_out s).
Definition s_use (l : nat) (s : spec) : spec := s_mark l true (s_ensure s).
Definition s_any (s : spec) : bool :=
  existsb (fun l => match s_logger s l with Some (_, b) => b | None => false end) (seq 0 (s_count s)).
Definition s_set (lc : option kind) (s : spec) : spec :=
  let any := s_any s in
  let s := mkS (fun l => option_map (fun p => (fst p, false)) (s_logger s l)) (s_count s) lc (s_level s) (s_prio s) (s_out s) in
  if any then s_ensure s else s.
Definition s_emit (e : list event) (s : spec) : spec :=
  mkS (s_logger s) (s_count s) (s_class s) (s_level s) (s_prio s) (s_out s ++ e).
Definition s_name (l : nat) (s : spec) : string := match s_logger s l with Some (n, _) => n | None => "" end.
Definition s_kind (s : spec) : kind := match s_class s with Some k => k | None => kdef end.
Definition s_enabled (l : nat) (level : Z) (s : spec) : bool :=
  enabled root other (s_kind s) (s_name l s) (s_level s) (s_prio s) level.
Definition s_written (l : nat) (level : Z) (message file : string) (line : N) (s : spec) : list event :=
  written root other (s_kind s) (s_name l s) (s_level s) (s_prio s) level message file line.
Definition s_log (lc : log_class) (s : spec) : bool * spec :=
  match lc with
  | LOG4CPP => (have, s_set (Some kdef) (mkS (s_logger s) (s_count s) (s_class s) (s_level s) (pdef (s_level s) (s_prio s)) (s_out s)))
  | LOG2STDERR => (true, s_set (Some Stderr) s)
  end.
Definition s_with_level (z : Z) (s : spec) : spec := mkS (s_logger s) (s_count s) (s_class s) z (s_prio s) (s_out s).
Definition s_step (s : spec) (o : op) : spec :=
  match o with
  | New name => mkS (fun j => if j =? s_count s then Some (name, false) else s_logger s j) (S (s_count s))
                  (s_class s) (s_level s) (s_prio s) (s_out s)
  | Drop l => mkS (fun j => if j =? l then None else s_logger s j) (s_count s) (s_class s) (s_level s) (s_prio s) (s_out s)
  | Enabled l level => let s := s_use l s in s_emit [Answer (s_enabled l level s)] s
  | Log l level m f n => let s := s_use l s in if s_enabled l level s then s_emit (s_written l level m f n s) s else s
  | Forced l level m f n => let s := s_use l s in s_emit (s_written l level m f n s) s
  | Reset l => s_mark l false s
  | SetClass lc => let '(b, s) := s_log lc s in s_emit [Answer b] s
  | SetPtr k => s_emit [Answer match k with Some _ => true | None => false end] (s_set k s)
  | SetLevel z => s_with_level z s
  | CLevel z => snd (s_log LOG4CPP (s_with_level z s))
  end.
Definition s_start : spec := mkS (fun _ => None) 0 None WARN NOTSET [].
Definition s_run (ops : list op) (s : spec) : spec := fold_left s_step ops s.

(** a program uses only loggers it has *)
Definition touches (o : op) : option nat :=
  match o with Drop l | Enabled l _ | Log l _ _ _ _ | Forced l _ _ _ _ | Reset l => Some l | _ => None end.
Definition legal_op (s : spec) (o : op) : Prop := forall l, touches o = Some l -> s_logger s l <> None.
Fixpoint legal (s : spec) (ops : list op) : Prop :=
  match ops with [] => True | o :: r => legal_op s o /\ legal (s_step s o) r end.

(** ** The invariant *)
Definition bound (w : world) (l : nat) (n : string) (i : nat) : Prop := w_loggers w l = Some (mkL n (Some i)).
Definition used (w : world) (l : nat) : Prop := exists n i, bound w l n i.
(** objects: each of one logger only, all of class k *)
Record objects (w : world) (k : kind) : Prop := mkO {
  o_lock : w_locked w = false;
  o_next : forall l, w_next w <= l -> w_loggers w l = None;
  o_cnext : forall c, w_cnext w <= c -> w_classes w c = None;
  o_inext : forall i, w_inext w <= i -> w_impls w i = None;
  o_live : forall l n i, bound w l n i -> w_impls w i = Some (k, n);
  o_inj : forall l l' n n' i, bound w l n i -> bound w l' n' i -> l = l';
  o_own : forall i x, w_impls w i = Some x -> exists l n, bound w l n i }.
(** the class k with the loggers ls *)
Definition lists (w : world) (ls : list nat) : Prop := NoDup ls /\ forall l, In l ls <-> used w l.
Definition inv (w : world) : Prop :=
  (forall c x, w_classes w c = Some x -> w_current w = Some c) /\
  match w_current w with
  | None => (exists k, objects w k) /\ forall l, ~ used w l
  | Some c => exists k ls, w_classes w c = Some (k, ls) /\ objects w k /\ lists w ls
  end.
(** while class o is deleted: the loggers ls are left *)
Definition dinv (o : nat) (k : kind) (ls : list nat) (w : world) : Prop :=
  objects w k /\ lists w ls /\ w_classes w o = Some (k, []) /\
  (forall c x, w_classes w c = Some x -> c = o \/ w_current w = Some c) /\
  (forall c, w_current w = Some c -> c <> o /\ exists k', w_classes w c = Some (k', [])).

Definition same (w : world) (s : spec) : Prop :=
  (forall l, s_logger s l = option_map (fun g => (l_name g, match l_impl g with Some _ => true | None => false end)) (w_loggers w l)) /\
  s_count s = w_next w /\
  s_class s = match w_current w with None => None | Some c => option_map fst (w_classes w c) end /\
  s_level s = w_level w /\ s_prio s = w_prio w /\ s_out s = w_out w.

(** ** The functions, where they do not fail *)
Definition ensure (w : world) : world :=
  match w_current w with
  | Some _ => w
  | None => mkW (w_loggers w) (w_next w) (fset (w_classes w) (w_cnext w) (Some (kdef, []))) (S (w_cnext w)) (w_impls w) (w_inext w)
              (Some (w_cnext w)) (w_level w) (pdef (w_level w) (w_prio w)) (w_locked w) (w_out w)
  end.
Lemma get_class_ok : forall f w, w_locked w = false ->
  exists c, get_class have root (set_ptr have root (S f)) w = Ok (c, ensure w) /\ w_current (ensure w) = Some c.
Proof.
  intros f [lg n cs cn im inx cur lv pr lk out] L. cbn in L. subst lk. unfold get_class, ensure. cbn [w_current].
  destruct cur as [c|]; [exists c; split; reflexivity|]. exists cn.
  unfold set_log, kdef, pdef. destruct have; split; reflexivity.
Qed.
Lemma reset_unused : forall setp l w n, w_locked w = false -> w_loggers w l = Some (mkL n None) -> reset have root setp l w = Ok w.
Proof.
  intros setp l [lg nx cs cn im inx cur lv pr lk out] n L H. cbn in L, H. subst lk. unfold reset, lock. cbn. rewrite H. reflexivity.
Qed.
Definition unbind (c : nat) (k : kind) (ls : list nat) (l : nat) (n : string) (i : nat) (w : world) : world :=
  mkW (fset (w_loggers w) l (Some (mkL n None))) (w_next w)
    (fset (w_classes w) c (Some (k, filter (fun x => negb (x =? l)) ls))) (w_cnext w)
    (fset (w_impls w) i None) (w_inext w) (w_current w) (w_level w) (w_prio w) (w_locked w) (w_out w).
Lemma reset_used : forall f l w n i c k ls, w_locked w = false -> bound w l n i -> w_impls w i <> None ->
  w_current (ensure w) = Some c -> w_classes (ensure w) c = Some (k, ls) ->
  reset have root (set_ptr have root (S f)) l w = Ok (unbind c k ls l n i (ensure w)).
Proof.
  intros f l w n i c k ls L B I C K. unfold bound in B. destruct (get_class_ok f w L) as (c' & G & C').
  assert (c' = c) by congruence. subst c'.
  unfold reset. unfold lock at 1. rewrite L. cbn [obind]. unfold with_locked at 1. cbn [w_loggers]. rewrite B. cbn [rd obind l_impl].
  unfold unlock at 1. cbn [w_locked with_locked obind].
  replace (with_locked (with_locked w true) false) with w by (destruct w; cbn in L; subst; reflexivity).
  rewrite G. cbn [obind]. unfold forget.
  assert (E1 : w_locked (ensure w) = false) by (unfold ensure; destruct (w_current w); exact L).
  assert (E2 : w_loggers (ensure w) = w_loggers w) by (unfold ensure; destruct (w_current w); reflexivity).
  assert (E3 : w_impls (ensure w) = w_impls w) by (unfold ensure; destruct (w_current w); reflexivity).
  rewrite <- E2 in B. rewrite <- E3 in I. revert E1 B I C K. generalize (ensure w). clear.
  intros [lg nx cs cn im inx cur lv pr lk out]. cbn. intros -> B I -> K. unfold lock. cbn. rewrite K. cbn. rewrite B. cbn.
  destruct (im i); [reflexivity|contradiction].
Qed.

Lemma fset_same : forall A (f : nat -> option A) i x, fset f i x i = x.
Proof. intros. unfold fset. rewrite Nat.eqb_refl. reflexivity. Qed.
Lemma fset_other : forall A (f : nat -> option A) i x j, j <> i -> fset f i x j = f j.
Proof. intros A f i x j H. unfold fset. apply Nat.eqb_neq in H. rewrite H. reflexivity. Qed.

(** objects after one logger has lost its object *)
Lemma objects_unbind : forall w k c k' ls l n i, objects w k -> bound w l n i -> c < w_cnext w ->
  objects (unbind c k' ls l n i w) k.
Proof.
  intros w k c k' ls l n i [L N C I LV J O] B CC.
  assert (BB : forall x m j, bound (unbind c k' ls l n i w) x m j -> bound w x m j /\ x <> l).
  { intros x m j H. unfold bound, unbind in H. cbn [w_loggers] in H. destruct (Nat.eq_dec x l) as [->|X].
    - rewrite fset_same in H. discriminate.
    - rewrite fset_other in H by exact X. split; [exact H|exact X]. }
  constructor; cbn [w_locked w_next w_loggers w_cnext w_classes w_inext w_impls unbind].
  - exact L.
  - intros x H. rewrite fset_other; [apply N; exact H|]. intros ->. unfold bound in B. rewrite (N _ H) in B. discriminate.
  - intros x H. rewrite fset_other; [apply C; exact H|]. lia.
  - intros x H. unfold fset. destruct (x =? i); [reflexivity|apply I; exact H].
  - intros x m j H. destruct (BB _ _ _ H) as [H' X]. rewrite fset_other; [apply (LV _ _ _ H')|].
    intros ->. apply X. apply (J _ _ _ _ _ H' B).
  - intros x y m m' j H1 H2. apply (J _ _ _ _ _ (proj1 (BB _ _ _ H1)) (proj1 (BB _ _ _ H2))).
  - intros j x H. destruct (Nat.eq_dec j i) as [->|X]; [rewrite fset_same in H; discriminate|].
    rewrite fset_other in H by exact X. destruct (O _ _ H) as (y & m & Y). exists y, m. unfold bound, unbind. cbn [w_loggers].
    rewrite fset_other; [exact Y|]. intros ->. unfold bound in *. congruence.
Qed.
Lemma used_unbind : forall w c k' ls l n i x, used (unbind c k' ls l n i w) x <-> used w x /\ x <> l.
Proof.
  intros. unfold used, bound, unbind. cbn [w_loggers]. split.
  - intros (m & j & H). destruct (Nat.eq_dec x l) as [->|X]; [rewrite fset_same in H; discriminate|].
    rewrite fset_other in H by exact X. split; [exists m, j; exact H|exact X].
  - intros [(m & j & H) X]. exists m, j. rewrite fset_other by exact X. exact H.
Qed.
Lemma objects_ensure : forall w k, objects w k -> objects (ensure w) k.
Proof.
  intros w k H. unfold ensure. destruct (w_current w); [exact H|]. destruct H as [L N C I LV J O].
  constructor; try assumption. cbn [w_cnext w_classes]. intros c X. rewrite fset_other by lia. apply C. lia.
Qed.
Lemma used_ensure : forall w l, used (ensure w) l <-> used w l.
Proof. intros. unfold used, bound, ensure. destruct (w_current w); reflexivity. Qed.

Lemma filter_not : forall l ls, NoDup (l :: ls) -> filter (fun x => negb (x =? l)) ls = ls.
Proof.
  intros l ls H. inversion H as [|? ? X Y]. subst. clear H Y. induction ls as [|a ls IH]; [reflexivity|]. cbn [filter].
  destruct (Nat.eqb_spec a l) as [->|E]; [exfalso; apply X; left; reflexivity|]. cbn [negb]. rewrite IH; [reflexivity|].
  intros Z. apply X. right. exact Z.
Qed.

(** ** Deleting a class *)
Lemma dinv_step : forall o k l ls w, dinv o k (l :: ls) w ->
  exists w', reset have root (set_ptr have root 1) l w = Ok w' /\ dinv o k ls w' /\
    w_current w' = w_current (ensure w) /\
    (forall c, w_current w' = Some c -> w_classes w' c = w_classes (ensure w) c) /\
    w_next w' = w_next w /\ w_level w' = w_level w /\ w_prio w' = w_prio (ensure w) /\ w_out w' = w_out w /\
    (forall x, option_map l_name (w_loggers w' x) = option_map l_name (w_loggers w x)).
Proof.
  intros o k l ls w (O & [ND U] & K & CL & CU).
  assert (UL : used w l) by (apply U; left; reflexivity). destruct UL as (n & i & B).
  assert (LK := o_lock _ _ O). destruct (get_class_ok 0 w LK) as (c & _ & C).
  assert (OC : o < w_cnext w). { destruct (Nat.lt_ge_cases o (w_cnext w)); [assumption|]. rewrite (o_cnext _ _ O) in K by assumption. discriminate. }
  assert (KE : c <> o /\ exists k', w_classes (ensure w) c = Some (k', [])).
  { unfold ensure in *. destruct (w_current w) as [d|] eqn:E.
    - apply CU. congruence.
    - cbn [w_current w_classes] in *. injection C as <-. split; [lia|]. rewrite fset_same. eexists. reflexivity. }
  destruct KE as (CO & k' & KE).
  assert (EO : objects (ensure w) k) by (apply objects_ensure; exact O).
  assert (BE : bound (ensure w) l n i) by (unfold bound, ensure in *; destruct (w_current w); exact B).
  exists (unbind c k' [] l n i (ensure w)). split; [apply reset_used; try assumption|].
  { rewrite (o_live _ _ O _ _ _ B). discriminate. }
  assert (CC : c < w_cnext (ensure w)). { destruct (Nat.lt_ge_cases c (w_cnext (ensure w))); [assumption|]. rewrite (o_cnext _ _ EO) in KE by assumption. discriminate. }
  split; [|repeat split].
  - split; [apply objects_unbind; assumption|]. split; [|split; [|split]].
    + split; [inversion ND; assumption|]. intros x. rewrite used_unbind, used_ensure, <- U. cbn [In]. inversion ND; subst.
      split; [intros H; split; [right; exact H|intros ->; contradiction]|intros [[->|H] X]; [contradiction|exact H]].
    + cbn [w_classes unbind]. rewrite fset_other by congruence. unfold ensure. destruct (w_current w); [exact K|].
      cbn [w_classes]. rewrite fset_other by lia. exact K.
    + cbn [w_classes w_current unbind]. intros d x H. destruct (Nat.eq_dec d c) as [->|D]; [right; exact C|].
      rewrite fset_other in H by exact D. left. unfold ensure in *. destruct (w_current w) as [e|] eqn:E.
      * destruct (CL _ _ H) as [X|X]; [exact X|]. congruence.
      * cbn [w_classes w_current] in *. rewrite fset_other in H by congruence.
        destruct (CL _ _ H) as [X|X]; [exact X|discriminate].
    + cbn [w_classes w_current unbind]. intros d D. assert (d = c) by congruence. subst d. split; [exact CO|].
      exists k'. rewrite fset_same. reflexivity.
  - cbn [w_classes w_current unbind]. intros d D. assert (d = c) by congruence. subst d. rewrite fset_same, KE. reflexivity.
  - unfold unbind, ensure. destruct (w_current w); reflexivity.
  - unfold unbind, ensure. destruct (w_current w); reflexivity.
  - unfold unbind, ensure. destruct (w_current w); reflexivity.
  - intros x. cbn [w_loggers unbind]. unfold fset. destruct (Nat.eqb_spec x l) as [->|X].
    + unfold bound in B. rewrite B. reflexivity.
    + unfold ensure. destruct (w_current w); reflexivity.
Qed.
Lemma ensure_some : forall w c, w_current w = Some c -> ensure w = w.
Proof. intros w c H. unfold ensure. rewrite H. reflexivity. Qed.

Lemma dinv_all : forall o k ls w, dinv o k ls w ->
  exists w', ofold (fun w l => reset have root (set_ptr have root 1) l w) ls w = Ok w' /\ dinv o k [] w' /\
    (let e := match ls with [] => w | _ => ensure w end in
     w_current w' = w_current e /\
     (forall c, w_current w' = Some c -> w_classes w' c = w_classes e c) /\
     w_next w' = w_next w /\ w_level w' = w_level w /\ w_prio w' = w_prio e /\ w_out w' = w_out w /\
     (forall x, option_map l_name (w_loggers w' x) = option_map l_name (w_loggers w x))).
Proof.
  intros o k. induction ls as [|l ls IH]; intros w D.
  - exists w. split; [reflexivity|]. split; [exact D|]. repeat split.
  - destruct (dinv_step o k l ls w D) as (w1 & E & D1 & C1 & K1 & N1 & L1 & P1 & O1 & G1).
    destruct (get_class_ok 0 w (o_lock _ _ (proj1 D))) as (c & _ & C).
    destruct (IH w1 D1) as (w' & E' & D' & H). exists w'. cbn [ofold]. rewrite E. cbn [obind]. split; [exact E'|]. split; [exact D'|].
    assert (EE : match ls with [] => w1 | _ => ensure w1 end = w1).
    { destruct ls; [reflexivity|]. apply (ensure_some w1 c). congruence. }
    cbv zeta in H. rewrite EE in H. destruct H as (H1 & H2 & H3 & H4 & H5 & H6 & H7). cbv zeta. repeat split; try congruence.
    intros d Dd. rewrite (H2 d Dd). apply K1. congruence.
Qed.

Definition swapped (lc : option kind) (w : world) : world :=
  mkW (w_loggers w) (w_next w)
    (match lc with None => w_classes w | Some k => fset (w_classes w) (w_cnext w) (Some (k, [])) end)
    (match lc with None => w_cnext w | Some _ => S (w_cnext w) end) (w_impls w) (w_inext w)
    (match lc with None => None | Some _ => Some (w_cnext w) end) (w_level w) (w_prio w) (w_locked w) (w_out w).
Lemma set_ptr_eq : forall f lc w, w_locked w = false -> set_ptr have root (S f) lc w =
  match w_current w with None => Ok (swapped lc w) | Some o => delete_class have root (set_ptr have root f) o (swapped lc w) end.
Proof.
  intros f lc [lg n cs cn im inx cur lv pr lk out] L. cbn in L. subst lk. destruct lc; reflexivity.
Qed.
Lemma delete_eq : forall f o k ls w, w_locked w = false -> w_classes w o = Some (k, ls) ->
  delete_class have root (set_ptr have root f) o w =
  (do w' <- ofold (fun w l => reset have root (set_ptr have root f) l w) ls (with_classes w (fset (w_classes w) o (Some (k, []))));
   Ok (with_classes w' (fset (w_classes w') o None))).
Proof.
  intros f o k ls [lg n cs cn im inx cur lv pr lk out] L K. cbn in L, K. subst lk. unfold delete_class, lock.
  cbn [w_locked obind with_locked w_classes]. rewrite K. reflexivity.
Qed.
Lemma any_used : forall w s, same w s -> (forall l, w_next w <= l -> w_loggers w l = None) ->
  (s_any s = true <-> exists l, used w l).
Proof.
  intros w s (G & N & _) F. unfold s_any. rewrite existsb_exists. split.
  - intros (l & _ & H). exists l. rewrite G in H. unfold used, bound. destruct (w_loggers w l) as [[n [i|]]|]; cbn in H; try discriminate.
    exists n, i. reflexivity.
  - intros (l & n & i & H). exists l. unfold bound in H. rewrite G, H. split; [|reflexivity]. apply in_seq. rewrite N.
    destruct (Nat.lt_ge_cases l (w_next w)) as [X|X]; [lia|]. rewrite (F _ X) in H. discriminate.
Qed.
Lemma objects_none : forall w k, objects w k -> (forall l, ~ used w l) -> forall k', objects w k'.
Proof.
  intros w k [L N C I LV J O] U k'. constructor; try assumption. intros l n i B. exfalso. apply (U l). exists n, i. exact B.
Qed.
Lemma inv_lock : forall w, inv w -> w_locked w = false /\ (forall l, w_next w <= l -> w_loggers w l = None).
Proof.
  intros w [_ H]. destruct (w_current w) as [c|]; [destruct H as (k & ls & _ & O & _)|destruct H as [[k O] _]]; split; apply O.
Qed.
Lemma set_ok : forall lc w s, inv w -> same w s ->
  exists w', ptr have root lc w = Ok w' /\ inv w' /\ same w' (s_set lc s).
Proof.
  intros lc w s IV SM. destruct (inv_lock w IV) as [LK NX]. assert (AU := any_used w s SM NX). destruct IV as [CL IV].
  unfold ptr. rewrite set_ptr_eq by exact LK. destruct SM as (G & N & C & LV & P & OU).
  destruct (w_current w) as [o|] eqn:CU.
  - destruct IV as (k & ls & K & O & [ND U]).
    assert (OC : o < w_cnext w). { destruct (Nat.lt_ge_cases o (w_cnext w)); [assumption|]. rewrite (o_cnext _ _ O) in K by assumption. discriminate. }
    rewrite (delete_eq 1 o k ls (swapped lc w)); [|exact LK|cbn [swapped w_classes]; destruct lc; [rewrite fset_other by lia|]; exact K].
    set (w1 := mkW (w_loggers w) (w_next w)
      (fset (match lc with None => w_classes w | Some k => fset (w_classes w) (w_cnext w) (Some (k, [])) end) o (Some (k, [])))
      (match lc with None => w_cnext w | Some _ => S (w_cnext w) end) (w_impls w) (w_inext w)
      (match lc with None => None | Some _ => Some (w_cnext w) end) (w_level w) (w_prio w) (w_locked w) (w_out w)).
    change (with_classes (swapped lc w) _) with w1.
    assert (D : dinv o k ls w1).
    { subst w1. destruct O as [O1 O2 O3 O4 O5 O6 O7]. split; [|split; [|split; [|split]]].
      - constructor; try assumption. cbn [w_cnext w_classes]. intros c X. rewrite fset_other by (destruct lc; lia).
        destruct lc; [rewrite fset_other by lia; apply O3; lia|apply O3; lia].
      - split; [exact ND|exact U].
      - cbn [w_classes]. rewrite fset_same. reflexivity.
      - cbn [w_classes w_current]. intros c x H. destruct (Nat.eq_dec c o) as [->|X]; [left; reflexivity|]. right.
        rewrite fset_other in H by exact X. destruct lc as [k0|].
        + destruct (Nat.eq_dec c (w_cnext w)) as [->|Y]; [reflexivity|]. rewrite fset_other in H by exact Y.
          assert (Z := CL _ _ H). congruence.
        + assert (Z := CL _ _ H). congruence.
      - cbn [w_classes w_current]. intros c H. destruct lc as [k0|]; [|discriminate]. injection H as <-. split; [lia|].
        exists k0. rewrite fset_other, fset_same by lia. reflexivity. }
    destruct (dinv_all o k ls w1 D) as (w' & -> & (O' & [_ U'] & K' & CL' & CU') & H). cbn [obind].
    eexists. split; [reflexivity|]. cbv zeta in H. destruct H as (H1 & H2 & H3 & H4 & H5 & H6 & H7).
    assert (NU : forall l, ~ used w' l) by (intros l X; apply U' in X; exact X).
    assert (NE : forall l g, w_loggers w' l = Some g -> l_impl g = None).
    { intros l [n [i|]] X; [exfalso; apply (NU l); exists n, i; exact X|reflexivity]. }
    assert (OO : forall k0, objects (with_classes w' (fset (w_classes w') o None)) k0).
    { intros k0. destruct (objects_none _ _ O' NU k0) as [O1 O2 O3 O4 O5 O6 O7]. constructor; try assumption.
      cbn [with_classes w_cnext w_classes]. intros c X. unfold fset. destruct (c =? o); [reflexivity|]. apply O3. exact X. }
    split.
    + split.
      * cbn [with_classes w_classes w_current]. intros c x X. destruct (Nat.eq_dec c o) as [->|Y]; [rewrite fset_same in X; discriminate|].
        rewrite fset_other in X by exact Y. destruct (CL' _ _ X) as [Z|Z]; [contradiction|exact Z].
      * cbn [with_classes w_classes w_current]. destruct (w_current w') as [c|] eqn:E.
        -- destruct (CU' c eq_refl) as (X & k' & Y). exists k', []. rewrite fset_other by exact X. split; [exact Y|].
           split; [apply OO|]. split; [constructor|]. intros l. split; [intros []|]. intros Z. exact (NU l Z).
        -- split; [exists k; apply OO|]. exact NU.
    + assert (LOG : forall l, option_map (fun p => (fst p, false)) (s_logger s l) =
        option_map (fun g => (l_name g, match l_impl g with Some _ => true | None => false end)) (w_loggers w' l)).
      { intros l. rewrite G. specialize (H7 l). specialize (NE l). subst w1. cbn [w_loggers] in H7.
        destruct (w_loggers w' l) as [[n' i']|], (w_loggers w l) as [[n i]|]; cbn in *; try discriminate; [|reflexivity].
        injection H7 as ->. specialize (NE _ eq_refl). cbn [l_impl] in NE. subst i'. reflexivity. }
      unfold s_set, same. cbn [with_classes w_loggers w_next w_classes w_current w_level w_prio w_out].
      assert (CUR : forall c, w_current w' = Some c -> fset (w_classes w') o None c = w_classes w' c).
      { intros c X. destruct (CU' c X) as [Y _]. apply fset_other. exact Y. }
      destruct ls as [|l ls].
      * replace (s_any s) with false by (symmetry; apply not_true_is_false; rewrite AU; intros (l & X); apply U in X; exact X).
        cbn [s_logger s_count s_class s_level s_prio s_out].
        subst w1. cbn [w_current w_classes w_next w_level w_prio w_out] in *.
        split; [exact LOG|]. split; [congruence|]. split; [|repeat split; congruence].
        destruct (w_current w') as [c|] eqn:E; [|destruct lc; [discriminate|reflexivity]].
        rewrite (CUR c eq_refl), (H2 c eq_refl). destruct lc as [k0|]; [|discriminate]. injection H1 as ->.
        rewrite fset_other, fset_same by lia. reflexivity.
      * replace (s_any s) with true by (symmetry; apply AU; exists l; apply U; left; reflexivity).
        unfold s_ensure. cbn [s_logger s_count s_class s_level s_prio s_out].
        unfold ensure in H1, H2, H5. subst w1. cbn [w_current w_classes w_cnext w_next w_level w_prio w_out] in *.
        destruct lc as [k0|]; cbn [s_logger s_count s_class s_level s_prio s_out w_current w_classes w_prio w_level] in *.
        -- split; [exact LOG|]. split; [congruence|]. split; [|repeat split; congruence].
           rewrite H1. rewrite (CUR _ H1), (H2 _ H1). rewrite fset_other, fset_same by lia. reflexivity.
        -- split; [exact LOG|]. split; [congruence|]. split; [|repeat split; congruence].
           rewrite H1. rewrite (CUR _ H1), (H2 _ H1). rewrite fset_same. reflexivity.
  - destruct IV as [[k O] NU]. eexists. split; [reflexivity|].
    assert (NC : forall c, w_classes w c = None). { intros c. destruct (w_classes w c) eqn:E; [|reflexivity]. assert (X := CL _ _ E). discriminate. }
    assert (OO : forall k0, objects (swapped lc w) k0).
    { intros k0. destruct (objects_none _ _ O NU k0) as [O1 O2 O3 O4 O5 O6 O7]. constructor; try assumption.
      cbn [swapped w_cnext w_classes]. intros c X. destruct lc; [rewrite fset_other by lia|]; apply NC. }
    split.
    + split.
      * cbn [swapped w_classes w_current]. intros c x X. destruct lc as [k0|]; [|rewrite NC in X; discriminate].
        destruct (Nat.eq_dec c (w_cnext w)) as [->|Y]; [reflexivity|]. rewrite fset_other, NC in X by exact Y. discriminate.
      * cbn [swapped w_classes w_current]. destruct lc as [k0|]; [|split; [exists k; apply OO|exact NU]].
        exists k0, []. rewrite fset_same. split; [reflexivity|]. split; [apply OO|]. split; [constructor|].
        intros l. split; [intros []|intros X; exact (NU l X)].
    + unfold s_set. replace (s_any s) with false by (symmetry; apply not_true_is_false; rewrite AU; intros (l & X); exact (NU l X)).
      unfold same. cbn [swapped s_logger s_count s_class s_level s_prio s_out w_loggers w_next w_classes w_current w_level w_prio w_out].
      split; [|split; [exact N|split; [|repeat split; assumption]]].
      * intros l. rewrite G. destruct (w_loggers w l) as [[n [i|]]|] eqn:E; try reflexivity. exfalso. apply (NU l). exists n, i. exact E.
      * destruct lc; [rewrite fset_same|]; reflexivity.
Qed.

(** ** Using a logger *)
Lemma inv_ensure : forall w s, inv w -> same w s -> inv (ensure w) /\ same (ensure w) (s_ensure s).
Proof.
  intros w s IV (G & N & C & LV & P & OU). unfold s_ensure. rewrite C.
  destruct (w_current w) as [c|] eqn:CU.
  - rewrite (ensure_some w c CU). split; [exact IV|]. assert (IV' := IV). destruct IV' as [_ IV']. rewrite CU in IV'.
    destruct IV' as (k & ls & K & _). rewrite K. cbn [option_map fst]. unfold same. rewrite CU. repeat split; assumption.
  - assert (CL := proj1 IV). assert (IV' := proj2 IV). rewrite CU in IV', CL. destruct IV' as [[k O] NU].
    assert (NC : forall c, w_classes w c = None). { intros c. destruct (w_classes w c) eqn:E; [|reflexivity]. assert (X := CL _ _ E). discriminate. }
    assert (OO := objects_ensure w _ (objects_none w k O NU kdef)). unfold ensure in *. rewrite CU in *. split.
    + split.
      * cbn [w_classes w_current]. intros c x X. destruct (Nat.eq_dec c (w_cnext w)) as [->|Y]; [reflexivity|].
        rewrite fset_other, NC in X by exact Y. discriminate.
      * cbn [w_classes w_current]. exists kdef, []. rewrite fset_same. split; [reflexivity|]. split; [exact OO|]. split; [constructor|].
        intros l. split; [intros []|intros X; exact (NU l X)].
    + unfold same. cbn [s_logger s_count s_class s_level s_prio s_out w_loggers w_next w_classes w_current w_level w_prio w_out].
      rewrite fset_same. repeat split; try assumption. rewrite LV, P. reflexivity.
Qed.
Definition bindw (c : nat) (k : kind) (ls : list nat) (l : nat) (n : string) (w : world) : world :=
  mkW (fset (w_loggers w) l (Some (mkL n (Some (w_inext w))))) (w_next w)
    (fset (w_classes w) c (Some (k, ls ++ [l]))) (w_cnext w)
    (fset (w_impls w) (w_inext w) (Some (k, n))) (S (w_inext w)) (w_current w) (w_level w) (w_prio w) (w_locked w) (w_out w).
Lemma impl_unused : forall l w n c k ls, w_locked w = false -> w_loggers w l = Some (mkL n None) ->
  w_current (ensure w) = Some c -> w_classes (ensure w) c = Some (k, ls) ->
  impl have root l w = Ok (Some (w_inext w), bindw c k ls l n (ensure w)).
Proof.
  intros l w n c k ls L B C K. destruct (get_class_ok 1 w L) as (c' & G & C').
  assert (c' = c) by congruence. subst c'.
  unfold impl. unfold lock at 1. rewrite L. cbn [obind]. unfold with_locked at 1. cbn [w_loggers]. rewrite B. cbn [rd obind l_impl].
  unfold unlock at 1. cbn [w_locked with_locked obind].
  replace (with_locked (with_locked w true) false) with w by (destruct w; cbn in L; subst; reflexivity).
  unfold ptr. rewrite G. cbn [obind l_name]. 
  assert (E1 : w_locked (ensure w) = false) by (unfold ensure; destruct (w_current w); exact L).
  assert (E2 : w_loggers (ensure w) = w_loggers w) by (unfold ensure; destruct (w_current w); reflexivity).
  assert (E3 : w_inext (ensure w) = w_inext w) by (unfold ensure; destruct (w_current w); reflexivity).
  rewrite <- E2 in B. rewrite <- E3. revert E1 B C K. generalize (ensure w). clear.
  intros [lg nx cs cn im inx cur lv pr lk out]. cbn. intros -> B -> K. unfold logger_for, remember, lock. cbn. rewrite K. cbn.
  rewrite B. cbn. rewrite fset_same. cbn. reflexivity.
Qed.
Lemma impl_used : forall l w n i, w_locked w = false -> bound w l n i -> impl have root l w = Ok (Some i, w).
Proof.
  intros l [lg nx cs cn im inx cur lv pr lk out] n i L H. cbn in L. subst lk. unfold bound in H. cbn in H.
  unfold impl, lock. cbn. rewrite H. reflexivity.
Qed.
Lemma used_current : forall w l, inv w -> used w l -> exists c k ls, w_current w = Some c /\ w_classes w c = Some (k, ls) /\ objects w k /\ lists w ls.
Proof.
  intros w l [_ IV] U. destruct (w_current w) as [c|]; [|destruct IV as [_ X]; exfalso; exact (X l U)].
  destruct IV as (k & ls & H). exists c, k, ls. split; [reflexivity|exact H].
Qed.
Lemma same_mark : forall w s l n b, same w s -> option_map l_name (w_loggers w l) = Some n ->
  forall w', (forall x, x <> l -> w_loggers w' x = w_loggers w x) ->
  (exists p, w_loggers w' l = Some (mkL n p) /\ b = match p with Some _ => true | None => false end) ->
  w_next w' = w_next w -> w_current w' = w_current w ->
  (forall c, w_current w = Some c -> option_map fst (w_classes w' c) = option_map fst (w_classes w c)) ->
  w_level w' = w_level w -> w_prio w' = w_prio w -> w_out w' = w_out w -> same w' (s_mark l b s).
Proof.
  intros w s l n b (G & N & C & LV & P & OU) NM w' X (p & E & B) W1 W2 W3 W4 W5 W6. unfold same, s_mark.
  cbn [s_logger s_count s_class s_level s_prio s_out]. split; [|split; [congruence|split; [|repeat split; congruence]]].
  - intros x. destruct (Nat.eqb_spec x l) as [->|Y].
    + rewrite G, E. destruct (w_loggers w l) as [[m q]|]; [|discriminate]. cbn in NM. injection NM as ->. cbn. rewrite B. reflexivity.
    + rewrite (X x Y). apply G.
  - rewrite C, W2. destruct (w_current w) as [c|]; [|reflexivity]. symmetry. apply W3. reflexivity.
Qed.
Lemma use_ok : forall l w s, inv w -> same w s -> s_logger s l <> None ->
  exists w' i, impl have root l w = Ok (Some i, w') /\ inv w' /\ same w' (s_use l s) /\
    w_impls w' i = Some (s_kind (s_use l s), s_name l (s_use l s)).
Proof.
  intros l w s IV SM H. assert (H' := H). rewrite (proj1 SM) in H'. destruct (w_loggers w l) as [[n p]|] eqn:E; [|exfalso; apply H'; reflexivity]. clear H'.
  destruct (inv_lock w IV) as [LK NX].
  assert (FIN : forall w' i, same w' (s_use l s) -> forall k m, w_loggers w' l = Some (mkL m (Some i)) -> w_impls w' i = Some (k, m) ->
    (exists c ls, w_current w' = Some c /\ w_classes w' c = Some (k, ls)) -> w_impls w' i = Some (s_kind (s_use l s), s_name l (s_use l s))).
  { intros w' i (G & _ & C & _) k m L I (c & ls & CU & K). unfold s_kind, s_name. rewrite C, CU, K, G, L. exact I. }
  destruct p as [i|].
  - assert (UL : used w l) by (exists n, i; exact E). destruct (used_current w l IV UL) as (c & k & ls & CU & K & O & LS).
    exists w, i. split; [exact (impl_used l w n i LK E)|]. split; [exact IV|].
    assert (EN := ensure_some w c CU). assert (SE := proj2 (inv_ensure w s IV SM)). rewrite EN in SE.
    assert (SU : same w (s_use l s)).
    { unfold s_use. apply (same_mark w _ l n true SE); try reflexivity; [rewrite E; reflexivity|]. exists (Some i). split; [exact E|reflexivity]. }
    split; [exact SU|]. apply (FIN w i SU k n E); [exact (o_live _ _ O _ _ _ E)|]. exists c, ls. split; assumption.
  - destruct (inv_ensure w s IV SM) as [IE SE]. destruct (get_class_ok 1 w LK) as (c & _ & CU).
    assert (IE' := proj2 IE). rewrite CU in IE'. destruct IE' as (k & ls & K & O & [ND U]).
    exists (bindw c k ls l n (ensure w)), (w_inext w). split; [apply impl_unused; assumption|].
    assert (E' : w_loggers (ensure w) l = Some (mkL n None)) by (unfold ensure; destruct (w_current w); exact E).
    assert (EI : w_inext (ensure w) = w_inext w) by (unfold ensure; destruct (w_current w); reflexivity).
    rewrite <- EI. set (v := ensure w) in *. clearbody v.
    assert (NL : ~ In l ls). { intros X. apply U in X. destruct X as (m & j & X). unfold bound in X. congruence. }
    assert (BB : forall x m j, bound (bindw c k ls l n v) x m j <-> (x = l /\ m = n /\ j = w_inext v) \/ (x <> l /\ bound v x m j)).
    { intros x m j. unfold bound, bindw. cbn [w_loggers]. destruct (Nat.eq_dec x l) as [->|X].
      - rewrite fset_same. split; [intros Y; left; injection Y as <- <-; auto|]. intros [(_ & -> & ->)|[Y _]]; [reflexivity|contradiction].
      - rewrite fset_other by exact X. split; [intros Y; right; split; assumption|]. intros [(Y & _)|[_ Y]]; [contradiction|exact Y]. }
    assert (IV' : inv (bindw c k ls l n v)).
    { assert (CL := proj1 IE). split.
      - cbn [bindw w_classes w_current]. intros d x X. destruct (Nat.eq_dec d c) as [->|Y]; [exact CU|].
        rewrite fset_other in X by exact Y. exact (CL _ _ X).
      - cbn [bindw w_classes w_current]. rewrite CU. exists k, (ls ++ [l]). rewrite fset_same. split; [reflexivity|].
        destruct O as [O1 O2 O3 O4 O5 O6 O7]. split; [|split].
        + constructor; cbn [bindw w_locked w_next w_loggers w_cnext w_classes w_inext w_impls].
          * exact O1.
          * intros x X. rewrite fset_other; [apply O2; exact X|]. intros ->. rewrite (O2 _ X) in E'. discriminate.
          * intros x X. rewrite fset_other; [apply O3; exact X|]. intros ->. rewrite (O3 _ X) in K. discriminate.
          * intros x X. rewrite fset_other by lia. apply O4. lia.
          * intros x m j X. apply BB in X. destruct X as [(-> & -> & ->)|[X Y]]; [rewrite fset_same; reflexivity|].
            rewrite fset_other; [apply (O5 _ _ _ Y)|]. intros ->. assert (Z := O5 _ _ _ Y). rewrite O4 in Z by lia. discriminate.
          * assert (FR : forall x m, ~ bound v x m (w_inext v)).
            { intros x m Y. assert (Z := O5 _ _ _ Y). rewrite O4 in Z by lia. discriminate. }
            intros x y m m' j X Y. apply BB in X, Y. destruct X as [(-> & -> & ->)|[X1 X2]], Y as [(-> & -> & Y0)|[Y1 Y2]].
            -- reflexivity.
            -- exfalso. exact (FR _ _ Y2).
            -- subst j. exfalso. exact (FR _ _ X2).
            -- apply (O6 _ _ _ _ _ X2 Y2).
          * intros j x X. destruct (Nat.eq_dec j (w_inext v)) as [->|Y].
            -- exists l, n. apply BB. left. auto.
            -- rewrite fset_other in X by exact Y. destruct (O7 _ _ X) as (y & m & Z). exists y, m. apply BB. right. split; [|exact Z].
               intros ->. unfold bound in Z. congruence.
        + clear - ND NL. induction ls as [|a ls IH]; [constructor; [intros []|constructor]|]. inversion ND; subst. cbn [List.app]. constructor.
          * rewrite in_app_iff. intros [X|[X|[]]]; [contradiction|]. subst. apply NL. left. reflexivity.
          * apply IH; [assumption|]. intros X. apply NL. right. exact X.
        + intros x. rewrite in_app_iff. unfold used. split.
          * intros [X|[<-|[]]].
            -- apply U in X. destruct X as (m & j & X). exists m, j. apply BB. right. split; [|exact X]. intros ->. unfold bound in X. congruence.
            -- exists n, (w_inext v). apply BB. left. auto.
          * intros (m & j & X). apply BB in X. destruct X as [(-> & _)|[_ X]]; [right; left; reflexivity|]. left. apply U. exists m, j. exact X. }
    split; [exact IV'|].
    assert (SU : same (bindw c k ls l n v) (s_use l s)).
    { unfold s_use. apply (same_mark v _ l n true SE); try reflexivity.
      - rewrite E'. reflexivity.
      - intros x X. cbn [bindw w_loggers]. apply fset_other. exact X.
      - exists (Some (w_inext v)). cbn [bindw w_loggers]. rewrite fset_same. split; reflexivity.
      - intros d D. assert (d = c) by congruence. subst d. cbn [bindw w_classes]. rewrite fset_same, K. reflexivity. }
    split; [exact SU|]. apply (FIN _ _ SU k n).
    + cbn [bindw w_loggers]. apply fset_same.
    + cbn [bindw w_impls]. apply fset_same.
    + exists c, (ls ++ [l]). cbn [bindw w_current w_classes]. rewrite fset_same. split; [exact CU|reflexivity].
Qed.
Lemma reset_ok : forall l w s, inv w -> same w s -> s_logger s l <> None ->
  exists w' n, reset have root (ptr have root) l w = Ok w' /\ inv w' /\ same w' (s_mark l false s) /\ w_loggers w' l = Some (mkL n None).
Proof.
  intros l w s IV SM H. rewrite (proj1 SM) in H. destruct (w_loggers w l) as [[n p]|] eqn:E; [|exfalso; apply H; reflexivity].
  destruct (inv_lock w IV) as [LK NX]. destruct p as [i|].
  - assert (UL : used w l) by (exists n, i; exact E). destruct (used_current w l IV UL) as (c & k & ls & CU & K & O & [ND U]).
    assert (EN := ensure_some w c CU). exists (unbind c k ls l n i w), n.
    assert (CC : c < w_cnext w). { destruct (Nat.lt_ge_cases c (w_cnext w)); [assumption|]. rewrite (o_cnext _ _ O) in K by assumption. discriminate. }
    split; [|split; [|split]].
    + unfold ptr. rewrite <- EN at 2. apply reset_used; try assumption; [|rewrite EN; assumption|rewrite EN; assumption].
      rewrite (o_live _ _ O _ _ _ E). discriminate.
    + assert (CL := proj1 IV). split.
      * cbn [unbind w_classes w_current]. intros d x X. destruct (Nat.eq_dec d c) as [->|Y]; [exact CU|].
        rewrite fset_other in X by exact Y. exact (CL _ _ X).
      * cbn [unbind w_classes w_current]. rewrite CU. eexists k, _. rewrite fset_same. split; [reflexivity|].
        split; [apply objects_unbind; assumption|]. split.
        -- apply NoDup_filter. exact ND.
        -- intros x. rewrite used_unbind, filter_In, U. destruct (Nat.eqb_spec x l); cbn [negb]; intuition congruence.
    + apply (same_mark w s l n false SM); try reflexivity.
      * rewrite E. reflexivity.
      * intros x X. cbn [unbind w_loggers]. apply fset_other. exact X.
      * exists None. cbn [unbind w_loggers]. rewrite fset_same. split; reflexivity.
      * intros d D. assert (d = c) by congruence. subst d. cbn [unbind w_classes]. rewrite fset_same, K. reflexivity.
    + cbn [unbind w_loggers]. apply fset_same.
  - exists w, n. split; [apply (reset_unused _ l w n LK E)|]. split; [exact IV|]. split; [|exact E].
    apply (same_mark w s l n false SM); try reflexivity; [rewrite E; reflexivity|]. exists None. split; [exact E|reflexivity].
Qed.

(** ** Programs *)
Lemma inv_emit : forall w e, inv w -> inv (emit w e).
Proof.
  intros w e [CL IV]. split; [exact CL|]. cbn [emit w_current w_classes]. destruct (w_current w) as [c|].
  - destruct IV as (k & ls & K & [O1 O2 O3 O4 O5 O6 O7] & L). exists k, ls. split; [exact K|]. split; [constructor; assumption|exact L].
  - destruct IV as [[k [O1 O2 O3 O4 O5 O6 O7]] U]. split; [exists k; constructor; assumption|exact U].
Qed.
Lemma same_emit : forall w s e, same w s -> same (emit w e) (s_emit e s).
Proof.
  intros w s e (G & N & C & LV & P & OU). unfold same, s_emit. cbn. repeat split; try assumption. rewrite OU. reflexivity.
Qed.
Lemma enabled_ok : forall l level w s, inv w -> same w s -> s_logger s l <> None ->
  exists w', is_enabled have root other l level w = Ok (s_enabled l level (s_use l s), w') /\ inv w' /\ same w' (s_use l s).
Proof.
  intros l level w s IV SM H. destruct (use_ok l w s IV SM H) as (w' & i & E & IV' & SM' & I). exists w'. split; [|split; assumption].
  unfold is_enabled. rewrite E. cbn [obind]. rewrite I. cbn [rd obind]. unfold s_enabled.
  destruct SM' as (_ & _ & _ & -> & -> & _). reflexivity.
Qed.
Lemma forced_ok : forall l level m f n w s, inv w -> same w s -> s_logger s l <> None ->
  exists w', forced have root other l level m f n w = Ok w' /\ inv w' /\ same w' (s_emit (s_written l level m f n (s_use l s)) (s_use l s)).
Proof.
  intros l level m f n w s IV SM H. destruct (use_ok l w s IV SM H) as (w' & i & E & IV' & SM' & I).
  assert (X : s_written l level m f n (s_use l s) = written root other (s_kind (s_use l s)) (s_name l (s_use l s)) (w_level w') (w_prio w') level m f n).
  { unfold s_written. destruct SM' as (_ & _ & _ & -> & -> & _). reflexivity. }
  exists (emit w' (s_written l level m f n (s_use l s))). split; [|split; [apply inv_emit; exact IV'|apply same_emit; exact SM']].
  unfold forced. rewrite E. cbn [obind]. rewrite I. cbn [rd obind]. rewrite X. reflexivity.
Qed.
Lemma use_logger : forall l s x, s_logger (s_use l s) x = None <-> s_logger s x = None.
Proof.
  intros l s x. unfold s_use, s_mark, s_ensure. destruct (s_class s); cbn [s_logger]; destruct (x =? l); destruct (s_logger s x); cbn; split; congruence.
Qed.
Lemma ensure_twice : forall s, s_ensure (s_ensure s) = s_ensure s.
Proof. intros s. unfold s_ensure. destruct (s_class s) eqn:E; [rewrite E; reflexivity|reflexivity]. Qed.
Lemma use_use : forall l s, s_use l (s_use l s) = s_mark l true (s_use l s).
Proof.
  intros l s. assert (EC : exists k, s_class (s_ensure s) = Some k). { unfold s_ensure. destruct (s_class s) as [k|] eqn:E; [exists k; exact E|]. eexists. reflexivity. }
  destruct EC as [k EC]. unfold s_use at 1. f_equal. unfold s_use, s_mark. unfold s_ensure at 1. cbn [s_class]. rewrite EC. reflexivity.
Qed.
(** a logger that has been used: using it once more changes nothing *)
Lemma same_twice : forall w s l, same w (s_use l (s_use l s)) -> same w (s_use l s).
Proof.
  intros w s l (G & N & C & LV & P & OU).
  rewrite use_use in G, N, C, LV, P, OU. unfold s_mark in G, N, C, LV, P, OU.
  cbn [s_logger s_count s_class s_level s_prio s_out] in *. split; [|repeat split; assumption].
  intros x. rewrite <- G. unfold s_use, s_mark. cbn [s_logger]. destruct (x =? l); [|reflexivity].
  destruct (s_logger (s_ensure s) x); reflexivity.
Qed.
Lemma with_prio_ok : forall w s p, inv w -> same w s ->
  inv (with_prio w p) /\ same (with_prio w p) (mkS (s_logger s) (s_count s) (s_class s) (s_level s) p (s_out s)).
Proof.
  intros w s p [CL IV] (G & N & C & LV & P & OU). split.
  - split; [exact CL|]. cbn [with_prio w_current w_classes]. destruct (w_current w) as [c|].
    + destruct IV as (k & ls & K & [O1 O2 O3 O4 O5 O6 O7] & L). exists k, ls. split; [exact K|]. split; [constructor; assumption|exact L].
    + destruct IV as [[k [O1 O2 O3 O4 O5 O6 O7]] U]. split; [exists k; constructor; assumption|exact U].
  - repeat split; assumption.
Qed.
Lemma with_level_ok : forall w s z, inv w -> same w s -> inv (with_level w z) /\ same (with_level w z) (s_with_level z s).
Proof.
  intros w s z [CL IV] (G & N & C & LV & P & OU). split.
  - split; [exact CL|]. cbn [with_level w_current w_classes]. destruct (w_current w) as [c|].
    + destruct IV as (k & ls & K & [O1 O2 O3 O4 O5 O6 O7] & L). exists k, ls. split; [exact K|]. split; [constructor; assumption|exact L].
    + destruct IV as [[k [O1 O2 O3 O4 O5 O6 O7]] U]. split; [exists k; constructor; assumption|exact U].
  - repeat split; assumption.
Qed.
Lemma set_log_ok : forall lc w s, inv w -> same w s ->
  exists w', set_log have root (ptr have root) lc w = Ok (fst (s_log lc s), w') /\ inv w' /\ same w' (snd (s_log lc s)).
Proof.
  intros lc w s IV SM. unfold set_log, s_log. destruct lc.
  - destruct (set_ok (Some Stderr) w s IV SM) as (w' & -> & H). exists w'. split; [reflexivity|exact H].
  - assert (LV : w_level w = s_level s /\ w_prio w = s_prio s) by (destruct SM as (_ & _ & _ & -> & -> & _); auto). destruct LV as [LV P].
    unfold kdef, pdef. destruct (with_prio_ok w s (pdef (s_level s) (s_prio s)) IV SM) as [IV' SM'].
    unfold pdef in *. revert IV' SM'. destruct have eqn:HV; intros IV' SM'.
    + assert (X := set_ok (Some Log4cpp) _ _ IV' SM'). rewrite HV in X. destruct X as (w' & E & H). rewrite LV, P, E. exists w'. split; [reflexivity|exact H].
    + assert (X := set_ok (Some Stderr) w s IV SM). rewrite HV in X. destruct X as (w' & -> & H). exists w'. split; [reflexivity|].
      destruct s. exact H.
Qed.
Lemma step_ok : forall o w s, inv w -> same w s -> legal_op s o ->
  exists w', step w o = Ok w' /\ inv w' /\ same w' (s_step s o).
Proof.
  intros o w s IV SM LG. unfold legal_op in LG.
  destruct o as [name|l|l level|l level m f n|l level m f n|l|lc|k|z|z]; cbn [LgrModel.step s_step touches] in *.
  - eexists. split; [reflexivity|]. assert (NX := proj2 (inv_lock w IV)).
    assert (UU : forall v x, w_loggers v = fset (w_loggers w) (w_next w) (Some (mkL name None)) -> (used v x <-> used w x)).
    { intros v x E. unfold used, bound. rewrite E. destruct (Nat.eq_dec x (w_next w)) as [->|X].
      - rewrite fset_same, NX by lia. split; intros (a & b & Y); discriminate.
      - rewrite fset_other by exact X. reflexivity. }
    assert (OO : forall k, objects w k -> objects (mkW (fset (w_loggers w) (w_next w) (Some (mkL name None))) (S (w_next w)) (w_classes w) (w_cnext w)
            (w_impls w) (w_inext w) (w_current w) (w_level w) (w_prio w) (w_locked w) (w_out w)) k).
    { intros k [O1 O2 O3 O4 O5 O6 O7].
      assert (BB : forall x m j, fset (w_loggers w) (w_next w) (Some (mkL name None)) x = Some (mkL m (Some j)) <-> bound w x m j).
      { intros x m j. unfold bound. destruct (Nat.eq_dec x (w_next w)) as [->|X].
        - rewrite fset_same, NX by lia. split; discriminate.
        - rewrite fset_other by exact X. reflexivity. }
      constructor; unfold bound; cbn [w_locked w_next w_loggers w_cnext w_classes w_inext w_impls]; try assumption.
      - intros x X. rewrite fset_other by lia. apply O2. lia.
      - intros x m j X. apply BB in X. exact (O5 _ _ _ X).
      - intros x y m m' j X Y. apply BB in X, Y. exact (O6 _ _ _ _ _ X Y).
      - intros j x X. destruct (O7 _ _ X) as (y & m & Y). exists y, m. apply BB. exact Y. }
    split.
    + destruct IV as [CL IV]. split; [exact CL|]. cbn [w_current w_classes]. destruct (w_current w) as [c|] eqn:CU.
      * destruct IV as (k & ls & K & O & ND & U). exists k, ls. split; [exact K|]. split; [apply OO; exact O|]. split; [exact ND|].
        intros x. rewrite U. symmetry. apply UU. reflexivity.
      * destruct IV as [[k O] U]. split; [exists k; apply OO; exact O|]. intros x X. apply (U x). apply (UU _ x) in X; [exact X|reflexivity].
    + destruct SM as (G & N & C & LV & P & OU). unfold same. cbn [s_logger s_count s_class s_level s_prio s_out w_loggers w_next w_classes w_current w_level w_prio w_out].
      split; [|split; [congruence|split; [exact C|repeat split; assumption]]].
      intros x. rewrite N. unfold fset. destruct (x =? w_next w); [reflexivity|]. apply G.
  - destruct (reset_ok l w s IV SM (LG l eq_refl)) as (w' & n & -> & [CL IV'] & (G & N & C & LV & P & OU) & E). cbn [obind].
    eexists. split; [reflexivity|].
    assert (BB : forall x m j, fset (w_loggers w') l None x = Some (mkL m (Some j)) <-> bound w' x m j).
    { intros x m j. unfold bound. destruct (Nat.eq_dec x l) as [->|X].
      - rewrite fset_same, E. split; discriminate.
      - rewrite fset_other by exact X. reflexivity. }
    assert (UU : forall x, used (with_loggers w' (fset (w_loggers w') l None)) x <-> used w' x).
    { intros x. unfold used. split; intros (m & j & X); exists m, j; apply BB; exact X. }
    assert (OO : forall k, objects w' k -> objects (with_loggers w' (fset (w_loggers w') l None)) k).
    { intros k [O1 O2 O3 O4 O5 O6 O7].
      constructor; unfold bound; cbn [with_loggers w_locked w_next w_loggers w_cnext w_classes w_inext w_impls]; try assumption.
      - intros x X. unfold fset. destruct (x =? l); [reflexivity|]. apply O2. exact X.
      - intros x m j X. apply BB in X. exact (O5 _ _ _ X).
      - intros x y m m' j X Y. apply BB in X, Y. exact (O6 _ _ _ _ _ X Y).
      - intros j x X. destruct (O7 _ _ X) as (y & m & Y). exists y, m. apply BB. exact Y. }
    split.
    + split; [exact CL|]. cbn [with_loggers w_current w_classes]. destruct (w_current w') as [c|].
      * destruct IV' as (k & ls & K & O & ND & U). exists k, ls. split; [exact K|]. split; [apply OO; exact O|]. split; [exact ND|].
        intros x. rewrite UU. apply U.
      * destruct IV' as [[k O] U]. split; [exists k; apply OO; exact O|]. intros x X. apply (U x). apply UU. exact X.
    + unfold same. cbn [s_mark s_logger s_count s_class s_level s_prio s_out with_loggers w_loggers w_next w_classes w_current w_level w_prio w_out] in *.
      split; [|split; [exact N|split; [exact C|repeat split; assumption]]].
      intros x. specialize (G x). unfold fset. destruct (x =? l); [reflexivity|exact G].
  - destruct (enabled_ok l level w s IV SM (LG l eq_refl)) as (w' & -> & IV' & SM'). cbn [obind]. eexists. split; [reflexivity|].
    split; [apply inv_emit; exact IV'|apply same_emit; exact SM'].
  - destruct (enabled_ok l level w s IV SM (LG l eq_refl)) as (w' & -> & IV' & SM'). cbn [obind].
    destruct (s_enabled l level (s_use l s)) eqn:EN; [|exists w'; split; [reflexivity|split; assumption]].
    assert (LG' : s_logger (s_use l s) l <> None) by (intros X; apply use_logger in X; exact (LG l eq_refl X)).
    destruct (forced_ok l level m f n w' (s_use l s) IV' SM' LG') as (w2 & E2 & IV2 & SM2). exists w2. split; [exact E2|]. split; [exact IV2|].
    assert (W : s_written l level m f n (s_use l (s_use l s)) = s_written l level m f n (s_use l s)).
    { rewrite use_use. unfold s_written, s_kind, s_name, s_mark. cbn [s_class s_logger s_level s_prio]. rewrite Nat.eqb_refl.
      destruct (s_logger (s_use l s) l) as [[a b]|]; reflexivity. }
    rewrite W in SM2. destruct SM2 as (G & N & C & LV & P & OU).
    assert (T : forall e, same (emit w2 e) (s_emit e (s_use l s)) -> True) by trivial. clear T.
    assert (T : same (mkW (w_loggers w2) (w_next w2) (w_classes w2) (w_cnext w2) (w_impls w2) (w_inext w2) (w_current w2) (w_level w2) (w_prio w2) (w_locked w2)
                       (s_out (s_use l (s_use l s)))) (s_use l (s_use l s))) by (repeat split; assumption).
    apply same_twice in T. destruct T as (G' & N' & C' & LV' & P' & OU'). unfold same, s_emit.
    cbn [s_logger s_count s_class s_level s_prio s_out w_loggers w_next w_classes w_current w_level w_prio w_out] in *.
    repeat split; try assumption. rewrite <- OU. cbn [s_emit s_out]. rewrite <- OU'. reflexivity.
  - apply forced_ok; [assumption|assumption|]. exact (LG l eq_refl).
  - destruct (reset_ok l w s IV SM (LG l eq_refl)) as (w' & n & E & IV' & SM' & _). exists w'. split; [exact E|split; assumption].
  - destruct (set_log_ok lc w s IV SM) as (w' & -> & IV' & SM'). cbn [obind]. eexists. split; [reflexivity|].
    destruct (s_log lc s). split; [apply inv_emit; exact IV'|apply same_emit; exact SM'].
  - destruct (set_ok k w s IV SM) as (w' & -> & IV' & SM'). cbn [obind]. eexists. split; [reflexivity|].
    split; [apply inv_emit; exact IV'|apply same_emit; exact SM'].
  - eexists. split; [reflexivity|]. apply with_level_ok; assumption.
  - destruct (with_level_ok w s z IV SM) as [IV1 SM1]. destruct (set_log_ok LOG4CPP _ _ IV1 SM1) as (w' & -> & H). exists w'. split; [reflexivity|exact H].
Qed.
Lemma run_ok : forall ops w s, inv w -> same w s -> legal s ops ->
  exists w', run_ops ops w = Ok w' /\ inv w' /\ same w' (s_run ops s).
Proof.
  unfold LgrModel.run_ops, s_run. induction ops as [|o ops IH]; intros w s IV SM LG; [exists w; split; [reflexivity|split; assumption]|].
  destruct LG as [L1 L2]. destruct (step_ok o w s IV SM L1) as (w1 & E & IV1 & SM1). cbn [ofold fold_left]. rewrite E. cbn [obind].
  apply IH; assumption.
Qed.
Lemma inv_start : inv start.
Proof.
  split; [discriminate|]. cbn. split; [exists Stderr|intros l (n & i & H); discriminate].
  constructor; try reflexivity; unfold bound; cbn; discriminate.
Qed.
Lemma same_start : same start s_start.
Proof. repeat split. Qed.

(** the class that a program has chosen last, and the level *)
Definition chosen (ops : list op) : kind :=
  fold_left (fun k o => match o with
                        | SetClass LOG2STDERR => Stderr
                        | SetClass LOG4CPP | CLevel _ | SetPtr None => kdef
                        | SetPtr (Some k') => k'
                        | _ => k
                        end) ops kdef.
Definition level_of (ops : list op) : Z :=
  fold_left (fun z o => match o with SetLevel y | CLevel y => y | _ => z end) ops WARN.
(** the names of loggers, None once they are deleted *)
Definition names_of (ops : list op) : nat -> option string :=
  snd (fold_left (fun p o => match o with
                             | New n => (S (fst p), fun j => if j =? fst p then Some n else snd p j)
                             | Drop l => (fst p, fun j => if j =? l then None else snd p j)
                             | _ => p
                             end) ops (0, fun _ => None)).

Lemma kind_ensure : forall s, s_kind (s_ensure s) = s_kind s.
Proof. intros s. unfold s_ensure, s_kind. destruct (s_class s) eqn:E; [rewrite E|]; reflexivity. Qed.
Lemma kind_set : forall lc s, s_kind (s_set lc s) = match lc with Some k => k | None => kdef end.
Proof. intros lc s. unfold s_set. destruct (s_any s); [rewrite kind_ensure|]; reflexivity. Qed.
Lemma kind_use : forall l s, s_kind (s_use l s) = s_kind s.
Proof. intros. unfold s_use. rewrite <- (kind_ensure s). reflexivity. Qed.
Lemma level_ensure : forall s, s_level (s_ensure s) = s_level s.
Proof. intros s. unfold s_ensure. destruct (s_class s); reflexivity. Qed.
Lemma level_set : forall lc s, s_level (s_set lc s) = s_level s.
Proof. intros lc s. unfold s_set. destruct (s_any s); [rewrite level_ensure|]; reflexivity. Qed.
Lemma name_ensure : forall s, s_logger (s_ensure s) = s_logger s /\ s_count (s_ensure s) = s_count s.
Proof. intros s. unfold s_ensure. destruct (s_class s); split; reflexivity. Qed.
Lemma name_set : forall lc s l, option_map fst (s_logger (s_set lc s) l) = option_map fst (s_logger s l) /\ s_count (s_set lc s) = s_count s.
Proof.
  intros lc s l. unfold s_set. destruct (s_any s); [rewrite (proj1 (name_ensure _)), (proj2 (name_ensure _))|];
    cbn [s_logger s_count]; (split; [destruct (s_logger s l); reflexivity|reflexivity]).
Qed.
Lemma name_use : forall l s x, option_map fst (s_logger (s_use l s) x) = option_map fst (s_logger s x) /\ s_count (s_use l s) = s_count s.
Proof.
  intros l s x. unfold s_use, s_mark. cbn [s_logger s_count]. rewrite (proj1 (name_ensure _)), (proj2 (name_ensure _)).
  split; [|reflexivity]. destruct (x =? l); destruct (s_logger s x); reflexivity.
Qed.
Lemma run_kind : forall ops s, s_kind (s_run ops s) =
  fold_left (fun k o => match o with
                        | SetClass LOG2STDERR => Stderr
                        | SetClass LOG4CPP | CLevel _ | SetPtr None => kdef
                        | SetPtr (Some k') => k'
                        | _ => k
                        end) ops (s_kind s).
Proof.
  unfold s_run. induction ops as [|o ops IH]; intros s; [reflexivity|]. cbn [fold_left]. rewrite IH. f_equal.
  destruct o as [name|l|l level|l level m f n|l level m f n|l|[]|[k|]|z|z]; cbn [s_step s_log snd]; cbv zeta; try reflexivity.
  - exact (kind_use l s).
  - destruct (s_enabled _ _ _); exact (kind_use l s).
  - exact (kind_use l s).
  - exact (kind_set (Some Stderr) s).
  - exact (kind_set (Some kdef) _).
  - exact (kind_set (Some k) s).
  - exact (kind_set None s).
  - exact (kind_set (Some kdef) _).
Qed.
Lemma level_use : forall l s, s_level (s_use l s) = s_level s.
Proof. intros. exact (level_ensure s). Qed.
Lemma run_level : forall ops s, s_level (s_run ops s) =
  fold_left (fun z o => match o with SetLevel y | CLevel y => y | _ => z end) ops (s_level s).
Proof.
  unfold s_run. induction ops as [|o ops IH]; intros s; [reflexivity|]. cbn [fold_left]. rewrite IH. f_equal.
  destruct o as [name|l|l level|l level m f n|l level m f n|l|[]|k|z|z]; cbn [s_step s_log snd]; cbv zeta; try reflexivity.
  - exact (level_use l s).
  - destruct (s_enabled _ _ _); exact (level_use l s).
  - exact (level_use l s).
  - exact (level_set (Some Stderr) s).
  - exact (level_set (Some kdef) _).
  - exact (level_set k s).
  - exact (level_set (Some kdef) _).
Qed.
Lemma run_names : forall ops s p, fst p = s_count s -> (forall l, option_map fst (s_logger s l) = snd p l) ->
  forall l, option_map fst (s_logger (s_run ops s) l) =
  snd (fold_left (fun p o => match o with
                             | New n => (S (fst p), fun j => if j =? fst p then Some n else snd p j)
                             | Drop l => (fst p, fun j => if j =? l then None else snd p j)
                             | _ => p
                             end) ops p) l.
Proof.
  unfold s_run. induction ops as [|o ops IH]; intros s p C E; [exact E|]. cbn [fold_left]. apply IH; clear IH.
  - destruct o as [name|l|l level|l level m f n|l level m f n|l|[]|k|z|z]; cbn [s_step s_log snd fst]; cbv zeta; rewrite ?C; try reflexivity.
    + symmetry. exact (proj2 (name_use l s 0)).
    + destruct (s_enabled _ _ _); symmetry; exact (proj2 (name_use l s 0)).
    + symmetry. exact (proj2 (name_use l s 0)).
    + symmetry. exact (proj2 (name_set (Some Stderr) s 0)).
    + symmetry. exact (proj2 (name_set (Some kdef) _ 0)).
    + symmetry. exact (proj2 (name_set k s 0)).
    + symmetry. exact (proj2 (name_set (Some kdef) _ 0)).
  - intros x. destruct o as [name|l|l level|l level m f n|l level m f n|l|[]|k|z|z]; cbn [s_step s_log snd fst]; cbv zeta; rewrite <- ?E.
    + cbn [s_logger]. rewrite C. destruct (x =? s_count s); [reflexivity|try reflexivity; apply E].
    + cbn [s_logger]. destruct (x =? l); [reflexivity|try reflexivity; apply E].
    + exact (proj1 (name_use l s x)).
    + destruct (s_enabled _ _ _); exact (proj1 (name_use l s x)).
    + exact (proj1 (name_use l s x)).
    + unfold s_mark. cbn [s_logger]. destruct (x =? l); destruct (s_logger s x); reflexivity.
    + exact (proj1 (name_set (Some Stderr) s x)).
    + exact (proj1 (name_set (Some kdef) _ x)).
    + exact (proj1 (name_set k s x)).
    + reflexivity.
    + exact (proj1 (name_set (Some kdef) _ x)).
Qed.
(** a program that uses only loggers it has made and not yet deleted, said without the specification *)
Fixpoint fair (done ops : list op) : Prop :=
  match ops with
  | [] => True
  | o :: r => (forall l, touches o = Some l -> names_of done l <> None) /\ fair (done ++ [o]) r
  end.
Lemma names_run : forall ops l, option_map fst (s_logger (s_run ops s_start) l) = names_of ops l.
Proof. intros ops l. unfold names_of. apply run_names; reflexivity. Qed.
Lemma run_app : forall a b s, s_run (a ++ b) s = s_run b (s_run a s).
Proof. intros. unfold s_run. apply fold_left_app. Qed.
Lemma fair_legal : forall ops done, fair done ops -> legal (s_run done s_start) ops.
Proof.
  induction ops as [|o ops IH]; intros done H; [exact I|]. destruct H as [H1 H2]. cbn [legal]. split.
  - intros l T E. apply (H1 l T). rewrite <- names_run, E. reflexivity.
  - specialize (IH _ H2). rewrite run_app in IH. exact IH.
Qed.
Lemma fair_app : forall a b done, fair done (a ++ b) <-> fair done a /\ fair (done ++ a) b.
Proof.
  induction a as [|o a IH]; intros b done; cbn [List.app fair].
  - rewrite app_nil_r. tauto.
  - rewrite IH, <- app_assoc. cbn [List.app]. tauto.
Qed.
Lemma fair_run : forall ops, fair [] ops -> exists w, run_ops ops start = Ok w /\ inv w /\ same w (s_run ops s_start).
Proof. intros ops H. apply run_ok; [apply inv_start|apply same_start|]. exact (fair_legal ops [] H). Qed.
Lemma run_split : forall a b w v, run_ops a w = Ok v -> run_ops (a ++ b) w = run_ops b v.
Proof.
  unfold LgrModel.run_ops. induction a as [|o a IH]; intros b w v H; cbn [ofold List.app] in *; [injection H as ->; reflexivity|].
  destruct (step w o) as [u| | |]; cbn [obind] in *; try discriminate. apply IH. exact H.
Qed.

(** ** Theorems *)
(** no use of a deleted object, no deadlock; one class at most; each object of a class belongs to one logger: nothing
    is leaked *)
Theorem C122_safe : forall ops, fair [] ops ->
  exists w, run_ops ops start = Ok w /\ w_locked w = false /\
    (forall c c' x y, w_classes w c = Some x -> w_classes w c' = Some y -> c = c' /\ w_current w = Some c) /\
    (forall i x, w_impls w i = Some x -> exists l n, w_loggers w l = Some (mkL n (Some i)) /\
       forall l' n', w_loggers w l' = Some (mkL n' (Some i)) -> l' = l) /\
    (forall l n i, w_loggers w l = Some (mkL n (Some i)) -> w_impls w i = Some (chosen ops, n)) /\
    (forall l, option_map l_name (w_loggers w l) = names_of ops l).
Proof.
  intros ops F. destruct (fair_run ops F) as (w & E & IV & SM). exists w. split; [exact E|]. split; [exact (proj1 (inv_lock w IV))|].
  assert (OB : exists k, objects w k /\ forall l n i, bound w l n i -> k = chosen ops).
  { assert (IV' := IV). destruct IV' as [_ IV']. destruct (w_current w) as [c|] eqn:CU.
    - destruct IV' as (k & ls & K & O & _). exists k. split; [exact O|]. intros l n i _.
      assert (X := run_kind ops s_start). unfold s_kind at 1 in X. destruct SM as (_ & _ & C & _). rewrite CU, K in C. rewrite C in X. exact X.
    - destruct IV' as [[k O] U]. exists k. split; [exact O|]. intros l n i B. exfalso. apply (U l). exists n, i. exact B. }
  destruct OB as (k & O & KC). split; [|split; [|split]].
  - intros c c' x y X Y. assert (A := proj1 IV _ _ X). assert (B := proj1 IV _ _ Y). split; congruence.
  - intros i x X. destruct (o_own _ _ O _ _ X) as (l & n & B). exists l, n. split; [exact B|]. intros l' n' B'. exact (o_inj _ _ O _ _ _ _ _ B' B).
  - intros l n i B. assert (X := o_live _ _ O _ _ _ B). rewrite (KC _ _ _ B) in X. exact X.
  - intros l. rewrite <- names_run. destruct SM as (G & _). rewrite G. destruct (w_loggers w l); reflexivity.
Qed.

(** the answer of a logger depends on the class chosen last, its name and the levels; asking does not change it *)
Theorem C122_enabled : forall ops l level, fair [] (ops ++ [Enabled l level]) ->
  exists w prio, run_ops (ops ++ [Enabled l level]) start = Ok w /\
    w_out w = w_out match run_ops ops start with Ok v => v | _ => start end ++
      [Answer (enabled root other (chosen ops) (match names_of ops l with Some n => n | None => "" end) (level_of ops) prio level)] /\
    w_prio w = prio.
Proof.
  intros ops l level F. destruct (fair_run _ F) as (w & E & IV & SM). apply fair_app in F. destruct F as [F _].
  destruct (fair_run _ F) as (v & EV & _ & SV). exists w, (w_prio w). split; [exact E|]. split; [|reflexivity].
  rewrite EV. destruct SM as (_ & _ & _ & _ & P & OU). rewrite <- OU, <- P. destruct SV as (_ & _ & _ & _ & _ & OV). rewrite <- OV.
  rewrite run_app. set (s := s_run ops s_start) in *. cbn [s_run fold_left s_step]. cbv zeta. cbn [s_emit s_out s_prio].
  assert (X : s_out (s_use l s) = s_out s) by (unfold s_use, s_mark, s_ensure; cbn [s_out]; destruct (s_class s); reflexivity).
  rewrite X. f_equal. do 2 f_equal. unfold s_enabled. rewrite kind_use, level_use. subst s.
  rewrite (run_kind ops s_start), (run_level ops s_start). unfold chosen, level_of. f_equal.
  unfold s_name. rewrite <- names_run. rewrite <- (proj1 (name_use l (s_run ops s_start) l)).
  destruct (s_logger (s_use l (s_run ops s_start)) l) as [[a b]|]; reflexivity.
Qed.
(** with the class for stderr, LOG4FIMEX writes a message iff its level is at least the level set last *)
Theorem C122_stderr : forall ops l level message file line, fair [] (ops ++ [Log l level message file line]) -> chosen ops = Stderr ->
  exists v w name, run_ops ops start = Ok v /\ run_ops (ops ++ [Log l level message file line]) start = Ok w /\ names_of ops l = Some name /\
    w_out w = w_out v ++
      (if (level_of ops <=? level)%Z
       then [Written Stderr name level (level_name level ++ message ++ " in " ++ file ++ " at line " ++ show line)%string] else []).
Proof.
  intros ops l level m f n F CH. destruct (fair_run _ F) as (w & E & IV & SM). apply fair_app in F. destruct F as [F [FL _]].
  destruct (fair_run _ F) as (v & EV & _ & SV). specialize (FL l eq_refl). cbn [List.app] in FL.
  destruct (names_of ops l) as [name|] eqn:NM; [|contradiction]. exists v, w, name. split; [exact EV|]. split; [exact E|]. split; [reflexivity|].
  destruct SM as (_ & _ & _ & _ & _ & OU). rewrite <- OU. destruct SV as (_ & _ & _ & _ & _ & OV). rewrite <- OV.
  rewrite run_app. set (s := s_run ops s_start) in *. cbn [s_run fold_left s_step]. cbv zeta.
  assert (X : s_out (s_use l s) = s_out s) by (unfold s_use, s_mark, s_ensure; cbn [s_out]; destruct (s_class s); reflexivity).
  assert (KD : s_kind (s_use l s) = Stderr) by (rewrite kind_use; subst s; rewrite run_kind; exact CH).
  assert (LV : s_level (s_use l s) = level_of ops) by (rewrite level_use; subst s; exact (run_level ops s_start)).
  assert (NN : s_name l (s_use l s) = name).
  { unfold s_name. assert (Y := proj1 (name_use l s l)). subst s. rewrite names_run, NM in Y.
    destruct (s_logger (s_use l (s_run ops s_start)) l) as [[a b]|]; [|discriminate]. injection Y as ->. reflexivity. }
  unfold s_enabled, s_written. rewrite KD, LV, NN. cbn [enabled written]. destruct (level_of ops <=? level)%Z.
  - cbn [s_emit s_out]. rewrite X. reflexivity.
  - rewrite X, app_nil_r. reflexivity.
Qed.
(** the category fimex and those below it *)
Definition fimex_name (name : string) : Prop := name = "fimex"%string \/ exists r, name = ("fimex." ++ r)%string.
Lemma prefix_exists p : forall s, prefix p s = true <-> exists r, s = (p ++ r)%string.
Proof.
  induction p as [|a p IH]; intros s.
  - split; [intros _; exists s; reflexivity|intros _; destruct s; reflexivity].
  - destruct s as [|b s]; [split; [discriminate|intros (r & E); discriminate E]|].
    change (prefix (String a p) (String b s)) with (if ascii_dec a b then prefix p s else false).
    destruct (ascii_dec a b) as [->|N].
    + rewrite IH. split; intros (r & E); exists r; [now rewrite E|now injection E].
    + split; [discriminate|]. intros (r & E). injection E as E _. congruence.
Qed.
Lemma below_name name : below_fimex name = true <-> fimex_name name.
Proof.
  unfold below_fimex, fimex_name. rewrite orb_true_iff, String.eqb_eq, prefix_exists. tauto.
Qed.
(** log4cpp: a level that is none of the five is never enabled; the answers depend on the name only by the part fimex *)
Theorem C122_log4cpp : forall name deflt prio level, (root < NOTSET)%Z ->
  (~ In level [FATAL; ERROR; WARN; INFO; DEBUG] -> enabled root other Log4cpp name deflt prio level = false) /\
  (forall z, fimex_name name -> prio = priority z -> In z [FATAL; ERROR; WARN; INFO; DEBUG] -> In level [FATAL; ERROR; WARN; INFO; DEBUG] ->
     enabled root other Log4cpp name deflt prio level = (z <=? level)%Z) /\
  (~ fimex_name name -> enabled root other Log4cpp name deflt prio level = (priority level <=? root)%Z).
Proof.
  intros name deflt prio level R. cbn [enabled]. split; [|split].
  - intros H. assert (P : priority level = NOTSET).
    { unfold priority.
      assert (X : forall z, In z [FATAL; ERROR; WARN; INFO; DEBUG] -> (level =? z)%Z = false) by (intros z Z; apply Z.eqb_neq; intros ->; exact (H Z)).
      rewrite !X by (cbn [In]; auto 6). reflexivity. }
    rewrite P. apply Z.leb_gt. unfold chained. destruct (below_fimex name); [|exact R]. destruct (Z.leb_spec NOTSET prio); [exact R|assumption].
  - intros z B -> Z L. apply below_name in B. unfold chained. rewrite B. clear B.
    assert (Q : (NOTSET <=? priority z)%Z = false).
    { destruct Z as [<-|[<-|[<-|[<-|[<-|[]]]]]]; reflexivity. }
    rewrite Q. destruct Z as [<-|[<-|[<-|[<-|[<-|[]]]]]], L as [<-|[<-|[<-|[<-|[<-|[]]]]]]; reflexivity.
  - intros B. unfold chained. destruct (below_fimex name) eqn:E; [|reflexivity]. apply below_name in E. contradiction.
Qed.

(** the end: with all loggers deleted, setClass(0) deletes the class, and nothing is left *)
Theorem C122_shutdown : forall ops, fair [] ops -> (forall l, names_of ops l = None) ->
  exists w, run_ops (ops ++ [SetPtr None]) start = Ok w /\ w_current w = None /\
    (forall c, w_classes w c = None) /\ (forall i, w_impls w i = None) /\ (forall l, w_loggers w l = None).
Proof.
  intros ops F NN. assert (F' : fair [] (ops ++ [SetPtr None])).
  { apply fair_app. split; [exact F|]. cbn. split; [discriminate|exact I]. }
  destruct (fair_run _ F') as (w & E & IV & SM). exists w. split; [exact E|].
  assert (LN : forall l, w_loggers w l = None).
  { intros l. assert (X := names_run (ops ++ [SetPtr None]) l). assert (Y : names_of (ops ++ [SetPtr None]) l = None).
    { unfold names_of. rewrite fold_left_app. exact (NN l). }
    rewrite Y in X. destruct SM as (G & _). rewrite G in X. destruct (w_loggers w l); [discriminate|reflexivity]. }
  assert (CU : w_current w = None).
  { destruct SM as (_ & _ & C & _). rewrite run_app in C. assert (A : s_any (s_run ops s_start) = false).
    { unfold s_any. apply not_true_is_false. rewrite existsb_exists. intros (l & _ & H).
      assert (X := names_run ops l). rewrite NN in X. destruct (s_logger (s_run ops s_start) l) as [[a b]|]; discriminate. }
    set (s := s_run ops s_start) in *. cbn [s_run fold_left s_step s_emit s_class] in C. unfold s_set in C. rewrite A in C.
    cbn [s_class] in C. destruct (w_current w) as [c|] eqn:Q; [|reflexivity]. destruct IV as [_ IV]. rewrite Q in IV.
    destruct IV as (k & ls & K & _). rewrite K in C. discriminate. }
  split; [exact CU|]. destruct IV as [CL IV]. rewrite CU in IV. destruct IV as [[k O] U]. split; [|split; [|exact LN]].
  - intros c. destruct (w_classes w c) eqn:Q; [|reflexivity]. rewrite CU in CL. specialize (CL _ _ Q). discriminate.
  - intros i. destruct (w_impls w i) eqn:Q; [|reflexivity]. destruct (o_own _ _ O _ _ Q) as (l & n & B). unfold bound in B. rewrite LN in B. discriminate.
Qed.
(** Finding: with a logger in use, setClass(0) leaves a class behind: the default class, made while the old class is
    deleted, because the logger that is reset asks for the class to be removed from *)
Theorem C122_null_refuted : forall ops l level, fair [] (ops ++ [Enabled l level; SetPtr None]) ->
  exists w c, run_ops (ops ++ [Enabled l level; SetPtr None]) start = Ok w /\
    w_current w = Some c /\ w_classes w c = Some (kdef, []).
Proof.
  intros ops l level F. destruct (fair_run _ F) as (w & E & IV & SM). exists w.
  assert (FL : names_of ops l <> None) by (apply fair_app in F; destruct F as [_ [F _]]; exact (F l eq_refl)).
  assert (C : s_class (s_run (ops ++ [Enabled l level; SetPtr None]) s_start) = Some kdef).
  { rewrite run_app. set (s := s_run ops s_start) in *. cbn [s_run fold_left s_step]. cbv zeta. cbn [s_emit s_class]. unfold s_set.
    replace (s_any (s_emit _ (s_use l s))) with true; [reflexivity|]. symmetry. unfold s_any. apply existsb_exists. exists l.
    rewrite <- names_run in FL. fold s in FL. cbn [s_emit s_count s_logger].
    assert (NX : forall x, s_count s <= x -> s_logger s x = None).
    { apply fair_app in F. destruct F as [F _]. destruct (fair_run _ F) as (v & _ & IV' & (G & N & _)). fold s in G, N.
      intros x X. rewrite G, (proj2 (inv_lock v IV') x) by lia. reflexivity. }
    split.
    - apply in_seq. rewrite (proj2 (name_use l s 0)). destruct (Nat.lt_ge_cases l (s_count s)) as [X|X]; [lia|].
      rewrite (NX l X) in FL. exfalso. apply FL. reflexivity.
    - unfold s_use, s_mark. cbn [s_logger]. rewrite Nat.eqb_refl, (proj1 (name_ensure s)).
      destruct (s_logger s l); [reflexivity|exfalso; apply FL; reflexivity]. }
  destruct SM as (G & _ & CC & _). rewrite C in CC. destruct IV as [_ IV]. destruct (w_current w) as [c|]; [|discriminate].
  destruct IV as (k & ls & K & O & [ND U]). rewrite K in CC. injection CC as CK. exists c. split; [exact E|]. split; [reflexivity|]. rewrite K, CK.
  destruct ls as [|x ls]; [reflexivity|]. exfalso. assert (X : used w x) by (apply U; left; reflexivity). destruct X as (n & i & B).
  unfold bound in B. specialize (G x). rewrite B in G. rewrite run_app in G. set (s := s_run ops s_start) in *.
  cbn [s_run fold_left s_step] in G. cbv zeta in G. cbn [s_emit s_logger] in G. unfold s_set in G.
  destruct (s_any _) in G; rewrite ?(proj1 (name_ensure _)) in G; cbn [s_logger] in G; destruct (s_logger _ x) as [[a b]|] in G; discriminate.
Qed.
End Log.

(** ** Cases *)
Definition no_other (n : nat) (name : string) (level : Z) : bool := false.
Definition events (have : bool) (ops : list op) : outcome (list event) := omap w_out (run_ops have 600 no_other ops start).
Example C122_nonvacuous :
  fair [] [New "fimex.A"; SetClass LOG2STDERR; Log 0 WARN "m" "f.cc" 12; Drop 0; SetPtr None] /\
  events true [New "fimex.A"; SetClass LOG2STDERR; Enabled 0 INFO; Log 0 WARN "m" "f.cc" 12; SetLevel INFO; Enabled 0 INFO;
               SetPtr (Some (Other 3)); Enabled 0 FATAL; Forced 0 FATAL "n" "g.cc" 7; SetPtr None]
  = Ok [Answer true; Answer false; Written Stderr "fimex.A" WARN "WARN: m in f.cc at line 12"; Answer true; Answer true; Answer false;
        Written (Other 3) "fimex.A" FATAL "n in g.cc at line 7"; Answer false] /\
  events false [New "fimex.A"; SetClass LOG4CPP; Enabled 0 INFO; Forced 0 OFF "m" "f" 0; Forced 0 1 "m" "f" 10]
  = Ok [Answer false; Answer false; Written Stderr "fimex.A" OFF "OFFm in f at line 0"; Written Stderr "fimex.A" 1 "LOGm in f at line 10"] /\
  events true [New "fimex.A"; New "c_fimex"; CLevel DEBUG; Enabled 0 DEBUG; Enabled 1 DEBUG; Enabled 1 INFO; Forced 1 DEBUG "m" "f" 1; Forced 0 DEBUG "m" "f" 1]
  = Ok [Answer true; Answer false; Answer true; Written Log4cpp "fimex.A" DEBUG "m in f at line 1"].
Proof.
  split.
  - cbn. repeat split; intros l H; try discriminate; injection H as <-; discriminate.
  - split; [vm_compute; reflexivity|]. split; vm_compute; reflexivity.
Qed.
(** Finding: with log4cpp, whose root has the priority INFO, no level above INFO is kept: neither WARN, the default, nor
    OFF; and a level once lowered is not raised again.  A level set after the class is ignored. *)
Theorem C122_log4cpp_level_refuted :
  (forall z, In z [OFF; FATAL; ERROR; WARN; INFO] -> events true [New "fimex.A"; CLevel z; Enabled 0 INFO] = Ok [Answer true]) /\
  (forall z, In z [FATAL; ERROR; WARN; INFO] -> events true [New "fimex.A"; CLevel DEBUG; CLevel z; Enabled 0 DEBUG] = Ok [Answer true]) /\
  events true [New "fimex.A"; CLevel DEBUG; CLevel OFF; Enabled 0 DEBUG; Enabled 0 INFO] = Ok [Answer false; Answer true] /\
  events true [New "fimex.A"; SetClass LOG4CPP; SetLevel DEBUG; Enabled 0 DEBUG] = Ok [Answer true; Answer false].
Proof.
  split; [|split; [|split]].
  - intros z [<-|[<-|[<-|[<-|[<-|[]]]]]]; vm_compute; reflexivity.
  - intros z [<-|[<-|[<-|[<-|[]]]]]; vm_compute; reflexivity.
  - vm_compute. reflexivity.
  - vm_compute. reflexivity.
Qed.
(** Finding: with stderr, messages of level OFF are always written *)
Theorem C122_off_refuted : forall have z, In z [OFF; FATAL; ERROR; WARN; INFO; DEBUG] ->
  events have [New "a"; SetClass LOG2STDERR; SetLevel z; Log 0 OFF "m" "f" 1] = Ok [Answer true; Written Stderr "a" OFF "OFFm in f at line 1"].
Proof. intros [] z [<-|[<-|[<-|[<-|[<-|[<-|[]]]]]]]; vm_compute; reflexivity. Qed.

Print Assumptions C122_safe.
Print Assumptions C122_enabled.
Print Assumptions C122_stderr.
Print Assumptions C122_log4cpp.
Print Assumptions C122_shutdown.
Print Assumptions C122_null_refuted.
Print Assumptions C122_nonvacuous.
Print Assumptions C122_log4cpp_level_refuted.
Print Assumptions C122_off_refuted.
