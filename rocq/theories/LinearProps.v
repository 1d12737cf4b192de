(** C50 interpolation between two fields. *)
From Coq Require Import Reals List Lia Lra.
From Verif Require Import LinearModel.
Import ListNotations.
Local Open Scope R_scope.

Lemma eqb_spec : forall x y, eqb_ (Some x) (Some y) = true <-> x = y.
Proof. intros. unfold eqb_, cmp. destruct (Req_EM_T x y); split; intro H; try discriminate; tauto. Qed.
Lemma eqb_false : forall x y, x <> y -> eqb_ (Some x) (Some y) = false.
Proof. intros. unfold eqb_, cmp. destruct (Req_EM_T x y); [ contradiction | reflexivity ]. Qed.
Lemma leb_spec : forall x y, leb_ (Some x) (Some y) = true <-> x <= y.
Proof. intros. unfold leb_, cmp. destruct (Rle_dec x y); split; intro H; try discriminate; tauto. Qed.
Lemma leb_false : forall x y, y < x -> leb_ (Some x) (Some y) = false.
Proof. intros. unfold leb_, cmp. destruct (Rle_dec x y); [ lra | reflexivity ]. Qed.

Lemma ratio_val : forall a b x, a <> b -> ratio (Some a) (Some b) (Some x) = Some ((x - a) / (b - a)).
Proof. intros a b x H. unfold ratio. now rewrite eqb_false. Qed.
Lemma ratio_same : forall a x, ratio (Some a) (Some a) x = Some 0.
Proof. intros. unfold ratio. now rewrite (proj2 (eqb_spec a a)). Qed.

(** the cells of a result: one value for each pair of cells *)
Lemma simple_nth : forall (A B : list num) f i (va vb : num), length A = length B -> nth_error A i = Some va -> nth_error B i = Some vb ->
  nth_error (simple A B f) i = Some (lift2 Rplus va (lift2 Rmult f (lift2 Rminus vb va))).
Proof.
  intros A B f i va vb L EA EB. unfold simple.
  assert (E : nth_error (combine A B) i = Some (va, vb)).
  { revert B i L EA EB. induction A as [ | x A IH ]; intros [ | y B ] [ | i ] L EA EB; try discriminate.
    - cbn in *. congruence.
    - cbn in *. apply IH; auto. }
  exact (map_nth_error _ _ _ E).
Qed.
Lemma simple_length : forall (A B : list num) f, length A = length B -> length (simple A B f) = length A.
Proof. intros. unfold simple. rewrite map_length, combine_length. lia. Qed.

(** all kinds keep the number of cells *)
Theorem C50_size : forall (A B : list num) a b x, length A = length B ->
  length (linear A B a b x) = length A /\ length (linear_weak A B a b x) = length A /\
  length (linear_no A B a b x) = length A /\ length (linear_const A B a b x) = length A.
Proof.
  intros A B a b x L. unfold linear, linear_weak, linear_no, linear_conf, linear_const.
  repeat split;
    repeat match goal with |- context [if ?c then _ else _] => destruct c end;
    rewrite ?simple_length, ?map_length; auto.
Qed.

(** at the first coordinate the first field, at the second one the second field, bit for bit, even
    where the other field is undefined *)
Theorem C50_ends : forall (A B : list num) a b, a <> b ->
  linear A B (Some a) (Some b) (Some a) = A /\ linear A B (Some a) (Some b) (Some b) = B /\
  linear_weak A B (Some a) (Some b) (Some a) = A /\ linear_weak A B (Some a) (Some b) (Some b) = B /\
  linear_no A B (Some a) (Some b) (Some a) = A /\ linear_no A B (Some a) (Some b) (Some b) = B /\
  linear_const A B (Some a) (Some b) (Some a) = A /\ linear_const A B (Some a) (Some b) (Some b) = B.
Proof.
  intros A B a b H. assert (D : b - a <> 0) by lra.
  assert (R0 : ratio (Some a) (Some b) (Some a) = Some 0) by (rewrite ratio_val by exact H; f_equal; field; exact D).
  assert (R1 : ratio (Some a) (Some b) (Some b) = Some 1) by (rewrite ratio_val by exact H; f_equal; field; exact D).
  unfold linear, linear_weak, linear_no, linear_conf, linear_const. rewrite R0, R1.
  rewrite (proj2 (eqb_spec 0 0)), (proj2 (eqb_spec 1 1)), (eqb_false 1 0) by lra.
  rewrite (leb_false 1 0), (proj2 (leb_spec 1 1)), (proj2 (leb_spec 0 0)) by lra. tauto.
Qed.

(** equal coordinates: the first field, whatever the position *)
Theorem C50_equal_coordinates : forall (A B : list num) a x,
  linear A B (Some a) (Some a) x = A /\ linear_weak A B (Some a) (Some a) x = A /\
  linear_no A B (Some a) (Some a) x = A /\ linear_const A B (Some a) (Some a) x = A.
Proof.
  intros. unfold linear, linear_weak, linear_no, linear_conf, linear_const. rewrite ratio_same.
  rewrite (proj2 (eqb_spec 0 0)), (leb_false 1 0), (proj2 (leb_spec 0 0)) by lra. tauto.
Qed.

(** the formula, for any position *)
Theorem C50_linear : forall (A B : list num) a b x i p q, a <> b -> length A = length B ->
  nth_error A i = Some (Some p) -> nth_error B i = Some (Some q) ->
  nth_error (linear A B (Some a) (Some b) (Some x)) i = Some (Some (p + (x - a) / (b - a) * (q - p))).
Proof.
  intros A B a b x i p q H L EA EB. unfold linear. rewrite ratio_val by exact H.
  assert (D : b - a <> 0) by lra.
  destruct (eqb_ (Some ((x - a) / (b - a))) (Some 0)) eqn:E0.
  - apply eqb_spec in E0. rewrite E0, EA. f_equal. f_equal. ring.
  - destruct (eqb_ (Some ((x - a) / (b - a))) (Some 1)) eqn:E1.
    + apply eqb_spec in E1. rewrite E1, EB. f_equal. f_equal. ring.
    + now rewrite (simple_nth A B _ i _ _ L EA EB).
Qed.

(** undefined where either field is undefined, at all positions other than the ends *)
Theorem C50_undefined : forall (A B : list num) a b x i (va vb : num), a <> b -> x <> a -> x <> b -> length A = length B ->
  nth_error A i = Some va -> nth_error B i = Some vb -> va = None \/ vb = None ->
  nth_error (linear A B (Some a) (Some b) (Some x)) i = Some None.
Proof.
  intros A B a b x i va vb H Ha Hb L EA EB N. unfold linear. rewrite ratio_val by exact H.
  assert (D : b - a <> 0) by lra.
  assert (F0 : (x - a) / (b - a) <> 0).
  { intro Z. apply Ha. assert ((x - a) / (b - a) * (b - a) = 0) by (rewrite Z; ring).
    replace ((x - a) / (b - a) * (b - a)) with (x - a) in * by (field; exact D). lra. }
  assert (F1 : (x - a) / (b - a) <> 1).
  { intro Z. apply Hb. assert ((x - a) / (b - a) * (b - a) = b - a) by (rewrite Z; ring).
    replace ((x - a) / (b - a) * (b - a)) with (x - a) in * by (field; exact D). lra. }
  rewrite !eqb_false by assumption. rewrite (simple_nth A B _ i _ _ L EA EB).
  destruct N as [ -> | -> ]; [ reflexivity | ]. now destruct va.
Qed.

Lemma ratio_in : forall a b x, (a < x < b \/ b < x < a) -> 0 < (x - a) / (b - a) < 1.
Proof.
  intros a b x [ H | H ].
  - split; [ apply Rdiv_lt_0_compat; lra | ]. apply (Rmult_lt_reg_r (b - a)); [ lra | ].
    replace ((x - a) / (b - a) * (b - a)) with (x - a) by (field; lra). lra.
  - replace ((x - a) / (b - a)) with ((a - x) / (a - b)) by (field; lra).
    split; [ apply Rdiv_lt_0_compat; lra | ]. apply (Rmult_lt_reg_r (a - b)); [ lra | ].
    replace ((a - x) / (a - b) * (a - b)) with (a - x) by (field; lra). lra.
Qed.
Lemma ratio_above : forall a b x, (a < b /\ b < x \/ b < a /\ x < b) -> 1 < (x - a) / (b - a).
Proof.
  intros a b x [ H | H ].
  - apply (Rmult_lt_reg_r (b - a)); [ lra | ]. replace ((x - a) / (b - a) * (b - a)) with (x - a) by (field; lra). lra.
  - replace ((x - a) / (b - a)) with ((a - x) / (a - b)) by (field; lra).
    apply (Rmult_lt_reg_r (a - b)); [ lra | ]. replace ((a - x) / (a - b) * (a - b)) with (a - x) by (field; lra). lra.
Qed.
Lemma ratio_below : forall a b x, (a < b /\ x < a \/ b < a /\ a < x) -> (x - a) / (b - a) < 0.
Proof.
  intros a b x [ H | H ].
  - apply (Rmult_lt_reg_r (b - a)); [ lra | ]. replace ((x - a) / (b - a) * (b - a)) with (x - a) by (field; lra). lra.
  - replace ((x - a) / (b - a)) with ((a - x) / (a - b)) by (field; lra).
    apply (Rmult_lt_reg_r (a - b)); [ lra | ]. replace ((a - x) / (a - b) * (a - b)) with (a - x) by (field; lra). lra.
Qed.

(** between the coordinates: between the two values (strictly, if they differ), for increasing and
    decreasing coordinates *)
Theorem C50_between : forall (A B : list num) a b x i p q, (a < x < b \/ b < x < a) -> length A = length B ->
  nth_error A i = Some (Some p) -> nth_error B i = Some (Some q) ->
  exists v, nth_error (linear A B (Some a) (Some b) (Some x)) i = Some (Some v) /\
    (p <= q -> p <= v <= q) /\ (q <= p -> q <= v <= p) /\ (p < q -> p < v < q) /\ (q < p -> q < v < p).
Proof.
  intros A B a b x i p q H L EA EB. eexists. split; [ apply C50_linear; try eassumption; lra | ].
  assert (F := ratio_in a b x H). set (f := (x - a) / (b - a)) in *. repeat split; intros; nra.
Qed.

(** moving the position towards the second coordinate moves the value towards the second field *)
Theorem C50_monotone : forall (A B : list num) a b x y i p q u v, a < b -> x <= y -> length A = length B ->
  nth_error A i = Some (Some p) -> nth_error B i = Some (Some q) -> p <= q ->
  nth_error (linear A B (Some a) (Some b) (Some x)) i = Some (Some u) ->
  nth_error (linear A B (Some a) (Some b) (Some y)) i = Some (Some v) -> u <= v.
Proof.
  intros A B a b x y i p q u v H Hx L EA EB P EU EV.
  rewrite (C50_linear A B a b x i p q) in EU by (auto; lra). rewrite (C50_linear A B a b y i p q) in EV by (auto; lra).
  injection EU as <-. injection EV as <-.
  assert (I : 0 < / (b - a)) by (apply Rinv_0_lt_compat; lra). unfold Rdiv.
  apply Rplus_le_compat_l. apply Rmult_le_compat_r; [ lra | ]. apply Rmult_le_compat_r; lra.
Qed.

(** values that are linear in the coordinate are reproduced, inside and outside *)
Theorem C50_reproduces_linear : forall (A B : list num) a b x i m c, a <> b -> length A = length B ->
  nth_error A i = Some (Some (m * a + c)) -> nth_error B i = Some (Some (m * b + c)) ->
  nth_error (linear A B (Some a) (Some b) (Some x)) i = Some (Some (m * x + c)).
Proof.
  intros A B a b x i m c H L EA EB. rewrite (C50_linear A B a b x i _ _ H L EA EB). f_equal. f_equal. field. lra.
Qed.

(** ** outside *)

(** inside the coordinates all variants are the linear one *)
Theorem C50_variants_inside : forall (A B : list num) a b x, (a < x < b \/ b < x < a) ->
  linear_weak A B (Some a) (Some b) (Some x) = linear A B (Some a) (Some b) (Some x) /\
  linear_no A B (Some a) (Some b) (Some x) = linear A B (Some a) (Some b) (Some x) /\
  linear_const A B (Some a) (Some b) (Some x) = linear A B (Some a) (Some b) (Some x).
Proof.
  intros A B a b x H. unfold linear, linear_weak, linear_no, linear_conf, linear_const.
  rewrite ratio_val by lra. assert (F := ratio_in a b x H). set (f := (x - a) / (b - a)) in *.
  rewrite !eqb_false by lra. rewrite (leb_false 1 f), (leb_false f 0) by lra.
  rewrite !(proj2 (leb_spec _ _)) by lra. cbn [andb]. tauto.
Qed.

(** no extrapolation: outside everything is undefined *)
Theorem C50_no_extrapolation : forall (A B : list num) a b x, a <> b -> ~ (a <= x <= b) -> ~ (b <= x <= a) ->
  linear_no A B (Some a) (Some b) (Some x) = map (fun _ => None) A.
Proof.
  intros A B a b x H H1 H2. unfold linear_no, linear_conf. rewrite ratio_val by exact H.
  assert (C : (x - a) / (b - a) < 0 \/ 1 < (x - a) / (b - a)).
  { destruct (Rlt_dec a b).
    - destruct (Rlt_dec x a); [ left; apply ratio_below; lra | right; apply ratio_above; lra ].
    - destruct (Rlt_dec x b); [ right; apply ratio_above; lra | left; apply ratio_below; lra ]. }
  destruct C as [ C | C ]; rewrite !eqb_false by lra.
  - rewrite (leb_false 0) by lra. reflexivity.
  - rewrite (leb_false _ 1) by lra. now rewrite Bool.andb_false_r.
Qed.

(** weak extrapolation: linear up to one distance outside, undefined further away *)
Theorem C50_weak_extrapolation : forall (A B : list num) a b x, a < b ->
  (a - (b - a) <= x <= b + (b - a) ->
     linear_weak A B (Some a) (Some b) (Some x) = linear A B (Some a) (Some b) (Some x)) /\
  (x < a - (b - a) \/ b + (b - a) < x -> linear_weak A B (Some a) (Some b) (Some x) = map (fun _ => None) A).
Proof.
  intros A B a b x H. unfold linear, linear_weak, linear_conf. rewrite ratio_val by lra.
  set (f := (x - a) / (b - a)). assert (E : f * (b - a) = x - a) by (unfold f; field; lra). split.
  - intro X. assert (-1 <= f) by (apply Rnot_lt_le; intro; nra). assert (f <= 2) by (apply Rnot_lt_le; intro; nra).
    rewrite (proj2 (leb_spec (-1) f)), (proj2 (leb_spec f 2)) by assumption. reflexivity.
  - intros [ X | X ].
    + assert (f < -1) by (apply Rnot_le_lt; intro; nra). rewrite !eqb_false by lra. rewrite (leb_false (-1) f) by lra. reflexivity.
    + assert (2 < f) by (apply Rnot_le_lt; intro; nra). rewrite !eqb_false by lra. rewrite (leb_false f 2) by lra.
      now rewrite Bool.andb_false_r.
Qed.

(** constant extrapolation: the nearer field *)
Theorem C50_const_extrapolation : forall (A B : list num) a b x,
  (a < b /\ b <= x \/ b < a /\ x <= b -> linear_const A B (Some a) (Some b) (Some x) = B) /\
  (a < b /\ x <= a \/ b < a /\ a <= x -> linear_const A B (Some a) (Some b) (Some x) = A).
Proof.
  intros A B a b x. unfold linear_const. split; intro H; rewrite ratio_val by lra.
  - assert (F : 1 <= (x - a) / (b - a)).
    { destruct (Req_dec x b) as [ -> | N ]; [ right; field; lra | left; apply ratio_above; lra ]. }
    now rewrite (proj2 (leb_spec _ _)).
  - assert (F : (x - a) / (b - a) <= 0).
    { destruct (Req_dec x a) as [ -> | N ]; [ right; field; lra | left; apply ratio_below; lra ]. }
    rewrite (leb_false 1) by lra. now rewrite (proj2 (leb_spec _ _)).
Qed.

(** an undefined coordinate: nothing is defined *)
Theorem C50_nan_coordinate : forall (A B : list num) a b x i (v : num), length A = length B -> a = None \/ b = None \/ a <> b /\ x = None ->
  nth_error (linear A B a b x) i = Some v -> v = None.
Proof.
  intros A B a b x i v L H E.
  assert (R : ratio a b x = None).
  { unfold ratio. assert (Q : eqb_ a b = false).
    { destruct a as [ p | ]; [ | reflexivity ]. destruct b as [ q | ]; [ | reflexivity ].
      apply eqb_false. intros ->. destruct H as [ H | [ H | [ H _ ] ] ]; congruence. }
    rewrite Q. destruct a as [ p | ]; [ | now destruct x ]. destruct b as [ q | ]; [ | destruct x; reflexivity ].
    destruct H as [ H | [ H | [ _ -> ] ] ]; [ discriminate | discriminate | reflexivity ]. }
  unfold linear in E. rewrite R in E. cbn in E.
  assert (LS : (i < length (simple A B None))%nat) by (apply nth_error_Some; rewrite E; discriminate).
  rewrite simple_length in LS by exact L.
  destruct (nth_error A i) as [ va | ] eqn:EA; [ | apply nth_error_None in EA; lia ].
  destruct (nth_error B i) as [ vb | ] eqn:EB; [ | apply nth_error_None in EB; lia ].
  rewrite (simple_nth A B None i va vb L EA EB) in E. injection E as <-. destruct va, vb; reflexivity.
Qed.

Theorem C50_nearest : forall (A B : list num) a b x, nearest A B a b x = A.
Proof. reflexivity. Qed.

(** ** logarithmic *)

(** positive coordinates are required; else an error and nothing is written *)
Theorem C50_log_domain : forall (A B out : list num) a b x,
  (log_f A B (Some a) (Some b) (Some x) = None <-> a <= 0 \/ b <= 0 \/ x <= 0) /\
  (log_log_f A B out (Some a) (Some b) (Some x) = None <-> a <= 0 \/ b <= 0 \/ x <= 0).
Proof.
  assert (G : forall a b x, orb (orb (leb_ (Some a) (Some 0)) (leb_ (Some b) (Some 0))) (leb_ (Some x) (Some 0)) = true <->
              a <= 0 \/ b <= 0 \/ x <= 0).
  { intros. rewrite !Bool.orb_true_iff, !leb_spec. tauto. }
  intros A B out a b x. unfold log_f, log_log_f. rewrite <- G.
  destruct (orb (orb (leb_ (Some a) (Some 0)) (leb_ (Some b) (Some 0))) (leb_ (Some x) (Some 0)));
    split; split; intro; auto; discriminate.
Qed.

Lemma log_pos : forall (A B : list num) a b x, 0 < a -> 0 < b -> 0 < x ->
  log_f A B (Some a) (Some b) (Some x) = Some (linear A B (Some (ln a)) (Some (ln b)) (Some (ln x))).
Proof. intros. unfold log_f. rewrite !leb_false by assumption. reflexivity. Qed.

Lemma log_log_pos : forall (A B out : list num) a b x, 0 < a -> 0 < b -> 0 < x ->
  log_log_f A B out (Some a) (Some b) (Some x) =
  Some (linear A B (Some (ln (ln (a + M_E)))) (Some (ln (ln (b + M_E)))) (Some (ln (ln (x + M_E))))).
Proof.
  intros A B out a b x Ha Hb Hx. unfold log_log_f. rewrite !leb_false by assumption. cbn [orb].
  assert (P : forall v, 0 < v -> 0 < ln (v + M_E)).
  { intros v Hv. rewrite <- ln_1. apply ln_increasing; unfold M_E; lra. }
  cbn [log_ option_map lift2]. now rewrite log_pos by auto.
Qed.

(** the ends *)
Theorem C50_log_ends : forall (A B out : list num) a b, 0 < a -> 0 < b -> a <> b ->
  log_f A B (Some a) (Some b) (Some a) = Some A /\ log_f A B (Some a) (Some b) (Some b) = Some B /\
  log_log_f A B out (Some a) (Some b) (Some a) = Some A /\ log_log_f A B out (Some a) (Some b) (Some b) = Some B.
Proof.
  intros A B out a b Ha Hb H.
  assert (N1 : ln a <> ln b) by (intro E; apply H; now apply ln_inv).
  assert (P : forall v, 0 < v -> 0 < ln (v + M_E)).
  { intros v Hv. rewrite <- ln_1. apply ln_increasing; unfold M_E; lra. }
  assert (N2 : ln (ln (a + M_E)) <> ln (ln (b + M_E))).
  { intro E. apply ln_inv in E; auto. apply ln_inv in E; unfold M_E in *; lra. }
  rewrite !log_pos, !log_log_pos by assumption.
  destruct (C50_ends A B _ _ N1) as (E1 & E2 & _). destruct (C50_ends A B _ _ N2) as (E3 & E4 & _).
  now rewrite E1, E2, E3, E4.
Qed.

(** between the coordinates: between the values *)
Theorem C50_log_between : forall (A B out : list num) a b x i p q, 0 < a -> 0 < b -> (a < x < b \/ b < x < a) -> length A = length B ->
  nth_error A i = Some (Some p) -> nth_error B i = Some (Some q) ->
  exists r v r' v', log_f A B (Some a) (Some b) (Some x) = Some r /\ nth_error r i = Some (Some v) /\
    log_log_f A B out (Some a) (Some b) (Some x) = Some r' /\ nth_error r' i = Some (Some v') /\
    (p <= q -> p <= v <= q /\ p <= v' <= q) /\ (q <= p -> q <= v <= p /\ q <= v' <= p).
Proof.
  intros A B out a b x i p q Ha Hb H L EA EB. assert (Hx : 0 < x) by lra.
  rewrite log_pos, log_log_pos by assumption.
  assert (P : forall v, 0 < v -> 0 < ln (v + M_E)).
  { intros v Hv. rewrite <- ln_1. apply ln_increasing; unfold M_E; lra. }
  assert (M : forall u v, 0 < u -> u < v -> ln (ln (u + M_E)) < ln (ln (v + M_E))).
  { intros u v Hu Hv. apply ln_increasing; [ auto | ]. apply ln_increasing; unfold M_E; lra. }
  destruct (C50_between A B (ln a) (ln b) (ln x) i p q) as (v & E & B1 & B2 & _); auto.
  { destruct H as [ H | H ]; [ left | right ]; split; apply ln_increasing; lra. }
  destruct (C50_between A B (ln (ln (a + M_E))) (ln (ln (b + M_E))) (ln (ln (x + M_E))) i p q) as (v' & E' & B1' & B2' & _); auto.
  { destruct H as [ H | H ]; [ left | right ]; split; apply M; lra. }
  eexists _, v, _, v'. repeat (split; [ reflexivity || eassumption | ]). split; intro; auto.
Qed.

(** values m*log(x)+c are reproduced *)
Theorem C50_reproduces_log : forall (A B : list num) a b x i m c, 0 < a -> 0 < b -> 0 < x -> a <> b -> length A = length B ->
  nth_error A i = Some (Some (m * ln a + c)) -> nth_error B i = Some (Some (m * ln b + c)) ->
  exists r, log_f A B (Some a) (Some b) (Some x) = Some r /\ nth_error r i = Some (Some (m * ln x + c)).
Proof.
  intros A B a b x i m c Ha Hb Hx H L EA EB. rewrite log_pos by assumption. eexists. split; [ reflexivity | ].
  apply C50_reproduces_linear; auto. intro E. apply H. now apply ln_inv.
Qed.

Example C50_nonvacuous :
  let A : list num := [Some 1; None; Some 3] in let B : list num := [Some 5; Some 2; Some 3] in
  linear A B (Some 10) (Some 20) (Some 15) = [Some 3; None; Some 3] /\
  linear_no A B (Some 10) (Some 20) (Some 25) = [None; None; None] /\
  linear_weak A B (Some 10) (Some 20) (Some 25) = [Some 7; None; Some 3] /\
  linear_const A B (Some 10) (Some 20) (Some 25) = B /\ length A = length B.
Proof.
  cbv zeta.
  assert (S : forall f, simple [Some 1; None; Some 3] [Some 5; Some 2; Some 3] (Some f) = [Some (1 + f * (5 - 1)); None; Some (3 + f * (3 - 3))]) by reflexivity.
  assert (L1 : linear [Some 1; None; Some 3] [Some 5; Some 2; Some 3] (Some 10) (Some 20) (Some 15) = [Some 3; None; Some 3]).
  { unfold linear. rewrite ratio_val by lra. rewrite !eqb_false by lra. rewrite S. f_equal; [ f_equal; lra | ]. f_equal. f_equal. f_equal. lra. }
  assert (L2 : linear [Some 1; None; Some 3] [Some 5; Some 2; Some 3] (Some 10) (Some 20) (Some 25) = [Some 7; None; Some 3]).
  { unfold linear. rewrite ratio_val by lra. rewrite !eqb_false by lra. rewrite S. f_equal; [ f_equal; lra | ]. f_equal. f_equal. f_equal. lra. }
  repeat split; auto.
  - apply C50_no_extrapolation; lra.
  - rewrite (proj1 (C50_weak_extrapolation _ _ 10 20 25 ltac:(lra))) by lra. exact L2.
  - apply C50_const_extrapolation. lra.
Qed.

Print Assumptions C50_size.
Print Assumptions C50_ends.
Print Assumptions C50_equal_coordinates.
Print Assumptions C50_linear.
Print Assumptions C50_undefined.
Print Assumptions C50_between.
Print Assumptions C50_monotone.
Print Assumptions C50_reproduces_linear.
Print Assumptions C50_variants_inside.
Print Assumptions C50_no_extrapolation.
Print Assumptions C50_weak_extrapolation.
Print Assumptions C50_const_extrapolation.
Print Assumptions C50_nan_coordinate.
Print Assumptions C50_nearest.
Print Assumptions C50_log_domain.
Print Assumptions C50_log_ends.
Print Assumptions C50_log_between.
Print Assumptions C50_reproduces_log.
