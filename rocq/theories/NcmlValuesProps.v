(** C87, C89: the numbers of values, their progressions and the records in NcML documents. *)
From Coq Require Import PeanoNat NArith ZArith QArith Qcanon Ascii String List Bool Lia ZifyBool ZifyNat ZifyN.
From Verif Require Import Base StdMap SliceModel RegridModel StringModel TextModel ConvertModel CdmModel CdmProofs NmlModel NmlProofs NmlwModel.
Import ListNotations.
Local Open Scope string_scope.
Local Open Scope list_scope.
Local Open Scope nat_scope.

(** the product of the lengths of the dimensions for which [p] holds *)
Definition len_of (c : cdm) (p : cdim -> bool) (n : string) : N :=
  match find_dim n (dims c) with Some d => if p d then d_len d else 1%N | None => 1%N end.
Definition lens (c : cdm) (p : cdim -> bool) (shape : list string) : N := fold_right (fun n r => (len_of c p n * r)%N) 1%N shape.

Lemma mul64_mod a b : mul64 (a mod M64) b = ((a * b) mod M64)%N.
Proof. unfold mul64, w64. rewrite N.mul_mod_idemp_l; [reflexivity|discriminate]. Qed.
Lemma lens_fold c (p : cdim -> bool) (f : N -> string -> outcome N) shape : (forall n, In n shape -> has_dim c n = true) ->
  (forall a n, has_dim c n = true -> f (a mod M64)%N n = Ok ((a * len_of c p n) mod M64)%N) ->
  forall a, ofold f shape (a mod M64)%N = Ok ((a * lens c p shape) mod M64)%N.
Proof.
  intros H F. induction shape as [|n l IH]; intro a; cbn [ofold lens fold_right]; [now rewrite N.mul_1_r|].
  rewrite F by (apply H; now left). cbn [obind]. rewrite IH by (intros; apply H; now right). now rewrite N.mul_assoc.
Qed.
Lemma data_size_lens c shape : (forall n, In n shape -> has_dim c n = true) -> data_size c shape = Ok (lens c (fun _ => true) shape mod M64)%N.
Proof.
  intro H. unfold data_size. change 1%N with (1 mod M64)%N at 1. rewrite (lens_fold c (fun _ => true)) with (a := 1%N); [now rewrite N.mul_1_l|exact H|].
  intros a n Hn. unfold len_of. unfold has_dim in Hn. destruct (find_dim n (dims c)); [|discriminate]. now rewrite mul64_mod.
Qed.
Lemma fixed_size_lens c v : (forall n, In n (v_shape v) -> has_dim c n = true) -> fixed_size c v = Ok (lens c (fun d => negb (d_unlim d)) (v_shape v) mod M64)%N.
Proof.
  intro H. unfold fixed_size. change 1%N with (1 mod M64)%N at 1. rewrite (lens_fold c (fun d => negb (d_unlim d))) with (a := 1%N); [now rewrite N.mul_1_l|exact H|].
  intros a n Hn. unfold len_of. unfold has_dim in Hn. destruct (find_dim n (dims c)) as [d|]; [|discriminate]. destruct (d_unlim d); cbn [negb]; [now rewrite N.mul_1_r|now rewrite mul64_mod].
Qed.

(** A start and an increment: the variable gets as many values as its dimensions make, the i-th of them start + i *
    increment, converted to the type of the variable. *)
Theorem C87_progression parse number_of c e x v n a b : xe_name e = Some n -> n <> "" -> find_var n (vars c) = Some v ->
  (forall d, In d (v_shape v) -> has_dim c d = true) ->
  ve_start x <> "" -> ve_inc x <> "" -> ve_content x = "" ->
  number_of (ve_start x) = Ok (Some a) -> number_of (ve_inc x) = Ok (Some b) ->
  let size := N.to_nat (lens c (fun _ => true) (v_shape v) mod M64) in 0 < size ->
  exists l, length l = size /\ (forall i, i < size -> nth i l None = Some (a + z2q (Z.of_nat i) * b)%Qc) /\
    values_one parse number_of c (e, x) = do l' <- convert_values DDouble (v_type v) l; Ok (change_var c n (with_data (Some l'))).
Proof.
  intros Hn Ne F Hd S I C Na Nb size P. exists (progression (Some a) (Some b) size). split; [unfold progression; now rewrite map_length, seq_length|]. split.
  - intros i Hi. unfold progression. set (g := fun i : nat => _). rewrite (nth_indep _ _ (g 0)) by (rewrite map_length, seq_length; exact Hi).
    rewrite map_nth, seq_nth by exact Hi. unfold g. cbn [Nat.add]. destruct i; [|reflexivity]. f_equal. change (z2q (Z.of_nat 0)) with 0%Qc. ring.
  - unfold values_one. rewrite Hn. unfold prop. assert (E : forall s, s <> "" -> isempty s = false) by (intros [|]; [congruence|reflexivity]).
    rewrite (E n Ne), F. rewrite data_size_lens by exact Hd. cbn [obind]. rewrite (E _ S), (E _ I), C, Na. cbn [Bool.eqb negb andb isempty obind].
    replace (lens c (fun _ => true) (v_shape v) mod M64 =? 0)%N with false by (unfold size in P; lia). now rewrite Nb.
Qed.

(** Values given one by one: there must be as many as the dimensions make (one at most for a scalar). *)
Theorem C87_values parse number_of c e x v n l : xe_name e = Some n -> n <> "" -> find_var n (vars c) = Some v ->
  (forall d, In d (v_shape v) -> has_dim c d = true) ->
  ve_start x = "" -> ve_inc x = "" -> ve_content x <> "" -> split_values (ve_content x) (ve_sep x) = Ok l ->
  let fits := if match v_shape v with [] => true | _ => false end then length l <= 1 else N.of_nat (length l) = (lens c (fun _ => true) (v_shape v) mod M64)%N in
  (~ fits -> values_one parse number_of c (e, x) = Throw) /\
  (fits -> values_one parse number_of c (e, x) = do r <- parse (v_type v) l; Ok (change_var c n (with_data (Some (fst r))))).
Proof.
  intros Hn Ne F Hd S I C L fits. assert (E : forall s, s <> "" -> isempty s = false) by (intros [|]; [congruence|reflexivity]).
  unfold values_one. rewrite Hn. unfold prop. rewrite (E n Ne), F. rewrite data_size_lens by exact Hd. cbn [obind]. rewrite S, I, (E _ C), L. cbn [Bool.eqb negb andb isempty obind].
  unfold fits. destruct (v_shape v) as [|d s].
  - destruct (Nat.ltb_spec 1 (length l)); split; intro Q; try reflexivity; lia.
  - destruct (N.eqb_spec (N.of_nat (length l)) (lens c (fun _ => true) (d :: s) mod M64)) as [Q|Q]; cbn [negb]; split; intro K; try reflexivity; contradiction.
Qed.

(** The separator of an attribute that is not a string separates its values; a string is not separated. *)
Theorem C87_separator parse a ty : ae_type a <> "" -> ncml_name2cdm (s_ (ae_type a)) false = ty -> ty <> DNat ->
  make_att parse a =
    do l <- (if in_dec string_dec (ae_type a) ["string"; "String"] then Ok [if isempty (ae_value a) then ae_content a else ae_value a]
             else split_values (if isempty (ae_value a) then ae_content a else ae_value a) (ae_sep a));
    do r <- parse ty l; Ok (mkAttr (ae_name a) ty (fst r) (snd r)).
Proof.
  intros E T N. unfold make_att. assert (EE : isempty (ae_type a) = false) by (destruct (ae_type a); [congruence|reflexivity]). rewrite EE, T.
  replace (dtype_eqb ty DNat) with false by (destruct ty; try reflexivity; congruence). fold (att_value a).
  destruct (in_dec string_dec (ae_type a) ["string"; "String"]) as [I|I].
  - replace (String.eqb (ae_type a) "string" || String.eqb (ae_type a) "String") with true; [reflexivity|]. symmetry. apply orb_true_iff. destruct I as [I|[I|[]]]; rewrite <- I; [now left|now right].
  - replace (String.eqb (ae_type a) "string" || String.eqb (ae_type a) "String") with false; [reflexivity|]. symmetry. apply orb_false_iff.
    split; apply String.eqb_neq; intro X; apply I; rewrite X; cbn; auto.
Qed.

(** The values written: with an unlimited dimension the records in order, one for each of its positions, otherwise the
    whole variable.  Where the reader has no values, as many fill values as the other dimensions make. *)
Definition given_or_filled (c : cdm) (v : cvar) (data r : list value) : Prop :=
  let size := (lens c (fun d => negb (d_unlim d)) (v_shape v) mod M64)%N in
  (data <> [] /\ r = data) \/
  (data = [] /\ length r = N.to_nat size /\ (forall x, In x r -> get_fill c (v_name v) = Ok x)).

Lemma filled_spec c v data r : filled c v (lens c (fun d => negb (d_unlim d)) (v_shape v) mod M64) data = Ok r -> given_or_filled c v data r.
Proof.
  unfold filled, given_or_filled. cbn zeta. destruct data as [|x l]; [|intro H; injection H as <-; left; split; [discriminate|reflexivity]].
  set (size := (_ mod _)%N). intro H. right. split; [reflexivity|]. destruct (N.eqb_spec size 0) as [Z|Z].
  - injection H as <-. rewrite Z. split; [reflexivity|]. intros x [].
  - destruct (get_fill c (v_name v)) as [f| | |]; try discriminate. cbn [obind] in H. injection H as <-. split; [apply repeat_length|]. intros x I. apply repeat_spec in I. now subst.
Qed.
Lemma omapM_nth {A B} (f : A -> outcome B) l r : omapM f l = Ok r -> length r = length l /\ forall i a, nth_error l i = Some a -> exists b, nth_error r i = Some b /\ f a = Ok b.
Proof.
  revert r. induction l as [|a l IH]; intros r H; cbn [omapM] in H; [injection H as <-; split; [reflexivity|]; intros [|i] a; discriminate|].
  destruct (f a) as [b| | |] eqn:E; try discriminate. cbn [obind] in H. destruct (omapM f l) as [bs| | |]; try discriminate. cbn [obind] in H. injection H as <-. destruct (IH bs eq_refl) as (L & N).
  split; [cbn; now rewrite L|]. intros [|i] x X; cbn in X; [injection X as <-; exists b; split; [reflexivity|assumption]|]. exact (N i x X).
Qed.
Theorem C89_records c get_data get_record v rs : (forall n, In n (v_shape v) -> has_dim c n = true) -> records c get_data get_record v = Ok rs ->
  (has_unlimited c v = false -> exists data r, get_data (v_name v) = Ok data /\ rs = [r] /\ given_or_filled c v data r) /\
  (has_unlimited c v = true -> forall d, unlimited_dim c = Some d -> length rs = N.to_nat (d_len d) /\
     forall i, i < N.to_nat (d_len d) -> exists data r, get_record (v_name v) (N.of_nat i) = Ok data /\ nth_error rs i = Some r /\ given_or_filled c v data r).
Proof.
  intros Hd H. unfold records in H. rewrite fixed_size_lens in H by exact Hd. cbn [obind] in H. destruct (has_unlimited c v) eqn:U; split; intro K; try discriminate.
  - intros d D. rewrite D in H. apply omapM_nth in H as (L & N). rewrite seq_length in L. split; [exact L|]. intros i Hi.
    destruct (N i i) as (r & R1 & R2). { rewrite nth_error_nth' with (d := 0) by (now rewrite seq_length). now rewrite seq_nth. }
    destruct (get_record (v_name v) (N.of_nat i)) as [data| | |]; try discriminate. cbn [obind] in R2. exists data, r. split; [reflexivity|]. split; [exact R1|]. now apply filled_spec.
  - destruct (get_data (v_name v)) as [data| | |]; try discriminate. cbn [obind] in H. destruct (filled c v _ data) as [r| | |] eqn:F; try discriminate. cbn [obind] in H. injection H as <-.
    exists data, r. split; [reflexivity|]. split; [reflexivity|]. now apply filled_spec.
Qed.

Definition ex_nm : cdm := mkCdm [mkVar "v" DInt ["x"; "time"] "" None; mkVar "w" DInt ["x"] "" None] [mkDim "x" 3 false; mkDim "time" 2 true] [("v", [mkAttr "_FillValue" DInt [Some (z2q 7)] ""])].
(** Six values 10, 8, ..., 0 for a variable on two dimensions; an attribute with a separator. *)
Example C87_values_nonvacuous :
  omap (fun c => map v_data (vars c)) (values_one (fun _ _ => Throw) (fun s => Ok (Some (if String.eqb s "10" then z2q 10 else z2q (-2)))) ex_nm
    (mkXe (Some "v") None None None [] [] [mkVe "10" "-2" "" ""] [], mkVe "10" "-2" "" "")) =
    Ok [Some (map (fun z => Some (z2q z)) [10; 8; 6; 4; 2; 0]%Z); None] /\
  make_att (fun _ l => Ok ([], joined l "+")) (mkAe "a" None "int" "1;2" "" ";") = Ok (mkAttr "a" DInt [] "1+2").
Proof. split; vm_compute; reflexivity. Qed.
(** Two records, of which the second has no values; a variable without the unlimited dimension. *)
Example C89_records_nonvacuous :
  let get_record (_ : string) i := Ok (if (i =? 0)%N then [Some (z2q 1); Some (z2q 2); Some (z2q 3)] else []) in
  records ex_nm (fun _ => Ok [Some (z2q 5)]) get_record (mkVar "v" DInt ["x"; "time"] "" None) =
    Ok [[Some (z2q 1); Some (z2q 2); Some (z2q 3)]; [Some (z2q 7); Some (z2q 7); Some (z2q 7)]] /\
  records ex_nm (fun _ => Ok [Some (z2q 5)]) get_record (mkVar "w" DInt ["x"] "" None) = Ok [[Some (z2q 5)]].
Proof. split; vm_compute; reflexivity. Qed.

Print Assumptions C87_progression.
Print Assumptions C87_values.
Print Assumptions C87_separator.
Print Assumptions C89_records.
