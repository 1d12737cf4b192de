(** Properties C04 and C55. *)
From Coq Require Import NArith ZArith String List Bool Lia Arith.
From Verif Require Import Base StdMap IndexSpec SliceModel SliceProofs ReaderModel ReaderProofs.
Import ListNotations.
Local Open Scope nat_scope.

(** ** C04: reading in pieces equals reading the whole variable *)

(** [records u] is what the concrete reader returns for record [u].  The complete variable
    ([whole]) is the concatenation of the records, a missing record standing for fill values.
    Every in-range slice request returns exactly that box of the complete variable. *)
Theorem C04_slice_of_records :
  forall (A : Type) (records : nat -> list A) (fill : A) (ns : list string) (unl : string)
         (start size max : list nat) (us un U : nat),
    ~ In unl ns -> length ns = length max ->
    fits max start size ->
    (forall k d, nth_error max k = Some d -> (N.of_nat d < M64)%N) ->
    (N.of_nat (cells size * un) + N.of_nat (cells max) < M64)%N ->
    (N.of_nat (us + un) < M64)%N ->
    (forall k, k < us + un -> records k = [] \/ length (records k) = cells max) ->
    us + un <= U ->
    let logical u := match records u with [] => repeat fill (cells max) | r => r end in
    let whole := concat (map logical (seq 0 (us + un))) in
    exists out,
      get_data_slice_unlim (fun u => Ok (records (N.to_nat u))) fill unl (ns ++ [unl])
        (map N.of_nat (start ++ [us])) (map N.of_nat (size ++ [un])) (map N.of_nat (max ++ [U])) = Ok out /\
      length out = cells (size ++ [un]) /\
      forall idx, inside (size ++ [un]) idx ->
        nth_error out (lin (size ++ [un]) idx)
        = nth_error whole (lin (max ++ [U]) (shift (start ++ [us]) idx)).
Proof. intros. eapply read_slice_ok; eauto. Qed.

Theorem C04_wrong_record_length_throws :
  forall (A : Type) (records : nat -> list A) (fill : A) (ns : list string) (unl : string)
         (start size max : list nat) (us un U bad : nat),
    ~ In unl ns -> length ns = length max ->
    fits max start size ->
    (forall k d, nth_error max k = Some d -> (N.of_nat d < M64)%N) ->
    (N.of_nat (cells size * un) + N.of_nat (cells max) < M64)%N ->
    (N.of_nat (us + un) < M64)%N ->
    us <= bad < us + un -> records bad <> [] -> length (records bad) <> cells max ->
    (N.of_nat (length (records bad)) < M64)%N ->
    (forall k, k < bad -> records k = [] \/ length (records k) = cells max) ->
    get_data_slice_unlim (fun u => Ok (records (N.to_nat u))) fill unl (ns ++ [unl])
      (map N.of_nat (start ++ [us])) (map N.of_nat (size ++ [un])) (map N.of_nat (max ++ [U])) = Throw.
Proof.
  intros. eapply read_slice_wrong_length with (bad := bad); eauto. lia.
Qed.

(** Reading the whole variable is reading the records one after the other. *)
Theorem C04_get_data_is_all_records :
  forall (A : Type) (records : nat -> list A) (zero : A) (n c : nat),
    (forall k, k < n -> length (records k) = c) ->
    (N.of_nat (c * n) + N.of_nat c < M64)%N ->
    get_data_unlim (fun u => Ok (records (N.to_nat u))) zero (N.of_nat n) (N.of_nat c)
    = Ok (concat (map records (seq 0 n))).
Proof. exact @get_data_ok. Qed.

(** The request for everything agrees with getData when no record is missing. *)
Theorem C04_full_request_is_get_data :
  forall (A : Type) (records : nat -> list A) (fill zero : A) (ns : list string) (unl : string)
         (max : list nat) (n : nat),
    ~ In unl ns -> length ns = length max ->
    (forall k d, nth_error max k = Some d -> (N.of_nat d < M64)%N) ->
    (N.of_nat (cells max * n) + N.of_nat (cells max) < M64)%N ->
    (N.of_nat n < M64)%N ->
    (forall k, k < n -> length (records k) = cells max) ->
    get_data_slice_unlim (fun u => Ok (records (N.to_nat u))) fill unl (ns ++ [unl])
      (map N.of_nat (map (fun _ => 0) max ++ [0])) (map N.of_nat (max ++ [n])) (map N.of_nat (max ++ [n]))
    = get_data_unlim (fun u => Ok (records (N.to_nat u))) zero (N.of_nat n) (N.of_nat (cells max)).
Proof.
  intros A records fill zero ns unl max n Hns Hlen Hmax Htot Hn Hrec.
  fold (record_fn records). rewrite (get_data_ok records zero n (cells max) Hrec Htot).
  assert (fits max (map (fun _ => 0) max) max) as Hfit.
  { split; [rewrite map_length; auto|]. split; auto.
    intros k d s z H1 H2 H3. rewrite nth_error_map, H1 in H2. cbn in H2. assert (d = z) by congruence.
    injection H2 as <-. lia. }
  destruct (read_slice_ok records fill ns unl (map (fun _ => 0) max) max max 0 n n
              Hns Hlen Hfit Hmax Htot Hn) as (out & E & Lo & Ho); auto.
  rewrite E. f_equal.
  assert (whole records fill max (0 + n) = concat (map records (seq 0 n))) as EW.
  { unfold whole. f_equal. apply map_ext_in. intros k Hk. apply in_seq in Hk. unfold logical.
    specialize (Hrec k ltac:(lia)). destruct (records k) eqn:ER; auto.
    cbn in Hrec. rewrite <- Hrec. reflexivity. }
  rewrite EW in Ho.
  apply nth_error_ext. intro i.
  destruct (Nat.lt_ge_cases i (cells (max ++ [n]))) as [Hi|Hi].
  - rewrite <- (lin_unlin (max ++ [n]) i Hi) at 1. rewrite Ho by (apply unlin_inside; auto).
    replace (shift _ _) with (unlin (max ++ [n]) i); [rewrite lin_unlin by auto; auto|].
    assert (forall l k, shift (map (fun _ => 0) l ++ [0]) (unlin (l ++ [n]) k) = unlin (l ++ [n]) k) as HS.
    { clear. induction l as [|a l IH]; intro k; cbn; auto. f_equal. apply IH. }
    auto.
  - rewrite !nth_error_None_ge; auto; [|lia].
    rewrite (length_concat_blocks (cells max)).
    + rewrite map_length, seq_length. rewrite cells_app in Hi. cbn in Hi. lia.
    + apply Forall_forall. intros b Hb. apply in_map_iff in Hb as (k & <- & Hk). apply in_seq in Hk.
      apply Hrec. lia.
Qed.

(** Finding: with a missing record the two disagree (0 instead of the fill value 99). *)
Theorem C04_full_request_is_get_data_refuted :
  exists (records : nat -> list nat) (fill zero : nat) max n,
    (forall k, k < n -> records k = [] \/ length (records k) = cells max) /\
    get_data_slice_unlim (fun u => Ok (records (N.to_nat u))) fill "time" ["x"; "time"]%string
      (map N.of_nat (map (fun _ => 0) max ++ [0])) (map N.of_nat (max ++ [n])) (map N.of_nat (max ++ [n]))
    = Ok [1; 2; 99; 99; 5; 6] /\
    get_data_unlim (fun u => Ok (records (N.to_nat u))) zero (N.of_nat n) (N.of_nat (cells max))
    = Ok [1; 2; 0; 0; 5; 6].
Proof.
  exists (fun k => match k with 0 => [1;2] | 2 => [5;6] | _ => [] end), 99, 0, [2], 3.
  repeat split; try (vm_compute; reflexivity).
  intros [|[|[|k]]] H; try lia; cbn; auto.
Qed.

(** Finding: getData does not notice records of the wrong length. *)
Theorem C04_get_data_wrong_length_accepted_refuted :
  exists (records : nat -> list nat),
    length (records 1) <> 2 /\
    get_data_unlim (fun u => Ok (records (N.to_nat u))) 0 2 2 = Ok [1; 2; 3; 4].
Proof.
  exists (fun k => match k with 0 => [1;2] | _ => [3;4;5] end). split; [cbn; lia|vm_compute; reflexivity].
Qed.

(** Data held in memory: record [i] is block [i]. *)
Theorem C04_slice_from_memory :
  forall (A : Type) (records : list (list A)) (c i : nat) (b : list A),
    Forall (fun r => length r = c) records -> nth_error records i = Some b -> 0 < c ->
    (N.of_nat (c * length records) + N.of_nat c < M64)%N ->
    slice_from_memory (concat records) (N.of_nat c) (N.of_nat i) = Ok b.
Proof. exact @slice_from_memory_ok. Qed.

(** Finding: the record just behind the last one is not rejected; its cells are never set. *)
Theorem C04_slice_from_memory_past_end_refuted :
  forall (A : Type) (records : list (list A)) (c : nat),
    Forall (fun r => length r = c) records -> 0 < c -> 0 < length records ->
    (N.of_nat (c * length records) + N.of_nat c < M64)%N ->
    slice_from_memory (concat records) (N.of_nat c) (N.of_nat (length records)) = UB.
Proof.
  intros A records c HF Hc Hr H. unfold slice_from_memory.
  pose proof (length_concat_blocks c records HF) as L.
  destruct (concat records) as [|x l] eqn:EC; [cbn in L; nia|]. rewrite <- EC in *.
  rewrite mul64_small by nia.
  replace (N.of_nat (length records) * N.of_nat c)%N with (N.of_nat (length (concat records))) by lia.
  apply create_data_slice_past; lia.
Qed.

(** A 3x2 variable with 3 records, the second missing; columns 1..2 of row 1 for records 1..2 *)
Example C04_nonvacuous :
  get_data_slice_unlim
    (fun u => Ok (match N.to_nat u with 0 => [1;2;3;4;5;6] | 2 => [21;22;23;24;25;26] | _ => [] end))
    99 "time" ["x"; "y"; "time"]%string [1; 1; 1]%N [2; 1; 2]%N [3; 2; 3]%N
  = Ok [99; 99; 25; 26] /\ fits [3;2] [1;1] [2;1].
Proof.
  split; [vm_compute; reflexivity|].
  rewrite !fits_cons. repeat split; auto; try lia. intros [|k] ? ? ? H; discriminate.
Qed.
Example C04_nonvacuous_memory :
  slice_from_memory [1;2;3;4;5;6] 2 1 = Ok [3;4] /\ slice_from_memory [1;2;3;4;5;6] 2 3 = UB.
Proof. split; vm_compute; reflexivity. Qed.

Print Assumptions C04_slice_of_records.
Print Assumptions C04_wrong_record_length_throws.
Print Assumptions C04_get_data_is_all_records.
Print Assumptions C04_full_request_is_get_data.
Print Assumptions C04_full_request_is_get_data_refuted.
Print Assumptions C04_get_data_wrong_length_accepted_refuted.
Print Assumptions C04_slice_from_memory.
Print Assumptions C04_slice_from_memory_past_end_refuted.

(** ** C55: index arithmetic *)

(** Every in-range tuple has a position below the size ... *)
Theorem C55_position_in_range :
  forall dims idx,
    (N.of_nat (cells dims) < M64)%N -> inside dims idx ->
    exists p, di_getPos (map N.of_nat dims) (map N.of_nat idx) = Ok (N.of_nat p) /\ p < cells dims.
Proof. intros. eexists. split; [apply di_getPos_ok; auto|apply lin_lt; auto]. Qed.

(** ... different tuples have different positions ... *)
Theorem C55_position_injective :
  forall dims i1 i2,
    (N.of_nat (cells dims) < M64)%N -> inside dims i1 -> inside dims i2 ->
    di_getPos (map N.of_nat dims) (map N.of_nat i1) = di_getPos (map N.of_nat dims) (map N.of_nat i2) ->
    i1 = i2.
Proof.
  intros dims i1 i2 H H1 H2 E. rewrite !di_getPos_ok in E by auto.
  apply (lin_inj dims); auto. injection E as E. lia.
Qed.

(** ... and every position below the size is the position of a tuple. *)
Theorem C55_position_surjective :
  forall dims p,
    (N.of_nat (cells dims) < M64)%N -> p < cells dims ->
    exists idx, inside dims idx /\
      di_getPos (map N.of_nat dims) (map N.of_nat idx) = Ok (N.of_nat p).
Proof.
  intros dims p H Hp. exists (unlin dims p). pose proof (unlin_inside dims p Hp).
  split; auto. rewrite di_getPos_ok, lin_unlin; auto.
Qed.

(** The first dimension runs fastest. *)
Theorem C55_first_dimension_fastest :
  forall d ds i is,
    (N.of_nat (cells (d :: ds)) < M64)%N -> inside (d :: ds) (S i :: is) ->
    exists p, di_getPos (map N.of_nat (d :: ds)) (map N.of_nat (i :: is)) = Ok p /\
              di_getPos (map N.of_nat (d :: ds)) (map N.of_nat (S i :: is)) = Ok (p + 1)%N.
Proof.
  intros d ds i is H Hin.
  assert (inside (d :: ds) (i :: is)) as Hin'.
  { inversion Hin; subst. constructor; auto. lia. }
  eexists. split; [apply di_getPos_ok; auto|]. rewrite di_getPos_ok by auto.
  f_equal. cbn [lin]. lia.
Qed.

(** Missing trailing positions count as 0. *)
Theorem C55_missing_positions_are_zero :
  forall dims idx,
    (N.of_nat (cells dims) < M64)%N ->
    let full := idx ++ repeat 0 (length dims - length idx) in
    inside dims full ->
    di_getPos (map N.of_nat dims) (map N.of_nat idx) = di_getPos (map N.of_nat dims) (map N.of_nat full).
Proof.
  intros dims idx H full Hin. rewrite di_getPos_prefix by auto. rewrite di_getPos_ok by auto. reflexivity.
Qed.

Theorem C55_positions_beyond_rank :
  (forall dims idx extra,
    (N.of_nat (cells dims) < M64)%N -> inside dims idx -> length dims + length extra <= 10 ->
    di_getPos (map N.of_nat dims) (map N.of_nat idx ++ extra)
    = di_getPos (map N.of_nat dims) (map N.of_nat idx)) /\
  (forall dims pos, Nat.max (length dims) 10 < length pos -> di_getPos dims pos = Throw).
Proof.
  split.
  - intros. rewrite di_getPos_extra, di_getPos_ok by auto. reflexivity.
  - exact di_too_many.
Qed.

(** The overloads with 1 to 4 numbers agree with the general one (arguments are size_t). *)
Theorem C55_overloads_agree :
  forall dims a b c d, 0 < length dims -> (a < M64)%N ->
    di_getPos dims [a] = di_getPos1 dims a /\
    di_getPos dims [a; b] = di_getPos2 dims a b /\
    di_getPos dims [a; b; c] = di_getPos3 dims a b c /\
    di_getPos dims [a; b; c; d] = di_getPos4 dims a b c d.
Proof.
  intros dims a b c d H Ha. rewrite <- (w64_small a Ha) at 2 4 6 8.
  repeat split; [apply di_getPos1_eq|apply di_getPos2_eq|apply di_getPos3_eq|apply di_getPos4_eq]; auto.
Qed.

(** Finding: for rank 0 they do not. *)
Theorem C55_overloads_rank0_refuted : di_getPos [] [5%N] = Ok 0%N /\ di_getPos1 [] 5 = Ok 5%N.
Proof. split; vm_compute; reflexivity. Qed.

(** Indexed data can be built exactly if the shape has as many cells as the data has values
    (or there is no data, then the index has rank 0). *)
Theorem C55_indexed_data_shape :
  forall dims n,
    (N.of_nat (cells dims) < M64)%N -> (N.of_nat n < M64)%N ->
    (cells dims = n -> indexed_setDims (map N.of_nat dims) (N.of_nat n) = Ok (map N.of_nat dims)) /\
    (cells dims <> n -> n = 0 -> indexed_setDims (map N.of_nat dims) (N.of_nat n) = Ok []) /\
    (cells dims <> n -> n <> 0 -> indexed_setDims (map N.of_nat dims) (N.of_nat n) = Throw).
Proof.
  intros dims n H1 H2. unfold indexed_setDims. rewrite product64_spec, w64_small by auto.
  destruct (N.eqb_spec (N.of_nat (cells dims)) (N.of_nat n)) as [E|E].
  - split; [auto|]. split; intros; lia.
  - split; [intro; lia|].
    destruct (N.eqb_spec (N.of_nat n) 0) as [E0|E0]; split; intros; auto; lia.
Qed.

Example C55_nonvacuous :
  di_getPos [4;3;2]%N [1;2;1]%N = Ok 21%N /\ inside [4;3;2] [1;2;1] /\ cells [4;3;2] = 24 /\
  indexed_setDims [4;3;2]%N 24 = Ok [4;3;2]%N /\ indexed_setDims [4;3;2]%N 23 = Throw.
Proof. repeat split; try (vm_compute; reflexivity). repeat constructor. Qed.

Print Assumptions C55_position_in_range.
Print Assumptions C55_position_injective.
Print Assumptions C55_position_surjective.
Print Assumptions C55_first_dimension_fastest.
Print Assumptions C55_missing_positions_are_zero.
Print Assumptions C55_positions_beyond_rank.
Print Assumptions C55_overloads_agree.
Print Assumptions C55_overloads_rank0_refuted.
Print Assumptions C55_indexed_data_shape.
