(** C83, C84, C85: types that a format does not have, errors while writing, configured compression and chunks. *)
From Coq Require Import PeanoNat NArith ZArith QArith Qcanon String List Bool Lia.
From Verif Require Import Base StdMap SliceModel RegridModel ConvertModel CdmModel CdmProofs NcModel NcwModel NcwProps NcdProps.
Import ListNotations.
Local Open Scope string_scope.
Local Open Scope list_scope.
Local Open Scope nat_scope.

(** A file that is not netCDF-4 has only the six classic types: if the metadata is defined, every variable has one of
    them.  No variable has an unknown type. *)
Theorem C83_classic f w m : define f w = Ok m -> forall v, In v (vars (w_cdm w)) ->
  cdm2nc (var_type w v) <> NcNat /\ (f <> Nc4 -> In (cdm2nc (var_type w v)) [NcByte; NcChar; NcShort; NcInt; NcFloat; NcDouble]).
Proof.
  intros D v Hv. apply define_spec in D as (_ & _ & _ & _ & D & _ & _). apply In_nth_error in Hv as (i & Hi).
  assert (T : type_ok f (cdm2nc (var_type w v)) = true).
  { revert i Hi. induction D as [|a e l l' F _ IH]; intros [|i] Hi; try discriminate; cbn in Hi; [|now apply IH in Hi]. injection Hi as ->. destruct F as (_ & <- & _ & T & _). exact T. }
  destruct (cdm2nc (var_type w v)); cbn in T; (split; [congruence|]); intro F; try (cbn; tauto); destruct f; try discriminate; congruence.
Qed.

Lemma fold_sput {A} (l : list (string * A)) : forall m n, sfind n (fold_left (fun m p => sput (fst p) (snd p) m) l m) = match last_of l n with Some x => Some x | None => sfind n m end.
Proof.
  induction l as [|[a b] l IH]; intros m n; [reflexivity|]. cbn [fold_left fst snd]. rewrite IH, sfind_sput. unfold last_of. cbn [rev]. rewrite sfind_app. cbn [sfind].
  destruct (sfind n (rev l)); [reflexivity|]. now destruct (String.eqb n a).
Qed.
(** The level of compression of a variable: the last one configured for it, otherwise the default one; the length of a
    chunk for a dimension: the last one configured. *)
Theorem C85_configuration k c w : configure k c = Ok w ->
  (forall n, sfind n (w_chunks w) = last_of (k_chunks k) n) /\
  (forall v, In v (vars (w_cdm w)) -> sfind (v_name v) (w_levels w) = Some (match last_of (k_levels k) (v_name v) with Some x => x | None => k_level k end)).
Proof.
  intro H. destruct (C83_retyped _ _ _ H) as (_ & _ & RV). revert H. unfold configure, init_vars. intro H.
  match type of H with context [ofold ?g (k_vnames k) ?s0] => destruct (ofold g (k_vnames k) s0) as [vn| | |]; try discriminate end. cbn [obind] in H.
  match type of H with context [ofold ?g (k_vtypes k) ?s0] => destruct (ofold g (k_vtypes k) s0) as [ct| | |] eqn:T; try discriminate end. cbn [obind] in H.
  set (w0 := mkW _ vn _ _ _ _) in H. destruct (init_dims k w0) as [w2| | |] eqn:D; try discriminate. cbn [obind] in H. unfold init_atts in H.
  destruct (ofold edit_attr (k_atts k) (w_cdm w2)) as [c3| | |] eqn:A; try discriminate. cbn [obind] in H. injection H as <-. cbn [w_chunks w_levels].
  assert (DD : w_chunks w2 = w_chunks w0 /\ w_levels w2 = w_levels w0).
  { revert D. unfold init_dims. generalize (k_dnames k) w0. clear. induction l as [|p l IH]; intros w0 E; cbn [ofold] in E; [injection E as <-; auto|].
    destruct (has_dim (w_cdm w0) (fst p)); [|discriminate]. cbn [obind] in E. now apply IH in E. }
  destruct DD as (-> & ->). unfold w0. cbn [w_chunks w_levels]. split.
  - intro n. rewrite fold_sput. now destruct (last_of (k_chunks k) n).
  - intros v Hv. rewrite fold_sput. destruct (last_of (k_levels k) (v_name v)); [reflexivity|].
    assert (G : forall l m0 n, sfind n (fold_left (fun m v => sput (v_name v) (k_level k) m) l m0) = if existsb (fun v => String.eqb n (v_name v)) l then Some (k_level k) else sfind n m0).
    { induction l as [|x l IH]; intros m0 n; [reflexivity|]. cbn [fold_left existsb]. rewrite IH, sfind_sput. destruct (String.eqb n (v_name x)); cbn [orb]; [now destruct (existsb _ l)|reflexivity]. }
    rewrite G. replace (existsb _ (vars (init_remove k c))) with true; [reflexivity|]. symmetry. cbn [w_cdm] in *. rewrite RV in Hv. apply in_map_iff in Hv as (x & X1 & X2).
    apply existsb_exists. exists x. split; [exact X2|]. apply String.eqb_eq. rewrite <- X1. now destruct (last_of (k_vtypes k) (v_name x)).
Qed.

(** If the reader cannot deliver one of the values needed, writing throws. *)
Theorem C84_exception read uc old w m u vi v nv pos : unlim_id w m = Ok u -> In (pos, vi) (jobs w) ->
  nth_error (vars (w_cdm w)) vi = Some v -> nth_error (nm_vars m) vi = Some nv -> writes w v (unlim_idx u (nv_dims nv)) pos = true ->
  read (v_name v) pos = Throw -> forall s s', write_data read uc old w m s <> Ok s'.
Proof.
  intros U J V NV W R s s' H. unfold write_data, write_jobs in H. rewrite U in H. cbn [obind] in H.
  destruct (ofold (write_step read uc old w m u) (jobs w) (s, false)) as [[s1 ex]| | |] eqn:F; try discriminate. cbn [obind snd] in H. destruct ex; [discriminate|]. clear H s'.
  assert (K : forall l st s1, ofold (write_step read uc old w m u) l st = Ok (s1, false) -> snd st = false /\ ~ In (pos, vi) l).
  { clear - V NV W R. induction l as [|j l IH]; intros [s ex] s1 H; cbn [ofold] in H; [injection H as _ ->; split; [reflexivity|intros []]|].
    destruct (write_step read uc old w m u (s, ex) j) as [st'| | |] eqn:E; try discriminate. cbn [obind] in H. apply IH in H as (H1 & H2). cbn [snd].
    destruct ex; [unfold write_step in E; destruct j; injection E as <-; discriminate|]. split; [reflexivity|]. intros [->|I]; [|contradiction].
    unfold write_step in E. rewrite V, NV in E. destruct (omapM (dim_len_of m s) (nv_dims nv)) as [ls| | |]; try discriminate. cbn [obind] in E. cbn zeta in E. rewrite W in E. cbn [negb] in E.
    unfold job_data in E. rewrite R in E. cbn [obind] in E. injection E as <-. discriminate. }
  apply K in F as (_ & F). contradiction.
Qed.

(** A 64-bit integer in a classic file; two levels and chunks, one of them given twice; a reader that fails for the second record. *)
Example C85_configuration_nonvacuous :
  let c := mkCdm [mkVar "a" DInt64 ["t"] "" None; mkVar "b" DInt ["t"] "" None] [mkDim "t" 2 true] [] in
  exists w m, configure (mkConf [] [] [] [] true [] [] 4 [("b", 3%N); ("b", 7%N)] [("t", 5%N)] [] []) c = Ok w /\
    w_levels w = [("a", 4%N); ("b", 7%N)] /\ w_chunks w = [("t", 5%N)] /\ define Classic w = Throw /\ define Nc4 w = Ok m /\
    write_data (fun n p => match p with Some 1%N => Throw | _ => Ok None end) (fun _ _ => None) c w m new_file = Throw.
Proof. eexists. eexists. split; [vm_compute; reflexivity|]. split; [reflexivity|]. split; [reflexivity|]. split; [vm_compute; reflexivity|]. split; [vm_compute; reflexivity|lazy; reflexivity]. Qed.

Print Assumptions C83_classic.
Print Assumptions C85_configuration.
Print Assumptions C84_exception.
